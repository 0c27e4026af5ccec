(** * SPAKE2: the lengths hashed by [finish] do not depend on the secrets (C98). *)
From Coq Require Import NArith List Lia.
From Verif Require Import Base.Bytes Base.Outcome Base.Hex Base.Kat Base.Hashed Hash.Hash.
From Verif Require Import Base.Rng Base.Utf8 Base.Utf8Spec Spake2.Spake2Model Spake2.Ed25519Group Spake2.Spake2Generic Spake2.Spake2Proofs Spake2.Spake2Proofs2 Spake2.Spake2Debug Spake2.Spake2Props.
Import ListNotations.
Local Open Scope nat_scope.

Definition sha256_h (m : bytes) : hashed Error bytes := digesting sha256 m.
(** ed25519.rs:132-173 [hash_ab] *)
Definition hash_ab_h (password_vec id_a id_b first_msg second_msg key_bytes : bytes) : hashed Error bytes :=
  if negb (Nat.eqb (length first_msg) 32) then silent Panic else
  if negb (Nat.eqb (length second_msg) 32) then silent Panic else
  let? h0 := sha256_h password_vec in
  let? t0 := silent (copy32 h0) in
  let? h1 := sha256_h id_a in
  let? t1 := silent (copy32 h1) in
  let? h2 := sha256_h id_b in
  let? t2 := silent (copy32 h2) in
  let? t3 := silent (copy32 first_msg) in
  let? t4 := silent (copy32 second_msg) in
  let? t5 := silent (copy32 key_bytes) in
  sha256_h (t0 ++ t1 ++ t2 ++ t3 ++ t4 ++ t5).
(** ed25519.rs:176-219 [hash_symmetric] *)
Definition hash_symmetric_h (password_vec id_s msg_u msg_v key_bytes : bytes) : hashed Error bytes :=
  if negb (Nat.eqb (length msg_u) 32) then silent Panic else
  if negb (Nat.eqb (length msg_v) 32) then silent Panic else
  let? h0 := sha256_h password_vec in
  let? t0 := silent (copy32 h0) in
  let? h1 := sha256_h id_s in
  let? t1 := silent (copy32 h1) in
  let '(first_msg, second_msg) := if bytes_ltb msg_u msg_v then (msg_u, msg_v) else (msg_v, msg_u) in
  let? t2 := silent (copy32 first_msg) in
  let? t3 := silent (copy32 second_msg) in
  let? t4 := silent (copy32 key_bytes) in
  sha256_h (t0 ++ t1 ++ t2 ++ t3 ++ t4).

Section Lengths.
Context (G : Group).
(** lib.rs:373-443 [finish] *)
Definition finish_h (self : Spake2 G) (msg2 : bytes) : hashed Error bytes :=
  if negb (Nat.eqb (length msg2) (1 + element_length G)) then silent (Err WrongLength) else
  match msg2 with
  | [] => silent Panic
  | msg_side :: rest =>
    let expected := match side self with
                    | SideA _ _ => x42
                    | SideB _ _ => x41
                    | SideSymmetric _ => x53
                    end in
    if negb (byte_eqb msg_side expected) then silent (Err BadSide) else
    match bytes_to_element G rest with
    | None => silent (Err CorruptMessage)
    | Some msg2_element =>
      let? unblinding := silent (lift (match side self with
                               | SideA _ _ => const_n G
                               | SideB _ _ => const_m G
                               | SideSymmetric _ => const_s G
                               end)) in
      let tmp1 := scalarmult G unblinding (scalar_neg G (password_scalar self)) in
      let tmp2 := g_add G msg2_element tmp1 in
      let key_element := scalarmult G tmp2 (xy_scalar self) in
      let key_bytes := element_to_bytes G key_element in
      match side self with
      | SideA id_a id_b => hash_ab_h (password_vec self) id_a id_b (msg1 self) rest key_bytes
      | SideB id_a id_b => hash_ab_h (password_vec self) id_a id_b rest (msg1 self) key_bytes
      | SideSymmetric id_s => hash_symmetric_h (password_vec self) id_s (msg1 self) rest key_bytes
      end
    end
  end.

Lemma hash_ab_h_fst p a b f s k : fst (hash_ab_h p a b f s k) = hash_ab p a b f s k.
Proof.
  unfold hash_ab_h, hash_ab, sha256_h, digesting. destruct (negb (Nat.eqb (length f) 32)); [reflexivity|].
  destruct (negb (Nat.eqb (length s) 32)); [reflexivity|]. rewrite !hbind_fst. cbn [fst obind silent].
  rewrite hbind_fst. cbn [fst silent]. destruct (copy32 (sha256 p)); cbn [obind]; [|reflexivity|reflexivity].
  rewrite !hbind_fst. cbn [fst obind silent]. rewrite hbind_fst. cbn [fst silent].
  destruct (copy32 (sha256 a)); cbn [obind]; [|reflexivity|reflexivity].
  rewrite !hbind_fst. cbn [fst obind silent]. rewrite hbind_fst. cbn [fst silent].
  destruct (copy32 (sha256 b)); cbn [obind]; [|reflexivity|reflexivity].
  rewrite !hbind_fst. cbn [fst obind silent]. destruct (copy32 f); cbn [obind]; [|reflexivity|reflexivity].
  rewrite !hbind_fst. cbn [fst obind silent]. destruct (copy32 s); cbn [obind]; [|reflexivity|reflexivity].
  rewrite !hbind_fst. cbn [fst obind silent]. destruct (copy32 k); reflexivity.
Qed.
Lemma hash_symmetric_h_fst p i u v k : fst (hash_symmetric_h p i u v k) = hash_symmetric p i u v k.
Proof.
  unfold hash_symmetric_h, hash_symmetric, sha256_h, digesting. destruct (negb (Nat.eqb (length u) 32)); [reflexivity|].
  destruct (negb (Nat.eqb (length v) 32)); [reflexivity|]. rewrite !hbind_fst. cbn [fst obind silent].
  rewrite hbind_fst. cbn [fst silent]. destruct (copy32 (sha256 p)); cbn [obind]; [|reflexivity|reflexivity].
  rewrite !hbind_fst. cbn [fst obind silent]. rewrite hbind_fst. cbn [fst silent].
  destruct (copy32 (sha256 i)); cbn [obind]; [|reflexivity|reflexivity].
  destruct (bytes_ltb u v).
  - rewrite !hbind_fst. cbn [fst obind silent]. destruct (copy32 u); cbn [obind]; [|reflexivity|reflexivity].
    rewrite !hbind_fst. cbn [fst obind silent]. destruct (copy32 v); cbn [obind]; [|reflexivity|reflexivity].
    rewrite !hbind_fst. cbn [fst obind silent]. destruct (copy32 k); reflexivity.
  - rewrite !hbind_fst. cbn [fst obind silent]. destruct (copy32 v); cbn [obind]; [|reflexivity|reflexivity].
    rewrite !hbind_fst. cbn [fst obind silent]. destruct (copy32 u); cbn [obind]; [|reflexivity|reflexivity].
    rewrite !hbind_fst. cbn [fst obind silent]. destruct (copy32 k); reflexivity.
Qed.

(** C98: [finish] with the lengths returns what [finish] returns. *)
Theorem C98_spake2_results : forall self msg2, fst (finish_h self msg2) = finish G self msg2.
Proof.
  intros self msg2. unfold finish_h, finish. destruct (negb _); [reflexivity|]. destruct msg2 as [|c rest]; [reflexivity|].
  cbv zeta. destruct (negb _); [reflexivity|]. destruct (bytes_to_element G rest) as [e|]; [|reflexivity].
  rewrite hbind_fst. cbn [silent fst]. destruct (lift _) as [u|x|]; cbn [obind]; [|reflexivity|reflexivity].
  destruct (side self); [apply hash_ab_h_fst|apply hash_ab_h_fst|apply hash_symmetric_h_fst].
Qed.

Lemma copy32_inv s t : copy32 s = Ok t -> t = s /\ length s = 32.
Proof. unfold copy32. destruct (Nat.eqb_spec (length s) 32); [|discriminate]. intros E. injection E as <-. auto. Qed.

Lemma hash_ab_h_lengths p a b f s k r : fst (hash_ab_h p a b f s k) = Ok r ->
  snd (hash_ab_h p a b f s k) = [length p; length a; length b; 192].
Proof.
  unfold hash_ab_h, sha256_h, digesting. destruct (negb (Nat.eqb (length f) 32)); [discriminate|].
  destruct (negb (Nat.eqb (length s) 32)); [discriminate|].
  generalize (sha256 p) (sha256 a) (sha256 b). intros hp ha hb. cbn [hbind silent].
  destruct (copy32 hp) as [t0|?|] eqn:E0; cbn [hbind]; try discriminate.
  destruct (copy32 ha) as [t1|?|] eqn:E1; cbn [hbind]; try discriminate.
  destruct (copy32 hb) as [t2|?|] eqn:E2; cbn [hbind]; try discriminate.
  destruct (copy32 f) as [t3|?|] eqn:E3; cbn [hbind]; try discriminate.
  destruct (copy32 s) as [t4|?|] eqn:E4; cbn [hbind]; try discriminate.
  destruct (copy32 k) as [t5|?|] eqn:E5; cbn [hbind]; try discriminate.
  intros _. cbn [snd app].
  apply copy32_inv in E0, E1, E2, E3, E4, E5.
  destruct E0 as [-> L0], E1 as [-> L1], E2 as [-> L2], E3 as [-> L3], E4 as [-> L4], E5 as [-> L5].
  rewrite !app_length. repeat (f_equal; try lia).
Qed.
Lemma hash_symmetric_h_lengths p i u v k r : fst (hash_symmetric_h p i u v k) = Ok r ->
  snd (hash_symmetric_h p i u v k) = [length p; length i; 160].
Proof.
  unfold hash_symmetric_h, sha256_h, digesting. destruct (negb (Nat.eqb (length u) 32)); [discriminate|].
  destruct (negb (Nat.eqb (length v) 32)); [discriminate|].
  generalize (sha256 p) (sha256 i). intros hp hi. cbn [hbind silent].
  destruct (copy32 hp) as [t0|?|] eqn:E0; cbn [hbind]; try discriminate.
  destruct (copy32 hi) as [t1|?|] eqn:E1; cbn [hbind]; try discriminate.
  destruct (bytes_ltb u v).
  1: destruct (copy32 u) as [t3|?|] eqn:E3; cbn [hbind]; try discriminate;
     destruct (copy32 v) as [t4|?|] eqn:E4; cbn [hbind]; try discriminate.
  2: destruct (copy32 v) as [t3|?|] eqn:E3; cbn [hbind]; try discriminate;
     destruct (copy32 u) as [t4|?|] eqn:E4; cbn [hbind]; try discriminate.
  all: destruct (copy32 k) as [t5|?|] eqn:E5; cbn [hbind]; try discriminate;
    intros _; cbn [snd app]; apply copy32_inv in E0, E1, E3, E4, E5;
    destruct E0 as [-> L0], E1 as [-> L1], E3 as [-> L3], E4 as [-> L4], E5 as [-> L5];
    rewrite !app_length; repeat (f_equal; try lia).
Qed.

(** C98: a [finish] that returns a key has hashed the password, the identities and a transcript of 192 (with two sides) or
    160 (symmetric) bytes: whatever the scalar, the message received and the key element are. *)
Theorem C98_spake2_lengths :
  forall self msg2 key, finish G self msg2 = Ok key ->
  snd (finish_h self msg2) =
    match side self with
    | SideA a b | SideB a b => [length (password_vec self); length a; length b; 192]
    | SideSymmetric i => [length (password_vec self); length i; 160]
    end.
Proof.
  intros self msg2 key H. rewrite <- C98_spake2_results in H. unfold finish_h in *.
  destruct (negb _); [discriminate H|]. destruct msg2 as [|c rest]; [discriminate H|].
  cbv zeta in *. destruct (negb _); [discriminate H|]. destruct (bytes_to_element G rest) as [e|]; [|discriminate H].
  destruct (lift _) as [u|x|]; [|discriminate H|discriminate H]. rewrite hbind_silent in *.
  destruct (side self) as [a b|a b|i].
  - eapply hash_ab_h_lengths, H.
  - eapply hash_ab_h_lengths, H.
  - eapply hash_symmetric_h_lengths, H.
Qed.

(** C98: and one that refuses a message has hashed nothing. *)
Theorem C98_spake2_refusal :
  forall self msg2 e, finish G self msg2 = Err e -> snd (finish_h self msg2) = [].
Proof.
  intros self msg2 x H. rewrite <- C98_spake2_results in H. unfold finish_h in *.
  destruct (negb _); [reflexivity|]. destruct msg2 as [|c rest]; [reflexivity|].
  cbv zeta in *. destruct (negb _); [reflexivity|]. destruct (bytes_to_element G rest) as [e|]; [|reflexivity].
  destruct (lift _) as [u|y|]; [|reflexivity|reflexivity]. rewrite hbind_silent in *. exfalso.
  assert (AB : forall p a b f s k, hash_ab p a b f s k <> Err x).
  { intros p a b f s k. unfold hash_ab, copy32. repeat (destruct (negb _); [discriminate|]).
    generalize (sha256 p) (sha256 a) (sha256 b). intros hp ha hb.
    repeat (destruct (Nat.eqb _ _); cbn [obind]; try discriminate). }
  assert (SY : forall p i f s k, hash_symmetric p i f s k <> Err x).
  { intros p i f s k. unfold hash_symmetric, copy32. repeat (destruct (negb _); [discriminate|]).
    generalize (sha256 p) (sha256 i). intros hp hi.
    destruct (bytes_ltb f s); repeat (destruct (Nat.eqb _ _); cbn [obind]; try discriminate). }
  destruct (side self) as [a b|a b|i].
  - rewrite hash_ab_h_fst in H. now apply AB in H.
  - rewrite hash_ab_h_fst in H. now apply AB in H.
  - rewrite hash_symmetric_h_fst in H. now apply SY in H.
Qed.
End Lengths.

(** Case: an honest pair on Ed25519 meets the hypothesis, whatever the generators' states. *)
Example C98_spake2_case :
  forall (T T' : Rng) (st : rng_state T) (st' : rng_state T'),
  exists sa mb, start_a_with_rng Ed25519Group T (str "password") (str "idA") (str "idB") st = Ok (sa, fst mb) /\
    (exists key, finish Ed25519Group sa (snd mb) = Ok key) /\
    snd (finish_h Ed25519Group sa (snd mb)) = [8; 3; 3; 192].
Proof.
  intros T T' st st'.
  destruct (C15_agreement_ab T T' st st' (str "password") (str "idA") (str "idB")) as (sa & sb & ma & mb & key & HA & _ & HF & _).
  exists sa, (ma, mb). cbn [fst snd]. split; [exact HA|]. split; [now exists key|].
  rewrite (C98_spake2_lengths Ed25519Group sa mb key HF).
  rewrite start_a_rng_eq, start_ok in HA. injection HA as <- _. reflexivity.
Qed.

(** ** C26: how an identity that is no text is printed *)

(** A hexadecimal number in lower case, without a leading zero. *)
Definition hex_digits : bytes := str "0123456789abcdef".
Definition is_hex (n : nat) (t : bytes) : Prop :=
  match t with
  | [d] => nth_error hex_digits n = Some d
  | [d; e] => exists i j, n = 16 * i + j /\ 0 < i /\ nth_error hex_digits i = Some d /\ nth_error hex_digits j = Some e
  | _ => False
  end.
Lemma lower_hex_is_hex b : is_hex (N.to_nat (b2n b)) (lower_hex b).
Proof.
  destruct (N.ltb_spec (b2n b) 16) as [H|H].
  - unfold lower_hex. rewrite (proj2 (N.ltb_lt _ _) H). unfold is_hex.
    assert (forallb (fun n => match nth_error hex_digits n with Some d => byte_eqb d (hex_digit (N.of_nat n)) | None => false end) (seq 0 16) = true)
      as F by reflexivity.
    rewrite forallb_forall in F. specialize (F (N.to_nat (b2n b))). rewrite in_seq, N2Nat.id in F.
    specialize (F ltac:(lia)). destruct (nth_error hex_digits (N.to_nat (b2n b))); [|discriminate F].
    apply byte_eqb_eq in F. now subst.
  - rewrite lower_hex_2 by exact H. unfold is_hex.
    assert (F : forall n, (n < 16)%N -> nth_error hex_digits (N.to_nat n) = Some (hex_digit n)).
    { intros n Hn.
      assert (forallb (fun n => match nth_error hex_digits n with Some d => byte_eqb d (hex_digit (N.of_nat n)) | None => false end) (seq 0 16) = true)
        as F by reflexivity.
      rewrite forallb_forall in F. specialize (F (N.to_nat n)). rewrite in_seq, N2Nat.id in F.
      specialize (F ltac:(lia)). destruct (nth_error hex_digits (N.to_nat n)); [|discriminate F].
      apply byte_eqb_eq in F. now subst. }
    pose proof (b2n_lt b) as Hb. pose proof (N.div_mod (b2n b) 16 ltac:(discriminate)) as E.
    pose proof (N.mod_lt (b2n b) 16 ltac:(discriminate)) as Hm.
    assert (Hd : (b2n b / 16 < 16)%N) by (apply N.div_lt_upper_bound; [discriminate|lia]).
    assert (H1 : (1 <= b2n b / 16)%N) by (apply N.div_le_lower_bound; [discriminate|lia]).
    exists (N.to_nat (b2n b / 16)), (N.to_nat (b2n b mod 16)).
    split; [lia|]. split; [lia|]. split; apply F; assumption.
Qed.

(** C26: an identity that is not the encoding of a text is printed as [(hex=...)] with the hexadecimal numbers of its
    bytes one after another. *)
Theorem C26_hex_printed :
  forall b, (~ exists cs, Forall scalar_value cs /\ b = utf8_text cs) ->
  exists ts, maybe_utf8 b = str "(hex=" ++ concat ts ++ str ")" /\ Forall2 (fun c t => is_hex (N.to_nat (b2n c)) t) b ts.
Proof.
  intros b H. rewrite <- utf8_valid_iff in H. exists (map lower_hex b). split.
  - unfold maybe_utf8. now destruct (utf8_valid b).
  - clear H. induction b as [|c b IH]; constructor; [apply lower_hex_is_hex|exact IH].
Qed.
Example C26_hex_case : (~ exists cs, Forall scalar_value cs /\ hex "ff0111" = utf8_text cs) /\ is_hex 255 (str "ff") /\ is_hex 1 (str "1") /\ ~ is_hex 1 (str "01").
Proof.
  split; [rewrite <- utf8_valid_iff; discriminate|]. split; [exists 15, 15; repeat split; lia|]. split; [reflexivity|].
  intros (i & j & E & Hi & _). lia.
Qed.
