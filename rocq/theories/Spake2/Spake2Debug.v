(** * Debug output (C25, C26). *)
From Coq Require Import Lia.
From Verif Require Import Base.Bytes Base.Outcome Base.Rng Base.Utf8 Base.Hex Base.CtEq.
From Verif Require Import Spake2.Spake2Model Spake2.Ed25519Group.
Local Open Scope nat_scope.

(** The rendering is a function of the side alone. *)
Lemma debug_side_only G alt (s s' : Spake2 G) :
  side s = side s' -> debug_spake2 G alt s = debug_spake2 G alt s'.
Proof. unfold debug_spake2. now intros ->. Qed.

Lemma start_side G sd pw x s msg : start_internal G sd pw x = Ok (s, msg) -> side s = sd.
Proof.
  unfold start_internal. intros H.
  apply obind_ok in H. destruct H as (h & _ & H).
  apply obind_ok in H. destruct H as (b & _ & H). injection H as <- _. reflexivity.
Qed.

Lemma debug_hides_secrets G alt sd pw x s msg pw' x' s' msg' :
  start_internal G sd pw x = Ok (s, msg) -> start_internal G sd pw' x' = Ok (s', msg') ->
  debug_spake2 G alt s = debug_spake2 G alt s'.
Proof.
  intros H H'. apply start_side in H, H'. apply debug_side_only. congruence.
Qed.

(** The plain ({:?}) text, for identities that are valid UTF-8. *)
Lemma debug_side_text_a a b :
  utf8_valid a = true -> utf8_valid b = true ->
  debug_side false (SideA a b) =
  str "Side::A { idA: (s=" ++ a ++ str "), idB: (s=" ++ b ++ str ") }".
Proof.
  intros Ha Hb. unfold debug_side, maybe_utf8. rewrite Ha, Hb.
  unfold debug_struct2, debug_field, debug_finish. rewrite <- !app_assoc. reflexivity.
Qed.
Lemma debug_side_text_b a b :
  utf8_valid a = true -> utf8_valid b = true ->
  debug_side false (SideB a b) =
  str "Side::B { idA: (s=" ++ a ++ str "), idB: (s=" ++ b ++ str ") }".
Proof.
  intros Ha Hb. unfold debug_side, maybe_utf8. rewrite Ha, Hb.
  unfold debug_struct2, debug_field, debug_finish. rewrite <- !app_assoc. reflexivity.
Qed.
Lemma debug_side_text_s i :
  utf8_valid i = true ->
  debug_side false (SideSymmetric i) = str "Side::Symmetric { idS: (s=" ++ i ++ str ") }".
Proof.
  intros Ha. unfold debug_side, maybe_utf8. rewrite Ha.
  unfold debug_struct1, debug_field, debug_finish. rewrite <- !app_assoc. reflexivity.
Qed.

Lemma ed_debug_name : debug_name Ed25519Group = str """Ed25519""".
Proof. reflexivity. Qed.

Lemma debug_spake2_text sd pw x s msg :
  start_internal Ed25519Group sd pw x = Ok (s, msg) ->
  debug_spake2 Ed25519Group false s =
  str "SPAKE2 { group: ""Ed25519"", side: " ++ debug_side false sd ++ str " }".
Proof.
  intros H. apply start_side in H. unfold debug_spake2. rewrite H, ed_debug_name.
  generalize (debug_side false sd). intros t.
  unfold debug_struct2, debug_field, debug_finish. rewrite <- !app_assoc. reflexivity.
Qed.

(** ** C26 *)
Lemma maybe_utf8_inj_valid a b :
  utf8_valid a = true -> maybe_utf8 a = maybe_utf8 b -> a = b.
Proof.
  intros Ha. unfold maybe_utf8. rewrite Ha. destruct (utf8_valid b).
  - intros H. apply app_inv_head in H. now apply app_inv_tail in H.
  - intros H. exfalso. cbn in H. discriminate.
Qed.

Lemma hex_collision :
  hex "ff0111" <> hex "ff1101" /\ maybe_utf8 (hex "ff0111") = maybe_utf8 (hex "ff1101").
Proof. split; [discriminate|vm_compute; reflexivity]. Qed.

(** Bytes of two hexadecimal digits are printed faithfully. *)
Lemma lower_hex_2 b : (16 <= b2n b)%N ->
  lower_hex b = [hex_digit (b2n b / 16); hex_digit (b2n b mod 16)].
Proof. intros H. unfold lower_hex. apply N.ltb_ge in H. now rewrite H. Qed.

Definition hex_digit_inj_check : bool :=
  forallb (fun i => forallb (fun j =>
    implb (byte_eqb (hex_digit (N.of_nat i)) (hex_digit (N.of_nat j))) (Nat.eqb i j))
    (seq 0 16)) (seq 0 16).
Lemma hex_digit_inj i j : (i < 16)%N -> (j < 16)%N -> hex_digit i = hex_digit j -> i = j.
Proof.
  intros Hi Hj H. assert (C : hex_digit_inj_check = true) by (vm_compute; reflexivity).
  unfold hex_digit_inj_check in C. rewrite forallb_forall in C.
  specialize (C (N.to_nat i)). rewrite in_seq in C.
  assert (C1 := C ltac:(lia)). rewrite forallb_forall in C1.
  specialize (C1 (N.to_nat j)). rewrite in_seq in C1. specialize (C1 ltac:(lia)).
  rewrite !N2Nat.id, H, byte_eqb_refl in C1. cbn [implb] in C1. apply Nat.eqb_eq in C1. lia.
Qed.

Lemma lower_hex_inj a b : (16 <= b2n a)%N -> (16 <= b2n b)%N -> lower_hex a = lower_hex b -> a = b.
Proof.
  intros Ha Hb H. rewrite !lower_hex_2 in H by assumption. injection H as H1 H2.
  pose proof (b2n_lt a). pose proof (b2n_lt b).
  apply hex_digit_inj in H1, H2; try (apply N.mod_lt; discriminate);
    try (apply N.div_lt_upper_bound; [discriminate|lia]).
  apply b2n_inj. rewrite (N.div_mod (b2n a) 16), (N.div_mod (b2n b) 16) by discriminate. congruence.
Qed.

Lemma hex_string_inj a b :
  Forall (fun c => (16 <= b2n c)%N) a -> Forall (fun c => (16 <= b2n c)%N) b ->
  concat (map lower_hex a) = concat (map lower_hex b) -> a = b.
Proof.
  intros Ha. revert b. induction Ha as [|x a Hx Ha IH]; intros b Hb H.
  - destruct Hb as [|y b Hy Hb]; [reflexivity|].
    cbn [map concat] in H. rewrite lower_hex_2 in H by exact Hy. discriminate.
  - destruct Hb as [|y b Hy Hb].
    + cbn [map concat] in H. rewrite lower_hex_2 in H by exact Hx. discriminate.
    + cbn [map concat] in H. apply app_inj_length in H.
      * destruct H as [H1 H2]. f_equal; [now apply lower_hex_inj|now apply IH].
      * now rewrite !lower_hex_2.
Qed.

Lemma maybe_utf8_inj_two_digits a b :
  Forall (fun c => (16 <= b2n c)%N) a -> Forall (fun c => (16 <= b2n c)%N) b ->
  maybe_utf8 a = maybe_utf8 b -> a = b.
Proof.
  intros Ha Hb H. destruct (utf8_valid a) eqn:Va; [now apply maybe_utf8_inj_valid|].
  destruct (utf8_valid b) eqn:Vb; [symmetry; now apply maybe_utf8_inj_valid|].
  unfold maybe_utf8 in H. rewrite Va, Vb in H. apply app_inv_head in H. apply app_inv_tail in H.
  now apply hex_string_inj.
Qed.

(** Whole sides can print the same even when all identities are valid UTF-8, because the
    identities are not quoted. *)
Lemma debug_side_collision :
  let a := str "a), idB: (s=b" in let b := str "c" in
  let a' := str "a" in let b' := str "b), idB: (s=c" in
  SideA a b <> SideA a' b' /\ forallb utf8_valid [a; b; a'; b'] = true /\
  debug_side false (SideA a b) = debug_side false (SideA a' b').
Proof. split; [discriminate|]. split; vm_compute; reflexivity. Qed.
