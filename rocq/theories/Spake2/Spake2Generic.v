(** * Agreement of SPAKE2 over any [Group] that obeys the group laws. *)
From Coq Require Import Lia.
From Verif Require Import Base.Bytes Base.Outcome Base.Rng Hash.Hash Spake2.Spake2Model.

(** What a [Group] implementation has to satisfy for SPAKE2 to work. *)
Record group_laws (G : Group) (m n s base : Element G) (pws : bytes -> Scalar G) : Prop := {
  gl_m : const_m G = Ok m;
  gl_n : const_n G = Ok n;
  gl_s : const_s G = Ok s;
  gl_hash : forall p, hash_to_scalar G p = Ok (pws p);
  gl_base : forall x, basepoint_mult G x = scalarmult G base x;
  gl_comm : forall P x y,
    scalarmult G (scalarmult G P x) y = scalarmult G (scalarmult G P y) x;
  gl_cancel_m : forall P x,
    g_add G (g_add G P (scalarmult G m x)) (scalarmult G m (scalar_neg G x)) = P;
  gl_cancel_n : forall P x,
    g_add G (g_add G P (scalarmult G n x)) (scalarmult G n (scalar_neg G x)) = P;
  gl_cancel_s : forall P x,
    g_add G (g_add G P (scalarmult G s x)) (scalarmult G s (scalar_neg G x)) = P;
  gl_roundtrip : forall P, bytes_to_element G (element_to_bytes G P) = Some P;
  gl_enc_length : forall P, length (element_to_bytes G P) = element_length G
}.

Lemma copy32_ok src : length src = 32 -> copy32 src = Ok src.
Proof. unfold copy32. now intros ->. Qed.
Lemma copy32_panic src : length src <> 32 -> copy32 src = Panic.
Proof. unfold copy32. intros H. apply Nat.eqb_neq in H. now rewrite H. Qed.

Lemma hash_ab_ok pw a b m1 m2 k :
  length m1 = 32 -> length m2 = 32 -> length k = 32 ->
  hash_ab pw a b m1 m2 k = Ok (sha256 (sha256 pw ++ sha256 a ++ sha256 b ++ m1 ++ m2 ++ k)).
Proof.
  intros H1 H2 H3. unfold hash_ab. rewrite H1, H2.
  cbn [Nat.eqb negb]. rewrite !copy32_ok by (apply sha256_length || assumption). reflexivity.
Qed.

Lemma bytes_ltb_be u v : length u = length v -> bytes_ltb u v = N.ltb (be_val u) (be_val v).
Proof.
  revert v. induction u as [|x u IH]; intros [|y v] HL; try discriminate; [reflexivity|].
  injection HL as HL. cbn [bytes_ltb be_val].
  pose proof (be_val_bound u) as Bu. pose proof (be_val_bound v) as Bv. rewrite <- HL in *.
  set (q := (256 ^ N.of_nat (length u))%N) in *.
  destruct (N.ltb_spec (b2n x) (b2n y)) as [H|H].
  - symmetry. apply N.ltb_lt. assert (b2n x * q + q <= b2n y * q)%N by nia. lia.
  - destruct (N.ltb_spec (b2n y) (b2n x)) as [H'|H'].
    + symmetry. apply N.ltb_ge. assert (b2n y * q + q <= b2n x * q)%N by nia. lia.
    + rewrite (IH v HL). assert (b2n x = b2n y) as -> by lia.
      destruct (N.ltb_spec (be_val u) (be_val v)); symmetry; [apply N.ltb_lt|apply N.ltb_ge]; lia.
Qed.

Lemma hash_symmetric_ok pw i u v k :
  length u = 32 -> length v = 32 -> length k = 32 ->
  hash_symmetric pw i u v k =
  Ok (sha256 (sha256 pw ++ sha256 i ++
              (if N.leb (be_val u) (be_val v) then u ++ v else v ++ u) ++ k)).
Proof.
  intros H1 H2 H3. unfold hash_symmetric. rewrite H1, H2.
  cbn [Nat.eqb negb]. rewrite !copy32_ok by apply sha256_length. cbn [obind].
  rewrite bytes_ltb_be by congruence.
  destruct (N.ltb_spec (be_val u) (be_val v)) as [H|H];
    destruct (N.leb_spec (be_val u) (be_val v)) as [H'|H']; try lia.
  - rewrite !copy32_ok by assumption. cbn [obind]. now rewrite <- !app_assoc.
  - assert (u = v) as <- by (apply be_val_inj; [congruence|lia]).
    rewrite !copy32_ok by assumption. cbn [obind]. now rewrite <- !app_assoc.
  - rewrite !copy32_ok by assumption. cbn [obind]. now rewrite <- !app_assoc.
Qed.

Lemma hash_symmetric_swap pw i u v k :
  length u = 32 -> length v = 32 -> length k = 32 ->
  hash_symmetric pw i u v k = hash_symmetric pw i v u k.
Proof.
  intros H1 H2 H3. rewrite !hash_symmetric_ok by assumption. do 4 f_equal. f_equal.
  destruct (N.leb_spec (be_val u) (be_val v)) as [H|H];
    destruct (N.leb_spec (be_val v) (be_val u)) as [H'|H']; try lia; try reflexivity.
  assert (u = v) as <- by (apply be_val_inj; [congruence|lia]). reflexivity.
Qed.

(** The three entry points are [start_internal] on a side.  Stated for all groups: the kernel must
    not evaluate these functions on the concrete curve. *)
Lemma start_a_eq G pw a b x : start_a_internal G pw a b x = start_internal G (SideA a b) pw x.
Proof. reflexivity. Qed.
Lemma start_b_eq G pw a b x : start_b_internal G pw a b x = start_internal G (SideB a b) pw x.
Proof. reflexivity. Qed.
Lemma start_symmetric_eq G pw i x :
  start_symmetric_internal G pw i x = start_internal G (SideSymmetric i) pw x.
Proof. reflexivity. Qed.
Lemma start_a_rng_eq G T pw a b st :
  start_a_with_rng G T pw a b st = start_internal G (SideA a b) pw (fst (random_scalar G T st)).
Proof. reflexivity. Qed.
Lemma start_b_rng_eq G T pw a b st :
  start_b_with_rng G T pw a b st = start_internal G (SideB a b) pw (fst (random_scalar G T st)).
Proof. reflexivity. Qed.
Lemma start_symmetric_rng_eq G T pw i st :
  start_symmetric_with_rng G T pw i st =
  start_internal G (SideSymmetric i) pw (fst (random_scalar G T st)).
Proof. reflexivity. Qed.

Section Generic.
Context (G : Group) (m n s base : Element G) (pws : bytes -> Scalar G).
Context (laws : group_laws G m n s base pws) (length32 : element_length G = 32).

Lemma enc32 P : length (element_to_bytes G P) = 32.
Proof. now rewrite (gl_enc_length _ _ _ _ _ _ laws). Qed.

Theorem generic_agreement_ab pw id_a id_b x y :
  exists sa sb ma mb key,
    start_a_internal G pw id_a id_b x = Ok (sa, ma) /\
    start_b_internal G pw id_a id_b y = Ok (sb, mb) /\
    finish G sa mb = Ok key /\ finish G sb ma = Ok key /\ length key = 32.
Proof.
  rewrite start_a_eq, start_b_eq. unfold start_internal.
  rewrite (gl_hash _ _ _ _ _ _ laws), (gl_m _ _ _ _ _ _ laws), (gl_n _ _ _ _ _ _ laws).
  cbn [obind]. rewrite !(gl_base _ _ _ _ _ _ laws).
  set (X := g_add G (scalarmult G base x) (scalarmult G m (pws pw))).
  set (Y := g_add G (scalarmult G base y) (scalarmult G n (pws pw))).
  set (K := scalarmult G (scalarmult G base x) y).
  do 4 eexists.
  exists (sha256 (sha256 pw ++ sha256 id_a ++ sha256 id_b ++ element_to_bytes G X ++
                  element_to_bytes G Y ++ element_to_bytes G K)).
  split; [reflexivity|]. split; [reflexivity|].
  unfold finish. cbn [side xy_scalar password_vec msg1 password_scalar length Nat.add].
  rewrite !enc32, length32, !byte_eqb_refl.
  cbn [Nat.eqb negb].
  rewrite !(gl_roundtrip _ _ _ _ _ _ laws), (gl_m _ _ _ _ _ _ laws), (gl_n _ _ _ _ _ _ laws).
  cbn [lift obind].
  rewrite (gl_cancel_m _ _ _ _ _ _ laws (scalarmult G base x) (pws pw) : g_add G X _ = _).
  rewrite (gl_cancel_n _ _ _ _ _ _ laws (scalarmult G base y) (pws pw) : g_add G Y _ = _).
  rewrite (gl_comm _ _ _ _ _ _ laws base y x). fold K.
  rewrite !hash_ab_ok by apply enc32.
  split; [reflexivity|]. split; [reflexivity|apply sha256_length].
Qed.

Theorem generic_agreement_symmetric pw id_s x y :
  exists sa sb ma mb key,
    start_symmetric_internal G pw id_s x = Ok (sa, ma) /\
    start_symmetric_internal G pw id_s y = Ok (sb, mb) /\
    finish G sa mb = Ok key /\ finish G sb ma = Ok key /\ length key = 32.
Proof.
  rewrite !start_symmetric_eq. unfold start_internal.
  rewrite (gl_hash _ _ _ _ _ _ laws), (gl_s _ _ _ _ _ _ laws).
  cbn [obind]. rewrite !(gl_base _ _ _ _ _ _ laws).
  set (X := g_add G (scalarmult G base x) (scalarmult G s (pws pw))).
  set (Y := g_add G (scalarmult G base y) (scalarmult G s (pws pw))).
  set (K := scalarmult G (scalarmult G base x) y).
  do 4 eexists.
  eexists (sha256 _).
  split; [reflexivity|]. split; [reflexivity|].
  unfold finish. cbn [side xy_scalar password_vec msg1 password_scalar length Nat.add].
  rewrite !enc32, length32, !byte_eqb_refl.
  cbn [Nat.eqb negb].
  rewrite !(gl_roundtrip _ _ _ _ _ _ laws), (gl_s _ _ _ _ _ _ laws).
  cbn [lift obind].
  rewrite (gl_cancel_s _ _ _ _ _ _ laws (scalarmult G base x) (pws pw) : g_add G X _ = _).
  rewrite (gl_cancel_s _ _ _ _ _ _ laws (scalarmult G base y) (pws pw) : g_add G Y _ = _).
  rewrite (gl_comm _ _ _ _ _ _ laws base y x). fold K.
  rewrite (hash_symmetric_swap pw id_s (element_to_bytes G Y)) by apply enc32.
  rewrite !hash_symmetric_ok by apply enc32.
  split; [reflexivity|]. split; [reflexivity|apply sha256_length].
Qed.
End Generic.

(** ** Panics over arbitrary groups (no group laws needed) *)

(** A [Group] whose own functions do not panic and whose encoding has the promised length. *)
Record well_behaved (G : Group) : Prop := {
  wb_m : exists m, const_m G = Ok m;
  wb_n : exists n, const_n G = Ok n;
  wb_s : exists s, const_s G = Ok s;
  wb_hash : forall p, exists x, hash_to_scalar G p = Ok x;
  wb_length : forall P, length (element_to_bytes G P) = element_length G
}.

Lemma lawful_well_behaved G m n s base pws : group_laws G m n s base pws -> well_behaved G.
Proof.
  intros L. split; [eexists; apply L|eexists; apply L|eexists; apply L| |apply L].
  intros p. eexists. apply L.
Qed.

Lemma start_well_behaved G sd pw x :
  well_behaved G -> exists s msg, start_internal G sd pw x = Ok (s, msg) /\ side s = sd /\
    length (msg1 s) = element_length G /\ length msg = S (element_length G).
Proof.
  intros W. destruct (wb_m G W) as [m Em], (wb_n G W) as [n En], (wb_s G W) as [s Es].
  destruct (wb_hash G W pw) as [h Eh]. unfold start_internal. rewrite Eh, Em, En, Es.
  destruct sd; cbn [obind]; do 2 eexists; split; try reflexivity; cbn [side msg1 length];
    rewrite (wb_length G W); auto.
Qed.

Theorem finish_no_panic_32 G sd pw x s msg msg2 :
  well_behaved G -> element_length G = 32 ->
  start_internal G sd pw x = Ok (s, msg) -> finish G s msg2 <> Panic.
Proof.
  intros W HL Hs. destruct (start_well_behaved G sd pw x W) as (s' & msg' & E & Hside & Hm1 & _).
  rewrite Hs in E. injection E as <- <-.
  destruct (wb_m G W) as [m Em], (wb_n G W) as [n En], (wb_s G W) as [c Es].
  unfold finish. rewrite HL, Hside. rewrite HL in Hm1.
  destruct (Nat.eqb_spec (length msg2) (1 + 32)) as [H|H]; [|discriminate]. cbn [negb].
  destruct msg2 as [|t rest]; [discriminate|]. injection H as H.
  destruct (negb _); [discriminate|].
  destruct (bytes_to_element G rest) as [P|]; [|discriminate].
  assert (HK : forall Q, length (element_to_bytes G Q) = 32) by (intros Q; now rewrite (wb_length G W)).
  rewrite Em, En, Es.
  destruct sd; cbn [lift obind];
    rewrite ?hash_ab_ok, ?hash_symmetric_ok by (exact Hm1 || exact H || apply HK); discriminate.
Qed.

(** With any other length every finish that gets as far as the transcript panics. *)
Theorem finish_panic_other_length G sd pw x s msg t rest P :
  well_behaved G -> element_length G <> 32 ->
  start_internal G sd pw x = Ok (s, msg) ->
  length rest = element_length G -> bytes_to_element G rest = Some P ->
  t = match sd with SideA _ _ => x42 | SideB _ _ => x41 | SideSymmetric _ => x53 end ->
  finish G s (t :: rest) = Panic.
Proof.
  intros W HL Hs Hr HP ->. destruct (start_well_behaved G sd pw x W) as (s' & msg' & E & Hside & Hm1 & _).
  rewrite Hs in E. injection E as <- <-.
  destruct (wb_m G W) as [m Em], (wb_n G W) as [n En], (wb_s G W) as [c Es].
  unfold finish. rewrite Hside, HP, Em, En, Es. cbn [length Nat.add]. rewrite Hr, Nat.eqb_refl. cbn [negb].
  assert (N1 : Nat.eqb (length (msg1 s)) 32 = false) by (apply Nat.eqb_neq; congruence).
  assert (N2 : Nat.eqb (length rest) 32 = false) by (apply Nat.eqb_neq; congruence).
  destruct sd; rewrite byte_eqb_refl; cbn [negb lift obind];
    unfold hash_ab, hash_symmetric; rewrite ?N1, ?N2; reflexivity.
Qed.
