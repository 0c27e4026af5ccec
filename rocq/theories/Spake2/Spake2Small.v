(** * Degenerate points (C27) and groups with other encodings (C28). *)
From Coq Require Import ZArith Znumtheory Lia.
From Verif Require Import Base.Bytes Base.Outcome Base.Rng Base.Hex Hash.Hash.
From Verif Require Import Curve.Primes Curve.Zmod Curve.Abelian Curve.Ed25519 Curve.Ed25519Fast
  Curve.Ed25519Points.
From Verif Require Import Spake2.Spake2Model Spake2.Ed25519Group Spake2.Spake2Spec Spake2.Spake2Generic
  Spake2.Spake2Proofs Spake2.Spake2Proofs2.
Local Open Scope nat_scope.
Local Notation E := Ed25519Group.

(** Every point of the curve is accepted. *)
Lemma every_point_accepted sd pw x s msg P :
  start_internal E sd pw x = Ok (s, msg) ->
  exists key, finish E s (tag (peer (role_of sd)) :: compress P) = Ok key /\ length key = 32.
Proof.
  intros H.
  destruct (finish_classified sd pw x s msg (tag (peer (role_of sd)) :: compress P) H) as [_ C].
  destruct (C _ _ eq_refl) as [_ [_ D]].
  - cbn [length]. now rewrite compress_length.
  - reflexivity.
  - apply D, decompress_decodable. exists P. apply decompress_compress.
Qed.

(** The eight points killed by the cofactor. *)
Definition small_xy : list (Z * Z) :=
  [(0, 1);
   (0, 57896044618658097711785492504343953926634992332820282019728792003956564819948);
   (19681161376707505956807079304988542015446066515923890162744021073123829784752, 0);
   (38214883241950591754978413199355411911188925816896391856984770930832735035197, 0);
   (14399317868200118260347934320527232580618823971194345261214217575416788799818,
    2707385501144840649318225287225658788936804267575313519463743609750303402022);
   (43496726750457979451437558183816721346016168361625936758514574428539776020131,
    2707385501144840649318225287225658788936804267575313519463743609750303402022);
   (14399317868200118260347934320527232580618823971194345261214217575416788799818,
    55188659117513257062467267217118295137698188065244968500265048394206261417927);
   (43496726750457979451437558183816721346016168361625936758514574428539776020131,
    55188659117513257062467267217118295137698188065244968500265048394206261417927)]%Z.

Definition small_check (xy : Z * Z) : bool :=
  let '(x, y) := xy in
  eonb (fof x) (fof y) && (fval (fof x) =? x)%Z && (fval (fof y) =? y)%Z &&
  ext_is_zero (ext_smul 8 (ext_of x y)).

Lemma small_checked : forallb small_check small_xy = true.
Proof. vm_cast_no_check (eq_refl true). Qed.

Lemma small_order_points x y :
  In (x, y) small_xy -> exists P, fval (ex P) = x /\ fval (ey P) = y /\ emul 8 P = ezero.
Proof.
  intros H. pose proof small_checked as C. rewrite forallb_forall in C. specialize (C _ H).
  unfold small_check in C. rewrite !andb_true_iff in C. destruct C as [[[C1 C2] C3] C4].
  apply Z.eqb_eq in C2, C3. exists (ept (fof x) (fof y) C1).
  assert (Hx : fval (ex (ept (fof x) (fof y) C1)) = x) by exact C2.
  assert (Hy : fval (ey (ept (fof x) (fof y) C1)) = y) by exact C3.
  split; [exact Hx|]. split; [exact Hy|].
  apply (torsion_check 8 x y); [discriminate|exact Hx|exact Hy|exact C4].
Qed.

Lemma small_xy_nodup : NoDup small_xy.
Proof.
  assert (D : forall l : list (Z * Z),
    (fix go l := match l with
                 | [] => true
                 | a :: t => negb (existsb (fun b => (fst a =? fst b)%Z && (snd a =? snd b)%Z) t) && go t
                 end) l = true -> NoDup l).
  { induction l as [|a l IH]; intros H; constructor; apply andb_true_iff in H; destruct H as [H1 H2].
    - intros Hin. apply negb_true_iff in H1. rewrite <- Bool.not_true_iff_false in H1. apply H1.
      apply existsb_exists. exists a. split; [exact Hin|]. now rewrite !Z.eqb_refl.
    - now apply IH. }
  apply D. vm_compute. reflexivity.
Qed.

(** ** A lawful group with one-byte encodings *)
Local Open Scope Z_scope.
Lemma gt_1_251 : 1 < 251.
Proof. reflexivity. Qed.
Definition z251 := zmod 251.
Definition of251 : Z -> z251 := of_Z 251 gt_1_251.
Definition val251 (x : z251) : Z := val 251 x.

Definition Toy : Group := {|
  Scalar := z251;
  Element := z251;
  g_name := str "Toy";
  const_m := Ok (of251 2);
  const_n := Ok (of251 3);
  const_s := Ok (of251 5);
  hash_to_scalar := fun p => Ok (of251 (Z.of_N (be_val p)));
  random_scalar := fun T s => let '(b, s') := rng_fill T 8 s in (of251 (Z.of_N (le_val b)), s');
  scalar_neg := zopp 251 gt_1_251;
  element_to_bytes := fun e => [n2b (Z.to_N (val251 e))];
  bytes_to_element := fun b => match b with [c] => Some (of251 (Z.of_N (b2n c))) | _ => None end;
  element_length := 1;
  basepoint_mult := fun s => s;
  scalarmult := zmul 251 gt_1_251;
  g_add := zadd 251 gt_1_251
|}.

Add Ring z251_ring : (zmod_ring 251 gt_1_251).

Lemma toy_laws :
  group_laws Toy (of251 2) (of251 3) (of251 5) (zone 251 gt_1_251)
    (fun p => of251 (Z.of_N (be_val p))).
Proof.
  split; cbn [Toy const_m const_n const_s hash_to_scalar basepoint_mult scalarmult g_add
              scalar_neg element_to_bytes bytes_to_element element_length Scalar Element];
    try reflexivity; unfold z251; intros; try ring.
  f_equal. unfold of251, val251. pose proof (val_range 251 gt_1_251 P) as R.
  rewrite b2n_n2b, N.mod_small by lia. rewrite Z2N.id by lia. apply of_Z_val.
Qed.
