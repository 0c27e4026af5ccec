(** * What a peer that deviates from SPAKE2 can do: encodings, points outside the prime-order
    subgroup, password guesses, and knowledge of the discrete logarithm of a blinding constant. *)
From Coq Require Import ZArith Znumtheory Lia.
From Verif Require Import Base.Bytes Base.Outcome Hash.Hash.
From Verif Require Import Curve.Primes Curve.Zmod Curve.Abelian Curve.Subgroup Curve.Ed25519
  Curve.Ed25519Points Curve.Ed25519Subgroup Curve.Ed25519Structure Curve.Scalar25519.
From Verif Require Import Spake2.Spake2Model Spake2.Ed25519Group Spake2.Spake2Spec Spake2.Spake2Proofs
  Spake2.Spake2Proofs2.
Local Open Scope Z_scope.

(** ** Encodings *)

Lemma decompress_exact b P :
  decompress b = Some P <->
  ey P = fof (Z.of_N (le_val b) mod 2 ^ 255) /\
  (ex P = f0 \/ is_negative (ex P) = sign_bit (Z.of_N (le_val b))).
Proof.
  split; [apply decompress_some|]. intros [Hy Hx].
  destruct (decompress_defined b P Hy) as [Q HQ]. rewrite HQ. f_equal.
  pose proof (decompress_some b Q HQ) as [Qy Qx].
  assert (E : ey Q = ey P) by congruence.
  assert (D : forall x, ex Q = x -> x = f0 -> ex P = f0).
  { intros x Hq Hx0. destruct (same_y_ed P Q (eq_sym E)) as [Ep|Ep]; rewrite Ep, Hq, Hx0; [reflexivity|].
    apply fopp_0. }
  destruct (fe_eq_dec (ex P) f0) as [Z|NZ].
  - apply epoint_ext; [|exact E].
    destruct (same_y_ed Q P E) as [Ex|Ex]; [exact Ex|]. rewrite Ex, Z. apply fopp_0.
  - apply same_y_sign; [exact E|].
    destruct Hx as [Hx|Hx]; [contradiction|].
    destruct Qx as [Qx|Qx]; [destruct (NZ (D _ eq_refl Qx))|]. congruence.
Qed.

Definition low255 (b : bytes) : Z := Z.of_N (le_val b) mod 2 ^ 255.

Lemma p_19 : 2 ^ 255 = p25519 + 19.
Proof. reflexivity. Qed.

(** A 32-byte string with low 255 bits [v] and sign bit [s]. *)
Definition raw_encoding (v : Z) (s : bool) : bytes :=
  le_bytes 32 (Z.to_N (v + (if s then 2 ^ 255 else 0))).

Lemma raw_encoding_val v s :
  0 <= v < 2 ^ 255 -> Z.of_N (le_val (raw_encoding v s)) = v + (if s then 2 ^ 255 else 0).
Proof.
  intros Hv. unfold raw_encoding. rewrite le_val_le_bytes.
  assert (E : (256 ^ N.of_nat 32)%N = Z.to_N (2 * 2 ^ 255)) by reflexivity.
  rewrite E. set (q := 2 ^ 255) in *. clearbody q. rewrite N.mod_small; destruct s; lia.
Qed.

Lemma raw_encoding_low v s : 0 <= v < 2 ^ 255 -> low255 (raw_encoding v s) = v.
Proof.
  intros Hv. unfold low255. rewrite raw_encoding_val by exact Hv.
  pose proof pow255_pos as Hq. set (q := 2 ^ 255) in *. clearbody q. destruct s.
  - replace (v + q) with (v + 1 * q) by ring. rewrite Z_mod_plus_full. now apply Z.mod_small.
  - rewrite Z.add_0_r. now apply Z.mod_small.
Qed.

Lemma raw_encoding_sign v s :
  0 <= v < 2 ^ 255 -> sign_bit (Z.of_N (le_val (raw_encoding v s))) = s.
Proof.
  intros Hv. rewrite raw_encoding_val by exact Hv. unfold sign_bit.
  set (q := 2 ^ 255) in *. clearbody q. destruct s; [apply Z.leb_le|apply Z.leb_gt]; lia.
Qed.

Lemma raw_encoding_length v s : length (raw_encoding v s) = 32%nat.
Proof. apply le_bytes_length. Qed.

Lemma raw_encoding_inj v s v' s' :
  0 <= v < 2 ^ 255 -> 0 <= v' < 2 ^ 255 -> raw_encoding v s = raw_encoding v' s' -> v = v' /\ s = s'.
Proof.
  intros Hv Hv' E. split.
  - rewrite <- (raw_encoding_low v s Hv), E. now apply raw_encoding_low.
  - rewrite <- (raw_encoding_sign v s Hv), E. now apply raw_encoding_sign.
Qed.

Lemma raw_encoding_all b :
  length b = 32%nat -> b = raw_encoding (low255 b) (sign_bit (Z.of_N (le_val b))).
Proof.
  intros Hl. apply le_val_inj; [now rewrite raw_encoding_length|]. apply N2Z.inj.
  rewrite raw_encoding_val by (apply Z.mod_pos_bound, pow255_pos).
  pose proof (le_val_bound b) as Hb. rewrite Hl in Hb.
  assert (E : (256 ^ N.of_nat 32)%N = Z.to_N (2 * 2 ^ 255)) by reflexivity. rewrite E in Hb.
  unfold low255, sign_bit. pose proof pow255_pos as Hq. set (q := 2 ^ 255) in *. clearbody q.
  set (v := Z.of_N (le_val b)). assert (Hv : 0 <= v < 2 * q) by lia. clearbody v.
  destruct (Z.leb_spec q v).
  - replace v with ((v - q) + 1 * q) at 2 by ring. rewrite Z_mod_plus_full, Z.mod_small by lia. ring.
  - rewrite Z.mod_small by lia. ring.
Qed.

Lemma compress_raw P : compress P = raw_encoding (fval (ey P)) (is_negative (ex P)).
Proof. reflexivity. Qed.

Lemma fof_low_iff y v : 0 <= v < 2 ^ 255 ->
  (y = fof v <-> v = fval y \/ (fval y < 19 /\ v = fval y + p25519)).
Proof.
  intros Hv. pose proof (fval_range y) as R. rewrite p_19 in Hv.
  assert (P19 : 19 < p25519) by reflexivity.
  split.
  - intros ->. rewrite fval_fof in *. destruct (Z.lt_ge_cases v p25519) as [H|H].
    + left. symmetry. apply Z.mod_small. lia.
    + right. assert (E : v mod p25519 = v - p25519).
      { replace v with ((v - p25519) + 1 * p25519) at 1 by ring.
        rewrite Z_mod_plus_full. apply Z.mod_small. lia. }
      rewrite E. lia.
  - intros [->|[_ ->]]; [symmetry; apply fof_fval|].
    apply fe_ext. rewrite fval_fof. replace (fval y + p25519) with (fval y + 1 * p25519) by ring.
    rewrite Z_mod_plus_full. symmetry. apply Z.mod_small. exact R.
Qed.

(** The accepted encodings of a point, as a list without repetitions. *)
Definition encodings (P : epoint) : list bytes :=
  let ys := fval (ey P) :: (if fval (ey P) <? 19 then [fval (ey P) + p25519] else []) in
  let signs := if fe_eq_dec (ex P) f0 then [false; true] else [is_negative (ex P)] in
  flat_map (fun v => map (raw_encoding v) signs) ys.

Lemma encodings_spec P b :
  length b = 32%nat -> (decompress b = Some P <-> In b (encodings P)).
Proof.
  intros Hl. rewrite decompress_exact. fold (low255 b).
  assert (Hlow : 0 <= low255 b < 2 ^ 255) by (apply Z.mod_pos_bound, pow255_pos).
  rewrite (fof_low_iff (ey P) (low255 b) Hlow).
  pose proof (fval_range (ey P)) as R. pose proof p_19 as P19.
  set (ys := fval (ey P) :: (if fval (ey P) <? 19 then [fval (ey P) + p25519] else [])).
  assert (Hys : forall v, In v ys <-> (v = fval (ey P) \/ (fval (ey P) < 19 /\ v = fval (ey P) + p25519))).
  { intros v. unfold ys. cbn [In]. destruct (Z.ltb_spec (fval (ey P)) 19) as [H|H]; cbn [In]; lia. }
  assert (Hrange : forall v, In v ys -> 0 <= v < 2 ^ 255) by (intros v Hv; apply Hys in Hv; lia).
  unfold encodings. fold ys. rewrite in_flat_map. split.
  - intros [Hy Hs]. exists (low255 b). split; [now apply Hys|]. apply in_map_iff.
    exists (sign_bit (Z.of_N (le_val b))). split; [symmetry; now apply raw_encoding_all|].
    destruct (fe_eq_dec (ex P) f0) as [Z|NZ].
    + destruct (sign_bit _); cbn [In]; auto.
    + destruct Hs as [Hs|Hs]; [contradiction|]. left. exact Hs.
  - intros (v & Hv & Hb). apply in_map_iff in Hb. destruct Hb as (s & <- & Hs).
    rewrite raw_encoding_low, raw_encoding_sign by now apply Hrange.
    split; [now apply Hys|]. destruct (fe_eq_dec (ex P) f0) as [Z|NZ]; [now left|right].
    cbn [In] in Hs. destruct Hs as [Hs|[]]. exact Hs.
Qed.

Lemma encodings_nodup P : NoDup (encodings P).
Proof.
  unfold encodings. pose proof (fval_range (ey P)) as R. pose proof p_19 as P19.
  set (sg := if fe_eq_dec (ex P) f0 then [false; true] else [is_negative (ex P)]).
  assert (Hsg : NoDup sg).
  { unfold sg. destruct (fe_eq_dec (ex P) f0); repeat constructor; cbn [In]; intuition discriminate. }
  assert (One : forall v, 0 <= v < 2 ^ 255 -> NoDup (map (raw_encoding v) sg)).
  { intros v Hv. clearbody sg. induction Hsg as [|a l Ha Hl IH]; cbn [map]; constructor; [|exact IH].
    intros Hin. apply in_map_iff in Hin. destruct Hin as (c & E & Hc).
    apply raw_encoding_inj in E; [|exact Hv..]. destruct E as [_ ->]. contradiction. }
  destruct (Z.ltb_spec (fval (ey P)) 19) as [H|H]; cbn [flat_map]; rewrite ?app_nil_r.
  - assert (V1 : 0 <= fval (ey P) < 2 ^ 255) by lia.
    assert (V2 : 0 <= fval (ey P) + p25519 < 2 ^ 255) by lia.
    assert (D : forall l l' : list bytes, NoDup l -> NoDup l' -> (forall x, In x l -> ~ In x l') -> NoDup (l ++ l')).
    { induction 1 as [|a l Ha Hl IH]; intros Hl' Hd; cbn [app]; [exact Hl'|]. constructor.
      - rewrite in_app_iff. intros [K|K]; [contradiction|]. apply (Hd a); [now left|exact K].
      - apply IH; [exact Hl'|]. intros x Hx. apply Hd. now right. }
    apply D; [now apply One|now apply One|].
    intros x H1 H2. apply in_map_iff in H1, H2. destruct H1 as (s & <- & _). destruct H2 as (s' & E & _).
    apply raw_encoding_inj in E; [|assumption..]. destruct E as [E _].
    pose proof p_gt_1. lia.
  - apply One. lia.
Qed.

Lemma encodings_length P :
  length (encodings P) =
  ((if (fval (ey P) <? 19)%Z then 2 else 1) * (if feq (ex P) f0 then 2 else 1))%nat.
Proof.
  unfold encodings, feq. destruct (fval (ey P) <? 19), (fe_eq_dec (ex P) f0); reflexivity.
Qed.

Lemma compress_in P : In (compress P) (encodings P).
Proof. apply encodings_spec; [apply compress_length|apply decompress_compress]. Qed.

(** ** The algebra of guesses, in any abelian group *)

Section Guess.
Context (G : Type) (op : G -> G -> G) (zero : G) (opp : G -> G).
Context (L : abelian_laws G op zero opp) (mul : Z -> G -> G).
Context (Hmul : mul = smul op zero opp).

Lemma victim_value x y w w' n B :
  mul x (op (op (mul y B) (mul w' (mul n B))) (opp (mul w (mul n B))))
  = mul (x * (y + (w' - w) * n)) B.
Proof.
  rewrite Hmul. rewrite <- !(smul_mul _ _ _ _ L), <- (smul_neg _ _ _ _ L), <- !(smul_add _ _ _ _ L),
    <- (smul_mul _ _ _ _ L). f_equal; ring.
Qed.

Lemma trapdoor X P w n y B M :
  P = mul y B ->
  forall x, X = op (mul x B) (mul w M) ->
  mul x (op P (opp (mul w (mul n B)))) = mul (y - w * n) (op X (opp (mul w M))).
Proof.
  intros -> x ->. rewrite Hmul.
  rewrite <- (ab_assoc _ _ _ _ L), (opp_r _ _ _ _ L), (zero_r _ _ _ _ L).
  rewrite <- !(smul_mul _ _ _ _ L), <- (smul_neg _ _ _ _ L), <- !(smul_add _ _ _ _ L),
    <- !(smul_mul _ _ _ _ L). f_equal; ring.
Qed.

Lemma torsion_effect x P Q j T :
  mul 8 T = zero ->
  mul x (op (op P (mul j T)) Q) = op (mul x (op P Q)) (mul ((x * j) mod 8) T).
Proof.
  rewrite Hmul. intros H8.
  rewrite (smul_mod _ _ _ _ L) by exact H8.
  rewrite <- (ab_assoc _ _ _ _ L), (ab_comm _ _ _ _ L (smul op zero opp j T)), (ab_assoc _ _ _ _ L).
  rewrite (smul_op _ _ _ _ L), (smul_mul _ _ _ _ L). reflexivity.
Qed.

Lemma shared_multiple x k w n j B T :
  mul 8 T = zero ->
  mul x (op (op (mul k B) (mul j T)) (opp (mul w (mul n B))))
  = op (mul (x * (k - w * n)) B) (mul ((x * j) mod 8) T).
Proof.
  intros H8. rewrite torsion_effect by exact H8. f_equal. rewrite Hmul.
  rewrite <- !(smul_mul _ _ _ _ L), <- (smul_neg _ _ _ _ L), <- !(smul_add _ _ _ _ L),
    <- !(smul_mul _ _ _ _ L). f_equal; ring.
Qed.

Lemma kill_l l c d B T :
  mul l B = zero -> mul l (op (mul c B) (mul d T)) = mul (l * d) T.
Proof.
  rewrite Hmul. intros HB. rewrite (smul_op _ _ _ _ L), (smul_comm _ _ _ _ L l c), HB,
    (smul_zero _ _ _ _ L), (ab_zero _ _ _ _ L), (smul_mul _ _ _ _ L). reflexivity.
Qed.
End Guess.

(** ** ... and on edwards25519 *)

Lemma sub_zero_iff a b : eadd a (eopp b) = ezero <-> a = b.
Proof.
  split; [|intros ->; apply eadd_opp_r]. intros H.
  rewrite <- (eadd_cancel a b), <- eadd_assoc, (eadd_comm b), eadd_assoc, H, eadd_comm.
  apply eadd_0_r.
Qed.

Lemma emul_B_iff_aux (f : Z -> epoint -> epoint) i j :
  f = smul eadd ezero eopp -> f ell ed_B = ezero -> (f i ed_B = f j ed_B <-> (ell | i - j)).
Proof.
  intros Hf HB.
  rewrite <- (order_exact epoint eadd ezero eopp ed_laws ell prime_ell ed_B (i - j)).
  - unfold Z.sub. rewrite (smul_add _ _ _ _ ed_laws), (smul_neg _ _ _ _ ed_laws), <- Hf.
    symmetry. apply sub_zero_iff.
  - rewrite <- Hf. exact HB.
  - exact ed_B_nonzero.
Qed.
Lemma emul_B_iff i j : emul i ed_B = emul j ed_B <-> (ell | i - j).
Proof. exact (emul_B_iff_aux emul i j eq_refl ell_B). Qed.

(** The discrete logarithm of a blinding constant. *)
Definition blind_log (r : role) (n : Z) : Prop := blind r = emul n ed_B.

Lemma shared_guess r pw pw' x y n :
  blind_log (peer r) n ->
  shared r pw x (msg_point (peer r) pw' y) = emul (x * (y + (pw_int pw' - pw_int pw) * n)) ed_B.
Proof.
  unfold blind_log, shared, msg_point. intros ->.
  exact (victim_value epoint eadd ezero eopp ed_laws emul eq_refl x y (pw_int pw) (pw_int pw') n ed_B).
Qed.

Lemma peer_peer r : peer (peer r) = r.
Proof. destruct r; reflexivity. Qed.

(** The victim has role [r], password [pw] and secret [x]; the attacker plays the other role with
    password [pw'] and secret [y].  Their shared elements agree exactly if ... *)
Lemma guess_iff r pw pw' x y m n :
  blind_log r m -> blind_log (peer r) n ->
  (shared r pw x (msg_point (peer r) pw' y) = shared (peer r) pw' y (msg_point r pw x) <->
   pw_int pw = pw_int pw' \/ (ell | x * n + y * m)).
Proof.
  intros Hm Hn. rewrite (shared_guess r pw pw' x y n Hn).
  pose proof (shared_guess (peer r) pw' pw y x m) as E. rewrite peer_peer in E. rewrite (E Hm). clear E.
  rewrite emul_B_iff.
  pose proof (pw_int_range pw) as R. pose proof (pw_int_range pw') as R'. revert R R'.
  generalize (pw_int pw) (pw_int pw'). intros w w' R R'.
  replace (x * (y + (w' - w) * n) - y * (x + (w - w') * m))
    with ((w' - w) * (x * n + y * m)) by ring.
  split.
  - intros H. apply prime_mult in H; [|exact prime_ell]. destruct H as [H|H]; [left|now right].
    destruct H as [q Hq]. assert (q = 0) by nia. lia.
  - intros [->|H].
    + rewrite Z.sub_diag. apply Z.divide_0_r.
    + now apply Z.divide_mul_r.
Qed.

Lemma blind_log_exists r : exists n, 0 < n < ell /\ blind_log r n.
Proof.
  destruct (blind_multiple r) as (k & Hk & E). exists k. split; [|exact E].
  assert (k <> 0); [|lia]. intros ->. revert E.
  assert (Z0 : emul 0 ed_B = ezero) by exact (smul_0 _ _ _ _ ed_B).
  rewrite Z0. destruct r; [exact ed_M_nonzero|exact ed_N_nonzero|exact ed_S_nonzero].
Qed.

(** A wrong guess gives the victim's shared element for exactly one secret [y]. *)
Lemma wrong_guess_unique r pw pw' x :
  pw_int pw <> pw_int pw' ->
  exists! y : scalar,
    shared r pw x (msg_point (peer r) pw' (sval y)) = shared (peer r) pw' (sval y) (msg_point r pw x).
Proof.
  intros Hne. destruct (blind_log_exists r) as (m & Rm & Hm).
  destruct (blind_log_exists (peer r)) as (n & Rn & Hn).
  assert (Hm0 : sof m <> szero).
  { intros E. apply (f_equal sval) in E. rewrite sval_sof, sval_szero, Z.mod_small in E by lia. lia. }
  (* y = - x n / m *)
  assert (Div : forall z, (ell | z) <-> z mod ell = 0).
  { intros z. symmetry. apply Z.mod_divide. pose proof ell_gt_1. lia. }
  exists (smult (sof (- (x * n))) (sinv (sof m))). split.
  - apply (guess_iff r pw pw' x _ m n Hm Hn). right. apply Div.
    assert (E : smult (smult (sof (- (x * n))) (sinv (sof m))) (sof m) = sof (- (x * n))).
    { rewrite <- smult_assoc, sinv_l by exact Hm0. apply smult_one_r. }
    apply (f_equal sval) in E. rewrite sval_smult, !sval_sof in E.
    set (y := sval _) in *. rewrite Zmult_mod_idemp_r in E.
    rewrite Zplus_mod, E, <- Zplus_mod. replace (x * n + - (x * n)) with 0 by ring. reflexivity.
  - intros y Hy. apply (guess_iff r pw pw' x _ m n Hm Hn) in Hy. destruct Hy as [Hy|Hy]; [contradiction|].
    assert (E : smult y (sof m) = sof (- (x * n))).
    { apply sval_inj. rewrite sval_smult, !sval_sof, Zmult_mod_idemp_r.
      apply Div in Hy. replace (- (x * n)) with (sval y * m - (x * n + sval y * m)) by ring.
      rewrite Zminus_mod, Hy, Z.sub_0_r, Zmod_mod. reflexivity. }
    rewrite <- E, <- smult_assoc, (smult_comm (sof m)), sinv_l by exact Hm0. apply smult_one_r.
Qed.

(** Knowing the discrete logarithm of the constant it must use, the peer computes the shared element
    of every candidate password from its own secret and the victim's message. *)
Lemma shared_trapdoor r pw x n y :
  blind_log (peer r) n ->
  shared r pw x (emul y ed_B)
  = emul (y - pw_int pw * n) (eadd (msg_point r pw x) (eopp (emul (pw_int pw) (blind r)))).
Proof.
  unfold blind_log, shared. intros ->.
  exact (trapdoor epoint eadd ezero eopp ed_laws emul eq_refl (msg_point r pw x) (emul y ed_B) (pw_int pw)
           n y ed_B (blind r) eq_refl x eq_refl).
Qed.

(** ** Points outside the prime-order subgroup *)

Lemma torsion_exact_aux (f : Z -> epoint -> epoint) n :
  f = smul eadd ezero eopp -> f 8 ed_T = ezero -> f 4 ed_T <> ezero -> (f n ed_T = ezero <-> (8 | n)).
Proof.
  intros -> H8 H4. split.
  - exact (order_8_exact epoint eadd ezero eopp ed_laws ed_T n H8 H4).
  - intros [q ->]. rewrite (smul_mul _ _ _ _ ed_laws), H8. apply (smul_zero _ _ _ _ ed_laws).
Qed.
Lemma torsion_exact n : emul n ed_T = ezero <-> (8 | n).
Proof. exact (torsion_exact_aux emul n eq_refl eight_T four_T_nonzero). Qed.

Lemma shared_torsion r pw x P j :
  shared r pw x (eadd P (emul j ed_T)) = eadd (shared r pw x P) (emul ((x * j) mod 8) ed_T).
Proof.
  unfold shared. exact (torsion_effect epoint eadd ezero eopp ed_laws emul eq_refl x P _ j ed_T eight_T).
Qed.

Lemma shared_structure r pw x n k j :
  blind_log (peer r) n ->
  shared r pw x (eadd (emul k ed_B) (emul j ed_T))
  = eadd (emul (x * (k - pw_int pw * n)) ed_B) (emul ((x * j) mod 8) ed_T).
Proof.
  unfold blind_log, shared. intros ->.
  exact (shared_multiple epoint eadd ezero eopp ed_laws emul eq_refl x k (pw_int pw) n j ed_B ed_T eight_T).
Qed.

Lemma shared_in_subgroup_iff r pw x k j :
  emul ell (shared r pw x (eadd (emul k ed_B) (emul j ed_T))) = ezero <-> (8 | x * j).
Proof.
  destruct (blind_log_exists (peer r)) as (n & _ & Hn). rewrite (shared_structure r pw x n k j Hn).
  rewrite (kill_l epoint eadd ezero eopp ed_laws emul eq_refl ell (x * (k - pw_int pw * n)) ((x * j) mod 8)
             ed_B ed_T ell_B).
  rewrite torsion_exact. split.
  - intros H. apply Gauss in H; [|apply rel_prime_sym, ell_odd].
    apply Z.mod_divide; [discriminate|]. apply Z.mod_divide in H; [|discriminate].
    rewrite Zmod_mod in H. exact H.
  - intros H. apply Z.divide_mul_r. apply Z.mod_divide in H; [|discriminate]. rewrite H. apply Z.divide_0_r.
Qed.

(** ** Sessions *)

Lemma finish_decoded sd pw x enc P :
  bytes_to_element Ed25519Group enc = Some P ->
  finish Ed25519Group (session sd pw x) (tag (peer (role_of sd)) :: enc) =
  Ok (sha256 (transcript sd pw (compress (msg_point (role_of sd) pw (sval x))) enc
                (shared (role_of sd) pw (sval x) P))).
Proof.
  cbn [bytes_to_element Ed25519Group]. unfold ed_bytes_to_element.
  destruct (Nat.eqb_spec (length enc) 32) as [L|L]; [|intros H; discriminate H]. cbn [negb]. intros Hb.
  rewrite finish_ok. unfold finish_spec. cbn [length]. rewrite L. cbn [Nat.eqb].
  rewrite byte_eqb_refl, Hb. reflexivity.
Qed.

Lemma decoded_length enc P : bytes_to_element Ed25519Group enc = Some P -> length enc = 32%nat.
Proof.
  cbn [bytes_to_element Ed25519Group]. unfold ed_bytes_to_element.
  destruct (Nat.eqb_spec (length enc) 32) as [L|L]; [|intros H; discriminate H]. intros _. exact L.
Qed.

Lemma transcript_theirs_inj sd pw mine enc enc' K K' :
  length mine = 32%nat -> length enc = 32%nat -> length enc' = 32%nat ->
  transcript sd pw mine enc K = transcript sd pw mine enc' K' -> enc = enc'.
Proof.
  intros Lm L L'. destruct sd as [a b|a b|i]; cbn [transcript]; intros Q.
  - repeat split32 Q. exact Q4.
  - repeat split32 Q. exact Q3.
  - apply app_inj_length in Q; [|reflexivity]. destruct Q as [_ Q].
    apply app_inj_length in Q; [|reflexivity]. destruct Q as [_ Q].
    apply app_inj_length in Q; [|rewrite !sorted_length; lia]. destruct Q as [Q _].
    apply sorted_inj in Q; [|exact Lm|exact L|exact Lm|exact L'].
    destruct Q as [[_ Q]|[Q1 Q2]]; [exact Q|rewrite Q2; exact Q1].
Qed.
