(** * The hash functions of Hash.v are those of Fips180.v. *)
From Coq Require Import ZArith Znumtheory Lia.
From Verif Require Import Base.Bytes Base.BigUint Hash.Hash Hash.Fips180.
Local Open Scope nat_scope.

(** ** Bit strings *)

Lemma value_from s n : fold_left (fun n b => (2 * n + N.b2n b)%N) s n = (n * 2 ^ N.of_nat (length s) + value s)%N.
Proof.
  unfold value. revert n. induction s as [|b s IH]; intros n; cbn [fold_left length]; [cbn; lia|].
  rewrite IH, (IH (2 * 0 + _)%N), Nat2N.inj_succ, N.pow_succ_r'. generalize (2 ^ N.of_nat (length s))%N. intros p. nia.
Qed.
Lemma value_app s t : value (s ++ t) = (value s * 2 ^ N.of_nat (length t) + value t)%N.
Proof. unfold value at 1. now rewrite fold_left_app, value_from. Qed.
Lemma value_cons b s : value (b :: s) = (N.b2n b * 2 ^ N.of_nat (length s) + value s)%N.
Proof. change (b :: s) with ([b] ++ s). rewrite value_app. now destruct b. Qed.
Lemma pow2_pos n : (0 < 2 ^ n)%N.
Proof. apply N.neq_0_lt_0, N.pow_nonzero. discriminate. Qed.
Lemma value_bound s : (value s < 2 ^ N.of_nat (length s))%N.
Proof.
  induction s as [|b s IH]; [cbn; lia|]. rewrite value_cons. cbn [length]. rewrite Nat2N.inj_succ, N.pow_succ_r'.
  destruct b; cbn [N.b2n]; revert IH; generalize (2 ^ N.of_nat (length s))%N; intros; lia.
Qed.
Lemma value_inj s : forall t, length s = length t -> value s = value t -> s = t.
Proof.
  induction s as [|b s IH]; intros [|c t] HL; [reflexivity|discriminate HL|discriminate HL|]. injection HL as HL.
  rewrite !value_cons, HL. pose proof (value_bound s) as Bs. pose proof (value_bound t) as Bt. rewrite HL in Bs.
  intros E. assert (b = c) as <-.
  { destruct b, c; cbn [N.b2n] in E; try reflexivity; exfalso; revert Bs Bt E; generalize (2 ^ N.of_nat (length t))%N; intros; lia. }
  f_equal. apply IH; [exact HL|]. lia.
Qed.
(** [word] by its bits *)
Lemma word_spec w f i : N.testbit (word w f) (N.of_nat i) = (i <? w) && f i.
Proof.
  unfold word. induction w as [|w IH]; [apply N.bits_0|].
  rewrite seq_S, rev_app_distr. cbn [rev app map]. rewrite value_cons, map_length, rev_length, seq_length. cbn [Nat.add].
  pose proof (value_bound (map f (rev (seq 0 w)))) as B. rewrite map_length, rev_length, seq_length in B.
  destruct (Nat.lt_trichotomy i w) as [Hi|[->|Hi]].
  - rewrite (proj2 (Nat.ltb_lt i (S w))) by lia. rewrite (proj2 (Nat.ltb_lt i w)) in IH by lia. rewrite <- IH.
    rewrite <- (N.mod_pow2_bits_low _ (N.of_nat w)) by lia. rewrite N.add_comm, N.mod_add by (apply N.pow_nonzero; discriminate).
    now rewrite N.mod_pow2_bits_low by lia.
  - rewrite (proj2 (Nat.ltb_lt w (S w))) by lia. cbn [andb].  replace (N.of_nat w) with (0 + N.of_nat w)%N at 2 by lia. rewrite <- N.div_pow2_bits, N.add_comm, N.div_add, N.div_small by
      (exact B || (apply N.pow_nonzero; discriminate)). now destruct (f w).
  - rewrite (proj2 (Nat.ltb_ge i (S w))) by lia. cbn [andb].
    rewrite <- (N.mod_small (_ + _) (2 ^ N.of_nat (S w))).
    + apply N.mod_pow2_bits_high. lia.
    + rewrite Nat2N.inj_succ, N.pow_succ_r'. revert B. generalize (2 ^ N.of_nat w)%N. intros. destruct (f w); cbn [N.b2n]; lia.
Qed.
Lemma word_bound w f : (word w f < 2 ^ N.of_nat w)%N.
Proof. unfold word. pose proof (value_bound (map f (rev (seq 0 w)))) as B. now rewrite map_length, rev_length, seq_length in B. Qed.
Lemma bit_high w x i : (x < 2 ^ N.of_nat w)%N -> w <= i -> bit x i = false.
Proof. intros Hx Hi. unfold bit. rewrite <- (N.mod_small _ _ Hx). apply N.mod_pow2_bits_high. lia. Qed.
(** A number below 2^w is the word with the bits it has. *)
Lemma word_is w f x : (x < 2 ^ N.of_nat w)%N -> (forall i, i < w -> bit x i = f i) -> x = word w f.
Proof.
  intros Hx H. apply N.bits_inj. intros n. rewrite <- (N2Nat.id n). generalize (N.to_nat n). clear n. intros i.
  rewrite word_spec. destruct (Nat.ltb_spec i w); cbn [andb]; [now apply H|]. now apply (bit_high w).
Qed.
Lemma binary_value k n : value (binary k n) = (n mod 2 ^ N.of_nat k)%N.
Proof.
  symmetry. apply (word_is k (bit n)); [apply N.mod_lt, N.pow_nonzero; discriminate|].
  intros i Hi. apply N.mod_pow2_bits_low. lia.
Qed.
Lemma binary_length k n : length (binary k n) = k.
Proof. unfold binary. now rewrite map_length, rev_length, seq_length. Qed.

(** ** Octets *)
Lemma bits_length m : length (bits_of m) = 8 * length m.
Proof. induction m as [|b m IH]; [reflexivity|]. cbn [bits_of flat_map]. rewrite app_length. fold (bits_of m). rewrite IH. cbn. lia. Qed.
Lemma bits_app a b : bits_of (a ++ b) = bits_of a ++ bits_of b.
Proof. apply flat_map_app. Qed.
Lemma bits_skip n m : skipn (8 * n) (bits_of m) = bits_of (skipn n m).
Proof.
  revert m. induction n as [|n IH]; intros m; [reflexivity|]. destruct m as [|b m]; [now rewrite skipn_nil|].
  replace (8 * S n) with (8 + 8 * n) by lia. cbn [bits_of flat_map map app skipn Nat.add]. exact (IH m).
Qed.
Lemma bits_take n m : firstn (8 * n) (bits_of m) = bits_of (firstn n m).
Proof.
  revert m. induction n as [|n IH]; intros m; [reflexivity|]. destruct m as [|b m]; [now rewrite firstn_nil|].
  replace (8 * S n) with (8 + 8 * n) by lia. cbn [bits_of flat_map map app firstn Nat.add].
  change (flat_map _ m) with (bits_of m). change (flat_map _ (firstn n m)) with (bits_of (firstn n m)). now rewrite IH.
Qed.
Lemma bits_value m : value (bits_of m) = be_val m.
Proof.
  induction m as [|b m IH]; [reflexivity|]. cbn [bits_of flat_map be_val]. fold (bits_of m).
  rewrite value_app, IH, bits_length.
  assert (E : value (map (N.testbit (b2n b)) [7; 6; 5; 4; 3; 2; 1; 0]%N) = b2n b) by (now destruct b). rewrite E.
  rewrite Nat2N.inj_mul, N.pow_mul_r. reflexivity.
Qed.
Lemma octets_bits m : octets_of (bits_of m) = m.
Proof.
  unfold octets_of. rewrite bits_length. replace (8 * length m) with (length m * 8) by lia. rewrite Nat.div_mul by discriminate.
  induction m as [|b m IH]; [reflexivity|]. cbn [length seq map]. f_equal.
  - change (value (firstn 8 (skipn (8 * 0) (bits_of (b :: m))))) with (value (firstn 8 (bits_of (b :: m)))).
    change 8 with (8 * 1). rewrite (bits_take 1 (b :: m)), bits_value. cbn [firstn be_val length N.of_nat N.pow].
    now rewrite N.mul_1_r, N.add_0_r, n2b_b2n.
  - rewrite <- IH at 2. rewrite <- seq_shift, map_map. apply map_ext. intros i. do 2 f_equal. now rewrite !bits_skip.
Qed.
Lemma bits_be k n : bits_of (be_bytes k n) = binary (8 * k) n.
Proof.
  apply value_inj; [now rewrite bits_length, be_bytes_length, binary_length|].
  rewrite bits_value, binary_value. unfold be_bytes. rewrite be_val_rev, le_val_le_bytes, Nat2N.inj_mul, N.pow_mul_r. reflexivity.
Qed.
Lemma bits_repeat n : bits_of (repeat x00 n) = repeat false (8 * n).
Proof.
  induction n as [|n IH]; [reflexivity|]. replace (8 * S n) with (8 + 8 * n) by lia.
  change (repeat x00 (S n)) with ([x00] ++ repeat x00 n). rewrite bits_app, IH. reflexivity.
Qed.

(** ** Cutting into pieces *)
Lemma be_words_map n k l : 0 < k -> length l = k * n ->
  be_words n k l = map (fun j => be_val (firstn k (skipn (k * j) l))) (seq 0 n).
Proof.
  intros Hk. revert l. induction n as [|n IH]; intros l HL; [reflexivity|].
  destruct l as [|x l]; [cbn in HL; lia|]. cbn [be_words seq map]. rewrite Nat.mul_0_r. rewrite from_bytes_be_spec.
  apply (f_equal (cons _)). rewrite IH by (rewrite skipn_length; lia). rewrite <- seq_shift, map_map.
  apply map_ext. intros j. do 2 f_equal. rewrite Nat.mul_succ_r, Nat.add_comm. symmetry.
  generalize (k * j). clear. generalize (x :: l). intros l' m. revert l'. induction k as [|k IH]; intros l'; [reflexivity|].
  destruct l' as [|y l']; [now rewrite !skipn_nil|]. exact (IH l').
Qed.
Lemma skipn_skip {A} a b (l : list A) : skipn a (skipn b l) = skipn (b + a) l.
Proof. revert l. induction b as [|b IH]; intros l; [reflexivity|]. destruct l as [|y l]; [now rewrite !skipn_nil|]. exact (IH l). Qed.
Lemma blocks_map n k l : 0 < k -> forall fuel, n <= fuel -> length l = k * n ->
  blocks fuel k l = map (fun i => firstn k (skipn (k * i) l)) (seq 0 n).
Proof.
  intros Hk. revert l. induction n as [|n IH]; intros l fuel Hf HL.
  - rewrite Nat.mul_0_r in HL. destruct l; [|discriminate HL]. now destruct fuel.
  - destruct fuel as [|fuel]; [lia|]. destruct l as [|x l]; [cbn in HL; lia|]. cbn [blocks seq map]. rewrite Nat.mul_0_r.
    apply (f_equal (cons _)). rewrite IH by (rewrite ?skipn_length; lia). rewrite <- seq_shift, map_map.
    apply map_ext. intros j. rewrite skipn_skip. do 2 f_equal. lia.
Qed.

(** ** Padding *)
Lemma zeros_is w l k : 0 < w -> k < 16 * w -> (l + 1 + k) mod (16 * w) = 14 * w -> zeros w l = k.
Proof.
  intros Hw Hk H. unfold zeros. destruct (find _ _) as [k'|] eqn:E.
  - apply find_some in E. destruct E as [I E]. apply in_seq in I. apply Nat.eqb_eq in E.
    assert (H1 : (l + 1 + k) mod (16 * w) = (l + 1 + k') mod (16 * w)) by congruence.
    pose proof (Nat.div_mod_eq (l + 1 + k) (16 * w)) as D1. pose proof (Nat.div_mod_eq (l + 1 + k') (16 * w)) as D2.
    rewrite H in D1. rewrite E in D2.
    revert D1 D2. generalize ((l + 1 + k) / (16 * w)) ((l + 1 + k') / (16 * w)). intros q q' D1 D2. clear - Hk I D1 D2.
    set (B := 16 * w) in *. destruct (Nat.lt_trichotomy q q') as [C|[<-|C]]; nia.
  - exfalso. assert (I : In k (seq 0 (16 * w))) by (apply in_seq; lia). pose proof (find_none _ _ E k I) as F.
    cbv beta in F. rewrite H, Nat.eqb_refl in F. discriminate F.
Qed.
Lemma pad_zeros n wb (z := (16 * wb - (n + 1 + 2 * wb) mod (16 * wb)) mod (16 * wb)) : 0 < wb ->
  z < 16 * wb /\ (n + 1 + z) mod (16 * wb) = 14 * wb.
Proof.
  intros Hw. split; [apply Nat.mod_upper_bound; lia|].
  assert (Hz : exists q, n + 1 + 2 * wb + z = q * (16 * wb)).
  { set (B := 16 * wb) in *. pose proof (Nat.div_mod_eq (n + 1 + 2 * wb) B) as E. pose proof (Nat.mod_upper_bound (n + 1 + 2 * wb) B) as U.
    unfold z. destruct (Nat.eq_dec ((n + 1 + 2 * wb) mod B) 0) as [E0|E0].
    - rewrite E0 in *. rewrite Nat.sub_0_r, Nat.mod_same by lia. exists ((n + 1 + 2 * wb) / B). lia.
    - rewrite (Nat.mod_small (B - _)) by lia. exists ((n + 1 + 2 * wb) / B + 1). lia. }
  destruct Hz as [q Hz]. clearbody z. destruct q as [|q]; [lia|].
  replace (n + 1 + z) with (14 * wb + q * (16 * wb)) by lia. rewrite Nat.mod_add by lia. apply Nat.mod_small. lia.
Qed.
Lemma padded_is wb m : 0 < wb -> padded (8 * wb) (bits_of m) = bits_of (md_pad (16 * wb) (2 * wb) m).
Proof.
  intros Hw. unfold padded, md_pad. cbv zeta. destruct (pad_zeros (length m) wb Hw) as [Hz Hm].
  set (z := (16 * wb - (length m + 1 + 2 * wb) mod (16 * wb)) mod (16 * wb)) in *. clearbody z.
  rewrite (zeros_is (8 * wb) _ (7 + 8 * z)); [|lia|lia|].
  - rewrite !bits_app, bits_repeat, bits_be, bits_length. f_equal. change (bits_of [x80]) with ([true] ++ repeat false 7).
    rewrite repeat_app, <- !app_assoc. do 3 f_equal. f_equal; [lia|]. now rewrite Nat2N.inj_mul.
  - rewrite bits_length. replace (8 * length m + 1 + (7 + 8 * z)) with (8 * (length m + 1 + z)) by lia.
    replace (16 * (8 * wb)) with (8 * (16 * wb)) by lia. rewrite Nat.mul_mod_distr_l by lia. rewrite Hm. lia.
Qed.
Lemma md_pad_length wb m : 0 < wb -> exists n, length (md_pad (16 * wb) (2 * wb) m) = 16 * wb * n.
Proof.
  intros Hw. unfold md_pad. cbv zeta. destruct (pad_zeros (length m) wb Hw) as [Hz Hm].
  set (z := (16 * wb - (length m + 1 + 2 * wb) mod (16 * wb)) mod (16 * wb)) in *. clearbody z.
  rewrite !app_length, repeat_length, be_bytes_length. cbn [length].
  pose proof (Nat.div_mod_eq (length m + 1 + z) (16 * wb)) as E. rewrite Hm in E.
  exists (S ((length m + 1 + z) / (16 * wb))). rewrite Nat.mul_succ_r. lia.
Qed.

(** ** Words *)
Section Word.
Context (w : nat).
Notation bound := (2 ^ N.of_nat w)%N.
Notation bits := (N.of_nat w).
Notation mask := (N.ones (N.of_nat w)).

Lemma wadd_mod a b : wadd mask a b = ((a + b) mod bound)%N.
Proof. apply N.land_ones. Qed.
Lemma wadd_bound a b : (wadd mask a b < bound)%N.
Proof. rewrite wadd_mod. apply N.mod_lt, N.pow_nonzero. discriminate. Qed.
Lemma plus_bound l : (plus w l < bound)%N.
Proof. apply N.mod_lt, N.pow_nonzero. discriminate. Qed.

Lemma bits_bound x : (forall i, w <= i -> bit x i = false) -> (x < bound)%N.
Proof.
  intros H. assert (E : x = (x mod bound)%N).
  { apply N.bits_inj. intros n. destruct (N.lt_ge_cases n (N.of_nat w)) as [L|G].
    - now rewrite N.mod_pow2_bits_low.
    - rewrite N.mod_pow2_bits_high by exact G. rewrite <- (N2Nat.id n). apply H. lia. }
  rewrite E. apply N.mod_lt, N.pow_nonzero. discriminate.
Qed.
Lemma bit_xor x y i : bit (N.lxor x y) i = xorb (bit x i) (bit y i).
Proof. apply N.lxor_spec. Qed.
Lemma bit_and x y i : bit (N.land x y) i = bit x i && bit y i.
Proof. apply N.land_spec. Qed.
Lemma bit_or x y i : bit (N.lor x y) i = bit x i || bit y i.
Proof. apply N.lor_spec. Qed.
Lemma bit_mask i : bit mask i = (i <? w).
Proof.
  unfold bit. destruct (Nat.ltb_spec i w); [apply N.ones_spec_low; lia|apply N.ones_spec_high; lia].
Qed.
Lemma bit_shr x n i : bit (N.shiftr x (N.of_nat n)) i = bit x (i + n).
Proof. unfold bit. rewrite N.shiftr_spec by apply N.le_0_l. now rewrite Nat2N.inj_add. Qed.
Lemma bit_shl x n i : bit (N.shiftl x (N.of_nat n)) i = (n <=? i) && bit x (i - n).
Proof.
  unfold bit. destruct (Nat.leb_spec n i); cbn [andb].
  - rewrite N.shiftl_spec_high' by lia. f_equal. lia.
  - apply N.shiftl_spec_low. lia.
Qed.

Lemma xor3_is x y z : (x < bound -> y < bound -> z < bound -> N.lxor x (N.lxor y z) = XOR3 w x y z)%N.
Proof.
  intros Hx Hy Hz. apply word_is.
  - apply bits_bound. intros i Hi. rewrite !bit_xor, !(bit_high w) by assumption. reflexivity.
  - intros i _. now rewrite !bit_xor.
Qed.
Lemma ch_is x y z : (x < bound -> y < bound -> z < bound ->
  N.lxor (N.land x y) (N.land (wnot mask x) z) = Ch w x y z)%N.
Proof.
  intros Hx Hy Hz. unfold wnot. apply word_is.
  - apply bits_bound. intros i Hi. rewrite bit_xor, !bit_and, (bit_high w y), (bit_high w z) by assumption.
    now rewrite !andb_false_r.
  - intros i Hi. rewrite bit_xor, !bit_and, bit_xor, bit_mask, (proj2 (Nat.ltb_lt _ _) Hi).
    now destruct (bit x i), (bit y i), (bit z i).
Qed.
Lemma ch_or_is x y z : (x < bound -> y < bound -> z < bound ->
  N.lor (N.land x y) (N.land (wnot mask x) z) = Ch w x y z)%N.
Proof.
  intros Hx Hy Hz. unfold wnot. apply word_is.
  - apply bits_bound. intros i Hi. rewrite bit_or, !bit_and, (bit_high w y), (bit_high w z) by assumption.
    now rewrite !andb_false_r.
  - intros i Hi. rewrite bit_or, !bit_and, bit_xor, bit_mask, (proj2 (Nat.ltb_lt _ _) Hi).
    now destruct (bit x i), (bit y i), (bit z i).
Qed.
Lemma maj_is x y z : (x < bound -> y < bound -> z < bound ->
  N.lxor (N.land x y) (N.lxor (N.land x z) (N.land y z)) = Maj w x y z)%N.
Proof.
  intros Hx Hy Hz. apply word_is.
  - apply bits_bound. intros i Hi. rewrite !bit_xor, !bit_and, !(bit_high w) by assumption. reflexivity.
  - intros i _. rewrite !bit_xor, !bit_and. now destruct (bit x i), (bit y i), (bit z i).
Qed.
Lemma maj_or_is x y z : (x < bound -> y < bound -> z < bound ->
  N.lor (N.land x y) (N.lor (N.land x z) (N.land y z)) = Maj w x y z)%N.
Proof.
  intros Hx Hy Hz. apply word_is.
  - apply bits_bound. intros i Hi. rewrite !bit_or, !bit_and, !(bit_high w) by assumption. reflexivity.
  - intros i _. rewrite !bit_or, !bit_and. now destruct (bit x i), (bit y i), (bit z i).
Qed.
Lemma shr_is n x : (x < bound)%N -> N.shiftr x (N.of_nat n) = SHR w n x.
Proof.
  intros Hx. apply word_is.
  - apply bits_bound. intros i Hi. rewrite bit_shr. apply (bit_high w); [exact Hx|lia].
  - intros i Hi. rewrite bit_shr. destruct (Nat.ltb_spec (i + n) w); [reflexivity|]. apply (bit_high w); [exact Hx|lia].
Qed.
Lemma rotr_is n x : n <= w -> (x < bound)%N -> rotr bits mask (N.of_nat n) x = ROTR w n x.
Proof.
  intros Hn Hx. unfold rotr. rewrite <- Nat2N.inj_sub. apply word_is.
  - apply bits_bound. intros i Hi. rewrite bit_or, bit_shr, bit_and, bit_mask, (proj2 (Nat.ltb_ge _ _) Hi), andb_false_r, orb_false_r.
    apply (bit_high w); [exact Hx|lia].
  - intros i Hi. rewrite bit_or, bit_shr, bit_and, bit_shl, bit_mask, (proj2 (Nat.ltb_lt _ _) Hi), andb_true_r.
    destruct (Nat.leb_spec (w - n) i) as [G|G]; cbn [andb].
    + rewrite (bit_high w x (i + n)) by (exact Hx || lia). cbn [orb]. f_equal.
      replace (i + n) with (i - (w - n) + 1 * w) by lia. rewrite Nat.mod_add by lia. symmetry. apply Nat.mod_small. lia.
    + rewrite orb_false_r, Nat.mod_small by lia. reflexivity.
Qed.
Lemma rotl_is n x : n <= w -> (x < bound)%N -> rotl bits mask (N.of_nat n) x = ROTL w n x.
Proof. intros Hn Hx. unfold rotl. rewrite <- Nat2N.inj_sub. rewrite rotr_is by (exact Hx || lia). reflexivity. Qed.
Lemma rotr_bound n x : n <= w -> (x < bound)%N -> (rotr bits mask (N.of_nat n) x < bound)%N.
Proof. intros Hn Hx. rewrite rotr_is by assumption. apply word_bound. Qed.
Lemma plus2 a b : wadd mask a b = plus w [a; b].
Proof. rewrite wadd_mod. unfold plus. cbn [fold_right]. now rewrite N.add_0_r. Qed.
End Word.

(** Sums modulo 2^w *)
Section Sums.
Context (n : N) (Hn : n <> 0%N).
Definition eqm (a b : N) : Prop := (a mod n = b mod n)%N.
Lemma eqm_refl a : eqm a a.
Proof. reflexivity. Qed.
Lemma eqm_mod a b : eqm a b -> eqm (a mod n)%N b.
Proof. intros H. unfold eqm. now rewrite N.mod_mod. Qed.
Lemma eqm_add a a' b b' : eqm a a' -> eqm b b' -> eqm (a + b)%N (a' + b')%N.
Proof. unfold eqm. intros Ha Hb. rewrite (N.add_mod a b), (N.add_mod a' b') by exact Hn. now rewrite Ha, Hb. Qed.
Lemma eqm_sym a b : eqm a b -> eqm b a.
Proof. unfold eqm. congruence. Qed.
Lemma eqm_same a a' b b' : eqm a a' -> eqm b b' -> a' = b' -> (a mod n = b mod n)%N.
Proof. unfold eqm. intros -> -> ->. reflexivity. Qed.
End Sums.
Ltac strip H := repeat first [apply eqm_mod; [exact H|] | apply eqm_add; [exact H| |] | apply eqm_refl].
Ltac sum w :=
  rewrite ?(wadd_mod w); unfold plus; cbn [fold_right];
  let Hnz := fresh in pose proof (N.pow_nonzero 2 (N.of_nat w) ltac:(discriminate)) as Hnz;
  eapply (eqm_same _); [strip Hnz|strip Hnz|]; lia.

Lemma map_nth_seq {A} (l : list A) d : map (fun t => nth t l d) (seq 0 (length l)) = l.
Proof.
  induction l as [|a l IH]; [reflexivity|]. cbn [length seq map nth]. apply (f_equal (cons a)).
  rewrite <- seq_shift, map_map. exact IH.
Qed.
Lemma fold_map_seq {A B} (f : A -> B -> A) g n a :
  fold_left f (map g (seq 0 n)) a = nat_rect (fun _ => A) a (fun i x => f x (g i)) n.
Proof.
  induction n as [|n IH]; [reflexivity|]. rewrite seq_S, map_app, fold_left_app, IH. reflexivity.
Qed.

(** ** SHA-256 and SHA-512 *)
Section Sha2.
Context (P : sha2_params) (wb T : nat) (Hwb : 0 < wb).
Local Notation w := (8 * wb).
Local Notation bound := (2 ^ N.of_nat (8 * wb))%N.
Context (Hbits : s2_bits P = N.of_nat w) (Hmask : s2_mask P = N.ones (N.of_nat w)) (Hbytes : s2_wbytes P = wb).
Context (Sigma0 Sigma1 sigma0 sigma1 : N -> N).
Context (HS0 : forall x, (x < bound)%N -> bsig P (s2_S0 P) x = Sigma0 x).
Context (HS1 : forall x, (x < bound)%N -> bsig P (s2_S1 P) x = Sigma1 x).
Context (Hs0 : forall x, (x < bound)%N -> ssig P (s2_s0 P) x = sigma0 x).
Context (Hs1 : forall x, (x < bound)%N -> ssig P (s2_s1 P) x = sigma1 x).
Context (K : list N) (HK : s2_k P = K) (HT : length K = T).

Local Notation W := (W w sigma0 sigma1).
Definition list8 (s : words8) : list N := let '(a, b, c, d, e, f, g, h) := s in [a; b; c; d; e; f; g; h].
Definition small8 (s : words8) : Prop := Forall (fun x => (x < bound)%N) (list8 s).

Lemma W_length M t : length (W M t) = t.
Proof. induction t as [|t IH]; [reflexivity|]. cbn [Fips180.W]. rewrite app_length, IH. cbn. lia. Qed.
Lemma W_nth M t n : t < n -> nth t (W M n) 0%N = nth t (W M (S t)) 0%N.
Proof.
  intros H. induction n as [|n IH]; [lia|]. destruct (Nat.eq_dec t n) as [->|Hn]; [reflexivity|].
  rewrite <- IH by lia. cbn [Fips180.W]. rewrite app_nth1 by (rewrite W_length; lia). reflexivity.
Qed.
Lemma W_early M t n : t < n -> t < 16 -> nth t (W M n) 0%N = M t.
Proof.
  intros H H16. rewrite W_nth by exact H. cbn [Fips180.W]. rewrite app_nth2 by (rewrite W_length; lia).
  rewrite W_length, Nat.sub_diag. cbn [nth]. now rewrite (proj2 (Nat.ltb_lt _ _) H16).
Qed.
Lemma W_late M t n : t + 16 < n -> let x i := nth i (W M n) 0%N in
  x (t + 16) = plus w [sigma1 (x (t + 14)); x (t + 9); sigma0 (x (t + 1)); x t].
Proof.
  intros H x. unfold x. rewrite W_nth by exact H. cbn [Fips180.W]. rewrite app_nth2 by (rewrite W_length; lia).
  rewrite W_length, Nat.sub_diag. cbn [nth]. rewrite (proj2 (Nat.ltb_ge _ _)) by lia.
  replace (t + 16 - 2) with (t + 14) by lia. replace (t + 16 - 7) with (t + 9) by lia.
  replace (t + 16 - 15) with (t + 1) by lia. replace (t + 16 - 16) with t by lia.
  rewrite !(W_nth M _ (t + 16)), !(W_nth M _ n) by lia. reflexivity.
Qed.
Lemma W_bound M t n : (forall i, (M i < bound)%N) -> t < n -> (nth t (W M n) 0 < bound)%N.
Proof.
  intros HM H. rewrite W_nth by exact H. cbn [Fips180.W]. rewrite app_nth2 by (rewrite W_length; lia).
  rewrite W_length, Nat.sub_diag. cbn [nth]. destruct (t <? 16); [apply HM|apply plus_bound].
Qed.

Lemma sched_is x : (forall t, (x t < bound)%N) ->
  (forall t, x (t + 16) = plus w [sigma1 (x (t + 14)); x (t + 9); sigma0 (x (t + 1)); x t]) ->
  forall n t, sha2_sched P n (map x (seq t 16)) = map x (seq t n).
Proof.
  intros Hx Hr n. induction n as [|n IH]; intros t; [reflexivity|].
  change (seq t (S n)) with (t :: seq (S t) n). cbn [map].
  rewrite <- IH. cbn [seq map sha2_sched nth]. apply (f_equal (cons _)). f_equal. cbn [app]. do 15 apply (f_equal (cons _)).
  apply (f_equal (fun y => [y])). rewrite Hs0, Hs1 by apply Hx. rewrite Hmask.
  replace (S (S (S (S (S (S (S (S (S (S (S (S (S (S (S (S t)))))))))))))))) with (t + 16) by lia. rewrite Hr.
  replace (S (S (S (S (S (S (S (S (S (S (S (S (S (S t)))))))))))))) with (t + 14) by lia.
  replace (S (S (S (S (S (S (S (S (S t))))))))) with (t + 9) by lia.
  replace (S t) with (t + 1) by lia. sum (8 * wb).
Qed.

Lemma rounds_is Wl : forall n t s, small8 s ->
  let '(a, b, c, d, e, f, g, h) := s in
  sha2_rounds P (combine (map (fun t => nth t K 0%N) (seq t n)) (map (fun t => nth t Wl 0%N) (seq t n))) a b c d e f g h
  = list8 (fold_left (round w Sigma0 Sigma1 K Wl) (seq t n) s) /\
  small8 (fold_left (round w Sigma0 Sigma1 K Wl) (seq t n) s).
Proof.
  induction n as [|n IH]; intros t s Hs.
  { destruct s as [[[[[[[a b] c] d] e] f] g] h]. cbn. split; [reflexivity|exact Hs]. }
  cbn [seq map combine fold_left]. specialize (IH (S t) (round w Sigma0 Sigma1 K Wl s t)).
  destruct s as [[[[[[[a b] c] d] e] f] g] h]. unfold small8 in Hs. cbn [list8] in Hs.
  repeat match goal with H : Forall _ (_ :: _) |- _ => apply Forall_cons_iff in H; destruct H end.
  cbn [sha2_rounds round] in *. rewrite HS0, HS1, Hmask by assumption. rewrite (ch_is w), (maj_is w) by assumption.
  match type of IH with _ -> ?A = _ /\ _ => match goal with |- ?B = _ /\ _ => assert (E : B = A) end end.
  { f_equal; sum (8 * wb). }
  rewrite E. apply IH. unfold small8. cbn [list8]. repeat (constructor; [assumption || apply plus_bound|]). constructor.
Qed.

Lemma block_is M blk s : small8 s -> (forall j, (M j < bound)%N) -> be_words 16 wb blk = map M (seq 0 16) -> 16 <= T ->
  sha2_block P (list8 s) blk = list8 (next w T Sigma0 Sigma1 sigma0 sigma1 K M s) /\
  small8 (next w T Sigma0 Sigma1 sigma0 sigma1 K M s).
Proof.
  intros Hs HM Hb H16. unfold next.
  assert (Hw : sha2_sched P T (be_words 16 wb blk) = map (fun t => nth t (W M T) 0%N) (seq 0 T)).
  { set (x t := nth t (W M (T + 17 + t)) 0%N).
    assert (Hx : forall t n, t < n -> nth t (W M n) 0%N = x t).
    { intros t n H. unfold x. rewrite (W_nth M t n), (W_nth M t (T + 17 + t)) by lia. reflexivity. }
    transitivity (map x (seq 0 T)).
    - rewrite Hb. rewrite <- (sched_is x).
      + f_equal. apply map_ext_in. intros t Ht. apply in_seq in Ht. symmetry. unfold x. apply W_early; lia.
      + intros t. unfold x. apply W_bound; [exact HM|lia].
      + intros t. pose proof (W_late M t (t + 17) ltac:(lia)) as E. cbv beta zeta in E. rewrite !Hx in E by lia. exact E.
    - apply map_ext_in. intros t Ht. apply in_seq in Ht. symmetry. apply Hx. lia. }
  pose proof (rounds_is (W M T) T 0 s Hs) as Hr.
  destruct s as [[[[[[[a b] c] d] e] f] g] h].
  unfold sha2_block. cbn [list8]. rewrite HK, HT, Hbytes, Hw.
  assert (EK : combine K (map (fun t => nth t (W M T) 0%N) (seq 0 T))
             = combine (map (fun t => nth t K 0%N) (seq 0 T)) (map (fun t => nth t (W M T) 0%N) (seq 0 T))).
  { f_equal. rewrite <- HT. symmetry. apply map_nth_seq. }
  rewrite EK. destruct Hr as [-> Hr].
  destruct (fold_left (round w Sigma0 Sigma1 K (W M T)) (seq 0 T) (a, b, c, d, e, f, g, h)) as [[[[[[[a' b'] c'] d'] e'] f'] g'] h'].
  cbn [list8 combine map fst snd]. rewrite Hmask. split.
  - repeat (apply (f_equal2 cons); [sum (8 * wb)|]). reflexivity.
  - unfold small8. cbn [list8]. repeat (constructor; [apply plus_bound|]). constructor.
Qed.

Lemma sha2_is iv m : s2_iv P = list8 iv -> small8 iv -> 16 <= T ->
  bits_of (sha2 P m) = SHA2 w T Sigma0 Sigma1 sigma0 sigma1 K iv (bits_of m).
Proof.
  intros Hiv Siv H16. unfold sha2, SHA2. rewrite padded_is by exact Hwb. rewrite Hiv, Hbytes. unfold md_blocks.
  destruct (md_pad_length wb m Hwb) as [n Hn]. set (p := md_pad (16 * wb) (2 * wb) m) in *. clearbody p.
  rewrite (blocks_map n) by (exact Hn || lia || (rewrite Hn; nia)).
  rewrite bits_length, Hn. replace (8 * (16 * wb * n)) with (n * (16 * (8 * wb))) by lia. rewrite Nat.div_mul by lia.
  assert (G : forall i, i <= n ->
    fold_left (sha2_block P) (map (fun i => firstn (16 * wb) (skipn (16 * wb * i) p)) (seq 0 i)) (list8 iv)
    = list8 (Hash8 w T Sigma0 Sigma1 sigma0 sigma1 K iv (bits_of p) i) /\
    small8 (Hash8 w T Sigma0 Sigma1 sigma0 sigma1 K iv (bits_of p) i)).
  { induction i as [|i IH]; intros Hi; [split; [reflexivity|exact Siv]|]. destruct (IH ltac:(lia)) as [E S].
    rewrite seq_S, map_app, fold_left_app, E. cbn [map fold_left Nat.add Hash8].
    apply block_is; [exact S| | |exact H16].
    - intros j. unfold M_word. eapply N.lt_le_trans; [apply value_bound|]. apply N.pow_le_mono_r; [discriminate|].
      rewrite firstn_length. lia.
    - rewrite be_words_map by (rewrite ?firstn_length, ?skipn_length; nia). apply map_ext_in. intros j Hj. apply in_seq in Hj.
      unfold M_word. replace ((16 * i + j) * w) with (8 * (16 * wb * i + wb * j)) by lia.
      rewrite bits_skip, bits_take, bits_value. f_equal.
      rewrite <- skipn_skip. generalize (skipn (16 * wb * i) p). intros l.
      assert (wb * j + wb <= 16 * wb) by nia. revert H. generalize (16 * wb) (wb * j). clear. intros N a. revert N l.
      induction a as [|a IH]; intros N l HN.
      + cbn [skipn]. rewrite firstn_firstn. f_equal. lia.
      + destruct N as [|N]; [lia|]. destruct l as [|x l]; [reflexivity|]. cbn [firstn skipn]. apply IH. lia. }
  destruct (G n (le_n n)) as [-> _].
  destruct (Hash8 w T Sigma0 Sigma1 sigma0 sigma1 K iv (bits_of p) n) as [[[[[[[a b] c] d] e] f] g] h].
  cbn [list8 flat_map]. rewrite !bits_app, !bits_be, app_nil_r. reflexivity.
Qed.
End Sha2.

(** ** SHA-1 *)
Section Sha1.
Local Notation bound := (2 ^ N.of_nat 32)%N.
Definition list5 (s : words5) : list N := let '(a, b, c, d, e) := s in [a; b; c; d; e].
Definition small5 (s : words5) : Prop := Forall (fun x => (x < bound)%N) (list5 s).

Lemma W1_length M t : length (W1 M t) = t.
Proof. induction t as [|t IH]; [reflexivity|]. cbn [W1]. rewrite app_length, IH. cbn [length]. lia. Qed.
Lemma W1_nth M t n : t < n -> nth t (W1 M n) 0%N = nth t (W1 M (S t)) 0%N.
Proof.
  intros H. induction n as [|n IH]; [lia|]. destruct (Nat.eq_dec t n) as [->|Hn]; [reflexivity|].
  rewrite <- IH by lia. cbn [W1]. rewrite app_nth1 by (rewrite W1_length; lia). reflexivity.
Qed.
Lemma W1_early M t n : t < n -> t < 16 -> nth t (W1 M n) 0%N = M t.
Proof.
  intros H H16. rewrite W1_nth by exact H. cbn [W1]. rewrite app_nth2 by (rewrite W1_length; lia).
  rewrite W1_length, Nat.sub_diag. cbn [nth]. now rewrite (proj2 (Nat.ltb_lt _ _) H16).
Qed.
Lemma W1_late M t n : t + 16 < n -> let x i := nth i (W1 M n) 0%N in
  x (t + 16) = ROTL 32 1 (XOR3 32 (x (t + 13)) (x (t + 8)) (XOR3 32 (x (t + 2)) (x t) 0)).
Proof.
  intros H x. unfold x. rewrite W1_nth by exact H. cbn [W1]. rewrite app_nth2 by (rewrite W1_length; lia).
  rewrite W1_length, Nat.sub_diag. cbn [nth]. rewrite (proj2 (Nat.ltb_ge _ _)) by lia.
  replace (t + 16 - 3) with (t + 13) by lia. replace (t + 16 - 8) with (t + 8) by lia.
  replace (t + 16 - 14) with (t + 2) by lia. replace (t + 16 - 16) with t by lia.
  rewrite !(W1_nth M _ (t + 16)), !(W1_nth M _ n) by lia. reflexivity.
Qed.
Lemma W1_bound M t n : (forall i, (M i < bound)%N) -> t < n -> (nth t (W1 M n) 0 < bound)%N.
Proof.
  intros HM H. rewrite W1_nth by exact H. cbn [W1]. rewrite app_nth2 by (rewrite W1_length; lia).
  rewrite W1_length, Nat.sub_diag. cbn [nth]. destruct (t <? 16); [apply HM|apply word_bound].
Qed.
Lemma rotl1_is n x : n <= 32 -> (x < bound)%N -> rotl 32 mask32 (N.of_nat n) x = ROTL 32 n x.
Proof. exact (rotl_is 32 n x). Qed.
Lemma zero_small : (0 < bound)%N.
Proof. reflexivity. Qed.

Lemma sched1_is x : (forall t, (x t < bound)%N) ->
  (forall t, x (t + 16) = ROTL 32 1 (XOR3 32 (x (t + 13)) (x (t + 8)) (XOR3 32 (x (t + 2)) (x t) 0))) ->
  forall n t, sha1_sched n (map x (seq t 16)) = map x (seq t n).
Proof.
  intros Hx Hr n. induction n as [|n IH]; intros t; [reflexivity|].
  change (seq t (S n)) with (t :: seq (S t) n). cbn [map].
  rewrite <- IH. cbn [seq map sha1_sched nth]. apply (f_equal (cons _)). f_equal. cbn [app]. do 15 apply (f_equal (cons _)).
  apply (f_equal (fun y => [y])).
  replace (S (S (S (S (S (S (S (S (S (S (S (S (S (S (S (S t)))))))))))))))) with (t + 16) by lia. rewrite Hr.
  replace (S (S (S (S (S (S (S (S (S (S (S (S (S t))))))))))))) with (t + 13) by lia.
  replace (S (S (S (S (S (S (S (S t)))))))) with (t + 8) by lia.
  replace (S (S t)) with (t + 2) by lia.
  rewrite <- (xor3_is 32 (x (t + 2))), <- (xor3_is 32 (x (t + 13)))
    by (apply Hx || exact zero_small || (rewrite (xor3_is 32) by (apply Hx || exact zero_small); apply word_bound)).
  rewrite N.lxor_0_r, N.lxor_assoc. apply (rotl1_is 1); [lia|].
  pose proof (Hx (t + 13)) as A. pose proof (Hx (t + 8)) as B. pose proof (Hx (t + 2)) as C. pose proof (Hx t) as E.
  apply bits_bound. intros i Hi. rewrite !bit_xor, !(bit_high 32) by assumption. reflexivity.
Qed.

Lemma f1_is t x y z : (x < bound)%N -> (y < bound)%N -> (z < bound)%N -> sha1_f t x y z = f1 t x y z.
Proof.
  intros Hx Hy Hz. unfold sha1_f, f1. rewrite xor3_is with (w := 32), maj_or_is with (w := 32) by assumption.
  rewrite <- (ch_or_is 32) by assumption. reflexivity.
Qed.
Lemma rounds1_is Wl : forall n t s, small5 s ->
  let '(a, b, c, d, e) := s in
  sha1_rounds t (map (fun t => nth t Wl 0%N) (seq t n)) a b c d e = list5 (fold_left (round1 Wl) (seq t n) s) /\
  small5 (fold_left (round1 Wl) (seq t n) s).
Proof.
  induction n as [|n IH]; intros t s Hs.
  { destruct s as [[[[a b] c] d] e]. cbn. split; [reflexivity|exact Hs]. }
  cbn [seq map fold_left]. specialize (IH (S t) (round1 Wl s t)).
  destruct s as [[[[a b] c] d] e]. unfold small5 in Hs. cbn [list5] in Hs.
  repeat match goal with H : Forall _ (_ :: _) |- _ => apply Forall_cons_iff in H; destruct H end.
  cbn [sha1_rounds round1] in *.
  match type of IH with _ -> ?A = _ /\ _ => match goal with |- ?B = _ /\ _ => assert (E : B = A) end end.
  { f_equal.
    - rewrite (rotl1_is 5), f1_is by (assumption || lia). change (sha1_k t) with (K1 t). change mask32 with (N.ones (N.of_nat 32)).
      generalize (ROTL 32 5 a) (f1 t b c d) (K1 t) (nth t Wl 0%N). intros. sum 32.
    - apply (rotl1_is 30); [lia|assumption]. }
  rewrite E. apply IH. unfold small5. cbn [list5].
  repeat (constructor; [assumption || apply plus_bound || apply word_bound|]). constructor.
Qed.
Lemma block1_is M blk s : small5 s -> (forall j, (M j < bound)%N) -> be_words 16 4 blk = map M (seq 0 16) ->
  sha1_block (list5 s) blk = list5 (next1 M s) /\ small5 (next1 M s).
Proof.
  intros Hs HM Hb. unfold next1.
  assert (Hw : sha1_sched 80 (be_words 16 4 blk) = map (fun t => nth t (W1 M 80) 0%N) (seq 0 80)).
  { generalize 80. intros T. set (x t := nth t (W1 M (T + 17 + t)) 0%N).
    assert (Hx : forall t n, t < n -> nth t (W1 M n) 0%N = x t).
    { intros t n H. unfold x. rewrite (W1_nth M t n), (W1_nth M t (T + 17 + t)) by lia. reflexivity. }
    transitivity (map x (seq 0 T)).
    - rewrite Hb. rewrite <- (sched1_is x).
      + f_equal. apply map_ext_in. intros t Ht. apply in_seq in Ht. symmetry. unfold x. apply W1_early; lia.
      + intros t. unfold x. apply W1_bound; [exact HM|lia].
      + intros t. pose proof (W1_late M t (t + 17) ltac:(lia)) as E. cbv beta zeta in E. rewrite !Hx in E by lia. exact E.
    - apply map_ext_in. intros t Ht. apply in_seq in Ht. symmetry. apply Hx. lia. }
  pose proof (rounds1_is (W1 M 80) 80 0 s Hs) as Hr.
  destruct s as [[[[a b] c] d] e].
  unfold sha1_block. cbn [list5]. rewrite Hw. destruct Hr as [-> Hr]. clear Hw Hr.
  destruct (fold_left (round1 (W1 M 80)) (seq 0 80) (a, b, c, d, e)) as [[[[a' b'] c'] d'] e'].
  cbn [list5 combine map fst snd]. change mask32 with (N.ones (N.of_nat 32)). split.
  - repeat (apply (f_equal2 cons); [sum 32|]). reflexivity.
  - unfold small5. cbn [list5]. repeat (constructor; [apply plus_bound|]). constructor.
Qed.
Lemma piece {A} (l : list A) N a k : a + k <= N -> firstn k (skipn a (firstn N l)) = firstn k (skipn a l).
Proof.
  revert N l. induction a as [|a IH]; intros N l HN.
  - cbn [skipn]. rewrite firstn_firstn. f_equal. lia.
  - destruct N as [|N]; [lia|]. destruct l as [|x l]; [reflexivity|]. cbn [firstn skipn]. apply IH. lia.
Qed.
Lemma sha1_is m : bits_of (sha1 m) = SHA1 (bits_of m).
Proof.
  unfold sha1, SHA1. change 32 with (8 * 4). rewrite padded_is by lia. change (8 * 4) with 32. unfold md_blocks.
  change (md_pad 64 8) with (md_pad (16 * 4) (2 * 4)).
  destruct (md_pad_length 4 m ltac:(lia)) as [n Hn]. set (p := md_pad (16 * 4) (2 * 4) m) in *. clearbody p.
  change (16 * 4) with 64 in Hn.
  rewrite (blocks_map n) by (exact Hn || lia).
  rewrite bits_length, Hn. replace (8 * (64 * n)) with (n * (16 * 32)) by lia. rewrite Nat.div_mul by lia.
  assert (G : forall i, i <= n ->
    fold_left sha1_block (map (fun i => firstn 64 (skipn (64 * i) p)) (seq 0 i)) sha1_iv = list5 (Hash5 (bits_of p) i) /\
    small5 (Hash5 (bits_of p) i)).
  { induction i as [|i IH]; intros Hi; [split; [reflexivity|repeat constructor]|]. destruct (IH ltac:(lia)) as [E S].
    rewrite seq_S, map_app, fold_left_app, E. cbn [map fold_left Nat.add Hash5].
    apply block1_is; [exact S| |].
    - intros j. unfold M_word. eapply N.lt_le_trans; [apply value_bound|]. apply N.pow_le_mono_r; [discriminate|].
      rewrite firstn_length. lia.
    - rewrite be_words_map by (rewrite ?firstn_length, ?skipn_length; lia). apply map_ext_in. intros j Hj. apply in_seq in Hj.
      unfold M_word. replace ((16 * i + j) * 32) with (8 * (64 * i + 4 * j)) by lia. change 32 with (8 * 4).
      rewrite bits_skip, bits_take, bits_value. f_equal. rewrite <- skipn_skip. apply piece. lia. }
  destruct (G n (le_n n)) as [-> _]. destruct (Hash5 (bits_of p) n) as [[[[a b] c] d] e].
  cbn [list5 flat_map]. rewrite !bits_app, !bits_be, app_nil_r. reflexivity.
Qed.
End Sha1.

(** ** Constants *)
Lemma root_from_spec k n b : forall acc, (acc ^ k <= n < (acc + 2 ^ N.of_nat b) ^ k)%N ->
  (root_from b k n acc ^ k <= n < (root_from b k n acc + 1) ^ k)%N.
Proof.
  induction b as [|b IH]; intros acc H; [exact H|]. cbn [root_from]. cbv zeta. rewrite Nat2N.inj_succ, N.pow_succ_r' in H.
  destruct (N.leb_spec ((acc + 2 ^ N.of_nat b) ^ k) n) as [L|G]; apply IH; split; try lia.
  replace (acc + 2 ^ N.of_nat b + 2 ^ N.of_nat b)%N with (acc + 2 * 2 ^ N.of_nat b)%N by lia. lia.
Qed.
(** [root] is the root, rounded down *)
Lemma root_spec k n : (0 < k)%N -> (root k n ^ k <= n < (root k n + 1) ^ k)%N.
Proof.
  intros Hk. apply root_from_spec. rewrite N.pow_0_l by lia. split; [lia|]. rewrite N.add_0_l, N2Nat.id.
  apply N.lt_le_trans with (2 ^ N.size n)%N; [apply N.size_gt|].
  rewrite <- (N.pow_1_r (2 ^ N.size n)) at 1. apply N.pow_le_mono_r; [apply N.pow_nonzero; discriminate|lia].
Qed.
Lemma root_is k n r : (0 < k)%N -> (r ^ k <= n < (r + 1) ^ k)%N -> root k n = r.
Proof.
  intros Hk [A B]. destruct (root_spec k n Hk) as [C D].
  assert (X : (root k n < r + 1)%N) by (apply (N.pow_lt_mono_l_iff _ _ k); lia).
  assert (Y : (r < root k n + 1)%N) by (apply (N.pow_lt_mono_l_iff _ _ k); lia). lia.
Qed.
Definition fraction_check (k w p c : N) : bool :=
  let r := (root k p * 2 ^ w + c)%N in let n := (p * 2 ^ (k * w))%N in (r ^ k <=? n)%N && (n <? (r + 1) ^ k)%N && (c <? 2 ^ w)%N.
Lemma fraction_is k w p c : (0 < k)%N -> fraction_check k w p c = true -> fraction k w p = c.
Proof.
  intros Hk H. unfold fraction_check in H. cbv zeta in H. apply andb_true_iff in H. destruct H as [H C].
  apply andb_true_iff in H. destruct H as [A B]. apply N.leb_le in A. apply N.ltb_lt in B, C.
  unfold fraction. rewrite (root_is k _ _ Hk (conj A B)). rewrite N.add_comm, N.mod_add by (apply N.pow_nonzero; discriminate).
  now apply N.mod_small.
Qed.
Fixpoint fractions_check (k w : N) (ps cs : list N) : bool :=
  match ps, cs with
  | [], [] => true
  | p :: ps, c :: cs => fraction_check k w p c && fractions_check k w ps cs
  | _, _ => false
  end.
Lemma fractions_are k w : (0 < k)%N -> forall ps cs, fractions_check k w ps cs = true -> map (fraction k w) ps = cs.
Proof.
  intros Hk ps. induction ps as [|p ps IH]; intros [|c cs] H; try discriminate H; [reflexivity|].
  cbn [fractions_check] in H. apply andb_true_iff in H. destruct H as [A B]. cbn [map]. f_equal; [now apply fraction_is|now apply IH].
Qed.
(** [primes] are the primes below 410 *)
Lemma is_prime_spec n : is_prime n = true <-> prime (Z.of_nat n).
Proof.
  rewrite <- prime_alt. unfold is_prime, prime'. rewrite andb_true_iff, Nat.ltb_lt, forallb_forall. split.
  - intros [H1 H]. split; [lia|]. intros d Hd [q Hq]. specialize (H (Z.to_nat d)).
    rewrite negb_true_iff, N.eqb_neq in H. apply H; [apply in_seq; lia|].
    apply N.mod_divide; [lia|]. exists (Z.to_N q). apply N2Z.inj. rewrite N2Z.inj_mul, nat_N_Z, Z2N.id by nia.
    rewrite nat_N_Z, Z2Nat.id by lia. exact Hq.
  - intros [H1 H]. split; [lia|]. intros d Hd. apply in_seq in Hd. rewrite negb_true_iff, N.eqb_neq. intros E.
    apply N.mod_divide in E; [|lia]. destruct E as [q Hq]. apply (H (Z.of_nat d)); [lia|]. exists (Z.of_N q).
    apply (f_equal Z.of_N) in Hq. rewrite N2Z.inj_mul, !nat_N_Z in Hq. exact Hq.
Qed.
Lemma primes_spec p : In p primes <-> prime (Z.of_N p) /\ (p < 410)%N.
Proof.
  unfold primes. rewrite in_map_iff. split.
  - intros (n & <- & H). apply filter_In in H. destruct H as [I H]. apply in_seq in I. apply is_prime_spec in H.
    rewrite nat_N_Z. split; [exact H|lia].
  - intros [H L]. exists (N.to_nat p). split; [apply N2Nat.id|]. apply filter_In. split; [apply in_seq; lia|].
    apply is_prime_spec. now rewrite N_nat_Z.
Qed.
Lemma first8_firstn l : first8 l = first8 (firstn 8 l).
Proof. do 8 (destruct l as [|? l]; [reflexivity|]). reflexivity. Qed.
Definition primes_list : list N := Eval vm_compute in primes.
Lemma primes_are : primes = primes_list.
Proof.
  assert (E : (if list_eq_dec N.eq_dec primes primes_list then true else false) = true) by (vm_cast_no_check (eq_refl true)).
  destruct (list_eq_dec N.eq_dec primes primes_list) as [H|_]; [exact H|discriminate E].
Qed.
Lemma k256_check : fractions_check 3 32 (firstn 64 primes_list) (s2_k sha256_params) = true.
Proof. vm_cast_no_check (eq_refl true). Qed.
Lemma k512_check : fractions_check 3 64 (firstn 80 primes_list) (s2_k sha512_params) = true.
Proof. vm_cast_no_check (eq_refl true). Qed.
Lemma iv256_check : fractions_check 2 32 (firstn 8 primes_list) (s2_iv sha256_params) = true.
Proof. vm_cast_no_check (eq_refl true). Qed.
Lemma iv512_check : fractions_check 2 64 (firstn 8 primes_list) (s2_iv sha512_params) = true.
Proof. vm_cast_no_check (eq_refl true). Qed.
Lemma k256 : map (fraction 3 32) (firstn 64 primes) = s2_k sha256_params.
Proof. rewrite primes_are. exact (fractions_are 3 32 eq_refl _ _ k256_check). Qed.
Lemma k512 : map (fraction 3 64) (firstn 80 primes) = s2_k sha512_params.
Proof. rewrite primes_are. exact (fractions_are 3 64 eq_refl _ _ k512_check). Qed.
Lemma iv256 : first8 (map (fraction 2 32) primes) = first8 (s2_iv sha256_params).
Proof. rewrite first8_firstn, firstn_map, primes_are. rewrite (fractions_are 2 32 eq_refl _ _ iv256_check). reflexivity. Qed.
Lemma iv512 : first8 (map (fraction 2 64) primes) = first8 (s2_iv sha512_params).
Proof. rewrite first8_firstn, firstn_map, primes_are. rewrite (fractions_are 2 64 eq_refl _ _ iv512_check). reflexivity. Qed.

(** ** The two instances *)
Lemma sigma_big wb (P : sha2_params) a b c x : s2_bits P = N.of_nat (8 * wb) -> s2_mask P = N.ones (N.of_nat (8 * wb)) ->
  a <= 8 * wb -> b <= 8 * wb -> c <= 8 * wb -> (x < 2 ^ N.of_nat (8 * wb))%N ->
  bsig P (N.of_nat a, N.of_nat b, N.of_nat c) x = XOR3 (8 * wb) (ROTR (8 * wb) a x) (ROTR (8 * wb) b x) (ROTR (8 * wb) c x).
Proof.
  intros Hb Hm Ha Hb' Hc Hx. unfold bsig. rewrite Hb, Hm. rewrite !(rotr_is (8 * wb)) by assumption.
  apply xor3_is; apply word_bound.
Qed.
Lemma sigma_small wb (P : sha2_params) a b c x : s2_bits P = N.of_nat (8 * wb) -> s2_mask P = N.ones (N.of_nat (8 * wb)) ->
  a <= 8 * wb -> b <= 8 * wb -> (x < 2 ^ N.of_nat (8 * wb))%N ->
  ssig P (N.of_nat a, N.of_nat b, N.of_nat c) x = XOR3 (8 * wb) (ROTR (8 * wb) a x) (ROTR (8 * wb) b x) (SHR (8 * wb) c x).
Proof.
  intros Hb Hm Ha Hb' Hx. unfold ssig. rewrite Hb, Hm. rewrite !(rotr_is (8 * wb)), (shr_is (8 * wb)) by assumption.
  apply xor3_is; apply word_bound.
Qed.

Lemma sha256_is m : bits_of (sha256 m) = SHA256 (bits_of m).
Proof.
  unfold SHA256. cbv zeta. rewrite k256, iv256. unfold sha256.
  apply (sha2_is sha256_params 4 64 ltac:(lia) eq_refl eq_refl eq_refl).
  - intros x. exact (sigma_big 4 sha256_params 2 13 22 x eq_refl eq_refl ltac:(lia) ltac:(lia) ltac:(lia)).
  - intros x. exact (sigma_big 4 sha256_params 6 11 25 x eq_refl eq_refl ltac:(lia) ltac:(lia) ltac:(lia)).
  - intros x. exact (sigma_small 4 sha256_params 7 18 3 x eq_refl eq_refl ltac:(lia) ltac:(lia)).
  - intros x. exact (sigma_small 4 sha256_params 17 19 10 x eq_refl eq_refl ltac:(lia) ltac:(lia)).
  - reflexivity.
  - reflexivity.
  - reflexivity.
  - repeat constructor.
  - lia.
Qed.
Lemma sha512_is m : bits_of (sha512 m) = SHA512 (bits_of m).
Proof.
  unfold SHA512. cbv zeta. rewrite k512, iv512. unfold sha512.
  apply (sha2_is sha512_params 8 80 ltac:(lia) eq_refl eq_refl eq_refl).
  - intros x. exact (sigma_big 8 sha512_params 28 34 39 x eq_refl eq_refl ltac:(lia) ltac:(lia) ltac:(lia)).
  - intros x. exact (sigma_big 8 sha512_params 14 18 41 x eq_refl eq_refl ltac:(lia) ltac:(lia) ltac:(lia)).
  - intros x. exact (sigma_small 8 sha512_params 1 8 7 x eq_refl eq_refl ltac:(lia) ltac:(lia)).
  - intros x. exact (sigma_small 8 sha512_params 19 61 6 x eq_refl eq_refl ltac:(lia) ltac:(lia)).
  - reflexivity.
  - reflexivity.
  - reflexivity.
  - repeat constructor.
  - lia.
Qed.

(** ** HMAC and HKDF *)
Section Hmac.
Context (H : bytes -> bytes) (B hlen : nat) (Hlen : forall x, length (H x) = hlen) (HB : hlen <= B).
Lemma fill_is K : length K <= B -> map (fun i => nth i K x00) (seq 0 B) = K ++ repeat x00 (B - length K).
Proof.
  intros HK. clear Hlen HB. revert B HK. induction K as [|k K IH]; intros B HK.
  - cbn [length app]. rewrite Nat.sub_0_r. induction B as [|b IHb]; [reflexivity|].
    rewrite seq_S, map_app. specialize (IHb ltac:(cbn; lia)). rewrite IHb. cbn [map Nat.add]. replace (nth b [] x00) with x00 by (now destruct b).
    change [x00] with (repeat x00 1). rewrite <- repeat_app. f_equal. lia.
  - destruct B as [|b]; [cbn in HK; lia|]. cbn [length app seq map nth] in *. apply (f_equal (cons k)).
    rewrite <- seq_shift, map_map. apply IH. lia.
Qed.
Lemma hmac_is key m : hmac H B key m = HMAC H B key m.
Proof.
  unfold hmac, HMAC, HMAC_key. cbv zeta. destruct (Nat.ltb_spec B (length key)); rewrite fill_is by (rewrite ?Hlen; lia); reflexivity.
Qed.
Lemma hkdf_t_is prk info : forall n j,
  hkdf_t H B n prk info (HKDF_T H B prk info j) (N.of_nat (S j)) = flat_map (HKDF_T H B prk info) (seq (S j) n).
Proof.
  induction n as [|n IH]; intros j; [reflexivity|]. cbn [hkdf_t seq flat_map]. cbv zeta. rewrite hmac_is.
  change (HMAC H B prk (HKDF_T H B prk info j ++ info ++ [n2b (N.of_nat (S j))])) with (HKDF_T H B prk info (S j)).
  f_equal. rewrite <- IH. f_equal. lia.
Qed.
Lemma hkdf_expand_is prk info L : 0 < hlen ->
  hkdf_expand H B hlen prk info L = if 255 * hlen <? L then None else Some (HKDF_Expand H B hlen prk info L).
Proof.
  intros Hp. unfold hkdf_expand, HKDF_Expand. destruct (255 * hlen <? L); [reflexivity|]. do 2 f_equal.
  rewrite <- hkdf_t_is. f_equal. f_equal. lia.
Qed.
End Hmac.
