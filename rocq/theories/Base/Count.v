(** * Counting byte strings: how many strings of [n] bytes pass a test.

    With [n] uniform random bytes, the probability of passing the test [P] is [count n P / 256^n].
    Nothing here models the crates; it is the vocabulary of the statements about distributions. *)
From Coq Require Import ZArith NArith List Lia Bool FinFun.
From Verif.Base Require Import Bytes.
Import ListNotations.
Local Open Scope Z_scope.

Definition all_bytes : bytes := map (fun k => n2b (N.of_nat k)) (seq 0 256).
Fixpoint strings (n : nat) : list bytes :=
  match n with
  | O => [[]]
  | S n => flat_map (fun b => map (cons b) (strings n)) all_bytes
  end.
Definition count (n : nat) (P : bytes -> bool) : Z := Z.of_nat (length (filter P (strings n))).

Lemma in_all_bytes b : In b all_bytes.
Proof.
  unfold all_bytes. apply in_map_iff. exists (N.to_nat (b2n b)). split.
  - rewrite N2Nat.id. apply n2b_b2n.
  - apply in_seq. pose proof (b2n_lt b). lia.
Qed.
Lemma nodup_all_bytes : NoDup all_bytes.
Proof.
  apply (NoDup_map_inv b2n). unfold all_bytes. rewrite map_map.
  rewrite (map_ext_in _ N.of_nat).
  - apply Injective_map_NoDup; [intros a b H; lia|apply seq_NoDup].
  - intros k Hk. apply in_seq in Hk. rewrite b2n_n2b, N.mod_small by lia. reflexivity.
Qed.
Lemma length_all_bytes : length all_bytes = 256%nat.
Proof. unfold all_bytes. now rewrite map_length, seq_length. Qed.
Global Opaque all_bytes.

Lemma in_strings n b : In b (strings n) <-> length b = n.
Proof.
  revert b. induction n as [|n IH]; intros b; cbn [strings].
  - cbn. destruct b; cbn; split; try lia; try now left. intros [H|[]]. discriminate H.
  - rewrite in_flat_map. split.
    + intros (a & _ & H). apply in_map_iff in H. destruct H as (c & <- & H). apply IH in H. cbn. now rewrite H.
    + destruct b as [|a b]; cbn; intros H; [discriminate H|]. exists a. split; [apply in_all_bytes|].
      apply in_map. apply IH. now injection H.
Qed.
Lemma nodup_app {A} (l l' : list A) :
  NoDup l -> NoDup l' -> (forall x, In x l -> In x l' -> False) -> NoDup (l ++ l').
Proof.
  intros Hl Hl' H. induction Hl as [|a l Ha Hl IH]; [exact Hl'|]. cbn. constructor.
  - intros Hi. apply in_app_or in Hi. destruct Hi as [Hi|Hi]; [exact (Ha Hi)|exact (H a (or_introl eq_refl) Hi)].
  - apply IH. intros x H1 H2. exact (H x (or_intror H1) H2).
Qed.
(** Lists of lists, with an index that can be read off the elements. *)
Lemma nodup_flat_map {A B} (f : A -> list B) (l : list A) :
  NoDup l -> (forall a, In a l -> NoDup (f a)) ->
  (forall a a' x, In a l -> In a' l -> In x (f a) -> In x (f a') -> a = a') -> NoDup (flat_map f l).
Proof.
  intros Hl. induction Hl as [|a l Ha Hl IH]; intros H1 H2; cbn; [constructor|].
  apply nodup_app.
  - apply H1. now left.
  - apply IH; [intros b Hb; apply H1; now right|].
    intros b b' x Hb Hb'. apply H2; now right.
  - intros x Hx Hx'. apply in_flat_map in Hx'. destruct Hx' as (b & Hb & Hx').
    apply Ha. rewrite (H2 a b x); [exact Hb|now left|now right|exact Hx|exact Hx'].
Qed.
Lemma nodup_map {A B} (f : A -> B) (l : list A) :
  NoDup l -> (forall a a', In a l -> In a' l -> f a = f a' -> a = a') -> NoDup (map f l).
Proof.
  intros Hl. induction Hl as [|a l Ha Hl IH]; intros H; cbn; [constructor|]. constructor.
  - intros Hi. apply in_map_iff in Hi. destruct Hi as (b & E & Hb). apply Ha.
    rewrite (H a b); [exact Hb|now left|now right|now symmetry].
  - apply IH. intros b b' Hb Hb'. apply H; now right.
Qed.
Lemma nodup_strings n : NoDup (strings n).
Proof.
  induction n as [|n IH]; cbn [strings]; [constructor; [intros []|constructor]|].
  apply nodup_flat_map; [exact nodup_all_bytes| |].
  - intros a _. apply nodup_map; [exact IH|]. intros x y _ _ H. now injection H.
  - intros a a' x _ _ H H'. apply in_map_iff in H. apply in_map_iff in H'.
    destruct H as (u & <- & _), H' as (v & E & _). now injection E.
Qed.
Lemma flat_map_length_const {A B} (f : A -> list B) l k :
  (forall a, In a l -> length (f a) = k) -> length (flat_map f l) = (length l * k)%nat.
Proof.
  induction l as [|a l IH]; intros H; cbn; [reflexivity|].
  rewrite app_length, IH by (intros b Hb; apply H; now right). rewrite (H a) by now left. reflexivity.
Qed.
Lemma length_strings n : Z.of_nat (length (strings n)) = 256 ^ Z.of_nat n.
Proof.
  induction n as [|n IH]; [reflexivity|]. cbn [strings].
  rewrite (flat_map_length_const _ _ (length (strings n))) by (intros a _; apply map_length).
  rewrite length_all_bytes, Nat2Z.inj_mul, IH, (Nat2Z.inj_succ n), Z.pow_succ_r by lia. reflexivity.
Qed.
Global Opaque strings.

(** [count n P] is the length of any list without repetition of the strings that pass. *)
Lemma count_list n P l :
  NoDup l -> (forall b, In b l <-> length b = n /\ P b = true) -> count n P = Z.of_nat (length l).
Proof.
  intros ND H. unfold count. f_equal.
  assert (E : forall b, In b (filter P (strings n)) <-> In b l)
    by (intros b; rewrite filter_In, in_strings, H; reflexivity).
  apply Nat.le_antisymm; apply NoDup_incl_length; try exact ND; try (apply NoDup_filter, nodup_strings);
    intros b Hb; apply E; exact Hb.
Qed.
Lemma count_spec n P :
  exists l, NoDup l /\ (forall b, In b l <-> length b = n /\ P b = true) /\ count n P = Z.of_nat (length l).
Proof.
  exists (filter P (strings n)). split; [apply NoDup_filter, nodup_strings|]. split; [|reflexivity].
  intros b. now rewrite filter_In, in_strings.
Qed.
Lemma count_all n : count n (fun _ => true) = 256 ^ Z.of_nat n.
Proof.
  rewrite <- length_strings. apply count_list; [apply nodup_strings|].
  intros b. rewrite in_strings. tauto.
Qed.
Lemma count_nonneg n P : 0 <= count n P.
Proof. unfold count. lia. Qed.
Lemma count_ext n P Q : (forall b, length b = n -> P b = Q b) -> count n P = count n Q.
Proof.
  intros H. destruct (count_spec n Q) as (l & ND & Hl & ->). apply count_list; [exact ND|].
  intros b. rewrite Hl. split; intros [L E]; split; try exact L; now rewrite H in * by exact L.
Qed.
Lemma count_mono n P Q : (forall b, length b = n -> P b = true -> Q b = true) -> count n P <= count n Q.
Proof.
  intros H. destruct (count_spec n P) as (l & ND & Hl & ->). destruct (count_spec n Q) as (l' & ND' & Hl' & ->).
  apply inj_le, NoDup_incl_length; [exact ND|]. intros b Hb. apply Hl' . apply Hl in Hb. destruct Hb as [L E].
  split; [exact L|exact (H b L E)].
Qed.

(** The number of a string. *)
Definition zval (b : bytes) : Z := Z.of_N (le_val b).
Lemma zval_range n b : length b = n -> 0 <= zval b < 256 ^ Z.of_nat n.
Proof.
  intros <-. unfold zval. pose proof (le_val_bound b) as H. rewrite <- nat_N_Z.
  change 256 with (Z.of_N 256). rewrite <- N2Z.inj_pow. lia.
Qed.
Lemma zval_inj n b b' : length b = n -> length b' = n -> zval b = zval b' -> b = b'.
Proof. intros L L' E. apply le_val_inj; [congruence|]. unfold zval in E. lia. Qed.
Lemma zval_string n v : 0 <= v < 256 ^ Z.of_nat n -> zval (le_bytes n (Z.to_N v)) = v.
Proof.
  intros H. unfold zval. assert (Hv : (Z.to_N v < 256 ^ N.of_nat n)%N).
  { apply N2Z.inj_lt. rewrite Z2N.id by (exact (proj1 H)). rewrite N2Z.inj_pow, nat_N_Z. exact (proj2 H). }
  rewrite le_val_le_bytes, N.mod_small by exact Hv. apply Z2N.id. exact (proj1 H).
Qed.

(** Strings with values in an interval. *)
Lemma count_interval n lo hi P :
  0 <= lo <= hi -> (forall b, length b = n -> P b = true -> lo <= zval b < hi) -> count n P <= hi - lo.
Proof.
  intros Hlh H. destruct (count_spec n P) as (l & ND & Hl & ->).
  set (r := map (fun k => lo + Z.of_nat k) (seq 0 (Z.to_nat (hi - lo)))).
  assert (Lr : Z.of_nat (length r) = hi - lo) by (unfold r; rewrite map_length, seq_length; lia).
  rewrite <- Lr, <- (map_length zval). apply inj_le, NoDup_incl_length.
  - apply nodup_map; [exact ND|]. intros a b Ha Hb. apply Hl in Ha. apply Hl in Hb. now apply (zval_inj n).
  - intros v Hv. apply in_map_iff in Hv. destruct Hv as (b & <- & Hb). apply Hl in Hb. destruct Hb as [L E].
    specialize (H b L E). unfold r. apply in_map_iff. exists (Z.to_nat (zval b - lo)). split; [lia|].
    apply in_seq. lia.
Qed.

(** Two tests of the string's number modulo [q], related by an injection [f] of the residues: as many
    strings pass one as the other, but for the last incomplete round of residues. *)
Theorem count_transport n q (f : Z -> Z) (P Q : bytes -> bool) :
  0 < q -> (forall v, 0 <= v < q -> 0 <= f v < q) ->
  (forall v w, 0 <= v < q -> 0 <= w < q -> f v = f w -> v = w) ->
  (forall b b', length b = n -> length b' = n -> zval b' mod q = f (zval b mod q) -> P b = true -> Q b' = true) ->
  count n P <= count n Q + 256 ^ Z.of_nat n mod q.
Proof.
  intros Hq Hf Hinj HPQ.
  assert (HM : 0 < 256 ^ Z.of_nat n) by (apply Z.pow_pos_nonneg; lia).
  assert (RV : forall b, length b = n -> 0 <= zval b < 256 ^ Z.of_nat n) by (intros b L; now apply zval_range).
  assert (SV : forall v, 0 <= v < 256 ^ Z.of_nat n -> zval (le_bytes n (Z.to_N v)) = v)
    by (intros v Hv; now apply zval_string).
  revert HM RV SV. generalize (256 ^ Z.of_nat n). intros M HM RV SV.
  pose proof (Z.div_mod M q ltac:(lia)) as EM. pose proof (Z.mod_pos_bound M q Hq) as HR.
  assert (HK : 0 <= M / q) by (apply Z.div_pos; lia).
  revert EM HR HK. generalize (M / q) (M mod q). intros K R EM HR HK.
  set (low := fun b => zval b <? q * K).
  assert (Hqk : 0 <= q * K) by (apply Z.mul_nonneg_nonneg; lia).
  (* the strings that pass, low or high *)
  assert (S : count n P <= count n (fun b => P b && low b) + count n (fun b => P b && negb (low b))).
  { destruct (count_spec n P) as (l & ND & Hl & ->).
    destruct (count_spec n (fun b => P b && low b)) as (l1 & ND1 & Hl1 & ->).
    destruct (count_spec n (fun b => P b && negb (low b))) as (l2 & ND2 & Hl2 & ->).
    rewrite <- Nat2Z.inj_add, <- app_length. apply inj_le, NoDup_incl_length; [exact ND|].
    intros b Hb. apply Hl in Hb. destruct Hb as [L E]. apply in_or_app. destruct (low b) eqn:El; [left|right].
    - apply Hl1. split; [exact L|]. now rewrite E, El.
    - apply Hl2. split; [exact L|]. now rewrite E, El. }
  assert (S2 : count n (fun b => P b && negb (low b)) <= M - q * K).
  { apply count_interval; [lia|]. intros b L E. apply andb_prop in E. destruct E as [_ E].
    unfold low in E. apply negb_true_iff, Z.ltb_ge in E. specialize (RV b L). lia. }
  assert (S1 : count n (fun b => P b && low b) <= count n Q).
  { destruct (count_spec n (fun b => P b && low b)) as (l1 & ND1 & Hl1 & ->).
    destruct (count_spec n Q) as (l' & ND' & Hl' & ->).
    set (g := fun b => le_bytes n (Z.to_N (f (zval b mod q) + q * (zval b / q)))).
    assert (Hg : forall b, In b l1 -> length b = n /\ P b = true /\
               zval (g b) = f (zval b mod q) + q * (zval b / q) /\ 0 <= f (zval b mod q) < q).
    { intros b Hb. apply Hl1 in Hb. destruct Hb as [L E]. apply andb_prop in E. destruct E as [E El].
      apply Z.ltb_lt in El. specialize (RV b L). pose proof (Z.mod_pos_bound (zval b) q Hq) as Hm.
      specialize (Hf _ Hm). split; [exact L|]. split; [exact E|]. split; [|exact Hf].
      assert (Hd : 0 <= zval b / q <= K - 1).
      { split; [apply Z.div_pos; lia|]. assert (zval b / q < K); [|lia]. apply Z.div_lt_upper_bound; lia. }
      apply SV. revert Hf Hd. generalize (f (zval b mod q)) (zval b / q). intros u k Hu Hk.
      assert (q * k <= q * (K - 1)) by (apply Z.mul_le_mono_nonneg_l; lia). 
      assert (0 <= q * k) by (apply Z.mul_nonneg_nonneg; lia).
      replace (q * (K - 1)) with (q * K - q) in * by ring. lia. }
    rewrite <- (map_length g). apply inj_le, NoDup_incl_length.
    - apply nodup_map; [exact ND1|]. intros a b Ha Hb E. apply Hg in Ha. apply Hg in Hb.
      destruct Ha as (La & _ & Ea & Ra), Hb as (Lb & _ & Eb & Rb). apply (f_equal zval) in E.
      rewrite Ea, Eb in E. apply (zval_inj n _ _ La Lb).
      destruct (Z.div_mod_unique q (zval a / q) (zval b / q) (f (zval a mod q)) (f (zval b mod q))) as [E1 E2];
        [left; exact Ra|left; exact Rb|rewrite !(Z.add_comm (q * _)); exact E|].
      apply Hinj in E2; try (apply Z.mod_pos_bound; exact Hq).
      rewrite (Z.div_mod (zval a) q), (Z.div_mod (zval b) q) by lia. congruence.
    - intros x Hx. apply in_map_iff in Hx. destruct Hx as (b & <- & Hb). apply Hg in Hb.
      destruct Hb as (L & E & Eg & Rg). apply Hl'. split; [apply le_bytes_length|].
      apply (HPQ b); [exact L|apply le_bytes_length| |exact E].
      rewrite Eg. rewrite Z.mul_comm, Z.mod_add by lia. apply Z.mod_small. exact Rg. }
  lia.
Qed.

(** ** Two strings *)
Definition total (f : bytes -> Z) (l : list bytes) : Z := fold_right (fun a s => f a + s) 0 l.
Lemma total_le f g c l :
  (forall a, In a l -> f a <= g a + c) -> total f l <= total g l + c * Z.of_nat (length l).
Proof.
  induction l as [|a l IH]; intros H; [cbn; lia|].
  assert (H1 := H a (or_introl eq_refl)). assert (H2 := IH (fun b Hb => H b (or_intror Hb))).
  cbn [total fold_right length] in *. change (fold_right (fun a s => f a + s) 0 l) with (total f l) in *.
  change (fold_right (fun a s => g a + s) 0 l) with (total g l) in *. nia.
Qed.
Lemma total_ext f g l : (forall a, f a = g a) -> total f l = total g l.
Proof. intros H. induction l as [|a l IH]; [reflexivity|]. unfold total in *. cbn [fold_right]. now rewrite H, IH. Qed.
Lemma length_flat_total (f : bytes -> list bytes) l :
  Z.of_nat (length (flat_map f l)) = total (fun a => Z.of_nat (length (f a))) l.
Proof. induction l as [|a l IH]; cbn; [reflexivity|]. rewrite app_length, Nat2Z.inj_add, IH. reflexivity. Qed.
Lemma count_first n m P :
  count (n + m) P = total (fun a => count m (fun b => P (a ++ b))) (strings n).
Proof.
  unfold count at 2.
  transitivity (Z.of_nat (length (flat_map (fun a => map (app a) (filter (fun b => P (a ++ b)) (strings m))) (strings n)))).
  - apply count_list.
    + apply nodup_flat_map; [apply nodup_strings| |].
      * intros a _. apply nodup_map; [apply NoDup_filter, nodup_strings|]. intros x y _ _ H. now apply app_inv_head in H.
      * intros a a' x Ha Ha' H H'. apply in_map_iff in H. apply in_map_iff in H'.
        destruct H as (u & <- & _), H' as (v & E & _). apply in_strings in Ha. apply in_strings in Ha'.
        apply app_inj_length in E; [|congruence]. destruct E as [E _]. now symmetry.
    + intros b. rewrite in_flat_map. split.
      * intros (a & Ha & H). apply in_map_iff in H. destruct H as (c & <- & H). apply filter_In in H.
        destruct H as [H E]. rewrite in_strings in *. rewrite app_length. split; [congruence|exact E].
      * intros [L E]. exists (firstn n b). rewrite in_strings, firstn_length. split; [lia|].
        apply in_map_iff. exists (skipn n b). rewrite firstn_skipn. split; [reflexivity|].
        apply filter_In. rewrite in_strings, skipn_length, firstn_skipn. split; [lia|exact E].
  - rewrite length_flat_total. apply total_ext. intros a. now rewrite map_length.
Qed.
Lemma count_second n m P :
  count (n + m) P = total (fun b => count n (fun a => P (a ++ b))) (strings m).
Proof.
  unfold count at 2.
  transitivity (Z.of_nat (length (flat_map (fun b => map (fun a => a ++ b) (filter (fun a => P (a ++ b)) (strings n))) (strings m)))).
  - apply count_list.
    + apply nodup_flat_map; [apply nodup_strings| |].
      * intros b _. apply nodup_map; [apply NoDup_filter, nodup_strings|]. intros x y _ _ H. now apply app_inv_tail in H.
      * intros b b' x Hb Hb' H H'. apply in_map_iff in H. apply in_map_iff in H'.
        destruct H as (u & <- & Hu), H' as (v & E & Hv). apply filter_In in Hu. apply filter_In in Hv.
        destruct Hu as [Hu _], Hv as [Hv _]. rewrite in_strings in *.
        apply app_inj_length in E; [|congruence]. destruct E as [_ E]. now symmetry.
    + intros x. rewrite in_flat_map. split.
      * intros (b & Hb & H). apply in_map_iff in H. destruct H as (a & <- & H). apply filter_In in H.
        destruct H as [H E]. rewrite in_strings in *. rewrite app_length. split; [congruence|exact E].
      * intros [L E]. exists (skipn n x). rewrite in_strings, skipn_length. split; [lia|].
        apply in_map_iff. exists (firstn n x). rewrite firstn_skipn. split; [reflexivity|].
        apply filter_In. rewrite in_strings, firstn_length, firstn_skipn. split; [lia|exact E].
  - rewrite length_flat_total. apply total_ext. intros a. now rewrite map_length.
Qed.
