(** * The executable model of scrypt computes what RFC 7914 says *)
From Coq Require Import ZArith Lia.
From Verif Require Import Base.Bytes Base.Outcome Hash.Hash.
From Verif Require Import Aucpace.PwHash Aucpace.ScryptParams Aucpace.Scrypt Aucpace.ScryptSpec.
Local Open Scope nat_scope.

Definition word (v : N) : Prop := (v < 2 ^ 32)%N.
Definition good (w : list N) : Prop := length w = 16 /\ Forall word w.
Definition ub (w : list N) : bytes := flat_map (le_bytes 4) w.

(** ** Words *)

Lemma land_mask x : N.land x mask32 = (x mod 2 ^ 32)%N.
Proof. change mask32 with (N.ones 32). apply N.land_ones. Qed.
Lemma word_bits v m : word v -> (32 <= m)%N -> N.testbit v m = false.
Proof.
  intros H L. destruct (N.eq_dec v 0) as [->|Z]; [apply N.bits_0|]. apply N.bits_above_log2.
  apply N.log2_lt_pow2; [lia|]. unfold word in H. eapply N.lt_le_trans; [exact H|]. now apply N.pow_le_mono_r.
Qed.
Lemma bits_word v : (forall m, (32 <= m)%N -> N.testbit v m = false) -> word v.
Proof.
  intros H. unfold word.
  assert (E : v = (v mod 2 ^ 32)%N); [|rewrite E; apply N.mod_upper_bound; discriminate].
  apply N.bits_inj. intros m. destruct (N.lt_ge_cases m 32) as [L|L].
  - now rewrite N.mod_pow2_bits_low.
  - rewrite N.mod_pow2_bits_high by exact L. now apply H.
Qed.
Lemma mod_word x : word (x mod 2 ^ 32).
Proof. apply N.mod_upper_bound. discriminate. Qed.
Lemma lxor_word a b : word a -> word b -> word (N.lxor a b).
Proof. intros Ha Hb. apply bits_word. intros m Hm. now rewrite N.lxor_spec, !word_bits. Qed.

Lemma rotl_R x n : (n <= 32)%N -> rotl32 n (add32 x 0) = R x n.
Proof.
  intros Hn. unfold add32, rotl32, R. rewrite N.add_0_r, !land_mask. cbv zeta. pose proof (mod_word x) as Hw.
  generalize dependent (x mod 2 ^ 32)%N. clear x. intros x Hx.
  rewrite <- N.shiftl_mul_pow2, <- N.shiftr_div_pow2.
  assert (Z : N.land (N.shiftl x n mod 2 ^ 32) (N.shiftr x (32 - n)) = 0%N).
  { apply N.bits_inj. intros m. rewrite N.land_spec, N.bits_0. destruct (N.lt_ge_cases m 32) as [L|L].
    - rewrite N.mod_pow2_bits_low by exact L. destruct (N.lt_ge_cases m n) as [M|M].
      + now rewrite N.shiftl_spec_low.
      + rewrite N.shiftr_spec'. rewrite (word_bits x (m + (32 - n))) by (exact Hx || lia). apply Bool.andb_false_r.
    - now rewrite N.mod_pow2_bits_high. }
  rewrite N.add_nocarry_lxor, N.lxor_lor by exact Z.
  apply N.bits_inj. intros m. rewrite N.lor_spec. destruct (N.lt_ge_cases m 32) as [L|L].
  - now rewrite !N.mod_pow2_bits_low, N.lor_spec.
  - rewrite !N.mod_pow2_bits_high by exact L. rewrite N.shiftr_spec', word_bits by (exact Hx || lia). reflexivity.
Qed.
Lemma rotl_add a b n : (n <= 32)%N -> rotl32 n (add32 a b) = R (a + b) n.
Proof. intros H. rewrite <- rotl_R by exact H. unfold add32. now rewrite N.add_0_r. Qed.
Lemma rotl_word n x : word (rotl32 n x).
Proof. unfold rotl32. rewrite land_mask. apply mod_word. Qed.

Lemma quarter a b c d a' b' c' d' : quarter_round (a, b, c, d) = (a', b', c', d') ->
  N.lxor b (R (a + d) 7) = b' /\ N.lxor c (R (b' + a) 9) = c' /\ N.lxor d (R (c' + b') 13) = d' /\ N.lxor a (R (d' + c') 18) = a'.
Proof.
  intros E. unfold quarter_round in E. rewrite !rotl_add in E by lia. injection E as <- <- <- <-. now repeat split.
Qed.
Lemma quarter_word a b c d a' b' c' d' : quarter_round (a, b, c, d) = (a', b', c', d') ->
  word a -> word b -> word c -> word d -> word a' /\ word b' /\ word c' /\ word d'.
Proof.
  intros E Ha Hb Hc Hd. unfold quarter_round in E. injection E as <- <- <- <-.
  repeat split; apply lxor_word; (assumption || apply rotl_word).
Qed.
Lemma step_one l x i a b n v : N.lxor (nth i x 0%N) (R (nth a x 0 + nth b x 0)%N n) = v ->
  fold_left step ((i, a, b, n) :: l) x = fold_left step l (set i v x).
Proof. intros <-. reflexivity. Qed.
Lemma rounds x : length x = 16 -> fold_left step double_round_steps x = double_round x.
Proof.
  intros L. do 16 (destruct x as [|? x]; [discriminate L|]). destruct x; [|discriminate L]. clear L.
  unfold double_round.
  repeat match goal with |- context [quarter_round (?a, ?b, ?c, ?d)] =>
    let E := fresh "E" in destruct (quarter_round (a, b, c, d)) as [[[? ?] ?] ?] eqn:E;
    apply quarter in E; destruct E as (? & ? & ? & ?) end.
  unfold double_round_steps.
  do 32 (eapply eq_trans; [eapply step_one; cbn [nth]; eassumption|unfold set; cbn [firstn skipn app]]).
  reflexivity.
Qed.

Lemma words_all_double x : good x -> good (double_round x).
Proof.
  intros [L H]. do 16 (destruct x as [|? x]; [discriminate L|]). destruct x; [|discriminate L]. clear L.
  repeat match goal with H : Forall word (_ :: _) |- _ => inversion H; subst; clear H end.
  unfold double_round.
  repeat match goal with |- context [quarter_round (?a, ?b, ?c, ?d)] =>
    let E := fresh "E" in destruct (quarter_round (a, b, c, d)) as [[[? ?] ?] ?] eqn:E;
    apply quarter_word in E; [destruct E as (? & ? & ? & ?)|assumption..] end.
  split; [reflexivity|]. repeat (constructor; [assumption|]). constructor.
Qed.

(** ** Octets of words *)

Lemma ub_length w : length (ub w) = 4 * length w.
Proof. unfold ub. rewrite (flat_map_length _ 4) by apply le_bytes_length. lia. Qed.
Lemma octets_app a b n : length a = n -> octets (a ++ b) n (length b) = b.
Proof. intros <-. unfold octets. rewrite skipn_app, skipn_all, Nat.sub_diag. apply firstn_all. Qed.
Lemma octets_ub w i : Forall word w -> i < length w -> le_val (octets (ub w) (4 * i) 4) = nth i w 0%N.
Proof.
  revert i. induction w as [|v w IH]; intros i H L; cbn [length] in L; [lia|]. inversion H as [|? ? Hv Hw]; subst.
  destruct i as [|i].
  - unfold octets. change (4 * 0) with 0. cbn [skipn]. unfold ub. cbn [flat_map]. rewrite firstn_app, le_bytes_length, Nat.sub_diag, firstn_O, app_nil_r.
    rewrite firstn_all2 by (rewrite le_bytes_length; lia). rewrite le_val_le_bytes. apply N.mod_small. exact Hv.
  - cbn [nth]. rewrite <- IH by (exact Hw || lia). unfold octets. do 2 f_equal.
    unfold ub. cbn [flat_map]. rewrite skipn_app, skipn_all2 by (rewrite le_bytes_length; lia). rewrite le_bytes_length.
    cbn [app]. f_equal. lia.
Qed.
Lemma map_seq_nth {A} (d : A) l : map (fun i => nth i l d) (seq 0 (length l)) = l.
Proof.
  induction l as [|a l IH]; [reflexivity|]. cbn [length seq map nth]. f_equal. rewrite <- seq_shift, map_map. exact IH.
Qed.
Lemma input_words w : good w -> map (fun i => le_val (octets (ub w) (4 * i) 4)) (seq 0 16) = w.
Proof.
  intros [L H]. transitivity (map (fun i => nth i w 0%N) (seq 0 (length w))); [|apply map_seq_nth]. rewrite L. apply map_ext_in. intros i Hi. apply in_seq in Hi. apply octets_ub; [exact H|lia].
Qed.
Lemma zip_with_nth f a b : length a = length b ->
  zip_with f a b = map (fun i => f (nth i a 0%N) (nth i b 0%N)) (seq 0 (length a)).
Proof.
  revert b. induction a as [|x a IH]; intros [|y b] L; try discriminate L; [reflexivity|].
  cbn [zip_with length seq map nth]. f_equal. rewrite <- seq_shift, map_map. apply IH. now injection L.
Qed.
Lemma zip_good f w w' : (forall a b, word a -> word b -> word (f a b)) -> good w -> good w' -> good (zip_with f w w').
Proof.
  intros F [L H] [L' H']. split.
  - rewrite zip_with_nth by congruence. now rewrite map_length, seq_length.
  - clear L L'. revert w' H'. induction H as [|a w Ha _ IH]; intros w' H'; [constructor|]. destruct H' as [|b w' Hb H']; [constructor|].
    cbn [zip_with]. constructor; [now apply F|now apply IH].
Qed.
Lemma add32_word a b : word (add32 a b).
Proof. unfold add32. rewrite land_mask. apply mod_word. Qed.
Lemma salsa_good w : good w -> good (salsa20_8 w).
Proof. intros H. unfold salsa20_8. apply zip_good; [intros; apply add32_word|now repeat apply words_all_double|exact H]. Qed.
Lemma salsa_ok w : good w -> salsa20_core (ub w) = ub (salsa20_8 w).
Proof.
  intros H. unfold salsa20_core. rewrite input_words by exact H. cbv zeta.
  assert (E : Nat.iter 4 (fun x => fold_left step double_round_steps x) w = double_round (double_round (double_round (double_round w)))).
  { unfold Nat.iter. cbn [nat_rect]. rewrite (rounds w) by apply H. rewrite (rounds (double_round w)) by now apply words_all_double.
    rewrite (rounds (double_round (double_round w))) by now repeat apply words_all_double.
    rewrite rounds by now repeat apply words_all_double. reflexivity. }
  rewrite E. unfold salsa20_8. assert (G : good (double_round (double_round (double_round (double_round w))))) by now repeat apply words_all_double.
  destruct G as [G _]. generalize dependent (double_round (double_round (double_round (double_round w)))). intros z _ G.
  rewrite zip_with_nth by (destruct H; congruence). unfold ub. rewrite G, !flat_map_concat_map, map_map. f_equal.
  apply map_ext. intros i. unfold add32. now rewrite land_mask.
Qed.

(** ** Exclusive or *)

Lemma xor_nil b : xor [] b = [].
Proof. reflexivity. Qed.
Lemma xor_cons x a y b : xor (x :: a) (y :: b) = n2b (N.lxor (b2n x) (b2n y)) :: xor a b.
Proof. unfold xor. cbn [length seq map nth]. f_equal. rewrite <- seq_shift, map_map. reflexivity. Qed.
Lemma xor_app a a' b b' : length a = length b -> xor (a ++ a') (b ++ b') = xor a b ++ xor a' b'.
Proof.
  revert b. induction a as [|x a IH]; intros [|y b] L; try discriminate L; [reflexivity|].
  cbn [app]. rewrite !xor_cons. cbn [app]. f_equal. apply IH. now injection L.
Qed.
Lemma n2b_mod n : n2b (n mod 256) = n2b n.
Proof. unfold n2b. now rewrite N.mod_mod. Qed.
Lemma xor_le_bytes k a b : xor (le_bytes k a) (le_bytes k b) = le_bytes k (N.lxor a b).
Proof.
  revert a b. induction k as [|k IH]; intros a b; [reflexivity|]. cbn [le_bytes]. rewrite xor_cons, IH. f_equal.
  - rewrite !b2n_n2b, <- (n2b_mod (N.lxor a b)), <- (n2b_mod (N.lxor _ _)). f_equal. change 256%N with (2 ^ 8)%N.
    apply N.bits_inj. intros m. destruct (N.lt_ge_cases m 8) as [L|L].
    + now rewrite !N.mod_pow2_bits_low, !N.lxor_spec, !N.mod_pow2_bits_low.
    + now rewrite !N.mod_pow2_bits_high.
  - f_equal. change 256%N with (2 ^ 8)%N. rewrite <- !N.shiftr_div_pow2. symmetry. apply N.shiftr_lxor.
Qed.
Lemma xor_ub w w' : length w = length w' -> xor (ub w) (ub w') = ub (zip_with N.lxor w w').
Proof.
  revert w'. induction w as [|a w IH]; intros [|b w'] L; try discriminate L; [reflexivity|].
  unfold ub in *. cbn [flat_map zip_with]. rewrite xor_app by now rewrite !le_bytes_length. rewrite xor_le_bytes. f_equal.
  apply IH. now injection L.
Qed.

(** ** Lists of blocks *)

Lemma unwords_length x : Forall good x -> length (unwords x) = 64 * length x.
Proof.
  intros H. induction H as [|w x [Hw _] _ IH]; [reflexivity|]. unfold unwords in *. cbn [flat_map length]. rewrite app_length, IH.
  change (length (ub w) + 64 * length x = 64 * S (length x)). rewrite ub_length. lia.
Qed.
Lemma block_unwords x i : Forall good x -> i < length x -> block (unwords x) i = ub (nth i x []).
Proof.
  intros H. revert i. induction H as [|w x [Hw _] _ IH]; intros i L; cbn [length] in L; [lia|].
  assert (Lw : length (ub w) = 64) by (rewrite ub_length; lia). change (unwords (w :: x)) with (ub w ++ unwords x).
  destruct i as [|i].
  - unfold block, octets. change (64 * 0) with 0. cbn [skipn nth]. rewrite firstn_app, Lw, Nat.sub_diag, firstn_O, app_nil_r. apply firstn_all2. lia.
  - cbn [nth]. rewrite <- IH by lia. unfold block, octets. f_equal. rewrite skipn_app, skipn_all2 by lia. rewrite Lw. cbn [app]. f_equal. lia.
Qed.
Lemma zip_blocks_good x y : Forall good x -> Forall good y -> Forall good (zip_blocks x y).
Proof.
  intros H. revert y. induction H as [|w x Hw _ IH]; intros y Hy; [constructor|]. destruct Hy as [|v y Hv Hy]; [constructor|].
  cbn [zip_blocks]. constructor; [now apply zip_good; [apply lxor_word|..]|now apply IH].
Qed.
Lemma zip_blocks_length x y : length x = length y -> length (zip_blocks x y) = length x.
Proof. revert y. induction x as [|w x IH]; intros [|v y] L; try discriminate L; [reflexivity|]. cbn [zip_blocks length]. f_equal. apply IH. now injection L. Qed.
Lemma xor_unwords x y : Forall good x -> Forall good y -> length x = length y ->
  xor (unwords x) (unwords y) = unwords (zip_blocks x y).
Proof.
  intros H. revert y. induction H as [|w x Hw _ IH]; intros y Hy L; destruct Hy as [|v y Hv Hy]; try discriminate L; [reflexivity|].
  change (xor (ub w ++ unwords x) (ub v ++ unwords y) = ub (zip_with N.lxor w v) ++ unwords (zip_blocks x y)).
  destruct Hw as [Lw _], Hv as [Lv _]. rewrite xor_app by (rewrite !ub_length; lia). rewrite xor_ub by congruence. f_equal.
  apply IH; [exact Hy|now injection L].
Qed.

(** ** BlockMix *)

Lemma mix_good x b : good x -> Forall good b -> Forall good (mix_blocks x b).
Proof.
  intros Hx Hb. revert x Hx. induction Hb as [|w b Hw _ IH]; intros x Hx; [constructor|]. cbn [mix_blocks]. cbv zeta.
  assert (G : good (salsa20_8 (zip_with N.lxor x w))) by (apply salsa_good, zip_good; [apply lxor_word|assumption..]).
  constructor; [exact G|now apply IH].
Qed.
Lemma mix_length x b : length (mix_blocks x b) = length b.
Proof. revert x. induction b as [|w b IH]; intros x; [reflexivity|]. cbn [mix_blocks length]. cbv zeta. cbn [length]. f_equal. apply IH. Qed.
Lemma mix_nth x b i : i < length b ->
  nth i (mix_blocks x b) [] = salsa20_8 (zip_with N.lxor (match i with O => x | S j => nth j (mix_blocks x b) [] end) (nth i b [])).
Proof.
  revert x i. induction b as [|w b IH]; intros x i L; cbn [length] in L; [lia|]. cbn [mix_blocks]. cbv zeta.
  destruct i as [|i]; [reflexivity|]. cbn [nth]. rewrite IH by lia. destruct i; reflexivity.
Qed.
Lemma last_nth {A} (l : list A) d : last l d = nth (length l - 1) l d.
Proof.
  induction l as [|a l IH]; [reflexivity|]. destruct l as [|b l]; [reflexivity|].
  change (last (a :: b :: l) d) with (last (b :: l) d). rewrite IH. cbn [length]. replace (S (S (length l)) - 1) with (S (S (length l) - 1)) by lia. reflexivity.
Qed.
Lemma nth_good x i : Forall good x -> i < length x -> good (nth i x []).
Proof. intros H L. rewrite Forall_forall in H. apply H. now apply nth_In. Qed.
Lemma Y_ok r x i : Forall good x -> length x = 2 * r -> i < 2 * r ->
  Y r (unwords x) i = ub (nth i (mix_blocks (last x []) x) []).
Proof.
  intros H L. assert (G : forall i, i < 2 * r -> good (nth i (mix_blocks (last x []) x) [])).
  { intros j Hj. apply nth_good; [apply mix_good; [|exact H]|rewrite mix_length; lia].
    rewrite last_nth. apply nth_good; [exact H|lia]. }
  induction i as [|i IH]; intros Hi; cbn [Y].
  - rewrite !block_unwords by (exact H || lia). rewrite mix_nth by lia.
    assert (G1 : good (nth (2 * r - 1) x [])) by (apply nth_good; [exact H|lia]).
    assert (G2 : good (nth 0 x [])) by (apply nth_good; [exact H|lia]).
    rewrite xor_ub by (destruct G1, G2; congruence). rewrite last_nth, L. apply salsa_ok. now apply zip_good; [apply lxor_word|..].
  - rewrite IH by lia. rewrite !block_unwords by (exact H || lia). rewrite (mix_nth _ _ (S i)) by lia.
    assert (G1 : good (nth i (mix_blocks (last x []) x) [])) by (apply G; lia).
    assert (G2 : good (nth (S i) x [])) by (apply nth_good; [exact H|lia]).
    rewrite xor_ub by (destruct G1, G2; congruence). apply salsa_ok. now apply zip_good; [apply lxor_word|..].
Qed.
Lemma evens_nth {A} (d : A) r l : length l = 2 * r -> evens l = map (fun i => nth (2 * i) l d) (seq 0 r).
Proof.
  revert l. induction r as [|r IH]; intros l L; [destruct l; [reflexivity|discriminate L]|].
  destruct l as [|a [|b l]]; [discriminate L|cbn in L; lia|]. cbn [evens seq map]. apply (f_equal (cons a)).
  rewrite IH by (cbn [length] in L; lia). rewrite <- seq_shift, map_map. apply map_ext. intros i.
  replace (2 * S i) with (S (S (2 * i))) by lia. reflexivity.
Qed.
Lemma odds_nth {A} (d : A) r l : length l = 2 * r -> odds l = map (fun i => nth (2 * i + 1) l d) (seq 0 r).
Proof.
  unfold odds. revert l. induction r as [|r IH]; intros l L; [destruct l; [reflexivity|discriminate L]|].
  destruct l as [|a [|b l]]; [discriminate L|cbn in L; lia|]. cbn [tl seq map].
  destruct l as [|c l].
  - assert (r = 0) by (cbn [length] in L; lia). subst r. reflexivity.
  - cbn [evens]. apply (f_equal (cons b)). change (evens l) with (evens (tl (c :: l))). rewrite IH by (cbn [length] in *; lia).
    rewrite <- seq_shift, map_map. apply map_ext. intros i.
    replace (2 * S i + 1) with (S (S (2 * i + 1))) by lia. reflexivity.
Qed.
Lemma block_mix_good x : Forall good x -> Forall good (block_mix x).
Proof.
  intros H. assert (E : forall l, Forall good l -> Forall good (evens l)).
  { intros l. assert (HI : forall n l, length l <= n -> Forall good l -> Forall good (evens l)); [|exact (HI _ l (le_n _))].
    clear. induction n as [|n IH]; intros l L Hl; (destruct l as [|a [|b l]]; [constructor|..]); cbn [length] in L; try lia.
    - exact Hl.
    - inversion Hl as [|? ? Ha Hl']; subst. inversion Hl'; subst. cbn [evens]. constructor; [exact Ha|]. apply IH; [lia|assumption]. }
  unfold block_mix. cbv zeta. destruct x as [|w x]; [constructor|].
  assert (G : Forall good (mix_blocks (last (w :: x) []) (w :: x))).
  { apply mix_good; [|exact H]. rewrite last_nth. apply nth_good; [exact H|cbn [length]; lia]. }
  apply Forall_app. split; [now apply E|]. apply E. destruct G; [constructor|assumption].
Qed.
Lemma block_mix_ok r x : Forall good x -> length x = 2 * r -> scryptBlockMix r (unwords x) = unwords (block_mix x).
Proof.
  intros H L. unfold block_mix. cbv zeta. rewrite (evens_nth [] r), (odds_nth [] r) by (rewrite mix_length; exact L).
  unfold scryptBlockMix, unwords at 3. rewrite flat_map_app. f_equal; rewrite !flat_map_concat_map, map_map; f_equal; apply map_ext_in;
    intros i Hi; apply in_seq in Hi; apply Y_ok; (assumption || lia).
Qed.
Lemma block_mix_length r x : length x = 2 * r -> length (block_mix x) = 2 * r.
Proof.
  intros L. unfold block_mix. cbv zeta. rewrite (evens_nth [] r), (odds_nth [] r) by (rewrite mix_length; exact L).
  rewrite app_length, !map_length, seq_length. lia.
Qed.

(** ** ROMix *)

Lemma iter_S {A} (f : A -> A) n a : Nat.iter (S n) f a = f (Nat.iter n f a).
Proof. reflexivity. Qed.
Lemma fill n x v : ro_fill n x v = (Nat.iter n block_mix x, rev (map (fun i => Nat.iter i block_mix x) (seq 0 n)) ++ v).
Proof.
  revert x v. induction n as [|n IH]; intros x v; [reflexivity|]. cbn [ro_fill]. rewrite IH.
  assert (S1 : forall k y, Nat.iter k block_mix (block_mix y) = Nat.iter (S k) block_mix y).
  { induction k as [|k IHk]; intros y; [reflexivity|]. cbn [Nat.iter nat_rect] in *. unfold Nat.iter in *. cbn [nat_rect]. now rewrite IHk. }
  rewrite S1. f_equal. cbn [seq map rev]. rewrite <- app_assoc. cbn [app].
  rewrite <- seq_shift, map_map. rewrite (map_ext _ (fun i => Nat.iter (S i) block_mix x)) by (intros k; apply S1). reflexivity.
Qed.
Lemma walk k n v x : ro_walk k n v x = Nat.iter k (fun x => block_mix (zip_blocks x (nth (N.to_nat (integerify x n)) v []))) x.
Proof.
  revert x. induction k as [|k IH]; intros x; [reflexivity|]. cbn [ro_walk]. rewrite IH.
  change (block_mix (zip_blocks x (nth (N.to_nat (integerify x n)) v []))) with ((fun x => block_mix (zip_blocks x (nth (N.to_nat (integerify x n)) v []))) x).
  generalize (fun x => block_mix (zip_blocks x (nth (N.to_nat (integerify x n)) v []))). clear. intros f.
  induction k as [|k IH]; [reflexivity|]. unfold Nat.iter in *. cbn [nat_rect] in *. now rewrite IH.
Qed.
Definition shape (r : nat) (x : list (list N)) : Prop := Forall good x /\ length x = 2 * r.
Lemma shape_mix r x : shape r x -> shape r (block_mix x).
Proof. intros [G L]. split; [now apply block_mix_good|now apply block_mix_length]. Qed.
Lemma shape_iter r x i : shape r x -> shape r (Nat.iter i block_mix x).
Proof. intros H. induction i as [|i IH]; [exact H|]. unfold Nat.iter in *. cbn [nat_rect]. now apply shape_mix. Qed.
Lemma V_ok r x i : shape r x -> V r (unwords x) i = unwords (Nat.iter i block_mix x).
Proof.
  intros H. unfold V. induction i as [|i IH]; [reflexivity|]. pose proof (shape_iter r x i H) as [G L].
  unfold Nat.iter in *. cbn [nat_rect]. rewrite IH. now apply block_mix_ok.
Qed.
(** The low words decide as long as the modulus is at most 2^32. *)
Lemma integerify_ok r x k : shape r x -> 0 < r -> (k <= 32)%N -> integerify x (2 ^ k) = (Integerify r (unwords x) mod 2 ^ k)%N.
Proof.
  intros [G L] Hr Hk. unfold integerify, Integerify. rewrite block_unwords by (exact G || lia). rewrite last_nth, L.
  assert (Gw : good (nth (2 * r - 1) x [])) by (apply nth_good; [exact G|lia]). destruct Gw as [Lw Hw].
  destruct (nth (2 * r - 1) x []) as [|v w]; [discriminate Lw|]. cbn [hd]. inversion Hw; subst.
  replace (2 ^ k - 1)%N with (N.ones k) by (rewrite N.ones_equiv; lia). rewrite N.land_ones.
  unfold ub. cbn [flat_map]. rewrite le_val_app, le_bytes_length, le_val_le_bytes, (N.mod_small v (256 ^ N.of_nat 4)) by (change (word v); assumption).
  change (256 ^ N.of_nat 4)%N with (2 ^ 32)%N. replace (2 ^ 32)%N with (2 ^ (32 - k) * 2 ^ k)%N by (rewrite <- N.pow_add_r; f_equal; lia).
  rewrite <- N.mul_assoc, (N.mul_comm (2 ^ k)), N.mul_assoc. symmetry. apply N.mod_add. apply N.pow_nonzero. discriminate.
Qed.
Lemma ro_mix_ok r x k : shape r x -> 0 < r -> (k <= 32)%N -> scryptROMix r (2 ^ k) (unwords x) = unwords (ro_mix (2 ^ k) x).
Proof.
  intros H Hr Hk. unfold ro_mix. rewrite fill, walk, app_nil_r, rev_involutive. unfold scryptROMix.
  assert (Hn : (0 < 2 ^ k)%N) by (apply N.neq_0_lt_0, N.pow_nonzero; discriminate).
  rewrite V_ok by exact H. set (v := map _ _).
  assert (E : forall j y, shape r y ->
    shape r (Nat.iter j (fun x => block_mix (zip_blocks x (nth (N.to_nat (integerify x (2 ^ k))) v []))) y) /\
    Nat.iter j (fun X => let j := (Integerify r X mod 2 ^ k)%N in scryptBlockMix r (xor X (V r (unwords x) (N.to_nat j)))) (unwords y) =
    unwords (Nat.iter j (fun x => block_mix (zip_blocks x (nth (N.to_nat (integerify x (2 ^ k))) v []))) y)).
  { intros j y Hy. induction j as [|j [IH1 IH2]]; [now split|]. rewrite !iter_S, IH2. clear IH2.
    set (z := Nat.iter j _ y) in *. clearbody z. rename IH1 into Hz. cbv zeta. rewrite <- (integerify_ok r z k) by assumption.
    assert (B : N.to_nat (integerify z (2 ^ k)) < N.to_nat (2 ^ k)).
    { rewrite (integerify_ok r z k) by assumption. apply Nat.compare_lt_iff. rewrite <- N2Nat.inj_compare. apply N.compare_lt_iff, N.mod_upper_bound. lia. }
    assert (Ev : nth (N.to_nat (integerify z (2 ^ k))) v [] = Nat.iter (N.to_nat (integerify z (2 ^ k))) block_mix x).
    { unfold v. rewrite (nth_indep _ [] (Nat.iter 0 block_mix x)) by (now rewrite map_length, seq_length).
      rewrite (map_nth (fun i => Nat.iter i block_mix x)), seq_nth by exact B. reflexivity. }
    rewrite Ev, V_ok by exact H. pose proof (shape_iter r x (N.to_nat (integerify z (2 ^ k))) H) as [G L]. destruct Hz as [Gz Lz].
    rewrite xor_unwords by (assumption || congruence).
    assert (Sz : shape r (zip_blocks z (Nat.iter (N.to_nat (integerify z (2 ^ k))) block_mix x))).
    { split; [now apply zip_blocks_good|rewrite zip_blocks_length; congruence]. }
    split; [now apply shape_mix|]. destruct Sz. now apply block_mix_ok. }
  apply E. now apply shape_iter.
Qed.

(** ** Octets to words and back *)

Lemma ub_words m l : length l = 4 * m -> ub (words l) = l /\ Forall word (words l) /\ length (words l) = m.
Proof.
  revert l. induction m as [|m IH]; intros l L; [destruct l; [repeat split; constructor|discriminate L]|].
  destruct l as [|a [|b [|c [|d l]]]]; try (cbn [length] in L; lia). destruct (IH l) as (E & F & M); [cbn [length] in L; lia|].
  cbn [words]. split; [|split; [constructor; [apply (le_val_bound [a; b; c; d])|exact F]|cbn [length]; now f_equal]].
  unfold ub in *. cbn [flat_map]. rewrite E. change 4 with (length [a; b; c; d]) at 1. now rewrite le_bytes_le_val.
Qed.
Lemma skipn_skip {A} a b (l : list A) : skipn a (skipn b l) = skipn (b + a) l.
Proof. revert l. induction b as [|b IH]; intros l; [reflexivity|]. destruct l as [|x l]; [now rewrite !skipn_nil|]. cbn [skipn Nat.add]. apply IH. Qed.
Lemma chunks_map {A} k n (l : list A) : 0 < n -> length l = k * n -> chunks k n l = map (fun i => firstn n (skipn (i * n) l)) (seq 0 k).
Proof.
  intros Hn. revert l. induction k as [|k IH]; intros l L; [reflexivity|].
  destruct l as [|a l]; [cbn [length Nat.mul] in L; lia|]. cbn [chunks seq map]. cbn [Nat.mul skipn]. f_equal.
  rewrite IH by (rewrite skipn_length; lia). rewrite <- seq_shift, map_map. apply map_ext. intros i. f_equal.
  now rewrite skipn_skip.
Qed.
Lemma chunks_words r l : length l = 128 * r -> shape r (chunks (2 * r) 16 (words l)) /\ unwords (chunks (2 * r) 16 (words l)) = l.
Proof.
  intros L. destruct (ub_words (32 * r) l) as (E & F & M); [lia|]. rewrite <- E at 3. clear E L. generalize dependent (words l). clear l. intros w F M.
  replace (32 * r) with (2 * r * 16) in M by lia. unfold shape. generalize dependent (2 * r). clear r. intros k M.
  revert w F M. induction k as [|k IH]; intros w F M.
  - destruct w; [|discriminate M]. repeat split; constructor.
  - destruct w as [|a w]; [cbn [length Nat.mul] in M; lia|]. cbn [chunks]. destruct (IH (skipn 16 (a :: w))) as ([G L] & E).
    + rewrite <- (firstn_skipn 16 (a :: w)) in F. now apply Forall_app in F.
    + rewrite skipn_length. lia.
    + split; [split|].
      * constructor; [|exact G]. split; [rewrite firstn_length; lia|]. rewrite <- (firstn_skipn 16 (a :: w)) in F. now apply Forall_app in F.
      * cbn [length]. now f_equal.
      * unfold unwords in *. cbn [flat_map]. rewrite E. rewrite <- (firstn_skipn 16 (a :: w)) at 3. unfold ub. now rewrite flat_map_app.
Qed.

(** ** PBKDF2 *)

Lemma nth_flat_map {A B} (f : A -> list B) c d e l k : 0 < c -> (forall a, length (f a) = c) -> k < length l * c ->
  nth k (flat_map f l) d = nth (k mod c) (f (nth (k / c) l e)) d.
Proof.
  intros Hc F. revert k. induction l as [|a l IH]; intros k L; [cbn in L; lia|]. cbn [flat_map].
  destruct (Nat.lt_ge_cases k c) as [C|C].
  - rewrite app_nth1 by now rewrite F. now rewrite Nat.mod_small, Nat.div_small.
  - rewrite app_nth2 by now rewrite F. rewrite F, IH by (cbn [length Nat.mul] in L; lia).
    replace k with ((k - c) + 1 * c) at 3 4 by lia. rewrite Nat.mod_add, Nat.div_add by lia. now rewrite Nat.add_1_r.
Qed.
Lemma hmac_256_length k m : length (hmac_sha256 k m) = 32.
Proof. apply hmac_length, sha256_length. Qed.
Lemma pbkdf2_ok p s n : pbkdf2 p s n = PBKDF2_1 p s n.
Proof.
  apply nth_ext with (d := x00) (d' := x00).
  { rewrite pbkdf2_length. unfold PBKDF2_1. now rewrite map_length, seq_length. }
  intros k Hk. rewrite pbkdf2_length in Hk. unfold PBKDF2_1.
  rewrite (nth_indep (map _ _) x00 (nth (0 mod 32) (hmac_sha256 p (s ++ be_bytes 4 (N.of_nat (0 / 32 + 1)))) x00)) by now rewrite map_length, seq_length.
  rewrite (map_nth (fun k => nth (k mod 32) (hmac_sha256 p (s ++ be_bytes 4 (N.of_nat (k / 32 + 1)))) x00)), seq_nth by exact Hk.
  rewrite Nat.add_0_l. unfold pbkdf2.
  assert (T : forall (l : bytes) i j, i < j -> nth i (firstn j l) x00 = nth i l x00).
  { clear. intros l. induction l as [|a l IH]; intros i j H; [now rewrite firstn_nil|]. destruct j as [|j]; [lia|]. destruct i as [|i]; [reflexivity|].
    cbn [firstn nth]. apply IH. lia. }
  rewrite T by exact Hk. pose proof (Nat.div_mod_eq (n + 31) 32) as Dn. pose proof (Nat.mod_upper_bound (n + 31) 32) as Mn.
  assert (K : k / 32 < (n + 31) / 32) by (apply Nat.div_lt_upper_bound; lia).
  rewrite (nth_flat_map _ 32 _ 0) by (lia || (intros; apply hmac_256_length) || (rewrite seq_length; lia)).
  rewrite seq_nth by exact K. unfold pbkdf2_block, be_bytes. rewrite (Nat.add_comm 1 (k / 32)). reflexivity.
Qed.

(** ** scrypt *)

Lemma scrypt_rfc password salt P len : scrypt_ok P -> (sp_log_n P <= 32)%N ->
  scrypt_raw password salt P len = scrypt password salt (2 ^ sp_log_n P) (N.to_nat (sp_r P)) (N.to_nat (sp_p P)) len.
Proof.
  intros (Hr & Hp & _) Hk. unfold scrypt_raw, scrypt. cbv zeta. rewrite !pbkdf2_ok. set (r := N.to_nat (sp_r P)). set (p := N.to_nat (sp_p P)).
  assert (Hr' : 0 < r) by lia. replace (128 * r * p) with (p * 128 * r) by lia. rewrite <- (pbkdf2_ok _ _ (p * 128 * r)).
  set (B := pbkdf2 password salt (p * 128 * r)). assert (LB : length B = p * (128 * r)) by (unfold B; rewrite pbkdf2_length; lia).
  f_equal. rewrite chunks_map by (lia || exact LB). rewrite !flat_map_concat_map, map_map. f_equal. apply map_ext_in. intros i Hi. apply in_seq in Hi.
  unfold octets. assert (L : length (firstn (128 * r) (skipn (i * (128 * r)) B)) = 128 * r).
  { rewrite firstn_length, skipn_length, LB. assert (S i * (128 * r) <= p * (128 * r)) by (apply Nat.mul_le_mono_r; lia). lia. }
  destruct (chunks_words r _ L) as [G E]. rewrite <- E at 2. symmetry. now apply ro_mix_ok.
Qed.
