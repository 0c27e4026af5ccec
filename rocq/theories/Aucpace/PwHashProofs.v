(** * Unpadded base64 is injective on inputs of one length. *)
From Coq Require Import Lia.
From Verif Require Import Base.Bytes Base.Outcome Base.Rng Aucpace.PwHash.
Local Open Scope nat_scope.

Lemma b64_three a b c a' b' c' :
  (a < 256 -> b < 256 -> c < 256 -> a' < 256 -> b' < 256 -> c' < 256 ->
  b64_char (a / 4) = b64_char (a' / 4) ->
  b64_char ((a mod 4) * 16 + b / 16) = b64_char ((a' mod 4) * 16 + b' / 16) ->
  b64_char ((b mod 16) * 4 + c / 64) = b64_char ((b' mod 16) * 4 + c' / 64) ->
  b64_char (c mod 64) = b64_char (c' mod 64) ->
  a = a' /\ b = b' /\ c = c')%N.
Proof.
  intros Ha Hb Hc Ha' Hb' Hc' E1 E2 E3 E4.
  assert (D : forall x k m, (0 < k)%N -> (x < k * m)%N -> (x / k < m)%N) by (intros; apply N.div_lt_upper_bound; lia).
  assert (M : forall x k, (0 < k)%N -> (x mod k < k)%N) by (intros; apply N.mod_lt; lia).
  pose proof (M a 4 eq_refl)%N. pose proof (M a' 4 eq_refl)%N.
  pose proof (M b 16 eq_refl)%N. pose proof (M b' 16 eq_refl)%N.
  pose proof (M c 64 eq_refl)%N. pose proof (M c' 64 eq_refl)%N.
  pose proof (D a 4 64 eq_refl Ha)%N. pose proof (D a' 4 64 eq_refl Ha')%N.
  pose proof (D b 16 16 eq_refl Hb)%N. pose proof (D b' 16 16 eq_refl Hb')%N.
  pose proof (D c 64 4 eq_refl Hc)%N. pose proof (D c' 64 4 eq_refl Hc')%N.
  apply b64_char_inj in E1; [|assumption..]. apply b64_char_inj in E2; [|lia..].
  apply b64_char_inj in E3; [|lia..]. apply b64_char_inj in E4; [|assumption..].
  pose proof (N.div_mod a 4 ltac:(discriminate)). pose proof (N.div_mod a' 4 ltac:(discriminate)).
  pose proof (N.div_mod b 16 ltac:(discriminate)). pose proof (N.div_mod b' 16 ltac:(discriminate)).
  pose proof (N.div_mod c 64 ltac:(discriminate)). pose proof (N.div_mod c' 64 ltac:(discriminate)).
  lia.
Qed.

Lemma b64_encode_inj l l' : length l = length l' -> b64_encode l = b64_encode l' -> l = l'.
Proof.
  assert (HI : forall n l l', length l <= n -> length l = length l' -> b64_encode l = b64_encode l' -> l = l').
  { assert (B2 : forall a a', b2n a = b2n a' -> a = a').
    { intros a a' E. apply (f_equal n2b) in E. now rewrite !n2b_b2n in E. }
    intros n. induction n as [n IH] using (well_founded_induction Wf_nat.lt_wf).
    intros [|a [|b [|c r]]] [|a' [|b' [|c' r']]] Hn HL E; cbn [length] in HL; try discriminate HL; [reflexivity|..];
      cbn [b64_encode] in E.
    - injection E as E1 E2. pose proof (b2n_lt a). pose proof (b2n_lt a').
      destruct (b64_three (b2n a) 0 0 (b2n a') 0 0) as (E & _); try lia; try reflexivity; try assumption;
        rewrite ?N.add_0_r in *; try assumption; try reflexivity.
      now rewrite (B2 _ _ E).
    - injection E as E1 E2 E3.
      pose proof (b2n_lt a). pose proof (b2n_lt a'). pose proof (b2n_lt b). pose proof (b2n_lt b').
      destruct (b64_three (b2n a) (b2n b) 0 (b2n a') (b2n b') 0) as (E & F & _); try lia; try assumption; try reflexivity.
      { now rewrite !N.div_0_l, !N.add_0_r by discriminate. }
      now rewrite (B2 _ _ E), (B2 _ _ F).
    - injection E as E1 E2 E3 E4 E5.
      destruct (b64_three (b2n a) (b2n b) (b2n c) (b2n a') (b2n b') (b2n c')) as (E & F & G);
        try apply b2n_lt; try assumption.
      rewrite (B2 _ _ E), (B2 _ _ F), (B2 _ _ G). do 3 f_equal.
      cbn [length] in Hn. apply (IH (length r)); [lia|lia|lia|exact E5]. }
  intros HL. now apply (HI (length l)).
Qed.
