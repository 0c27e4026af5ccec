(** * What [utf8_valid] accepts: exactly the encodings of sequences of Unicode scalar values (RFC 3629). *)
From Coq Require Import ZArith Lia.
From Verif Require Import Base.Bytes Base.Utf8.
Local Open Scope N_scope.

(** Unicode 15, D76 *)
Definition scalar_value (c : N) : Prop := c < 0xD800 \/ 0xE000 <= c < 0x110000.

(** RFC 3629, section 3 *)
Definition utf8_encode (c : N) : bytes :=
  if c <? 0x80 then [n2b c]
  else if c <? 0x800 then [n2b (0xC0 + c / 64); n2b (0x80 + c mod 64)]
  else if c <? 0x10000 then [n2b (0xE0 + c / 4096); n2b (0x80 + c / 64 mod 64); n2b (0x80 + c mod 64)]
  else [n2b (0xF0 + c / 262144); n2b (0x80 + c / 4096 mod 64); n2b (0x80 + c / 64 mod 64); n2b (0x80 + c mod 64)].

Definition utf8_text (cs : list N) : bytes := concat (map utf8_encode cs).

Ltac Zify.zify_post_hook ::= Z.to_euclidean_division_equations.

Lemma in_range_iff lo hi b : in_range lo hi b = true <-> lo <= b2n b <= hi.
Proof. unfold in_range. rewrite andb_true_iff, !N.leb_le. reflexivity. Qed.

Lemma b2n_n2b_small n : n < 256 -> b2n (n2b n) = n.
Proof. intros H. rewrite b2n_n2b. now apply N.mod_small. Qed.
Lemma n2b_is b n : n = b2n b -> n2b n = b.
Proof. intros ->. apply n2b_b2n. Qed.

Lemma utf8_valid_encode c r : scalar_value c -> utf8_valid (utf8_encode c ++ r) = utf8_valid r.
Proof.
  intros Hc. unfold utf8_encode, scalar_value in *.
  destruct (N.ltb_spec c 0x80) as [H1|H1]; [|destruct (N.ltb_spec c 0x800) as [H2|H2];
    [|destruct (N.ltb_spec c 0x10000) as [H3|H3]]]; cbn [app utf8_valid].
  - rewrite b2n_n2b_small by lia. destruct (N.ltb_spec c 0x80); [reflexivity|lia].
  - unfold in_range. rewrite !b2n_n2b_small by lia.
    destruct (N.ltb_spec (192 + c / 64) 128); [lia|].
    destruct (N.leb_spec 194 (192 + c / 64)); [|lia]. destruct (N.leb_spec (192 + c / 64) 223); [|lia]. cbn [andb].
    destruct (N.leb_spec 128 (128 + c mod 64)); [|lia]. destruct (N.leb_spec (128 + c mod 64) 191); [|lia]. reflexivity.
  - unfold in_range. rewrite !b2n_n2b_small by lia.
    destruct (N.ltb_spec (224 + c / 4096) 128); [lia|].
    destruct (N.leb_spec (224 + c / 4096) 223); [lia|]. rewrite andb_false_r.
    destruct (N.leb_spec 224 (224 + c / 4096)); [|lia]. destruct (N.leb_spec (224 + c / 4096) 239); [|lia]. cbn [andb].
    destruct (N.leb_spec 128 (128 + c mod 64)); [|lia]. destruct (N.leb_spec (128 + c mod 64) 191); [|lia].
    destruct (N.leb_spec 128 (128 + c / 64 mod 64)); [|lia]. destruct (N.leb_spec (128 + c / 64 mod 64) 191); [|lia].
    destruct (N.eqb_spec (224 + c / 4096) 224).
    { destruct (N.leb_spec 160 (128 + c / 64 mod 64)); [reflexivity|lia]. }
    destruct (N.eqb_spec (224 + c / 4096) 237); [|reflexivity].
    destruct (N.leb_spec (128 + c / 64 mod 64) 159); [reflexivity|lia].
  - unfold in_range. rewrite !b2n_n2b_small by lia.
    destruct (N.ltb_spec (240 + c / 262144) 128); [lia|].
    destruct (N.leb_spec (240 + c / 262144) 223); [lia|]. rewrite andb_false_r.
    destruct (N.leb_spec (240 + c / 262144) 239); [lia|]. rewrite andb_false_r.
    destruct (N.leb_spec 240 (240 + c / 262144)); [|lia]. destruct (N.leb_spec (240 + c / 262144) 244); [|lia]. cbn [andb].
    destruct (N.leb_spec 128 (128 + c mod 64)); [|lia]. destruct (N.leb_spec (128 + c mod 64) 191); [|lia].
    destruct (N.leb_spec 128 (128 + c / 64 mod 64)); [|lia]. destruct (N.leb_spec (128 + c / 64 mod 64) 191); [|lia].
    destruct (N.leb_spec 128 (128 + c / 4096 mod 64)); [|lia]. destruct (N.leb_spec (128 + c / 4096 mod 64) 191); [|lia].
    destruct (N.eqb_spec (240 + c / 262144) 240).
    { destruct (N.leb_spec 144 (128 + c / 4096 mod 64)); [reflexivity|lia]. }
    destruct (N.eqb_spec (240 + c / 262144) 244); [|reflexivity].
    destruct (N.leb_spec (128 + c / 4096 mod 64) 143); [reflexivity|lia].
Qed.

(** The first scalar value of a valid string. *)
Lemma utf8_first l : l <> [] -> utf8_valid l = true ->
  exists c r, scalar_value c /\ l = utf8_encode c ++ r /\ utf8_valid r = true /\ (length r < length l)%nat.
Proof.
  intros Hl. destruct l as [|b0 r0]; [now elim Hl|]. cbn [utf8_valid].
  destruct (N.ltb_spec (b2n b0) 0x80) as [H0|H0].
  { intros H. exists (b2n b0), r0. unfold utf8_encode, scalar_value. destruct (N.ltb_spec (b2n b0) 0x80); [|lia].
    rewrite n2b_b2n. repeat split; [left; lia|exact H|cbn [length]; lia]. }
  destruct (in_range 0xC2 0xDF b0) eqn:R0.
  { apply in_range_iff in R0. destruct r0 as [|b1 r1]; [discriminate|]. intros [R1 H]%andb_true_iff.
    apply in_range_iff in R1. set (c := (b2n b0 - 0xC0) * 64 + (b2n b1 - 0x80)).
    exists c, r1. unfold utf8_encode, scalar_value.
    assert (Hc : 0x80 <= c < 0x800) by (unfold c; lia).
    destruct (N.ltb_spec c 0x80); [lia|]. destruct (N.ltb_spec c 0x800); [|lia].
    rewrite (n2b_is b0), (n2b_is b1) by (unfold c; lia). repeat split; [lia|exact H|cbn [length]; lia]. }
  destruct (in_range 0xE0 0xEF b0) eqn:R2.
  { apply in_range_iff in R2. destruct r0 as [|b1 [|b2 r2]]; [discriminate|discriminate|].
    intros [[R1 R3]%andb_true_iff H]%andb_true_iff. apply in_range_iff in R3.
    assert (K : 0x80 <= b2n b1 <= 0xBF /\ (b2n b0 = 0xE0 -> 0xA0 <= b2n b1) /\ (b2n b0 = 0xED -> b2n b1 <= 0x9F)).
    { destruct (N.eqb_spec (b2n b0) 0xE0); [apply in_range_iff in R1; lia|].
      destruct (N.eqb_spec (b2n b0) 0xED); apply in_range_iff in R1; lia. }
    clear R1. destruct K as (K1 & K2 & K3).
    set (c := (b2n b0 - 0xE0) * 4096 + (b2n b1 - 0x80) * 64 + (b2n b2 - 0x80)).
    exists c, r2. unfold utf8_encode, scalar_value.
    assert (Hc : 0x800 <= c < 0xD800 \/ 0xE000 <= c < 0x10000) by (unfold c; lia).
    destruct (N.ltb_spec c 0x80); [lia|]. destruct (N.ltb_spec c 0x800); [lia|]. destruct (N.ltb_spec c 0x10000); [|lia].
    rewrite (n2b_is b0), (n2b_is b1), (n2b_is b2) by (unfold c; clear - R2 K1 R3; lia).
    repeat split; [lia|exact H|cbn [length]; lia]. }
  destruct (in_range 0xF0 0xF4 b0) eqn:R4; [|discriminate].
  apply in_range_iff in R4. destruct r0 as [|b1 [|b2 [|b3 r3]]]; [discriminate|discriminate|discriminate|].
  intros [[[R1 R3]%andb_true_iff R5]%andb_true_iff H]%andb_true_iff. apply in_range_iff in R3, R5.
  assert (K : 0x80 <= b2n b1 <= 0xBF /\ (b2n b0 = 0xF0 -> 0x90 <= b2n b1) /\ (b2n b0 = 0xF4 -> b2n b1 <= 0x8F)).
  { destruct (N.eqb_spec (b2n b0) 0xF0); [apply in_range_iff in R1; lia|].
    destruct (N.eqb_spec (b2n b0) 0xF4); apply in_range_iff in R1; lia. }
  clear R1. destruct K as (K1 & K2 & K3).
  set (c := (b2n b0 - 0xF0) * 262144 + (b2n b1 - 0x80) * 4096 + (b2n b2 - 0x80) * 64 + (b2n b3 - 0x80)).
  exists c, r3. unfold utf8_encode, scalar_value.
  assert (Hc : 0x10000 <= c < 0x110000) by (unfold c; lia).
  destruct (N.ltb_spec c 0x80); [lia|]. destruct (N.ltb_spec c 0x800); [lia|]. destruct (N.ltb_spec c 0x10000); [lia|].
  rewrite (n2b_is b0), (n2b_is b1), (n2b_is b2), (n2b_is b3) by (unfold c; clear - R4 K1 R3 R5; lia).
  repeat split; [lia|exact H|cbn [length]; lia].
Qed.

Theorem utf8_valid_iff l :
  utf8_valid l = true <-> exists cs, Forall scalar_value cs /\ l = utf8_text cs.
Proof.
  split.
  - remember (length l) as n eqn:En. revert l En. induction n as [n IH] using lt_wf_ind. intros l -> H.
    destruct l as [|b l']; [exists []; split; [constructor|reflexivity]|].
    destruct (utf8_first (b :: l') ltac:(discriminate) H) as (c & r & Hc & E & Hr & Hlt).
    destruct (IH (length r) Hlt r eq_refl Hr) as (cs & Hcs & Er).
    exists (c :: cs). split; [now constructor|]. unfold utf8_text. cbn [map concat]. fold (utf8_text cs). now rewrite E, <- Er.
  - intros (cs & Hcs & ->). induction Hcs as [|c cs Hc Hcs IH]; [reflexivity|].
    unfold utf8_text. cbn [map concat]. fold (utf8_text cs). now rewrite utf8_valid_encode.
Qed.
