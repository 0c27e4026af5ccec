(** * The generators of the built-in SRP groups (C67). *)
From Coq Require Import Znumtheory.
From Verif Require Import Base.Bytes Base.Outcome Base.BigUint Base.Hex.
From Verif Require Import Srp.SrpModel Srp.SrpSpec Srp.SrpProofs Srp.SrpProofs2.
From Verif Require Import Srp.SrpGroups Srp.SrpRfcGroups Srp.SrpGroupProofs Srp.SrpSession.
From Verif Require Import Curve.NumTheory Curve.GaussLemma.
Local Open Scope N_scope.

(** "[g] MUST be a generator modulo [N]" (srp/src/lib.rs:18-20): the powers of [g] are all the
    non-zero residues, each taken by one exponent below [n - 1]. *)
Definition generates (n g : N) : Prop :=
  forall y, 0 < y < n ->
  exists e, e < n - 1 /\ g ^ e mod n = y /\ forall e', e' < n - 1 -> g ^ e' mod n = y -> e' = e.

Definition safe_prime (n : N) : Prop := prime (Z.of_N n) /\ prime (Z.of_N ((n - 1) / 2)).

Definition gen_ok (n g : N) : bool :=
  (1 <? g) && (g <? n - 1) && N.odd n && Z.odd (gauss_sum (Z.of_N g) (Z.of_N n)).

(** ** From Z to N *)

Lemma pow_mod_Z g e n : n <> 0 ->
  Z.of_N (g ^ e mod n) = (Z.of_N g ^ Z.of_N e mod Z.of_N n)%Z.
Proof. intros Hn. rewrite N2Z.inj_mod, N2Z.inj_pow by exact Hn. reflexivity. Qed.

Lemma safe_generates n g : safe_prime n -> gen_ok n g = true -> generates n g.
Proof.
  intros [Hp Hq]. unfold gen_ok. rewrite !andb_true_iff. intros [[[G1 G2] G3] G4] y Hy.
  apply N.ltb_lt in G1, G2. apply N.odd_spec in G3. destruct G3 as [m Hm].
  assert (Eq : (n - 1) / 2 = m).
  { subst n. replace (2 * m + 1 - 1) with (m * 2) by lia. apply N.div_mul. lia. }
  rewrite Eq in Hq. clear Eq.
  destruct (generator_safe_prime (Z.of_N n) (Z.of_N m) (Z.of_N g) Hp Hq ltac:(lia) ltac:(lia) G4
              (Z.of_N y) ltac:(lia)) as (i & Hi & Ei).
  exists (Z.to_N i). split; [lia|]. split.
  - apply N2Z.inj. rewrite pow_mod_Z by lia. rewrite Z2N.id by lia. exact Ei.
  - intros e' He' Ey. apply N2Z.inj. rewrite Z2N.id by lia.
    apply (powers_distinct (Z.of_N n) (Z.of_N m) (Z.of_N g) Hp Hq); [lia|lia|exact G4|lia|lia|].
    rewrite Ei, <- Ey. symmetry. apply pow_mod_Z. lia.
Qed.

Lemma builtin_gen_ok grp bits n g : In (grp, (bits, n, g)) builtin -> gen_ok n g = true.
Proof.
  intros H. cbn [builtin In] in H. decompose [or] H; clear H; try contradiction;
    match goal with E : (_, _) = (_, _) |- _ => injection E as <- <- <- <- end;
    vm_cast_no_check (eq_refl true).
Qed.

Theorem builtin_generates grp bits n g :
  In (grp, (bits, n, g)) builtin -> safe_prime n ->
  generates (sg_n grp) (sg_g grp).
Proof.
  intros H Hs. destruct (builtin_groups_rfc _ _ _ _ H) as (En & Eg & _).
  rewrite En, Eg. apply safe_generates; [exact Hs|].
  exact (builtin_gen_ok _ _ _ _ H).
Qed.

(** ** What the public values say about the secrets *)

(** Every non-zero value is the public key of a client. *)
Theorem client_public_onto grp y lA :
  generates (sg_n grp) (sg_g grp) -> 0 < y < sg_n grp -> minimal_be y lA ->
  exists a, client_public grp a = Ok lA.
Proof.
  intros Hg Hy ->%minimal_be_unique. destruct (Hg y Hy) as (e & _ & He & _).
  exists (to_bytes_be e). rewrite client_public_ok by lia.
  rewrite be_val_to_bytes_be. now rewrite He.
Qed.

(** The server's public key can be anything except [k * v], whatever the verifier. *)
Theorem server_public_onto D grp v B lB ln lg :
  usable_group (sg_n grp) (sg_g grp) -> 1 < sg_n grp -> N.gcd (sg_g grp) (sg_n grp) = 1 ->
  generates (sg_n grp) (sg_g grp) ->
  minimal_be (sg_n grp) ln -> minimal_be (sg_g grp) lg -> B < sg_n grp -> minimal_be B lB ->
  ((exists b, server_public D grp b v = Ok lB) <-> B <> (rfc_k D ln lg * be_val v) mod sg_n grp).
Proof.
  intros Hu Hn Hng Hg ->%minimal_be_unique ->%minimal_be_unique HB ->%minimal_be_unique.
  assert (Hsp : forall b, server_public D grp b v = Ok (enc (srp_B (sg_n grp) (sg_g grp)
            (rfc_k D (enc (sg_n grp)) (enc (sg_g grp))) (be_val v) (be_val b))))
    by (intros b; apply server_public_ok; exact Hu).
  unfold enc in Hsp. revert Hsp. generalize (rfc_k D (to_bytes_be (sg_n grp)) (to_bytes_be (sg_g grp))).
  intros k Hsp. assert (Hunit := fun e => coprime_pow (sg_n grp) (sg_g grp) e ltac:(lia) Hn Hng).
  unfold generates in Hg. revert Hn HB Hg Hsp Hunit. clear Hu Hng.
  generalize (sg_n grp) (sg_g grp). intros n g Hn HB Hg Hsp Hunit.
  pose proof (N.mod_lt (k * be_val v) n ltac:(lia)) as Hkv.
  split.
  - intros [b E] EB. rewrite Hsp in E.
    injection E as E. apply (f_equal be_val) in E. rewrite !be_val_to_bytes_be in E.
    unfold srp_B in E. apply (Hunit (be_val b)).
    pose proof (N.mod_lt (g ^ be_val b) n ltac:(lia)) as Hgb.
    rewrite N.add_mod, <- EB in E by lia. revert E Hgb. generalize (g ^ be_val b mod n). intros z E Hz.
    destruct (N.lt_ge_cases (B + z) n) as [L|L].
    + rewrite N.mod_small in E by lia. lia.
    + replace (B + z) with ((B + z - n) + 1 * n) in E by lia.
      rewrite N.mod_add, N.mod_small in E by lia. lia.
  - intros HBn.
    assert (Hkvb : exists kv, kv = k * be_val v) by (exists (k * be_val v); reflexivity).
    destruct Hkvb as [kv Ekv]. rewrite <- Ekv in Hkv, HBn.
    destruct (Hg ((B + (n - kv mod n)) mod n)) as (e & _ & He & _).
    { pose proof (N.mod_lt (B + (n - kv mod n)) n ltac:(lia)) as L.
      split; [|exact L]. apply N.neq_0_lt_0. intros E.
      revert HBn Hkv E. generalize (kv mod n). clear - HB Hn. intros m HBn Hkv E.
      destruct (N.lt_ge_cases (B + (n - m)) n) as [L'|L'].
      - rewrite N.mod_small in E by exact L'. lia.
      - replace (B + (n - m)) with ((B - m) + 1 * n) in E by lia.
        rewrite N.mod_add, N.mod_small in E by lia. lia. }
    exists (to_bytes_be e). rewrite Hsp, be_val_to_bytes_be. do 2 f_equal.
    unfold srp_B. rewrite <- Ekv, N.add_mod, He, N.add_mod_idemp_r by lia.
    replace (kv mod n + (B + (n - kv mod n))) with (B + 1 * n)
      by (revert Hkv; generalize (kv mod n); clear; intros; lia).
    rewrite N.mod_add by lia. now apply N.mod_small.
Qed.

(** Distinct exponents give distinct public keys: of a client, and of a server for any verifier. *)
Theorem publics_injective D grp a a' :
  usable_group (sg_n grp) (sg_g grp) -> 1 < sg_n grp -> N.gcd (sg_g grp) (sg_n grp) = 1 ->
  generates (sg_n grp) (sg_g grp) ->
  be_val a < sg_n grp - 1 -> be_val a' < sg_n grp - 1 ->
  (client_public grp a = client_public grp a' -> be_val a = be_val a') /\
  (forall v, server_public D grp a v = server_public D grp a' v -> be_val a = be_val a').
Proof.
  intros Hu Hn Hng Hg Ha Ha'.
  assert (Hinj : sg_g grp ^ be_val a mod sg_n grp = sg_g grp ^ be_val a' mod sg_n grp ->
                 be_val a = be_val a').
  { intros E.
    pose proof (coprime_pow (sg_n grp) (sg_g grp) (be_val a) ltac:(lia) Hn Hng).
    pose proof (N.mod_lt (sg_g grp ^ be_val a) (sg_n grp) ltac:(lia)).
    destruct (Hg (sg_g grp ^ be_val a mod sg_n grp) ltac:(lia)) as (e & He & _ & Hun).
    rewrite (Hun (be_val a) Ha eq_refl). symmetry. apply Hun; [exact Ha'|]. symmetry. exact E. }
  split.
  - intros E. rewrite !client_public_ok in E by lia. injection E as E.
    apply (f_equal be_val) in E. unfold enc in E. rewrite !be_val_to_bytes_be in E. now apply Hinj.
  - intros v E. rewrite !server_public_ok in E by exact Hu. injection E as E.
    apply (f_equal be_val) in E. unfold enc in E. rewrite !be_val_to_bytes_be in E. apply Hinj.
    unfold srp_B in E. revert E.
    generalize (rfc_k D (to_bytes_be (sg_n grp)) (to_bytes_be (sg_g grp)) * be_val v)
      (sg_g grp ^ be_val a) (sg_g grp ^ be_val a'). intros kv x y E. clear - E Hn.
    apply (f_equal (fun z => (z + (sg_n grp - kv mod sg_n grp)) mod sg_n grp)) in E.
    rewrite !N.add_mod_idemp_l in E by lia.
    assert (G : forall x, (kv + x + (sg_n grp - kv mod sg_n grp)) mod sg_n grp = x mod sg_n grp).
    { clear - Hn. intros x. pose proof (N.mod_lt kv (sg_n grp) ltac:(lia)).
      pose proof (N.div_mod kv (sg_n grp) ltac:(lia)).
      replace (kv + x + (sg_n grp - kv mod sg_n grp)) with (x + (kv / sg_n grp + 1) * sg_n grp) by lia.
      apply N.mod_add. lia. }
    now rewrite !G in E.
Qed.

(** ** A 16-bit group *)

Lemma grp16_safe : safe_prime 65267.
Proof.
  split.
  - apply (trial_sound 300 2); [reflexivity|discriminate|intros k Hk; exfalso; lia|vm_compute; reflexivity].
  - apply (trial_sound 300 2); [reflexivity|discriminate|intros k Hk; exfalso; lia|vm_compute; reflexivity].
Qed.

Lemma grp16_generates : generates 65267 2.
Proof. apply safe_generates; [exact grp16_safe|]. vm_compute. reflexivity. Qed.

(** ** A [g] that is not a generator

    [SrpGroup] is any pair (srp/src/types.rs:27-32) and nothing checks it: when [g] is a square, every
    public key of the server satisfies an equation that only about half of the verifiers satisfy. *)
Theorem square_generator_leaks D grp b v B ln lg t :
  prime (Z.of_N (sg_n grp)) -> N.odd (sg_n grp) = true ->
  sg_g grp mod sg_n grp = t * t mod sg_n grp -> t mod sg_n grp <> 0 ->
  minimal_be (sg_n grp) ln -> minimal_be (sg_g grp) lg ->
  server_public D grp b v = Ok B ->
  ((Z.of_N (be_val B) - Z.of_N (rfc_k D ln lg) * Z.of_N (be_val v)) ^ ((Z.of_N (sg_n grp) - 1) / 2)
     mod Z.of_N (sg_n grp) = 1)%Z.
Proof.
  intros Hp Hodd Hg Ht Hln Hlg H.
  apply server_public_value with (ln := ln) (lg := lg) in H; [|exact Hln|exact Hlg].
  apply minimal_be_unique in H. apply (f_equal be_val) in H. rewrite be_val_to_bytes_be in H.
  unfold srp_B in H.
  assert (Hn : 1 < sg_n grp) by (destruct Hp as [H1 _]; lia).
  apply N.odd_spec in Hodd. destruct Hodd as [m Hm].
  revert H. generalize (be_val B) (rfc_k D ln lg) (be_val v) (be_val b).
  clear B b v ln lg Hln Hlg D. intros B k v b H.
  rewrite Zpow_facts.Zpower_mod by lia.
  assert (E : ((Z.of_N B - Z.of_N k * Z.of_N v) mod Z.of_N (sg_n grp) =
               (Z.of_N t ^ (2 * Z.of_N b)) mod Z.of_N (sg_n grp))%Z).
  { rewrite H, of_N_mod, N2Z.inj_add, N2Z.inj_mul, of_N_pow by lia.
    rewrite Zminus_mod_idemp_l.
    replace (Z.of_N k * Z.of_N v + Z.of_N (sg_g grp) ^ Z.of_N b - Z.of_N k * Z.of_N v)%Z
      with (Z.of_N (sg_g grp) ^ Z.of_N b)%Z by ring.
    rewrite <- Zpow_mod_base by lia. rewrite <- of_N_mod, Hg, of_N_mod, N2Z.inj_mul.
    rewrite Zpow_mod_base by lia. rewrite <- Z.pow_2_r, <- Z.pow_mul_r by lia. reflexivity. }
  replace ((Z.of_N (sg_n grp) - 1) / 2)%Z with (Z.of_N m).
  - rewrite E, Zpow_mod_base by lia. clear E H Hg. rewrite <- Z.pow_mul_r by lia.
    replace (2 * Z.of_N b * Z.of_N m)%Z with ((Z.of_N (sg_n grp) - 1) * Z.of_N b)%Z
      by (rewrite Hm, N2Z.inj_add, N2Z.inj_mul; ring).
    rewrite Z.pow_mul_r by lia. rewrite <- Zpow_mod_base by lia.
    rewrite fermat; [rewrite Z.pow_1_l by lia; apply Z.mod_1_l; lia|exact Hp|].
    intros C. apply Ht. apply N2Z.inj. rewrite of_N_mod. apply Zdivide_mod. exact C.
  - rewrite Hm. replace (Z.of_N (2 * m + 1) - 1)%Z with (Z.of_N m * 2)%Z by lia.
    rewrite Z.div_mul by lia. reflexivity.
Qed.
