(** * The built-in SRP groups: values, sizes and coprimality (C11). *)
From Verif Require Import Base.Bytes Base.Outcome Base.BigUint Base.Hex.
From Verif Require Import Srp.SrpModel Srp.SrpSpec Srp.SrpProofs Srp.SrpProofs2.
From Verif Require Import Srp.SrpGroups Srp.SrpRfcGroups.
Local Open Scope N_scope.

(** The seven groups with the advertised bit length and the RFC's modulus and generator. *)
Definition builtin : list (SrpGroup * (N * N * N)) :=
  [ (G_1024, (1024, rfc5054_N_1024, rfc5054_g_1024));
    (G_1536, (1536, rfc5054_N_1536, rfc5054_g_1536));
    (G_2048, (2048, rfc5054_N_2048, rfc5054_g_2048));
    (G_3072, (3072, rfc5054_N_3072, rfc5054_g_3072));
    (G_4096, (4096, rfc5054_N_4096, rfc5054_g_4096));
    (G_6144, (6144, rfc5054_N_6144, rfc5054_g_6144));
    (G_8192, (8192, rfc5054_N_8192, rfc5054_g_8192)) ].

(** Cheap boolean test implying the claims. *)
Definition group_ok (bin : bytes) (gb : byte) (bits n g : N) : bool :=
  (le_val (rev bin) =? n) && (b2n gb =? g) && (N.size n =? bits) && (1 <? g) && (g <? n) &&
  (N.gcd (n mod g) g =? 1).

Lemma group_ok_sound bin gb bits n g :
  group_ok bin gb bits n g = true ->
  let grp := {| sg_n := from_bytes_be bin; sg_g := from_bytes_be [gb] |} in
  sg_n grp = n /\ sg_g grp = g /\ N.size n = bits /\ 1 < g < n /\ N.gcd g n = 1.
Proof.
  unfold group_ok. rewrite !andb_true_iff. intros [[[[[E1 E2] E3] E4] E5] E6].
  apply N.eqb_eq in E1, E2, E3, E6. apply N.ltb_lt in E4, E5. cbn [sg_n sg_g].
  rewrite from_bytes_be_le. split; [exact E1|]. split; [cbn; lia|]. split; [exact E3|].
  split; [lia|]. rewrite N.gcd_mod in E6 by lia. exact E6.
Qed.

Theorem builtin_groups_rfc grp bits n g :
  In (grp, (bits, n, g)) builtin ->
  sg_n grp = n /\ sg_g grp = g /\ 2 ^ (bits - 1) <= n < 2 ^ bits /\ 1 < g < n /\
  N.gcd g n = 1 /\ usable_group (sg_n grp) (sg_g grp).
Proof.
  intros H.
  assert (HG : sg_n grp = n /\ sg_g grp = g /\ N.size n = bits /\ 1 < g < n /\ N.gcd g n = 1).
  { cbn [builtin In] in H. decompose [or] H; clear H; try contradiction;
      match goal with E : (_, _) = (_, _) |- _ => injection E as <- <- <- <- end;
      apply (group_ok_sound _ _ _ _ _); vm_cast_no_check (eq_refl true). }
  destruct HG as (E1 & E2 & E3 & E45 & E6).
  assert (B1 : 2 ^ (bits - 1) <= n < 2 ^ bits).
  { rewrite <- E3. rewrite N.size_log2 by lia. pose proof (N.log2_spec n ltac:(lia)).
    replace (N.succ (N.log2 n) - 1) with (N.log2 n) by lia. lia. }
  repeat (split; [assumption || lia|]).
  rewrite E1, E2. apply usable_iff. split; [lia|]. apply to_bytes_be_length_mono. lia.
Qed.

Theorem builtin_honest_accepted D grp e a b v :
  In (grp, e) builtin ->
  exists A sv, client_public grp a = Ok A /\ ~ N.divide (sg_n grp) (be_val A) /\
    server_process_reply D grp b v A = Ok sv.
Proof.
  destruct e as [[bits n] g]. intros H.
  destruct (builtin_groups_rfc _ _ _ _ H) as (En & Eg & _ & Hg & Hgcd & Hu).
  apply honest_a_accepted; [exact Hu|rewrite En; lia|congruence].
Qed.
