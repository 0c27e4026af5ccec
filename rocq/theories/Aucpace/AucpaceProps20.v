(** * AuCPace: who has a session key (C86). *)
From Coq Require Import ZArith Lia Bool.
From Verif Require Import Base.Bytes Base.Outcome Base.CtEq Base.Rng Base.Kat Base.Count Base.Guess Base.Dictionary Base.Birthday.
From Verif Require Import Curve.Scalar25519 Curve.Strings64.
From Verif Require Import Aucpace.RistrettoGroup Aucpace.PwHash Aucpace.AucpaceModel Aucpace.AucpaceSpec
  Aucpace.AucpaceRun Aucpace.AucpaceDb Aucpace.AucpaceToy Aucpace.AucpaceProofs Aucpace.AucpaceProps
  Aucpace.AucpaceProps9 Aucpace.AucpaceProps10 Aucpace.AucpaceProps17.
Local Open Scope nat_scope.

Section Sessions.
Context (R : RGroup) (L : rgroup_laws R) (D : bytes -> bytes) (Dlen : forall m, length (D m) = 64) (K1 : nat).

(** A session of a client or a server whose SSID is agreed from nonces: the random bytes its nonce and its
    private key are drawn from, and everything it is given - the other nonce, the result of the augmentation layer
    (whatever it is), the channel identifier, the other public key and possibly an authenticator. *)
Record taking := {
  t_client : bool; t_secret : N; t_nonce : bytes; t_tape : bytes;
  t_other : bytes; t_prs : bytes; t_ci : bytes; t_key : pt R; t_ending : ending
}.
Definition t_ssid (s : taking) : bytes :=
  if t_client s
  then cpa_ssid (client_agree_ssid D (fst (fst (client_begin R tape_rng K1 (client_new tape_rng (t_nonce s))))) (t_other s))
  else sal_ssid (server_agree_ssid D (fst (fst (server_begin R tape_rng K1 {| s_rng := t_nonce s : rng_state tape_rng; s_secret := t_secret s |}))) (t_other s)).
Definition taken (s : taking) : option bytes :=
  if t_client s then client_ends R D {| ccs_ssid := t_ssid s; ccs_prs := t_prs s |} (t_ci s) (t_key s) (t_ending s) (t_tape s)
  else server_ends R D (t_ssid s) (t_prs s) (t_ci s) (t_key s) (t_ending s) (t_tape s).
(** The buffers have their sizes. *)
Definition sized (s : taking) : Prop := length (t_nonce s) = K1 /\ length (t_other s) = K1 /\ length (t_tape s) = 64.

(** The server's and the client's nonce, as this session sees them. *)
Definition t_nonces (s : taking) : bytes * bytes := if t_client s then (t_other s, t_nonce s) else (t_nonce s, t_other s).
(** The first session key. *)
Definition t_sk1 (s : taking) : bytes := D (word x02 ++ t_ssid s ++ rcompress R (rmul (t_key s) (random (t_tape s)))).
(** Two sessions hash different nonces to one SSID, or different keys to one session key. *)
Definition takings_collide (s s' : taking) : Prop :=
  collision D (word x00 ++ fst (t_nonces s) ++ snd (t_nonces s)) (word x00 ++ fst (t_nonces s') ++ snd (t_nonces s')) \/
  collision D (word x05 ++ t_ssid s ++ t_sk1 s) (word x05 ++ t_ssid s' ++ t_sk1 s').

Lemma tape_whole n t : length t = n -> fst (rng_fill tape_rng n t) = t.
Proof.
  intros H. change (firstn n t ++ repeat x00 (n - length t) = t). rewrite H, Nat.sub_diag. cbn [repeat].
  rewrite app_nil_r, <- H. apply firstn_all.
Qed.
Lemma t_ssid_eq s : sized s -> t_ssid s = D (word x00 ++ fst (t_nonces s) ++ snd (t_nonces s)).
Proof.
  intros (HN & _ & _). unfold t_ssid, t_nonces. pose proof (tape_whole K1 (t_nonce s) HN) as HT. destruct (t_client s).
  - unfold client_begin, generate_nonce, client_new. cbn [c_rng]. destruct (rng_fill tape_rng K1 (t_nonce s)) as [x y]. cbn [fst] in HT. subst x.
    unfold client_agree_ssid. cbn [fst snd cse_nonce cpa_ssid]. apply compute_ssid_eq.
  - unfold server_begin, generate_nonce. cbn [s_rng]. destruct (rng_fill tape_rng K1 (t_nonce s)) as [x y]. cbn [fst] in HT. subst x.
    unfold server_agree_ssid. cbn [fst snd sse_nonce sal_ssid]. apply compute_ssid_eq.
Qed.
Lemma taken_eq s key : sized s -> taken s = Some key -> key = D (word x05 ++ t_ssid s ++ t_sk1 s).
Proof.
  intros (_ & _ & HT). unfold taken. destruct (t_client s); intros H.
  - destruct (client_ends_key R L D Dlen _ _ _ _ _ _ HT H) as [_ E]. exact E.
  - destruct (server_ends_key R L D Dlen _ _ _ _ _ _ _ HT H) as [_ E]. exact E.
Qed.

(** ** C86.  Two sessions with one key used the same pair of nonces, or they collide. *)
Theorem C86_aucpace_nonces :
  forall s s' key, sized s -> sized s' -> taken s = Some key -> taken s' = Some key ->
  t_nonces s = t_nonces s' \/ takings_collide s s'.
Proof.
  intros s s' key HS HS' H H'. apply (taken_eq _ _ HS) in H. apply (taken_eq _ _ HS') in H'. rewrite H in H'. clear H key.
  destruct (list_eq_dec byte_eq_dec (word x05 ++ t_ssid s ++ t_sk1 s) (word x05 ++ t_ssid s' ++ t_sk1 s')) as [E|E];
    [|right; right; split; [exact E|exact H']].
  apply app_inv_head in E. clear H'.
  assert (HL : length (t_ssid s) = length (t_ssid s')) by (rewrite !t_ssid_eq by assumption; rewrite !Dlen; reflexivity).
  apply (app_inj_length _ _ _ _ HL) in E. destruct E as [E _]. rewrite !t_ssid_eq in E by assumption.
  destruct (list_eq_dec byte_eq_dec (word x00 ++ fst (t_nonces s) ++ snd (t_nonces s)) (word x00 ++ fst (t_nonces s') ++ snd (t_nonces s'))) as [E'|E'];
    [left|right; left; split; [exact E'|exact E]].
  apply app_inv_head in E'. assert (HF : length (fst (t_nonces s)) = length (fst (t_nonces s'))).
  { destruct HS as (A & B & _), HS' as (A' & B' & _). unfold t_nonces. destruct (t_client s), (t_client s'); cbn [fst]; congruence. }
  apply (app_inj_length _ _ _ _ HF) in E'. destruct E' as [E1 E2]. destruct (t_nonces s), (t_nonces s'). cbn [fst snd] in *. congruence.
Qed.

(** So three sessions that drew three different nonces do not all have one key, or two of them collide. *)
Theorem C86_aucpace :
  forall s1 s2 s3 key, sized s1 -> sized s2 -> sized s3 ->
  taken s1 = Some key -> taken s2 = Some key -> taken s3 = Some key ->
  t_nonce s1 <> t_nonce s2 -> t_nonce s1 <> t_nonce s3 -> t_nonce s2 <> t_nonce s3 ->
  takings_collide s1 s2 \/ takings_collide s1 s3 \/ takings_collide s2 s3.
Proof.
  intros s1 s2 s3 key Z1 Z2 Z3 H1 H2 H3 N12 N13 N23.
  destruct (C86_aucpace_nonces s1 s2 key Z1 Z2 H1 H2) as [E12|HC]; [|auto].
  destruct (C86_aucpace_nonces s1 s3 key Z1 Z3 H1 H3) as [E13|HC]; [|auto].
  destruct (C86_aucpace_nonces s2 s3 key Z2 Z3 H2 H3) as [E23|HC]; [|auto].
  exfalso. unfold t_nonces in E12, E13, E23. destruct (t_client s1), (t_client s2), (t_client s3); congruence.
Qed.

Lemma one_string b : length (filter (fun a => bytes_eqb a b) (strings K1)) <= 1.
Proof.
  change 1 with (length [b]). apply NoDup_incl_length; [apply NoDup_filter, nodup_strings|].
  intros a Ha. apply filter_In in Ha. destruct Ha as [_ Ha]. apply bytes_eqb_eq in Ha. subst. now left.
Qed.
(** However messages are exchanged, dropped, replaced or invented, and whatever the other random bytes: three of n
    sessions have one key for at most a part n (n - 1) / (2 * 256^K1) of their nonces, or two of them collide.
    [play nonces] is what the sessions are given and draw besides, in any way depending on all nonces. *)
Theorem C86_aucpace_chance :
  forall n (play : list bytes -> list taking),
  (forall nonces, Forall (fun t => length t = K1) nonces -> length nonces = n ->
     map t_nonce (play nonces) = nonces /\ Forall sized (play nonces)) ->
  (2 * 256 ^ Z.of_nat K1 * Z.of_nat (length (filter (fun nonces => three_share taken (play nonces)) (choices (repeat (strings K1) n))))
     <= Z.of_nat (n * (n - 1)) * (256 ^ Z.of_nat K1) ^ Z.of_nat n)%Z \/
  exists nonces s s', Forall (fun t => length t = K1) nonces /\ length nonces = n /\
    In s (play nonces) /\ In s' (play nonces) /\ takings_collide s s'.
Proof.
  intros n play HP.
  destruct (bad_or (fun nonces => three_share taken (play nonces)) (repeats bytes_eqb) (choices (repeat (strings K1) n)))
    as [H|(nonces & Hn & H3 & HR)].
  - left. eapply Z.le_trans; [apply Z.mul_le_mono_nonneg_l; [|apply Nat2Z.inj_le, H]|].
    + apply Z.mul_nonneg_nonneg; [lia|]. apply Z.pow_nonneg. lia.
    + apply (birthday_part bytes_eqb (strings K1) 1 one_string); [apply Z.pow_pos_nonneg; lia|apply length_strings|lia].
  - right. exists nonces.
    destruct (choices_forall (fun t => length t = K1) _ _ _ (fun t => proj1 (in_strings K1 t)) Hn) as [HL HF].
    destruct (HP nonces HF HL) as [HM HZ]. rewrite Forall_forall in HZ.
    destruct (three_share_inv _ _ H3) as (s1 & s2 & s3 & k & L1 & L2 & L3 & T1 & T2 & T3 & HD).
    rewrite <- HM, repeats_map in HR. destruct (HD _ HR) as (R12 & R13 & R23).
    assert (NE : forall a b, bytes_eqb a b = false -> a <> b).
    { intros a b E ->. rewrite (proj2 (bytes_eqb_eq b b) eq_refl) in E. discriminate E. }
    apply NE in R12, R13, R23.
    destruct (C86_aucpace s1 s2 s3 k (HZ _ L1) (HZ _ L2) (HZ _ L3) T1 T2 T3 R12 R13 R23) as [HC|[HC|HC]].
    + exists s1, s2. repeat split; assumption.
    + exists s1, s3. repeat split; assumption.
    + exists s2, s3. repeat split; assumption.
Qed.
End Sessions.
Print Assumptions C86_aucpace_nonces.
Print Assumptions C86_aucpace.
Print Assumptions C86_aucpace_chance.

(** A toy client and server that exchange their messages have one key; so does a second client only if it draws
    the same nonce and the same private key. *)
Definition toy_client_taking (nonce tape : bytes) (Ys : pt ToyGroup) : taking ToyGroup :=
  {| t_client := true; t_secret := 0; t_nonce := nonce; t_tape := tape; t_other := le_bytes 16 77; t_prs := prs_a;
     t_ci := channel; t_key := Ys; t_ending := Implicitly |}.
Definition toy_server_taking (other : bytes) (Yc : pt ToyGroup) : taking ToyGroup :=
  {| t_client := false; t_secret := 25519; t_nonce := le_bytes 16 77; t_tape := le_bytes 64 3; t_other := other; t_prs := prs_a;
     t_ci := channel; t_key := Yc; t_ending := Implicitly |}.
Definition toy_public (tape : bytes) : pt ToyGroup :=
  rmul (spec_G ToyGroup toyD (toyD (word x00 ++ le_bytes 16 77 ++ le_bytes 16 99)) prs_a channel) (random tape).
Definition toy_pair : list (taking ToyGroup) :=
  [toy_client_taking (le_bytes 16 99) (le_bytes 64 5) (toy_public (le_bytes 64 3));
   toy_server_taking (le_bytes 16 99) (toy_public (le_bytes 64 5))].
Example C86_aucpace_case :
  match map (taken ToyGroup toyD 16) toy_pair with [Some k; Some k'] => bytes_eqb k k' | _ => false end = true.
Proof. vm_cast_no_check (eq_refl true). Qed.
Definition toy_again (nonce tape : bytes) : bool :=
  three_share (taken ToyGroup toyD 16) (toy_pair ++ [toy_client_taking nonce tape (toy_public (le_bytes 64 3))]).
Check (test (map (fun nt => toy_again (fst nt) (snd nt))
  [(le_bytes 16 99, le_bytes 64 5); (le_bytes 16 98, le_bytes 64 5); (le_bytes 16 99, le_bytes 64 6)]) [true; false; false]).
