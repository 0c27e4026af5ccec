(** * SRP: the lengths hashed show the length of the premaster secret (C98). *)
From Coq Require Import NArith Lia List.
From Verif Require Import Base.Bytes Base.Outcome Base.BigUint Base.Hex Base.Kat Base.Hashed Hash.Hash.
From Verif Require Import Srp.SrpModel Srp.SrpSpec Srp.SrpProofs Srp.SrpProofs2 Srp.SrpExamples Srp.SrpProps Srp.SrpProps9 Srp.SrpWork.
Import ListNotations.
Local Open Scope nat_scope.

Section Lengths.
Context (D : bytes -> bytes).

Lemma compute_k_h_inv grp k : fst (compute_k_h D grp) = Ok k ->
  compute_k_h D grp = (Ok k, [2 * length (to_bytes_be (sg_n grp))]).
Proof.
  unfold compute_k_h. destruct (Nat.ltb_spec (length (to_bytes_be (sg_n grp))) (length (to_bytes_be (sg_g grp)))) as [|H]; [discriminate|].
  cbn. intros E. injection E as <-. f_equal. rewrite !app_length, firstn_length, repeat_length. f_equal. lia.
Qed.

(** C98: the functions with the lengths return what the functions of the model return. *)
Theorem C98_srp_results :
  (forall grp a u p s B, fst (client_process_reply_h D grp a u p s B) = client_process_reply D grp a u p s B) /\
  (forall grp b v A, fst (server_process_reply_h D grp b v A) = server_process_reply D grp b v A).
Proof. split; intros; [apply client_h_fst|apply server_h_fst]. Qed.

(** C98: the lengths hashed by a server that accepts [A] are those of public values - the modulus, the two public keys -
    and that of the premaster secret. *)
Theorem C98_srp_server :
  forall grp b v A sv n lA B,
  server_process_reply D grp b v A = Ok sv -> server_public D grp b v = Ok B ->
  minimal_be (sg_n grp) n -> minimal_be (be_val A) lA ->
  snd (server_process_reply_h D grp b v A)
  = [2 * length n; length lA + length B; length lA + length B + length (server_key sv);
     length lA + length (sv_m1 sv) + length (server_key sv)].
Proof.
  intros grp b v A sv n lA B H HB ->%minimal_be_unique ->%minimal_be_unique.
  rewrite <- server_h_fst in H. unfold server_process_reply_h in *. rewrite !from_bytes_be_spec in *.
  unfold server_public in HB. rewrite <- compute_k_h_fst in HB. rewrite !from_bytes_be_spec in HB.
  destruct (fst (compute_k_h D grp)) as [k|e|] eqn:EK; try discriminate HB.
  apply compute_k_h_inv in EK. rewrite EK in *. cbn [obind] in HB.
  rewrite hbind_said_fst in H. rewrite hbind_said.
  destruct (compute_b_pub grp (be_val b) k (be_val v)) as [Bn|e|]; try discriminate HB. cbn [omap] in HB. injection HB as <-.
  rewrite hbind_silent in *.
  destruct (big_rem (be_val A) (sg_n grp)) as [r|e|]; try discriminate H. rewrite hbind_silent in *.
  destruct (r =? 0)%N; [discriminate H|]. unfold compute_u_h, digest_h, digesting in *.
  cbn [hbind silent app] in H |- *.
  destruct (server_premaster grp (be_val A) (be_val v) _ (be_val b)) as [key|e|]; try discriminate H.
  cbn in H |- *. injection H as <-. cbn [sv_m1 server_key sv_key]. rewrite !app_length.
  repeat (f_equal; try lia).
Qed.

(** C98: the same for a client; it also hashes the user's name, password and salt. *)
Theorem C98_srp_client :
  forall grp a user pw salt B cv n lA lB,
  client_process_reply D grp a user pw salt B = Ok cv -> client_public grp a = Ok lA ->
  minimal_be (sg_n grp) n -> minimal_be (be_val B) lB ->
  snd (client_process_reply_h D grp a user pw salt B)
  = [length lA + length lB; 2 * length n; length user + 1 + length pw; length salt + length (D (user ++ [x3a] ++ pw));
     length lA + length lB + length (client_key cv); length lA + length (cv_m1 cv) + length (client_key cv)].
Proof.
  intros grp a user pw salt B cv n lA lB H HA ->%minimal_be_unique ->%minimal_be_unique.
  rewrite <- client_h_fst in H. unfold client_process_reply_h in *. rewrite !from_bytes_be_spec in *.
  unfold client_public in HA. rewrite !from_bytes_be_spec in HA.
  destruct (compute_a_pub grp (be_val a)) as [An|e|]; try discriminate HA. cbn [omap] in HA. injection HA as <-.
  rewrite hbind_silent in *.
  destruct (big_rem (be_val B) (sg_n grp)) as [r|e|]; try discriminate H. rewrite hbind_silent in *.
  destruct (r =? 0)%N; [discriminate H|]. unfold compute_u_h, digest_h, digesting in *.
  cbn [hbind silent app] in H |- *.
  destruct (fst (compute_k_h D grp)) as [k|e|] eqn:EK.
  2,3: destruct (compute_k_h D grp) as [[?|?|] ?]; cbn in EK; try discriminate EK; cbn in H; discriminate H.
  apply compute_k_h_inv in EK. rewrite EK in *.
  unfold compute_identity_hash_h, compute_x_h, digest_h, digesting in *. cbn [hbind silent app] in H |- *.
  destruct (client_premaster grp (be_val B) k _ (be_val a) _) as [key|e|]; try discriminate H.
  cbn in H |- *. injection H as <-. cbn [cv_m1 client_key cv_key]. rewrite !app_length. cbn [length].
  repeat (f_equal; try lia).
Qed.

(** C98, that the lengths hashed depend on public values only: refuted.  One observer finds, for every session of a
    server or of a client, the length of the premaster secret from the lengths hashed and those of the public keys;
    so it sees whether the secret has leading zero bytes. *)
Theorem C98_srp_public_lengths_refuted :
  exists observer : nat -> nat -> list nat -> nat,
  (forall grp b v A sv lA B,
     server_process_reply D grp b v A = Ok sv -> server_public D grp b v = Ok B -> minimal_be (be_val A) lA ->
     observer (length lA) (length B) (snd (server_process_reply_h D grp b v A)) = length (server_key sv)) /\
  (forall grp a user pw salt B cv lA lB,
     client_process_reply D grp a user pw salt B = Ok cv -> client_public grp a = Ok lA -> minimal_be (be_val B) lB ->
     observer (length lA) (length lB) (snd (client_process_reply_h D grp a user pw salt B)) = length (client_key cv)).
Proof.
  exists (fun la lb t => nth (length t - 2) t 0 - (la + lb)). split.
  - intros grp b v A sv lA B H HB ML.
    rewrite (C98_srp_server grp b v A sv _ lA B H HB (minimal_be_to_bytes _) ML). cbn [length nth Nat.sub]. lia.
  - intros grp a user pw salt B cv lA lB H HA ML.
    rewrite (C98_srp_client grp a user pw salt B cv _ lA lB H HA (minimal_be_to_bytes _) ML). cbn [length nth Nat.sub]. lia.
Qed.

(** The length of a key below the modulus tells whether it begins with a zero byte, as wide as the modulus. *)
Theorem C98_srp_leading_zero :
  forall S key k, minimal_be S key -> 0 < k -> (length key <= k <-> (S < 256 ^ N.of_nat k)%N).
Proof.
  intros S key k ->%minimal_be_unique Hk. split; intros H.
  - eapply N.lt_le_trans; [apply to_bytes_be_bound|]. apply N.pow_le_mono_r; lia.
  - now apply to_bytes_be_length_le.
Qed.

(** What it is good for: an attacker who plays the client with a known private key sends its public key, watches how
    much the server hashes, and drops every password of a dictionary with another length of the key - before it has sent
    a proof.  The right password stays. *)
Definition same_length_candidates grp a user salt B (observed : nat) (dict : list bytes) : list bytes :=
  filter (fun p => match candidate D grp a user salt B p with
                   | Ok cv => Nat.eqb (length (client_key cv)) observed
                   | _ => false
                   end) dict.
Theorem C98_srp_dictionary_refuted :
  forall grp user pw salt a b dict,
  usable_group (sg_n grp) (sg_g grp) -> In pw dict ->
  exists v A B,
    compute_verifier D grp user pw salt = Ok v /\ client_public grp a = Ok A /\ server_public D grp b v = Ok B /\
    ((be_val A mod sg_n grp <> 0)%N -> (be_val B mod sg_n grp <> 0)%N ->
     let observed := nth 2 (snd (server_process_reply_h D grp b v A)) 0 - (length A + length B) in
     In pw (same_length_candidates grp a user salt B observed dict) /\
     forall p cv, client_process_reply D grp a user p salt B = Ok cv -> length (client_key cv) <> observed ->
       ~ In p (same_length_candidates grp a user salt B observed dict)).
Proof.
  intros grp user pw salt a b dict HU Hin.
  destruct (C01_honest_handshake_agrees D grp user pw salt a b HU) as (v & A & B & Hv & HA & HB & H).
  exists v, A, B. split; [exact Hv|]. split; [exact HA|]. split; [exact HB|]. intros NA NB.
  destruct (H NA NB) as (cv & sv & Hc & Hs & Hkey & _).
  assert (MA : minimal_be (be_val A) A).
  { destruct (outputs_canonical D grp _ (minimal_be_to_bytes (sg_n grp))) as (HC & _). now destruct (HC a A HA) as (_ & M & _). }
  rewrite (C98_srp_server grp b v A sv _ A B Hs HB (minimal_be_to_bytes _) MA). cbv zeta. cbn [nth].
  replace (length A + length B + length (server_key sv) - (length A + length B)) with (length (server_key sv)) by lia.
  split.
  - unfold same_length_candidates. apply filter_In. split; [exact Hin|]. unfold candidate. rewrite Hc.
    apply Nat.eqb_eq. congruence.
  - intros p cv' Hc' NE Hp. unfold same_length_candidates in Hp. apply filter_In in Hp. destruct Hp as [_ Hp].
    unfold candidate in Hp. rewrite Hc' in Hp. apply Nat.eqb_eq in Hp. contradiction.
Qed.
End Lengths.

(** Case: the 16-bit group with SHA-256.  The hypotheses are met (see C95_srp_case); the secret has two bytes for the right
    password and one byte for a candidate, which is dropped. *)
Example C98_srp_case : usable_group (sg_n grp16) (sg_g grp16) /\ In password123 five /\ minimal_be 65267 (hex "fef3") /\ minimal_be 77 (hex "4d").
Proof.
  split; [exact grp16_usable|]. split; [right; right; left; reflexivity|].
  split; (split; [reflexivity|]); (split; [discriminate|]); intros t E; discriminate E.
Qed.
Check (test (snd (server_process_reply_h sha256 grp16 b0 v0 A0)) [4; 4; 6; 36]).
Definition a596 : bytes := hex "0254".
Check (test (same_length_candidates sha256 grp16 a596 alice salt0 B0 2 five) [str "letmein"; password123; str ""; str "qwerty"]).
Check (test (same_length_candidates sha256 grp16 a596 alice salt0 B0 1 five) [str "hunter2"]).
