(** * Property C68: the hashing parameters in the example programs of the aucpace crate. *)
From Coq Require Import ZArith Lia.
From Verif Require Import Base.Bytes Base.Outcome Base.Rng Base.Kat.
From Verif Require Import Curve.Scalar25519.
From Verif Require Import Aucpace.RistrettoGroup Aucpace.PwHash Aucpace.AucpaceModel Aucpace.AucpaceSpec
  Aucpace.AucpaceRun Aucpace.AucpaceDb Aucpace.AucpaceToy Aucpace.AucpaceProofs Aucpace.AucpaceProps
  Aucpace.Wire Aucpace.WireProofs Aucpace.AucpaceProps3 Aucpace.Net Aucpace.TcpExample Aucpace.TcpProofs
  Aucpace.AucpaceProps6 Aucpace.ScryptParams.
Local Open Scope nat_scope.

(** ** What is registered is what the client hashes with *)

(** Every set of parameters scrypt accepts is written as a valid parameter string, from which the client
    reads the same parameters. *)
Theorem C68_roundtrip :
  forall P, scrypt_ok P ->
  exists ps, scrypt_to_params P = Ok ps /\ params_valid ps /\ scrypt_params_of ps = Ok P.
Proof. intros P HP. destruct (scrypt_roundtrip P HP) as (ps & H1 & H2 & H3 & _). now exists ps. Qed.

(** From a valid string the client reads [P] when the values of the first pairs named ln, r and p are
    decimal numerals for the numbers of [P], the first at most 255, the others below 2^32, and scrypt
    accepts them.  Otherwise it panics; it returns no error. *)
Theorem C68_params_of_exact :
  forall ps, params_valid ps ->
  (forall P, scrypt_params_of ps = Ok P <-> scrypt_reads ps P) /\
  (scrypt_params_of ps = Panic <-> forall P, ~ scrypt_reads ps P) /\
  (forall e, scrypt_params_of ps <> Err e).
Proof.
  intros ps Hp. destruct (scrypt_params_of_spec ps Hp) as [(P & -> & H)|[-> H]]; split; [|split| |split].
  - intros P'. rewrite H. split; [intros E; now injection E|now intros ->].
  - split; [discriminate|]. intros C. exfalso. apply (C P). now apply H.
  - discriminate.
  - intros P. split; [discriminate|]. intros C. now apply H in C.
  - now split.
  - discriminate.
Qed.

Section Tcp.
Context (R : RGroup) (L : rgroup_laws R) (D : bytes -> bytes) (Dlen : forall m, length (D m) = 64).
Context (Tc Ts : Rng) (user pass : bytes) (h : hasher scrypt_params) (rngs : rng_state Ts).
Context (c : AuCPaceClient Tc) (s : AuCPaceServer Ts) (ci : bytes) (rngc : rng_state Tc).
Notation ssid := (the_ssid D Tc Ts c s).
Notation threads strong X := (start (client_thread R D Tc Ts strong X c ci rngc) (server_thread R D Ts strong X s ci)).

(** The example as it is, with scrypt and any parameters scrypt accepts: after the registration there is
    an execution in which both threads end with the same key of 64 bytes. *)
Theorem C68_honest :
  forall strong Treg (creg : AuCPaceClient Treg) params u salt ps W creg' d,
  length user <= 1012 -> scrypt_ok params ->
  register_alloc R scrypt_params scrypt_to_params Treg creg user pass params h
    = (Ok (CRegistration u salt ps W), creg') ->
  (forall w, spec_w h user pass salt params = Ok w ->
     forall P, In P (honest_points R D ssid w (drawn Ts rngs) ci (drawn Ts (after Ts 64 rngs)) (drawn Tc rngc)) ->
     P <> rzero R) ->
  let d' := store_verifier (SingleDb R) d u salt None W ps in
  let X := key_agreement R D Ts scrypt_params scrypt_params_of user pass h rngs (SingleDb R) d' in
  exists n key, exec (threads strong X) n /\
    length key = 64 /\ cl n = PDone (Ok key) /\ sv n = PDone (Ok key) /\ c2s n = [] /\ s2c n = [].
Proof.
  intros strong Treg creg params u salt ps W creg' d Hl Hok Hreg Hpts d' X.
  destruct (C68_roundtrip params Hok) as (ps' & E1 & E2 & E3).
  pose proof Hreg as Hr. apply (do_register_ok R scrypt_params scrypt_to_params AllocBuf) in Hr; [|exact I].
  destruct Hr as (_ & _ & Ep & _). rewrite Ep in E1. injection E1 as <-.
  exact (C62_honest R L D Dlen scrypt_params scrypt_params_of Tc Ts user pass h rngs c s ci rngc strong scrypt_to_params
    Treg creg params u salt ps W creg' d Hl E2 Hreg E3 Hpts).
Qed.

(** ** A user the server does not know *)

(** If the client's use of the reply panics, so can both threads. *)
Lemma tcp_panics strong X st m ss M : example_laws R Ts strong X ->
  ex_start R Ts X {| cpa_ssid := ssid |} = Some (st, m) ->
  ex_info R Ts X (sal D Ts s (nonce Tc (c_rng Tc c))) m = Ok (ss, M) -> ex_finish R Ts X st M = Panic ->
  length (put_client R bincode strong m) <= BUF -> length (put_server R bincode strong M) <= BUF ->
  exists n, exec (threads strong X) n /\ cl n = PDone Panic /\ sv n = PDone Panic.
Proof.
  intros EL Est Ei Ef Bm BM.
  destruct (el_client_valid _ _ _ _ EL _ _ _ Est) as [mh mv]. destruct (el_server_valid _ _ _ _ EL _ _ _ _ Ei) as [Mh Mv].
  destruct (server_generate_public_key R D Ts ss ci) as [sk mk] eqn:Ek.
  eexists. split.
  { unfold start, client_thread, server_thread.
    destruct (client_begin R Tc K1 c) as [[sess m0] c'] eqn:Eb.
    pose proof (client_begin_nonce R Tc c) as En. rewrite Eb in En. injection En as -> ->.
    destruct (server_begin R Ts K1 s) as [[ses' m1] s'] eqn:Eb'.
    pose proof (server_begin_nonce R Ts s) as En. rewrite Eb' in En. injection En as -> ->.
    unfold send_client, send_server, recv_client, recv_server.
    eapply ex_step; [apply c_send|]. eapply ex_step; [apply s_send|]. cbn [app].
    eapply ex_step; [apply c_read_all; rewrite ps_nonce_length by apply nonce_length; unfold BUF; lia|].
    cbv beta. rewrite (gs_put R L strong) by (reflexivity || apply nonce_s_valid).
    eapply ex_step; [apply s_read_all; rewrite pc_nonce_length by apply nonce_length; unfold BUF; lia|].
    cbv beta. rewrite (gc_put R L strong) by (reflexivity || apply nonce_c_valid). cbv zeta.
    unfold client_agree_ssid, server_agree_ssid. rewrite !compute_ssid_eq. cbn [cse_nonce sse_nonce sse_secret].
    fold ssid. rewrite Est.
    eapply ex_step; [apply c_send|]. rewrite app_nil_l.
    eapply ex_step; [apply s_read_all; pose proof (pc_nonempty R strong m); lia|].
    cbv beta. rewrite (gc_put R L strong m mh mv), compute_ssid_eq.
    change {| sal_secret := _; sal_ssid := _ |} with (sal D Ts s (nonce Tc (c_rng Tc c))). rewrite Ei. cbn [try].
    eapply ex_step; [apply s_send|]. rewrite app_nil_l.
    rewrite Ek.
    eapply ex_step; [apply s_send|].
    eapply ex_step; [apply c_recv; pose proof (ps_nonempty R strong M); lia|].
    cbv beta. rewrite (gs_put R L strong M Mh Mv), Ef. cbn [try].
    eapply ex_step; [apply s_recv_fails|]. apply ex_nil. }
  split; reflexivity.
Qed.
(** If the server's use of the client's message panics, so can both threads. *)
Lemma tcp_panics_server strong X st m : example_laws R Ts strong X ->
  ex_start R Ts X {| cpa_ssid := ssid |} = Some (st, m) ->
  ex_info R Ts X (sal D Ts s (nonce Tc (c_rng Tc c))) m = Panic ->
  length (put_client R bincode strong m) <= BUF ->
  exists n, exec (threads strong X) n /\ cl n = PDone Panic /\ sv n = PDone Panic.
Proof.
  intros EL Est Ei Bm.
  destruct (el_client_valid _ _ _ _ EL _ _ _ Est) as [mh mv].
  eexists. split.
  { unfold start, client_thread, server_thread.
    destruct (client_begin R Tc K1 c) as [[sess m0] c'] eqn:Eb.
    pose proof (client_begin_nonce R Tc c) as En. rewrite Eb in En. injection En as -> ->.
    destruct (server_begin R Ts K1 s) as [[ses' m1] s'] eqn:Eb'.
    pose proof (server_begin_nonce R Ts s) as En. rewrite Eb' in En. injection En as -> ->.
    unfold send_client, send_server, recv_client, recv_server.
    eapply ex_step; [apply c_send|]. eapply ex_step; [apply s_send|]. cbn [app].
    eapply ex_step; [apply c_read_all; rewrite ps_nonce_length by apply nonce_length; unfold BUF; lia|].
    cbv beta. rewrite (gs_put R L strong) by (reflexivity || apply nonce_s_valid).
    eapply ex_step; [apply s_read_all; rewrite pc_nonce_length by apply nonce_length; unfold BUF; lia|].
    cbv beta. rewrite (gc_put R L strong) by (reflexivity || apply nonce_c_valid). cbv zeta.
    unfold client_agree_ssid, server_agree_ssid. rewrite !compute_ssid_eq. cbn [cse_nonce sse_nonce sse_secret].
    fold ssid. rewrite Est.
    eapply ex_step; [apply c_send|]. rewrite app_nil_l.
    eapply ex_step; [apply s_read_all; pose proof (pc_nonempty R strong m); lia|].
    cbv beta. rewrite (gc_put R L strong m mh mv), compute_ssid_eq.
    change {| sal_secret := _; sal_ssid := _ |} with (sal D Ts s (nonce Tc (c_rng Tc c))). rewrite Ei. cbn [try].
    eapply ex_step; [apply c_recv_fails|]. apply ex_nil. }
  split; reflexivity.
Qed.

(** The reply for an unknown user has no parameters, which the examples' clients do not survive. *)
Lemma default_params_panic : scrypt_params_of params_default = Panic.
Proof. reflexivity. Qed.

(** Whatever the password, a session for a user without a record can end with a panic in both threads,
    where the claim is that the client returns an error. *)
Theorem C68_unknown_user_refuted :
  forall strong (DB : Database R) d, records_valid R DB d -> length user <= 1012 ->
  lookup_verifier DB d user = None ->
  let X := key_agreement R D Ts scrypt_params scrypt_params_of user pass h rngs DB d in
  exists n, exec (threads strong X) n /\ cl n = PDone Panic /\ sv n = PDone Panic.
Proof.
  intros strong DB d HD Hl Hn X.
  destruct (plain_laws R D Dlen scrypt_params scrypt_params_of Ts user pass h rngs strong DB d HD (user_small D Dlen scrypt_params scrypt_params_of user pass Hl))
    as [EL Hs]. fold X in EL, Hs.
  assert (Ei : exists ss P salt, ex_info R Ts X (sal D Ts s (nonce Tc (c_rng Tc c))) (CUsername user)
    = Ok (ss, SAugmentationInfo group_name P salt params_default)).
  { cbn [X key_agreement ex_info]. rewrite generate_client_info_eq. unfold generate_prs. rewrite Hn.
    rewrite lookup_failed_eq by exact Dlen. cbn [cpace_substep obind]. do 3 eexists. reflexivity. }
  destruct Ei as (ss & P & salt & Ei).
  apply (tcp_panics strong X {| cal_ssid := ssid; cal_username := user; cal_password := pass |} (CUsername user) ss _ EL
    eq_refl Ei).
  - cbn [X key_agreement ex_finish finish_plain]. now rewrite default_params_panic.
  - unfold put_client. rewrite app_length, pb_length. cbn [bincode put_tag]. rewrite le_bytes_length. unfold BUF. lia.
  - exact (short_reply_fits R L D Dlen scrypt_params scrypt_params_of strong _ (Hs _ _ _ _ Ei)).
Qed.
Theorem C68_unknown_user_partial_aug_refuted :
  forall strong (DB : Database R) PDB d, records_valid R DB d -> length user <= 1012 ->
  lookup_verifier DB d user = None ->
  let X := key_agreement_partial_aug R D Ts scrypt_params scrypt_params_of user pass h rngs DB PDB d in
  exists n, exec (threads strong X) n /\ cl n = PDone Panic /\ sv n = PDone Panic.
Proof.
  intros strong DB PDB d HD Hl Hn X.
  destruct (partial_laws R D Dlen scrypt_params scrypt_params_of Ts user pass h rngs strong DB PDB d HD
    (user_small D Dlen scrypt_params scrypt_params_of user pass Hl)) as [EL Hs]. fold X in EL, Hs.
  assert (Ei : exists ss P salt, ex_info R Ts X (sal D Ts s (nonce Tc (c_rng Tc c))) (CUsername user)
    = Ok (ss, SAugmentationInfo group_name P salt params_default)).
  { cbn [X key_agreement_partial_aug ex_info]. unfold generate_client_info_partial_aug.
    destruct (lookup_long_term_keypair PDB d user) as [[x P]|].
    - unfold generate_prs. rewrite Hn.
      rewrite lookup_failed_eq by exact Dlen. cbn [cpace_substep obind]. do 3 eexists. reflexivity.
    - destruct (point_random R Ts rngs) as [P st].
      rewrite lookup_failed_eq by exact Dlen. cbn [cpace_substep obind]. do 3 eexists. reflexivity. }
  destruct Ei as (ss & P & salt & Ei).
  apply (tcp_panics strong X {| cal_ssid := ssid; cal_username := user; cal_password := pass |} (CUsername user) ss _ EL
    eq_refl Ei).
  - cbn [X key_agreement_partial_aug ex_finish finish_plain]. now rewrite default_params_panic.
  - unfold put_client. rewrite app_length, pb_length. cbn [bincode put_tag]. rewrite le_bytes_length. unfold BUF. lia.
  - exact (short_reply_fits R L D Dlen scrypt_params scrypt_params_of strong _ (Hs _ _ _ _ Ei)).
Qed.
Theorem C68_unknown_user_strong_refuted :
  forall (DB : StrongDatabase R) d fuel crng, strong_records_valid R DB d -> length user <= 980 ->
  lookup_verifier_strong DB d user = None -> draw_blinding_value Tc fuel crng <> None ->
  let X := key_agreement_strong R D Tc Ts scrypt_params scrypt_params_of user pass h rngs DB d fuel crng in
  exists n, exec (threads true X) n /\ cl n = PDone Panic /\ sv n = PDone Panic.
Proof.
  intros DB d fuel crng HD Hl Hn Hr X.
  destruct (draw_blinding_value Tc fuel crng) as [[rv r']|] eqn:Er; [|now elim Hr].
  destruct (strong_laws R D Dlen scrypt_params scrypt_params_of Tc Ts user pass h rngs DB d fuel crng HD
    (user_small D Dlen scrypt_params scrypt_params_of user pass ltac:(lia))) as [EL Hs]. fold X in EL, Hs.
  assert (Est : exists st U, ex_start R Ts X {| cpa_ssid := ssid |} = Some (st, CStrongUsername user U)).
  { cbn [X key_agreement_strong ex_start]. rewrite start_augmentation_strong_eq, Er. do 2 eexists. reflexivity. }
  destruct Est as (st & U & Est).
  assert (Bm : length (put_client R bincode true (CStrongUsername user U)) <= BUF).
  { unfold put_client, put_point. rewrite !app_length, pb_length, (rl_length R L). cbn [bincode put_tag].
    rewrite le_bytes_length. unfold BUF. lia. }
  assert (Ei : (exists ss P Q, ex_info R Ts X (sal D Ts s (nonce Tc (c_rng Tc c))) (CStrongUsername user U)
      = Ok (ss, SStrongAugmentationInfo group_name P Q params_default)) \/
    ex_info R Ts X (sal D Ts s (nonce Tc (c_rng Tc c))) (CStrongUsername user U) = Panic).
  { cbn [X key_agreement_strong ex_info]. rewrite generate_client_info_strong_eq. unfold generate_prs_strong. rewrite Hn.
    rewrite lookup_failed_strong_eq. cbv zeta. destruct (is_identity _); cbn [cpace_substep obind unwrap]; [now right|].
    left. do 3 eexists. reflexivity. }
  destruct Ei as [(ss & P & Q & Ei)|Ei].
  - apply (tcp_panics true X st _ ss _ EL Est Ei); [|exact Bm|exact (short_reply_fits R L D Dlen scrypt_params scrypt_params_of true _ (Hs _ _ _ _ Ei))].
    cbn [X key_agreement_strong ex_finish]. now rewrite default_params_panic.
  - exact (tcp_panics_server true X st _ EL Est Ei Bm).
Qed.

(** ** The server chooses the cost *)

(** scrypt needs 128 * r * 2^ln bytes of memory. *)
Definition scrypt_memory (P : scrypt_params) : N := (128 * sp_r P * 2 ^ sp_log_n P)%N.

(** The client has no bound of its own: for all parameters scrypt accepts there is a reply, its other
    fields arbitrary, for which it hashes with these parameters, and scrypt accepts parameters that need
    2^63 bytes. *)
Theorem C68_cost_refuted :
  (forall P, scrypt_ok P -> exists ps, params_valid ps /\ forall st g x_pub salt,
     finish_plain R scrypt_params scrypt_params_of h st (SAugmentationInfo g x_pub salt ps)
     = generate_cpace_alloc R scrypt_params st x_pub salt P h) /\
  exists P, scrypt_ok P /\ scrypt_memory P = (2 ^ 63)%N.
Proof.
  split.
  - intros P HP. destruct (C68_roundtrip P HP) as (ps & _ & H1 & H2). exists ps. split; [exact H1|].
    intros st g x_pub salt. cbn [finish_plain]. now rewrite H2.
  - exists {| sp_log_n := 53; sp_r := 8; sp_p := 1 |}. split; [|reflexivity].
    unfold scrypt_ok. cbn [sp_log_n sp_r sp_p]. repeat split.
Qed.
End Tcp.

(** ** Cases *)

(** C68: the recommended parameters. *)
Definition recommended : scrypt_params := {| sp_log_n := 17; sp_r := 8; sp_p := 1 |}.
Example C68_case : scrypt_ok recommended /\ scrypt_to_params recommended = Ok (str "ln=17,r=8,p=1") /\
  scrypt_params_of (str "ln=17,r=8,p=1") = Ok recommended.
Proof. split; [unfold scrypt_ok; cbn [recommended sp_log_n sp_r sp_p]; repeat split|]. split; vm_compute; reflexivity. Qed.
(** C68_params_of_exact: the first pair of a name counts; leading zeros and a plus sign are read. *)
Example C68_case_first : params_valid (str "r=+08,ln=017,v=1,p=1,ln=20") /\
  scrypt_params_of (str "r=+08,ln=017,v=1,p=1,ln=20") = Ok recommended.
Proof.
  split; [|vm_compute; reflexivity].
  apply (params_parse_iff _ (str "r=+08,ln=017,v=1,p=1,ln=20")). vm_compute. reflexivity.
Qed.
(** ... and three strings from which nothing is read. *)
Example C68_case_panics : scrypt_params_of (str "ln=17,r=8") = Panic /\ scrypt_params_of (str "ln=64,r=8,p=1") = Panic /\
  scrypt_params_of (str "ln=17,r=8,p=-1") = Panic.
Proof. repeat split; vm_compute; reflexivity. Qed.
(** C68_unknown_user_refuted: an empty database. *)
Definition sc_hash : hasher scrypt_params := fun input P salt =>
  toy_hash input (match scrypt_to_params P with Ok ps => ps | _ => [] end) salt.
Definition sc_example (d : db (SingleDb ToyGroup)) : example ToyGroup tape_rng :=
  key_agreement ToyGroup toyD tape_rng scrypt_params scrypt_params_of alice secret sc_hash (toy_tape 3001 3002)
    (SingleDb ToyGroup) d.
Notation sc_threads d := (start
  (client_thread ToyGroup toyD tape_rng tape_rng false (sc_example d) toy_client channel (toy_tape 4001 4002))
  (server_thread ToyGroup toyD tape_rng false (sc_example d) toy_server channel)).
Example C68_case_unknown : exists n, exec (sc_threads single_default) n /\ cl n = PDone Panic /\ sv n = PDone Panic.
Proof.
  apply (C68_unknown_user_refuted ToyGroup toy_laws toyD toyD_length tape_rng tape_rng alice secret sc_hash).
  - intros u W salt ps E. discriminate E.
  - cbn. lia.
  - reflexivity.
Qed.
(** C68_honest: alice is registered with the recommended parameters. *)
Section Honest.
Context (R : RGroup) (L : rgroup_laws R) (D : bytes -> bytes) (Dlen : forall m, length (D m) = 64).
Context (c : AuCPaceClient tape_rng) (s : AuCPaceServer tape_rng) (rngs rngc : bytes).
Notation reg := (register_alloc R scrypt_params scrypt_to_params tape_rng c alice secret recommended sc_hash).
Definition points_ok : bool :=
  match fst reg with
  | Ok (CRegistration u salt ps W) =>
      match spec_w sc_hash alice secret salt recommended with
      | Ok w => forallb (fun P => negb (is_identity P)) (honest_points R D (the_ssid D tape_rng tape_rng c s) w
          (drawn tape_rng rngs) channel (drawn tape_rng (after tape_rng 64 rngs)) (drawn tape_rng rngc))
      | _ => false
      end
  | _ => false
  end.
Lemma honest_checked : points_ok = true ->
  exists d n key,
    let X := key_agreement R D tape_rng scrypt_params scrypt_params_of alice secret sc_hash rngs (SingleDb R) d in
    exec (start (client_thread R D tape_rng tape_rng false X c channel rngc)
                (server_thread R D tape_rng false X s channel)) n /\
    length key = 64 /\ cl n = PDone (Ok key) /\ sv n = PDone (Ok key).
Proof.
  unfold points_ok. intros H. destruct reg as [r creg'] eqn:E. cbn [fst] in H.
  destruct r as [m|e|]; [|discriminate H|discriminate H].
  destruct m as [ | | | | |u salt ps W| ]; try discriminate H.
  destruct (C68_honest R L D Dlen tape_rng tape_rng alice secret sc_hash rngs
    c s channel rngc false tape_rng c recommended u salt ps W creg'
    single_default) as (n & key & He & Hk & Hc & Hs & _).
  - cbn. lia.
  - exact (proj1 C68_case).
  - exact E.
  - intros w Ew. rewrite Ew in H. intros P HP HZ. pose proof (proj1 (forallb_forall _ _) H P HP) as HN.
    apply negb_true_iff in HN. rewrite (proj2 (is_identity_eq L P) HZ) in HN. discriminate HN.
  - exists (store_verifier (SingleDb R) single_default u salt None W ps), n, key.
    split; [exact He|]. split; [exact Hk|]. split; [exact Hc|exact Hs].
Qed.
End Honest.
Lemma toy_points_ok : points_ok ToyGroup toyD toy_client toy_server (toy_tape 3001 3002) (toy_tape 4001 4002) = true.
Proof. vm_cast_no_check (eq_refl true). Qed.
Example C68_case_honest : exists d n key, exec (sc_threads d) n /\
  length key = 64 /\ cl n = PDone (Ok key) /\ sv n = PDone (Ok key).
Proof. exact (honest_checked ToyGroup toy_laws toyD toyD_length _ _ _ _ toy_points_ok). Qed.
