(** * A world of sessions: one server with its databases, any number of server and client sessions, and
    a network that chooses every message received, every random state and the order of all steps.

    The sessions are those of the model; a step with a method the session's type-state does not have,
    or on a session that has ended, does nothing (such a program does not compile).  A method that
    fails consumes its session.  The log records what the sessions sent and returned. *)
From Coq Require Import ZArith.
From Verif Require Import Base.Bytes Base.Outcome Base.Rng.
From Verif Require Import Curve.Scalar25519.
From Verif Require Import Aucpace.RistrettoGroup Aucpace.PwHash Aucpace.AucpaceModel Aucpace.AucpaceRun
  Aucpace.AucpaceDb.
Local Open Scope nat_scope.

Section World.
Context (R : RGroup) (D : bytes -> bytes) (Params : Type).
Context (Tc Ts : Rng).
Context (DB : Database R) (SDB : StrongDatabase R).
Context (PDB : PartialAugDatabase R (db DB)) (PSDB : PartialAugDatabase R (sdb SDB)).

(** ** Client sessions *)
Inductive csess :=
| C_None
| C_Ssid (c : AuCPaceClientSsidEstablish)
| C_PreAug (c : AuCPaceClientPreAug)
| C_Aug (c : AuCPaceClientAugLayer)
| C_StrongAug (c : StrongAuCPaceClientAugLayer)
| C_CPace (c : AuCPaceClientCPaceSubstep)
| C_Recv (c : AuCPaceClientRecvServerKey)
| C_Exp (c : AuCPaceClientExpMutAuth)
| C_End.

(** What a client session is told to do; [st] is the state of the generator it uses. *)
Inductive cevent :=
| CE_Begin (K1 : nat) (st : rng_state Tc)
| CE_BeginPre (ssid : bytes)
| CE_Agree (server_nonce : bytes)
| CE_Start (user pass : bytes)
| CE_StartStrong (fuel : nat) (user pass : bytes) (st : rng_state Tc)
| CE_Generate (m : buf_mode) (x_pub : pt R) (salt : bytes) (params : Params) (h : hasher Params)
| CE_GenerateStrong (m : buf_mode) (x_pub blinded_salt : pt R) (params : Params) (h : hasher Params)
| CE_Key (ci : bytes) (st : rng_state Tc)
| CE_RecvKey (Y : pt R)
| CE_Implicit (Y : pt R)
| CE_RecvAuth (a : bytes).

(** What happened in it: it agreed on an SSID from two nonces; it sent an authenticator; it returned a
    session key after receiving an authenticator, or by implicit authentication. *)
Inductive clog :=
| CL_Nonces (server_nonce client_nonce ssid : bytes)
| CL_Auth (ssid sk1 sent : bytes)
| CL_Accept (ssid sk1 received key : bytes)
| CL_Implicit (ssid key : bytes).

Definition client_step (c : csess) (e : cevent) : csess * list clog :=
  match c, e with
  | C_None, CE_Begin K1 st =>
      let '((c, _), _) := client_begin R Tc K1 {| c_rng := st |} in (C_Ssid c, [])
  | C_None, CE_BeginPre ssid =>
      match client_begin_prestablished_ssid D ssid with Ok c => (C_PreAug c, []) | _ => (C_End, []) end
  | C_Ssid c, CE_Agree n =>
      (* the nonce is an array of the same size as the client's *)
      if Nat.eqb (length n) (length (cse_nonce c)) then
        let c' := client_agree_ssid D c n in (C_PreAug c', [CL_Nonces n (cse_nonce c) (cpa_ssid c')])
      else (C_Ssid c, [])
  | C_PreAug c, CE_Start u p => let '(c, _) := start_augmentation R c u p in (C_Aug c, [])
  | C_PreAug c, CE_StartStrong fuel u p st =>
      match start_augmentation_strong R D Tc fuel c u p st with
      | Some ((c, _), _) => (C_StrongAug c, []) | None => (C_End, []) end
  | C_Aug c, CE_Generate m X salt params h =>
      match do_generate_cpace R Params m c X salt params h with Ok c => (C_CPace c, []) | _ => (C_End, []) end
  | C_StrongAug c, CE_GenerateStrong m X bs params h =>
      match do_strong_generate_cpace R Params m c X bs params h with Ok c => (C_CPace c, []) | _ => (C_End, []) end
  | C_CPace c, CE_Key ci st =>
      let '((c, _), _) := client_generate_public_key R D Tc c ci st in (C_Recv c, [])
  | C_Recv c, CE_RecvKey Y =>
      match receive_server_pubkey R D c Y with
      | Ok (c, CAuthenticator a) => (C_Exp c, [CL_Auth (cem_ssid c) (cem_sk1 c) a])
      | _ => (C_End, []) end
  | C_Recv c, CE_Implicit Y =>
      match client_implicit_auth R D c Y with
      | Ok k => (C_End, [CL_Implicit (crs_ssid c) k]) | _ => (C_End, []) end
  | C_Exp c, CE_RecvAuth a =>
      match receive_server_authenticator D c a with
      | Ok k => (C_End, [CL_Accept (cem_ssid c) (cem_sk1 c) a k]) | _ => (C_End, []) end
  | _, _ => (c, [])
  end.

(** ** Server sessions *)
Inductive ssess :=
| S_None
| S_Ssid (s : AuCPaceServerSsidEstablish)
| S_Aug (s : AuCPaceServerAugLayer)
| S_CPace (s : AuCPaceServerCPaceSubstep Ts)
| S_Recv (s : AuCPaceServerRecvClientKey)
| S_Exp (s : AuCPaceServerExpMutAuth)
| S_End.

Inductive sevent :=
| SE_Begin (K1 : nat)
| SE_BeginPre (ssid : bytes)
| SE_Agree (client_nonce : bytes)
| SE_Info (user : bytes) (st : rng_state Ts)
| SE_InfoPartial (user : bytes) (st : rng_state Ts)
| SE_InfoStrong (user : bytes) (U : pt R) (st : rng_state Ts)
| SE_InfoPartialStrong (user : bytes) (U : pt R) (st : rng_state Ts)
| SE_Key (ci : bytes)
| SE_RecvKey (Y : pt R)
| SE_Implicit (Y : pt R)
| SE_RecvAuth (a : bytes).

(** [SL_Reply user U known reply]: the augmentation reply sent for a user name (and blinded point, in the
    strong variant); [known]: the databases had what is needed to serve the user. *)
Inductive slog :=
| SL_Nonces (server_nonce client_nonce ssid : bytes)
| SL_Reply (user : bytes) (U : option (pt R)) (known : bool) (reply : ServerMessage R)
| SL_Accept (ssid sk1 received key sent : bytes)
| SL_Implicit (ssid key : bytes).

Record server_state := {
  sv_server : AuCPaceServer Ts;
  sv_db : db DB;
  sv_sdb : sdb SDB
}.

Definition isSome {A} (o : option A) : bool := match o with Some _ => true | None => false end.

Definition reply_of (user : bytes) (U : option (pt R)) (known : bool)
  (r : res (AuCPaceServerCPaceSubstep Ts * ServerMessage R)) : ssess * list slog :=
  match r with
  | Ok (s, msg) => (S_CPace s, [SL_Reply user U known msg])
  | _ => (S_End, [])
  end.

Definition server_step (v : server_state) (s : ssess) (e : sevent) : AuCPaceServer Ts * ssess * list slog :=
  match s, e with
  | S_None, SE_Begin K1 =>
      let '((s, _), sv) := server_begin R Ts K1 (sv_server v) in (sv, S_Ssid s, [])
  | S_None, SE_BeginPre ssid =>
      match server_begin_prestablished_ssid D Ts (sv_server v) ssid with
      | Ok s => (sv_server v, S_Aug s, []) | _ => (sv_server v, S_End, []) end
  | S_Ssid s, SE_Agree n =>
      if Nat.eqb (length n) (length (sse_nonce s)) then
        let s' := server_agree_ssid D s n in
        (sv_server v, S_Aug s', [SL_Nonces (sse_nonce s) n (sal_ssid s')])
      else (sv_server v, S_Ssid s, [])
  | S_Aug s, SE_Info u st =>
      let '(s', l) := reply_of u None (isSome (lookup_verifier DB (sv_db v) u))
                        (generate_client_info R D DB Ts s u (sv_db v) st) in
      (sv_server v, s', l)
  | S_Aug s, SE_InfoPartial u st =>
      let '(s', l) := reply_of u None
                        (isSome (lookup_verifier DB (sv_db v) u) && isSome (lookup_long_term_keypair PDB (sv_db v) u))
                        (generate_client_info_partial_aug R D DB PDB Ts s u (sv_db v) st) in
      (sv_server v, s', l)
  | S_Aug s, SE_InfoStrong u U st =>
      let '(s', l) := reply_of u (Some U) (isSome (lookup_verifier_strong SDB (sv_sdb v) u))
                        (generate_client_info_strong R D SDB Ts s u U (sv_sdb v) st) in
      (sv_server v, s', l)
  | S_Aug s, SE_InfoPartialStrong u U st =>
      let '(s', l) := reply_of u (Some U)
                        (isSome (lookup_verifier_strong SDB (sv_sdb v) u) && isSome (lookup_long_term_keypair PSDB (sv_sdb v) u))
                        (generate_client_info_partial_strong R D SDB PSDB Ts s u U (sv_sdb v) st) in
      (sv_server v, s', l)
  | S_CPace s, SE_Key ci =>
      let '(s, _) := server_generate_public_key R D Ts s ci in (sv_server v, S_Recv s, [])
  | S_Recv s, SE_RecvKey Y =>
      match receive_client_pubkey R D s Y with
      | Ok s => (sv_server v, S_Exp s, []) | _ => (sv_server v, S_End, []) end
  | S_Recv s, SE_Implicit Y =>
      match server_implicit_auth R D s Y with
      | Ok k => (sv_server v, S_End, [SL_Implicit (src_ssid s) k]) | _ => (sv_server v, S_End, []) end
  | S_Exp s, SE_RecvAuth a =>
      match receive_client_authenticator R D s a with
      | Ok (k, SAuthenticator b) => (sv_server v, S_End, [SL_Accept (sem_ssid s) (sem_sk1 s) a k b])
      | _ => (sv_server v, S_End, []) end
  | _, _ => (sv_server v, s, [])
  end.

(** ** The world *)
Inductive event :=
| EClient (i : nat) (e : cevent)
| EServer (j : nat) (e : sevent)
| EStore (user salt : bytes) (uad : option bytes) (W : pt R) (params : bytes)
| EStoreStrong (user : bytes) (uad : option bytes) (W : pt R) (q : scalar) (params : bytes)
| ELongTerm (user : bytes)         (* generate_long_term_keypair and store *)
| ELongTermStrong (user : bytes).

Inductive entry := LC (i : nat) (l : clog) | LS (j : nat) (l : slog).

Record world := {
  w_server : server_state;
  w_clients : nat -> csess;
  w_sessions : nat -> ssess;
  w_log : list entry
}.

Definition set {A} (f : nat -> A) (i : nat) (a : A) : nat -> A := fun k => if Nat.eqb k i then a else f k.
Definition with_server (w : world) (v : server_state) : world :=
  {| w_server := v; w_clients := w_clients w; w_sessions := w_sessions w; w_log := w_log w |}.

Definition step (w : world) (e : event) : world :=
  let v := w_server w in
  match e with
  | EClient i e =>
      let '(c, l) := client_step (w_clients w i) e in
      {| w_server := v; w_clients := set (w_clients w) i c; w_sessions := w_sessions w;
         w_log := w_log w ++ map (LC i) l |}
  | EServer j e =>
      let '(sv, s, l) := server_step v (w_sessions w j) e in
      {| w_server := {| sv_server := sv; sv_db := sv_db v; sv_sdb := sv_sdb v |};
         w_clients := w_clients w; w_sessions := set (w_sessions w) j s;
         w_log := w_log w ++ map (LS j) l |}
  | EStore u salt uad W ps =>
      with_server w {| sv_server := sv_server v; sv_db := store_verifier DB (sv_db v) u salt uad W ps;
                       sv_sdb := sv_sdb v |}
  | EStoreStrong u uad W q ps =>
      with_server w {| sv_server := sv_server v; sv_db := sv_db v;
                       sv_sdb := store_verifier_strong SDB (sv_sdb v) u uad W q ps |}
  | ELongTerm u =>
      let '((x, X), sv) := generate_long_term_keypair R Ts (sv_server v) in
      with_server w {| sv_server := sv;
                       sv_db := match store_long_term_keypair PDB (sv_db v) u x X with
                                | Ok d => d | _ => sv_db v end;
                       sv_sdb := sv_sdb v |}
  | ELongTermStrong u =>
      let '((x, X), sv) := generate_long_term_keypair R Ts (sv_server v) in
      with_server w {| sv_server := sv; sv_db := sv_db v;
                       sv_sdb := match store_long_term_keypair PSDB (sv_sdb v) u x X with
                                 | Ok d => d | _ => sv_sdb v end |}
  end.

(** A world in which nothing has happened: a new server, with any databases. *)
Definition init (rng : rng_state Ts) (d : db DB) (sd : sdb SDB) : world :=
  {| w_server := {| sv_server := server_new Ts rng; sv_db := d; sv_sdb := sd |};
     w_clients := fun _ => C_None; w_sessions := fun _ => S_None; w_log := [] |}.

Definition run (w : world) (es : list event) : world := fold_left step es w.
End World.

Arguments SL_Nonces {R}. Arguments SL_Reply {R}. Arguments SL_Accept {R}. Arguments SL_Implicit {R}.
Arguments LC {R}. Arguments LS {R}.
Arguments S_None {Ts}. Arguments S_Ssid {Ts}. Arguments S_Aug {Ts}. Arguments S_CPace {Ts}.
Arguments S_Recv {Ts}. Arguments S_Exp {Ts}. Arguments S_End {Ts}.
Arguments sv_server {R Ts DB SDB}. Arguments sv_db {R Ts DB SDB}. Arguments sv_sdb {R Ts DB SDB}.
Arguments w_server {R Ts DB SDB}. Arguments w_clients {R Ts DB SDB}. Arguments w_sessions {R Ts DB SDB}.
Arguments w_log {R Ts DB SDB}.
