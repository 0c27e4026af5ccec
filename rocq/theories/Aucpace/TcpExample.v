(** * The example programs of the aucpace crate that talk over TCP
    (aucpace/examples/key_agreement.rs, key_agreement_partial_aug.rs and key_agreement_strong.rs): the two
    threads, the database for a single user and the channel identifier.  Line numbers without a file name
    are those of key_agreement.rs.  Printing, timing and the counters of sent bytes are left out. *)
From Coq Require Import ZArith.
From Verif Require Import Base.Bytes Base.Outcome Base.Rng.
From Verif Require Import Curve.Scalar25519 Aucpace.RistrettoGroup Aucpace.PwHash Aucpace.AucpaceModel
  Aucpace.Wire Aucpace.Net.
Local Open Scope nat_scope.

(** [ClientMessage<16>], [ServerMessage<16>] (lines 77, 152) *)
Definition K1 : nat := 16.

Section Programs.
Context (R : RGroup) (D : bytes -> bytes) (Tc Ts : Rng).
(** the build has the feature strong_aucpace *)
Context (strong : bool).
Notation thread := (proc Error bytes).

(** lines 15-21 [send!]; serialising does not fail *)
Definition send_client (m : ClientMessage R) (k : thread) : thread := PSend (put_client R bincode strong m) k.
Definition send_server (m : ServerMessage R) (k : thread) : thread := PSend (put_server R bincode strong m) k.
(** lines 24-30 [recv!]; the bytes after a message are ignored *)
Definition recv_client (k : ClientMessage R -> thread) : thread :=
  PRecv (fun received => match get_client R bincode strong K1 received with Some (m, _) => k m | None => PDone Panic end).
Definition recv_server (k : ServerMessage R -> thread) : thread :=
  PRecv (fun received => match get_server R bincode strong K1 received with Some (m, _) => k m | None => PDone Panic end).
(** the [?] operator *)
Definition try {A} (r : res A) (k : A -> thread) : thread :=
  match r with Ok a => k a | Err e => PDone (Err e) | Panic => PDone Panic end.
(** [.unwrap()] *)
Definition unwrap {A} (r : res A) : res A := match r with Ok a => Ok a | _ => Panic end.

(** Where the three programs differ: the client's first message of the augmentation layer ([None]: it is
    still looking for a blinding value), the server's answer, and what the client does with it. *)
Record example := {
  ex_state : Type;
  ex_start : AuCPaceClientPreAug -> option (ex_state * ClientMessage R);
  ex_info : AuCPaceServerAugLayer -> ClientMessage R -> res (AuCPaceServerCPaceSubstep Ts * ServerMessage R);
  ex_finish : ex_state -> ServerMessage R -> res AuCPaceClientCPaceSubstep
}.
Context (X : example).

(** lines 60-135 (the listener has accepted the connection); [ci] is the value of line 99 *)
Definition server_thread (base_server : AuCPaceServer Ts) (ci : bytes) : thread :=
  let '((server, message), _) := server_begin R Ts K1 base_server in
  send_server message (
  recv_client (fun client_message =>
  match client_message with
  | CNonce client_nonce =>
      let server := server_agree_ssid D server client_nonce in
      recv_client (fun client_message =>
      try (ex_info X server client_message) (fun '(server, message) =>
      send_server message (
      let '(server, message) := server_generate_public_key R D Ts server ci in
      send_server message (
      recv_client (fun client_message =>
      match client_message with
      | CPublicKey client_pubkey =>
          try (receive_client_pubkey R D server client_pubkey) (fun server =>
          recv_client (fun client_message =>
          match client_message with
          | CAuthenticator client_authenticator =>
              try (receive_client_authenticator R D server client_authenticator) (fun '(key, message) =>
              send_server message (PDone (Ok key)))
          | _ => PDone Panic
          end))
      | _ => PDone Panic
      end)))))
  | _ => PDone Panic
  end)).

(** lines 138-227; [ci] is the value of line 190, [rng] the generator of line 191 *)
Definition client_thread (base_client : AuCPaceClient Tc) (ci : bytes) (rng : rng_state Tc) : thread :=
  let '((client, message), _) := client_begin R Tc K1 base_client in
  send_client message (
  recv_server (fun server_message =>
  match server_message with
  | SNonce server_nonce =>
      let client := client_agree_ssid D client server_nonce in
      match ex_start X client with
      | None => PHang
      | Some (client, message) =>
          send_client message (
          recv_server (fun server_message =>
          try (ex_finish X client server_message) (fun client =>
          let '((client, message), _) := client_generate_public_key R D Tc client ci rng in
          send_client message (
          recv_server (fun server_message =>
          match server_message with
          | SPublicKey server_pubkey =>
              try (receive_server_pubkey R D client server_pubkey) (fun '(client, message) =>
              send_client message (
              recv_server (fun server_message =>
              match server_message with
              | SAuthenticator server_authenticator =>
                  PDone (receive_server_authenticator D client server_authenticator)
              | _ => PDone Panic
              end)))
          | _ => PDone Panic
          end)))))
      end
  | _ => PDone Panic
  end)).
End Programs.

(** ** The three programs *)
Section Variants.
Context (R : RGroup) (D : bytes -> bytes) (Tc Ts : Rng).
Context (Params : Type) (params_of : bytes -> res Params).
(** [params_of]: lines 176-183.  [rng]: the generator of line 87. *)
Context (user pass : bytes) (h : hasher Params) (rng : rng_state Ts).

(** lines 160 and 168-187 *)
Definition finish_plain (client : AuCPaceClientAugLayer) (m : ServerMessage R) : res AuCPaceClientCPaceSubstep :=
  match m with
  | SAugmentationInfo _ x_pub salt pbkdf_params =>
      let! params := params_of pbkdf_params in
      generate_cpace_alloc R Params client x_pub salt params h
  | _ => Panic
  end.
(** lines 86-90 *)
Definition key_agreement (DB : Database R) (database : db DB) : example R Ts := {|
  ex_start := fun client => Some (start_augmentation R client user pass);
  ex_info := fun server m =>
    match m with CUsername username => generate_client_info R D DB Ts server username database rng | _ => Panic end;
  ex_finish := finish_plain
|}.
(** key_agreement_partial_aug.rs:93-98 *)
Definition key_agreement_partial_aug (DB : Database R) (PDB : PartialAugDatabase R (db DB)) (database : db DB)
  : example R Ts := {|
  ex_start := fun client => Some (start_augmentation R client user pass);
  ex_info := fun server m =>
    match m with
    | CUsername username => generate_client_info_partial_aug R D DB PDB Ts server username database rng
    | _ => Panic
    end;
  ex_finish := finish_plain
|}.
(** key_agreement_strong.rs:87-94 (an error is unwrapped), 164, 172-191; [crng] is the generator of line
    164, drawn from at most [fuel] times *)
Definition key_agreement_strong (DB : StrongDatabase R) (database : sdb DB) (fuel : nat) (crng : rng_state Tc)
  : example R Ts := {|
  ex_start := fun client => option_map fst (start_augmentation_strong R D Tc fuel client user pass crng);
  ex_info := fun server m =>
    match m with
    | CStrongUsername username blinded =>
        unwrap (generate_client_info_strong R D DB Ts server username blinded database rng)
    | _ => Panic
    end;
  ex_finish := fun client m =>
    match m with
    | SStrongAugmentationInfo _ x_pub blinded_salt pbkdf_params =>
        let! params := params_of pbkdf_params in
        strong_generate_cpace_alloc R Params client x_pub blinded_salt params h
    | _ => Panic
    end
|}.
End Variants.

(** ** The channel identifier *)

(** [std::net::SocketAddr]: the octets of the address, and the port *)
Inductive ip := V4 (octets : bytes) | V6 (octets : bytes).
Record socket_addr := { sa_ip : ip; sa_port : N }.
(** the values the Rust type has *)
Definition socket_addr_valid (a : socket_addr) : Prop :=
  match sa_ip a with V4 o => length o = 4 | V6 o => length o = 16 end /\ (sa_port a < 65536)%N.

(** lines 288-308 [TcpChannelIdentifier::new]; writing to a [Vec] does not fail *)
Definition octets (a : ip) : bytes := match a with V4 o => o | V6 o => o end.
Definition tcp_channel_identifier (src dst : socket_addr) : bytes :=
  let id := [] in
  let id := id ++ octets (sa_ip src) in
  let id := id ++ [colon] in
  let id := id ++ be_bytes 2 (sa_port src) in
  let id := id ++ [colon] in
  let id := id ++ octets (sa_ip dst) in
  let id := id ++ [colon] in
  let id := id ++ be_bytes 2 (sa_port dst) in
  id.

(** ** The databases of the examples *)

(** lines 251-254, key_agreement_partial_aug.rs:258-263, key_agreement_strong.rs:255-258 *)
Record single (V K : Type) := { su_user : option bytes; su_data : option V; su_keypair : option K }.
Arguments su_user {V K}.
Arguments su_data {V K}.
Arguments su_keypair {V K}.
(** [#[derive(Default)]] *)
Definition single_default {V K} : single V K := {| su_user := None; su_data := None; su_keypair := None |}.
(** the [match] of lines 263-266 and its copies *)
Definition for_user {V K A} (d : single V K) (username : bytes) (a : option A) : option A :=
  match su_user d with
  | Some stored_username => if bytes_eqb stored_username username then a else None
  | None => None
  end.
Definition single_store {V K} (d : single V K) (username : bytes) (v : V) : single V K :=
  {| su_user := Some username; su_data := Some v; su_keypair := su_keypair d |}.

Section Databases.
Context (R : RGroup).
(** lines 256-280 *)
Definition SingleDb : Database R := {|
  db := single (pt R * bytes * bytes) (scalar * pt R);
  lookup_verifier := fun d username => for_user d username (su_data d);
  store_verifier := fun d username salt _uad verifier params => single_store d username (verifier, salt, params)
|}.
(** key_agreement_partial_aug.rs:291-317 *)
Definition SinglePartialDb : PartialAugDatabase R (db SingleDb) := {|
  lookup_long_term_keypair := fun d username => for_user d username (su_keypair (d : single _ _));
  store_long_term_keypair := fun (d : single _ _) username priv_key pub_key =>
    match su_user d with
    | Some stored_user =>
        if bytes_eqb stored_user username
        then Ok {| su_user := su_user d; su_data := su_data d; su_keypair := Some (priv_key, pub_key) |}
        else Err UserNotRegistered
    | None => Err UserNotRegistered
    end
|}.
(** key_agreement_strong.rs:260-285 *)
Definition SingleStrongDb : StrongDatabase R := {|
  sdb := single (pt R * scalar * bytes) Empty_set;
  lookup_verifier_strong := fun d username => for_user d username (su_data d);
  store_verifier_strong := fun d username _uad verifier secret_exponent params =>
    single_store d username (verifier, secret_exponent, params)
|}.

(** key_agreement_no_std.rs:242-281: the user name in an array of [USERSIZE] bytes; a slice out of range
    would panic, and no lookup does ([nd_len <= USERSIZE]) *)
Record no_std_single := { nd_user : option (bytes * nat); nd_data : option (pt R * bytes * bytes) }.
Definition NoStdDb (USERSIZE : nat) : Database R := {|
  db := no_std_single;
  lookup_verifier := fun d username =>
    match nd_user d with
    | Some (stored_username, len) => if bytes_eqb (firstn len stored_username) username then nd_data d else None
    | None => None
    end;
  store_verifier := fun d username salt _uad verifier params =>
    if Nat.leb (length username) USERSIZE then
      {| nd_user := Some (username ++ skipn (length username) (repeat x00 USERSIZE), length username);
         nd_data := Some (verifier, salt, params) |}
    else d
|}.
End Databases.
