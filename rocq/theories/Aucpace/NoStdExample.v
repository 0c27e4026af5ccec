(** * The example program without the standard library (aucpace/examples/key_agreement_no_std.rs):
    both parties in one thread, each message written with postcard to a buffer of 1024 bytes and read back
    from the whole buffer.  Printing, timing and the counters of sent bytes are left out. *)
From Coq Require Import ZArith.
From Verif Require Import Base.Bytes Base.Outcome Base.Rng.
From Verif Require Import Curve.Scalar25519 Aucpace.RistrettoGroup Aucpace.PwHash Aucpace.AucpaceModel
  Aucpace.Wire Aucpace.TcpExample.
Local Open Scope nat_scope.

(** lines 66-67 *)
Definition BUFFER : nat := 1024.
(** lines 14-20 [send!]: the buffer afterwards; [to_slice] fails when the message does not fit *)
Definition send_buf (message : bytes) : res bytes :=
  if Nat.leb (length message) BUFFER then Ok (message ++ repeat x00 (BUFFER - length message)) else Panic.
(** lines 23-27 [recv!]; [from_bytes] ignores what follows the message *)
Definition recv_buf {M} (get : decoder M) (buf : bytes) : res M :=
  match get buf with Some (m, _) => Ok m | None => Panic end.

Section NoStd.
Context (R : RGroup) (D : bytes -> bytes) (Tc Ts : Rng) (strong : bool).
Context (Params : Type) (params_try_into : Params -> outcome pherror bytes) (params_of : bytes -> res Params).
Notation pc := (fun m => put_client R postcard strong m).
Notation ps := (fun m => put_server R postcard strong m).
Notation gc := (get_client R postcard strong K1).
Notation gs := (get_server R postcard strong K1).

(** lines 69-219: the client's key and the server's key.  [rngs], [rngc]: the generators of lines 116 and
    161.  [params_of]: lines 136-143. *)
Definition no_std_login (base_client : AuCPaceClient Tc) (base_server : AuCPaceServer Ts) (DB : Database R)
  (database : db DB) (USERNAME PASSWORD : bytes) (h : hasher Params) (CI : bytes) (rngs : rng_state Ts)
  (rngc : rng_state Tc) : res (bytes * bytes) :=
  let '((client, message), _) := client_begin R Tc K1 base_client in
  let! client_buf := send_buf (pc message) in
  let! client_message := recv_buf gc client_buf in
  let! (server, server_buf) :=
    match client_message with
    | CNonce client_nonce =>
        let '((server, message), _) := server_begin R Ts K1 base_server in
        let! server_buf := send_buf (ps message) in
        Ok (server_agree_ssid D server client_nonce, server_buf)
    | _ => Panic
    end in
  let! server_message := recv_buf gs server_buf in
  let! client :=
    match server_message with SNonce nonce => Ok (client_agree_ssid D client nonce) | _ => Panic end in
  let '(client, message) := start_augmentation R client USERNAME PASSWORD in
  let! client_buf := send_buf (pc message) in
  let! client_message := recv_buf gc client_buf in
  let! (server, message) :=
    match client_message with
    | CUsername username => generate_client_info R D DB Ts server username database rngs
    | _ => Panic
    end in
  let! server_buf := send_buf (ps message) in
  let! server_message := recv_buf gs server_buf in
  let! client :=
    match server_message with
    | SAugmentationInfo _ x_pub salt pbkdf_params =>
        let! params := params_of pbkdf_params in
        generate_cpace R Params 100 client x_pub salt params h
    | _ => Panic
    end in
  let '(server, message) := server_generate_public_key R D Ts server CI in
  let! server_buf := send_buf (ps message) in
  let '((client, message), _) := client_generate_public_key R D Tc client CI rngc in
  let! client_buf := send_buf (pc message) in
  let! client_message := recv_buf gc client_buf in
  let! server :=
    match client_message with
    | CPublicKey client_pubkey => receive_client_pubkey R D server client_pubkey
    | _ => Panic
    end in
  let! server_message := recv_buf gs server_buf in
  let! (client, message) :=
    match server_message with
    | SPublicKey server_pubkey => receive_server_pubkey R D client server_pubkey
    | _ => Panic
    end in
  let! client_buf := send_buf (pc message) in
  let! client_message := recv_buf gc client_buf in
  let! (server_key, server_buf) :=
    match client_message with
    | CAuthenticator client_authenticator =>
        let! (key, message) := receive_client_authenticator R D server client_authenticator in
        let! server_buf := send_buf (ps message) in
        Ok (key, server_buf)
    | _ => Panic
    end in
  let! server_message := recv_buf gs server_buf in
  let! client_key :=
    match server_message with
    | SAuthenticator server_authenticator => unwrap (receive_server_authenticator D client server_authenticator)
    | _ => Panic
    end in
  Ok (client_key, server_key).

(** lines 29-240: registration, login, and the assertion of line 226.  [creg] is the client before the
    registration of line 41, which uses the client's generator; [Ok key] is the key printed. *)
Definition no_std_main (base_client : AuCPaceClient Tc) (base_server : AuCPaceServer Ts) (USERNAME PASSWORD : bytes)
  (params : Params) (h : hasher Params) (CI : bytes) (rngs : rng_state Ts) (rngc : rng_state Tc) : res bytes :=
  let database := {| nd_user := None; nd_data := None |} in
  let '(registration, base_client) := register R Params params_try_into Tc 100 base_client USERNAME PASSWORD params h in
  let! registration := registration in
  let database :=
    match registration with
    | CRegistration username salt params verifier =>
        store_verifier (NoStdDb R 100) database username salt None verifier params
    | _ => database
    end in
  let! (client_key, server_key) :=
    no_std_login base_client base_server (NoStdDb R 100) database USERNAME PASSWORD h CI rngs rngc in
  if bytes_eqb client_key server_key then Ok client_key else Panic.
End NoStd.
