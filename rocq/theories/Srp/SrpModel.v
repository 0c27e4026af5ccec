(** * Model of the [srp] crate (srp/src/*.rs).

    Rust [BigUint] is [N] (see Base/BigUint.v); byte slices and [Vec<u8>] are [bytes].
    The digest type parameter [D: Digest] is a function [D : bytes -> bytes]: the sequence
    [D::new(); update(a); update(b); finalize()] is [D (a ++ b)].  [usize] arithmetic is exact
    (all lengths are lengths of existing slices).  Panics are [Panic]. *)
From Verif Require Import Base.Bytes Base.Outcome Base.CtEq Base.BigUint.

(** srp/src/types.rs:6-10 *)
Inductive SrpAuthError :=
| IllegalParameter (param : bytes)
| BadRecordMac (param : bytes).

(** srp/src/types.rs:12-23, [Display for SrpAuthError] *)
Definition display_error (e : SrpAuthError) : bytes :=
  match e with
  | IllegalParameter p => str "illegal_parameter: bad '" ++ p ++ str "' value"
  | BadRecordMac p => str "bad_record_mac: incorrect '" ++ p ++ str "'  proof"
  end.

(** srp/src/types.rs:27-32 *)
Record SrpGroup := { sg_n : N; sg_g : N }.

Definition res := outcome SrpAuthError.

Section Srp.
Context (D : bytes -> bytes).

(** srp/src/utils.rs:8-13 [compute_u] *)
Definition compute_u (a_pub b_pub : bytes) : N :=
  from_bytes_be (D (a_pub ++ b_pub)).

(** srp/src/utils.rs:17-28 [compute_k]; [n.len() - g_bytes.len()] overflows (debug) or the
    range [l..] is out of bounds (release) when [g] is longer than [n]: a panic either way. *)
Definition compute_k (grp : SrpGroup) : res N :=
  let n := to_bytes_be (sg_n grp) in
  let g_bytes := to_bytes_be (sg_g grp) in
  if Nat.ltb (length n) (length g_bytes) then Panic else
  let l := (length n - length g_bytes)%nat in
  let buf := firstn l (repeat x00 (length n)) ++ g_bytes in
  Ok (from_bytes_be (D (n ++ buf))).

(** srp/src/utils.rs:33-39 [compute_m1] *)
Definition compute_m1 (a_pub b_pub key : bytes) : bytes := D (a_pub ++ b_pub ++ key).

(** srp/src/utils.rs:43-49 [compute_m2] *)
Definition compute_m2 (a_pub m1 key : bytes) : bytes := D (a_pub ++ m1 ++ key).

(** ** Client: srp/src/client.rs *)

(** client.rs:119-121 *)
Definition compute_a_pub (grp : SrpGroup) (a : N) : res N :=
  big_modpow (sg_g grp) a (sg_n grp).

(** client.rs:125-131 *)
Definition compute_identity_hash (username password : bytes) : bytes :=
  D (username ++ str ":" ++ password).

(** client.rs:135-140 *)
Definition compute_x (identity_hash salt : bytes) : N :=
  from_bytes_be (D (salt ++ identity_hash)).

(** client.rs:144-162 *)
Definition client_premaster (grp : SrpGroup) (b_pub k x a u : N) : res N :=
  let! gx := big_modpow (sg_g grp) x (sg_n grp) in
  let! base := big_rem (k * gx) (sg_n grp) in
  let! diff := big_sub (sg_n grp + b_pub) base in
  let! base := big_rem diff (sg_n grp) in
  let exp := (u * x + a)%N in
  big_modpow base exp (sg_n grp).

(** client.rs:166-168 *)
Definition compute_v (grp : SrpGroup) (x : N) : res N :=
  big_modpow (sg_g grp) x (sg_n grp).

(** client.rs:172-176 *)
Definition compute_verifier (grp : SrpGroup) (username password salt : bytes) : res bytes :=
  let identity_hash := compute_identity_hash username password in
  let x := compute_x identity_hash salt in
  omap to_bytes_be (compute_v grp x).

(** client.rs:181-183 *)
Definition client_public (grp : SrpGroup) (a : bytes) : res bytes :=
  omap to_bytes_be (compute_a_pub grp (from_bytes_be a)).

(** client.rs:102-106 [SrpClientVerifier] *)
Record ClientVerifier := { cv_m1 : bytes; cv_m2 : bytes; cv_key : bytes }.

(** client.rs:189-226 *)
Definition client_process_reply (grp : SrpGroup) (a username password salt b_pub : bytes)
  : res ClientVerifier :=
  let a := from_bytes_be a in
  let! a_pub := compute_a_pub grp a in
  let b_pub := from_bytes_be b_pub in
  let! r := big_rem b_pub (sg_n grp) in
  if (r =? 0)%N then Err (IllegalParameter (str "b_pub")) else
  let u := compute_u (to_bytes_be a_pub) (to_bytes_be b_pub) in
  let! k := compute_k grp in
  let identity_hash := compute_identity_hash username password in
  let x := compute_x identity_hash salt in
  let! key := client_premaster grp b_pub k x a u in
  let m1 := compute_m1 (to_bytes_be a_pub) (to_bytes_be b_pub) (to_bytes_be key) in
  let m2 := compute_m2 (to_bytes_be a_pub) m1 (to_bytes_be key) in
  Ok {| cv_m1 := m1; cv_m2 := m2; cv_key := to_bytes_be key |}.

(** client.rs:233-235 *)
Definition client_key (cv : ClientVerifier) : bytes := cv_key cv.

(** client.rs:238-240 *)
Definition client_proof (cv : ClientVerifier) : bytes := cv_m1 cv.

(** client.rs:243-249 *)
Definition verify_server (cv : ClientVerifier) (reply : bytes) : res unit :=
  if (slice_ct_eq (cv_m2 cv) reply =? 1)%N then Ok tt
  else Err (BadRecordMac (str "server")).

(** ** Server: srp/src/server.rs *)

(** server.rs:96-99 *)
Definition compute_b_pub (grp : SrpGroup) (b k v : N) : res N :=
  let! inter := big_rem (k * v) (sg_n grp) in
  let! gb := big_modpow (sg_g grp) b (sg_n grp) in
  big_rem (inter + gb) (sg_n grp).

(** server.rs:103-113 *)
Definition server_premaster (grp : SrpGroup) (a_pub v u b : N) : res N :=
  let! vu := big_modpow v u (sg_n grp) in
  let! base := big_rem (a_pub * vu) (sg_n grp) in
  big_modpow base b (sg_n grp).

(** server.rs:117-124 *)
Definition server_public (grp : SrpGroup) (b v : bytes) : res bytes :=
  let! k := compute_k grp in
  omap to_bytes_be (compute_b_pub grp (from_bytes_be b) k (from_bytes_be v)).

(** server.rs:78-82 [SrpServerVerifier] *)
Record ServerVerifier := { sv_m1 : bytes; sv_m2 : bytes; sv_key : bytes }.

(** server.rs:129-164 *)
Definition server_process_reply (grp : SrpGroup) (b v a_pub : bytes) : res ServerVerifier :=
  let b := from_bytes_be b in
  let v := from_bytes_be v in
  let a_pub := from_bytes_be a_pub in
  let! k := compute_k grp in
  let! b_pub := compute_b_pub grp b k v in
  let! r := big_rem a_pub (sg_n grp) in
  if (r =? 0)%N then Err (IllegalParameter (str "a_pub")) else
  let u := compute_u (to_bytes_be a_pub) (to_bytes_be b_pub) in
  let! key := server_premaster grp a_pub v u b in
  let m1 := compute_m1 (to_bytes_be a_pub) (to_bytes_be b_pub) (to_bytes_be key) in
  let m2 := compute_m2 (to_bytes_be a_pub) m1 (to_bytes_be key) in
  Ok {| sv_m1 := m1; sv_m2 := m2; sv_key := to_bytes_be key |}.

(** server.rs:170-172 *)
Definition server_key (sv : ServerVerifier) : bytes := sv_key sv.

(** server.rs:175-178 *)
Definition server_proof (sv : ServerVerifier) : bytes := sv_m2 sv.

(** server.rs:181-187 *)
Definition verify_client (sv : ServerVerifier) (reply : bytes) : res unit :=
  if (slice_ct_eq (sv_m1 sv) reply =? 1)%N then Ok tt
  else Err (BadRecordMac (str "client")).

End Srp.
