(** * Specification of SPAKE2 over edwards25519, independent of the model's code.

    It uses only the group operations of the curve, the point encoding, SHA-256, HMAC-SHA256,
    integers modulo the group order and concatenation of byte strings. *)
From Coq Require Import ZArith.
From Verif Require Import Base.Bytes Hash.Hash.
From Verif Require Import Curve.Primes Curve.Ed25519 Curve.Ed25519Points.
From Verif Require Import Spake2.Spake2Model.

(** The three roles.  A session's role is its side without the identities. *)
Inductive role := RoleA | RoleB | RoleS.
Definition role_of (sd : Side) : role :=
  match sd with SideA _ _ => RoleA | SideB _ _ => RoleB | SideSymmetric _ => RoleS end.

(** The role whose messages a session accepts. *)
Definition peer (r : role) : role :=
  match r with RoleA => RoleB | RoleB => RoleA | RoleS => RoleS end.

(** 'A', 'B', 'S' *)
Definition tag (r : role) : byte :=
  match r with RoleA => x41 | RoleB => x42 | RoleS => x53 end.

(** Each role blinds its message with its own constant. *)
Definition blind (r : role) : epoint :=
  match r with RoleA => ed_M | RoleB => ed_N | RoleS => ed_S end.

(** HKDF-SHA256 (RFC 5869) with empty salt, info "SPAKE2 pw" and 48 bytes of output. *)
Definition pw_okm (pw : bytes) : bytes :=
  let info := str "SPAKE2 pw" in
  let prk := hmac_sha256 (repeat x00 32) pw in
  let t1 := hmac_sha256 prk (info ++ [x01]) in
  let t2 := hmac_sha256 prk (t1 ++ info ++ [x02]) in
  t1 ++ firstn 16 t2.

(** ... read as a big-endian integer modulo the group order. *)
Definition pw_int (pw : bytes) : Z := (Z.of_N (be_val (pw_okm pw)) mod ell)%Z.

(** The point a session sends: x*B + pw*blind. *)
Definition msg_point (r : role) (pw : bytes) (x : Z) : epoint :=
  eadd (emul x ed_B) (emul (pw_int pw) (blind r)).

(** The shared element of a session with secret x that received the point P. *)
Definition shared (r : role) (pw : bytes) (x : Z) (P : epoint) : epoint :=
  emul x (eadd P (eopp (emul (pw_int pw) (blind (peer r))))).

(** The two encodings in increasing order, as big-endian integers. *)
Definition sorted (u v : bytes) : bytes :=
  if N.leb (be_val u) (be_val v) then u ++ v else v ++ u.

(** The byte string hashed into the key: own message, received message, shared element. *)
Definition transcript (sd : Side) (pw mine theirs : bytes) (K : epoint) : bytes :=
  match sd with
  | SideA a b => sha256 pw ++ sha256 a ++ sha256 b ++ mine ++ theirs ++ compress K
  | SideB a b => sha256 pw ++ sha256 a ++ sha256 b ++ theirs ++ mine ++ compress K
  | SideSymmetric i => sha256 pw ++ sha256 i ++ sorted mine theirs ++ compress K
  end.

(** [b] decodes to a curve point: some point has the y-coordinate its low 255 bits give. *)
Definition decodable (b : bytes) : Prop :=
  exists P, ey P = fof (Z.of_N (le_val b) mod 2 ^ 255).

(** Two different strings with the same image. *)
Definition collision (H : bytes -> bytes) (a b : bytes) : Prop := a <> b /\ H a = H b.

(** What a completed session is about: the identities, and the two messages in protocol order
    (A's first) for A/B sessions. *)
Inductive exchange :=
| ExchangeAB (id_a id_b msg_a msg_b : bytes)
| ExchangeS (id_s mine theirs : bytes).
Definition exchange_of (sd : Side) (mine theirs : bytes) : exchange :=
  match sd with
  | SideA a b => ExchangeAB a b mine theirs
  | SideB a b => ExchangeAB a b theirs mine
  | SideSymmetric i => ExchangeS i mine theirs
  end.

(** The same exchange; the messages of a symmetric exchange are an unordered pair. *)
Definition same_exchange (e e' : exchange) : Prop :=
  match e, e' with
  | ExchangeAB a b x y, ExchangeAB a' b' x' y' => a = a' /\ b = b' /\ x = x' /\ y = y'
  | ExchangeS i u v, ExchangeS i' u' v' => i = i' /\ ((u = u' /\ v = v') \/ (u = v' /\ v = u'))
  | _, _ => False
  end.

(** The identities of a side. *)
Definition identities (sd : Side) : list bytes :=
  match sd with SideA a b | SideB a b => [a; b] | SideSymmetric i => [i] end.
