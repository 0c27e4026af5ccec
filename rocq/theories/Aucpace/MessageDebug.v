(** * The [Debug] output of the AuCPace messages: the [#[derive(Debug)]] of aucpace/src/client.rs:984-1044 and
    aucpace/src/server.rs:684-729, as printed by the panics of the examples (["Received invalid client message {:?}"],
    e.g. aucpace/examples/key_agreement_strong.rs:88).

    The text of a derived [Debug] is ["Name(field)"] or ["Name { field: .., field: .. }"]; a byte string is
    printed as a list of decimal numbers.  Simplifications: only [{:?}], not [{:#?}]; the texts of points, strings,
    salts and parameter strings are arbitrary functions, because the first prints the internal coordinates
    of curve25519-dalek, which the model does not have. *)
From Coq Require Import ZArith List.
From Verif Require Import Base.Bytes Curve.Scalar25519 Aucpace.RistrettoGroup Aucpace.AucpaceModel Aucpace.ScryptParams.
Import ListNotations.

(** [Debug for [u8]] (core::fmt::builders::DebugList, of [Debug for u8]) *)
Fixpoint show_items (l : bytes) : bytes :=
  match l with
  | [] => []
  | [b] => decimal (b2n b)
  | b :: r => decimal (b2n b) ++ str ", " ++ show_items r
  end.
Definition show_bytes (l : bytes) : bytes := str "[" ++ show_items l ++ str "]".

(** [Debug for Scalar] (curve25519-dalek 4, scalar.rs): [write!(f, "Scalar{{\n\tbytes: {:?},\n}}", &self.bytes)] *)
Definition show_scalar (q : scalar) : bytes :=
  str "Scalar{" ++ [x0a; x09] ++ str "bytes: " ++ show_bytes (scalar_bytes q) ++ str "," ++ [x0a] ++ str "}".

Section Debug.
Context (R : RGroup).
Context (show_point : pt R -> bytes) (show_str show_salt show_params : bytes -> bytes).

(** client.rs:984-1044 *)
Definition debug_client (m : ClientMessage R) : bytes :=
  match m with
  | CNonce nonce => str "Nonce(" ++ show_bytes nonce ++ str ")"
  | CUsername username => str "Username(" ++ show_bytes username ++ str ")"
  | CStrongUsername username blinded =>
      str "StrongUsername { username: " ++ show_bytes username ++ str ", blinded: " ++ show_point blinded ++ str " }"
  | CPublicKey key => str "PublicKey(" ++ show_point key ++ str ")"
  | CAuthenticator auth => str "Authenticator(" ++ show_bytes auth ++ str ")"
  | CRegistration username salt params verifier =>
      str "Registration { username: " ++ show_bytes username ++ str ", salt: " ++ show_salt salt ++
      str ", params: " ++ show_params params ++ str ", verifier: " ++ show_point verifier ++ str " }"
  | CStrongRegistration username secret_exponent params verifier =>
      str "StrongRegistration { username: " ++ show_bytes username ++ str ", secret_exponent: " ++ show_scalar secret_exponent ++
      str ", params: " ++ show_params params ++ str ", verifier: " ++ show_point verifier ++ str " }"
  end.

(** server.rs:684-729 *)
Definition debug_server (m : ServerMessage R) : bytes :=
  match m with
  | SNonce nonce => str "Nonce(" ++ show_bytes nonce ++ str ")"
  | SAugmentationInfo group x_pub salt pbkdf_params =>
      str "AugmentationInfo { group: " ++ show_str group ++ str ", x_pub: " ++ show_point x_pub ++
      str ", salt: " ++ show_salt salt ++ str ", pbkdf_params: " ++ show_params pbkdf_params ++ str " }"
  | SStrongAugmentationInfo group x_pub blinded_salt pbkdf_params =>
      str "StrongAugmentationInfo { group: " ++ show_str group ++ str ", x_pub: " ++ show_point x_pub ++
      str ", blinded_salt: " ++ show_point blinded_salt ++ str ", pbkdf_params: " ++ show_params pbkdf_params ++ str " }"
  | SPublicKey key => str "PublicKey(" ++ show_point key ++ str ")"
  | SAuthenticator auth => str "Authenticator(" ++ show_bytes auth ++ str ")"
  end.
End Debug.
