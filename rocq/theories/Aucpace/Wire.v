(** * The messages of the aucpace crate on the wire.

    [#[derive(Serialize, Deserialize)]] on [ClientMessage] (client.rs:984-1044) and [ServerMessage]
    (server.rs:684-729), the helper modules of utils.rs:171-247, and the two data formats of the
    examples: bincode 1.3.3 ([bincode::serialize]/[deserialize], examples/key_agreement.rs:17,28) and
    postcard 1.0.10 ([to_slice]/[from_bytes], examples/key_agreement_no_std.rs:17,25), on a target with
    64-bit [usize].  The serde crates are not in /repo; the model follows their published source:
    - an enum is a variant index (a u32), then its fields in order;
    - [&[u8]], [[u8; N]] through serde_byte_array, and strings are a length (a u64) and the bytes;
    - a Ristretto point is the 32 bytes of its encoding and a scalar the 32 bytes of its value, with no
      length (dalek serialises both as tuples).
    A decoder gives the value and the bytes left over; both formats' entry points ignore the bytes left
    over.  Which error is reported is not modelled. *)
From Coq Require Import ZArith Lia.
From Verif Require Import Base.Bytes Base.Outcome Base.Utf8.
From Verif Require Import Curve.Scalar25519.
From Verif Require Import Aucpace.RistrettoGroup Aucpace.PwHash Aucpace.AucpaceModel.
Local Open Scope nat_scope.

Definition decoder (A : Type) := bytes -> option (A * bytes).
Definition dret {A} (a : A) : decoder A := fun b => Some (a, b).
Definition dfail {A} : decoder A := fun _ => None.
Definition dbind {A B} (m : decoder A) (k : A -> decoder B) : decoder B :=
  fun b => match m b with Some (a, r) => k a r | None => None end.
Notation "'let?' x := m 'in' k" := (dbind m (fun x => k)) (at level 200, x pattern, m at level 100, k at level 200).
Definition dopt {A} (o : option A) : decoder A := match o with Some a => dret a | None => dfail end.

(** the next [n] bytes *)
Definition take (n : N) : decoder bytes := fun b =>
  if N.leb n (N.of_nat (length b)) then Some (firstn (N.to_nat n) b, skipn (N.to_nat n) b) else None.

(** ** Formats *)
Record format := {
  put_tag : N -> bytes; get_tag : decoder N;
  put_len : N -> bytes; get_len : decoder N
}.

(** bincode with [DefaultOptions::new().with_fixint_encoding()]: little-endian integers of their size *)
Definition get_le (k : nat) : decoder N := let? b := take (N.of_nat k) in dret (le_val b).
Definition bincode : format :=
  {| put_tag := le_bytes 4; get_tag := get_le 4; put_len := le_bytes 8; get_len := get_le 8 |}.

(** postcard varint.rs [varint_u32], [varint_usize]: seven bits a byte, at most [k] bytes *)
Fixpoint put_varint (k : nat) (n : N) : bytes :=
  match k with
  | O => []
  | S k' => if N.ltb n 128 then [n2b n] else n2b (n mod 128 + 128) :: put_varint k' (n / 128)
  end.
(** postcard de/deserializer.rs [try_take_varint_u32], [try_take_varint_usize]: at most [k] bytes, the
    last of them at most [last] *)
Fixpoint get_varint (k : nat) (last : N) : decoder N := fun b =>
  match k, b with
  | S k', x :: r =>
      let v := b2n x in
      if N.ltb v 128 then
        if Nat.eqb k' 0 && N.ltb last v then None else Some (v, r)
      else match get_varint k' last r with
           | Some (w, r) => Some ((v - 128 + 128 * w)%N, r)
           | None => None
           end
  | _, _ => None
  end.
Definition postcard : format :=
  {| put_tag := put_varint 5; get_tag := get_varint 5 15; put_len := put_varint 10; get_len := get_varint 10 1 |}.

Section Wire.
Context (R : RGroup) (F : format).

(** ** Fields *)
Definition put_bytes (s : bytes) : bytes := put_len F (N.of_nat (length s)) ++ s.
Definition get_bytes : decoder bytes := let? n := get_len F in take n.
(** a [&str]: UTF-8 is checked *)
Definition get_str : decoder bytes :=
  let? s := get_bytes in if utf8_valid s then dret s else dfail.
(** serde_byte_array: the length must be [n] *)
Definition get_array (n : nat) : decoder bytes :=
  let? s := get_bytes in if Nat.eqb (length s) n then dret s else dfail.
Definition put_point (P : pt R) : bytes := rcompress R P.
Definition get_point : decoder (pt R) := let? b := take 32 in dopt (rdecompress R b).
Definition get_scalar : decoder scalar := let? b := take 32 in dopt (scalar_canonical b).
(** utils.rs:171-208 [serde_saltstring], utils.rs:210-247 [serde_paramsstring] *)
Definition accept {E} (o : outcome E bytes) : option bytes := match o with Ok s => Some s | _ => None end.
Definition get_salt : decoder bytes := let? s := get_str in dopt (accept (salt_from_b64 s)).
Definition get_params : decoder bytes := let? s := get_str in dopt (accept (params_parse s)).

(** ** Messages.  [strong]: the build has the feature strong_aucpace; the variant indices count the
    variants that are compiled. *)
Definition client_tag (strong : bool) (m : ClientMessage R) : N :=
  match m with
  | CNonce _ => 0
  | CUsername _ => 1
  | CStrongUsername _ _ => 2
  | CPublicKey _ => if strong then 3 else 2
  | CAuthenticator _ => if strong then 4 else 3
  | CRegistration _ _ _ _ => if strong then 5 else 4
  | CStrongRegistration _ _ _ _ => 6
  end.
(** the variant exists in the build *)
Definition client_has (strong : bool) (m : ClientMessage R) : bool :=
  match m with CStrongUsername _ _ | CStrongRegistration _ _ _ _ => strong | _ => true end.

Definition put_client (strong : bool) (m : ClientMessage R) : bytes :=
  put_tag F (client_tag strong m) ++
  match m with
  | CNonce n => put_bytes n
  | CUsername u => put_bytes u
  | CStrongUsername u P => put_bytes u ++ put_point P
  | CPublicKey P => put_point P
  | CAuthenticator a => put_bytes a
  | CRegistration u salt ps P => put_bytes u ++ put_bytes salt ++ put_bytes ps ++ put_point P
  | CStrongRegistration u q ps P => put_bytes u ++ scalar_bytes q ++ put_bytes ps ++ put_point P
  end.

Definition get_cnonce K1 : decoder (ClientMessage R) := let? n := get_array K1 in dret (CNonce n).
Definition get_cusername : decoder (ClientMessage R) := let? u := get_bytes in dret (CUsername u).
Definition get_cstrong_username : decoder (ClientMessage R) :=
  let? u := get_bytes in let? P := get_point in dret (CStrongUsername u P).
Definition get_cpublic_key : decoder (ClientMessage R) := let? P := get_point in dret (CPublicKey P).
Definition get_cauthenticator : decoder (ClientMessage R) := let? a := get_array 64 in dret (CAuthenticator a).
Definition get_cregistration : decoder (ClientMessage R) :=
  let? u := get_bytes in let? salt := get_salt in let? ps := get_params in let? P := get_point in
  dret (CRegistration u salt ps P).
Definition get_cstrong_registration : decoder (ClientMessage R) :=
  let? u := get_bytes in let? q := get_scalar in let? ps := get_params in let? P := get_point in
  dret (CStrongRegistration u q ps P).

Definition get_client (strong : bool) (K1 : nat) : decoder (ClientMessage R) :=
  let? t := get_tag F in
  match strong, t with
  | _, 0%N => get_cnonce K1
  | _, 1%N => get_cusername
  | true, 2%N => get_cstrong_username
  | true, 3%N => get_cpublic_key
  | true, 4%N => get_cauthenticator
  | true, 5%N => get_cregistration
  | true, 6%N => get_cstrong_registration
  | false, 2%N => get_cpublic_key
  | false, 3%N => get_cauthenticator
  | false, 4%N => get_cregistration
  | _, _ => dfail
  end.

Definition server_tag (strong : bool) (m : ServerMessage R) : N :=
  match m with
  | SNonce _ => 0
  | SAugmentationInfo _ _ _ _ => 1
  | SStrongAugmentationInfo _ _ _ _ => 2
  | SPublicKey _ => if strong then 3 else 2
  | SAuthenticator _ => if strong then 4 else 3
  end.
Definition server_has (strong : bool) (m : ServerMessage R) : bool :=
  match m with SStrongAugmentationInfo _ _ _ _ => strong | _ => true end.

Definition put_server (strong : bool) (m : ServerMessage R) : bytes :=
  put_tag F (server_tag strong m) ++
  match m with
  | SNonce n => put_bytes n
  | SAugmentationInfo g X salt ps => put_bytes g ++ put_point X ++ put_bytes salt ++ put_bytes ps
  | SStrongAugmentationInfo g X bs ps => put_bytes g ++ put_point X ++ put_point bs ++ put_bytes ps
  | SPublicKey P => put_point P
  | SAuthenticator a => put_bytes a
  end.

Definition get_snonce K1 : decoder (ServerMessage R) := let? n := get_array K1 in dret (SNonce n).
Definition get_saug : decoder (ServerMessage R) :=
  let? g := get_str in let? X := get_point in let? salt := get_salt in let? ps := get_params in
  dret (SAugmentationInfo g X salt ps).
Definition get_sstrong_aug : decoder (ServerMessage R) :=
  let? g := get_str in let? X := get_point in let? bs := get_point in let? ps := get_params in
  dret (SStrongAugmentationInfo g X bs ps).
Definition get_spublic_key : decoder (ServerMessage R) := let? P := get_point in dret (SPublicKey P).
Definition get_sauthenticator : decoder (ServerMessage R) := let? a := get_array 64 in dret (SAuthenticator a).

Definition get_server (strong : bool) (K1 : nat) : decoder (ServerMessage R) :=
  let? t := get_tag F in
  match strong, t with
  | _, 0%N => get_snonce K1
  | _, 1%N => get_saug
  | true, 2%N => get_sstrong_aug
  | true, 3%N => get_spublic_key
  | true, 4%N => get_sauthenticator
  | false, 2%N => get_spublic_key
  | false, 3%N => get_sauthenticator
  | _, _ => dfail
  end.

(** ** What the Rust types say of a message: the values a [[u8; K1]], [[u8; 64]], [SaltString],
    [ParamsString] or [&str] can hold.  (A slice has fewer than 2^63 bytes.)  This is the spec of a
    valid message, stated without the decoders. *)
Definition small (s : bytes) : Prop := (N.of_nat (length s) < 2 ^ 63)%N.
(** name=value pairs separated by commas, each name 1 to 32 characters of [a-z0-9-], each value at most
    64 characters of [A-Za-z0-9/+.-] *)
Definition pair_valid (p : bytes) : Prop :=
  exists n v, p = n ++ [equals] ++ v /\
    1 <= length n <= 32 /\ forallb ident_char n = true /\ length v <= 64 /\ forallb value_char v = true.
Inductive pairs_valid : bytes -> Prop :=
| pv_one p : pair_valid p -> pairs_valid p
| pv_more p ps : pair_valid p -> pairs_valid ps -> pairs_valid (p ++ [comma] ++ ps).
Definition params_valid (ps : bytes) : Prop := length ps <= 127 /\ (ps = [] \/ pairs_valid ps).

Definition client_valid (K1 : nat) (m : ClientMessage R) : Prop :=
  match m with
  | CNonce n => length n = K1 /\ small n
  | CUsername u => small u
  | CStrongUsername u _ => small u
  | CPublicKey _ => True
  | CAuthenticator a => length a = 64
  | CRegistration u salt ps _ => small u /\ salt_valid salt /\ params_valid ps
  | CStrongRegistration u _ ps _ => small u /\ params_valid ps
  end.
Definition server_valid (K1 : nat) (m : ServerMessage R) : Prop :=
  match m with
  | SNonce n => length n = K1 /\ small n
  | SAugmentationInfo g _ salt ps => utf8_valid g = true /\ small g /\ salt_valid salt /\ params_valid ps
  | SStrongAugmentationInfo g _ _ ps => utf8_valid g = true /\ small g /\ params_valid ps
  | SPublicKey _ => True
  | SAuthenticator a => length a = 64
  end.
End Wire.
