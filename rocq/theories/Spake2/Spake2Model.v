(** * Model of the [spake2] crate (spake2/src/*.rs).

    Byte slices and [Vec<u8>] are [bytes].  The digest used by the transcript functions is the
    executable [sha256] of Hash/Hash.v.  The random generator argument is any [Rng]. *)
From Verif Require Import Base.Bytes Base.Outcome Base.Rng Base.Utf8 Hash.Hash.
From Coq Require Import ZArith.

(** spake2/src/error.rs:10-19 *)
Inductive Error := BadSide | CorruptMessage | WrongLength.

(** error.rs:21-29, [Display for Error] *)
Definition display_error (e : Error) : bytes :=
  match e with
  | BadSide => str "bad side"
  | CorruptMessage => str "corrupt message"
  | WrongLength => str "invalid length"
  end.

Definition res := outcome Error.

(** group.rs:8-58, the [Group] trait.  [TranscriptHash] is omitted: no code uses it.  The constants
    and [hash_to_scalar] contain [unwrap] in the one implementation there is, so they may panic;
    [random_scalar] threads the generator state. *)
Record Group := {
  Scalar : Type;
  Element : Type;
  g_name : bytes;
  const_m : outcome Empty_set Element;
  const_n : outcome Empty_set Element;
  const_s : outcome Empty_set Element;
  hash_to_scalar : bytes -> outcome Empty_set Scalar;
  random_scalar : forall T : Rng, rng_state T -> Scalar * rng_state T;
  scalar_neg : Scalar -> Scalar;
  element_to_bytes : Element -> bytes;
  bytes_to_element : bytes -> option Element;
  element_length : nat;
  basepoint_mult : Scalar -> Element;
  scalarmult : Element -> Scalar -> Element;
  g_add : Element -> Element -> Element
}.

(** ** Transcript hashes: ed25519.rs *)

(** [dst.copy_from_slice(src)] on a 32-byte range of a transcript: panics on any other length. *)
Definition copy32 (src : bytes) : res bytes :=
  if Nat.eqb (length src) 32 then Ok src else Panic.

(** ed25519.rs:132-173 [hash_ab] *)
Definition hash_ab (password_vec id_a id_b first_msg second_msg key_bytes : bytes) : res bytes :=
  if negb (Nat.eqb (length first_msg) 32) then Panic else    (* assert_eq! *)
  if negb (Nat.eqb (length second_msg) 32) then Panic else   (* assert_eq! *)
  let! t0 := copy32 (sha256 password_vec) in
  let! t1 := copy32 (sha256 id_a) in
  let! t2 := copy32 (sha256 id_b) in
  let! t3 := copy32 first_msg in
  let! t4 := copy32 second_msg in
  let! t5 := copy32 key_bytes in
  Ok (sha256 (t0 ++ t1 ++ t2 ++ t3 ++ t4 ++ t5)).

(** [a < b] on byte slices: lexicographic. *)
Fixpoint bytes_ltb (a b : bytes) : bool :=
  match a, b with
  | _, [] => false
  | [], _ :: _ => true
  | x :: a', y :: b' =>
    if N.ltb (b2n x) (b2n y) then true
    else if N.ltb (b2n y) (b2n x) then false
    else bytes_ltb a' b'
  end.

(** ed25519.rs:176-219 [hash_symmetric] *)
Definition hash_symmetric (password_vec id_s msg_u msg_v key_bytes : bytes) : res bytes :=
  if negb (Nat.eqb (length msg_u) 32) then Panic else        (* assert_eq! *)
  if negb (Nat.eqb (length msg_v) 32) then Panic else        (* assert_eq! *)
  let! t0 := copy32 (sha256 password_vec) in
  let! t1 := copy32 (sha256 id_s) in
  let '(first_msg, second_msg) := if bytes_ltb msg_u msg_v then (msg_u, msg_v) else (msg_v, msg_u) in
  let! t2 := copy32 first_msg in
  let! t3 := copy32 second_msg in
  let! t4 := copy32 key_bytes in
  Ok (sha256 (t0 ++ t1 ++ t2 ++ t3 ++ t4)).

(** lib.rs:293-298 [Side] *)
Inductive Side :=
| SideA (id_a id_b : bytes)
| SideB (id_a id_b : bytes)
| SideSymmetric (id_s : bytes).

Section Spake2.
Context (G : Group).

(** lib.rs:301-309 [Spake2] *)
Record Spake2 := {
  side : Side;
  xy_scalar : Scalar G;
  password_vec : bytes;
  msg1 : bytes;
  password_scalar : Scalar G
}.

(** lib.rs:445-483 [start_internal].  [Password] and [Identity] are transparent wrappers of byte
    strings (lib.rs:253-290). *)
Definition start_internal (sd : Side) (password : bytes) (xy : Scalar G)
  : outcome Empty_set (Spake2 * bytes) :=
  let! pws := hash_to_scalar G password in
  let! blinding := match sd with
                   | SideA _ _ => const_m G
                   | SideB _ _ => const_n G
                   | SideSymmetric _ => const_s G
                   end in
  let m1 := g_add G (basepoint_mult G xy) (scalarmult G blinding pws) in
  let msg := element_to_bytes G m1 in
  let tag := match sd with
             | SideA _ _ => x41
             | SideB _ _ => x42
             | SideSymmetric _ => x53
             end in
  Ok ({| side := sd; xy_scalar := xy; password_vec := password; msg1 := msg;
         password_scalar := pws |}, tag :: msg).

(** lib.rs:485-499 *)
Definition start_a_internal (password id_a id_b : bytes) (xy : Scalar G) :=
  start_internal (SideA id_a id_b) password xy.
(** lib.rs:501-515 *)
Definition start_b_internal (password id_a id_b : bytes) (xy : Scalar G) :=
  start_internal (SideB id_a id_b) password xy.
(** lib.rs:517-529 *)
Definition start_symmetric_internal (password id_s : bytes) (xy : Scalar G) :=
  start_internal (SideSymmetric id_s) password xy.

(** lib.rs:341-370; [start_a], [start_b], [start_symmetric] (lib.rs:311-337) are these with the
    system generator. *)
Definition start_a_with_rng (T : Rng) (password id_a id_b : bytes) (s : rng_state T) :=
  start_a_internal password id_a id_b (fst (random_scalar G T s)).
Definition start_b_with_rng (T : Rng) (password id_a id_b : bytes) (s : rng_state T) :=
  start_b_internal password id_a id_b (fst (random_scalar G T s)).
Definition start_symmetric_with_rng (T : Rng) (password id_s : bytes) (s : rng_state T) :=
  start_symmetric_internal password id_s (fst (random_scalar G T s)).

(** lib.rs:373-443 [finish].  After the length test [msg2[0]] and [msg2[1..]] are in bounds. *)
Definition finish (self : Spake2) (msg2 : bytes) : res bytes :=
  if negb (Nat.eqb (length msg2) (1 + element_length G)) then Err WrongLength else
  match msg2 with
  | [] => Panic
  | msg_side :: rest =>
    let expected := match side self with
                    | SideA _ _ => x42
                    | SideB _ _ => x41
                    | SideSymmetric _ => x53
                    end in
    if negb (byte_eqb msg_side expected) then Err BadSide else
    match bytes_to_element G rest with
    | None => Err CorruptMessage
    | Some msg2_element =>
      let! unblinding := lift (match side self with
                               | SideA _ _ => const_n G
                               | SideB _ _ => const_m G
                               | SideSymmetric _ => const_s G
                               end) in
      let tmp1 := scalarmult G unblinding (scalar_neg G (password_scalar self)) in
      let tmp2 := g_add G msg2_element tmp1 in
      let key_element := scalarmult G tmp2 (xy_scalar self) in
      let key_bytes := element_to_bytes G key_element in
      match side self with
      | SideA id_a id_b => hash_ab (password_vec self) id_a id_b (msg1 self) rest key_bytes
      | SideB id_a id_b => hash_ab (password_vec self) id_a id_b rest (msg1 self) key_bytes
      | SideSymmetric id_s => hash_symmetric (password_vec self) id_s (msg1 self) rest key_bytes
      end
    end
  end.

(** ** Debug output: lib.rs:532-578

    [alt] is the [{:#?}] flag.  The layout of [debug_struct] is that of the standard library:
    ["Name { f: v, g: w }"], or with the alternate flag one field per line, indented by four spaces
    through an adapter that inserts the indentation at the start of every line. *)

Fixpoint pad_from (on_newline : bool) (s : bytes) : bytes :=
  match s with
  | [] => []
  | c :: s' => (if on_newline then str "    " else []) ++ c :: pad_from (byte_eqb c x0a) s'
  end.
Definition pad (s : bytes) : bytes := pad_from true s.

Definition debug_field (alt first : bool) (name value : bytes) : bytes :=
  if alt then
    (if first then str " {" ++ [x0a] else []) ++ pad (name ++ str ": " ++ value ++ str "," ++ [x0a])
  else (if first then str " { " else str ", ") ++ name ++ str ": " ++ value.
Definition debug_finish (alt : bool) : bytes := if alt then str "}" else str " }".

Definition debug_struct1 (alt : bool) (name f1 v1 : bytes) : bytes :=
  name ++ debug_field alt true f1 v1 ++ debug_finish alt.
Definition debug_struct2 (alt : bool) (name f1 v1 f2 v2 : bytes) : bytes :=
  name ++ debug_field alt true f1 v1 ++ debug_field alt false f2 v2 ++ debug_finish alt.

(** lib.rs:562-578 [Debug for MaybeUtf8] *)
Definition maybe_utf8 (b : bytes) : bytes :=
  if utf8_valid b then str "(s=" ++ b ++ str ")"
  else str "(hex=" ++ concat (map lower_hex b) ++ str ")".

(** lib.rs:532-550 [Debug for Side] *)
Definition debug_side (alt : bool) (s : Side) : bytes :=
  match s with
  | SideA a b => debug_struct2 alt (str "Side::A") (str "idA") (maybe_utf8 a) (str "idB") (maybe_utf8 b)
  | SideB a b => debug_struct2 alt (str "Side::B") (str "idA") (maybe_utf8 a) (str "idB") (maybe_utf8 b)
  | SideSymmetric i => debug_struct1 alt (str "Side::Symmetric") (str "idS") (maybe_utf8 i)
  end.

(** lib.rs:552-559 [Debug for Spake2]; [name] is the [Debug] rendering of [G::name()], which for
    the printable ASCII names considered here is the name in double quotes. *)
Definition debug_name : bytes := [x22] ++ g_name G ++ [x22].
Definition debug_spake2 (alt : bool) (s : Spake2) : bytes :=
  debug_struct2 alt (str "SPAKE2") (str "group") debug_name (str "side") (debug_side alt (side s)).

End Spake2.

Arguments side {G}.
Arguments xy_scalar {G}.
Arguments password_vec {G}.
Arguments msg1 {G}.
Arguments password_scalar {G}.
