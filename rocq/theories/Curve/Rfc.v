(** * edwards25519 of RFC 8032 and ristretto255 of RFC 9496, on integers

    The specification the group operations of the model are compared with.  It follows the text of the two RFCs (and the
    Python program of RFC 8032, section 6), with their names and their numbers, and shares no definition with the model:
    a field element is an integer from 0 to p-1, every operation reduces its result, a point is a quadruple of such
    integers, and nothing is known of a quadruple but what was computed. *)
From Coq Require Import ZArith Bool List.
From Verif Require Import Base.Bytes Base.Hex Base.Kat.
Import ListNotations.
Local Open Scope Z_scope.

(** ** Field arithmetic (RFC 8032 section 5.1, RFC 9496 section 3.1) *)
Definition p : Z := 2 ^ 255 - 19.
Definition ADD (a b : Z) : Z := (a + b) mod p.
Definition SUB (a b : Z) : Z := (a - b) mod p.
Definition MUL (a b : Z) : Z := (a * b) mod p.
Definition NEG (a : Z) : Z := (- a) mod p.
Fixpoint POW (a : Z) (e : positive) : Z :=
  match e with
  | xH => a
  | xO e => let b := POW a e in MUL b b
  | xI e => let b := POW a e in MUL (MUL b b) a
  end.
Definition INV (a : Z) : Z := POW a (Z.to_pos (p - 2)).
Definition EQUAL (a b : Z) : bool := a =? b.
Definition IS_NEGATIVE (e : Z) : bool := e mod 2 =? 1.
Definition CT_ABS (e : Z) : Z := if IS_NEGATIVE e then NEG e else e.

Declare Scope rfc_scope.
Delimit Scope rfc_scope with rfc.
Arguments ADD (a b)%rfc_scope. Arguments SUB (a b)%rfc_scope. Arguments MUL (a b)%rfc_scope. Arguments NEG a%rfc_scope.
Arguments POW a%rfc_scope e. Arguments EQUAL (a b)%rfc_scope. Arguments IS_NEGATIVE e%rfc_scope. Arguments CT_ABS e%rfc_scope.
Infix "+" := ADD : rfc_scope.
Infix "-" := SUB : rfc_scope.
Infix "*" := MUL : rfc_scope.
Notation "- a" := (NEG a) : rfc_scope.
Notation "a '^2'" := (MUL a a) (at level 30) : rfc_scope.

(** RFC 9496, section 4.1 *)
Definition D : Z := 37095705934669439343138083508754565189542113879843219016388785533085940283555.
Definition SQRT_M1 : Z := 19681161376707505956807079304988542015446066515923890162744021073123829784752.
Definition SQRT_AD_MINUS_ONE : Z := 25063068953384623474111414158702152701244531502492656460079210482610430750235.
Definition INVSQRT_A_MINUS_D : Z := 54469307008909316920995813868745141605393597292927456921205312896311721017578.
Definition ONE_MINUS_D_SQ : Z := 1159843021668779879193775521855586647937357759715417654439879720876111806838.
Definition D_MINUS_ONE_SQ : Z := 40440834346308536858101042469323190826248399146238708352240133220865137265952.
(** the order of the group *)
Definition L : Z := 2 ^ 252 + 27742317777372353535851937790883648493.

(** ** Octet strings: little-endian integers *)
Fixpoint integer (s : bytes) : Z :=
  match s with
  | [] => 0
  | b :: s => Z.of_N (Byte.to_N b) + 256 * integer s
  end.
Definition octet (z : Z) : byte := match Byte.of_N (Z.to_N (z mod 256)) with Some b => b | None => x00 end.
Fixpoint octets (n : nat) (z : Z) : bytes :=
  match n with
  | O => []
  | S n => octet z :: octets n (z / 256)
  end.

(** ** Points: extended homogeneous coordinates (RFC 8032 section 5.1.4) *)
Definition ext : Type := Z * Z * Z * Z.
Definition IDENTITY : ext := (0, 1, 1, 0).
Definition from_affine (x y : Z) : ext := (x, y, 1, MUL x y).
Definition BASE : ext :=
  from_affine 15112221349535400772501151409588531511454012693041857206046113283949847762202
    46316835694926478169428394003475163141307993866256225615783033603165251855960.
Definition point_add (P Q : ext) : ext :=
  (let '(X1, Y1, Z1, T1) := P in
   let '(X2, Y2, Z2, T2) := Q in
   let A := (Y1 - X1) * (Y2 - X2) in
   let B := (Y1 + X1) * (Y2 + X2) in
   let C := T1 * 2 * D * T2 in
   let D := Z1 * 2 * Z2 in
   let E := B - A in
   let F := D - C in
   let G := D + C in
   let H := B + A in
   (E * F, G * H, F * G, E * H))%rfc.
(** section 6, [point_mul]: Q is the accumulator *)
Fixpoint point_mul_from (s : positive) (P Q : ext) : ext :=
  match s with
  | xH => point_add Q P
  | xO s => point_mul_from s (point_add P P) Q
  | xI s => point_mul_from s (point_add P P) (point_add Q P)
  end.
Definition point_mul (s : Z) (P : ext) : ext :=
  match s with
  | Zpos s => point_mul_from s P IDENTITY
  | _ => IDENTITY
  end.

(** ** RFC 8032: encoding (5.1.2) and decoding (5.1.3) *)
Definition point_compress (P : ext) : bytes :=
  let '(X, Y, Z, _) := P in
  let x := MUL X (INV Z) in
  let y := MUL Y (INV Z) in
  octets 32 (y + 2 ^ 255 * (x mod 2))%Z.

Definition point_decompress (s : bytes) : option ext :=
  if negb (Nat.eqb (length s) 32) then None
  else
    let x_0 := (integer s / 2 ^ 255)%Z in
    let y := integer s mod 2 ^ 255 in
    if p <=? y then None
    else
      let u := (y^2 - 1)%rfc in
      let v := (D * y^2 + 1)%rfc in
      let x := (u * (v^2 * v) * POW (u * ((v^2 * v)^2 * v)) (Z.to_pos ((p - 5) / 8)))%rfc in
      let root := if EQUAL (v * x^2)%rfc u then Some x
                  else if EQUAL (v * x^2)%rfc (- u)%rfc then Some (x * POW 2 (Z.to_pos ((p - 1) / 4)))%rfc
                  else None in
      match root with
      | None => None
      | Some x =>
        if EQUAL x 0 && (x_0 =? 1) then None
        else let x := if x mod 2 =? x_0 then x else p - x in Some (from_affine x y)
      end.

(** ** RFC 9496 *)

(** section 4.2 *)
Definition SQRT_RATIO_M1 (u v : Z) : bool * Z :=
  (let r := (u * (v^2 * v)) * POW (u * ((v^2 * v)^2 * v)) (Z.to_pos ((p - 5) / 8)) in
   let check := v * r^2 in
   let correct_sign_sqrt := EQUAL check u in
   let flipped_sign_sqrt := EQUAL check (- u) in
   let flipped_sign_sqrt_i := EQUAL check (- u * SQRT_M1) in
   let r_prime := SQRT_M1 * r in
   let r := if flipped_sign_sqrt || flipped_sign_sqrt_i then r_prime else r in
   let r := CT_ABS r in
   let was_square := correct_sign_sqrt || flipped_sign_sqrt in
   (was_square, r))%rfc%bool.
Arguments SQRT_RATIO_M1 (u v)%rfc_scope.

(** section 4.3.1 *)
Definition Decode (t : bytes) : option ext :=
  if negb (Nat.eqb (length t) 32) then None
  else
    let s := integer t in
    if p <=? s then None
    else if IS_NEGATIVE s then None
    else
      (let ss := s^2 in
       let u1 := 1 - ss in
       let u2 := 1 + ss in
       let u2_sqr := u2^2 in
       let v := - (D * u1^2) - u2_sqr in
       let '(was_square, invsqrt) := SQRT_RATIO_M1 1 (v * u2_sqr) in
       let den_x := invsqrt * u2 in
       let den_y := invsqrt * den_x * v in
       let x := CT_ABS (2 * s * den_x) in
       let y := u1 * den_y in
       let t := x * y in
       if negb was_square || IS_NEGATIVE t || EQUAL y 0 then None else Some (x, y, 1%Z, t))%rfc%bool.

(** section 4.3.2 *)
Definition Encode (P : ext) : bytes :=
  (let '(x0, y0, z0, t0) := P in
   let u1 := (z0 + y0) * (z0 - y0) in
   let u2 := x0 * y0 in
   let '(_, invsqrt) := SQRT_RATIO_M1 1 (u1 * u2^2) in
   let den1 := invsqrt * u1 in
   let den2 := invsqrt * u2 in
   let z_inv := den1 * den2 * t0 in
   let ix0 := x0 * SQRT_M1 in
   let iy0 := y0 * SQRT_M1 in
   let enchanted_denominator := den1 * INVSQRT_A_MINUS_D in
   let rotate := IS_NEGATIVE (t0 * z_inv) in
   let x := if rotate then iy0 else x0 in
   let y := if rotate then ix0 else y0 in
   let z := z0 in
   let den_inv := if rotate then enchanted_denominator else den2 in
   let y := if IS_NEGATIVE (x * z_inv) then - y else y in
   let s := CT_ABS (den_inv * (z - y)) in
   octets 32 s)%rfc.

(** section 4.3.3 *)
Definition Equals (P Q : ext) : bool :=
  let '(x1, y1, _, _) := P in
  let '(x2, y2, _, _) := Q in
  EQUAL (MUL x1 y2) (MUL y1 x2) || EQUAL (MUL y1 y2) (MUL x1 x2).

(** section 4.3.4 *)
Definition MAP (t : Z) : ext :=
  (let r := SQRT_M1 * t^2 in
   let u := (r + 1) * ONE_MINUS_D_SQ in
   let v := (- (1) - r * D) * (r + D) in
   let '(was_square, s) := SQRT_RATIO_M1 u v in
   let s_prime := - CT_ABS (s * t) in
   let s := if was_square then s else s_prime in
   let c := if was_square then - (1) else r in
   let N := c * (r - 1) * D_MINUS_ONE_SQ - v in
   let w0 := 2 * s * v in
   let w1 := N * SQRT_AD_MINUS_ONE in
   let w2 := 1 - s^2 in
   let w3 := 1 + s^2 in
   (w0 * w3, w2 * w1, w1 * w3, w0 * w2))%rfc.
Definition Derive (b : bytes) : ext :=
  let r0 := (integer (firstn 32 b) mod 2 ^ 255) mod p in
  let r1 := (integer (firstn 32 (skipn 32 b)) mod 2 ^ 255) mod p in
  point_add (MAP r0) (MAP r1).

(** ** Test vectors *)

(** RFC 8032, section 5.1 *)
Check (test (point_compress BASE) (hex "5866666666666666666666666666666666666666666666666666666666666666")).
Check (test (point_decompress (hex "5866666666666666666666666666666666666666666666666666666666666666")) (Some BASE)).
(** y = p + 1, which is 1 modulo p, and x = 0 with the sign bit set: both rejected *)
Check (test (point_decompress (hex "eeffffffffffffffffffffffffffffffffffffffffffffffffffffffffffff7f")) (@None ext)).
Check (test (point_decompress (hex "0100000000000000000000000000000000000000000000000000000000000080")) (@None ext)).
(** RFC 9496, appendices A.1, A.2, A.3 *)
Check (test (Encode (point_mul 15 BASE)) (hex "e0c418f7c8d9c4cdd7395b93ea124f3ad99021bb681dfc3302a9d99a2e53e64e")).
Check (test (Decode (hex "00ffffffffffffffffffffffffffffffffffffffffffffffffffffffffffffff")) (@None ext)).
Check (test (Decode (hex "0100000000000000000000000000000000000000000000000000000000000000")) (@None ext)).
Check (test (Decode (hex "26948d35ca62e643e26a83177332e6b6afeb9d08e4268b650f1f5bbd8d81d371")) (@None ext)).
Check (test (Encode (Derive (hex
  "5d1be09e3d0c82fc538112490e35701979d99e06ca3e2b5b54bffe8b4dc772c14d98b696a1bbfb5ca32c436cc61c16563790306c79eaca7705668b47dffe5bb6")))
  (hex "3066f82a1a747d45120d1740f14358531a8f04bbffe6a819f86dfe50f44a0a46")).
