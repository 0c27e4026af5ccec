(** * Multiplication of integers through base-16 digit tables (generated by tools/gen_hexmul.py).

    [hmul a b = a * b]; only the evaluation cost differs: the kernel and coqchk evaluate it several
    times faster than [Z.mul].  Standard arithmetic, models no code. *)
From Coq Require Import ZArith NArith Lia List Bool Init.Byte.
From Coq Require Strings.Byte.
Import ListNotations.
Local Open Scope N_scope.

Definition b2n (b : byte) : N := Strings.Byte.to_N b.

Inductive hx : Set := h0 | h1 | h2 | h3 | h4 | h5 | h6 | h7 | h8 | h9 | hA | hB | hC | hD | hE | hF.

Definition hv (d : hx) : N := match d with | h0 => 0 | h1 => 1 | h2 => 2 | h3 => 3 | h4 => 4 | h5 => 5 | h6 => 6 | h7 => 7 | h8 => 8 | h9 => 9 | hA => 10 | hB => 11 | hC => 12 | hD => 13 | hE => 14 | hF => 15 end.

Definition mulr0 (y : hx) : byte := match y with | h0 => x00 | h1 => x00 | h2 => x00 | h3 => x00 | h4 => x00 | h5 => x00 | h6 => x00 | h7 => x00 | h8 => x00 | h9 => x00 | hA => x00 | hB => x00 | hC => x00 | hD => x00 | hE => x00 | hF => x00 end.
Definition mulr1 (y : hx) : byte := match y with | h0 => x00 | h1 => x01 | h2 => x02 | h3 => x03 | h4 => x04 | h5 => x05 | h6 => x06 | h7 => x07 | h8 => x08 | h9 => x09 | hA => x0a | hB => x0b | hC => x0c | hD => x0d | hE => x0e | hF => x0f end.
Definition mulr2 (y : hx) : byte := match y with | h0 => x00 | h1 => x02 | h2 => x04 | h3 => x06 | h4 => x08 | h5 => x0a | h6 => x0c | h7 => x0e | h8 => x10 | h9 => x12 | hA => x14 | hB => x16 | hC => x18 | hD => x1a | hE => x1c | hF => x1e end.
Definition mulr3 (y : hx) : byte := match y with | h0 => x00 | h1 => x03 | h2 => x06 | h3 => x09 | h4 => x0c | h5 => x0f | h6 => x12 | h7 => x15 | h8 => x18 | h9 => x1b | hA => x1e | hB => x21 | hC => x24 | hD => x27 | hE => x2a | hF => x2d end.
Definition mulr4 (y : hx) : byte := match y with | h0 => x00 | h1 => x04 | h2 => x08 | h3 => x0c | h4 => x10 | h5 => x14 | h6 => x18 | h7 => x1c | h8 => x20 | h9 => x24 | hA => x28 | hB => x2c | hC => x30 | hD => x34 | hE => x38 | hF => x3c end.
Definition mulr5 (y : hx) : byte := match y with | h0 => x00 | h1 => x05 | h2 => x0a | h3 => x0f | h4 => x14 | h5 => x19 | h6 => x1e | h7 => x23 | h8 => x28 | h9 => x2d | hA => x32 | hB => x37 | hC => x3c | hD => x41 | hE => x46 | hF => x4b end.
Definition mulr6 (y : hx) : byte := match y with | h0 => x00 | h1 => x06 | h2 => x0c | h3 => x12 | h4 => x18 | h5 => x1e | h6 => x24 | h7 => x2a | h8 => x30 | h9 => x36 | hA => x3c | hB => x42 | hC => x48 | hD => x4e | hE => x54 | hF => x5a end.
Definition mulr7 (y : hx) : byte := match y with | h0 => x00 | h1 => x07 | h2 => x0e | h3 => x15 | h4 => x1c | h5 => x23 | h6 => x2a | h7 => x31 | h8 => x38 | h9 => x3f | hA => x46 | hB => x4d | hC => x54 | hD => x5b | hE => x62 | hF => x69 end.
Definition mulr8 (y : hx) : byte := match y with | h0 => x00 | h1 => x08 | h2 => x10 | h3 => x18 | h4 => x20 | h5 => x28 | h6 => x30 | h7 => x38 | h8 => x40 | h9 => x48 | hA => x50 | hB => x58 | hC => x60 | hD => x68 | hE => x70 | hF => x78 end.
Definition mulr9 (y : hx) : byte := match y with | h0 => x00 | h1 => x09 | h2 => x12 | h3 => x1b | h4 => x24 | h5 => x2d | h6 => x36 | h7 => x3f | h8 => x48 | h9 => x51 | hA => x5a | hB => x63 | hC => x6c | hD => x75 | hE => x7e | hF => x87 end.
Definition mulrA (y : hx) : byte := match y with | h0 => x00 | h1 => x0a | h2 => x14 | h3 => x1e | h4 => x28 | h5 => x32 | h6 => x3c | h7 => x46 | h8 => x50 | h9 => x5a | hA => x64 | hB => x6e | hC => x78 | hD => x82 | hE => x8c | hF => x96 end.
Definition mulrB (y : hx) : byte := match y with | h0 => x00 | h1 => x0b | h2 => x16 | h3 => x21 | h4 => x2c | h5 => x37 | h6 => x42 | h7 => x4d | h8 => x58 | h9 => x63 | hA => x6e | hB => x79 | hC => x84 | hD => x8f | hE => x9a | hF => xa5 end.
Definition mulrC (y : hx) : byte := match y with | h0 => x00 | h1 => x0c | h2 => x18 | h3 => x24 | h4 => x30 | h5 => x3c | h6 => x48 | h7 => x54 | h8 => x60 | h9 => x6c | hA => x78 | hB => x84 | hC => x90 | hD => x9c | hE => xa8 | hF => xb4 end.
Definition mulrD (y : hx) : byte := match y with | h0 => x00 | h1 => x0d | h2 => x1a | h3 => x27 | h4 => x34 | h5 => x41 | h6 => x4e | h7 => x5b | h8 => x68 | h9 => x75 | hA => x82 | hB => x8f | hC => x9c | hD => xa9 | hE => xb6 | hF => xc3 end.
Definition mulrE (y : hx) : byte := match y with | h0 => x00 | h1 => x0e | h2 => x1c | h3 => x2a | h4 => x38 | h5 => x46 | h6 => x54 | h7 => x62 | h8 => x70 | h9 => x7e | hA => x8c | hB => x9a | hC => xa8 | hD => xb6 | hE => xc4 | hF => xd2 end.
Definition mulrF (y : hx) : byte := match y with | h0 => x00 | h1 => x0f | h2 => x1e | h3 => x2d | h4 => x3c | h5 => x4b | h6 => x5a | h7 => x69 | h8 => x78 | h9 => x87 | hA => x96 | hB => xa5 | hC => xb4 | hD => xc3 | hE => xd2 | hF => xe1 end.
(** a * y for digits a and y, as a byte *)
Definition mulr (a : hx) : hx -> byte := match a with | h0 => mulr0 | h1 => mulr1 | h2 => mulr2 | h3 => mulr3 | h4 => mulr4 | h5 => mulr5 | h6 => mulr6 | h7 => mulr7 | h8 => mulr8 | h9 => mulr9 | hA => mulrA | hB => mulrB | hC => mulrC | hD => mulrD | hE => mulrE | hF => mulrF end.

(** b + c modulo 256 *)
Definition addb (b : byte) (c : hx) : byte :=
  match b with
  | x00 => match c with | h0 => x00 | h1 => x01 | h2 => x02 | h3 => x03 | h4 => x04 | h5 => x05 | h6 => x06 | h7 => x07 | h8 => x08 | h9 => x09 | hA => x0a | hB => x0b | hC => x0c | hD => x0d | hE => x0e | hF => x0f end
  | x01 => match c with | h0 => x01 | h1 => x02 | h2 => x03 | h3 => x04 | h4 => x05 | h5 => x06 | h6 => x07 | h7 => x08 | h8 => x09 | h9 => x0a | hA => x0b | hB => x0c | hC => x0d | hD => x0e | hE => x0f | hF => x10 end
  | x02 => match c with | h0 => x02 | h1 => x03 | h2 => x04 | h3 => x05 | h4 => x06 | h5 => x07 | h6 => x08 | h7 => x09 | h8 => x0a | h9 => x0b | hA => x0c | hB => x0d | hC => x0e | hD => x0f | hE => x10 | hF => x11 end
  | x03 => match c with | h0 => x03 | h1 => x04 | h2 => x05 | h3 => x06 | h4 => x07 | h5 => x08 | h6 => x09 | h7 => x0a | h8 => x0b | h9 => x0c | hA => x0d | hB => x0e | hC => x0f | hD => x10 | hE => x11 | hF => x12 end
  | x04 => match c with | h0 => x04 | h1 => x05 | h2 => x06 | h3 => x07 | h4 => x08 | h5 => x09 | h6 => x0a | h7 => x0b | h8 => x0c | h9 => x0d | hA => x0e | hB => x0f | hC => x10 | hD => x11 | hE => x12 | hF => x13 end
  | x05 => match c with | h0 => x05 | h1 => x06 | h2 => x07 | h3 => x08 | h4 => x09 | h5 => x0a | h6 => x0b | h7 => x0c | h8 => x0d | h9 => x0e | hA => x0f | hB => x10 | hC => x11 | hD => x12 | hE => x13 | hF => x14 end
  | x06 => match c with | h0 => x06 | h1 => x07 | h2 => x08 | h3 => x09 | h4 => x0a | h5 => x0b | h6 => x0c | h7 => x0d | h8 => x0e | h9 => x0f | hA => x10 | hB => x11 | hC => x12 | hD => x13 | hE => x14 | hF => x15 end
  | x07 => match c with | h0 => x07 | h1 => x08 | h2 => x09 | h3 => x0a | h4 => x0b | h5 => x0c | h6 => x0d | h7 => x0e | h8 => x0f | h9 => x10 | hA => x11 | hB => x12 | hC => x13 | hD => x14 | hE => x15 | hF => x16 end
  | x08 => match c with | h0 => x08 | h1 => x09 | h2 => x0a | h3 => x0b | h4 => x0c | h5 => x0d | h6 => x0e | h7 => x0f | h8 => x10 | h9 => x11 | hA => x12 | hB => x13 | hC => x14 | hD => x15 | hE => x16 | hF => x17 end
  | x09 => match c with | h0 => x09 | h1 => x0a | h2 => x0b | h3 => x0c | h4 => x0d | h5 => x0e | h6 => x0f | h7 => x10 | h8 => x11 | h9 => x12 | hA => x13 | hB => x14 | hC => x15 | hD => x16 | hE => x17 | hF => x18 end
  | x0a => match c with | h0 => x0a | h1 => x0b | h2 => x0c | h3 => x0d | h4 => x0e | h5 => x0f | h6 => x10 | h7 => x11 | h8 => x12 | h9 => x13 | hA => x14 | hB => x15 | hC => x16 | hD => x17 | hE => x18 | hF => x19 end
  | x0b => match c with | h0 => x0b | h1 => x0c | h2 => x0d | h3 => x0e | h4 => x0f | h5 => x10 | h6 => x11 | h7 => x12 | h8 => x13 | h9 => x14 | hA => x15 | hB => x16 | hC => x17 | hD => x18 | hE => x19 | hF => x1a end
  | x0c => match c with | h0 => x0c | h1 => x0d | h2 => x0e | h3 => x0f | h4 => x10 | h5 => x11 | h6 => x12 | h7 => x13 | h8 => x14 | h9 => x15 | hA => x16 | hB => x17 | hC => x18 | hD => x19 | hE => x1a | hF => x1b end
  | x0d => match c with | h0 => x0d | h1 => x0e | h2 => x0f | h3 => x10 | h4 => x11 | h5 => x12 | h6 => x13 | h7 => x14 | h8 => x15 | h9 => x16 | hA => x17 | hB => x18 | hC => x19 | hD => x1a | hE => x1b | hF => x1c end
  | x0e => match c with | h0 => x0e | h1 => x0f | h2 => x10 | h3 => x11 | h4 => x12 | h5 => x13 | h6 => x14 | h7 => x15 | h8 => x16 | h9 => x17 | hA => x18 | hB => x19 | hC => x1a | hD => x1b | hE => x1c | hF => x1d end
  | x0f => match c with | h0 => x0f | h1 => x10 | h2 => x11 | h3 => x12 | h4 => x13 | h5 => x14 | h6 => x15 | h7 => x16 | h8 => x17 | h9 => x18 | hA => x19 | hB => x1a | hC => x1b | hD => x1c | hE => x1d | hF => x1e end
  | x10 => match c with | h0 => x10 | h1 => x11 | h2 => x12 | h3 => x13 | h4 => x14 | h5 => x15 | h6 => x16 | h7 => x17 | h8 => x18 | h9 => x19 | hA => x1a | hB => x1b | hC => x1c | hD => x1d | hE => x1e | hF => x1f end
  | x11 => match c with | h0 => x11 | h1 => x12 | h2 => x13 | h3 => x14 | h4 => x15 | h5 => x16 | h6 => x17 | h7 => x18 | h8 => x19 | h9 => x1a | hA => x1b | hB => x1c | hC => x1d | hD => x1e | hE => x1f | hF => x20 end
  | x12 => match c with | h0 => x12 | h1 => x13 | h2 => x14 | h3 => x15 | h4 => x16 | h5 => x17 | h6 => x18 | h7 => x19 | h8 => x1a | h9 => x1b | hA => x1c | hB => x1d | hC => x1e | hD => x1f | hE => x20 | hF => x21 end
  | x13 => match c with | h0 => x13 | h1 => x14 | h2 => x15 | h3 => x16 | h4 => x17 | h5 => x18 | h6 => x19 | h7 => x1a | h8 => x1b | h9 => x1c | hA => x1d | hB => x1e | hC => x1f | hD => x20 | hE => x21 | hF => x22 end
  | x14 => match c with | h0 => x14 | h1 => x15 | h2 => x16 | h3 => x17 | h4 => x18 | h5 => x19 | h6 => x1a | h7 => x1b | h8 => x1c | h9 => x1d | hA => x1e | hB => x1f | hC => x20 | hD => x21 | hE => x22 | hF => x23 end
  | x15 => match c with | h0 => x15 | h1 => x16 | h2 => x17 | h3 => x18 | h4 => x19 | h5 => x1a | h6 => x1b | h7 => x1c | h8 => x1d | h9 => x1e | hA => x1f | hB => x20 | hC => x21 | hD => x22 | hE => x23 | hF => x24 end
  | x16 => match c with | h0 => x16 | h1 => x17 | h2 => x18 | h3 => x19 | h4 => x1a | h5 => x1b | h6 => x1c | h7 => x1d | h8 => x1e | h9 => x1f | hA => x20 | hB => x21 | hC => x22 | hD => x23 | hE => x24 | hF => x25 end
  | x17 => match c with | h0 => x17 | h1 => x18 | h2 => x19 | h3 => x1a | h4 => x1b | h5 => x1c | h6 => x1d | h7 => x1e | h8 => x1f | h9 => x20 | hA => x21 | hB => x22 | hC => x23 | hD => x24 | hE => x25 | hF => x26 end
  | x18 => match c with | h0 => x18 | h1 => x19 | h2 => x1a | h3 => x1b | h4 => x1c | h5 => x1d | h6 => x1e | h7 => x1f | h8 => x20 | h9 => x21 | hA => x22 | hB => x23 | hC => x24 | hD => x25 | hE => x26 | hF => x27 end
  | x19 => match c with | h0 => x19 | h1 => x1a | h2 => x1b | h3 => x1c | h4 => x1d | h5 => x1e | h6 => x1f | h7 => x20 | h8 => x21 | h9 => x22 | hA => x23 | hB => x24 | hC => x25 | hD => x26 | hE => x27 | hF => x28 end
  | x1a => match c with | h0 => x1a | h1 => x1b | h2 => x1c | h3 => x1d | h4 => x1e | h5 => x1f | h6 => x20 | h7 => x21 | h8 => x22 | h9 => x23 | hA => x24 | hB => x25 | hC => x26 | hD => x27 | hE => x28 | hF => x29 end
  | x1b => match c with | h0 => x1b | h1 => x1c | h2 => x1d | h3 => x1e | h4 => x1f | h5 => x20 | h6 => x21 | h7 => x22 | h8 => x23 | h9 => x24 | hA => x25 | hB => x26 | hC => x27 | hD => x28 | hE => x29 | hF => x2a end
  | x1c => match c with | h0 => x1c | h1 => x1d | h2 => x1e | h3 => x1f | h4 => x20 | h5 => x21 | h6 => x22 | h7 => x23 | h8 => x24 | h9 => x25 | hA => x26 | hB => x27 | hC => x28 | hD => x29 | hE => x2a | hF => x2b end
  | x1d => match c with | h0 => x1d | h1 => x1e | h2 => x1f | h3 => x20 | h4 => x21 | h5 => x22 | h6 => x23 | h7 => x24 | h8 => x25 | h9 => x26 | hA => x27 | hB => x28 | hC => x29 | hD => x2a | hE => x2b | hF => x2c end
  | x1e => match c with | h0 => x1e | h1 => x1f | h2 => x20 | h3 => x21 | h4 => x22 | h5 => x23 | h6 => x24 | h7 => x25 | h8 => x26 | h9 => x27 | hA => x28 | hB => x29 | hC => x2a | hD => x2b | hE => x2c | hF => x2d end
  | x1f => match c with | h0 => x1f | h1 => x20 | h2 => x21 | h3 => x22 | h4 => x23 | h5 => x24 | h6 => x25 | h7 => x26 | h8 => x27 | h9 => x28 | hA => x29 | hB => x2a | hC => x2b | hD => x2c | hE => x2d | hF => x2e end
  | x20 => match c with | h0 => x20 | h1 => x21 | h2 => x22 | h3 => x23 | h4 => x24 | h5 => x25 | h6 => x26 | h7 => x27 | h8 => x28 | h9 => x29 | hA => x2a | hB => x2b | hC => x2c | hD => x2d | hE => x2e | hF => x2f end
  | x21 => match c with | h0 => x21 | h1 => x22 | h2 => x23 | h3 => x24 | h4 => x25 | h5 => x26 | h6 => x27 | h7 => x28 | h8 => x29 | h9 => x2a | hA => x2b | hB => x2c | hC => x2d | hD => x2e | hE => x2f | hF => x30 end
  | x22 => match c with | h0 => x22 | h1 => x23 | h2 => x24 | h3 => x25 | h4 => x26 | h5 => x27 | h6 => x28 | h7 => x29 | h8 => x2a | h9 => x2b | hA => x2c | hB => x2d | hC => x2e | hD => x2f | hE => x30 | hF => x31 end
  | x23 => match c with | h0 => x23 | h1 => x24 | h2 => x25 | h3 => x26 | h4 => x27 | h5 => x28 | h6 => x29 | h7 => x2a | h8 => x2b | h9 => x2c | hA => x2d | hB => x2e | hC => x2f | hD => x30 | hE => x31 | hF => x32 end
  | x24 => match c with | h0 => x24 | h1 => x25 | h2 => x26 | h3 => x27 | h4 => x28 | h5 => x29 | h6 => x2a | h7 => x2b | h8 => x2c | h9 => x2d | hA => x2e | hB => x2f | hC => x30 | hD => x31 | hE => x32 | hF => x33 end
  | x25 => match c with | h0 => x25 | h1 => x26 | h2 => x27 | h3 => x28 | h4 => x29 | h5 => x2a | h6 => x2b | h7 => x2c | h8 => x2d | h9 => x2e | hA => x2f | hB => x30 | hC => x31 | hD => x32 | hE => x33 | hF => x34 end
  | x26 => match c with | h0 => x26 | h1 => x27 | h2 => x28 | h3 => x29 | h4 => x2a | h5 => x2b | h6 => x2c | h7 => x2d | h8 => x2e | h9 => x2f | hA => x30 | hB => x31 | hC => x32 | hD => x33 | hE => x34 | hF => x35 end
  | x27 => match c with | h0 => x27 | h1 => x28 | h2 => x29 | h3 => x2a | h4 => x2b | h5 => x2c | h6 => x2d | h7 => x2e | h8 => x2f | h9 => x30 | hA => x31 | hB => x32 | hC => x33 | hD => x34 | hE => x35 | hF => x36 end
  | x28 => match c with | h0 => x28 | h1 => x29 | h2 => x2a | h3 => x2b | h4 => x2c | h5 => x2d | h6 => x2e | h7 => x2f | h8 => x30 | h9 => x31 | hA => x32 | hB => x33 | hC => x34 | hD => x35 | hE => x36 | hF => x37 end
  | x29 => match c with | h0 => x29 | h1 => x2a | h2 => x2b | h3 => x2c | h4 => x2d | h5 => x2e | h6 => x2f | h7 => x30 | h8 => x31 | h9 => x32 | hA => x33 | hB => x34 | hC => x35 | hD => x36 | hE => x37 | hF => x38 end
  | x2a => match c with | h0 => x2a | h1 => x2b | h2 => x2c | h3 => x2d | h4 => x2e | h5 => x2f | h6 => x30 | h7 => x31 | h8 => x32 | h9 => x33 | hA => x34 | hB => x35 | hC => x36 | hD => x37 | hE => x38 | hF => x39 end
  | x2b => match c with | h0 => x2b | h1 => x2c | h2 => x2d | h3 => x2e | h4 => x2f | h5 => x30 | h6 => x31 | h7 => x32 | h8 => x33 | h9 => x34 | hA => x35 | hB => x36 | hC => x37 | hD => x38 | hE => x39 | hF => x3a end
  | x2c => match c with | h0 => x2c | h1 => x2d | h2 => x2e | h3 => x2f | h4 => x30 | h5 => x31 | h6 => x32 | h7 => x33 | h8 => x34 | h9 => x35 | hA => x36 | hB => x37 | hC => x38 | hD => x39 | hE => x3a | hF => x3b end
  | x2d => match c with | h0 => x2d | h1 => x2e | h2 => x2f | h3 => x30 | h4 => x31 | h5 => x32 | h6 => x33 | h7 => x34 | h8 => x35 | h9 => x36 | hA => x37 | hB => x38 | hC => x39 | hD => x3a | hE => x3b | hF => x3c end
  | x2e => match c with | h0 => x2e | h1 => x2f | h2 => x30 | h3 => x31 | h4 => x32 | h5 => x33 | h6 => x34 | h7 => x35 | h8 => x36 | h9 => x37 | hA => x38 | hB => x39 | hC => x3a | hD => x3b | hE => x3c | hF => x3d end
  | x2f => match c with | h0 => x2f | h1 => x30 | h2 => x31 | h3 => x32 | h4 => x33 | h5 => x34 | h6 => x35 | h7 => x36 | h8 => x37 | h9 => x38 | hA => x39 | hB => x3a | hC => x3b | hD => x3c | hE => x3d | hF => x3e end
  | x30 => match c with | h0 => x30 | h1 => x31 | h2 => x32 | h3 => x33 | h4 => x34 | h5 => x35 | h6 => x36 | h7 => x37 | h8 => x38 | h9 => x39 | hA => x3a | hB => x3b | hC => x3c | hD => x3d | hE => x3e | hF => x3f end
  | x31 => match c with | h0 => x31 | h1 => x32 | h2 => x33 | h3 => x34 | h4 => x35 | h5 => x36 | h6 => x37 | h7 => x38 | h8 => x39 | h9 => x3a | hA => x3b | hB => x3c | hC => x3d | hD => x3e | hE => x3f | hF => x40 end
  | x32 => match c with | h0 => x32 | h1 => x33 | h2 => x34 | h3 => x35 | h4 => x36 | h5 => x37 | h6 => x38 | h7 => x39 | h8 => x3a | h9 => x3b | hA => x3c | hB => x3d | hC => x3e | hD => x3f | hE => x40 | hF => x41 end
  | x33 => match c with | h0 => x33 | h1 => x34 | h2 => x35 | h3 => x36 | h4 => x37 | h5 => x38 | h6 => x39 | h7 => x3a | h8 => x3b | h9 => x3c | hA => x3d | hB => x3e | hC => x3f | hD => x40 | hE => x41 | hF => x42 end
  | x34 => match c with | h0 => x34 | h1 => x35 | h2 => x36 | h3 => x37 | h4 => x38 | h5 => x39 | h6 => x3a | h7 => x3b | h8 => x3c | h9 => x3d | hA => x3e | hB => x3f | hC => x40 | hD => x41 | hE => x42 | hF => x43 end
  | x35 => match c with | h0 => x35 | h1 => x36 | h2 => x37 | h3 => x38 | h4 => x39 | h5 => x3a | h6 => x3b | h7 => x3c | h8 => x3d | h9 => x3e | hA => x3f | hB => x40 | hC => x41 | hD => x42 | hE => x43 | hF => x44 end
  | x36 => match c with | h0 => x36 | h1 => x37 | h2 => x38 | h3 => x39 | h4 => x3a | h5 => x3b | h6 => x3c | h7 => x3d | h8 => x3e | h9 => x3f | hA => x40 | hB => x41 | hC => x42 | hD => x43 | hE => x44 | hF => x45 end
  | x37 => match c with | h0 => x37 | h1 => x38 | h2 => x39 | h3 => x3a | h4 => x3b | h5 => x3c | h6 => x3d | h7 => x3e | h8 => x3f | h9 => x40 | hA => x41 | hB => x42 | hC => x43 | hD => x44 | hE => x45 | hF => x46 end
  | x38 => match c with | h0 => x38 | h1 => x39 | h2 => x3a | h3 => x3b | h4 => x3c | h5 => x3d | h6 => x3e | h7 => x3f | h8 => x40 | h9 => x41 | hA => x42 | hB => x43 | hC => x44 | hD => x45 | hE => x46 | hF => x47 end
  | x39 => match c with | h0 => x39 | h1 => x3a | h2 => x3b | h3 => x3c | h4 => x3d | h5 => x3e | h6 => x3f | h7 => x40 | h8 => x41 | h9 => x42 | hA => x43 | hB => x44 | hC => x45 | hD => x46 | hE => x47 | hF => x48 end
  | x3a => match c with | h0 => x3a | h1 => x3b | h2 => x3c | h3 => x3d | h4 => x3e | h5 => x3f | h6 => x40 | h7 => x41 | h8 => x42 | h9 => x43 | hA => x44 | hB => x45 | hC => x46 | hD => x47 | hE => x48 | hF => x49 end
  | x3b => match c with | h0 => x3b | h1 => x3c | h2 => x3d | h3 => x3e | h4 => x3f | h5 => x40 | h6 => x41 | h7 => x42 | h8 => x43 | h9 => x44 | hA => x45 | hB => x46 | hC => x47 | hD => x48 | hE => x49 | hF => x4a end
  | x3c => match c with | h0 => x3c | h1 => x3d | h2 => x3e | h3 => x3f | h4 => x40 | h5 => x41 | h6 => x42 | h7 => x43 | h8 => x44 | h9 => x45 | hA => x46 | hB => x47 | hC => x48 | hD => x49 | hE => x4a | hF => x4b end
  | x3d => match c with | h0 => x3d | h1 => x3e | h2 => x3f | h3 => x40 | h4 => x41 | h5 => x42 | h6 => x43 | h7 => x44 | h8 => x45 | h9 => x46 | hA => x47 | hB => x48 | hC => x49 | hD => x4a | hE => x4b | hF => x4c end
  | x3e => match c with | h0 => x3e | h1 => x3f | h2 => x40 | h3 => x41 | h4 => x42 | h5 => x43 | h6 => x44 | h7 => x45 | h8 => x46 | h9 => x47 | hA => x48 | hB => x49 | hC => x4a | hD => x4b | hE => x4c | hF => x4d end
  | x3f => match c with | h0 => x3f | h1 => x40 | h2 => x41 | h3 => x42 | h4 => x43 | h5 => x44 | h6 => x45 | h7 => x46 | h8 => x47 | h9 => x48 | hA => x49 | hB => x4a | hC => x4b | hD => x4c | hE => x4d | hF => x4e end
  | x40 => match c with | h0 => x40 | h1 => x41 | h2 => x42 | h3 => x43 | h4 => x44 | h5 => x45 | h6 => x46 | h7 => x47 | h8 => x48 | h9 => x49 | hA => x4a | hB => x4b | hC => x4c | hD => x4d | hE => x4e | hF => x4f end
  | x41 => match c with | h0 => x41 | h1 => x42 | h2 => x43 | h3 => x44 | h4 => x45 | h5 => x46 | h6 => x47 | h7 => x48 | h8 => x49 | h9 => x4a | hA => x4b | hB => x4c | hC => x4d | hD => x4e | hE => x4f | hF => x50 end
  | x42 => match c with | h0 => x42 | h1 => x43 | h2 => x44 | h3 => x45 | h4 => x46 | h5 => x47 | h6 => x48 | h7 => x49 | h8 => x4a | h9 => x4b | hA => x4c | hB => x4d | hC => x4e | hD => x4f | hE => x50 | hF => x51 end
  | x43 => match c with | h0 => x43 | h1 => x44 | h2 => x45 | h3 => x46 | h4 => x47 | h5 => x48 | h6 => x49 | h7 => x4a | h8 => x4b | h9 => x4c | hA => x4d | hB => x4e | hC => x4f | hD => x50 | hE => x51 | hF => x52 end
  | x44 => match c with | h0 => x44 | h1 => x45 | h2 => x46 | h3 => x47 | h4 => x48 | h5 => x49 | h6 => x4a | h7 => x4b | h8 => x4c | h9 => x4d | hA => x4e | hB => x4f | hC => x50 | hD => x51 | hE => x52 | hF => x53 end
  | x45 => match c with | h0 => x45 | h1 => x46 | h2 => x47 | h3 => x48 | h4 => x49 | h5 => x4a | h6 => x4b | h7 => x4c | h8 => x4d | h9 => x4e | hA => x4f | hB => x50 | hC => x51 | hD => x52 | hE => x53 | hF => x54 end
  | x46 => match c with | h0 => x46 | h1 => x47 | h2 => x48 | h3 => x49 | h4 => x4a | h5 => x4b | h6 => x4c | h7 => x4d | h8 => x4e | h9 => x4f | hA => x50 | hB => x51 | hC => x52 | hD => x53 | hE => x54 | hF => x55 end
  | x47 => match c with | h0 => x47 | h1 => x48 | h2 => x49 | h3 => x4a | h4 => x4b | h5 => x4c | h6 => x4d | h7 => x4e | h8 => x4f | h9 => x50 | hA => x51 | hB => x52 | hC => x53 | hD => x54 | hE => x55 | hF => x56 end
  | x48 => match c with | h0 => x48 | h1 => x49 | h2 => x4a | h3 => x4b | h4 => x4c | h5 => x4d | h6 => x4e | h7 => x4f | h8 => x50 | h9 => x51 | hA => x52 | hB => x53 | hC => x54 | hD => x55 | hE => x56 | hF => x57 end
  | x49 => match c with | h0 => x49 | h1 => x4a | h2 => x4b | h3 => x4c | h4 => x4d | h5 => x4e | h6 => x4f | h7 => x50 | h8 => x51 | h9 => x52 | hA => x53 | hB => x54 | hC => x55 | hD => x56 | hE => x57 | hF => x58 end
  | x4a => match c with | h0 => x4a | h1 => x4b | h2 => x4c | h3 => x4d | h4 => x4e | h5 => x4f | h6 => x50 | h7 => x51 | h8 => x52 | h9 => x53 | hA => x54 | hB => x55 | hC => x56 | hD => x57 | hE => x58 | hF => x59 end
  | x4b => match c with | h0 => x4b | h1 => x4c | h2 => x4d | h3 => x4e | h4 => x4f | h5 => x50 | h6 => x51 | h7 => x52 | h8 => x53 | h9 => x54 | hA => x55 | hB => x56 | hC => x57 | hD => x58 | hE => x59 | hF => x5a end
  | x4c => match c with | h0 => x4c | h1 => x4d | h2 => x4e | h3 => x4f | h4 => x50 | h5 => x51 | h6 => x52 | h7 => x53 | h8 => x54 | h9 => x55 | hA => x56 | hB => x57 | hC => x58 | hD => x59 | hE => x5a | hF => x5b end
  | x4d => match c with | h0 => x4d | h1 => x4e | h2 => x4f | h3 => x50 | h4 => x51 | h5 => x52 | h6 => x53 | h7 => x54 | h8 => x55 | h9 => x56 | hA => x57 | hB => x58 | hC => x59 | hD => x5a | hE => x5b | hF => x5c end
  | x4e => match c with | h0 => x4e | h1 => x4f | h2 => x50 | h3 => x51 | h4 => x52 | h5 => x53 | h6 => x54 | h7 => x55 | h8 => x56 | h9 => x57 | hA => x58 | hB => x59 | hC => x5a | hD => x5b | hE => x5c | hF => x5d end
  | x4f => match c with | h0 => x4f | h1 => x50 | h2 => x51 | h3 => x52 | h4 => x53 | h5 => x54 | h6 => x55 | h7 => x56 | h8 => x57 | h9 => x58 | hA => x59 | hB => x5a | hC => x5b | hD => x5c | hE => x5d | hF => x5e end
  | x50 => match c with | h0 => x50 | h1 => x51 | h2 => x52 | h3 => x53 | h4 => x54 | h5 => x55 | h6 => x56 | h7 => x57 | h8 => x58 | h9 => x59 | hA => x5a | hB => x5b | hC => x5c | hD => x5d | hE => x5e | hF => x5f end
  | x51 => match c with | h0 => x51 | h1 => x52 | h2 => x53 | h3 => x54 | h4 => x55 | h5 => x56 | h6 => x57 | h7 => x58 | h8 => x59 | h9 => x5a | hA => x5b | hB => x5c | hC => x5d | hD => x5e | hE => x5f | hF => x60 end
  | x52 => match c with | h0 => x52 | h1 => x53 | h2 => x54 | h3 => x55 | h4 => x56 | h5 => x57 | h6 => x58 | h7 => x59 | h8 => x5a | h9 => x5b | hA => x5c | hB => x5d | hC => x5e | hD => x5f | hE => x60 | hF => x61 end
  | x53 => match c with | h0 => x53 | h1 => x54 | h2 => x55 | h3 => x56 | h4 => x57 | h5 => x58 | h6 => x59 | h7 => x5a | h8 => x5b | h9 => x5c | hA => x5d | hB => x5e | hC => x5f | hD => x60 | hE => x61 | hF => x62 end
  | x54 => match c with | h0 => x54 | h1 => x55 | h2 => x56 | h3 => x57 | h4 => x58 | h5 => x59 | h6 => x5a | h7 => x5b | h8 => x5c | h9 => x5d | hA => x5e | hB => x5f | hC => x60 | hD => x61 | hE => x62 | hF => x63 end
  | x55 => match c with | h0 => x55 | h1 => x56 | h2 => x57 | h3 => x58 | h4 => x59 | h5 => x5a | h6 => x5b | h7 => x5c | h8 => x5d | h9 => x5e | hA => x5f | hB => x60 | hC => x61 | hD => x62 | hE => x63 | hF => x64 end
  | x56 => match c with | h0 => x56 | h1 => x57 | h2 => x58 | h3 => x59 | h4 => x5a | h5 => x5b | h6 => x5c | h7 => x5d | h8 => x5e | h9 => x5f | hA => x60 | hB => x61 | hC => x62 | hD => x63 | hE => x64 | hF => x65 end
  | x57 => match c with | h0 => x57 | h1 => x58 | h2 => x59 | h3 => x5a | h4 => x5b | h5 => x5c | h6 => x5d | h7 => x5e | h8 => x5f | h9 => x60 | hA => x61 | hB => x62 | hC => x63 | hD => x64 | hE => x65 | hF => x66 end
  | x58 => match c with | h0 => x58 | h1 => x59 | h2 => x5a | h3 => x5b | h4 => x5c | h5 => x5d | h6 => x5e | h7 => x5f | h8 => x60 | h9 => x61 | hA => x62 | hB => x63 | hC => x64 | hD => x65 | hE => x66 | hF => x67 end
  | x59 => match c with | h0 => x59 | h1 => x5a | h2 => x5b | h3 => x5c | h4 => x5d | h5 => x5e | h6 => x5f | h7 => x60 | h8 => x61 | h9 => x62 | hA => x63 | hB => x64 | hC => x65 | hD => x66 | hE => x67 | hF => x68 end
  | x5a => match c with | h0 => x5a | h1 => x5b | h2 => x5c | h3 => x5d | h4 => x5e | h5 => x5f | h6 => x60 | h7 => x61 | h8 => x62 | h9 => x63 | hA => x64 | hB => x65 | hC => x66 | hD => x67 | hE => x68 | hF => x69 end
  | x5b => match c with | h0 => x5b | h1 => x5c | h2 => x5d | h3 => x5e | h4 => x5f | h5 => x60 | h6 => x61 | h7 => x62 | h8 => x63 | h9 => x64 | hA => x65 | hB => x66 | hC => x67 | hD => x68 | hE => x69 | hF => x6a end
  | x5c => match c with | h0 => x5c | h1 => x5d | h2 => x5e | h3 => x5f | h4 => x60 | h5 => x61 | h6 => x62 | h7 => x63 | h8 => x64 | h9 => x65 | hA => x66 | hB => x67 | hC => x68 | hD => x69 | hE => x6a | hF => x6b end
  | x5d => match c with | h0 => x5d | h1 => x5e | h2 => x5f | h3 => x60 | h4 => x61 | h5 => x62 | h6 => x63 | h7 => x64 | h8 => x65 | h9 => x66 | hA => x67 | hB => x68 | hC => x69 | hD => x6a | hE => x6b | hF => x6c end
  | x5e => match c with | h0 => x5e | h1 => x5f | h2 => x60 | h3 => x61 | h4 => x62 | h5 => x63 | h6 => x64 | h7 => x65 | h8 => x66 | h9 => x67 | hA => x68 | hB => x69 | hC => x6a | hD => x6b | hE => x6c | hF => x6d end
  | x5f => match c with | h0 => x5f | h1 => x60 | h2 => x61 | h3 => x62 | h4 => x63 | h5 => x64 | h6 => x65 | h7 => x66 | h8 => x67 | h9 => x68 | hA => x69 | hB => x6a | hC => x6b | hD => x6c | hE => x6d | hF => x6e end
  | x60 => match c with | h0 => x60 | h1 => x61 | h2 => x62 | h3 => x63 | h4 => x64 | h5 => x65 | h6 => x66 | h7 => x67 | h8 => x68 | h9 => x69 | hA => x6a | hB => x6b | hC => x6c | hD => x6d | hE => x6e | hF => x6f end
  | x61 => match c with | h0 => x61 | h1 => x62 | h2 => x63 | h3 => x64 | h4 => x65 | h5 => x66 | h6 => x67 | h7 => x68 | h8 => x69 | h9 => x6a | hA => x6b | hB => x6c | hC => x6d | hD => x6e | hE => x6f | hF => x70 end
  | x62 => match c with | h0 => x62 | h1 => x63 | h2 => x64 | h3 => x65 | h4 => x66 | h5 => x67 | h6 => x68 | h7 => x69 | h8 => x6a | h9 => x6b | hA => x6c | hB => x6d | hC => x6e | hD => x6f | hE => x70 | hF => x71 end
  | x63 => match c with | h0 => x63 | h1 => x64 | h2 => x65 | h3 => x66 | h4 => x67 | h5 => x68 | h6 => x69 | h7 => x6a | h8 => x6b | h9 => x6c | hA => x6d | hB => x6e | hC => x6f | hD => x70 | hE => x71 | hF => x72 end
  | x64 => match c with | h0 => x64 | h1 => x65 | h2 => x66 | h3 => x67 | h4 => x68 | h5 => x69 | h6 => x6a | h7 => x6b | h8 => x6c | h9 => x6d | hA => x6e | hB => x6f | hC => x70 | hD => x71 | hE => x72 | hF => x73 end
  | x65 => match c with | h0 => x65 | h1 => x66 | h2 => x67 | h3 => x68 | h4 => x69 | h5 => x6a | h6 => x6b | h7 => x6c | h8 => x6d | h9 => x6e | hA => x6f | hB => x70 | hC => x71 | hD => x72 | hE => x73 | hF => x74 end
  | x66 => match c with | h0 => x66 | h1 => x67 | h2 => x68 | h3 => x69 | h4 => x6a | h5 => x6b | h6 => x6c | h7 => x6d | h8 => x6e | h9 => x6f | hA => x70 | hB => x71 | hC => x72 | hD => x73 | hE => x74 | hF => x75 end
  | x67 => match c with | h0 => x67 | h1 => x68 | h2 => x69 | h3 => x6a | h4 => x6b | h5 => x6c | h6 => x6d | h7 => x6e | h8 => x6f | h9 => x70 | hA => x71 | hB => x72 | hC => x73 | hD => x74 | hE => x75 | hF => x76 end
  | x68 => match c with | h0 => x68 | h1 => x69 | h2 => x6a | h3 => x6b | h4 => x6c | h5 => x6d | h6 => x6e | h7 => x6f | h8 => x70 | h9 => x71 | hA => x72 | hB => x73 | hC => x74 | hD => x75 | hE => x76 | hF => x77 end
  | x69 => match c with | h0 => x69 | h1 => x6a | h2 => x6b | h3 => x6c | h4 => x6d | h5 => x6e | h6 => x6f | h7 => x70 | h8 => x71 | h9 => x72 | hA => x73 | hB => x74 | hC => x75 | hD => x76 | hE => x77 | hF => x78 end
  | x6a => match c with | h0 => x6a | h1 => x6b | h2 => x6c | h3 => x6d | h4 => x6e | h5 => x6f | h6 => x70 | h7 => x71 | h8 => x72 | h9 => x73 | hA => x74 | hB => x75 | hC => x76 | hD => x77 | hE => x78 | hF => x79 end
  | x6b => match c with | h0 => x6b | h1 => x6c | h2 => x6d | h3 => x6e | h4 => x6f | h5 => x70 | h6 => x71 | h7 => x72 | h8 => x73 | h9 => x74 | hA => x75 | hB => x76 | hC => x77 | hD => x78 | hE => x79 | hF => x7a end
  | x6c => match c with | h0 => x6c | h1 => x6d | h2 => x6e | h3 => x6f | h4 => x70 | h5 => x71 | h6 => x72 | h7 => x73 | h8 => x74 | h9 => x75 | hA => x76 | hB => x77 | hC => x78 | hD => x79 | hE => x7a | hF => x7b end
  | x6d => match c with | h0 => x6d | h1 => x6e | h2 => x6f | h3 => x70 | h4 => x71 | h5 => x72 | h6 => x73 | h7 => x74 | h8 => x75 | h9 => x76 | hA => x77 | hB => x78 | hC => x79 | hD => x7a | hE => x7b | hF => x7c end
  | x6e => match c with | h0 => x6e | h1 => x6f | h2 => x70 | h3 => x71 | h4 => x72 | h5 => x73 | h6 => x74 | h7 => x75 | h8 => x76 | h9 => x77 | hA => x78 | hB => x79 | hC => x7a | hD => x7b | hE => x7c | hF => x7d end
  | x6f => match c with | h0 => x6f | h1 => x70 | h2 => x71 | h3 => x72 | h4 => x73 | h5 => x74 | h6 => x75 | h7 => x76 | h8 => x77 | h9 => x78 | hA => x79 | hB => x7a | hC => x7b | hD => x7c | hE => x7d | hF => x7e end
  | x70 => match c with | h0 => x70 | h1 => x71 | h2 => x72 | h3 => x73 | h4 => x74 | h5 => x75 | h6 => x76 | h7 => x77 | h8 => x78 | h9 => x79 | hA => x7a | hB => x7b | hC => x7c | hD => x7d | hE => x7e | hF => x7f end
  | x71 => match c with | h0 => x71 | h1 => x72 | h2 => x73 | h3 => x74 | h4 => x75 | h5 => x76 | h6 => x77 | h7 => x78 | h8 => x79 | h9 => x7a | hA => x7b | hB => x7c | hC => x7d | hD => x7e | hE => x7f | hF => x80 end
  | x72 => match c with | h0 => x72 | h1 => x73 | h2 => x74 | h3 => x75 | h4 => x76 | h5 => x77 | h6 => x78 | h7 => x79 | h8 => x7a | h9 => x7b | hA => x7c | hB => x7d | hC => x7e | hD => x7f | hE => x80 | hF => x81 end
  | x73 => match c with | h0 => x73 | h1 => x74 | h2 => x75 | h3 => x76 | h4 => x77 | h5 => x78 | h6 => x79 | h7 => x7a | h8 => x7b | h9 => x7c | hA => x7d | hB => x7e | hC => x7f | hD => x80 | hE => x81 | hF => x82 end
  | x74 => match c with | h0 => x74 | h1 => x75 | h2 => x76 | h3 => x77 | h4 => x78 | h5 => x79 | h6 => x7a | h7 => x7b | h8 => x7c | h9 => x7d | hA => x7e | hB => x7f | hC => x80 | hD => x81 | hE => x82 | hF => x83 end
  | x75 => match c with | h0 => x75 | h1 => x76 | h2 => x77 | h3 => x78 | h4 => x79 | h5 => x7a | h6 => x7b | h7 => x7c | h8 => x7d | h9 => x7e | hA => x7f | hB => x80 | hC => x81 | hD => x82 | hE => x83 | hF => x84 end
  | x76 => match c with | h0 => x76 | h1 => x77 | h2 => x78 | h3 => x79 | h4 => x7a | h5 => x7b | h6 => x7c | h7 => x7d | h8 => x7e | h9 => x7f | hA => x80 | hB => x81 | hC => x82 | hD => x83 | hE => x84 | hF => x85 end
  | x77 => match c with | h0 => x77 | h1 => x78 | h2 => x79 | h3 => x7a | h4 => x7b | h5 => x7c | h6 => x7d | h7 => x7e | h8 => x7f | h9 => x80 | hA => x81 | hB => x82 | hC => x83 | hD => x84 | hE => x85 | hF => x86 end
  | x78 => match c with | h0 => x78 | h1 => x79 | h2 => x7a | h3 => x7b | h4 => x7c | h5 => x7d | h6 => x7e | h7 => x7f | h8 => x80 | h9 => x81 | hA => x82 | hB => x83 | hC => x84 | hD => x85 | hE => x86 | hF => x87 end
  | x79 => match c with | h0 => x79 | h1 => x7a | h2 => x7b | h3 => x7c | h4 => x7d | h5 => x7e | h6 => x7f | h7 => x80 | h8 => x81 | h9 => x82 | hA => x83 | hB => x84 | hC => x85 | hD => x86 | hE => x87 | hF => x88 end
  | x7a => match c with | h0 => x7a | h1 => x7b | h2 => x7c | h3 => x7d | h4 => x7e | h5 => x7f | h6 => x80 | h7 => x81 | h8 => x82 | h9 => x83 | hA => x84 | hB => x85 | hC => x86 | hD => x87 | hE => x88 | hF => x89 end
  | x7b => match c with | h0 => x7b | h1 => x7c | h2 => x7d | h3 => x7e | h4 => x7f | h5 => x80 | h6 => x81 | h7 => x82 | h8 => x83 | h9 => x84 | hA => x85 | hB => x86 | hC => x87 | hD => x88 | hE => x89 | hF => x8a end
  | x7c => match c with | h0 => x7c | h1 => x7d | h2 => x7e | h3 => x7f | h4 => x80 | h5 => x81 | h6 => x82 | h7 => x83 | h8 => x84 | h9 => x85 | hA => x86 | hB => x87 | hC => x88 | hD => x89 | hE => x8a | hF => x8b end
  | x7d => match c with | h0 => x7d | h1 => x7e | h2 => x7f | h3 => x80 | h4 => x81 | h5 => x82 | h6 => x83 | h7 => x84 | h8 => x85 | h9 => x86 | hA => x87 | hB => x88 | hC => x89 | hD => x8a | hE => x8b | hF => x8c end
  | x7e => match c with | h0 => x7e | h1 => x7f | h2 => x80 | h3 => x81 | h4 => x82 | h5 => x83 | h6 => x84 | h7 => x85 | h8 => x86 | h9 => x87 | hA => x88 | hB => x89 | hC => x8a | hD => x8b | hE => x8c | hF => x8d end
  | x7f => match c with | h0 => x7f | h1 => x80 | h2 => x81 | h3 => x82 | h4 => x83 | h5 => x84 | h6 => x85 | h7 => x86 | h8 => x87 | h9 => x88 | hA => x89 | hB => x8a | hC => x8b | hD => x8c | hE => x8d | hF => x8e end
  | x80 => match c with | h0 => x80 | h1 => x81 | h2 => x82 | h3 => x83 | h4 => x84 | h5 => x85 | h6 => x86 | h7 => x87 | h8 => x88 | h9 => x89 | hA => x8a | hB => x8b | hC => x8c | hD => x8d | hE => x8e | hF => x8f end
  | x81 => match c with | h0 => x81 | h1 => x82 | h2 => x83 | h3 => x84 | h4 => x85 | h5 => x86 | h6 => x87 | h7 => x88 | h8 => x89 | h9 => x8a | hA => x8b | hB => x8c | hC => x8d | hD => x8e | hE => x8f | hF => x90 end
  | x82 => match c with | h0 => x82 | h1 => x83 | h2 => x84 | h3 => x85 | h4 => x86 | h5 => x87 | h6 => x88 | h7 => x89 | h8 => x8a | h9 => x8b | hA => x8c | hB => x8d | hC => x8e | hD => x8f | hE => x90 | hF => x91 end
  | x83 => match c with | h0 => x83 | h1 => x84 | h2 => x85 | h3 => x86 | h4 => x87 | h5 => x88 | h6 => x89 | h7 => x8a | h8 => x8b | h9 => x8c | hA => x8d | hB => x8e | hC => x8f | hD => x90 | hE => x91 | hF => x92 end
  | x84 => match c with | h0 => x84 | h1 => x85 | h2 => x86 | h3 => x87 | h4 => x88 | h5 => x89 | h6 => x8a | h7 => x8b | h8 => x8c | h9 => x8d | hA => x8e | hB => x8f | hC => x90 | hD => x91 | hE => x92 | hF => x93 end
  | x85 => match c with | h0 => x85 | h1 => x86 | h2 => x87 | h3 => x88 | h4 => x89 | h5 => x8a | h6 => x8b | h7 => x8c | h8 => x8d | h9 => x8e | hA => x8f | hB => x90 | hC => x91 | hD => x92 | hE => x93 | hF => x94 end
  | x86 => match c with | h0 => x86 | h1 => x87 | h2 => x88 | h3 => x89 | h4 => x8a | h5 => x8b | h6 => x8c | h7 => x8d | h8 => x8e | h9 => x8f | hA => x90 | hB => x91 | hC => x92 | hD => x93 | hE => x94 | hF => x95 end
  | x87 => match c with | h0 => x87 | h1 => x88 | h2 => x89 | h3 => x8a | h4 => x8b | h5 => x8c | h6 => x8d | h7 => x8e | h8 => x8f | h9 => x90 | hA => x91 | hB => x92 | hC => x93 | hD => x94 | hE => x95 | hF => x96 end
  | x88 => match c with | h0 => x88 | h1 => x89 | h2 => x8a | h3 => x8b | h4 => x8c | h5 => x8d | h6 => x8e | h7 => x8f | h8 => x90 | h9 => x91 | hA => x92 | hB => x93 | hC => x94 | hD => x95 | hE => x96 | hF => x97 end
  | x89 => match c with | h0 => x89 | h1 => x8a | h2 => x8b | h3 => x8c | h4 => x8d | h5 => x8e | h6 => x8f | h7 => x90 | h8 => x91 | h9 => x92 | hA => x93 | hB => x94 | hC => x95 | hD => x96 | hE => x97 | hF => x98 end
  | x8a => match c with | h0 => x8a | h1 => x8b | h2 => x8c | h3 => x8d | h4 => x8e | h5 => x8f | h6 => x90 | h7 => x91 | h8 => x92 | h9 => x93 | hA => x94 | hB => x95 | hC => x96 | hD => x97 | hE => x98 | hF => x99 end
  | x8b => match c with | h0 => x8b | h1 => x8c | h2 => x8d | h3 => x8e | h4 => x8f | h5 => x90 | h6 => x91 | h7 => x92 | h8 => x93 | h9 => x94 | hA => x95 | hB => x96 | hC => x97 | hD => x98 | hE => x99 | hF => x9a end
  | x8c => match c with | h0 => x8c | h1 => x8d | h2 => x8e | h3 => x8f | h4 => x90 | h5 => x91 | h6 => x92 | h7 => x93 | h8 => x94 | h9 => x95 | hA => x96 | hB => x97 | hC => x98 | hD => x99 | hE => x9a | hF => x9b end
  | x8d => match c with | h0 => x8d | h1 => x8e | h2 => x8f | h3 => x90 | h4 => x91 | h5 => x92 | h6 => x93 | h7 => x94 | h8 => x95 | h9 => x96 | hA => x97 | hB => x98 | hC => x99 | hD => x9a | hE => x9b | hF => x9c end
  | x8e => match c with | h0 => x8e | h1 => x8f | h2 => x90 | h3 => x91 | h4 => x92 | h5 => x93 | h6 => x94 | h7 => x95 | h8 => x96 | h9 => x97 | hA => x98 | hB => x99 | hC => x9a | hD => x9b | hE => x9c | hF => x9d end
  | x8f => match c with | h0 => x8f | h1 => x90 | h2 => x91 | h3 => x92 | h4 => x93 | h5 => x94 | h6 => x95 | h7 => x96 | h8 => x97 | h9 => x98 | hA => x99 | hB => x9a | hC => x9b | hD => x9c | hE => x9d | hF => x9e end
  | x90 => match c with | h0 => x90 | h1 => x91 | h2 => x92 | h3 => x93 | h4 => x94 | h5 => x95 | h6 => x96 | h7 => x97 | h8 => x98 | h9 => x99 | hA => x9a | hB => x9b | hC => x9c | hD => x9d | hE => x9e | hF => x9f end
  | x91 => match c with | h0 => x91 | h1 => x92 | h2 => x93 | h3 => x94 | h4 => x95 | h5 => x96 | h6 => x97 | h7 => x98 | h8 => x99 | h9 => x9a | hA => x9b | hB => x9c | hC => x9d | hD => x9e | hE => x9f | hF => xa0 end
  | x92 => match c with | h0 => x92 | h1 => x93 | h2 => x94 | h3 => x95 | h4 => x96 | h5 => x97 | h6 => x98 | h7 => x99 | h8 => x9a | h9 => x9b | hA => x9c | hB => x9d | hC => x9e | hD => x9f | hE => xa0 | hF => xa1 end
  | x93 => match c with | h0 => x93 | h1 => x94 | h2 => x95 | h3 => x96 | h4 => x97 | h5 => x98 | h6 => x99 | h7 => x9a | h8 => x9b | h9 => x9c | hA => x9d | hB => x9e | hC => x9f | hD => xa0 | hE => xa1 | hF => xa2 end
  | x94 => match c with | h0 => x94 | h1 => x95 | h2 => x96 | h3 => x97 | h4 => x98 | h5 => x99 | h6 => x9a | h7 => x9b | h8 => x9c | h9 => x9d | hA => x9e | hB => x9f | hC => xa0 | hD => xa1 | hE => xa2 | hF => xa3 end
  | x95 => match c with | h0 => x95 | h1 => x96 | h2 => x97 | h3 => x98 | h4 => x99 | h5 => x9a | h6 => x9b | h7 => x9c | h8 => x9d | h9 => x9e | hA => x9f | hB => xa0 | hC => xa1 | hD => xa2 | hE => xa3 | hF => xa4 end
  | x96 => match c with | h0 => x96 | h1 => x97 | h2 => x98 | h3 => x99 | h4 => x9a | h5 => x9b | h6 => x9c | h7 => x9d | h8 => x9e | h9 => x9f | hA => xa0 | hB => xa1 | hC => xa2 | hD => xa3 | hE => xa4 | hF => xa5 end
  | x97 => match c with | h0 => x97 | h1 => x98 | h2 => x99 | h3 => x9a | h4 => x9b | h5 => x9c | h6 => x9d | h7 => x9e | h8 => x9f | h9 => xa0 | hA => xa1 | hB => xa2 | hC => xa3 | hD => xa4 | hE => xa5 | hF => xa6 end
  | x98 => match c with | h0 => x98 | h1 => x99 | h2 => x9a | h3 => x9b | h4 => x9c | h5 => x9d | h6 => x9e | h7 => x9f | h8 => xa0 | h9 => xa1 | hA => xa2 | hB => xa3 | hC => xa4 | hD => xa5 | hE => xa6 | hF => xa7 end
  | x99 => match c with | h0 => x99 | h1 => x9a | h2 => x9b | h3 => x9c | h4 => x9d | h5 => x9e | h6 => x9f | h7 => xa0 | h8 => xa1 | h9 => xa2 | hA => xa3 | hB => xa4 | hC => xa5 | hD => xa6 | hE => xa7 | hF => xa8 end
  | x9a => match c with | h0 => x9a | h1 => x9b | h2 => x9c | h3 => x9d | h4 => x9e | h5 => x9f | h6 => xa0 | h7 => xa1 | h8 => xa2 | h9 => xa3 | hA => xa4 | hB => xa5 | hC => xa6 | hD => xa7 | hE => xa8 | hF => xa9 end
  | x9b => match c with | h0 => x9b | h1 => x9c | h2 => x9d | h3 => x9e | h4 => x9f | h5 => xa0 | h6 => xa1 | h7 => xa2 | h8 => xa3 | h9 => xa4 | hA => xa5 | hB => xa6 | hC => xa7 | hD => xa8 | hE => xa9 | hF => xaa end
  | x9c => match c with | h0 => x9c | h1 => x9d | h2 => x9e | h3 => x9f | h4 => xa0 | h5 => xa1 | h6 => xa2 | h7 => xa3 | h8 => xa4 | h9 => xa5 | hA => xa6 | hB => xa7 | hC => xa8 | hD => xa9 | hE => xaa | hF => xab end
  | x9d => match c with | h0 => x9d | h1 => x9e | h2 => x9f | h3 => xa0 | h4 => xa1 | h5 => xa2 | h6 => xa3 | h7 => xa4 | h8 => xa5 | h9 => xa6 | hA => xa7 | hB => xa8 | hC => xa9 | hD => xaa | hE => xab | hF => xac end
  | x9e => match c with | h0 => x9e | h1 => x9f | h2 => xa0 | h3 => xa1 | h4 => xa2 | h5 => xa3 | h6 => xa4 | h7 => xa5 | h8 => xa6 | h9 => xa7 | hA => xa8 | hB => xa9 | hC => xaa | hD => xab | hE => xac | hF => xad end
  | x9f => match c with | h0 => x9f | h1 => xa0 | h2 => xa1 | h3 => xa2 | h4 => xa3 | h5 => xa4 | h6 => xa5 | h7 => xa6 | h8 => xa7 | h9 => xa8 | hA => xa9 | hB => xaa | hC => xab | hD => xac | hE => xad | hF => xae end
  | xa0 => match c with | h0 => xa0 | h1 => xa1 | h2 => xa2 | h3 => xa3 | h4 => xa4 | h5 => xa5 | h6 => xa6 | h7 => xa7 | h8 => xa8 | h9 => xa9 | hA => xaa | hB => xab | hC => xac | hD => xad | hE => xae | hF => xaf end
  | xa1 => match c with | h0 => xa1 | h1 => xa2 | h2 => xa3 | h3 => xa4 | h4 => xa5 | h5 => xa6 | h6 => xa7 | h7 => xa8 | h8 => xa9 | h9 => xaa | hA => xab | hB => xac | hC => xad | hD => xae | hE => xaf | hF => xb0 end
  | xa2 => match c with | h0 => xa2 | h1 => xa3 | h2 => xa4 | h3 => xa5 | h4 => xa6 | h5 => xa7 | h6 => xa8 | h7 => xa9 | h8 => xaa | h9 => xab | hA => xac | hB => xad | hC => xae | hD => xaf | hE => xb0 | hF => xb1 end
  | xa3 => match c with | h0 => xa3 | h1 => xa4 | h2 => xa5 | h3 => xa6 | h4 => xa7 | h5 => xa8 | h6 => xa9 | h7 => xaa | h8 => xab | h9 => xac | hA => xad | hB => xae | hC => xaf | hD => xb0 | hE => xb1 | hF => xb2 end
  | xa4 => match c with | h0 => xa4 | h1 => xa5 | h2 => xa6 | h3 => xa7 | h4 => xa8 | h5 => xa9 | h6 => xaa | h7 => xab | h8 => xac | h9 => xad | hA => xae | hB => xaf | hC => xb0 | hD => xb1 | hE => xb2 | hF => xb3 end
  | xa5 => match c with | h0 => xa5 | h1 => xa6 | h2 => xa7 | h3 => xa8 | h4 => xa9 | h5 => xaa | h6 => xab | h7 => xac | h8 => xad | h9 => xae | hA => xaf | hB => xb0 | hC => xb1 | hD => xb2 | hE => xb3 | hF => xb4 end
  | xa6 => match c with | h0 => xa6 | h1 => xa7 | h2 => xa8 | h3 => xa9 | h4 => xaa | h5 => xab | h6 => xac | h7 => xad | h8 => xae | h9 => xaf | hA => xb0 | hB => xb1 | hC => xb2 | hD => xb3 | hE => xb4 | hF => xb5 end
  | xa7 => match c with | h0 => xa7 | h1 => xa8 | h2 => xa9 | h3 => xaa | h4 => xab | h5 => xac | h6 => xad | h7 => xae | h8 => xaf | h9 => xb0 | hA => xb1 | hB => xb2 | hC => xb3 | hD => xb4 | hE => xb5 | hF => xb6 end
  | xa8 => match c with | h0 => xa8 | h1 => xa9 | h2 => xaa | h3 => xab | h4 => xac | h5 => xad | h6 => xae | h7 => xaf | h8 => xb0 | h9 => xb1 | hA => xb2 | hB => xb3 | hC => xb4 | hD => xb5 | hE => xb6 | hF => xb7 end
  | xa9 => match c with | h0 => xa9 | h1 => xaa | h2 => xab | h3 => xac | h4 => xad | h5 => xae | h6 => xaf | h7 => xb0 | h8 => xb1 | h9 => xb2 | hA => xb3 | hB => xb4 | hC => xb5 | hD => xb6 | hE => xb7 | hF => xb8 end
  | xaa => match c with | h0 => xaa | h1 => xab | h2 => xac | h3 => xad | h4 => xae | h5 => xaf | h6 => xb0 | h7 => xb1 | h8 => xb2 | h9 => xb3 | hA => xb4 | hB => xb5 | hC => xb6 | hD => xb7 | hE => xb8 | hF => xb9 end
  | xab => match c with | h0 => xab | h1 => xac | h2 => xad | h3 => xae | h4 => xaf | h5 => xb0 | h6 => xb1 | h7 => xb2 | h8 => xb3 | h9 => xb4 | hA => xb5 | hB => xb6 | hC => xb7 | hD => xb8 | hE => xb9 | hF => xba end
  | xac => match c with | h0 => xac | h1 => xad | h2 => xae | h3 => xaf | h4 => xb0 | h5 => xb1 | h6 => xb2 | h7 => xb3 | h8 => xb4 | h9 => xb5 | hA => xb6 | hB => xb7 | hC => xb8 | hD => xb9 | hE => xba | hF => xbb end
  | xad => match c with | h0 => xad | h1 => xae | h2 => xaf | h3 => xb0 | h4 => xb1 | h5 => xb2 | h6 => xb3 | h7 => xb4 | h8 => xb5 | h9 => xb6 | hA => xb7 | hB => xb8 | hC => xb9 | hD => xba | hE => xbb | hF => xbc end
  | xae => match c with | h0 => xae | h1 => xaf | h2 => xb0 | h3 => xb1 | h4 => xb2 | h5 => xb3 | h6 => xb4 | h7 => xb5 | h8 => xb6 | h9 => xb7 | hA => xb8 | hB => xb9 | hC => xba | hD => xbb | hE => xbc | hF => xbd end
  | xaf => match c with | h0 => xaf | h1 => xb0 | h2 => xb1 | h3 => xb2 | h4 => xb3 | h5 => xb4 | h6 => xb5 | h7 => xb6 | h8 => xb7 | h9 => xb8 | hA => xb9 | hB => xba | hC => xbb | hD => xbc | hE => xbd | hF => xbe end
  | xb0 => match c with | h0 => xb0 | h1 => xb1 | h2 => xb2 | h3 => xb3 | h4 => xb4 | h5 => xb5 | h6 => xb6 | h7 => xb7 | h8 => xb8 | h9 => xb9 | hA => xba | hB => xbb | hC => xbc | hD => xbd | hE => xbe | hF => xbf end
  | xb1 => match c with | h0 => xb1 | h1 => xb2 | h2 => xb3 | h3 => xb4 | h4 => xb5 | h5 => xb6 | h6 => xb7 | h7 => xb8 | h8 => xb9 | h9 => xba | hA => xbb | hB => xbc | hC => xbd | hD => xbe | hE => xbf | hF => xc0 end
  | xb2 => match c with | h0 => xb2 | h1 => xb3 | h2 => xb4 | h3 => xb5 | h4 => xb6 | h5 => xb7 | h6 => xb8 | h7 => xb9 | h8 => xba | h9 => xbb | hA => xbc | hB => xbd | hC => xbe | hD => xbf | hE => xc0 | hF => xc1 end
  | xb3 => match c with | h0 => xb3 | h1 => xb4 | h2 => xb5 | h3 => xb6 | h4 => xb7 | h5 => xb8 | h6 => xb9 | h7 => xba | h8 => xbb | h9 => xbc | hA => xbd | hB => xbe | hC => xbf | hD => xc0 | hE => xc1 | hF => xc2 end
  | xb4 => match c with | h0 => xb4 | h1 => xb5 | h2 => xb6 | h3 => xb7 | h4 => xb8 | h5 => xb9 | h6 => xba | h7 => xbb | h8 => xbc | h9 => xbd | hA => xbe | hB => xbf | hC => xc0 | hD => xc1 | hE => xc2 | hF => xc3 end
  | xb5 => match c with | h0 => xb5 | h1 => xb6 | h2 => xb7 | h3 => xb8 | h4 => xb9 | h5 => xba | h6 => xbb | h7 => xbc | h8 => xbd | h9 => xbe | hA => xbf | hB => xc0 | hC => xc1 | hD => xc2 | hE => xc3 | hF => xc4 end
  | xb6 => match c with | h0 => xb6 | h1 => xb7 | h2 => xb8 | h3 => xb9 | h4 => xba | h5 => xbb | h6 => xbc | h7 => xbd | h8 => xbe | h9 => xbf | hA => xc0 | hB => xc1 | hC => xc2 | hD => xc3 | hE => xc4 | hF => xc5 end
  | xb7 => match c with | h0 => xb7 | h1 => xb8 | h2 => xb9 | h3 => xba | h4 => xbb | h5 => xbc | h6 => xbd | h7 => xbe | h8 => xbf | h9 => xc0 | hA => xc1 | hB => xc2 | hC => xc3 | hD => xc4 | hE => xc5 | hF => xc6 end
  | xb8 => match c with | h0 => xb8 | h1 => xb9 | h2 => xba | h3 => xbb | h4 => xbc | h5 => xbd | h6 => xbe | h7 => xbf | h8 => xc0 | h9 => xc1 | hA => xc2 | hB => xc3 | hC => xc4 | hD => xc5 | hE => xc6 | hF => xc7 end
  | xb9 => match c with | h0 => xb9 | h1 => xba | h2 => xbb | h3 => xbc | h4 => xbd | h5 => xbe | h6 => xbf | h7 => xc0 | h8 => xc1 | h9 => xc2 | hA => xc3 | hB => xc4 | hC => xc5 | hD => xc6 | hE => xc7 | hF => xc8 end
  | xba => match c with | h0 => xba | h1 => xbb | h2 => xbc | h3 => xbd | h4 => xbe | h5 => xbf | h6 => xc0 | h7 => xc1 | h8 => xc2 | h9 => xc3 | hA => xc4 | hB => xc5 | hC => xc6 | hD => xc7 | hE => xc8 | hF => xc9 end
  | xbb => match c with | h0 => xbb | h1 => xbc | h2 => xbd | h3 => xbe | h4 => xbf | h5 => xc0 | h6 => xc1 | h7 => xc2 | h8 => xc3 | h9 => xc4 | hA => xc5 | hB => xc6 | hC => xc7 | hD => xc8 | hE => xc9 | hF => xca end
  | xbc => match c with | h0 => xbc | h1 => xbd | h2 => xbe | h3 => xbf | h4 => xc0 | h5 => xc1 | h6 => xc2 | h7 => xc3 | h8 => xc4 | h9 => xc5 | hA => xc6 | hB => xc7 | hC => xc8 | hD => xc9 | hE => xca | hF => xcb end
  | xbd => match c with | h0 => xbd | h1 => xbe | h2 => xbf | h3 => xc0 | h4 => xc1 | h5 => xc2 | h6 => xc3 | h7 => xc4 | h8 => xc5 | h9 => xc6 | hA => xc7 | hB => xc8 | hC => xc9 | hD => xca | hE => xcb | hF => xcc end
  | xbe => match c with | h0 => xbe | h1 => xbf | h2 => xc0 | h3 => xc1 | h4 => xc2 | h5 => xc3 | h6 => xc4 | h7 => xc5 | h8 => xc6 | h9 => xc7 | hA => xc8 | hB => xc9 | hC => xca | hD => xcb | hE => xcc | hF => xcd end
  | xbf => match c with | h0 => xbf | h1 => xc0 | h2 => xc1 | h3 => xc2 | h4 => xc3 | h5 => xc4 | h6 => xc5 | h7 => xc6 | h8 => xc7 | h9 => xc8 | hA => xc9 | hB => xca | hC => xcb | hD => xcc | hE => xcd | hF => xce end
  | xc0 => match c with | h0 => xc0 | h1 => xc1 | h2 => xc2 | h3 => xc3 | h4 => xc4 | h5 => xc5 | h6 => xc6 | h7 => xc7 | h8 => xc8 | h9 => xc9 | hA => xca | hB => xcb | hC => xcc | hD => xcd | hE => xce | hF => xcf end
  | xc1 => match c with | h0 => xc1 | h1 => xc2 | h2 => xc3 | h3 => xc4 | h4 => xc5 | h5 => xc6 | h6 => xc7 | h7 => xc8 | h8 => xc9 | h9 => xca | hA => xcb | hB => xcc | hC => xcd | hD => xce | hE => xcf | hF => xd0 end
  | xc2 => match c with | h0 => xc2 | h1 => xc3 | h2 => xc4 | h3 => xc5 | h4 => xc6 | h5 => xc7 | h6 => xc8 | h7 => xc9 | h8 => xca | h9 => xcb | hA => xcc | hB => xcd | hC => xce | hD => xcf | hE => xd0 | hF => xd1 end
  | xc3 => match c with | h0 => xc3 | h1 => xc4 | h2 => xc5 | h3 => xc6 | h4 => xc7 | h5 => xc8 | h6 => xc9 | h7 => xca | h8 => xcb | h9 => xcc | hA => xcd | hB => xce | hC => xcf | hD => xd0 | hE => xd1 | hF => xd2 end
  | xc4 => match c with | h0 => xc4 | h1 => xc5 | h2 => xc6 | h3 => xc7 | h4 => xc8 | h5 => xc9 | h6 => xca | h7 => xcb | h8 => xcc | h9 => xcd | hA => xce | hB => xcf | hC => xd0 | hD => xd1 | hE => xd2 | hF => xd3 end
  | xc5 => match c with | h0 => xc5 | h1 => xc6 | h2 => xc7 | h3 => xc8 | h4 => xc9 | h5 => xca | h6 => xcb | h7 => xcc | h8 => xcd | h9 => xce | hA => xcf | hB => xd0 | hC => xd1 | hD => xd2 | hE => xd3 | hF => xd4 end
  | xc6 => match c with | h0 => xc6 | h1 => xc7 | h2 => xc8 | h3 => xc9 | h4 => xca | h5 => xcb | h6 => xcc | h7 => xcd | h8 => xce | h9 => xcf | hA => xd0 | hB => xd1 | hC => xd2 | hD => xd3 | hE => xd4 | hF => xd5 end
  | xc7 => match c with | h0 => xc7 | h1 => xc8 | h2 => xc9 | h3 => xca | h4 => xcb | h5 => xcc | h6 => xcd | h7 => xce | h8 => xcf | h9 => xd0 | hA => xd1 | hB => xd2 | hC => xd3 | hD => xd4 | hE => xd5 | hF => xd6 end
  | xc8 => match c with | h0 => xc8 | h1 => xc9 | h2 => xca | h3 => xcb | h4 => xcc | h5 => xcd | h6 => xce | h7 => xcf | h8 => xd0 | h9 => xd1 | hA => xd2 | hB => xd3 | hC => xd4 | hD => xd5 | hE => xd6 | hF => xd7 end
  | xc9 => match c with | h0 => xc9 | h1 => xca | h2 => xcb | h3 => xcc | h4 => xcd | h5 => xce | h6 => xcf | h7 => xd0 | h8 => xd1 | h9 => xd2 | hA => xd3 | hB => xd4 | hC => xd5 | hD => xd6 | hE => xd7 | hF => xd8 end
  | xca => match c with | h0 => xca | h1 => xcb | h2 => xcc | h3 => xcd | h4 => xce | h5 => xcf | h6 => xd0 | h7 => xd1 | h8 => xd2 | h9 => xd3 | hA => xd4 | hB => xd5 | hC => xd6 | hD => xd7 | hE => xd8 | hF => xd9 end
  | xcb => match c with | h0 => xcb | h1 => xcc | h2 => xcd | h3 => xce | h4 => xcf | h5 => xd0 | h6 => xd1 | h7 => xd2 | h8 => xd3 | h9 => xd4 | hA => xd5 | hB => xd6 | hC => xd7 | hD => xd8 | hE => xd9 | hF => xda end
  | xcc => match c with | h0 => xcc | h1 => xcd | h2 => xce | h3 => xcf | h4 => xd0 | h5 => xd1 | h6 => xd2 | h7 => xd3 | h8 => xd4 | h9 => xd5 | hA => xd6 | hB => xd7 | hC => xd8 | hD => xd9 | hE => xda | hF => xdb end
  | xcd => match c with | h0 => xcd | h1 => xce | h2 => xcf | h3 => xd0 | h4 => xd1 | h5 => xd2 | h6 => xd3 | h7 => xd4 | h8 => xd5 | h9 => xd6 | hA => xd7 | hB => xd8 | hC => xd9 | hD => xda | hE => xdb | hF => xdc end
  | xce => match c with | h0 => xce | h1 => xcf | h2 => xd0 | h3 => xd1 | h4 => xd2 | h5 => xd3 | h6 => xd4 | h7 => xd5 | h8 => xd6 | h9 => xd7 | hA => xd8 | hB => xd9 | hC => xda | hD => xdb | hE => xdc | hF => xdd end
  | xcf => match c with | h0 => xcf | h1 => xd0 | h2 => xd1 | h3 => xd2 | h4 => xd3 | h5 => xd4 | h6 => xd5 | h7 => xd6 | h8 => xd7 | h9 => xd8 | hA => xd9 | hB => xda | hC => xdb | hD => xdc | hE => xdd | hF => xde end
  | xd0 => match c with | h0 => xd0 | h1 => xd1 | h2 => xd2 | h3 => xd3 | h4 => xd4 | h5 => xd5 | h6 => xd6 | h7 => xd7 | h8 => xd8 | h9 => xd9 | hA => xda | hB => xdb | hC => xdc | hD => xdd | hE => xde | hF => xdf end
  | xd1 => match c with | h0 => xd1 | h1 => xd2 | h2 => xd3 | h3 => xd4 | h4 => xd5 | h5 => xd6 | h6 => xd7 | h7 => xd8 | h8 => xd9 | h9 => xda | hA => xdb | hB => xdc | hC => xdd | hD => xde | hE => xdf | hF => xe0 end
  | xd2 => match c with | h0 => xd2 | h1 => xd3 | h2 => xd4 | h3 => xd5 | h4 => xd6 | h5 => xd7 | h6 => xd8 | h7 => xd9 | h8 => xda | h9 => xdb | hA => xdc | hB => xdd | hC => xde | hD => xdf | hE => xe0 | hF => xe1 end
  | xd3 => match c with | h0 => xd3 | h1 => xd4 | h2 => xd5 | h3 => xd6 | h4 => xd7 | h5 => xd8 | h6 => xd9 | h7 => xda | h8 => xdb | h9 => xdc | hA => xdd | hB => xde | hC => xdf | hD => xe0 | hE => xe1 | hF => xe2 end
  | xd4 => match c with | h0 => xd4 | h1 => xd5 | h2 => xd6 | h3 => xd7 | h4 => xd8 | h5 => xd9 | h6 => xda | h7 => xdb | h8 => xdc | h9 => xdd | hA => xde | hB => xdf | hC => xe0 | hD => xe1 | hE => xe2 | hF => xe3 end
  | xd5 => match c with | h0 => xd5 | h1 => xd6 | h2 => xd7 | h3 => xd8 | h4 => xd9 | h5 => xda | h6 => xdb | h7 => xdc | h8 => xdd | h9 => xde | hA => xdf | hB => xe0 | hC => xe1 | hD => xe2 | hE => xe3 | hF => xe4 end
  | xd6 => match c with | h0 => xd6 | h1 => xd7 | h2 => xd8 | h3 => xd9 | h4 => xda | h5 => xdb | h6 => xdc | h7 => xdd | h8 => xde | h9 => xdf | hA => xe0 | hB => xe1 | hC => xe2 | hD => xe3 | hE => xe4 | hF => xe5 end
  | xd7 => match c with | h0 => xd7 | h1 => xd8 | h2 => xd9 | h3 => xda | h4 => xdb | h5 => xdc | h6 => xdd | h7 => xde | h8 => xdf | h9 => xe0 | hA => xe1 | hB => xe2 | hC => xe3 | hD => xe4 | hE => xe5 | hF => xe6 end
  | xd8 => match c with | h0 => xd8 | h1 => xd9 | h2 => xda | h3 => xdb | h4 => xdc | h5 => xdd | h6 => xde | h7 => xdf | h8 => xe0 | h9 => xe1 | hA => xe2 | hB => xe3 | hC => xe4 | hD => xe5 | hE => xe6 | hF => xe7 end
  | xd9 => match c with | h0 => xd9 | h1 => xda | h2 => xdb | h3 => xdc | h4 => xdd | h5 => xde | h6 => xdf | h7 => xe0 | h8 => xe1 | h9 => xe2 | hA => xe3 | hB => xe4 | hC => xe5 | hD => xe6 | hE => xe7 | hF => xe8 end
  | xda => match c with | h0 => xda | h1 => xdb | h2 => xdc | h3 => xdd | h4 => xde | h5 => xdf | h6 => xe0 | h7 => xe1 | h8 => xe2 | h9 => xe3 | hA => xe4 | hB => xe5 | hC => xe6 | hD => xe7 | hE => xe8 | hF => xe9 end
  | xdb => match c with | h0 => xdb | h1 => xdc | h2 => xdd | h3 => xde | h4 => xdf | h5 => xe0 | h6 => xe1 | h7 => xe2 | h8 => xe3 | h9 => xe4 | hA => xe5 | hB => xe6 | hC => xe7 | hD => xe8 | hE => xe9 | hF => xea end
  | xdc => match c with | h0 => xdc | h1 => xdd | h2 => xde | h3 => xdf | h4 => xe0 | h5 => xe1 | h6 => xe2 | h7 => xe3 | h8 => xe4 | h9 => xe5 | hA => xe6 | hB => xe7 | hC => xe8 | hD => xe9 | hE => xea | hF => xeb end
  | xdd => match c with | h0 => xdd | h1 => xde | h2 => xdf | h3 => xe0 | h4 => xe1 | h5 => xe2 | h6 => xe3 | h7 => xe4 | h8 => xe5 | h9 => xe6 | hA => xe7 | hB => xe8 | hC => xe9 | hD => xea | hE => xeb | hF => xec end
  | xde => match c with | h0 => xde | h1 => xdf | h2 => xe0 | h3 => xe1 | h4 => xe2 | h5 => xe3 | h6 => xe4 | h7 => xe5 | h8 => xe6 | h9 => xe7 | hA => xe8 | hB => xe9 | hC => xea | hD => xeb | hE => xec | hF => xed end
  | xdf => match c with | h0 => xdf | h1 => xe0 | h2 => xe1 | h3 => xe2 | h4 => xe3 | h5 => xe4 | h6 => xe5 | h7 => xe6 | h8 => xe7 | h9 => xe8 | hA => xe9 | hB => xea | hC => xeb | hD => xec | hE => xed | hF => xee end
  | xe0 => match c with | h0 => xe0 | h1 => xe1 | h2 => xe2 | h3 => xe3 | h4 => xe4 | h5 => xe5 | h6 => xe6 | h7 => xe7 | h8 => xe8 | h9 => xe9 | hA => xea | hB => xeb | hC => xec | hD => xed | hE => xee | hF => xef end
  | xe1 => match c with | h0 => xe1 | h1 => xe2 | h2 => xe3 | h3 => xe4 | h4 => xe5 | h5 => xe6 | h6 => xe7 | h7 => xe8 | h8 => xe9 | h9 => xea | hA => xeb | hB => xec | hC => xed | hD => xee | hE => xef | hF => xf0 end
  | xe2 => match c with | h0 => xe2 | h1 => xe3 | h2 => xe4 | h3 => xe5 | h4 => xe6 | h5 => xe7 | h6 => xe8 | h7 => xe9 | h8 => xea | h9 => xeb | hA => xec | hB => xed | hC => xee | hD => xef | hE => xf0 | hF => xf1 end
  | xe3 => match c with | h0 => xe3 | h1 => xe4 | h2 => xe5 | h3 => xe6 | h4 => xe7 | h5 => xe8 | h6 => xe9 | h7 => xea | h8 => xeb | h9 => xec | hA => xed | hB => xee | hC => xef | hD => xf0 | hE => xf1 | hF => xf2 end
  | xe4 => match c with | h0 => xe4 | h1 => xe5 | h2 => xe6 | h3 => xe7 | h4 => xe8 | h5 => xe9 | h6 => xea | h7 => xeb | h8 => xec | h9 => xed | hA => xee | hB => xef | hC => xf0 | hD => xf1 | hE => xf2 | hF => xf3 end
  | xe5 => match c with | h0 => xe5 | h1 => xe6 | h2 => xe7 | h3 => xe8 | h4 => xe9 | h5 => xea | h6 => xeb | h7 => xec | h8 => xed | h9 => xee | hA => xef | hB => xf0 | hC => xf1 | hD => xf2 | hE => xf3 | hF => xf4 end
  | xe6 => match c with | h0 => xe6 | h1 => xe7 | h2 => xe8 | h3 => xe9 | h4 => xea | h5 => xeb | h6 => xec | h7 => xed | h8 => xee | h9 => xef | hA => xf0 | hB => xf1 | hC => xf2 | hD => xf3 | hE => xf4 | hF => xf5 end
  | xe7 => match c with | h0 => xe7 | h1 => xe8 | h2 => xe9 | h3 => xea | h4 => xeb | h5 => xec | h6 => xed | h7 => xee | h8 => xef | h9 => xf0 | hA => xf1 | hB => xf2 | hC => xf3 | hD => xf4 | hE => xf5 | hF => xf6 end
  | xe8 => match c with | h0 => xe8 | h1 => xe9 | h2 => xea | h3 => xeb | h4 => xec | h5 => xed | h6 => xee | h7 => xef | h8 => xf0 | h9 => xf1 | hA => xf2 | hB => xf3 | hC => xf4 | hD => xf5 | hE => xf6 | hF => xf7 end
  | xe9 => match c with | h0 => xe9 | h1 => xea | h2 => xeb | h3 => xec | h4 => xed | h5 => xee | h6 => xef | h7 => xf0 | h8 => xf1 | h9 => xf2 | hA => xf3 | hB => xf4 | hC => xf5 | hD => xf6 | hE => xf7 | hF => xf8 end
  | xea => match c with | h0 => xea | h1 => xeb | h2 => xec | h3 => xed | h4 => xee | h5 => xef | h6 => xf0 | h7 => xf1 | h8 => xf2 | h9 => xf3 | hA => xf4 | hB => xf5 | hC => xf6 | hD => xf7 | hE => xf8 | hF => xf9 end
  | xeb => match c with | h0 => xeb | h1 => xec | h2 => xed | h3 => xee | h4 => xef | h5 => xf0 | h6 => xf1 | h7 => xf2 | h8 => xf3 | h9 => xf4 | hA => xf5 | hB => xf6 | hC => xf7 | hD => xf8 | hE => xf9 | hF => xfa end
  | xec => match c with | h0 => xec | h1 => xed | h2 => xee | h3 => xef | h4 => xf0 | h5 => xf1 | h6 => xf2 | h7 => xf3 | h8 => xf4 | h9 => xf5 | hA => xf6 | hB => xf7 | hC => xf8 | hD => xf9 | hE => xfa | hF => xfb end
  | xed => match c with | h0 => xed | h1 => xee | h2 => xef | h3 => xf0 | h4 => xf1 | h5 => xf2 | h6 => xf3 | h7 => xf4 | h8 => xf5 | h9 => xf6 | hA => xf7 | hB => xf8 | hC => xf9 | hD => xfa | hE => xfb | hF => xfc end
  | xee => match c with | h0 => xee | h1 => xef | h2 => xf0 | h3 => xf1 | h4 => xf2 | h5 => xf3 | h6 => xf4 | h7 => xf5 | h8 => xf6 | h9 => xf7 | hA => xf8 | hB => xf9 | hC => xfa | hD => xfb | hE => xfc | hF => xfd end
  | xef => match c with | h0 => xef | h1 => xf0 | h2 => xf1 | h3 => xf2 | h4 => xf3 | h5 => xf4 | h6 => xf5 | h7 => xf6 | h8 => xf7 | h9 => xf8 | hA => xf9 | hB => xfa | hC => xfb | hD => xfc | hE => xfd | hF => xfe end
  | xf0 => match c with | h0 => xf0 | h1 => xf1 | h2 => xf2 | h3 => xf3 | h4 => xf4 | h5 => xf5 | h6 => xf6 | h7 => xf7 | h8 => xf8 | h9 => xf9 | hA => xfa | hB => xfb | hC => xfc | hD => xfd | hE => xfe | hF => xff end
  | xf1 => match c with | h0 => xf1 | h1 => xf2 | h2 => xf3 | h3 => xf4 | h4 => xf5 | h5 => xf6 | h6 => xf7 | h7 => xf8 | h8 => xf9 | h9 => xfa | hA => xfb | hB => xfc | hC => xfd | hD => xfe | hE => xff | hF => x00 end
  | xf2 => match c with | h0 => xf2 | h1 => xf3 | h2 => xf4 | h3 => xf5 | h4 => xf6 | h5 => xf7 | h6 => xf8 | h7 => xf9 | h8 => xfa | h9 => xfb | hA => xfc | hB => xfd | hC => xfe | hD => xff | hE => x00 | hF => x01 end
  | xf3 => match c with | h0 => xf3 | h1 => xf4 | h2 => xf5 | h3 => xf6 | h4 => xf7 | h5 => xf8 | h6 => xf9 | h7 => xfa | h8 => xfb | h9 => xfc | hA => xfd | hB => xfe | hC => xff | hD => x00 | hE => x01 | hF => x02 end
  | xf4 => match c with | h0 => xf4 | h1 => xf5 | h2 => xf6 | h3 => xf7 | h4 => xf8 | h5 => xf9 | h6 => xfa | h7 => xfb | h8 => xfc | h9 => xfd | hA => xfe | hB => xff | hC => x00 | hD => x01 | hE => x02 | hF => x03 end
  | xf5 => match c with | h0 => xf5 | h1 => xf6 | h2 => xf7 | h3 => xf8 | h4 => xf9 | h5 => xfa | h6 => xfb | h7 => xfc | h8 => xfd | h9 => xfe | hA => xff | hB => x00 | hC => x01 | hD => x02 | hE => x03 | hF => x04 end
  | xf6 => match c with | h0 => xf6 | h1 => xf7 | h2 => xf8 | h3 => xf9 | h4 => xfa | h5 => xfb | h6 => xfc | h7 => xfd | h8 => xfe | h9 => xff | hA => x00 | hB => x01 | hC => x02 | hD => x03 | hE => x04 | hF => x05 end
  | xf7 => match c with | h0 => xf7 | h1 => xf8 | h2 => xf9 | h3 => xfa | h4 => xfb | h5 => xfc | h6 => xfd | h7 => xfe | h8 => xff | h9 => x00 | hA => x01 | hB => x02 | hC => x03 | hD => x04 | hE => x05 | hF => x06 end
  | xf8 => match c with | h0 => xf8 | h1 => xf9 | h2 => xfa | h3 => xfb | h4 => xfc | h5 => xfd | h6 => xfe | h7 => xff | h8 => x00 | h9 => x01 | hA => x02 | hB => x03 | hC => x04 | hD => x05 | hE => x06 | hF => x07 end
  | xf9 => match c with | h0 => xf9 | h1 => xfa | h2 => xfb | h3 => xfc | h4 => xfd | h5 => xfe | h6 => xff | h7 => x00 | h8 => x01 | h9 => x02 | hA => x03 | hB => x04 | hC => x05 | hD => x06 | hE => x07 | hF => x08 end
  | xfa => match c with | h0 => xfa | h1 => xfb | h2 => xfc | h3 => xfd | h4 => xfe | h5 => xff | h6 => x00 | h7 => x01 | h8 => x02 | h9 => x03 | hA => x04 | hB => x05 | hC => x06 | hD => x07 | hE => x08 | hF => x09 end
  | xfb => match c with | h0 => xfb | h1 => xfc | h2 => xfd | h3 => xfe | h4 => xff | h5 => x00 | h6 => x01 | h7 => x02 | h8 => x03 | h9 => x04 | hA => x05 | hB => x06 | hC => x07 | hD => x08 | hE => x09 | hF => x0a end
  | xfc => match c with | h0 => xfc | h1 => xfd | h2 => xfe | h3 => xff | h4 => x00 | h5 => x01 | h6 => x02 | h7 => x03 | h8 => x04 | h9 => x05 | hA => x06 | hB => x07 | hC => x08 | hD => x09 | hE => x0a | hF => x0b end
  | xfd => match c with | h0 => xfd | h1 => xfe | h2 => xff | h3 => x00 | h4 => x01 | h5 => x02 | h6 => x03 | h7 => x04 | h8 => x05 | h9 => x06 | hA => x07 | hB => x08 | hC => x09 | hD => x0a | hE => x0b | hF => x0c end
  | xfe => match c with | h0 => xfe | h1 => xff | h2 => x00 | h3 => x01 | h4 => x02 | h5 => x03 | h6 => x04 | h7 => x05 | h8 => x06 | h9 => x07 | hA => x08 | hB => x09 | hC => x0a | hD => x0b | hE => x0c | hF => x0d end
  | xff => match c with | h0 => xff | h1 => x00 | h2 => x01 | h3 => x02 | h4 => x03 | h5 => x04 | h6 => x05 | h7 => x06 | h8 => x07 | h9 => x08 | hA => x09 | hB => x0a | hC => x0b | hD => x0c | hE => x0d | hF => x0e end
  end.

(** high and low digit of a byte *)
Definition split {T : Type} (b : byte) (k : hx -> hx -> T) : T :=
  match b with
  | x00 => k h0 h0
  | x01 => k h0 h1
  | x02 => k h0 h2
  | x03 => k h0 h3
  | x04 => k h0 h4
  | x05 => k h0 h5
  | x06 => k h0 h6
  | x07 => k h0 h7
  | x08 => k h0 h8
  | x09 => k h0 h9
  | x0a => k h0 hA
  | x0b => k h0 hB
  | x0c => k h0 hC
  | x0d => k h0 hD
  | x0e => k h0 hE
  | x0f => k h0 hF
  | x10 => k h1 h0
  | x11 => k h1 h1
  | x12 => k h1 h2
  | x13 => k h1 h3
  | x14 => k h1 h4
  | x15 => k h1 h5
  | x16 => k h1 h6
  | x17 => k h1 h7
  | x18 => k h1 h8
  | x19 => k h1 h9
  | x1a => k h1 hA
  | x1b => k h1 hB
  | x1c => k h1 hC
  | x1d => k h1 hD
  | x1e => k h1 hE
  | x1f => k h1 hF
  | x20 => k h2 h0
  | x21 => k h2 h1
  | x22 => k h2 h2
  | x23 => k h2 h3
  | x24 => k h2 h4
  | x25 => k h2 h5
  | x26 => k h2 h6
  | x27 => k h2 h7
  | x28 => k h2 h8
  | x29 => k h2 h9
  | x2a => k h2 hA
  | x2b => k h2 hB
  | x2c => k h2 hC
  | x2d => k h2 hD
  | x2e => k h2 hE
  | x2f => k h2 hF
  | x30 => k h3 h0
  | x31 => k h3 h1
  | x32 => k h3 h2
  | x33 => k h3 h3
  | x34 => k h3 h4
  | x35 => k h3 h5
  | x36 => k h3 h6
  | x37 => k h3 h7
  | x38 => k h3 h8
  | x39 => k h3 h9
  | x3a => k h3 hA
  | x3b => k h3 hB
  | x3c => k h3 hC
  | x3d => k h3 hD
  | x3e => k h3 hE
  | x3f => k h3 hF
  | x40 => k h4 h0
  | x41 => k h4 h1
  | x42 => k h4 h2
  | x43 => k h4 h3
  | x44 => k h4 h4
  | x45 => k h4 h5
  | x46 => k h4 h6
  | x47 => k h4 h7
  | x48 => k h4 h8
  | x49 => k h4 h9
  | x4a => k h4 hA
  | x4b => k h4 hB
  | x4c => k h4 hC
  | x4d => k h4 hD
  | x4e => k h4 hE
  | x4f => k h4 hF
  | x50 => k h5 h0
  | x51 => k h5 h1
  | x52 => k h5 h2
  | x53 => k h5 h3
  | x54 => k h5 h4
  | x55 => k h5 h5
  | x56 => k h5 h6
  | x57 => k h5 h7
  | x58 => k h5 h8
  | x59 => k h5 h9
  | x5a => k h5 hA
  | x5b => k h5 hB
  | x5c => k h5 hC
  | x5d => k h5 hD
  | x5e => k h5 hE
  | x5f => k h5 hF
  | x60 => k h6 h0
  | x61 => k h6 h1
  | x62 => k h6 h2
  | x63 => k h6 h3
  | x64 => k h6 h4
  | x65 => k h6 h5
  | x66 => k h6 h6
  | x67 => k h6 h7
  | x68 => k h6 h8
  | x69 => k h6 h9
  | x6a => k h6 hA
  | x6b => k h6 hB
  | x6c => k h6 hC
  | x6d => k h6 hD
  | x6e => k h6 hE
  | x6f => k h6 hF
  | x70 => k h7 h0
  | x71 => k h7 h1
  | x72 => k h7 h2
  | x73 => k h7 h3
  | x74 => k h7 h4
  | x75 => k h7 h5
  | x76 => k h7 h6
  | x77 => k h7 h7
  | x78 => k h7 h8
  | x79 => k h7 h9
  | x7a => k h7 hA
  | x7b => k h7 hB
  | x7c => k h7 hC
  | x7d => k h7 hD
  | x7e => k h7 hE
  | x7f => k h7 hF
  | x80 => k h8 h0
  | x81 => k h8 h1
  | x82 => k h8 h2
  | x83 => k h8 h3
  | x84 => k h8 h4
  | x85 => k h8 h5
  | x86 => k h8 h6
  | x87 => k h8 h7
  | x88 => k h8 h8
  | x89 => k h8 h9
  | x8a => k h8 hA
  | x8b => k h8 hB
  | x8c => k h8 hC
  | x8d => k h8 hD
  | x8e => k h8 hE
  | x8f => k h8 hF
  | x90 => k h9 h0
  | x91 => k h9 h1
  | x92 => k h9 h2
  | x93 => k h9 h3
  | x94 => k h9 h4
  | x95 => k h9 h5
  | x96 => k h9 h6
  | x97 => k h9 h7
  | x98 => k h9 h8
  | x99 => k h9 h9
  | x9a => k h9 hA
  | x9b => k h9 hB
  | x9c => k h9 hC
  | x9d => k h9 hD
  | x9e => k h9 hE
  | x9f => k h9 hF
  | xa0 => k hA h0
  | xa1 => k hA h1
  | xa2 => k hA h2
  | xa3 => k hA h3
  | xa4 => k hA h4
  | xa5 => k hA h5
  | xa6 => k hA h6
  | xa7 => k hA h7
  | xa8 => k hA h8
  | xa9 => k hA h9
  | xaa => k hA hA
  | xab => k hA hB
  | xac => k hA hC
  | xad => k hA hD
  | xae => k hA hE
  | xaf => k hA hF
  | xb0 => k hB h0
  | xb1 => k hB h1
  | xb2 => k hB h2
  | xb3 => k hB h3
  | xb4 => k hB h4
  | xb5 => k hB h5
  | xb6 => k hB h6
  | xb7 => k hB h7
  | xb8 => k hB h8
  | xb9 => k hB h9
  | xba => k hB hA
  | xbb => k hB hB
  | xbc => k hB hC
  | xbd => k hB hD
  | xbe => k hB hE
  | xbf => k hB hF
  | xc0 => k hC h0
  | xc1 => k hC h1
  | xc2 => k hC h2
  | xc3 => k hC h3
  | xc4 => k hC h4
  | xc5 => k hC h5
  | xc6 => k hC h6
  | xc7 => k hC h7
  | xc8 => k hC h8
  | xc9 => k hC h9
  | xca => k hC hA
  | xcb => k hC hB
  | xcc => k hC hC
  | xcd => k hC hD
  | xce => k hC hE
  | xcf => k hC hF
  | xd0 => k hD h0
  | xd1 => k hD h1
  | xd2 => k hD h2
  | xd3 => k hD h3
  | xd4 => k hD h4
  | xd5 => k hD h5
  | xd6 => k hD h6
  | xd7 => k hD h7
  | xd8 => k hD h8
  | xd9 => k hD h9
  | xda => k hD hA
  | xdb => k hD hB
  | xdc => k hD hC
  | xdd => k hD hD
  | xde => k hD hE
  | xdf => k hD hF
  | xe0 => k hE h0
  | xe1 => k hE h1
  | xe2 => k hE h2
  | xe3 => k hE h3
  | xe4 => k hE h4
  | xe5 => k hE h5
  | xe6 => k hE h6
  | xe7 => k hE h7
  | xe8 => k hE h8
  | xe9 => k hE h9
  | xea => k hE hA
  | xeb => k hE hB
  | xec => k hE hC
  | xed => k hE hD
  | xee => k hE hE
  | xef => k hE hF
  | xf0 => k hF h0
  | xf1 => k hF h1
  | xf2 => k hF h2
  | xf3 => k hF h3
  | xf4 => k hF h4
  | xf5 => k hF h5
  | xf6 => k hF h6
  | xf7 => k hF h7
  | xf8 => k hF h8
  | xf9 => k hF h9
  | xfa => k hF hA
  | xfb => k hF hB
  | xfc => k hF hC
  | xfd => k hF hD
  | xfe => k hF hE
  | xff => k hF hF
  end.

Definition dig (d : hx) : byte := match d with | h0 => x00 | h1 => x01 | h2 => x02 | h3 => x03 | h4 => x04 | h5 => x05 | h6 => x06 | h7 => x07 | h8 => x08 | h9 => x09 | hA => x0a | hB => x0b | hC => x0c | hD => x0d | hE => x0e | hF => x0f end.


(** acc + c *)
Fixpoint addc (acc : list hx) (c : hx) : list hx :=
  match acc with
  | [] => [c]
  | d :: acc' => split (addb (dig d) c) (fun hi lo => lo :: addc acc' hi)
  end.

(** a * ys + acc + c, where m is multiplication by the digit a *)
Fixpoint row (m : hx -> byte) (ys acc : list hx) (c : hx) : list hx :=
  match ys with
  | [] => addc acc c
  | y :: ys' =>
    match acc with
    | [] => split (addb (m y) c) (fun hi lo => lo :: row m ys' [] hi)
    | d :: acc' => split (addb (addb (m y) c) d) (fun hi lo => lo :: row m ys' acc' hi)
    end
  end.

(** xs * ys + acc *)
Fixpoint mulx (xs ys acc : list hx) : list hx :=
  match xs with
  | [] => acc
  | x :: xs' =>
    match row (mulr x) ys acc h0 with
    | [] => h0 :: mulx xs' ys []
    | l :: r => l :: mulx xs' ys r
    end
  end.

(** base-16 digits of a positive, least significant first *)
Fixpoint pos_hx (p : positive) : list hx :=
  match p with
  | xH => [h1]
  | xO xH => [h2]
  | xI xH => [h3]
  | xO (xO xH) => [h4]
  | xI (xO xH) => [h5]
  | xO (xI xH) => [h6]
  | xI (xI xH) => [h7]
  | xO (xO (xO xH)) => [h8]
  | xI (xO (xO xH)) => [h9]
  | xO (xI (xO xH)) => [hA]
  | xI (xI (xO xH)) => [hB]
  | xO (xO (xI xH)) => [hC]
  | xI (xO (xI xH)) => [hD]
  | xO (xI (xI xH)) => [hE]
  | xI (xI (xI xH)) => [hF]
  | xO (xO (xO (xO p'))) => h0 :: pos_hx p'
  | xI (xO (xO (xO p'))) => h1 :: pos_hx p'
  | xO (xI (xO (xO p'))) => h2 :: pos_hx p'
  | xI (xI (xO (xO p'))) => h3 :: pos_hx p'
  | xO (xO (xI (xO p'))) => h4 :: pos_hx p'
  | xI (xO (xI (xO p'))) => h5 :: pos_hx p'
  | xO (xI (xI (xO p'))) => h6 :: pos_hx p'
  | xI (xI (xI (xO p'))) => h7 :: pos_hx p'
  | xO (xO (xO (xI p'))) => h8 :: pos_hx p'
  | xI (xO (xO (xI p'))) => h9 :: pos_hx p'
  | xO (xI (xO (xI p'))) => hA :: pos_hx p'
  | xI (xI (xO (xI p'))) => hB :: pos_hx p'
  | xO (xO (xI (xI p'))) => hC :: pos_hx p'
  | xI (xO (xI (xI p'))) => hD :: pos_hx p'
  | xO (xI (xI (xI p'))) => hE :: pos_hx p'
  | xI (xI (xI (xI p'))) => hF :: pos_hx p'
  end.

Definition push (d : hx) (p : positive) : positive :=
  match d with
  | h0 => xO (xO (xO (xO p)))
  | h1 => xI (xO (xO (xO p)))
  | h2 => xO (xI (xO (xO p)))
  | h3 => xI (xI (xO (xO p)))
  | h4 => xO (xO (xI (xO p)))
  | h5 => xI (xO (xI (xO p)))
  | h6 => xO (xI (xI (xO p)))
  | h7 => xI (xI (xI (xO p)))
  | h8 => xO (xO (xO (xI p)))
  | h9 => xI (xO (xO (xI p)))
  | hA => xO (xI (xO (xI p)))
  | hB => xI (xI (xO (xI p)))
  | hC => xO (xO (xI (xI p)))
  | hD => xI (xO (xI (xI p)))
  | hE => xO (xI (xI (xI p)))
  | hF => xI (xI (xI (xI p)))
  end.

Definition pushN (d : hx) (n : N) : N :=
  match n with
  | N0 => hv d
  | Npos p => Npos (push d p)
  end.

Fixpoint hx_N (l : list hx) : N :=
  match l with
  | [] => 0
  | d :: l' => pushN d (hx_N l')
  end.

Definition pmulx (a b : positive) : N := hx_N (mulx (pos_hx a) (pos_hx b) []).

Definition ofN (s : bool) (n : N) : Z :=
  match n with
  | N0 => Z0
  | Npos p => if s then Zneg p else Zpos p
  end.

Definition hmul (a b : Z) : Z :=
  match a, b with
  | Zpos x, Zpos y => ofN false (pmulx x y)
  | Zpos x, Zneg y => ofN true (pmulx x y)
  | Zneg x, Zpos y => ofN true (pmulx x y)
  | Zneg x, Zneg y => ofN false (pmulx x y)
  | _, _ => Z0
  end.

(** ** Correctness *)

Fixpoint hval (l : list hx) : N :=
  match l with
  | [] => 0
  | d :: l' => hv d + 16 * hval l'
  end.

Lemma hv_lt d : hv d < 16.
Proof. destruct d; reflexivity. Qed.

Lemma mulr_ok a y : b2n (mulr a y) = hv a * hv y.
Proof. destruct a, y; reflexivity. Qed.

Definition all_hx : list hx := [h0; h1; h2; h3; h4; h5; h6; h7; h8; h9; hA; hB; hC; hD; hE; hF].
Lemma all_hx_in d : In d all_hx.
Proof. destruct d; cbn; tauto. Qed.

Definition addb_check (b : byte) : bool :=
  forallb (fun c => N.eqb (b2n (addb b c)) (N.modulo (b2n b + hv c) 256)) all_hx.
Lemma addb_mod b c : b2n (addb b c) = (b2n b + hv c) mod 256.
Proof.
  assert (H : addb_check b = true) by (destruct b; reflexivity).
  unfold addb_check in H. rewrite forallb_forall in H.
  apply N.eqb_eq. apply H. apply all_hx_in.
Qed.

Lemma addb_ok b c : b2n b + hv c < 256 -> b2n (addb b c) = b2n b + hv c.
Proof. intros H. rewrite addb_mod. now apply N.mod_small. Qed.

Lemma dig_ok d : b2n (dig d) = hv d.
Proof. destruct d; reflexivity. Qed.

Definition shi (b : byte) : hx := split b (fun hi _ => hi).
Definition slo (b : byte) : hx := split b (fun _ lo => lo).
Lemma split_ok {T} b (k : hx -> hx -> T) : split b k = k (shi b) (slo b).
Proof. destruct b; reflexivity. Qed.
Lemma split_val b : hv (slo b) + 16 * hv (shi b) = b2n b.
Proof. destruct b; reflexivity. Qed.

Lemma addc_ok acc c : hval (addc acc c) = hval acc + hv c.
Proof.
  revert c. induction acc as [|d acc IH]; intros c; cbn [addc hval].
  - lia.
  - rewrite split_ok. cbn [hval]. rewrite IH.
    pose proof (split_val (addb (dig d) c)) as E.
    rewrite addb_ok, dig_ok in E; [lia|].
    rewrite dig_ok. pose proof (hv_lt d). pose proof (hv_lt c). lia.
Qed.

Lemma row_ok a ys : forall acc c,
  hval (row (mulr a) ys acc c) = hv a * hval ys + hval acc + hv c.
Proof.
  induction ys as [|y ys IH]; intros acc c; cbn [row hval].
  - rewrite addc_ok. lia.
  - pose proof (hv_lt a). pose proof (hv_lt y). pose proof (hv_lt c).
    assert (Hm : b2n (mulr a y) <= 225) by (rewrite mulr_ok; nia).
    destruct acc as [|d acc].
    + rewrite split_ok. cbn [hval]. rewrite IH.
      pose proof (split_val (addb (mulr a y) c)) as E.
      rewrite addb_ok in E by lia. rewrite mulr_ok in E. cbn [hval]. nia.
    + rewrite split_ok. cbn [hval]. rewrite IH. pose proof (hv_lt d).
      pose proof (split_val (addb (addb (mulr a y) c) d)) as E.
      assert (E1 : b2n (addb (mulr a y) c) = b2n (mulr a y) + hv c) by (apply addb_ok; lia).
      rewrite addb_ok in E by lia. rewrite E1, mulr_ok in E. nia.
Qed.

Lemma mulx_ok xs ys : forall acc, hval (mulx xs ys acc) = hval xs * hval ys + hval acc.
Proof.
  induction xs as [|x xs IH]; intros acc; cbn [mulx hval]; [lia|].
  pose proof (row_ok x ys acc h0) as R.
  destruct (row (mulr x) ys acc h0) as [|l r]; cbn [hval] in *; rewrite IH; cbn [hval hv] in *; nia.
Qed.

Lemma pos_hx_ok p : hval (pos_hx p) = Npos p.
Proof.
  revert p. fix IH 1. intros p.
  destruct p as [[[[p|p|]|[p|p|]|]|[[p|p|]|[p|p|]|]|]|[[[p|p|]|[p|p|]|]|[[p|p|]|[p|p|]|]|]|];
    cbn [pos_hx hval hv]; try rewrite IH; lia.
Qed.

Lemma pushN_ok d n : pushN d n = hv d + 16 * n.
Proof. destruct n as [|p]; cbn [pushN]; [lia|]. destruct d; cbn [push hv]; lia. Qed.

Lemma hx_N_ok l : hx_N l = hval l.
Proof. induction l as [|d l IH]; cbn [hx_N hval]; [reflexivity|]. now rewrite pushN_ok, IH. Qed.

Lemma pmulx_ok a b : pmulx a b = Npos (a * b).
Proof. unfold pmulx. rewrite hx_N_ok, mulx_ok, !pos_hx_ok. cbn [hval]. lia. Qed.

Theorem hmul_ok a b : hmul a b = (a * b)%Z.
Proof. destruct a, b; cbn [hmul]; rewrite ?pmulx_ok; reflexivity. Qed.
