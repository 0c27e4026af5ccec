(** * [core::str::from_utf8] validity (Unicode 15, table 3-7), and hexadecimal formatting. *)
From Verif Require Import Base.Bytes.
Local Open Scope N_scope.

Definition in_range (lo hi : N) (b : byte) : bool := (lo <=? b2n b) && (b2n b <=? hi).

Fixpoint utf8_valid (l : bytes) : bool :=
  match l with
  | [] => true
  | b0 :: r0 =>
    if b2n b0 <? 0x80 then utf8_valid r0
    else if in_range 0xC2 0xDF b0 then
      match r0 with
      | b1 :: r1 => in_range 0x80 0xBF b1 && utf8_valid r1
      | _ => false
      end
    else if in_range 0xE0 0xEF b0 then
      match r0 with
      | b1 :: b2 :: r2 =>
        (if b2n b0 =? 0xE0 then in_range 0xA0 0xBF b1
         else if b2n b0 =? 0xED then in_range 0x80 0x9F b1
         else in_range 0x80 0xBF b1)
        && in_range 0x80 0xBF b2 && utf8_valid r2
      | _ => false
      end
    else if in_range 0xF0 0xF4 b0 then
      match r0 with
      | b1 :: b2 :: b3 :: r3 =>
        (if b2n b0 =? 0xF0 then in_range 0x90 0xBF b1
         else if b2n b0 =? 0xF4 then in_range 0x80 0x8F b1
         else in_range 0x80 0xBF b1)
        && in_range 0x80 0xBF b2 && in_range 0x80 0xBF b3 && utf8_valid r3
      | _ => false
      end
    else false
  end.

Lemma utf8_ascii l : forallb (fun b => b2n b <? 0x80) l = true -> utf8_valid l = true.
Proof.
  induction l as [|b l IH]; cbn [forallb utf8_valid]; [reflexivity|].
  intros H. apply andb_true_iff in H. destruct H as [H1 H2]. rewrite H1. now apply IH.
Qed.

(** One lower-case hexadecimal digit. *)
Definition hex_digit (n : N) : byte := n2b (if n <? 10 then 48 + n else 87 + n).

(** The format directive [{:x}] on a [u8]: lower case, no leading zero. *)
Definition lower_hex (b : byte) : bytes :=
  let n := b2n b in
  if n <? 16 then [hex_digit n] else [hex_digit (n / 16); hex_digit (n mod 16)].
