(** * Hexadecimal literals for test vectors and constants. *)
From Verif Require Import Base.Bytes.

Definition nibble (b : byte) : option N :=
  let n := b2n b in
  if (48 <=? n)%N && (n <=? 57)%N then Some (n - 48)%N
  else if (97 <=? n)%N && (n <=? 102)%N then Some (n - 87)%N
  else if (65 <=? n)%N && (n <=? 70)%N then Some (n - 55)%N
  else None.

(** Characters that are not hexadecimal digits (spaces) are skipped. *)
Fixpoint hex_go (pending : option N) (l : bytes) : bytes :=
  match l with
  | [] => []
  | b :: t =>
    match nibble b with
    | None => hex_go pending t
    | Some d =>
      match pending with
      | None => hex_go (Some d) t
      | Some h => n2b (16 * h + d)%N :: hex_go None t
      end
    end
  end.

Definition hex (s : String.string) : bytes := hex_go None (str s).
Arguments hex s%string_scope.
