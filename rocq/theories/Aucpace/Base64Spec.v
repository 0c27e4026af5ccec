(** * Base64 without padding, after RFC 4648, section 4 (C80).  Independent of the model. *)
From Verif Require Import Base.Bytes.
Local Open Scope N_scope.

Definition alphabet : bytes := str "ABCDEFGHIJKLMNOPQRSTUVWXYZabcdefghijklmnopqrstuvwxyz0123456789+/".

(** The low [w] bits of [n], the most significant one first. *)
Fixpoint bits (w : nat) (n : N) : list bool :=
  match w with
  | O => []
  | S w' => bits w' (n / 2) ++ [N.odd n]
  end.

(** The characters stand for groups of six bits; the groups spell out the bits of the input, followed by
    fewer than six zeros. *)
Definition is_base64 (input out : bytes) : Prop :=
  exists (groups : list N) (z : nat), (z < 6)%nat /\ Forall (fun d => d < 64) groups /\
    out = map (fun d => nth (N.to_nat d) alphabet x00) groups /\
    concat (map (bits 6) groups) = concat (map (fun c => bits 8 (b2n c)) input) ++ repeat false z.
