(** * The strings of the PHC format: salts and parameter strings, as its specification and the documentation of
    the password-hash crate describe them.  Written without the model's functions. *)
From Coq Require Import List.
From Verif Require Import Base.Bytes.
Import ListNotations.

(** Names: [a-z0-9-], values and salts: [a-zA-Z0-9/+.-]. *)
Definition name_alphabet : bytes := str "abcdefghijklmnopqrstuvwxyz0123456789-".
Definition value_alphabet : bytes := str "abcdefghijklmnopqrstuvwxyzABCDEFGHIJKLMNOPQRSTUVWXYZ0123456789/+.-".
Definition over (alphabet s : bytes) : Prop := forall c, In c s -> In c alphabet.

(** A salt has 4 to 64 characters. *)
Definition phc_salt (s : bytes) : Prop := 4 <= length s <= 64 /\ over value_alphabet s.

(** Parameters are pairs separated by commas, at most 127 characters in all; a name has 1 to 32 characters and
    a value at most 64. *)
Inductive phc_pairs : bytes -> Prop :=
| pp_one n v : 1 <= length n <= 32 -> over name_alphabet n -> length v <= 64 -> over value_alphabet v ->
    phc_pairs (n ++ str "=" ++ v)
| pp_more n v s : 1 <= length n <= 32 -> over name_alphabet n -> length v <= 64 -> over value_alphabet v ->
    phc_pairs s -> phc_pairs ((n ++ str "=" ++ v) ++ str "," ++ s).
Definition phc_params (s : bytes) : Prop := length s <= 127 /\ (s = [] \/ phc_pairs s).
