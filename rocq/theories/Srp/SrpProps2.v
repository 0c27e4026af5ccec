(** * SRP: the generators, and what the public keys say (C67). *)
From Coq Require Import Znumtheory.
From Verif Require Import Base.Bytes Base.Outcome Base.BigUint Base.Hex Base.Kat Hash.Hash.
From Verif Require Import Srp.SrpModel Srp.SrpSpec Srp.SrpProofs Srp.SrpGroups Srp.SrpRfcGroups.
From Verif Require Import Srp.SrpGroupProofs Srp.SrpExamples Srp.SrpGenerator.
Local Open Scope N_scope.

(** C67.  [generates n g]: the powers of [g] are all the non-zero residues modulo [n], each taken by
    exactly one exponent below [n - 1].

    Partial: that the seven moduli are safe primes is a hypothesis (no primality certificate of these
    sizes is checked here). *)
Theorem C67_builtin_generators_partial :
  forall grp bits n g, In (grp, (bits, n, g)) builtin -> safe_prime n ->
  generates (sg_n grp) (sg_g grp).
Proof. exact builtin_generates. Qed.
Print Assumptions C67_builtin_generators_partial.

(** Every non-zero residue is the public key of a client. *)
Theorem C67_client_public_onto :
  forall grp y lA, generates (sg_n grp) (sg_g grp) -> 0 < y < sg_n grp -> minimal_be y lA ->
  exists a, client_public grp a = Ok lA.
Proof. exact client_public_onto. Qed.
Print Assumptions C67_client_public_onto.

(** Whatever the verifier, every residue but one is a public key of the server: the public key rules
    out the verifiers with [k * v = B] and no other. *)
Theorem C67_server_public_onto :
  forall (D : bytes -> bytes) grp v B lB ln lg,
  usable_group (sg_n grp) (sg_g grp) -> 1 < sg_n grp -> N.gcd (sg_g grp) (sg_n grp) = 1 ->
  generates (sg_n grp) (sg_g grp) ->
  minimal_be (sg_n grp) ln -> minimal_be (sg_g grp) lg -> B < sg_n grp -> minimal_be B lB ->
  ((exists b, server_public D grp b v = Ok lB) <-> B <> (rfc_k D ln lg * be_val v) mod sg_n grp).
Proof. exact server_public_onto. Qed.
Print Assumptions C67_server_public_onto.

(** And distinct exponents below [n - 1] give distinct public keys. *)
Theorem C67_publics_injective :
  forall (D : bytes -> bytes) grp a a',
  usable_group (sg_n grp) (sg_g grp) -> 1 < sg_n grp -> N.gcd (sg_g grp) (sg_n grp) = 1 ->
  generates (sg_n grp) (sg_g grp) ->
  be_val a < sg_n grp - 1 -> be_val a' < sg_n grp - 1 ->
  (client_public grp a = client_public grp a' -> be_val a = be_val a') /\
  (forall v, server_public D grp a v = server_public D grp a' v -> be_val a = be_val a').
Proof. exact publics_injective. Qed.
Print Assumptions C67_publics_injective.

(** The group is any pair of numbers and nothing checks it.  When [g] is a square, the public key of
    the server rules out every verifier that fails an equation any eavesdropper can evaluate. *)
Theorem C67_square_generator_leaks :
  forall (D : bytes -> bytes) grp b v B ln lg t,
  prime (Z.of_N (sg_n grp)) -> N.odd (sg_n grp) = true ->
  sg_g grp mod sg_n grp = t * t mod sg_n grp -> t mod sg_n grp <> 0 ->
  minimal_be (sg_n grp) ln -> minimal_be (sg_g grp) lg ->
  server_public D grp b v = Ok B ->
  ((Z.of_N (be_val B) - Z.of_N (rfc_k D ln lg) * Z.of_N (be_val v)) ^ ((Z.of_N (sg_n grp) - 1) / 2)
     mod Z.of_N (sg_n grp) = 1)%Z.
Proof. exact square_generator_leaks. Qed.
Print Assumptions C67_square_generator_leaks.

(** The 16-bit group of the other cases is a safe prime with a generator. *)
Example C67_case : safe_prime (sg_n grp16) /\ generates (sg_n grp16) (sg_g grp16) /\
  usable_group (sg_n grp16) (sg_g grp16) /\ N.gcd (sg_g grp16) (sg_n grp16) = 1.
Proof.
  split; [exact grp16_safe|]. split; [exact grp16_generates|]. split; [exact grp16_usable|reflexivity].
Qed.

(** With [g = 4] modulo the same prime, the public key of a server with the verifier of "password123"
    shows that the password is none of the five below. *)
Definition grp16_square : SrpGroup := {| sg_n := 65267; sg_g := 4 |}.

Definition wrong_guess (pw : bytes) : bool :=
  match compute_verifier sha256 grp16_square alice password123 salt0,
        compute_verifier sha256 grp16_square alice pw salt0, compute_k sha256 grp16_square with
  | Ok v, Ok w, Ok k =>
    match server_public sha256 grp16_square b0 v with
    | Ok B => negb (pow_mod ((be_val B + k * (65267 - be_val w)) mod 65267) 32633 65267 =? 1)
    | _ => false
    end
  | _, _, _ => false
  end.

Check (test (map wrong_guess [str "password123"; str "0"; str "2"; str "6"; str "7"; str "9"])
            [false; true; true; true; true; true]).

Example C67_case_square :
  prime (Z.of_N (sg_n grp16_square)) /\ N.odd (sg_n grp16_square) = true /\
  sg_g grp16_square mod sg_n grp16_square = 2 * 2 mod sg_n grp16_square /\
  2 mod sg_n grp16_square <> 0.
Proof.
  split; [exact (proj1 grp16_safe)|]. split; [reflexivity|]. split; [reflexivity|]. vm_compute. discriminate.
Qed.
