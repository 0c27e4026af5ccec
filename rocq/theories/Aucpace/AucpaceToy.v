(** * A small instance to compute with: the integers modulo the group order, an arithmetic digest and
    password hasher.  Used only for the cases beside the theorems. *)
From Coq Require Import ZArith.
From Verif Require Import Base.Bytes Base.Outcome Base.Rng.
From Verif Require Import Curve.Scalar25519 Aucpace.RistrettoGroup Aucpace.PwHash Aucpace.AucpaceModel
  Aucpace.AucpaceRun Aucpace.AucpaceDb.
Local Open Scope nat_scope.

Definition toyD (m : bytes) : bytes :=
  let v := ((le_val m * 48271 + N.of_nat (length m)) mod (2 ^ 127 - 1))%N in le_bytes 64 (v * v * v).
Lemma toyD_length m : length (toyD m) = 64.
Proof. apply le_bytes_length. Qed.

(** Parameters are a parameter string. *)
Definition toy_params_try_into (p : bytes) : outcome pherror bytes := params_parse p.
Definition toy_params_of (p : bytes) : res bytes := Ok p.
Definition toy_params : bytes := str "ln=15,r=8,p=1".
Definition toy_hash : hasher bytes := fun input params salt =>
  Ok (Some (le_bytes 32 (le_val (salt ++ params ++ input) mod 65521))).

(** Generators: small scalars and nonces. *)
Definition toy_tape (a b : N) : bytes := le_bytes 64 a ++ le_bytes 64 b.
Definition toy_client : AuCPaceClient tape_rng := client_new tape_rng (toy_tape 1001 1002).
Definition toy_server : AuCPaceServer tape_rng := server_new tape_rng (toy_tape 70707 2003).
Definition alice := str "alice".
Definition secret := str "correct horse".
Definition wrong := str "correct house".
Definition channel := str "10.0.0.1:25519".

Definition empty_db {V K} : adb V K := {| a_verifiers := []; a_keys := [] |}.

(** A registration and the database after it. *)
Definition toy_reg (m : buf_mode) :=
  do_register ToyGroup bytes toy_params_try_into m tape_rng toy_client alice secret toy_params toy_hash.
Definition toy_db : db (AssocDb ToyGroup) :=
  match fst (toy_reg AllocBuf) with
  | Ok (CRegistration u salt ps W) => store_verifier (AssocDb ToyGroup) empty_db u salt None W ps
  | _ => empty_db
  end.
Definition toy_reg_strong (m : buf_mode) :=
  do_register_strong ToyGroup toyD bytes toy_params_try_into m tape_rng toy_client alice secret toy_params toy_hash.
Definition toy_sdb : sdb (AssocStrongDb ToyGroup) :=
  match fst (toy_reg_strong AllocBuf) with
  | Ok (CStrongRegistration u q ps W) => store_verifier_strong (AssocStrongDb ToyGroup) empty_db u None W q ps
  | _ => empty_db
  end.

(** Logins. *)
Definition toy_login (am : auth_mode) (sm : ssid_mode) (m : buf_mode) (pass : bytes) :=
  run_login ToyGroup toyD bytes toy_params_of am tape_rng tape_rng sm m toy_client toy_server
    (fun sess u => generate_client_info ToyGroup toyD (AssocDb ToyGroup) tape_rng sess u toy_db
                     (toy_tape 3001 3002)) alice pass toy_hash channel (toy_tape 4001 4002).
Definition toy_login_strong (am : auth_mode) (sm : ssid_mode) (m : buf_mode) (pass : bytes) :=
  run_login_strong ToyGroup toyD bytes toy_params_of am tape_rng tape_rng sm m toy_client toy_server
    (fun sess u U => generate_client_info_strong ToyGroup toyD (AssocStrongDb ToyGroup) tape_rng sess u U toy_sdb
                     (toy_tape 3001 3002)) 3 alice pass toy_hash channel (toy_tape 0 5002) (toy_tape 4001 4002).

Definition is_ok {E A} (o : outcome E A) : bool := match o with Ok _ => true | _ => false end.
(** both parties have the same key of 64 bytes *)
Definition agreed (o : res (bytes * bytes)) : bool :=
  match o with Ok (a, b) => bytes_eqb a b && Nat.eqb (length a) 64 | _ => false end.
Definition auth_failed {A} (o : res A) : bool := match o with Err MutualAuthFail => true | _ => false end.
Definition illegal_point {A} (o : res A) : bool := match o with Err IllegalPointError => true | _ => false end.
