(** * Executable form of the SPAKE2 specification, for known-answer tests.

    The functions below compute on extended coordinates with integers and are proved equal to the
    specification; the model is proved equal to the specification in Spake2Proofs.v. *)
From Coq Require Import ZArith Lia.
From Verif Require Import Base.Bytes Base.Outcome Base.Rng Hash.Hash.
From Verif Require Import Curve.Primes Curve.Zmod Curve.Abelian Curve.Ed25519 Curve.Ed25519Fast
  Curve.Ed25519Points.
From Verif Require Import Spake2.Spake2Model Spake2.Ed25519Group Spake2.Spake2Spec Spake2.Spake2Generic
  Spake2.Spake2Proofs.
Local Open Scope Z_scope.

Definition blind_ext (r : role) : ext :=
  match r with RoleA => ext_of Mx My | RoleB => ext_of Nx Ny | RoleS => ext_of Sx Sy end.

Lemma blind_ext_ok r : erep (blind_ext r) (blind r).
Proof.
  destruct r; cbn [blind_ext blind].
  - exact (ext_of_ok ed_M).
  - exact (ext_of_ok ed_N).
  - exact (ext_of_ok ed_S).
Qed.

Definition fast_msg (r : role) (pw : bytes) (x : Z) : bytes :=
  ext_compress (ext_addp (ext_smul x (ext_of Bx By)) (ext_smul (pw_int pw) (blind_ext r))).

Lemma fast_msg_ok r pw x : 0 <= x -> fast_msg r pw x = compress (msg_point r pw x).
Proof.
  intros Hx. apply ext_compress_ok, ext_addp_ok; apply ext_smul_ok.
  - exact Hx.
  - exact (ext_of_ok ed_B).
  - apply pw_int_range.
  - apply blind_ext_ok.
Qed.

(** -pw*N is computed as (l - pw)*N. *)
Definition fast_shared (r : role) (pw : bytes) (x : Z) (xy : Z * Z) : bytes :=
  ext_compress (ext_smul x (ext_addp (xy_ext xy) (ext_smul (ell - pw_int pw) (blind_ext (peer r))))).

Lemma fast_shared_ok r pw x P :
  0 <= x -> fast_shared r pw x (fval (ex P), fval (ey P)) = compress (shared r pw x P).
Proof.
  intros Hx. apply ext_compress_ok, ext_smul_ok; [exact Hx|].
  apply ext_addp_ok; [apply xy_ext_ok|].
  replace (eopp (emul (pw_int pw) (blind (peer r)))) with (emul (ell - pw_int pw) (blind (peer r))).
  - apply ext_smul_ok; [|apply blind_ext_ok]. pose proof (pw_int_range pw). lia.
  - unfold Z.sub. rewrite emul_add_scalar, ell_blind, emul_neg. apply (ab_zero _ _ _ _ ed_laws).
Qed.

Definition fast_finish (sd : Side) (pw : bytes) (x : Z) (msg2 : bytes) : res bytes :=
  if Nat.eqb (length msg2) 33 then
    match msg2 with
    | t :: rest =>
      if byte_eqb t (tag (peer (role_of sd))) then
        match rdecompress rest with
        | Some xy =>
          let mine := fast_msg (role_of sd) pw x in
          let K := fast_shared (role_of sd) pw x xy in
          Ok (sha256 match sd with
              | SideA a b => sha256 pw ++ sha256 a ++ sha256 b ++ mine ++ rest ++ K
              | SideB a b => sha256 pw ++ sha256 a ++ sha256 b ++ rest ++ mine ++ K
              | SideSymmetric i => sha256 pw ++ sha256 i ++ sorted mine rest ++ K
              end)
        | None => Err CorruptMessage
        end
      else Err BadSide
    | [] => Err WrongLength
    end
  else Err WrongLength.

Lemma fast_finish_ok sd pw (x : scalar) msg2 :
  fast_finish sd pw (sval x) msg2 = finish Ed25519Group (session sd pw x) msg2.
Proof.
  rewrite finish_ok. unfold fast_finish, finish_spec.
  destruct (Nat.eqb _ _); [|reflexivity]. destruct msg2 as [|t rest]; [reflexivity|].
  destruct (byte_eqb _ _); [|reflexivity]. rewrite rdecompress_ok.
  destruct (decompress rest) as [P|]; [|reflexivity]. cbn [option_map]. cbv zeta.
  pose proof (sval_range x) as R.
  rewrite fast_msg_ok, fast_shared_ok by apply R. destruct sd; reflexivity.
Qed.

Lemma some_not_none {A} (a : A) : Some a = None -> False.
Proof. discriminate. Qed.

(** A decision procedure for [decodable] that computes. *)
Lemma not_decodable b : rdecompress b = None -> ~ decodable b.
Proof.
  rewrite rdecompress_ok. intros H D. apply decompress_decodable in D. destruct D as [P HP].
  rewrite HP in H. cbn [option_map] in H. exact (some_not_none _ H).
Qed.
