(** * The base point and the SPAKE2 constants M, N, S on edwards25519, and their order. *)
From Coq Require Import ZArith Znumtheory NArith Lia Bool List.
From Verif.Base Require Import Bytes Hex.
From Verif.Curve Require Import NumTheory Primes Zmod Edwards Abelian Ed25519 Ed25519Fast.
Import ListNotations.
Local Open Scope Z_scope.

Definition Bx : Z := 15112221349535400772501151409588531511454012693041857206046113283949847762202.
Definition By : Z := 46316835694926478169428394003475163141307993866256225615783033603165251855960.
Lemma B_on : eonb (fof Bx) (fof By) = true. Proof. vm_compute. reflexivity. Qed.
(** The Ed25519 base point: y = 4/5, x even (RFC 8032 section 5.1);
    curve25519-dalek's [ED25519_BASEPOINT_POINT]. *)
Definition ed_B : epoint := ept (fof Bx) (fof By) B_on.

Lemma ell_B : emul ell ed_B = ezero.
Proof.
  apply (torsion_check ell Bx By ed_B); [discriminate|reflexivity|reflexivity|].
  vm_cast_no_check (eq_refl true).
Qed.

Lemma B_encoding : compress ed_B = hex "5866666666666666666666666666666666666666666666666666666666666666".
Proof. vm_compute. reflexivity. Qed.

(** The 32 bytes written in spake2/src/ed25519.rs:23-33 ([const_m]). *)
Definition M_bytes : bytes := hex "15cfd18e385952982b6a8f8c7854963b58e34388c8e6dae891db756481a02312".
Definition Mx : Z := 56797357330922913988458593931122727936228661521514257091994679493501599747208.
Definition My : Z := 8204578689594358005372171711129318668375319275647443160930343040183052652309.
Lemma M_on : eonb (fof Mx) (fof My) = true. Proof. vm_compute. reflexivity. Qed.
(** The point those bytes decompress to. *)
Definition ed_M : epoint := ept (fof Mx) (fof My) M_on.

Lemma M_encoding : compress ed_M = M_bytes.
Proof. vm_compute. reflexivity. Qed.

(** The [unwrap] in [const_m] never panics. *)
Lemma M_decompress : decompress M_bytes = Some ed_M.
Proof. rewrite <- M_encoding. apply decompress_compress. Qed.

Lemma ell_M : emul ell ed_M = ezero.
Proof.
  apply (torsion_check ell Mx My ed_M); [discriminate|reflexivity|reflexivity|].
  vm_cast_no_check (eq_refl true).
Qed.

(** The 32 bytes written in spake2/src/ed25519.rs:35-45 ([const_n]). *)
Definition N_bytes : bytes := hex "f04f2e7eb734b2a8f8b472eaf9c3c632576ac64aea650b496a8a20ff00e583c3".
Definition Nx : Z := 19859997596809371560572533813761263760519810596029049894518304267365992636715.
Definition Ny : Z := 30537998347346252243850043725805156294608304431216408003238882613177304895472.
Lemma N_on : eonb (fof Nx) (fof Ny) = true. Proof. vm_compute. reflexivity. Qed.
(** The point those bytes decompress to. *)
Definition ed_N : epoint := ept (fof Nx) (fof Ny) N_on.

Lemma N_encoding : compress ed_N = N_bytes.
Proof. vm_compute. reflexivity. Qed.

(** The [unwrap] in [const_n] never panics. *)
Lemma N_decompress : decompress N_bytes = Some ed_N.
Proof. rewrite <- N_encoding. apply decompress_compress. Qed.

Lemma ell_N : emul ell ed_N = ezero.
Proof.
  apply (torsion_check ell Nx Ny ed_N); [discriminate|reflexivity|reflexivity|].
  vm_cast_no_check (eq_refl true).
Qed.

(** The 32 bytes written in spake2/src/ed25519.rs:47-57 ([const_s]). *)
Definition S_bytes : bytes := hex "6f00dae87c1be1a73b5922ef431cd8f57879569c222d22b1cd71e8546ab8e6f1".
Definition Sx : Z := 39117479951501417523307395387645076206310007454599558501990001730569162809603.
Definition Sy : Z := 51518999502832141103326086221524057635361811362657814462420774639771850506351.
Lemma S_on : eonb (fof Sx) (fof Sy) = true. Proof. vm_compute. reflexivity. Qed.
(** The point those bytes decompress to. *)
Definition ed_S : epoint := ept (fof Sx) (fof Sy) S_on.

Lemma S_encoding : compress ed_S = S_bytes.
Proof. vm_compute. reflexivity. Qed.

(** The [unwrap] in [const_s] never panics. *)
Lemma S_decompress : decompress S_bytes = Some ed_S.
Proof. rewrite <- S_encoding. apply decompress_compress. Qed.

Lemma ell_S : emul ell ed_S = ezero.
Proof.
  apply (torsion_check ell Sx Sy ed_S); [discriminate|reflexivity|reflexivity|].
  vm_cast_no_check (eq_refl true).
Qed.

Lemma ed_B_nonzero : ed_B <> ezero.
Proof. intros E. apply (f_equal (fun P => fval (ex P))) in E. vm_compute in E. discriminate. Qed.
Lemma ed_M_nonzero : ed_M <> ezero.
Proof. intros E. apply (f_equal (fun P => fval (ex P))) in E. vm_compute in E. discriminate. Qed.
Lemma ed_N_nonzero : ed_N <> ezero.
Proof. intros E. apply (f_equal (fun P => fval (ex P))) in E. vm_compute in E. discriminate. Qed.
Lemma ed_S_nonzero : ed_S <> ezero.
Proof. intros E. apply (f_equal (fun P => fval (ex P))) in E. vm_compute in E. discriminate. Qed.
