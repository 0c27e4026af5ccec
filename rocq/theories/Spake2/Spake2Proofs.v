(** * Proofs about SPAKE2 over edwards25519. *)
From Coq Require Import ZArith Znumtheory Lia.
From Verif Require Import Base.Bytes Base.Outcome Base.Rng Base.Utf8 Hash.Hash.
From Verif Require Import Curve.Primes Curve.Zmod Curve.Abelian Curve.Ed25519 Curve.Ed25519Points
  Curve.Ed25519Subgroup.
From Verif Require Import Spake2.Spake2Model Spake2.Ed25519Group Spake2.Spake2Spec Spake2.Spake2Generic.
Local Open Scope Z_scope.

(** ** Scalars *)

(** ** The password scalar *)

Lemma hmac_empty_key m : hmac sha256 64 [] m = hmac_sha256 (repeat x00 32) m.
Proof.
  unfold hmac_sha256, hmac. cbv zeta.
  replace (Nat.ltb 64 (length (@nil byte))) with false by reflexivity.
  replace (Nat.ltb 64 (length (repeat x00 32))) with false by reflexivity.
  replace (repeat x00 32 ++ repeat x00 (64 - length (repeat x00 32)))
    with ([] ++ repeat x00 (64 - length (@nil byte))) by reflexivity.
  generalize ([] ++ repeat x00 (64 - length (@nil byte))). reflexivity.
Qed.

Lemma pw_okm_hkdf pw :
  hkdf_expand sha256 64 32 (hkdf_extract sha256 64 [] pw) (str "SPAKE2 pw") 48 = Some (pw_okm pw).
Proof.
  unfold hkdf_extract. rewrite hmac_empty_key. unfold pw_okm, hkdf_expand, hmac_sha256.
  replace (Nat.ltb (255 * 32) 48) with false by reflexivity.
  replace (Nat.div (48 + 32 - 1) 32) with 2%nat by reflexivity.
  cbn [hkdf_t]. cbv zeta.
  pose proof (fun k m => hmac_length sha256 64 32 k m sha256_length) as L.
  revert L. generalize (hmac sha256 64). intros h L.
  rewrite !app_nil_r. cbn [app].
  replace (n2b 1) with x01 by reflexivity. replace (n2b (1 + 1)) with x02 by reflexivity.
  f_equal. rewrite firstn_app, L. replace (48 - 32)%nat with 16%nat by reflexivity.
  f_equal. apply firstn_all2. rewrite L. lia.
Qed.

Lemma pw_okm_length pw : length (pw_okm pw) = 48%nat.
Proof.
  eapply hkdf_expand_length; [apply sha256_length| |apply pw_okm_hkdf]. lia.
Qed.

Lemma le_val_zeros n : le_val (repeat x00 n) = 0%N.
Proof. induction n as [|n IH]; [reflexivity|]. cbn [repeat le_val]. rewrite IH. reflexivity. Qed.

Lemma reducible_val okm : length okm = 48%nat -> le_val (reducible okm) = be_val okm.
Proof.
  intros L. unfold reducible. rewrite firstn_all2 by lia.
  rewrite le_val_app, le_val_zeros, le_val_rev. lia.
Qed.

Lemma hash_to_scalar_ok pw : ed25519_hash_to_scalar pw = Ok (sof (pw_int pw)).
Proof.
  unfold ed25519_hash_to_scalar. rewrite pw_okm_hkdf. unfold scalar_wide.
  rewrite reducible_val by apply pw_okm_length. f_equal.
  apply zmod_ext. unfold pw_int, sof. rewrite !val_of_Z, Zmod_mod. reflexivity.
Qed.

Lemma pw_int_range pw : 0 <= pw_int pw < ell.
Proof. apply Z.mod_pos_bound. pose proof ell_gt_1. lia. Qed.

Lemma sval_pw pw : sval (sof (pw_int pw)) = pw_int pw.
Proof. rewrite sval_sof. apply Z.mod_small, pw_int_range. Qed.

(** ** Group facts in the form the model uses *)

Lemma emul_mod n P : emul ell P = ezero -> emul (n mod ell) P = emul n P.
Proof. apply (smul_mod _ _ _ _ ed_laws). Qed.

Lemma emul_neg_scalar s P : emul ell P = ezero -> emul (sval (zopp ell ell_gt_1 s)) P = eopp (emul (sval s) P).
Proof.
  intros HP. unfold zopp, sval. rewrite val_of_Z, emul_mod by exact HP.
  apply (smul_neg _ _ _ _ ed_laws).
Qed.

Lemma emul_comm i j P : emul i (emul j P) = emul j (emul i P).
Proof. apply (smul_comm _ _ _ _ ed_laws). Qed.
Lemma emul_add_scalar i j P : emul (i + j) P = eadd (emul i P) (emul j P).
Proof. apply (smul_add _ _ _ _ ed_laws). Qed.
Lemma emul_mul_scalar i j P : emul (i * j) P = emul i (emul j P).
Proof. apply (smul_mul _ _ _ _ ed_laws). Qed.
Lemma emul_eadd i P Q : emul i (eadd P Q) = eadd (emul i P) (emul i Q).
Proof. apply (smul_op _ _ _ _ ed_laws). Qed.
Lemma emul_opp i P : emul i (eopp P) = eopp (emul i P).
Proof. apply (smul_opp _ _ _ _ ed_laws). Qed.
Lemma emul_neg i P : emul (- i) P = eopp (emul i P).
Proof. apply (smul_neg _ _ _ _ ed_laws). Qed.
Lemma emul_zero i : emul i ezero = ezero.
Proof. apply (smul_zero _ _ _ _ ed_laws). Qed.
Lemma eadd_comm P Q : eadd P Q = eadd Q P.
Proof. apply (ab_comm _ _ _ _ ed_laws). Qed.
Lemma eadd_assoc P Q R : eadd P (eadd Q R) = eadd (eadd P Q) R.
Proof. apply (ab_assoc _ _ _ _ ed_laws). Qed.
Lemma eadd_0_r P : eadd P ezero = P.
Proof. apply (zero_r _ _ _ _ ed_laws). Qed.
Lemma eadd_opp_r P : eadd P (eopp P) = ezero.
Proof. apply (opp_r _ _ _ _ ed_laws). Qed.
Lemma eadd_cancel P Q : eadd (eadd P Q) (eopp Q) = P.
Proof. now rewrite <- eadd_assoc, eadd_opp_r, eadd_0_r. Qed.

Lemma ell_blind r : emul ell (blind r) = ezero.
Proof. destruct r; [apply ell_M|apply ell_N|apply ell_S]. Qed.

Lemma const_m_ok : decompress_unwrap M_bytes = Ok ed_M.
Proof. unfold decompress_unwrap. now rewrite M_decompress. Qed.
Lemma const_n_ok : decompress_unwrap N_bytes = Ok ed_N.
Proof. unfold decompress_unwrap. now rewrite N_decompress. Qed.
Lemma const_s_ok : decompress_unwrap S_bytes = Ok ed_S.
Proof. unfold decompress_unwrap. now rewrite S_decompress. Qed.

Lemma ed_roundtrip P : ed_bytes_to_element (compress P) = Some P.
Proof. unfold ed_bytes_to_element. rewrite compress_length. apply decompress_compress. Qed.

Lemma ed_group_laws :
  group_laws Ed25519Group ed_M ed_N ed_S ed_B (fun p => sof (pw_int p)).
Proof.
  split; cbn [Ed25519Group const_m const_n const_s hash_to_scalar basepoint_mult scalarmult g_add
              scalar_neg element_to_bytes bytes_to_element element_length Scalar Element].
  - exact const_m_ok.
  - exact const_n_ok.
  - exact const_s_ok.
  - exact hash_to_scalar_ok.
  - reflexivity.
  - intros. apply emul_comm.
  - intros. rewrite emul_neg_scalar by apply ell_M. apply eadd_cancel.
  - intros. rewrite emul_neg_scalar by apply ell_N. apply eadd_cancel.
  - intros. rewrite emul_neg_scalar by apply ell_S. apply eadd_cancel.
  - exact ed_roundtrip.
  - exact compress_length.
Qed.

(** ** The start functions *)

(** [s] is the state a start function leaves for this side, password and scalar. *)
Definition session (sd : Side) (pw : bytes) (x : scalar) : Spake2 Ed25519Group :=
  Build_Spake2 Ed25519Group sd x pw (compress (msg_point (role_of sd) pw (sval x))) (sof (pw_int pw)).

Lemma start_ok sd pw x :
  start_internal Ed25519Group sd pw x =
  Ok (session sd pw x, tag (role_of sd) :: compress (msg_point (role_of sd) pw (sval x))).
Proof.
  unfold start_internal, session, msg_point.
  cbn [Ed25519Group const_m const_n const_s hash_to_scalar basepoint_mult scalarmult g_add
       scalar_neg element_to_bytes bytes_to_element element_length Scalar Element].
  rewrite hash_to_scalar_ok, const_m_ok, const_n_ok, const_s_ok. cbn [obind].
  destruct sd; cbn [obind role_of tag blind]; rewrite sval_pw; reflexivity.
Qed.

(** ** finish *)

Lemma decompress_decodable b : (exists P, decompress b = Some P) <-> decodable b.
Proof.
  split.
  - intros [P H]. exists P. now apply decompress_some in H.
  - intros [P H]. now apply (decompress_defined b P).
Qed.

Definition finish_spec (sd : Side) (pw : bytes) (x : scalar) (msg2 : bytes) : res bytes :=
  if Nat.eqb (length msg2) 33 then
    match msg2 with
    | t :: rest =>
      if byte_eqb t (tag (peer (role_of sd))) then
        match decompress rest with
        | Some P =>
          Ok (sha256 (transcript sd pw (compress (msg_point (role_of sd) pw (sval x))) rest
                        (shared (role_of sd) pw (sval x) P)))
        | None => Err CorruptMessage
        end
      else Err BadSide
    | [] => Err WrongLength
    end
  else Err WrongLength.

Lemma finish_ok sd pw x msg2 :
  finish Ed25519Group (session sd pw x) msg2 = finish_spec sd pw x msg2.
Proof.
  unfold finish, finish_spec.
  cbn [session side xy_scalar password_vec msg1 password_scalar].
  replace (1 + element_length Ed25519Group)%nat with 33%nat by reflexivity.
  destruct (Nat.eqb_spec (length msg2) 33) as [HL|HL]; [|reflexivity]. cbn [negb].
  destruct msg2 as [|t rest]; [discriminate|]. injection HL as HL.
  assert (T : match sd with SideA _ _ => x42 | SideB _ _ => x41 | SideSymmetric _ => x53 end =
              tag (peer (role_of sd))) by (destruct sd; reflexivity).
  rewrite T. destruct (byte_eqb t (tag (peer (role_of sd)))) eqn:ET; [|reflexivity]. cbn [negb].
  cbn [Ed25519Group const_m const_n const_s hash_to_scalar basepoint_mult scalarmult g_add
       scalar_neg element_to_bytes bytes_to_element element_length Scalar Element].
  unfold ed_bytes_to_element. rewrite HL. cbn [Nat.eqb negb].
  destruct (decompress rest) as [P|] eqn:EP; [|reflexivity].
  rewrite const_m_ok, const_n_ok, const_s_ok.
  unfold shared.
  destruct sd; cbn [lift obind role_of peer blind transcript].
  - rewrite (emul_neg_scalar _ ed_N ell_N), sval_pw.
    now rewrite hash_ab_ok by (apply compress_length || exact HL).
  - rewrite (emul_neg_scalar _ ed_M ell_M), sval_pw.
    now rewrite hash_ab_ok by (apply compress_length || exact HL).
  - rewrite (emul_neg_scalar _ ed_S ell_S), sval_pw.
    unfold sorted. now rewrite hash_symmetric_ok by (apply compress_length || exact HL).
Qed.
