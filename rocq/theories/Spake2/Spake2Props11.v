(** * SPAKE2 in terms of RFC 8032: the messages and keys computed with the RFC's procedures on integers, HKDF
    of RFC 5869 and SHA-256 of FIPS 180-4 (C94).

    [Rfc] (Curve/Rfc.v) has the procedures as RFC 8032 prints them; it shares no definition with the curve
    of the model. *)
From Coq Require Import ZArith Lia.
From Verif Require Import Base.Bytes Base.Outcome Base.Rng Base.Hex Base.Kat Hash.Hash Hash.Fips180 Hash.Fips180Proofs Hash.HashProps.
From Verif.Curve Require Import Primes Zmod Edwards Abelian Scalar25519 Ed25519 Ed25519Points Ristretto RfcProofs.
From Verif.Curve Require Rfc.
From Verif Require Import Spake2.Spake2Model Spake2.Ed25519Group Spake2.Spake2Spec Spake2.Spake2Proofs
  Spake2.Spake2Generic Spake2.Spake2Proofs2 Spake2.Spake2Props Spake2.Spake2Props2 Spake2.Spake2Props10.
Local Open Scope nat_scope.
Local Notation E := Ed25519Group.

(** ** The protocol, written with the standards alone *)
Definition negated (t : Rfc.ext) : Rfc.ext := let '(X, Y, Z, T) := t in (Rfc.NEG X, Y, Z, Rfc.NEG T).
(** M, N and S as encoded points *)
Definition std_constant (r : role) : bytes :=
  match r with
  | RoleA => hex "15cfd18e385952982b6a8f8c7854963b58e34388c8e6dae891db756481a02312"
  | RoleB => hex "f04f2e7eb734b2a8f8b472eaf9c3c632576ac64aea650b496a8a20ff00e583c3"
  | RoleS => hex "6f00dae87c1be1a73b5922ef431cd8f57879569c222d22b1cd71e8546ab8e6f1"
  end.
Definition std_blind (r : role) : Rfc.ext :=
  match Rfc.point_decompress (std_constant r) with Some t => t | None => Rfc.IDENTITY end.
(** the password's scalar: 48 octets of HKDF, most significant first *)
Definition std_scalar (pw : bytes) : Z := (Z.of_N (value (bits_of (hkdf_octets pw))) mod Rfc.L)%Z.
(** x*B + pw*M, encoded *)
Definition std_element (r : role) (pw : bytes) (x : Z) : bytes :=
  Rfc.point_compress (Rfc.point_add (Rfc.point_mul x Rfc.BASE) (Rfc.point_mul (std_scalar pw) (std_blind r))).
(** x*(Y - pw*N), encoded *)
Definition std_shared (r : role) (pw : bytes) (x : Z) (Y : Rfc.ext) : bytes :=
  Rfc.point_compress (Rfc.point_mul x (Rfc.point_add Y (negated (Rfc.point_mul (std_scalar pw) (std_blind (peer r)))))).
Definition std_key (sd : Side) (pw mine theirs K : bytes) : bytes :=
  SHA256_octets
    match sd with
    | SideA a b => SHA256_octets pw ++ SHA256_octets a ++ SHA256_octets b ++ mine ++ theirs ++ K
    | SideB a b => SHA256_octets pw ++ SHA256_octets a ++ SHA256_octets b ++ theirs ++ mine ++ K
    | SideSymmetric i => SHA256_octets pw ++ SHA256_octets i ++ sorted mine theirs ++ K
    end.
Definition std_finish (sd : Side) (pw : bytes) (x : Z) (msg : bytes) : res bytes :=
  if negb (Nat.eqb (length msg) 33) then Err WrongLength
  else match msg with
       | t :: theirs =>
           if byte_eqb t (tag (peer (role_of sd))) then
             match Rfc.point_decompress theirs with
             | Some Y => Ok (std_key sd pw (std_element (role_of sd) pw x) theirs (std_shared (role_of sd) pw x Y))
             | None => Err CorruptMessage
             end
           else Err BadSide
       | [] => Err WrongLength
       end.

(** ** Proofs *)
Lemma repr_opp t P : repr t P -> repr (negated t) (eopp P).
Proof.
  intros (X & Y & Z & T & -> & HR). exists (fopp X), Y, Z, (fopp T). split; [unfold negated; now rewrite !NEG_v|].
  destruct HR as (HZ & EX & EY & ET). rewrite ex_eopp, ey_eopp.
  assert (O1 : (fopp X = fopp (ex P) * Z)%fe) by (rewrite EX; ring).
  assert (O2 : (fopp T = fopp (ex P) * ey P * Z)%fe) by (rewrite ET; ring).
  split; [exact HZ|]. split; [exact O1|]. split; [exact EY|exact O2].
Qed.
Lemma constant_is r : std_constant r = compress (blind r).
Proof.
  symmetry. destruct r; unfold std_constant, blind.
  - rewrite M_encoding. unfold M_bytes. reflexivity.
  - rewrite N_encoding. unfold N_bytes. reflexivity.
  - rewrite S_encoding. unfold S_bytes. reflexivity.
Qed.
Lemma blind_repr r : repr (std_blind r) (blind r).
Proof. unfold std_blind. rewrite constant_is, decompress_complete. apply repr_affine. Qed.
Lemma scalar_is pw : std_scalar pw = pw_int pw.
Proof. unfold std_scalar, pw_int. now rewrite L_is, bits_value, <- okm_is. Qed.
Lemma scalar_nonneg pw : (0 <= pw_int pw)%Z.
Proof. unfold pw_int. generalize (Z.of_N (be_val (pw_okm pw))). intros z. apply Z.mod_pos_bound. reflexivity. Qed.
Lemma blinded_repr r pw : repr (Rfc.point_mul (std_scalar pw) (std_blind r)) (emul (pw_int pw) (blind r)).
Proof. rewrite scalar_is. apply repr_mul; [apply scalar_nonneg|apply blind_repr]. Qed.
Lemma element_is r pw x : (0 <= x)%Z -> std_element r pw x = compress (msg_point r pw x).
Proof.
  intros Hx. unfold std_element, msg_point. apply repr_compress, repr_add; [|apply blinded_repr].
  apply repr_mul; [exact Hx|exact repr_base].
Qed.
Lemma shared_is r pw x t P : (0 <= x)%Z -> repr t P -> std_shared r pw x t = compress (shared r pw x P).
Proof.
  intros Hx H. unfold std_shared, shared. apply repr_compress, repr_mul; [exact Hx|].
  apply repr_add; [exact H|]. apply repr_opp, blinded_repr.
Qed.
Lemma std_sha256 m : sha256 m = SHA256_octets m.
Proof. apply C92_octets. Qed.
Lemma key_is sd pw mine theirs K : sha256 (transcript sd pw mine theirs K) = std_key sd pw mine theirs (compress K).
Proof. rewrite std_sha256. unfold std_key. f_equal. destruct sd; cbn [transcript]; now rewrite !std_sha256. Qed.

(** ** Theorems *)
(** The message of every session *)
Theorem C94_spake2_message sd pw x : exists s,
  start_internal E sd pw x = Ok (s, tag (role_of sd) :: std_element (role_of sd) pw (sval x)).
Proof. exists (session sd pw x). rewrite start_ok, element_is by apply sval_range. reflexivity. Qed.

(** The RFC decodes exactly the canonical encodings, and the model decodes them to the same point. *)
Theorem C94_spake2_decode b :
  match Rfc.point_decompress b with
  | Some t => exists P, bytes_to_element E b = Some P /\ element_to_bytes E P = b /\
      t = Rfc.from_affine (fval (ex P)) (fval (ey P))
  | None => forall P, bytes_to_element E b = Some P -> element_to_bytes E P <> b
  end.
Proof.
  change (bytes_to_element E b) with (ed_bytes_to_element b). unfold ed_bytes_to_element.
  destruct (Rfc.point_decompress b) as [t|] eqn:EQ.
  - destruct (decompress_sound b t EQ) as (P & -> & Ht). exists P.
    rewrite compress_length, decompress_compress. split; [reflexivity|]. split; [reflexivity|exact Ht].
  - intros P _ H. change (compress P = b) in H. rewrite <- H, decompress_complete in EQ. discriminate EQ.
Qed.

(** the peer's element is in an encoding other than its canonical one *)
Definition other_encoding (sd : Side) (msg2 : bytes) : Prop :=
  exists b P, msg2 = tag (peer (role_of sd)) :: b /\ bytes_to_element E b = Some P /\ element_to_bytes E P <> b.
Lemma some_eq {A} (a b : A) : Some a = Some b -> a = b.
Proof. intros H. now injection H. Qed.
Lemma cons_eq {A} (a b : A) l m : a :: l = b :: m -> a = b /\ l = m.
Proof. intros H. injection H. auto. Qed.
Lemma finish_cases sd pw x msg2 :
  (std_finish sd pw (sval x) msg2 = finish_spec sd pw x msg2 /\ ~ other_encoding sd msg2) \/
  (std_finish sd pw (sval x) msg2 = Err CorruptMessage /\ other_encoding sd msg2 /\
   exists key, finish_spec sd pw x msg2 = Ok key).
Proof.
  assert (LEN : other_encoding sd msg2 -> length msg2 = 33).
  { intros (b & P & -> & H & _). change (ed_bytes_to_element b = Some P) in H. unfold ed_bytes_to_element in H.
    destruct (Nat.eqb_spec (length b) 32) as [HL|HL]; [|discriminate H]. cbn [length]. now rewrite HL. }
  unfold std_finish, finish_spec.
  destruct (Nat.eqb_spec (length msg2) 33) as [HL|HL]; cbn [negb]; [|left; split; [reflexivity|auto]].
  clear LEN. destruct msg2 as [|t b]; [discriminate HL|]. injection HL as HL.
  destruct (byte_eqb t (tag (peer (role_of sd)))) eqn:Ht.
  2: { left. split; [reflexivity|]. intros (b' & P & EQ & _). apply cons_eq in EQ. destruct EQ as [-> _].
       rewrite byte_eqb_refl in Ht. discriminate Ht. }
  apply byte_eqb_eq in Ht. subst t.
  pose proof (C94_spake2_decode b) as H.
  assert (EB : bytes_to_element E b = decompress b).
  { change (ed_bytes_to_element b = decompress b). unfold ed_bytes_to_element. rewrite HL. reflexivity. }
  destruct (Rfc.point_decompress b) as [t|].
  - left. destruct H as (P & HP & HC & ->). rewrite EB in HP. rewrite HP. split.
    + rewrite key_is, element_is, (shared_is _ _ _ _ P) by (apply sval_range || apply repr_affine). reflexivity.
    + intros (b' & P' & EQ & HB & HN). apply cons_eq in EQ. destruct EQ as [_ <-]. rewrite EB, HP in HB.
      apply some_eq in HB. subst P'. exact (HN HC).
  - destruct (decompress b) as [P|] eqn:ED.
    + right. split; [reflexivity|]. split; [|eexists; reflexivity].
      exists b, P. split; [reflexivity|]. split; [exact EB|now apply H].
    + left. split; [reflexivity|]. intros (b' & P' & EQ & HB & _). apply cons_eq in EQ. destruct EQ as [_ <-].
      rewrite EB in HB. discriminate HB.
Qed.

(** Whatever arrives, a session ends as the standards say, except that it accepts more encodings. *)
Theorem C94_spake2_finish sd pw x s msg msg2 : start_internal E sd pw x = Ok (s, msg) ->
  (std_finish sd pw (sval x) msg2 <> Err CorruptMessage -> finish E s msg2 = std_finish sd pw (sval x) msg2) /\
  (finish E s msg2 = Err CorruptMessage -> std_finish sd pw (sval x) msg2 = Err CorruptMessage).
Proof.
  intros H. rewrite start_ok in H. injection H as <- _. rewrite finish_ok.
  destruct (finish_cases sd pw x msg2) as [[E1 _]|(E1 & _)]; rewrite E1; split; auto; intros K; congruence.
Qed.
(** ... exactly when the peer's element is not in its canonical encoding. *)
Lemma not_equal {A B} (a b : outcome A B) (k : B) e : a = Ok k -> b = Err e -> a <> b.
Proof. intros -> ->. discriminate. Qed.
Theorem C94_spake2_difference sd pw x s msg msg2 : start_internal E sd pw x = Ok (s, msg) ->
  (finish E s msg2 <> std_finish sd pw (sval x) msg2 <->
   exists b P, msg2 = tag (peer (role_of sd)) :: b /\ bytes_to_element E b = Some P /\ element_to_bytes E P <> b).
Proof.
  intros H. rewrite start_ok in H. injection H as <- _. rewrite finish_ok.
  destruct (finish_cases sd pw x msg2) as [[E1 HN]|(E1 & HO & key & E2)]; split.
  - intros K. destruct (K (eq_sym E1)).
  - intros HO. destruct (HN HO).
  - intros _. exact HO.
  - intros _. exact (not_equal _ _ _ _ E2 E1).
Qed.
(** The property fails: the identity with its sign bit set *)
Lemma other_exists : exists b P, bytes_to_element E b = Some P /\ element_to_bytes E P <> b.
Proof.
  destruct (C51_unique_encoding_refuted) as (b & b' & P & Hne & Hb & Hb').
  destruct (bytes_eqb (element_to_bytes E P) b) eqn:X.
  - apply bytes_eqb_eq in X. exists b', P. split; [exact Hb'|]. rewrite X. exact Hne.
  - exists b, P. split; [exact Hb|]. intros K. apply bytes_eqb_eq in K. rewrite K in X. discriminate X.
Qed.
Theorem C94_spake2_strict_refuted : exists sd pw x s msg msg2 key,
  start_internal E sd pw x = Ok (s, msg) /\ finish E s msg2 = Ok key /\ std_finish sd pw (sval x) msg2 = Err CorruptMessage.
Proof.
  destruct other_exists as (c & P & HO).
  assert (K : forall sd, other_encoding sd (tag (peer (role_of sd)) :: c)).
  { intros sd. exists c, P. split; [reflexivity|exact HO]. }
  assert (ALL : forall sd pw (x : scalar), exists s msg msg2 key,
    start_internal E sd pw x = Ok (s, msg) /\ finish E s msg2 = Ok key /\ std_finish sd pw (sval x) msg2 = Err CorruptMessage).
  { intros sd pw x. exists (session sd pw x). eexists. exists (tag (peer (role_of sd)) :: c).
    destruct (finish_cases sd pw x (tag (peer (role_of sd)) :: c)) as [[_ HN]|(E1 & _ & key & E2)];
      [destruct (HN (K sd))|].
    exists key. split; [apply start_ok|]. split; [rewrite finish_ok; exact E2|exact E1]. }
  exists (SideA [] []), [], (sof 1). apply ALL.
Qed.
(** Between two sessions of this program the standards are followed. *)
Lemma encoded P : element_to_bytes E P = compress P.
Proof. reflexivity. Qed.
Lemma decoded_again Q : bytes_to_element E (compress Q) = Some Q.
Proof.
  change (bytes_to_element E (compress Q)) with (ed_bytes_to_element (compress Q)). unfold ed_bytes_to_element.
  rewrite compress_length, decompress_compress. reflexivity.
Qed.
Lemma canonical_not_other sd Q : ~ other_encoding sd (tag (peer (role_of sd)) :: compress Q).
Proof.
  intros (b & P & H1 & H2 & H3). apply cons_eq in H1. destruct H1 as [_ <-]. rewrite decoded_again in H2.
  apply some_eq in H2. subst P. rewrite encoded in H3. exact (H3 eq_refl).
Qed.
Lemma canonical_finish sd pw x s msg Q : start_internal E sd pw x = Ok (s, msg) ->
  finish E s (tag (peer (role_of sd)) :: compress Q) = std_finish sd pw (sval x) (tag (peer (role_of sd)) :: compress Q).
Proof.
  intros H. rewrite start_ok in H. injection H as <- _. rewrite finish_ok.
  destruct (finish_cases sd pw x (tag (peer (role_of sd)) :: compress Q)) as [[E1 _]|(_ & HO & _)]; [now rewrite E1|].
  destruct (canonical_not_other _ _ HO).
Qed.
Lemma message_form sd pw x s msg : start_internal E sd pw x = Ok (s, msg) -> exists Q, msg = tag (role_of sd) :: compress Q.
Proof. intros H. rewrite start_ok in H. injection H as _ <-. eexists. reflexivity. Qed.
Theorem C94_spake2_honest sd pw x sd' pw' x' s msg s' msg' : role_of sd' = peer (role_of sd) ->
  start_internal E sd pw x = Ok (s, msg) -> start_internal E sd' pw' x' = Ok (s', msg') ->
  exists key, std_finish sd pw (sval x) msg' = Ok key /\ finish E s msg' = Ok key.
Proof.
  intros Hr H H'.
  assert (exists key, finish E s msg' = Ok key) as [key F]
    by (eexists; exact (finish_honest sd pw x sd' pw' x' s msg s' msg' Hr H H')).
  exists key. split; [|exact F].
  destruct (message_form _ _ _ _ _ H') as [Q ->]. rewrite Hr in F |- *. now rewrite <- (canonical_finish _ _ _ _ _ Q H).
Qed.

(** A session that meets the hypotheses *)
Example C94_spake2_case : exists s msg s' msg' key,
  start_internal E (SideA (str "a") (str "b")) (str "pw") (sof 5) = Ok (s, msg) /\
  start_internal E (SideB (str "a") (str "b")) (str "pw") (sof 6) = Ok (s', msg') /\
  std_finish (SideA (str "a") (str "b")) (str "pw") (sval (sof 5)) msg' = Ok key.
Proof.
  destruct (C94_spake2_message (SideA (str "a") (str "b")) (str "pw") (sof 5)) as [s H].
  destruct (C94_spake2_message (SideB (str "a") (str "b")) (str "pw") (sof 6)) as [s' H'].
  assert (Hr : role_of (SideB (str "a") (str "b")) = peer (role_of (SideA (str "a") (str "b")))) by reflexivity.
  destruct (C94_spake2_honest _ _ _ _ _ _ _ _ _ _ Hr H H') as (key & K & _).
  exists s. eexists. exists s'. eexists. exists key. split; [exact H|]. split; [exact H'|exact K].
Qed.
(** The constants decode, and a string with y >= p does not *)
Check (test (match Rfc.point_decompress (std_constant RoleA), Rfc.point_decompress (std_constant RoleB), Rfc.point_decompress (std_constant RoleS) with
             | Some _, Some _, Some _ => true | _, _, _ => false end) true).
Check (test (Rfc.point_decompress (repeat xff 31 ++ [x7f])) (@None Rfc.ext)).
