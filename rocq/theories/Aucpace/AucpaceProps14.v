(** * AuCPace: the salts (C80). *)
From Coq Require Import ZArith Lia.
From Verif Require Import Base.Bytes Base.Outcome Base.Rng.
From Verif Require Import Curve.Scalar25519.
From Verif Require Import Aucpace.RistrettoGroup Aucpace.PwHash Aucpace.PwHashProofs Aucpace.Base64Spec Aucpace.PhcSpec Aucpace.AucpaceModel Aucpace.AucpaceSpec
  Aucpace.AucpaceRun Aucpace.AucpaceDb Aucpace.AucpaceToy Aucpace.AucpaceProofs Aucpace.Wire Aucpace.WireProofs.
Local Open Scope N_scope.

(** ** The encoding *)
Lemma bits_length w n : length (bits w n) = w.
Proof. revert n. induction w as [|w IH]; intros n; cbn; [reflexivity|]. rewrite app_length, IH. cbn. lia. Qed.

Lemma bits_app w1 w2 x y : y < 2 ^ N.of_nat w2 -> bits (w1 + w2) (x * 2 ^ N.of_nat w2 + y) = bits w1 x ++ bits w2 y.
Proof.
  revert x y. induction w2 as [|w2 IH]; intros x y Hy.
  - cbn in Hy. assert (y = 0) as -> by lia. cbn [N.of_nat bits]. rewrite Nat.add_0_r, app_nil_r. f_equal.
    change (2 ^ 0) with 1. lia.
  - rewrite Nat.add_succ_r. cbn [bits]. rewrite Nat2N.inj_succ, N.pow_succ_r' in *.
    rewrite app_assoc. rewrite <- IH by (apply N.div_lt_upper_bound; lia).
    f_equal.
    + f_equal. rewrite (N.mul_comm 2), N.mul_assoc, N.add_comm, N.div_add by discriminate. lia.
    + f_equal. rewrite (N.mul_comm 2), N.mul_assoc, N.odd_add, N.odd_mul, Bool.andb_false_r. now destruct (N.odd y).
Qed.

Lemma bits_inj w a b : a < 2 ^ N.of_nat w -> b < 2 ^ N.of_nat w -> bits w a = bits w b -> a = b.
Proof.
  revert a b. induction w as [|w IH]; intros a b Ha Hb E.
  - cbn in Ha, Hb. lia.
  - cbn [bits] in E. apply app_inj_tail in E. destruct E as [E1 E2].
    rewrite Nat2N.inj_succ, N.pow_succ_r' in *.
    apply IH in E1; [|apply N.div_lt_upper_bound; lia..].
    rewrite (N.div_mod' a 2), (N.div_mod' b 2), E1. f_equal.
    rewrite <- !N.bit0_mod, !N.bit0_odd. now rewrite E2.
Qed.

Lemma nth_alphabet d : d < 64 -> nth (N.to_nat d) alphabet x00 = b64_char d.
Proof.
  intros H. assert (forallb (fun i => byte_eqb (nth i alphabet x00) (b64_char (N.of_nat i))) (seq 0 64) = true) as A
    by (vm_compute; reflexivity).
  rewrite forallb_forall in A. specialize (A (N.to_nat d)). rewrite N2Nat.id in A.
  apply byte_eqb_eq, A, in_seq. lia.
Qed.

(** The groups of a string. *)
Fixpoint groups_of (l : bytes) : list N :=
  match l with
  | [] => []
  | [a] => [b2n a / 4; (b2n a mod 4) * 16]
  | [a; b] => [b2n a / 4; (b2n a mod 4) * 16 + b2n b / 16; (b2n b mod 16) * 4]
  | a :: b :: c :: r =>
      b2n a / 4 :: (b2n a mod 4) * 16 + b2n b / 16 :: (b2n b mod 16) * 4 + b2n c / 64 :: b2n c mod 64 :: groups_of r
  end.

Lemma three_ind (P : bytes -> Prop) :
  P [] -> (forall a, P [a]) -> (forall a b, P [a; b]) -> (forall a b c r, P r -> P (a :: b :: c :: r)) -> forall l, P l.
Proof.
  intros H0 H1 H2 H3. fix F 1. intros [|a [|b [|c r]]]; [exact H0|apply H1|apply H2|]. apply H3, F.
Qed.

Lemma groups_small l : Forall (fun d => d < 64) (groups_of l).
Proof.
  induction l as [|a|a b|a b c r IH] using three_ind; cbn [groups_of]; repeat constructor; try exact IH;
    try pose proof (b2n_lt a); try pose proof (b2n_lt b); try pose proof (b2n_lt c);
    try pose proof (N.mod_lt (b2n a) 4 ltac:(discriminate));
    try pose proof (N.mod_lt (b2n b) 16 ltac:(discriminate));
    try (apply N.mod_lt; discriminate);
    try (apply N.div_lt_upper_bound; [discriminate|assumption]);
    try assert (b2n b / 16 < 16) by (apply N.div_lt_upper_bound; [discriminate|assumption]);
    try assert (b2n c / 64 < 4) by (apply N.div_lt_upper_bound; [discriminate|assumption]); lia.
Qed.

Lemma groups_encode l : b64_encode l = map (fun d => nth (N.to_nat d) alphabet x00) (groups_of l).
Proof.
  transitivity (map b64_char (groups_of l)).
  - induction l as [|a|a b|a b c r IH] using three_ind; [reflexivity..|].
    cbn [b64_encode groups_of map]. now rewrite IH.
  - apply map_ext_in. intros d Hd. symmetry. apply nth_alphabet.
    pose proof (groups_small l) as F. rewrite Forall_forall in F. now apply F.
Qed.

Lemma bits8 a k j : (k + j = 8)%nat -> bits 8 (b2n a) = bits k (b2n a / 2 ^ N.of_nat j) ++ bits j (b2n a mod 2 ^ N.of_nat j).
Proof.
  intros <-. rewrite <- bits_app by (apply N.mod_lt; apply N.pow_nonzero; discriminate).
  f_equal. rewrite N.mul_comm. apply N.div_mod'.
Qed.

Lemma bits6 k j x y : (k + j = 6)%nat -> y < 2 ^ N.of_nat j -> bits 6 (x * 2 ^ N.of_nat j + y) = bits k x ++ bits j y.
Proof. intros <- H. now apply bits_app. Qed.

Lemma bits_zero w : bits w 0 = repeat false w.
Proof.
  induction w as [|w IH]; [reflexivity|]. cbn [bits]. change (0 / 2) with 0. rewrite IH.
  symmetry. exact (repeat_cons w false).
Qed.

Lemma groups_bits l : exists z, (z < 6)%nat /\
  concat (map (bits 6) (groups_of l)) = concat (map (fun c => bits 8 (b2n c)) l) ++ repeat false z.
Proof.
  induction l as [|a|a b|a b c r (z & Hz & IH)] using three_ind.
  - exists 0%nat. split; [lia|reflexivity].
  - exists 4%nat. split; [lia|]. cbn [groups_of map concat]. rewrite !app_nil_r.
    rewrite (bits8 a 6 2 eq_refl), <- (bits_zero 4), <- app_assoc. f_equal.
    rewrite <- (bits6 2 4) by (reflexivity || lia). f_equal. change (2 ^ N.of_nat 2) with 4. change (2 ^ N.of_nat 4) with 16. lia.
  - exists 2%nat. split; [lia|]. cbn [groups_of map concat]. rewrite !app_nil_r.
    rewrite (bits8 a 6 2 eq_refl), (bits8 b 4 4 eq_refl), <- (bits_zero 2), <- !app_assoc. f_equal.
    rewrite (app_assoc (bits 2 _) (bits 4 _)).
    rewrite <- (bits6 2 4) by (reflexivity || exact (N.div_lt_upper_bound _ 16 16 ltac:(discriminate) (b2n_lt b))).
    rewrite <- (bits6 4 2) by (reflexivity || lia).
    f_equal; f_equal; change (2 ^ N.of_nat 4) with 16; change (2 ^ N.of_nat 2) with 4; lia.
  - exists z. split; [exact Hz|]. cbn [groups_of map concat]. rewrite IH.
    rewrite (bits8 a 6 2 eq_refl), (bits8 b 4 4 eq_refl), (bits8 c 2 6 eq_refl), <- !app_assoc. f_equal.
    rewrite (app_assoc (bits 2 (b2n a mod _)) (bits 4 _)), (app_assoc (bits 4 (b2n b mod _)) (bits 2 _)).
    rewrite <- (bits6 2 4) by (reflexivity || exact (N.div_lt_upper_bound _ 16 16 ltac:(discriminate) (b2n_lt b))).
    rewrite <- (bits6 4 2) by (reflexivity || exact (N.div_lt_upper_bound _ 64 4 ltac:(discriminate) (b2n_lt c))).
    reflexivity.
Qed.

Lemma concat_bits_inj {A} (f : A -> list bool) w (P : A -> Prop) l l' :
  (0 < w)%nat -> (forall a, length (f a) = w) -> (forall a b, P a -> P b -> f a = f b -> a = b) ->
  Forall P l -> Forall P l' -> concat (map f l) = concat (map f l') -> l = l'.
Proof.
  intros W Lf Inj F. revert l'. induction F as [|a l Pa F IH]; intros [|b l'] F' E; cbn [map concat] in E.
  - reflexivity.
  - exfalso. apply (f_equal (@length _)) in E. rewrite app_length, Lf in E. cbn in E. lia.
  - exfalso. apply (f_equal (@length _)) in E. rewrite app_length, Lf in E. cbn in E. lia.
  - apply Forall_cons_iff in F'. destruct F' as [Pb F'].
    assert (f a = f b) as E1.
    { apply (f_equal (firstn w)) in E. rewrite !firstn_app, !Lf, Nat.sub_diag, !firstn_O, !app_nil_r in E.
      now rewrite !firstn_all2 in E by now rewrite Lf. }
    apply (Inj a b Pa Pb) in E1. subst b. apply app_inv_head in E. f_equal. now apply IH.
Qed.

Lemma concat_bits_length {A} (f : A -> list bool) w l :
  (forall a, length (f a) = w) -> length (concat (map f l)) = (w * length l)%nat.
Proof. intros H. induction l as [|a l IH]; cbn; [lia|]. rewrite app_length, H, IH. lia. Qed.

Lemma repeat_len (z : nat) : length (repeat false z) = z.
Proof. apply repeat_length. Qed.

Lemma cons_inj {A} (a b : A) l l' : a :: l = b :: l' -> a = b /\ l = l'.
Proof. intros E. now injection E. Qed.

(** ** C80: salts *)
Theorem C80_base64 : forall l out, out = b64_encode l <-> is_base64 l out.
Proof.
  intros l out.
  assert (is_base64 l (b64_encode l)) as HE.
  { destruct (groups_bits l) as (z & Hz & E). exists (groups_of l), z.
    split; [exact Hz|]. split; [apply groups_small|]. split; [apply groups_encode|exact E]. }
  split; [now intros ->|].
  intros (g & z & Hz & F & -> & E). destruct HE as (g' & z' & Hz' & F' & -> & E'). f_equal.
  assert (z = z') as <-.
  { apply (f_equal (@length _)) in E, E'.
    rewrite app_length, repeat_len, (concat_bits_length _ 6) in E, E' by (intros; apply bits_length).
    rewrite (concat_bits_length _ 8) in E, E' by (intros; apply bits_length). lia. }
  apply (concat_bits_inj (bits 6) 6 (fun d => d < 64)); [lia| | |exact F|exact F'|congruence].
  - intros a. apply bits_length.
  - intros a b. exact (bits_inj 6 a b).
Qed.
Print Assumptions C80_base64.

(** Different strings have different encodings. *)
Theorem C80_injective : forall l l' out, is_base64 l out -> is_base64 l' out -> l = l'.
Proof.
  intros l l' out (g & z & Hz & F & E1 & E) (g' & z' & Hz' & F' & E1' & E').
  assert (g = g') as <-.
  { subst out. clear - F F' E1'. revert g' F' E1'.
    induction F as [|a g Pa F IH]; intros [|b g'] F' E; try discriminate; [reflexivity|].
    apply Forall_cons_iff in F'. destruct F' as [Pb F']. cbn [map] in E. apply cons_inj in E. destruct E as [E1 E2].
    rewrite !nth_alphabet in E1 by assumption. apply b64_char_inj in E1; [|assumption..].
    subst b. f_equal. now apply IH. }
  rewrite E in E'.
  assert (z = z') as <-.
  { apply (f_equal (@length _)) in E'. rewrite !app_length, !repeat_len in E'.
    rewrite !(concat_bits_length _ 8) in E' by (intros; apply bits_length). lia. }
  apply app_inv_tail in E'.
  apply (concat_bits_inj (fun c => bits 8 (b2n c)) 8 (fun _ => True)); [lia| | |now apply Forall_forall..|exact E'].
  - intros a. apply bits_length.
  - intros a b _ _ Q. apply b2n_inj. apply (bits_inj 8); [apply b2n_lt..|exact Q].
Qed.
Print Assumptions C80_injective.

Section Salts.
Context (R : RGroup) (L : rgroup_laws R) (D : bytes -> bytes) (Dlen : forall m, length (D m) = 64%nat).
Context (Params : Type) (params_try_into : Params -> outcome pherror bytes).

(** The salt of a registration is the encoding of the next 16 bytes of the client's generator, and the
    generator is left after these bytes, whether or not the registration succeeds. *)
Theorem C80_registration_salt :
  forall m T (c : AuCPaceClient T) user pass params (h : hasher Params) r c',
  do_register R Params params_try_into m T c user pass params h = (r, c') ->
  c_rng T c' = snd (rng_fill T 16 (c_rng T c)) /\
  forall u salt ps W, r = Ok (CRegistration u salt ps W) ->
    is_base64 (fst (rng_fill T 16 (c_rng T c))) salt /\ length salt = 22%nat.
Proof.
  intros m T c user pass params h r c' E.
  assert (c_rng T c' = snd (rng_fill T 16 (c_rng T c)) /\
    forall u salt ps W, r = Ok (CRegistration u salt ps W) -> salt = spec_salt T (c_rng T c)) as [H1 H2].
  { destruct (salt_generate_eq T (c_rng T c)) as (Es & _).
    destruct m as [n|]; cbn [do_register] in E; unfold register, register_alloc in E; rewrite Es in E;
      cbn [omap_err obind] in E; injection E as <- <-; (split; [reflexivity|]); intros u salt ps W Er;
      apply obind_ok in Er; destruct Er as (ph & _ & Er); apply obind_ok in Er; destruct Er as (w & _ & Er);
      apply obind_ok in Er; destruct Er as (p & _ & Er); injection Er as _ <- _ _; reflexivity. }
  split; [exact H1|]. intros u salt ps W Er. rewrite (H2 u salt ps W Er). unfold spec_salt. split.
  - now apply C80_base64.
  - rewrite b64_length, rng_fill_length. reflexivity.
Qed.

(** So registrations that draw different bytes have different salts. *)
Theorem C80_registration_salts_distinct :
  forall m m' T T' (c : AuCPaceClient T) (c' : AuCPaceClient T') user user' pass pass' params params' (h h' : hasher Params)
    u u' salt salt' ps ps' W W' c1 c1',
  do_register R Params params_try_into m T c user pass params h = (Ok (CRegistration u salt ps W), c1) ->
  do_register R Params params_try_into m' T' c' user' pass' params' h' = (Ok (CRegistration u' salt' ps' W'), c1') ->
  (salt = salt' <-> fst (rng_fill T 16 (c_rng T c)) = fst (rng_fill T' 16 (c_rng T' c'))).
Proof.
  intros m m' T T' c c' user user' pass pass' params params' h h' u u' salt salt' ps ps' W W' c1 c1' E E'.
  apply C80_registration_salt in E, E'. destruct E as [_ E]. destruct E' as [_ E'].
  destruct (E _ _ _ _ eq_refl) as [B _]. destruct (E' _ _ _ _ eq_refl) as [B' _].
  split.
  - intros <-. exact (C80_injective _ _ _ B B').
  - intros Q. rewrite Q in B. apply C80_base64 in B, B'. congruence.
Qed.

(** In the strong variant the exponent is the next scalar of the generator, and the password is hashed with
    the encoding of the point it makes of the credentials. *)
Theorem C80_strong_registration :
  forall m T (c : AuCPaceClient T) user pass params (h : hasher Params) u q ps W c',
  fits m user pass ->
  do_register_strong R D Params params_try_into m T c user pass params h = (Ok (CStrongRegistration u q ps W), c') ->
  c_rng T c' = snd (rng_fill T 64 (c_rng T c)) /\
  q = sof (Z.of_N (le_val (fst (rng_fill T 64 (c_rng T c))))) /\
  exists salt w, is_base64 (rcompress R (rmul (spec_Z R D user pass) q)) salt /\ length salt = 43%nat /\
    spec_w h user pass salt params = Ok w /\ W = rmul (rbase R) w.
Proof.
  intros m T c user pass params h u q ps W c' HF E.
  assert (c' = {| c_rng := after T 64 (c_rng T c) |} /\ q = drawn T (c_rng T c)) as [-> Hq].
  { rewrite do_register_strong_eq in E by assumption. cbv zeta in E. injection E as E <-. split; [reflexivity|].
    apply obind_ok in E. destruct E as (w & _ & E). apply obind_ok in E. destruct E as (p & _ & E).
    now injection E as _ <- _ _. }
  apply do_register_strong_ok in E; [|exact L|exact HF]. destruct E as (_ & _ & w & Ew & EW).
  split; [reflexivity|]. split; [exact Hq|].
  exists (strong_salt R D user pass q), w. unfold strong_salt.
  split; [now apply C80_base64|].
  split; [rewrite b64_length, (rl_length R L); reflexivity|].
  split; [exact Ew|exact EW].
Qed.

(** Different exponents give different salts, whatever the digest, unless the credentials are hashed to the
    identity. *)
Theorem C80_strong_salts_distinct :
  forall user pass q q' salt,
  spec_Z R D user pass <> rzero R ->
  is_base64 (rcompress R (rmul (spec_Z R D user pass) q)) salt ->
  is_base64 (rcompress R (rmul (spec_Z R D user pass) q')) salt -> q = q'.
Proof.
  intros user pass q q' salt HZ H H'. pose proof (C80_injective _ _ _ H H') as E.
  apply (rcompress_inj L) in E. now apply (rmul_inj L) in E.
Qed.
End Salts.
Print Assumptions C80_registration_salt.
Print Assumptions C80_registration_salts_distinct.
Print Assumptions C80_strong_registration.
Print Assumptions C80_strong_salts_distinct.

(** The encodings of one, two and three bytes, as in RFC 4648, section 10, and both registrations. *)
Example C80_case :
  b64_encode (str "f") = str "Zg" /\ b64_encode (str "fo") = str "Zm8" /\ b64_encode (str "foobar") = str "Zm9vYmFy" /\
  fits AllocBuf alice secret.
Proof.
  split; [vm_compute; reflexivity|]. split; [vm_compute; reflexivity|]. split; [vm_compute; reflexivity|]. exact I.
Qed.
Example C80_case_registration :
  match fst (toy_reg AllocBuf) with Ok (CRegistration _ salt _ _) => Nat.eqb (length salt) 22 | _ => false end = true.
Proof. vm_compute. reflexivity. Qed.
Example C80_case_strong :
  match fst (toy_reg_strong AllocBuf) with Ok (CStrongRegistration _ q _ _) => negb (seqb q szero) | _ => false end = true.
Proof. vm_cast_no_check (eq_refl true). Qed.
Example C80_case_point : is_identity (spec_Z ToyGroup toyD alice secret) = false.
Proof. vm_cast_no_check (eq_refl false). Qed.

(** ** C48: which salts and parameter strings are accepted from the wire *)
Lemma over_forallb alphabet p s : (forall c, p c = existsb (byte_eqb c) alphabet) -> forallb p s = true <-> over alphabet s.
Proof.
  intros H. rewrite forallb_forall. unfold over. split; intros F c Hc; specialize (F c Hc).
  - rewrite H in F. apply existsb_exists in F. destruct F as (d & Hd & E). apply byte_eqb_eq in E. now subst d.
  - rewrite H. apply existsb_exists. exists c. split; [exact F|apply byte_eqb_refl].
Qed.
Lemma names_ok s : forallb ident_char s = true <-> over name_alphabet s.
Proof. apply over_forallb. intros c. destruct c; reflexivity. Qed.
Lemma values_ok s : forallb value_char s = true <-> over value_alphabet s.
Proof. apply over_forallb. intros c. destruct c; reflexivity. Qed.

Theorem C48_salts : forall s v, salt_from_b64 s = Ok v <-> v = s /\ phc_salt s.
Proof. intros s v. rewrite salt_from_b64_ok. unfold salt_valid, phc_salt. now rewrite values_ok. Qed.

Theorem C48_parameter_strings : forall s v, params_parse s = Ok v <-> v = s /\ phc_params s.
Proof.
  intros s v. rewrite params_parse_iff. unfold params_valid, phc_params.
  assert (pairs_valid s <-> phc_pairs s) as H; [|now rewrite H].
  split.
  - induction 1 as [p (n & w & -> & H1 & H2 & H3 & H4)|p ps (n & w & -> & H1 & H2 & H3 & H4) _ IH];
      apply names_ok in H2; apply values_ok in H4; now constructor.
  - induction 1 as [n w H1 H2 H3 H4|n w ps H1 H2 H3 H4 _ IH]; apply names_ok in H2; apply values_ok in H4.
    + apply pv_one. exists n, w. auto.
    + apply (pv_more (n ++ str "=" ++ w)); [exists n, w; auto|exact IH].
Qed.
Print Assumptions C48_salts.
Print Assumptions C48_parameter_strings.

Example C48_strings_case :
  phc_params (str "ln=15,r=8,p=1") /\ phc_params (str "my-param=a+b") /\ ~ phc_params (str "my_param=1") /\ ~ phc_salt (str "abc=").
Proof.
  assert (forall s, params_parse s = Ok s -> phc_params s) as H by (intros s E; now apply C48_parameter_strings in E).
  split; [apply H; reflexivity|]. split; [apply H; reflexivity|]. split.
  - intros F. assert (params_parse (str "my_param=1") = Ok (str "my_param=1")) as E by now apply C48_parameter_strings.
    discriminate E.
  - intros F. assert (salt_from_b64 (str "abc=") = Ok (str "abc=")) as E by now apply C48_salts. discriminate E.
Qed.
