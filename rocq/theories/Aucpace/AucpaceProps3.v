(** * Properties C48 and C49 of the aucpace crate: messages on the wire. *)
From Coq Require Import ZArith Lia.
From Verif Require Import Base.Bytes Base.Outcome Base.Rng Base.Utf8 Base.Kat.
From Verif Require Import Curve.Scalar25519.
From Verif Require Import Aucpace.RistrettoGroup Aucpace.PwHash Aucpace.AucpaceModel Aucpace.AucpaceSpec
  Aucpace.AucpaceRun Aucpace.AucpaceToy Aucpace.AucpaceProofs Aucpace.Wire Aucpace.WireProofs.
Local Open Scope nat_scope.

Section Wire_properties.
Context (R : RGroup) (L : rgroup_laws R).

Lemma example_format_laws F : F = bincode \/ F = postcard -> format_laws F.
Proof. intros [->| ->]; [exact bincode_laws|exact postcard_laws]. Qed.

(** ** C48 *)

(** A message is read back from its encoding, whatever follows it. *)
Theorem C48_client_roundtrip :
  forall F strong K1 m rest, F = bincode \/ F = postcard ->
  client_has R strong m = true -> client_valid R K1 m ->
  get_client R F strong K1 (put_client R F strong m ++ rest) = Some (m, rest).
Proof. intros F strong K1 m rest HF. apply get_client_put; [exact L|now apply example_format_laws]. Qed.
Theorem C48_server_roundtrip :
  forall F strong K1 m rest, F = bincode \/ F = postcard ->
  server_has R strong m = true -> server_valid R K1 m ->
  get_server R F strong K1 (put_server R F strong m ++ rest) = Some (m, rest).
Proof. intros F strong K1 m rest HF. apply get_server_put; [exact L|now apply example_format_laws]. Qed.

(** Different messages have different encodings, and no encoding is the beginning of another. *)
Theorem C48_client_prefix_free :
  forall F strong K1 m m' r r', F = bincode \/ F = postcard ->
  client_has R strong m = true -> client_valid R K1 m -> client_has R strong m' = true -> client_valid R K1 m' ->
  put_client R F strong m ++ r = put_client R F strong m' ++ r' -> m = m' /\ r = r'.
Proof.
  intros F strong K1 m m' r r' HF H1 H2 H3 H4 E.
  pose proof (C48_client_roundtrip F strong K1 m r HF H1 H2) as E1. rewrite E in E1.
  rewrite (C48_client_roundtrip F strong K1 m' r' HF H3 H4) in E1. now injection E1 as -> ->.
Qed.
Theorem C48_server_prefix_free :
  forall F strong K1 m m' r r', F = bincode \/ F = postcard ->
  server_has R strong m = true -> server_valid R K1 m -> server_has R strong m' = true -> server_valid R K1 m' ->
  put_server R F strong m ++ r = put_server R F strong m' ++ r' -> m = m' /\ r = r'.
Proof.
  intros F strong K1 m m' r r' HF H1 H2 H3 H4 E.
  pose proof (C48_server_roundtrip F strong K1 m r HF H1 H2) as E1. rewrite E in E1.
  rewrite (C48_server_roundtrip F strong K1 m' r' HF H3 H4) in E1. now injection E1 as -> ->.
Qed.

(** Whatever is read, from any bytes, is a valid message of the build. *)
Theorem C48_client_only_valid :
  forall F strong K1 b m rest, F = bincode \/ F = postcard -> small b ->
  get_client R F strong K1 b = Some (m, rest) -> client_has R strong m = true /\ client_valid R K1 m.
Proof. intros F strong K1 b m rest HF. exact (get_client_valid R F (example_format_laws F HF) strong K1 b m rest). Qed.
Theorem C48_server_only_valid :
  forall F strong K1 b m rest, F = bincode \/ F = postcard -> small b ->
  get_server R F strong K1 b = Some (m, rest) -> server_has R strong m = true /\ server_valid R K1 m.
Proof. intros F strong K1 b m rest HF. exact (get_server_valid R L F (example_format_laws F HF) strong K1 b m rest). Qed.

(** In bincode a message has one encoding: in particular points and scalars are only accepted in their
    canonical encoding. *)
Theorem C48_client_bincode_canonical :
  forall strong K1 b m rest,
  get_client R bincode strong K1 b = Some (m, rest) -> b = put_client R bincode strong m ++ rest.
Proof. intros strong K1 b m rest. exact (get_client_canon R L bincode strong K1 b m rest bincode_canonical). Qed.
Theorem C48_server_bincode_canonical :
  forall strong K1 b m rest,
  get_server R bincode strong K1 b = Some (m, rest) -> b = put_server R bincode strong m ++ rest.
Proof. intros strong K1 b m rest. exact (get_server_canon R L bincode strong K1 b m rest bincode_canonical). Qed.

(** In postcard every message has a second encoding: the variant index with a redundant byte. *)
Theorem C48_postcard_canonical_refuted :
  forall strong K1 m, client_has R strong m = true -> client_valid R K1 m ->
  exists b, b <> put_client R postcard strong m /\ get_client R postcard strong K1 b = Some (m, []).
Proof.
  intros strong K1 m Hh Hv.
  assert (Ht : exists t, b2n t = client_tag R strong m /\ (b2n t < 128)%N /\
                         put_tag postcard (client_tag R strong m) = [t]).
  { destruct m, strong; eexists; (split; [|split; [|reflexivity]]); reflexivity. }
  destruct Ht as (t & Et & Hl & Ep).
  set (body := skipn 1 (put_client R postcard strong m)).
  assert (Eb : put_client R postcard strong m = t :: body).
  { unfold body, put_client. rewrite Ep. reflexivity. }
  exists (n2b (b2n t + 128) :: x00 :: body). split.
  - rewrite Eb. intros E. injection E as E _. apply (f_equal b2n) in E.
    rewrite b2n_n2b, N.mod_small in E by (clear - Hl; lia). clear - E. lia.
  - pose proof (C48_client_roundtrip postcard strong K1 m [] (or_intror eq_refl) Hh Hv) as G.
    rewrite app_nil_r, Eb in G. rewrite <- G. unfold get_client, dbind. cbn [postcard get_tag].
    assert (E : get_varint 5 15 (n2b (b2n t + 128) :: x00 :: body) = get_varint 5 15 (t :: body)).
    { cbn [get_varint]. rewrite b2n_n2b, N.mod_small by (clear - Hl; lia).
      destruct (N.ltb_spec (b2n t + 128) 128) as [H|H]; [exfalso; clear - H; lia|].
      destruct (N.ltb_spec (b2n t) 128) as [H'|H']; [|exfalso; clear - H' Hl; lia].
      cbn. f_equal. f_equal. clear. lia. }
    now rewrite E.
Qed.

(** The messages the library makes are valid, when parameters have valid strings: nonces, user names,
    authenticators and registrations of a client, *)
Theorem C48_client_nonce_valid :
  forall T K1 (c : AuCPaceClient T), (N.of_nat K1 < 2 ^ 63)%N ->
  client_valid R K1 (snd (fst (client_begin R T K1 c))).
Proof.
  intros T K1 c HK. unfold client_begin, generate_nonce.
  pose proof (rng_fill_length T K1 (c_rng T c)) as HL. destruct (rng_fill T K1 (c_rng T c)) as [n st].
  cbn in *. unfold small. now rewrite HL.
Qed.
Theorem C48_client_authenticator_valid :
  forall D, (forall m, length (D m) = 64) -> forall K1 c Y st m,
  receive_server_pubkey R D c Y = Ok (st, m) -> client_valid R K1 m.
Proof.
  intros D Dlen K1 c Y st m. unfold receive_server_pubkey. destruct (is_identity Y); [discriminate|].
  rewrite authenticators_eq. unfold spec_Tb at 1. rewrite expect64_D by exact Dlen. cbn [obind].
  intros E. injection E as _ <-. apply Dlen.
Qed.
Theorem C48_registration_valid :
  forall (Params : Type) (params_try_into : Params -> outcome pherror bytes) T K1 mode (c : AuCPaceClient T)
    user pass params h m c',
  (forall p s, params_try_into p = Ok s -> params_valid s) -> small user -> fits mode user pass ->
  do_register R Params params_try_into mode T c user pass params h = (Ok m, c') -> client_valid R K1 m.
Proof.
  intros Params pti T K1 mode c user pass params h m c' HP Hu HF Hreg.
  assert (Hm : exists u s p W, m = CRegistration u s p W).
  { rewrite do_register_eq in Hreg by exact HF. injection Hreg as E _.
    destruct (spec_w _ _ _ _ _) as [w|e|]; cbn [obind] in E; try discriminate.
    destruct (pti params) as [p|e|]; cbn [omap_err obind] in E; try discriminate.
    injection E as <-. now do 4 eexists. }
  destruct Hm as (u & s & p & W & ->). apply do_register_ok in Hreg; [|exact HF].
  destruct Hreg as (-> & -> & Hp & _). apply HP in Hp. cbn [client_valid].
  split; [exact Hu|split; [apply salt_generate_eq|exact Hp]].
Qed.
Theorem C48_strong_registration_valid :
  forall (D : bytes -> bytes) (Params : Type) (params_try_into : Params -> outcome pherror bytes) T K1 mode
    (c : AuCPaceClient T) user pass params h m c',
  (forall p s, params_try_into p = Ok s -> params_valid s) -> small user -> fits mode user pass ->
  do_register_strong R D Params params_try_into mode T c user pass params h = (Ok m, c') -> client_valid R K1 m.
Proof.
  intros D Params pti T K1 mode c user pass params h m c' HP Hu HF Hreg.
  assert (Hm : exists u s p W, m = CStrongRegistration u s p W).
  { rewrite do_register_strong_eq in Hreg by (exact HF || exact L). cbv zeta in Hreg. injection Hreg as E _.
    destruct (spec_w _ _ _ _ _) as [w|e|]; cbn [obind] in E; try discriminate.
    destruct (pti params) as [p|e|]; cbn [omap_err obind] in E; try discriminate.
    injection E as <-. now do 4 eexists. }
  destruct Hm as (u & s & p & W & ->). apply do_register_strong_ok in Hreg; [|exact L|exact HF].
  destruct Hreg as (-> & Hp & _). apply HP in Hp. cbn [client_valid]. exact (conj Hu Hp).
Qed.

(** and of a server the nonce, the authenticator and the reply for any user name, known or not, if the
    records in the database are valid. *)
Theorem C48_server_nonce_valid :
  forall T K1 (s : AuCPaceServer T), (N.of_nat K1 < 2 ^ 63)%N ->
  server_valid R K1 (snd (fst (server_begin R T K1 s))).
Proof.
  intros T K1 s HK. unfold server_begin, generate_nonce.
  pose proof (rng_fill_length T K1 (s_rng T s)) as HL. destruct (rng_fill T K1 (s_rng T s)) as [n st].
  cbn in *. unfold small. now rewrite HL.
Qed.
Theorem C48_server_authenticator_valid :
  forall D, (forall m, length (D m) = 64) -> forall K1 s a k m,
  receive_client_authenticator R D s a = Ok (k, m) -> server_valid R K1 m.
Proof.
  intros D Dlen K1 s a k m. unfold receive_client_authenticator. rewrite authenticators_eq.
  match goal with |- context [if ?b then _ else _] => destruct b; [|discriminate] end.
  unfold spec_Ta at 1. rewrite expect64_D by exact Dlen. cbn [obind].
  intros E. injection E as _ <-. apply Dlen.
Qed.
Theorem C48_augmentation_valid :
  forall D, (forall m, length (D m) = 64) -> forall (DB : Database R) T K1 s user d st v m,
  (forall W salt ps, lookup_verifier DB d user = Some (W, salt, ps) -> salt_valid salt /\ params_valid ps) ->
  generate_client_info R D DB T s user d st = Ok (v, m) -> server_valid R K1 m.
Proof.
  intros D Dlen DB T K1 s user d st v m HD. rewrite generate_client_info_eq. unfold generate_prs.
  destruct (lookup_verifier DB d user) as [[[W salt] ps]|].
  - cbn [cpace_substep obind]. intros E. injection E as _ <-. destruct (HD _ _ _ eq_refl) as [H1 H2].
    cbn [server_valid]. split; [reflexivity|split; [now apply short_small; cbn; lia|split; assumption]].
  - rewrite lookup_failed_eq by exact Dlen. cbn [cpace_substep obind]. intros E. injection E as _ <-.
    cbn [server_valid]. split; [reflexivity|split; [now apply short_small; cbn; lia|split]].
    + unfold fake_salt. apply salt_encode_ok. rewrite firstn_length, Dlen. cbn. lia.
    + split; [cbn; lia|now left].
Qed.
Theorem C48_strong_augmentation_valid :
  forall D (DB : StrongDatabase R) T K1 s user U d st v m,
  (forall W q ps, lookup_verifier_strong DB d user = Some (W, q, ps) -> params_valid ps) ->
  generate_client_info_strong R D DB T s user U d st = Ok (v, m) -> server_valid R K1 m.
Proof.
  intros D DB T K1 s user U d st v m HD. rewrite generate_client_info_strong_eq. unfold generate_prs_strong.
  destruct (lookup_verifier_strong DB d user) as [[[W q] ps]|].
  - destruct (is_identity _); cbn [cpace_substep obind]; [discriminate|]. intros E. injection E as _ <-.
    cbn [server_valid]. split; [reflexivity|split; [now apply short_small; cbn; lia|]]. exact (HD _ _ _ eq_refl).
  - rewrite lookup_failed_strong_eq. cbv zeta. destruct (is_identity _); cbn [cpace_substep obind]; [discriminate|].
    intros E. injection E as _ <-.
    cbn [server_valid]. split; [reflexivity|split; [now apply short_small; cbn; lia|]].
    split; [cbn; lia|now left].
Qed.

(** ** C49 *)

(** The first two variants have the same index in both builds, ... *)
Theorem C49_first_variants_partial :
  forall F s s' K1 rest, F = bincode \/ F = postcard ->
  (forall n, client_valid R K1 (CNonce n) ->
     get_client R F s' K1 (put_client R F s (CNonce n) ++ rest) = Some (CNonce n, rest)) /\
  (forall u, client_valid R K1 (CUsername u) ->
     get_client R F s' K1 (put_client R F s (CUsername u) ++ rest) = Some (CUsername u, rest)) /\
  (forall n, server_valid R K1 (SNonce n) ->
     get_server R F s' K1 (put_server R F s (SNonce n) ++ rest) = Some (SNonce n, rest)) /\
  (forall g X salt ps, server_valid R K1 (SAugmentationInfo g X salt ps) ->
     get_server R F s' K1 (put_server R F s (SAugmentationInfo g X salt ps) ++ rest)
     = Some (SAugmentationInfo g X salt ps, rest)).
Proof.
  intros F s s' K1 rest HF. repeat apply conj.
  - intros n Hn. exact (C48_client_roundtrip F s' K1 (CNonce n) rest HF eq_refl Hn).
  - intros n Hn. exact (C48_client_roundtrip F s' K1 (CUsername n) rest HF eq_refl Hn).
  - intros n Hn. exact (C48_server_roundtrip F s' K1 (SNonce n) rest HF eq_refl Hn).
  - intros g X salt ps Hn. exact (C48_server_roundtrip F s' K1 (SAugmentationInfo g X salt ps) rest HF eq_refl Hn).
Qed.

(** ... every later message that both builds have is never understood as itself. *)
Theorem C49_client_refuted :
  forall F s K1 K1' m rest rest', F = bincode \/ F = postcard ->
  match m with CPublicKey _ | CAuthenticator _ | CRegistration _ _ _ _ => True | _ => False end ->
  client_valid R K1 m ->
  get_client R F (negb s) K1' (put_client R F s m ++ rest) <> Some (m, rest').
Proof.
  intros F s K1 K1' m rest rest' HF Hm _ E.
  apply get_client_cases in E. destruct E as (t & r & Ht & Et & _).
  unfold put_client in Ht. rewrite <- app_assoc in Ht.
  rewrite (fl_tag F (example_format_laws F HF)) in Ht by apply client_tag_small.
  injection Ht as Ht _. rewrite Et in Ht. destruct m, s; try contradiction; discriminate Ht.
Qed.
Theorem C49_server_refuted :
  forall F s K1 K1' m rest rest', F = bincode \/ F = postcard ->
  match m with SPublicKey _ | SAuthenticator _ => True | _ => False end ->
  server_valid R K1 m ->
  get_server R F (negb s) K1' (put_server R F s m ++ rest) <> Some (m, rest').
Proof.
  intros F s K1 K1' m rest rest' HF Hm _ E.
  apply get_server_cases in E. destruct E as (t & r & Ht & Et & _).
  unfold put_server in Ht. rewrite <- app_assoc in Ht.
  rewrite (fl_tag F (example_format_laws F HF)) in Ht by apply server_tag_small.
  injection Ht as Ht _. rewrite Et in Ht. destruct m, s; try contradiction; discriminate Ht.
Qed.

(** A registration for a user name of 64 bytes, sent by a build without the feature, is an
    authenticator to a build with it; the bytes left over are ignored. *)
Theorem C49_registration_is_authenticator_refuted :
  forall F K1 u salt ps W, F = bincode \/ F = postcard -> length u = 64 ->
  exists rest, get_client R F true K1 (put_client R F false (CRegistration u salt ps W)) = Some (CAuthenticator u, rest).
Proof.
  intros F K1 u salt ps W HF Hu. eexists.
  replace (put_client R F false (CRegistration u salt ps W))
    with (put_client R F true (CAuthenticator u) ++ put_bytes F salt ++ put_bytes F ps ++ put_point R W).
  - apply (C48_client_roundtrip F true K1 (CAuthenticator u) _ HF eq_refl). exact Hu.
  - unfold put_client. cbn [client_tag]. now rewrite <- app_assoc.
Qed.
End Wire_properties.

(** ** Concrete cases *)
Section Cases.
Definition fmt_ok (F : format) (strong : bool) : bool :=
  let m := CStrongRegistration alice (sof 12345) (str "ln=15,r=8,p=1") (rmul (rbase ToyGroup) (sof 7)) in
  let b := put_client ToyGroup F strong m in
  match get_client ToyGroup F strong 16 (b ++ [x41]) with
  | Some (CStrongRegistration u q ps P, r) =>
      bytes_eqb u alice && Z.eqb (sval q) 12345 && bytes_eqb ps (str "ln=15,r=8,p=1") &&
      reqb ToyGroup P (rmul (rbase ToyGroup) (sof 7)) && bytes_eqb r [x41]
  | _ => false
  end.
Check (test (fmt_ok bincode true, fmt_ok postcard true, fmt_ok bincode false) (true, true, false)).

(* the bytes of a user name message in both formats *)
Check (test (put_client ToyGroup bincode true (CUsername alice)) ([x01; x00; x00; x00; x05; x00; x00; x00; x00; x00; x00; x00] ++ alice)).
Check (test (put_client ToyGroup postcard true (CUsername alice)) ([x01; x05] ++ alice)).
(* varints: 300, and the largest length; a tag of 2^32 is refused *)
Check (test (put_len postcard 300) [xac; x02]).
Check (test (get_len postcard (put_len postcard (2 ^ 64 - 1))) (Some ((2 ^ 64 - 1)%N, @nil byte))).
Check (test (get_tag postcard (put_varint 5 (2 ^ 32))) (@None (N * bytes))).
Check (test (get_tag postcard [x80; x00]) (Some (0%N, @nil byte))).

(* what is refused: a scalar that is not reduced, a salt with a bad character, a bad parameter *)
Check (test (match get_scalar (repeat xff 32) with None => true | _ => false end) true).
Check (test (get_salt bincode (put_bytes bincode (str "abc$"))) (@None (bytes * bytes))).
Check (test (get_salt bincode (put_bytes bincode (str "abcd"))) (Some (str "abcd", @nil byte))).
Check (test (get_params bincode (put_bytes bincode (str "ln"))) (@None (bytes * bytes))).
Check (test (get_str bincode (put_bytes bincode [xff])) (@None (bytes * bytes))).

(* C49: an authenticator of a build without the feature read as a public key by one with it *)
Definition auth_as_key : bool :=
  match get_client ToyGroup bincode true 16 (put_client ToyGroup bincode false (CAuthenticator (repeat x00 64))) with
  | Some (CPublicKey _, _) => true | _ => false end.
Check (test auth_as_key true).
Definition reg_as_auth (F : format) : bool :=
  match get_client ToyGroup F true 16
          (put_client ToyGroup F false (CRegistration (repeat x61 64) (str "abcd") [] (rbase ToyGroup))) with
  | Some (CAuthenticator a, _) => bytes_eqb a (repeat x61 64) | _ => false end.
Check (test (reg_as_auth bincode, reg_as_auth postcard) (true, true)).
End Cases.
