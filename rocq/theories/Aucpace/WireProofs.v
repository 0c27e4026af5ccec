(** * Facts about the decoders. *)
From Coq Require Import ZArith Lia.
From Verif Require Import Base.Bytes Base.Outcome Base.Utf8.
From Verif Require Import Curve.Scalar25519.
From Verif Require Import Aucpace.RistrettoGroup Aucpace.PwHash Aucpace.AucpaceModel Aucpace.Wire.
Local Open Scope nat_scope.

(** ** Parameter strings *)
Lemma split_on_none c p : ~ In c p -> split_on c p = [p].
Proof.
  induction p as [|x p IH]; intros H; cbn [split_on]; [reflexivity|].
  destruct (byte_eqb x c) eqn:E.
  - apply byte_eqb_eq in E. subst. exfalso. apply H. now left.
  - rewrite IH; [reflexivity|]. intros Hin. apply H. now right.
Qed.
Lemma split_on_app c p r : ~ In c p -> split_on c (p ++ c :: r) = p :: split_on c r.
Proof.
  induction p as [|x p IH]; intros H; cbn [split_on app].
  - now rewrite byte_eqb_refl.
  - destruct (byte_eqb x c) eqn:E.
    + apply byte_eqb_eq in E. subst. exfalso. apply H. now left.
    + rewrite IH; [reflexivity|]. intros Hin. apply H. now right.
Qed.
Lemma split_cases (c : byte) s : ~ In c s \/ exists p r, s = p ++ c :: r /\ ~ In c p.
Proof.
  induction s as [|x s IH]; [left; intros []|].
  destruct (byte_eq_dec x c) as [->|N].
  - right. exists [], s. split; [reflexivity|intros []].
  - destruct IH as [IH|(p & r & -> & Hp)].
    + left. intros [E|E]; [congruence|contradiction].
    + right. exists (x :: p), r. split; [reflexivity|]. intros [E|E]; [congruence|contradiction].
Qed.
Lemma first_split (c : byte) p r p' r' : ~ In c p -> ~ In c p' -> p ++ c :: r = p' ++ c :: r' -> p = p' /\ r = r'.
Proof.
  revert p'. induction p as [|x p IH]; intros [|x' p'] H H' E; cbn in E.
  - now injection E as ->.
  - injection E as E1 E2. exfalso. apply H'. now left.
  - injection E as E1 E2. exfalso. apply H. now left.
  - injection E as E1 E2. subst. destruct (IH p') as [-> ->]; [| |exact E2|now split]; intros Hin; [apply H|apply H']; now right.
Qed.
Lemma forallb_not_in (f : byte -> bool) c s : f c = false -> forallb f s = true -> ~ In c s.
Proof. intros Hc Hs Hin. rewrite forallb_forall in Hs. rewrite (Hs c Hin) in Hc. discriminate. Qed.

Lemma param_ok_iff p : param_ok p = Ok tt <-> pair_valid p.
Proof.
  assert (Hi : ident_char equals = false) by reflexivity.
  assert (Hv : value_char equals = false) by reflexivity.
  unfold param_ok. destruct (split_cases equals p) as [Hn|(n & r & -> & Hn)].
  - rewrite (split_on_none _ _ Hn). split.
    + destruct (ident_ok p); discriminate.
    + intros (n & v & -> & _). exfalso. apply Hn. rewrite in_app_iff. right. now left.
  - rewrite (split_on_app _ _ _ Hn). destruct (split_cases equals r) as [Hr|(v & r' & -> & Hr)].
    + rewrite (split_on_none _ _ Hr). unfold ident_ok, value_ok. split.
      * destruct (Nat.leb_spec 1 (length n)); [|discriminate].
        destruct (Nat.leb_spec (length n) 32); [|discriminate].
        destruct (forallb ident_char n) eqn:En; [|discriminate].
        destruct (Nat.leb_spec (length r) 64); [|discriminate].
        destruct (forallb value_char r) eqn:Er; [|discriminate].
        intros _. exists n, r. repeat (split; [first [reflexivity|lia|assumption]|]). assumption.
      * intros (n' & v' & E & Hl & Hn' & Hl' & Hv').
        cbn [app] in E. apply first_split in E; [|exact Hn|exact (forallb_not_in _ _ _ Hi Hn')].
        destruct E as [-> ->].
        rewrite Hn', Hv', (proj2 (Nat.leb_le 1 _)), (proj2 (Nat.leb_le (length n') 32)),
          (proj2 (Nat.leb_le (length v') 64)) by lia. reflexivity.
    + rewrite (split_on_app _ _ _ Hr). split.
      * intros E. exfalso. revert E. destruct (split_on equals r') eqn:Es.
        { exfalso. clear - Es. destruct r'; cbn [split_on] in Es; [discriminate|].
          destruct (byte_eqb _ _); [discriminate|]. destruct (split_on _ _); discriminate. }
        destruct (negb (ident_ok n)); discriminate.
      * intros (n' & v' & E & Hl & Hn' & Hl' & Hv').
        cbn [app] in E. apply first_split in E; [|exact Hn|exact (forallb_not_in _ _ _ Hi Hn')].
        destruct E as [_ <-]. exfalso. apply (forallb_not_in _ _ _ Hv Hv').
        rewrite in_app_iff. right. now left.
Qed.

Lemma pair_no_comma p : pair_valid p -> ~ In comma p.
Proof.
  intros (n & v & -> & _ & Hn & _ & Hv). rewrite !in_app_iff. intros [H|[[H|[]]|H]].
  - exact (forallb_not_in ident_char comma n eq_refl Hn H).
  - discriminate H.
  - exact (forallb_not_in value_char comma v eq_refl Hv H).
Qed.
Lemma param_ok_total p : param_ok p = Ok tt \/ param_ok p <> Ok tt.
Proof. destruct (param_ok p) as [[]|e|]; [now left|right; discriminate|right; discriminate]. Qed.

Lemma params_ok_iff s : params_ok (split_on comma s) = Ok tt <-> pairs_valid s.
Proof.
  split.
  - assert (HI : forall n s, length s <= n -> params_ok (split_on comma s) = Ok tt -> pairs_valid s).
    { induction n as [|n IH]; intros t Hl H.
      - destruct t; [|cbn in Hl; lia]. apply pv_one, param_ok_iff.
        cbn in H. discriminate H.
      - destruct (split_cases comma t) as [Ht|(p & r & -> & Hp)].
        + rewrite (split_on_none _ _ Ht) in H. cbn [params_ok] in H.
          apply pv_one, param_ok_iff. destruct (param_ok t) as [[]|e|]; [reflexivity|discriminate|discriminate].
        + rewrite (split_on_app _ _ _ Hp) in H. cbn [params_ok] in H.
          destruct (param_ok p) as [[]|e|] eqn:E; cbn [obind] in H; [|discriminate|discriminate].
          apply (pv_more p r); [now apply param_ok_iff|]. apply IH; [|exact H].
          rewrite app_length in Hl. cbn in Hl. lia. }
    apply (HI (length s)). lia.
  - induction 1 as [p Hp|p ps Hp Hps IH].
    + rewrite (split_on_none _ _ (pair_no_comma p Hp)). cbn [params_ok].
      now rewrite (proj2 (param_ok_iff p) Hp).
    + cbn [app]. rewrite (split_on_app _ _ _ (pair_no_comma p Hp)). cbn [params_ok].
      rewrite (proj2 (param_ok_iff p) Hp). exact IH.
Qed.

Lemma params_parse_iff s v : params_parse s = Ok v <-> v = s /\ params_valid s.
Proof.
  unfold params_parse, params_valid, params_max. destruct (Nat.ltb_spec 127 (length s)) as [H|H].
  - split; [discriminate|]. intros (_ & H' & _). lia.
  - destruct s as [|x s].
    + split; [intros E; injection E as <-; repeat split; [lia|now left]|]. now intros (-> & _).
    + destruct (params_ok (split_on comma (x :: s))) as [[]|e|] eqn:E; cbn [obind].
      * split; [intros E'; injection E' as <-|now intros (-> & _)].
        repeat split; [lia|]. right. now apply params_ok_iff.
      * split; [discriminate|]. intros (_ & _ & [H'|H']); [discriminate|].
        apply params_ok_iff in H'. congruence.
      * split; [discriminate|]. intros (_ & _ & [H'|H']); [discriminate|].
        apply params_ok_iff in H'. congruence.
Qed.

(** ** Salts and parameters are ASCII *)
Notation ascii := (forallb (fun b => (b2n b <? 128)%N)).
Lemma forallb_impl (f g : byte -> bool) s :
  (forall c, f c = true -> g c = true) -> forallb f s = true -> forallb g s = true.
Proof. intros H. rewrite !forallb_forall. intros Hs x Hx. apply H, Hs, Hx. Qed.
Lemma value_ascii c : value_char c = true -> (b2n c <? 128)%N = true.
Proof. destruct c; vm_compute; congruence. Qed.
Lemma ident_ascii c : ident_char c = true -> (b2n c <? 128)%N = true.
Proof. destruct c; vm_compute; congruence. Qed.
Lemma salt_utf8 s : salt_valid s -> utf8_valid s = true.
Proof. intros [_ H]. apply utf8_ascii. exact (forallb_impl _ _ _ value_ascii H). Qed.
Lemma pair_ascii p : pair_valid p -> ascii p = true.
Proof.
  intros (n & v & -> & _ & Hn & _ & Hv). rewrite !forallb_app.
  rewrite (forallb_impl _ _ _ ident_ascii Hn), (forallb_impl _ _ _ value_ascii Hv). reflexivity.
Qed.
Lemma params_utf8 s : params_valid s -> utf8_valid s = true.
Proof.
  intros [_ [->|H]]; [reflexivity|]. apply utf8_ascii.
  induction H as [p Hp|p ps Hp Hps IH]; [now apply pair_ascii|].
  rewrite !forallb_app, (pair_ascii p Hp), IH. reflexivity.
Qed.

(** ** Formats *)
Record format_laws (F : format) : Prop := {
  fl_tag : forall n r, (n < 2 ^ 32)%N -> get_tag F (put_tag F n ++ r) = Some (n, r);
  fl_len : forall n r, (n < 2 ^ 64)%N -> get_len F (put_len F n ++ r) = Some (n, r);
  fl_tag_shorter : forall b n r, get_tag F b = Some (n, r) -> length r <= length b;
  fl_len_shorter : forall b n r, get_len F b = Some (n, r) -> length r <= length b
}.
(** a value has one encoding *)
Record format_canonical (F : format) : Prop := {
  fc_tag : forall b n r, get_tag F b = Some (n, r) -> b = put_tag F n ++ r;
  fc_len : forall b n r, get_len F b = Some (n, r) -> b = put_len F n ++ r
}.

Lemma take_app n a r : N.of_nat (length a) = n -> take n (a ++ r) = Some (a, r).
Proof.
  intros <-. unfold take. rewrite app_length, (proj2 (N.leb_le _ _)) by lia.
  rewrite Nat2N.id, firstn_app, firstn_all, Nat.sub_diag, firstn_O, app_nil_r.
  rewrite skipn_app, skipn_all, Nat.sub_diag, skipn_O. reflexivity.
Qed.
Lemma take_inv n b a r : take n b = Some (a, r) -> b = a ++ r /\ N.of_nat (length a) = n.
Proof.
  unfold take. destruct (N.leb_spec n (N.of_nat (length b))) as [H|]; [|discriminate].
  intros E. injection E as <- <-. split; [now rewrite firstn_skipn|].
  rewrite firstn_length. lia.
Qed.
Lemma get_le_put k n r : (n < 256 ^ N.of_nat k)%N -> get_le k (le_bytes k n ++ r) = Some (n, r).
Proof.
  intros H. unfold get_le, dbind. rewrite take_app by now rewrite le_bytes_length.
  unfold dret. now rewrite le_val_le_bytes, N.mod_small by exact H.
Qed.
Lemma get_le_inv k b n r : get_le k b = Some (n, r) -> b = le_bytes k n ++ r.
Proof.
  unfold get_le, dbind. destruct (take (N.of_nat k) b) as [[a r']|] eqn:E; [|discriminate].
  apply take_inv in E. destruct E as [-> E]. intros H. injection H as <- <-.
  apply Nat2N.inj in E. rewrite <- E at 1. now rewrite le_bytes_le_val.
Qed.

Lemma bincode_canonical : format_canonical bincode.
Proof. split; intros b n r; apply get_le_inv. Qed.
Lemma bincode_laws : format_laws bincode.
Proof.
  split.
  - intros n r H. now apply get_le_put.
  - intros n r H. now apply get_le_put.
  - intros b n r H. apply get_le_inv in H. rewrite H, app_length. lia.
  - intros b n r H. apply get_le_inv in H. rewrite H, app_length. lia.
Qed.

Lemma get_varint_put last r : (last < 128)%N -> forall k n, (n < (last + 1) * 128 ^ N.of_nat k)%N ->
  get_varint (S k) last (put_varint (S k) n ++ r) = Some (n, r).
Proof.
  intros Hlast. induction k as [|k IH]; intros n Hn.
  - cbn in Hn. rewrite N.mul_1_r in Hn. cbn [put_varint]. destruct (N.ltb_spec n 128) as [H|H]; [|lia].
    cbn [get_varint app]. rewrite b2n_n2b, N.mod_small by lia.
    destruct (N.ltb_spec n 128); [|lia]. cbn [Nat.eqb andb].
    destruct (N.ltb_spec last n); [lia|reflexivity].
  - remember (S k) as k' eqn:Ek. cbn [put_varint]. destruct (N.ltb_spec n 128) as [H|H].
    + cbn [get_varint app]. rewrite b2n_n2b, N.mod_small by lia.
      destruct (N.ltb_spec n 128); [|lia]. rewrite Ek. reflexivity.
    + cbn [app get_varint].
      cbv beta zeta. pose proof (N.mod_lt n 128 ltac:(lia)) as Hm.
      rewrite b2n_n2b, N.mod_small by lia. destruct (N.ltb_spec (n mod 128 + 128) 128); [lia|].
      subst k'. rewrite IH.
      * f_equal. f_equal. pose proof (N.div_mod n 128 ltac:(lia)). lia.
      * apply N.div_lt_upper_bound; [lia|]. rewrite Nat2N.inj_succ, N.pow_succ_r' in Hn. lia.
Qed.
Lemma get_varint_shorter last : forall k b n r, get_varint k last b = Some (n, r) -> length r <= length b.
Proof.
  induction k as [|k IH]; intros [|x b] n r; try discriminate. cbn [get_varint]. cbv zeta.
  destruct (N.ltb (b2n x) 128).
  - destruct (_ && _); [discriminate|]. intros E. injection E as _ <-. cbn [length]. lia.
  - destruct (get_varint k last b) as [[w r']|] eqn:G; [|discriminate].
    intros E. injection E as _ <-. apply IH in G. cbn [length]. lia.
Qed.
Lemma postcard_laws : format_laws postcard.
Proof.
  split.
  - intros n r H. apply (get_varint_put 15 r ltac:(lia) 4). exact H.
  - intros n r H. apply (get_varint_put 1 r ltac:(lia) 9). exact H.
  - intros b n r. apply get_varint_shorter.
  - intros b n r. apply get_varint_shorter.
Qed.

(** ** Decoders *)

(** [reads d e P]: [d] reads back what [e] writes, for values with [P];
    [sound d P]: whatever [d] reads from an input of legal size has [P];
    [canon d e]: [d] reads only what [e] writes. *)
Definition reads {A} (d : decoder A) (e : A -> bytes) (P : A -> Prop) : Prop :=
  forall a r, P a -> d (e a ++ r) = Some (a, r).
Definition sound {A} (d : decoder A) (P : A -> Prop) : Prop :=
  forall b a r, small b -> d b = Some (a, r) -> P a /\ length r <= length b.
Definition canon {A} (d : decoder A) (e : A -> bytes) : Prop :=
  forall b a r, d b = Some (a, r) -> b = e a ++ r.

Lemma dbind_ok {A B} (m : decoder A) (k : A -> decoder B) b v :
  dbind m k b = Some v -> exists a r, m b = Some (a, r) /\ k a r = Some v.
Proof. unfold dbind. destruct (m b) as [[a r]|]; [|discriminate]. intros E. now exists a, r. Qed.

Section Decoders.
Context (R : RGroup) (L : rgroup_laws R) (F : format) (FL : format_laws F).

Lemma small_le (a b : bytes) : length a <= length b -> small b -> small a.
Proof. unfold small. intros H H'. eapply N.le_lt_trans; [|exact H']. lia. Qed.

Lemma reads_bytes : reads (get_bytes F) (put_bytes F) small.
Proof.
  intros s r Hs. unfold get_bytes, put_bytes, dbind. rewrite <- app_assoc, (fl_len F FL).
  - now apply take_app.
  - unfold small in Hs. eapply N.lt_trans; [exact Hs|reflexivity].
Qed.
Lemma sound_bytes : sound (get_bytes F) small.
Proof.
  intros b s r Hb H. apply dbind_ok in H. destruct H as (n & r1 & H1 & H2).
  apply (fl_len_shorter F FL) in H1. apply take_inv in H2. destruct H2 as [-> _].
  rewrite app_length in H1. split; [|lia]. apply (small_le _ b); [lia|exact Hb].
Qed.
Lemma canon_bytes : format_canonical F -> canon (get_bytes F) (put_bytes F).
Proof.
  intros FC b s r H. apply dbind_ok in H. destruct H as (n & r1 & H1 & H2).
  apply (fc_len F FC) in H1. apply take_inv in H2. destruct H2 as [-> <-].
  unfold put_bytes. now rewrite <- app_assoc.
Qed.

Lemma dtest_ok {A} (t : bool) (a v : A) b r : (if t then dret a else dfail) b = Some (v, r) -> t = true /\ v = a /\ r = b.
Proof. destruct t; [|discriminate]. intros E. injection E as <- <-. now repeat split. Qed.
Lemma dopt_ok {A} (o : option A) v b r : dopt o b = Some (v, r) -> o = Some v /\ r = b.
Proof. destruct o; [|discriminate]. intros E. injection E as <- <-. now split. Qed.

Lemma reads_str : reads (get_str F) (put_bytes F) (fun s => utf8_valid s = true /\ small s).
Proof.
  intros s r [Hu Hs]. unfold get_str, dbind. rewrite reads_bytes by exact Hs. now rewrite Hu.
Qed.
Lemma sound_str : sound (get_str F) (fun s => utf8_valid s = true /\ small s).
Proof.
  intros b s r Hb H. apply dbind_ok in H. destruct H as (s' & r1 & H1 & H2).
  apply dtest_ok in H2. destruct H2 as (H2 & -> & ->). apply sound_bytes in H1; [|exact Hb].
  destruct H1 as [H1 H3]. now repeat split.
Qed.
Lemma canon_str : format_canonical F -> canon (get_str F) (put_bytes F).
Proof.
  intros FC b s r H. apply dbind_ok in H. destruct H as (s' & r1 & H1 & H2).
  apply dtest_ok in H2. destruct H2 as (_ & -> & ->). now apply canon_bytes.
Qed.

Lemma reads_array n : reads (get_array F n) (put_bytes F) (fun s => length s = n /\ small s).
Proof.
  intros s r [Hn Hs]. unfold get_array, dbind. rewrite reads_bytes by exact Hs.
  now rewrite Hn, Nat.eqb_refl.
Qed.
Lemma sound_array n : sound (get_array F n) (fun s => length s = n /\ small s).
Proof.
  intros b s r Hb H. apply dbind_ok in H. destruct H as (s' & r1 & H1 & H2).
  apply dtest_ok in H2. destruct H2 as (H2 & -> & ->). apply Nat.eqb_eq in H2.
  apply sound_bytes in H1; [|exact Hb]. destruct H1 as [H1 H3]. now repeat split.
Qed.
Lemma canon_array n : format_canonical F -> canon (get_array F n) (put_bytes F).
Proof.
  intros FC b s r H. apply dbind_ok in H. destruct H as (s' & r1 & H1 & H2).
  apply dtest_ok in H2. destruct H2 as (_ & -> & ->). now apply canon_bytes.
Qed.

Lemma reads_point : reads (get_point R) (put_point R) (fun _ => True).
Proof.
  intros P r _. unfold get_point, put_point, dbind.
  rewrite take_app by now rewrite (rl_length R L). now rewrite (rl_decompress R L).
Qed.
Lemma canon_point : canon (get_point R) (put_point R).
Proof.
  intros b P r H. apply dbind_ok in H. destruct H as (s & r1 & H1 & H2).
  apply take_inv in H1. destruct H1 as [-> H1]. apply dopt_ok in H2. destruct H2 as [H2 ->].
  unfold put_point. now rewrite (rl_canonical R L s P) by (try assumption; lia).
Qed.
Lemma reads_scalar : reads get_scalar scalar_bytes (fun _ => True).
Proof.
  intros q r _. unfold get_scalar, dbind. rewrite take_app by now rewrite scalar_bytes_length.
  now rewrite scalar_canonical_bytes.
Qed.
Lemma canon_scalar : canon get_scalar scalar_bytes.
Proof.
  intros b q r H. apply dbind_ok in H. destruct H as (s & r1 & H1 & H2).
  apply take_inv in H1. destruct H1 as [-> H1]. apply dopt_ok in H2. destruct H2 as [H2 ->].
  now rewrite (scalar_canonical_inv s q) by (try assumption; lia).
Qed.
Lemma canon_sound {A} (d : decoder A) e : canon d e -> sound d (fun _ => True).
Proof. intros H b a r _ E. split; [exact I|]. rewrite (H b a r E), app_length. lia. Qed.

Lemma short_small s : length s <= 127 -> small s.
Proof.
  intros H. unfold small. apply (N.le_lt_trans _ 127); [lia|reflexivity].
Qed.
Lemma reads_salt : reads (get_salt F) (put_bytes F) salt_valid.
Proof.
  intros s r Hs. unfold get_salt, dbind. rewrite reads_str.
  - now rewrite (proj2 (salt_from_b64_ok s s) (conj eq_refl Hs)).
  - split; [now apply salt_utf8|]. destruct Hs as [Hs _]. apply short_small. lia.
Qed.
Lemma sound_salt : sound (get_salt F) salt_valid.
Proof.
  intros b s r Hb H. apply dbind_ok in H. destruct H as (s' & r1 & H1 & H2).
  apply dopt_ok in H2. destruct H2 as [H2 ->]. apply sound_str in H1; [|exact Hb].
  destruct (salt_from_b64 s') as [v|e|] eqn:E; try discriminate. injection H2 as <-.
  apply salt_from_b64_ok in E. destruct E as [-> E]. split; [exact E|apply H1].
Qed.
Lemma canon_salt : format_canonical F -> canon (get_salt F) (put_bytes F).
Proof.
  intros FC b s r H. apply dbind_ok in H. destruct H as (s' & r1 & H1 & H2).
  apply dopt_ok in H2. destruct H2 as [H2 ->].
  destruct (salt_from_b64 s') as [v|e|] eqn:E; try discriminate. injection H2 as <-.
  apply salt_from_b64_ok in E. destruct E as [-> _]. now apply canon_str.
Qed.
Lemma reads_params : reads (get_params F) (put_bytes F) params_valid.
Proof.
  intros s r Hs. unfold get_params, dbind. rewrite reads_str.
  - now rewrite (proj2 (params_parse_iff s s) (conj eq_refl Hs)).
  - split; [now apply params_utf8|]. destruct Hs as [Hs _]. now apply short_small.
Qed.
Lemma sound_params : sound (get_params F) params_valid.
Proof.
  intros b s r Hb H. apply dbind_ok in H. destruct H as (s' & r1 & H1 & H2).
  apply dopt_ok in H2. destruct H2 as [H2 ->]. apply sound_str in H1; [|exact Hb].
  destruct (params_parse s') as [v|e|] eqn:E; try discriminate. injection H2 as <-.
  apply params_parse_iff in E. destruct E as [-> E]. split; [exact E|apply H1].
Qed.
Lemma canon_params : format_canonical F -> canon (get_params F) (put_bytes F).
Proof.
  intros FC b s r H. apply dbind_ok in H. destruct H as (s' & r1 & H1 & H2).
  apply dopt_ok in H2. destruct H2 as [H2 ->].
  destruct (params_parse s') as [v|e|] eqn:E; try discriminate. injection H2 as <-.
  apply params_parse_iff in E. destruct E as [-> _]. now apply canon_str.
Qed.

(** ** Messages *)
Lemma client_tag_small strong m : (client_tag R strong m < 2 ^ 32)%N.
Proof. destruct m, strong; reflexivity. Qed.
Lemma server_tag_small strong m : (server_tag R strong m < 2 ^ 32)%N.
Proof. destruct m, strong; reflexivity. Qed.

Ltac field H := apply dbind_ok in H; let a := fresh "a" in let r := fresh "r" in let G := fresh "G" in
  destruct H as (a & r & G & H).
Ltac final H := unfold dret in H; injection H; clear H; intros; subst.

Lemma auth_small (a : bytes) : length a = 64 -> small a.
Proof. intros H. apply short_small. rewrite H. lia. Qed.

Lemma get_client_put strong K1 m r : client_has R strong m = true -> client_valid R K1 m ->
  get_client R F strong K1 (put_client R F strong m ++ r) = Some (m, r).
Proof.
  intros Hh Hv. unfold get_client, put_client, dbind at 1. rewrite <- app_assoc.
  rewrite (fl_tag F FL) by apply client_tag_small.
  destruct m as [n|u|u P|P|a|u salt ps P|u q ps P]; cbn [client_tag client_has client_valid] in *.
  - destruct strong; unfold get_cnonce, dbind; now rewrite reads_array.
  - destruct strong; unfold get_cusername, dbind; now rewrite reads_bytes.
  - rewrite Hh. unfold get_cstrong_username, dbind. rewrite <- app_assoc, reads_bytes by exact Hv.
    now rewrite reads_point.
  - destruct strong; unfold get_cpublic_key, dbind; now rewrite reads_point.
  - destruct strong; unfold get_cauthenticator, dbind; (rewrite reads_array; [reflexivity|]);
      (split; [exact Hv|now apply auth_small]).
  - destruct Hv as (H1 & H2 & H3).
    destruct strong; unfold get_cregistration, dbind; rewrite <- !app_assoc, reads_bytes by exact H1;
      rewrite reads_salt by exact H2; rewrite reads_params by exact H3; now rewrite reads_point.
  - destruct Hv as (H1 & H2). rewrite Hh. unfold get_cstrong_registration, dbind.
    rewrite <- !app_assoc, reads_bytes by exact H1. rewrite reads_scalar by exact I.
    rewrite reads_params by exact H2. now rewrite reads_point.
Qed.
Lemma get_server_put strong K1 m r : server_has R strong m = true -> server_valid R K1 m ->
  get_server R F strong K1 (put_server R F strong m ++ r) = Some (m, r).
Proof.
  intros Hh Hv. unfold get_server, put_server, dbind at 1. rewrite <- app_assoc.
  rewrite (fl_tag F FL) by apply server_tag_small.
  destruct m as [n|g X salt ps|g X bs ps|P|a]; cbn [server_tag server_has server_valid] in *.
  - destruct strong; unfold get_snonce, dbind; now rewrite reads_array.
  - destruct Hv as (H0 & H1 & H2 & H3).
    destruct strong; unfold get_saug, dbind; rewrite <- !app_assoc, reads_str by (now split);
      rewrite reads_point by exact I; rewrite reads_salt by exact H2; now rewrite reads_params.
  - destruct Hv as (H0 & H1 & H3). rewrite Hh.
    unfold get_sstrong_aug, dbind; rewrite <- !app_assoc, reads_str by (now split);
      rewrite !reads_point by exact I; now rewrite reads_params.
  - destruct strong; unfold get_spublic_key, dbind; now rewrite reads_point.
  - destruct strong; unfold get_sauthenticator, dbind; (rewrite reads_array; [reflexivity|]);
      (split; [exact Hv|now apply auth_small]).
Qed.

(** One decoder for each variant. *)
Lemma get_client_cases strong K1 b m r : get_client R F strong K1 b = Some (m, r) ->
  exists t r', get_tag F b = Some (t, r') /\ t = client_tag R strong m /\ client_has R strong m = true /\
  match m with
  | CNonce _ => get_cnonce R F K1 | CUsername _ => get_cusername R F
  | CStrongUsername _ _ => get_cstrong_username R F | CPublicKey _ => get_cpublic_key R
  | CAuthenticator _ => get_cauthenticator R F | CRegistration _ _ _ _ => get_cregistration R F
  | CStrongRegistration _ _ _ _ => get_cstrong_registration R F
  end r' = Some (m, r).
Proof.
  intros H. apply dbind_ok in H. destruct H as (t & r' & HT & H). exists t, r'. split; [exact HT|].
  assert (HN : get_cnonce R F K1 r' = Some (m, r) -> exists n, m = CNonce n)
    by (intros E; field E; final E; now eexists).
  assert (HU : get_cusername R F r' = Some (m, r) -> exists u, m = CUsername u)
    by (intros E; field E; final E; now eexists).
  assert (HSU : get_cstrong_username R F r' = Some (m, r) -> exists u P, m = CStrongUsername u P)
    by (intros E; field E; field E; final E; now do 2 eexists).
  assert (HP : get_cpublic_key R r' = Some (m, r) -> exists P, m = CPublicKey P)
    by (intros E; field E; final E; now eexists).
  assert (HA : get_cauthenticator R F r' = Some (m, r) -> exists a, m = CAuthenticator a)
    by (intros E; field E; final E; now eexists).
  assert (HR : get_cregistration R F r' = Some (m, r) -> exists u s p P, m = CRegistration u s p P)
    by (intros E; do 4 field E; final E; now do 4 eexists).
  assert (HSR : get_cstrong_registration R F r' = Some (m, r) -> exists u s p P, m = CStrongRegistration u s p P)
    by (intros E; do 4 field E; final E; now do 4 eexists).
  destruct strong, t as [|t]; try discriminate H;
    try (destruct t as [t|t|]; try discriminate H);
    try (destruct t as [t|t|]; try discriminate H);
    try (destruct t as [t|t|]; try discriminate H);
    try (destruct (HN H) as [? ->]; now repeat split);
    try (destruct (HU H) as [? ->]; now repeat split);
    try (destruct (HSU H) as (? & ? & ->); now repeat split);
    try (destruct (HP H) as [? ->]; now repeat split);
    try (destruct (HA H) as [? ->]; now repeat split);
    try (destruct (HR H) as (? & ? & ? & ? & ->); now repeat split);
    try (destruct (HSR H) as (? & ? & ? & ? & ->); now repeat split).
Qed.
Lemma get_server_cases strong K1 b m r : get_server R F strong K1 b = Some (m, r) ->
  exists t r', get_tag F b = Some (t, r') /\ t = server_tag R strong m /\ server_has R strong m = true /\
  match m with
  | SNonce _ => get_snonce R F K1 | SAugmentationInfo _ _ _ _ => get_saug R F
  | SStrongAugmentationInfo _ _ _ _ => get_sstrong_aug R F | SPublicKey _ => get_spublic_key R
  | SAuthenticator _ => get_sauthenticator R F
  end r' = Some (m, r).
Proof.
  intros H. apply dbind_ok in H. destruct H as (t & r' & HT & H). exists t, r'. split; [exact HT|].
  assert (HN : get_snonce R F K1 r' = Some (m, r) -> exists n, m = SNonce n)
    by (intros E; field E; final E; now eexists).
  assert (HU : get_saug R F r' = Some (m, r) -> exists u s p P, m = SAugmentationInfo u s p P)
    by (intros E; do 4 field E; final E; now do 4 eexists).
  assert (HSU : get_sstrong_aug R F r' = Some (m, r) -> exists u s p P, m = SStrongAugmentationInfo u s p P)
    by (intros E; do 4 field E; final E; now do 4 eexists).
  assert (HP : get_spublic_key R r' = Some (m, r) -> exists P, m = SPublicKey P)
    by (intros E; field E; final E; now eexists).
  assert (HA : get_sauthenticator R F r' = Some (m, r) -> exists a, m = SAuthenticator a)
    by (intros E; field E; final E; now eexists).
  destruct strong, t as [|t]; try discriminate H;
    try (destruct t as [t|t|]; try discriminate H);
    try (destruct t as [t|t|]; try discriminate H);
    try (destruct t as [t|t|]; try discriminate H);
    try (destruct (HN H) as [? ->]; now repeat split);
    try (destruct (HU H) as (? & ? & ? & ? & ->); now repeat split);
    try (destruct (HSU H) as (? & ? & ? & ? & ->); now repeat split);
    try (destruct (HP H) as [? ->]; now repeat split);
    try (destruct (HA H) as [? ->]; now repeat split).
Qed.

Lemma tag_small_rest b t r : small b -> get_tag F b = Some (t, r) -> small r.
Proof. intros Hb H. apply (fl_tag_shorter F FL) in H. exact (small_le _ _ H Hb). Qed.

Lemma get_client_valid strong K1 b m r : small b -> get_client R F strong K1 b = Some (m, r) ->
  client_has R strong m = true /\ client_valid R K1 m.
Proof.
  intros Hb H. apply get_client_cases in H. destruct H as (t & r' & HT & _ & Hh & H). split; [exact Hh|].
  pose proof (tag_small_rest _ _ _ Hb HT) as Hr. clear HT Hb Hh.
  destruct m as [n|u|u P|P|a|u salt ps P|u q ps P]; cbn [client_valid].
  - field H. final H. apply sound_array in G; [apply G|exact Hr].
  - field H. final H. apply sound_bytes in G; [apply G|exact Hr].
  - field H. field H. final H. apply sound_bytes in G; [apply G|exact Hr].
  - exact I.
  - field H. final H. apply sound_array in G; [apply G|exact Hr].
  - do 4 field H. final H. apply sound_bytes in G; [|exact Hr]. destruct G as [G Hl].
    pose proof (small_le _ _ Hl Hr) as Hr1. apply sound_salt in G0; [|exact Hr1]. destruct G0 as [G0 Hl1].
    pose proof (small_le _ _ Hl1 Hr1) as Hr2. apply sound_params in G1; [|exact Hr2]. destruct G1 as [G1 _].
    exact (conj G (conj G0 G1)).
  - do 4 field H. final H. apply sound_bytes in G; [|exact Hr]. destruct G as [G Hl].
    pose proof (small_le _ _ Hl Hr) as Hr1. apply (canon_sound _ _ canon_scalar) in G0; [|exact Hr1].
    destruct G0 as [_ Hl1].
    pose proof (small_le _ _ Hl1 Hr1) as Hr2. apply sound_params in G1; [|exact Hr2]. destruct G1 as [G1 _].
    exact (conj G G1).
Qed.
Lemma get_server_valid strong K1 b m r : small b -> get_server R F strong K1 b = Some (m, r) ->
  server_has R strong m = true /\ server_valid R K1 m.
Proof.
  intros Hb H. apply get_server_cases in H. destruct H as (t & r' & HT & _ & Hh & H). split; [exact Hh|].
  pose proof (tag_small_rest _ _ _ Hb HT) as Hr. clear HT Hb Hh.
  destruct m as [n|g X salt ps|g X bs ps|P|a]; cbn [server_valid].
  - field H. final H. apply sound_array in G; [apply G|exact Hr].
  - do 4 field H. final H. apply sound_str in G; [|exact Hr]. destruct G as [[G G'] Hl].
    pose proof (small_le _ _ Hl Hr) as Hr1. apply (canon_sound _ _ canon_point) in G0; [|exact Hr1].
    destruct G0 as [_ Hl1]. pose proof (small_le _ _ Hl1 Hr1) as Hr2.
    apply sound_salt in G1; [|exact Hr2]. destruct G1 as [G1 Hl2]. pose proof (small_le _ _ Hl2 Hr2) as Hr3.
    apply sound_params in G2; [|exact Hr3]. destruct G2 as [G2 _]. exact (conj G (conj G' (conj G1 G2))).
  - do 4 field H. final H. apply sound_str in G; [|exact Hr]. destruct G as [[G G'] Hl].
    pose proof (small_le _ _ Hl Hr) as Hr1. apply (canon_sound _ _ canon_point) in G0; [|exact Hr1].
    destruct G0 as [_ Hl1]. pose proof (small_le _ _ Hl1 Hr1) as Hr2.
    apply (canon_sound _ _ canon_point) in G1; [|exact Hr2]. destruct G1 as [_ Hl2].
    pose proof (small_le _ _ Hl2 Hr2) as Hr3.
    apply sound_params in G2; [|exact Hr3]. destruct G2 as [G2 _]. exact (conj G (conj G' G2)).
  - exact I.
  - field H. final H. apply sound_array in G; [apply G|exact Hr].
Qed.

Lemma get_client_canon strong K1 b m r : format_canonical F -> get_client R F strong K1 b = Some (m, r) ->
  b = put_client R F strong m ++ r.
Proof.
  intros FC H. apply get_client_cases in H. destruct H as (t & r' & HT & -> & _ & H).
  apply (fc_tag F FC) in HT. subst b. unfold put_client. rewrite <- app_assoc. f_equal.
  destruct m as [n|u|u P|P|a|u salt ps P|u q ps P].
  - field H. final H. now apply canon_array in G.
  - field H. final H. now apply canon_bytes in G.
  - do 2 field H. final H. apply canon_bytes in G; [|exact FC]. apply canon_point in G0. subst.
    now rewrite <- app_assoc.
  - field H. final H. now apply canon_point in G.
  - field H. final H. now apply canon_array in G.
  - do 4 field H. final H. apply canon_bytes in G; [|exact FC]. apply canon_salt in G0; [|exact FC].
    apply canon_params in G1; [|exact FC]. apply canon_point in G2. subst. now rewrite <- !app_assoc.
  - do 4 field H. final H. apply canon_bytes in G; [|exact FC]. apply canon_scalar in G0.
    apply canon_params in G1; [|exact FC]. apply canon_point in G2. subst. now rewrite <- !app_assoc.
Qed.
Lemma get_server_canon strong K1 b m r : format_canonical F -> get_server R F strong K1 b = Some (m, r) ->
  b = put_server R F strong m ++ r.
Proof.
  intros FC H. apply get_server_cases in H. destruct H as (t & r' & HT & -> & _ & H).
  apply (fc_tag F FC) in HT. subst b. unfold put_server. rewrite <- app_assoc. f_equal.
  destruct m as [n|g X salt ps|g X bs ps|P|a].
  - field H. final H. now apply canon_array in G.
  - do 4 field H. final H. apply canon_str in G; [|exact FC]. apply canon_point in G0.
    apply canon_salt in G1; [|exact FC]. apply canon_params in G2; [|exact FC]. subst. now rewrite <- !app_assoc.
  - do 4 field H. final H. apply canon_str in G; [|exact FC]. apply canon_point in G0. apply canon_point in G1.
    apply canon_params in G2; [|exact FC]. subst. now rewrite <- !app_assoc.
  - field H. final H. now apply canon_point in G.
  - field H. final H. now apply canon_array in G.
Qed.
End Decoders.
