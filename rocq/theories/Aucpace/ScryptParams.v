(** * What the example programs do with the hashing parameters the server sends
    (aucpace/examples/key_agreement.rs:176-183 and its copies: key_agreement_partial_aug.rs:184-191,
    key_agreement_strong.rs:180-187, key_agreement_no_std.rs:136-143, and the four integration tests).

    [ParamsString::get_str] (password-hash 0.5.0, params.rs), [str::parse] for [u8] and [u32], and
    [scrypt::Params] (scrypt 0.11.0, params.rs) are not in /repo; the model follows their published
    source, on a target with 64-bit [usize]. *)
From Coq Require Import ZArith Lia.
From Verif Require Import Base.Bytes Base.Outcome.
From Verif Require Import Aucpace.PwHash Aucpace.AucpaceModel Aucpace.Wire Aucpace.WireProofs.
Local Open Scope N_scope.

(** ** [ParamsString::get_str] *)

(** params.rs [Iter::next] and [ParamsString::get]; [expect]s in [next] are [Panic] *)
Fixpoint pairs_get (ps : list bytes) (name : bytes) : res (option bytes) :=
  match ps with
  | [] => Ok None
  | p :: r =>
      match split_on equals p with
      | n :: v :: _ =>
          if ident_ok n && value_ok v then
            if bytes_eqb name n then Ok (Some v) else pairs_get r name
          else Panic
      | _ => Panic
      end
  end.
Definition params_get (ps name : bytes) : res (option bytes) :=
  match ps with [] => Ok None | _ => pairs_get (split_on comma ps) name end.

(** ** [str::parse] for unsigned integers of at most [max] *)

Definition digit (c : byte) : option N :=
  let n := b2n c in if (48 <=? n) && (n <=? 57) then Some (n - 48) else None.
(** core/num: each step checks for overflow *)
Fixpoint parse_digits (max acc : N) (s : bytes) : option N :=
  match s with
  | [] => Some acc
  | c :: r =>
      match digit c with
      | None => None
      | Some d => let acc := acc * 10 + d in if acc <=? max then parse_digits max acc r else None
      end
  end.
Definition plus : byte := n2b 43.
Definition minus : byte := n2b 45.
Definition parse_uint (max : N) (s : bytes) : option N :=
  match s with
  | [] => None
  | [c] => if byte_eqb c plus || byte_eqb c minus then None else parse_digits max 0 s
  | c :: r => if byte_eqb c plus then parse_digits max 0 r else parse_digits max 0 s
  end.

(** ** [scrypt::Params] *)

Record scrypt_params := { sp_log_n : N; sp_r : N; sp_p : N }.

(** [Params::new] with the recommended length *)
Definition scrypt_new (log_n r p : N) : option scrypt_params :=
  if negb ((0 <? r) && (0 <? p) && (log_n <? 64)) then None
  else let n := 2 ^ log_n in
  let r128 := r * 128 in
  if negb (r128 <? 2 ^ 64) then None
  else if negb (r128 * n <? 2 ^ 64) then None
  else if negb (r128 * p <? 2 ^ 64) then None
  else if r * 16 <=? log_n then None
  else if 2 ^ 30 <=? r * p then None
  else Some {| sp_log_n := log_n; sp_r := r; sp_p := p |}.

(** ** The block of the examples: every failure is unwrapped *)

Definition get_number (ps name : bytes) (max : N) : res N :=
  let! v := params_get ps name in
  match v with
  | None => Panic
  | Some v => match parse_uint max v with None => Panic | Some n => Ok n end
  end.
Definition scrypt_params_of (ps : bytes) : res scrypt_params :=
  let! log_n := get_number ps (str "ln") 255 in
  let! r := get_number ps (str "r") (2 ^ 32 - 1) in
  let! p := get_number ps (str "p") (2 ^ 32 - 1) in
  match scrypt_new log_n r p with Some P => Ok P | None => Panic end.

(** ** [TryFrom<Params> for ParamsString] (scrypt 0.11.0, params.rs): the parameters of a registration *)

(** [Display for u32]: digits from the last *)
Fixpoint dec_digits (fuel : nat) (n : N) : bytes :=
  match fuel with
  | O => []
  | S f => (if n <? 10 then [] else dec_digits f (n / 10)) ++ [n2b (48 + n mod 10)]
  end.
Definition decimal (n : N) : bytes := dec_digits (S (N.to_nat (N.log2 n))) n.

Definition scrypt_to_params (P : scrypt_params) : outcome pherror bytes :=
  params_parse (str "ln=" ++ decimal (sp_log_n P) ++ str ",r=" ++ decimal (sp_r P) ++ str ",p=" ++ decimal (sp_p P)).

(** * Specification *)

(** A parameter string as the list of its pairs, and the value of the first pair with a given name. *)
Fixpoint render (l : list (bytes * bytes)) : bytes :=
  match l with
  | [] => []
  | [(n, v)] => n ++ [equals] ++ v
  | (n, v) :: r => n ++ [equals] ++ v ++ [comma] ++ render r
  end.
Definition nv_valid (p : bytes * bytes) : Prop :=
  (1 <= length (fst p) <= 32)%nat /\ forallb ident_char (fst p) = true /\
  (length (snd p) <= 64)%nat /\ forallb value_char (snd p) = true.
Definition first_value (name ps v : bytes) : Prop :=
  exists l l', ps = render (l ++ (name, v) :: l') /\ Forall nv_valid (l ++ (name, v) :: l') /\
    ~ In name (map fst l).

(** A decimal numeral, leading zeros and one plus sign allowed, and its value. *)
Definition is_digit (c : byte) : Prop := 48 <= b2n c <= 57.
Definition digits_value (s : bytes) : N := fold_left (fun acc c => acc * 10 + (b2n c - 48)) s 0.
Definition numeral (s : bytes) (n : N) : Prop :=
  exists ds, (s = ds \/ s = plus :: ds) /\ ds <> [] /\ Forall is_digit ds /\ n = digits_value ds.

(** The parameters scrypt accepts. *)
Definition scrypt_ok (P : scrypt_params) : Prop :=
  0 < sp_r P /\ 0 < sp_p P /\ sp_log_n P < 64 /\ sp_log_n P < 16 * sp_r P /\
  sp_r P * sp_p P < 2 ^ 30 /\ 128 * sp_r P * 2 ^ sp_log_n P < 2 ^ 64.

(** * Proofs *)

Lemma byte_eqb_refl c : byte_eqb c c = true.
Proof. now apply byte_eqb_eq. Qed.

(** ** Numerals *)

Lemma digit_some c d : digit c = Some d <-> is_digit c /\ d = b2n c - 48.
Proof.
  unfold digit, is_digit. destruct (N.leb_spec 48 (b2n c)), (N.leb_spec (b2n c) 57); cbn [andb];
    (split; [intros E; first [discriminate E|injection E as <-; split; [lia|reflexivity]]|
             intros [H1 H2]; first [lia|now rewrite H2]]).
Qed.
Lemma digits_value_from acc s :
  fold_left (fun acc c => acc * 10 + (b2n c - 48)) s acc >= acc.
Proof.
  revert acc. induction s as [|c s IH]; intros acc; cbn [fold_left]; [lia|].
  specialize (IH (acc * 10 + (b2n c - 48))). lia.
Qed.
Lemma parse_digits_iff max acc s n : acc <= max ->
  parse_digits max acc s = Some n <->
  Forall is_digit s /\ n = fold_left (fun acc c => acc * 10 + (b2n c - 48)) s acc /\ n <= max.
Proof.
  revert acc. induction s as [|c s IH]; intros acc Ha; cbn [parse_digits fold_left].
  - split; [intros E; injection E as <-; auto|]. now intros (_ & -> & _).
  - destruct (digit c) as [d|] eqn:Ed.
    + apply digit_some in Ed. destruct Ed as [Hc ->].
      destruct (N.leb_spec (acc * 10 + (b2n c - 48)) max) as [H|H].
      * rewrite IH by exact H. split.
        -- intros (H1 & H2 & H3). split; [now constructor|]. now split.
        -- intros (H1 & H2 & H3). inversion H1; subst. now split.
      * split; [discriminate|]. intros (_ & H2 & H3).
        pose proof (digits_value_from (acc * 10 + (b2n c - 48)) s). lia.
    + split; [discriminate|]. intros (H1 & _). inversion H1 as [|? ? Hc _]; subst.
      rewrite (proj2 (digit_some c _) (conj Hc eq_refl)) in Ed. discriminate.
Qed.

Lemma plus_not_digit : ~ is_digit plus.
Proof. unfold is_digit. vm_compute. intros [H _]. now apply H. Qed.
Lemma minus_not_digit : ~ is_digit minus.
Proof. unfold is_digit. vm_compute. intros [H _]. now apply H. Qed.

Theorem parse_uint_iff max s n : parse_uint max s = Some n <-> numeral s n /\ n <= max.
Proof.
  assert (P0 : forall s, parse_digits max 0 s = Some n <-> Forall is_digit s /\ n = digits_value s /\ n <= max).
  { intros t. apply parse_digits_iff. lia. }
  unfold numeral. destruct s as [|c [|c' s]]; cbn [parse_uint].
  - split; [discriminate|]. intros [(ds & [<-|E] & Hn & _) _]; [now elim Hn|discriminate].
  - destruct (byte_eqb c plus) eqn:Ep; cbn [orb].
    { apply byte_eqb_eq in Ep. subst c. split; [discriminate|].
      intros [(ds & [<-|E] & Hn & Hd & _) _].
      - inversion Hd as [|? ? H _]; subst. now apply plus_not_digit in H.
      - injection E as <-. now elim Hn. }
    destruct (byte_eqb c minus) eqn:Em.
    { apply byte_eqb_eq in Em. subst c. split; [discriminate|].
      intros [(ds & [<-|E] & Hn & Hd & _) _].
      - inversion Hd as [|? ? H _]; subst. now apply minus_not_digit in H.
      - discriminate E. }
    rewrite P0. split.
    + intros (H1 & H2 & H3). split; [|exact H3]. exists [c]. split; [now left|]. split; [discriminate|]. now split.
    + intros [(ds & [<-|E] & Hn & Hd & Hv) Hm]; [now split|].
      injection E as -> <-. rewrite byte_eqb_refl in Ep. discriminate.
  - destruct (byte_eqb c plus) eqn:Ep; rewrite P0.
    + apply byte_eqb_eq in Ep. subst c. split.
      * intros (H1 & H2 & H3). split; [|exact H3]. exists (c' :: s).
        split; [now right|]. split; [discriminate|]. now split.
      * intros [(ds & [<-|E] & Hn & Hd & Hv) Hm].
        -- inversion Hd as [|? ? H _]; subst. now apply plus_not_digit in H.
        -- injection E as <-. now split.
    + split.
      * intros (H1 & H2 & H3). split; [|exact H3]. exists (c :: c' :: s).
        split; [now left|]. split; [discriminate|]. now split.
      * intros [(ds & [<-|E] & Hn & Hd & Hv) Hm]; [now split|].
        injection E as -> <-. rewrite byte_eqb_refl in Ep. discriminate.
Qed.

(** ** Looking up a parameter *)

Lemma nv_equals p : nv_valid p -> ~ In equals (fst p) /\ ~ In equals (snd p).
Proof.
  intros (_ & Hn & _ & Hv). split.
  - exact (forallb_not_in ident_char equals _ eq_refl Hn).
  - exact (forallb_not_in value_char equals _ eq_refl Hv).
Qed.
Definition join_pair (p : bytes * bytes) : bytes := fst p ++ [equals] ++ snd p.
Lemma nv_pair p : nv_valid p -> pair_valid (join_pair p).
Proof. intros (H1 & H2 & H3 & H4). exists (fst p), (snd p). now split. Qed.
Lemma split_pair p : nv_valid p -> split_on equals (join_pair p) = [fst p; snd p].
Proof.
  intros H. apply nv_equals in H. destruct H as [Hn Hv]. unfold join_pair. cbn [app].
  rewrite (split_on_app _ _ _ Hn). now rewrite (split_on_none _ _ Hv).
Qed.
Lemma nv_ok p : nv_valid p -> ident_ok (fst p) && value_ok (snd p) = true.
Proof.
  intros (H1 & H2 & H3 & H4). unfold ident_ok, value_ok.
  rewrite H2, H4, (proj2 (Nat.leb_le 1 _)), (proj2 (Nat.leb_le (length (fst p)) 32)),
    (proj2 (Nat.leb_le (length (snd p)) 64)) by lia. reflexivity.
Qed.

Lemma render_cons p q l : render (p :: q :: l) = join_pair p ++ comma :: render (q :: l).
Proof. destruct p as [n v]. unfold join_pair. cbn [render fst snd]. now rewrite <- !app_assoc. Qed.
Lemma split_render l : l <> [] -> Forall nv_valid l -> split_on comma (render l) = map join_pair l.
Proof.
  induction l as [|p [|q l] IH]; intros Hl Hv; [now elim Hl| |].
  - inversion Hv as [|? ? Hp _]; subst. apply nv_pair, pair_no_comma in Hp.
    cbn [map]. rewrite <- (split_on_none comma (join_pair p) Hp). now destruct p.
  - inversion Hv as [|? ? Hp Hr]; subst. apply nv_pair, pair_no_comma in Hp.
    rewrite render_cons, (split_on_app _ _ _ Hp), IH by (discriminate || exact Hr). reflexivity.
Qed.
Lemma join_pair_inj l l' : Forall nv_valid l -> Forall nv_valid l' -> map join_pair l = map join_pair l' -> l = l'.
Proof.
  revert l'. induction l as [|p l IH]; intros [|p' l'] H H' E; try discriminate E; [reflexivity|].
  inversion H as [|? ? Hp Hl]; inversion H' as [|? ? Hp' Hl']; subst. cbn [map] in E. injection E as E1 E2.
  rewrite (IH l' Hl Hl' E2). f_equal. apply (f_equal (split_on equals)) in E1.
  rewrite !split_pair in E1 by assumption. destruct p, p'. cbn in E1. now injection E1 as -> ->.
Qed.
(** A valid parameter string is the rendering of one list of pairs. *)
Lemma render_inj l l' : l <> [] -> l' <> [] -> Forall nv_valid l -> Forall nv_valid l' ->
  render l = render l' -> l = l'.
Proof.
  intros N N' H H' E. apply (f_equal (split_on comma)) in E. rewrite !split_render in E by assumption.
  now apply join_pair_inj.
Qed.
Lemma pairs_render ps : pairs_valid ps -> exists l, l <> [] /\ Forall nv_valid l /\ ps = render l.
Proof.
  induction 1 as [p (n & v & -> & H)|p ps (n & v & -> & H) _ (l & Hl & Hv & ->)].
  - exists [(n, v)]. split; [discriminate|]. split; [|reflexivity]. constructor; [exact H|constructor].
  - exists ((n, v) :: l). split; [discriminate|]. split; [constructor; [exact H|exact Hv]|].
    destruct l as [|q l]; [now elim Hl|]. rewrite render_cons. reflexivity.
Qed.

Lemma pairs_get_spec name l : Forall nv_valid l ->
  exists o, pairs_get (map join_pair l) name = Ok o /\
    forall v, o = Some v <-> exists l1 l2, l = l1 ++ (name, v) :: l2 /\ ~ In name (map fst l1).
Proof.
  induction l as [|p l IH]; intros Hv.
  - exists None. split; [reflexivity|]. intros v. split; [discriminate|].
    intros (l1 & l2 & E & _). now destruct l1.
  - inversion Hv as [|? ? Hp Hl]; subst. cbn [map pairs_get]. rewrite (split_pair p Hp), (nv_ok p Hp).
    destruct (bytes_eqb name (fst p)) eqn:E.
    + apply bytes_eqb_eq in E. exists (Some (snd p)). split; [reflexivity|]. intros v. split.
      * intros Ev. injection Ev as <-. exists [], l. split; [|intros []]. destruct p. cbn in *. now subst.
      * intros ([|q l1] & l2 & El & Hn); injection El as -> El; [reflexivity|].
        exfalso. apply Hn. cbn. now left.
    + destruct (IH Hl) as (o & Eo & Ho). exists o. split; [exact Eo|]. intros v. rewrite Ho. split.
      * intros (l1 & l2 & -> & Hn). exists (p :: l1), l2. split; [reflexivity|].
        cbn. intros [Hp'|Hin]; [|now apply Hn]. rewrite <- Hp' in E.
        rewrite (proj2 (bytes_eqb_eq _ _) eq_refl) in E. discriminate.
      * intros ([|q l1] & l2 & El & Hn); injection El as -> El.
        -- cbn in E. rewrite (proj2 (bytes_eqb_eq _ _) eq_refl) in E. discriminate.
        -- exists l1, l2. split; [exact El|]. intros Hin. apply Hn. cbn. now right.
Qed.

Theorem params_get_spec name ps : params_valid ps ->
  exists o, params_get ps name = Ok o /\ forall v, o = Some v <-> first_value name ps v.
Proof.
  intros [_ [->|H]].
  - exists None. split; [reflexivity|]. intros v. split; [discriminate|]. intros (l & l' & E & _). exfalso.
    destruct l as [|[n w] [|q l]]; [destruct l'| |]; cbn [app] in E.
    + cbn [render] in E. destruct name; discriminate E.
    + rewrite render_cons in E. unfold join_pair in E. cbn [fst] in E. destruct name; discriminate E.
    + rewrite render_cons in E. unfold join_pair in E. cbn [fst] in E. destruct n; discriminate E.
    + rewrite render_cons in E. unfold join_pair in E. cbn [fst] in E. destruct n; discriminate E.
  - apply pairs_render in H. destruct H as (l & Hl & Hv & ->).
    destruct (pairs_get_spec name l Hv) as (o & Eo & Ho). exists o. split.
    + unfold params_get. rewrite (split_render l Hl Hv).
      destruct (render l) eqn:Er; [|exact Eo]. exfalso.
      apply (f_equal (split_on comma)) in Er. rewrite (split_render l Hl Hv) in Er.
      destruct l as [|p l]; [now elim Hl|]. cbn [split_on map] in Er. injection Er as Er _.
      unfold join_pair in Er. destruct (fst p); discriminate Er.
    + intros v. rewrite Ho. unfold first_value. split.
      * intros (l1 & l2 & -> & Hn). exists l1, l2. now split.
      * intros (l1 & l2 & E & Hv' & Hn). exists l1, l2. split; [|exact Hn].
        apply render_inj in E; try assumption. intros C. destruct l1; discriminate C.
Qed.

(** ** The block of the examples *)

Lemma scrypt_new_iff log_n r p P :
  scrypt_new log_n r p = Some P <->
  P = {| sp_log_n := log_n; sp_r := r; sp_p := p |} /\ scrypt_ok P.
Proof.
  assert (Hn : 1 <= 2 ^ log_n). { pose proof (N.pow_nonzero 2 log_n). lia. }
  assert (E64 : 2 ^ 64 = 18446744073709551616) by reflexivity.
  assert (E30 : 2 ^ 30 = 1073741824) by reflexivity.
  unfold scrypt_new, scrypt_ok. cbv zeta. split.
  - destruct (N.ltb_spec 0 r) as [H1|H1]; cbn [andb negb]; [|discriminate].
    destruct (N.ltb_spec 0 p) as [H2|H2]; cbn [andb negb]; [|discriminate].
    destruct (N.ltb_spec log_n 64) as [H3|H3]; cbn [andb negb]; [|discriminate].
    destruct (N.ltb_spec (r * 128) (2 ^ 64)) as [H4|H4]; cbn [negb]; [|discriminate].
    destruct (N.ltb_spec (r * 128 * 2 ^ log_n) (2 ^ 64)) as [H5|H5]; cbn [negb]; [|discriminate].
    destruct (N.ltb_spec (r * 128 * p) (2 ^ 64)) as [H6|H6]; cbn [negb]; [|discriminate].
    destruct (N.leb_spec (r * 16) log_n) as [H7|H7]; [discriminate|].
    destruct (N.leb_spec (2 ^ 30) (r * p)) as [H8|H8]; [discriminate|].
    intros E. injection E as <-. cbn [sp_log_n sp_r sp_p]. split; [reflexivity|].
    rewrite (N.mul_comm 128). repeat split; lia.
  - intros [-> (H1 & H2 & H3 & H7 & H8 & H5)]. cbn [sp_log_n sp_r sp_p] in *.
    rewrite (N.mul_comm 128) in H5.
    assert (H4 : r * 128 < 2 ^ 64).
    { revert H5. generalize dependent (2 ^ log_n). intros n Hn H5.
      assert (r * 128 * 1 <= r * 128 * n) by (apply N.mul_le_mono_l; exact Hn). lia. }
    assert (H6 : r * 128 * p < 2 ^ 64).
    { replace (r * 128 * p) with (128 * (r * p)) by ring. rewrite E64. rewrite E30 in H8. lia. }
    rewrite (proj2 (N.ltb_lt _ _) H1), (proj2 (N.ltb_lt _ _) H2), (proj2 (N.ltb_lt _ _) H3).
    cbn [andb negb].
    rewrite (proj2 (N.ltb_lt _ _) H4), (proj2 (N.ltb_lt _ _) H5), (proj2 (N.ltb_lt _ _) H6). cbn [negb].
    rewrite (proj2 (N.leb_gt (r * 16) log_n)) by lia. rewrite (proj2 (N.leb_gt (2 ^ 30) (r * p))) by lia.
    reflexivity.
Qed.

(** A parameter as the client reads it. *)
Definition param_is (ps name : bytes) (max n : N) : Prop :=
  exists v, first_value name ps v /\ numeral v n /\ n <= max.
Lemma digits_value_fun s n n' : numeral s n -> numeral s n' -> n = n'.
Proof.
  intros (ds & H & Hn & Hd & ->) (ds' & H' & Hn' & Hd' & ->).
  destruct H as [-> | ->], H' as [E|E].
  - now rewrite E.
  - subst ds. inversion Hd as [|? ? Hp _]; subst. now apply plus_not_digit in Hp.
  - subst ds'. inversion Hd' as [|? ? Hp _]; subst. now apply plus_not_digit in Hp.
  - now injection E as ->.
Qed.
Lemma get_number_spec ps name max : params_valid ps ->
  (exists n, get_number ps name max = Ok n /\ param_is ps name max n /\ forall n', param_is ps name max n' -> n' = n) \/
  (get_number ps name max = Panic /\ forall n, ~ param_is ps name max n).
Proof.
  intros Hp. destruct (params_get_spec name ps Hp) as (o & Eo & Ho). unfold get_number. rewrite Eo. cbn [obind].
  assert (Hu : forall v v', first_value name ps v -> first_value name ps v' -> v = v').
  { intros v v' H H'. apply Ho in H, H'. rewrite H in H'. now injection H'. }
  destruct o as [v|].
  - assert (Hv : first_value name ps v) by now apply Ho.
    destruct (parse_uint max v) as [n|] eqn:En.
    + left. exists n. split; [reflexivity|]. apply parse_uint_iff in En. destruct En as [En Hm]. split.
      * exists v. now split.
      * intros n' (v' & Hv' & Hn' & _). rewrite (Hu _ _ Hv' Hv) in Hn'. now apply (digits_value_fun v).
    + right. split; [reflexivity|]. intros n (v' & Hv' & Hn).
      rewrite (Hu _ _ Hv' Hv) in Hn. apply parse_uint_iff in Hn. rewrite Hn in En. discriminate.
  - right. split; [reflexivity|]. intros n (v & Hv & _). apply Ho in Hv. discriminate.
Qed.

(** What the client reads: three numerals, in the first pairs with their names, that scrypt accepts. *)
Definition scrypt_reads (ps : bytes) (P : scrypt_params) : Prop :=
  param_is ps (str "ln") 255 (sp_log_n P) /\ param_is ps (str "r") (2 ^ 32 - 1) (sp_r P) /\
  param_is ps (str "p") (2 ^ 32 - 1) (sp_p P) /\ scrypt_ok P.
Theorem scrypt_params_of_spec ps : params_valid ps ->
  (exists P, scrypt_params_of ps = Ok P /\ forall P', scrypt_reads ps P' <-> P' = P) \/
  (scrypt_params_of ps = Panic /\ forall P, ~ scrypt_reads ps P).
Proof.
  intros Hp. unfold scrypt_params_of.
  destruct (get_number_spec ps (str "ln") 255 Hp) as [(ln & -> & H1 & U1)|[-> H1]];
    [|right; split; [reflexivity|]; intros P (H & _); exact (H1 _ H)].
  destruct (get_number_spec ps (str "r") (2 ^ 32 - 1) Hp) as [(r & -> & H2 & U2)|[-> H2]];
    [|right; split; [reflexivity|]; intros P (_ & H & _); exact (H2 _ H)].
  destruct (get_number_spec ps (str "p") (2 ^ 32 - 1) Hp) as [(p & -> & H3 & U3)|[-> H3]];
    [|right; split; [reflexivity|]; intros P (_ & _ & H & _); exact (H3 _ H)].
  cbn [obind]. destruct (scrypt_new ln r p) as [P|] eqn:EP.
  - left. exists P. split; [reflexivity|]. apply scrypt_new_iff in EP. destruct EP as [-> EP]. intros P'. split.
    + intros (I1 & I2 & I3 & _). apply U1 in I1. apply U2 in I2. apply U3 in I3. destruct P'. cbn in *. now subst.
    + intros ->. split; [exact H1|]. split; [exact H2|]. split; [exact H3|exact EP].
  - right. split; [reflexivity|]. intros P (I1 & I2 & I3 & Hok). apply U1 in I1. apply U2 in I2. apply U3 in I3.
    rewrite (proj2 (scrypt_new_iff ln r p P)) in EP; [discriminate|]. split; [|exact Hok].
    destruct P. cbn in *. now subst.
Qed.

(** ** Writing the parameters *)

Lemma digit_byte d : d < 10 -> b2n (n2b (48 + d)) = 48 + d.
Proof. intros H. rewrite b2n_n2b. apply N.mod_small. lia. Qed.
Lemma dec_digits_spec fuel n : n < 2 ^ N.of_nat fuel -> (1 <= fuel)%nat ->
  Forall is_digit (dec_digits fuel n) /\ digits_value (dec_digits fuel n) = n /\ dec_digits fuel n <> [].
Proof.
  revert n. induction fuel as [|fuel IH]; intros n Hn Hf; [lia|]. cbn [dec_digits].
  assert (Hm : n mod 10 < 10) by (apply N.mod_lt; discriminate).
  assert (Hd : is_digit (n2b (48 + n mod 10))). { unfold is_digit. rewrite digit_byte by exact Hm. lia. }
  destruct (N.ltb_spec n 10) as [H|H].
  - cbn [app]. split; [now constructor|]. split; [|discriminate]. unfold digits_value. cbn [fold_left].
    rewrite digit_byte by exact Hm. rewrite N.mod_small by exact H. lia.
  - assert (Hq : n / 10 < 2 ^ N.of_nat fuel).
    { rewrite Nat2N.inj_succ, N.pow_succ_r' in Hn. apply N.div_lt_upper_bound; [discriminate|].
      revert Hn. generalize (2 ^ N.of_nat fuel). intros. lia. }
    assert (Hf' : (1 <= fuel)%nat).
    { destruct fuel; [|lia]. cbn in Hn. lia. }
    destruct (IH (n / 10) Hq Hf') as (I1 & I2 & I3). split; [apply Forall_app; split; [exact I1|now constructor]|].
    split; [|intros C; apply app_eq_nil in C; destruct C as [_ C]; discriminate C].
    unfold digits_value in *. rewrite fold_left_app, I2. cbn [fold_left]. rewrite digit_byte by exact Hm.
    pose proof (N.div_mod n 10). lia.
Qed.
Lemma decimal_spec n : Forall is_digit (decimal n) /\ digits_value (decimal n) = n /\ decimal n <> [].
Proof.
  unfold decimal. apply dec_digits_spec; [|lia]. rewrite Nat2N.inj_succ, N2Nat.id.
  destruct (N.eq_dec n 0) as [->|H]; [reflexivity|]. apply N.log2_spec. lia.
Qed.
Lemma decimal_numeral n : numeral (decimal n) n.
Proof. destruct (decimal_spec n) as (H1 & H2 & H3). exists (decimal n). split; [now left|]. split; [exact H3|]. now split. Qed.
Lemma dec_digits_length fuel n k : n < 10 ^ N.of_nat k -> (1 <= k)%nat -> (length (dec_digits fuel n) <= k)%nat.
Proof.
  revert n k. induction fuel as [|fuel IH]; intros n k Hn Hk; cbn [dec_digits]; [cbn; lia|].
  rewrite app_length. cbn [length]. destruct (N.ltb_spec n 10) as [H|H]; [cbn; lia|].
  assert (length (dec_digits fuel (n / 10)) <= k - 1)%nat; [|lia].
  destruct k as [|[|k]]; [lia|cbn in Hn; lia|]. replace (S (S k) - 1)%nat with (S k) by lia. apply IH; [|lia].
  apply N.div_lt_upper_bound; [discriminate|]. now rewrite Nat2N.inj_succ, N.pow_succ_r' in Hn.
Qed.
Lemma digits_value_char s : Forall is_digit s -> forallb value_char s = true.
Proof.
  intros H. apply forallb_forall. intros c Hc. pose proof (proj1 (Forall_forall _ _) H c Hc) as Hd.
  unfold is_digit in Hd. revert Hd. clear. destruct c; vm_compute; intros [H1 H2];
    first [reflexivity|now elim H1|now elim H2].
Qed.

Theorem scrypt_roundtrip P : scrypt_ok P -> exists ps,
  scrypt_to_params P = Ok ps /\ params_valid ps /\ scrypt_params_of ps = Ok P /\
  ps = render [(str "ln", decimal (sp_log_n P)); (str "r", decimal (sp_r P)); (str "p", decimal (sp_p P))].
Proof.
  intros HP. pose proof HP as (H1 & H2 & H3 & H4 & H5 & H6).
  assert (E30 : 2 ^ 30 = 1073741824) by reflexivity. rewrite E30 in H5.
  assert (Hr : sp_r P < 1073741824).
  { assert (sp_r P * 1 <= sp_r P * sp_p P) by (apply N.mul_le_mono_l; lia). lia. }
  assert (Hp : sp_p P < 1073741824).
  { assert (1 * sp_p P <= sp_r P * sp_p P) by (apply N.mul_le_mono_r; lia). lia. }
  set (l := [(str "ln", decimal (sp_log_n P)); (str "r", decimal (sp_r P)); (str "p", decimal (sp_p P))]).
  assert (Ll : (length (decimal (sp_log_n P)) <= 2)%nat) by (apply dec_digits_length; [cbn; lia|lia]).
  assert (Lr : (length (decimal (sp_r P)) <= 10)%nat) by (apply dec_digits_length; [cbn; lia|lia]).
  assert (Lp : (length (decimal (sp_p P)) <= 10)%nat) by (apply dec_digits_length; [cbn; lia|lia]).
  assert (Hv : Forall nv_valid l).
  { assert (G : forall name n, (1 <= length name <= 32)%nat -> forallb ident_char name = true ->
      (length (decimal n) <= 10)%nat -> nv_valid (name, decimal n)).
    { intros name n Hn Hc Hd. split; [exact Hn|]. split; [exact Hc|]. cbn [snd]. split; [lia|].
      apply digits_value_char, decimal_spec. }
    constructor; [apply G; [cbn; lia|reflexivity|lia]|].
    constructor; [apply G; [cbn; lia|reflexivity|lia]|].
    constructor; [apply G; [cbn; lia|reflexivity|lia]|constructor]. }
  assert (El : render l = str "ln=" ++ decimal (sp_log_n P) ++ str ",r=" ++ decimal (sp_r P) ++ str ",p=" ++ decimal (sp_p P)).
  { reflexivity. }
  assert (Hps : params_valid (render l)).
  { split; [rewrite El, !app_length; change (length (str "ln=")) with 3%nat;
      change (length (str ",r=")) with 3%nat; change (length (str ",p=")) with 3%nat; lia|]. right.
    unfold l. rewrite !render_cons. inversion Hv as [|? ? V1 Hv1]; subst.
    inversion Hv1 as [|? ? V2 Hv2]; subst. inversion Hv2 as [|? ? V3 _]; subst.
    apply (pv_more _ _ (nv_pair _ V1)), (pv_more _ _ (nv_pair _ V2)), pv_one. exact (nv_pair _ V3). }
  exists (render l). split; [|split; [exact Hps|]].
  - unfold scrypt_to_params. rewrite <- El. apply params_parse_iff. now split.
  - split; [|reflexivity]. assert (HR : scrypt_reads (render l) P).
    { assert (G : forall name n max l1 l2, l = l1 ++ (name, decimal n) :: l2 -> ~ In name (map fst l1) -> n <= max ->
        param_is (render l) name max n).
      { intros name n max l1 l2 E Hn Hm. exists (decimal n). split; [|split; [apply decimal_numeral|exact Hm]].
        exists l1, l2. rewrite <- E. now split. }
      split; [|split; [|split; [|exact HP]]].
      - apply (G _ _ _ [] (skipn 1 l)); [reflexivity|intros []|lia].
      - apply (G _ _ _ (firstn 1 l) (skipn 2 l)); [reflexivity| |cbn; lia]. cbn. intros [C|[]]. discriminate C.
      - apply (G _ _ _ (firstn 2 l) []); [reflexivity| |cbn; lia]. cbn. intros [C|[C|[]]]; discriminate C. }
    destruct (scrypt_params_of_spec (render l) Hps) as [(P' & -> & H)|[_ H]].
    + apply H in HR. now rewrite HR.
    + now elim (H P).
Qed.
