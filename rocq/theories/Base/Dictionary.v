(** * Counting the runs an attacker wins when the secret comes from a dictionary.  Nothing here models the crates. *)
From Coq Require Import ZArith List Lia Arith Bool.
From Verif.Base Require Import Bytes Count Guess.
Import ListNotations.
Local Open Scope nat_scope.

(** ** Lists *)
Fixpoint map2 {A B C} (f : A -> B -> C) (l : list A) (m : list B) : list C :=
  match l, m with
  | a :: l', b :: m' => f a b :: map2 f l' m'
  | _, _ => []
  end.
Lemma map2_nth {A B C} (f : A -> B -> C) l m i c :
  nth_error (map2 f l m) i = Some c <->
  exists a b, nth_error l i = Some a /\ nth_error m i = Some b /\ c = f a b.
Proof.
  revert m i. induction l as [|a l IH]; intros [|b m] [|i]; cbn; split; try discriminate; try (now intros (? & ? & ? & ? & ?)).
  - intros E. injection E as <-. eauto.
  - intros (a' & b' & E & E' & ->). injection E as ->. injection E' as ->. reflexivity.
  - apply IH.
  - intros H. now apply IH.
Qed.
Lemma map2_length {A B C} (f : A -> B -> C) l m : length l = length m -> length (map2 f l m) = length l.
Proof. revert m. induction l as [|a l IH]; intros [|b m] E; cbn in *; try discriminate; [reflexivity|]. f_equal. apply IH. lia. Qed.

Lemma nth_error_ext {A} (l m : list A) : (forall i, nth_error l i = nth_error m i) -> l = m.
Proof.
  revert m. induction l as [|a l IH]; intros [|b m] H; [reflexivity|discriminate (H 0)|discriminate (H 0)|].
  pose proof (H 0) as E. cbn in E. injection E as ->. f_equal. apply IH. intros i. exact (H (S i)).
Qed.
Lemma forall2_of_nth {A B} (P : A -> B -> Prop) l m :
  length l = length m -> (forall i a b, nth_error l i = Some a -> nth_error m i = Some b -> P a b) -> Forall2 P l m.
Proof.
  revert m. induction l as [|a l IH]; intros [|b m] E H; try discriminate; constructor.
  - exact (H 0 a b eq_refl eq_refl).
  - apply IH; [cbn in E; lia|]. intros i. exact (H (S i)).
Qed.
Lemma all_or {A} (P : A -> Prop) (Q : Prop) l : (forall a, In a l -> P a \/ Q) -> (forall a, In a l -> P a) \/ Q.
Proof.
  induction l as [|a l IH]; intros H; [left; intros a []|].
  destruct (H a (or_introl eq_refl)) as [Ha|Hq]; [|now right].
  destruct IH as [IH|Hq]; [intros b Hb; apply H; now right| |now right].
  left. intros b [<-|Hb]; auto.
Qed.
Lemma choose_list {A B} (f : A -> B) (l : list A) (bs : list B) :
  (forall b, In b bs -> exists a, In a l /\ f a = b) -> exists xs, map f xs = bs /\ incl xs l.
Proof.
  induction bs as [|b bs IH]; intros H; [exists []; split; [reflexivity|intros a []]|].
  destruct (H b (or_introl eq_refl)) as (a & Ha & Ea). destruct IH as (xs & E & Hi); [intros b' Hb'; apply H; now right|].
  exists (a :: xs). split; [cbn; congruence|]. intros c [<-|Hc]; [exact Ha|exact (Hi c Hc)].
Qed.
Lemma nodup_prod {A B} (l : list A) (m : list B) : NoDup l -> NoDup m -> NoDup (list_prod l m).
Proof.
  intros Hl Hm. induction Hl as [|a l Ha Hl IH]; cbn; [constructor|].
  apply nodup_app; [|exact IH|].
  - apply nodup_map; [exact Hm|]. intros x y _ _ E. now injection E.
  - intros [x y] H H'. apply in_map_iff in H. destruct H as (z & E & _). injection E as <- _.
    apply in_prod_iff in H'. now apply Ha.
Qed.
Fixpoint sum_over {A} (f : A -> nat) (l : list A) : nat :=
  match l with [] => 0 | a :: l' => f a + sum_over f l' end.
Lemma sum_over_ext {A} (f g : A -> nat) l : (forall a, In a l -> f a = g a) -> sum_over f l = sum_over g l.
Proof. induction l as [|a l IH]; intros H; cbn; [reflexivity|]. rewrite (H a), IH; auto using in_eq, in_cons. Qed.
Lemma filter_prod {A B} (p : A -> B -> bool) l m :
  length (filter (fun q => p (fst q) (snd q)) (list_prod l m)) = sum_over (fun a => length (filter (p a) m)) l.
Proof.
  induction l as [|a l IH]; cbn; [reflexivity|]. rewrite filter_app, app_length, IH. f_equal. clear.
  induction m as [|b m IH]; cbn; [reflexivity|]. destruct (p a b); cbn; now rewrite IH.
Qed.

(** Lists of [n] elements one of which is bad. *)
Lemma one_bad {A} (bad : A -> bool) (space : list A) M n :
  length (filter bad space) <= M ->
  length space * length (filter (existsb bad) (choices (repeat space n))) <= n * M * length space ^ n.
Proof.
  intros HM. induction n as [|n IH]; [cbn; lia|].
  assert (forall l, length (filter (existsb bad) (flat_map (fun a => map (cons a) (choices (repeat space n))) l))
    <= length (filter bad l) * length space ^ n + length l * length (filter (existsb bad) (choices (repeat space n)))) as H.
  { intros l. rewrite <- (choices_length_eq space n). generalize (choices (repeat space n)). intros c. clear.
    induction l as [|a l IH]; cbn; [lia|]. rewrite filter_app, app_length.
    assert (length (filter (existsb bad) (map (cons a) c))
            = if bad a then length c else length (filter (existsb bad) c)) as ->.
    { clear. induction c as [|v c IH]; cbn; [now destruct (bad a)|]. destruct (bad a); cbn in *; [now rewrite IH|].
      destruct (existsb bad v); cbn; now rewrite IH. }
    destruct (bad a); cbn [length]; nia. }
  specialize (H space). cbn [repeat choices Nat.pow]. revert H IH HM.
  generalize (length (filter (existsb bad) (flat_map (fun a => map (cons a) (choices (repeat space n))) space))) as X.
  generalize (length (filter (existsb bad) (choices (repeat space n)))) as c.
  generalize (length (filter bad space)) as b. generalize (length space) as s. intros s b c X.
  generalize (s ^ n) as p. intros p H IH HM.
  apply Nat.le_trans with (s * (M * p + s * c)); [|nia].
  apply Nat.mul_le_mono_l. eapply Nat.le_trans; [exact H|]. apply Nat.add_le_mono_r, Nat.mul_le_mono_r. exact HM.
Qed.

Lemma filter_le {A} (p q : A -> bool) l : (forall x, In x l -> p x = true -> q x = true) -> length (filter p l) <= length (filter q l).
Proof.
  induction l as [|x l IH]; intros H; cbn; [lia|].
  assert (length (filter p l) <= length (filter q l)) by (apply IH; intros y Hy; apply H; now right).
  destruct (p x) eqn:Ep; cbn; [rewrite (H x (or_introl eq_refl) Ep); cbn; lia|]. destruct (q x); cbn; lia.
Qed.

(** A secret [v : V] of the dictionary, [us] sessions, each with random bytes from [space].  In each session a
    message is sent; then the attacker asks [m] questions, knowing the messages. *)
Section Dictionary.
Context {V U B Q : Type} (eqV : forall v v' : V, {v = v'} + {v <> v'}) (eqB : forall b b' : B, {b = b'} + {b <> b'}).
Context (space : list bytes) (NDspace : NoDup space) (M : nat) (us : list U) (dict : list V) (NDdict : NoDup dict).
Context (msg : V -> U -> bytes -> B) (bad : bytes -> bool) (codes : list B).
(** Few random strings give one message, and a message without a bad random string is among [codes]. *)
Context (Hmsg : forall v u c, In v dict -> In u us -> length (filter (fun t => if eqB (msg v u t) c then true else false) space) <= M).
Context (Hcodes : forall v u t, In v dict -> In u us -> In t space -> bad t = false -> In (msg v u t) codes).
Context (ask : list B -> list (Q * bool) -> Q) (accept : V -> list bytes -> Q -> bool) (m : nat).
Let n := length us.

Definition all_tapes : list (list bytes) := choices (repeat space n).
Definition seen (v : V) (ts : list bytes) : list B := map2 (msg v) us ts.
Definition run_won (v : V) (ts : list bytes) : bool :=
  wins (fun p => accept (fst p) (snd p)) (ask (seen v ts)) (v, ts) [] m.
Definition two_accept : Prop :=
  exists v v' ts ts' q, In v dict /\ In v' dict /\ v <> v' /\ In ts all_tapes /\ In ts' all_tapes /\
    existsb bad ts = false /\ existsb bad ts' = false /\ seen v ts = seen v' ts' /\
    In q (refused (ask (seen v ts)) [] m) /\ accept v ts q = true /\ accept v' ts' q = true.

Lemma in_all_tapes ts : In ts all_tapes -> length ts = length us /\ forall t, In t ts -> In t space.
Proof.
  intros H. apply in_choices in H. unfold n in *. clear -H. revert H.
  generalize (length us) as k. intros k. revert ts. induction k as [|k IH]; intros ts H; cbn in H.
  - inversion H. split; [reflexivity|]. intros t [].
  - inversion H as [|t l ts' ls Ht Hts]; subst. destruct (IH ts' Hts) as [E Hi]. split; [cbn; now rewrite E|].
    intros t' [<-|Ht']; [exact Ht|exact (Hi t' Ht')].
Qed.

(** For one secret: few lists of strings give one list of messages. *)
Lemma one_secret v (l : list (list bytes)) (b : list B) : In v dict -> NoDup l ->
  (forall ts, In ts l -> In ts all_tapes /\ seen v ts = b) -> length l <= M ^ n.
Proof.
  intros HW ND H.
  set (ls := map (fun p => filter (fun t => if eqB (msg v (fst p) t) (snd p) then true else false) space) (combine us b)).
  assert (length b = n \/ l = []) as [Lb | ->]; [| |cbn; lia].
  { destruct l as [|ts l]; [now right|left]. destruct (H ts (or_introl eq_refl)) as [Hts <-].
    unfold seen. destruct (in_all_tapes ts Hts) as [Lts _]. apply map2_length. now symmetry. }
  assert (length ls = n) as Lls by (unfold ls; rewrite map_length, combine_length, Lb; unfold n; lia).
  rewrite <- Lls. eapply Nat.le_trans; [apply (NoDup_incl_length (l:=l) (l':=choices ls) ND)|apply choices_length].
  - intros ts Hts. destruct (H ts Hts) as [Hts' E]. destruct (in_all_tapes ts Hts') as [Lts Hi].
    apply in_choices. apply forall2_of_nth; [unfold n in *; congruence|].
    intros i t f Et Ef. unfold ls in Ef. rewrite nth_error_map in Ef.
    destruct (nth_error (combine us b) i) as [[u c]|] eqn:Ec; [|discriminate Ef]. cbn [option_map fst snd] in Ef.
    injection Ef as <-. apply filter_In. split; [exact (Hi t (nth_error_In _ _ Et))|].
    assert (nth_error us i = Some u /\ nth_error b i = Some c) as [Eu Eb].
    { clear -Ec. revert b i Ec. generalize us as l. induction l as [|x l IH]; intros [|d b] [|i] Ec; cbn in *; try discriminate.
      - injection Ec as -> ->. now split.
      - now apply IH. }
    rewrite <- E in Eb. unfold seen in Eb. apply map2_nth in Eb. destruct Eb as (u' & t' & Eu' & Et' & ->).
    rewrite Eu in Eu'. injection Eu' as <-. rewrite Et in Et'. injection Et' as <-. destruct (eqB _ _); congruence.
  - unfold ls. rewrite Forall_forall. intros f Hf. apply in_map_iff in Hf. destruct Hf as ([u c] & <- & Hp). cbn [fst snd].
    apply Hmsg; [exact HW|]. exact (in_combine_l _ _ _ _ Hp).
Qed.

(** The runs the attacker wins, without a bad random string, and with given messages. *)
Let runs := list_prod dict all_tapes.
Let good (p : V * list bytes) : bool := run_won (fst p) (snd p) && negb (existsb bad (snd p)).
Let listB_eqb (b b' : list B) : bool := if list_eq_dec eqB b b' then true else false.
Lemma listB_eqb_eq b b' : listB_eqb b b' = true <-> b = b'.
Proof. unfold listB_eqb. destruct (list_eq_dec _ b b'); split; congruence. Qed.

Lemma one_view b :
  length (filter (fun p => listB_eqb (seen (fst p) (snd p)) b) (filter good runs)) <= m * M ^ n \/ two_accept.
Proof.
  set (F := filter _ (filter good runs)).
  assert (forall p, In p F -> In (fst p) dict /\ In (snd p) all_tapes /\ run_won (fst p) (snd p) = true /\
    existsb bad (snd p) = false /\ seen (fst p) (snd p) = b) as HF.
  { intros [W ts] H. apply filter_In in H. destruct H as [H E]. apply listB_eqb_eq in E.
    apply filter_In in H. destruct H as [H G]. apply in_prod_iff in H. unfold good in G. apply andb_prop in G. destruct G as [G Z].
    apply negb_true_iff in Z. cbn [fst snd] in *. tauto. }
  assert (NoDup F) as NDF.
  { apply NoDup_filter, NoDup_filter. unfold runs. apply nodup_prod; [exact NDdict|]. unfold all_tapes. apply nodup_choices.
    rewrite Forall_forall. intros l Hl. apply repeat_spec in Hl. now subst l. }
  set (Ws := nodup eqV (map fst F)).
  assert (length F <= M ^ n * length Ws) as H1.
  { apply (fibre_bound (fun x y => if eqV x y then true else false)) with (f := fst).
    - intros x y. destruct (eqV x y); split; congruence.
    - intros p Hp. apply nodup_In. now apply in_map.
    - intros W HW. rewrite <- (map_length snd).
      assert (forall p, In p (filter (fun p => if eqV (fst p) W then true else false) F) -> In p F /\ fst p = W) as HFW.
      { intros p Hp. apply (filter_In (fun p => if eqV (fst p) W then true else false)) in Hp. destruct Hp as [Hp E].
        destruct (eqV (fst p) W); [now split|discriminate E]. }
      apply (one_secret W _ b).
      + apply nodup_In, in_map_iff in HW. destruct HW as (p & <- & Hp). now destruct (HF p Hp).
      + apply nodup_map; [now apply NoDup_filter|]. intros p q Hp Hq E. destruct (HFW p Hp) as [_ E1]. destruct (HFW q Hq) as [_ E2].
        destruct p as [p1 p2], q as [q1 q2]. cbn [fst snd] in *. congruence.
      + intros ts Hts. apply in_map_iff in Hts. destruct Hts as (p & <- & Hp). destruct (HFW p Hp) as [Hp' E].
        destruct (HF p Hp') as (_ & Ht & _ & _ & Ec). destruct p as [p1 p2]. cbn [fst snd] in *. subst p1. now split. }
  assert (length Ws <= m \/ two_accept) as [H2|H2]; [|left; nia|now right].
  destruct (choose_list fst F Ws) as (ps & Eps & Hps).
  { intros W HW. apply nodup_In, in_map_iff in HW. destruct HW as (p & E & Hp). eauto. }
  assert (NoDup ps) as NDps by (apply (NoDup_map_inv fst); rewrite Eps; apply NoDup_nodup).
  destruct (guess_bound (fun p => accept (fst p) (snd p)) (ask b) m ps NDps) as [Hm|Hm].
  - intros p Hp. destruct (HF p (Hps p Hp)) as (_ & _ & h & _ & E). unfold run_won in h. rewrite E in h.
    destruct p as [p1 p2]. exact h.
  - left. rewrite <- Eps, map_length. exact Hm.
  - right. destruct Hm as (p & p' & q & Hp & Hp' & Hne & Hq & A & A').
    destruct (HF p (Hps p Hp)) as (h1 & h2 & _ & h3 & E). destruct (HF p' (Hps p' Hp')) as (h1' & h2' & _ & h3' & E').
    exists (fst p), (fst p'), (snd p), (snd p'), q. rewrite E, E'.
    split; [exact h1|]. split; [exact h1'|]. split; [|auto 10].
    intros Q'. apply Hne. assert (NoDup (map fst ps)) as NDm by (rewrite Eps; apply NoDup_nodup).
    clear -NDm Hp Hp' Q'. induction ps as [|x l IH]; [destruct Hp|]. cbn in NDm. apply NoDup_cons_iff in NDm. destruct NDm as [NI ND].
    destruct Hp as [->|Hp], Hp' as [->|Hp']; [reflexivity| | |now apply IH].
    + exfalso. apply NI. rewrite Q'. now apply in_map.
    + exfalso. apply NI. rewrite <- Q'. now apply in_map.
Qed.

Lemma good_seen p : In p (filter good runs) -> In (seen (fst p) (snd p)) (choices (repeat codes n)).
Proof.
  destruct p as [W ts]. intros H. apply filter_In in H. destruct H as [H G]. apply in_prod_iff in H. destruct H as [HW Hts].
  unfold good in G. apply andb_prop in G. destruct G as [_ Z]. apply negb_true_iff in Z. cbn [fst snd] in *.
  destruct (in_all_tapes ts Hts) as [Lts Hi]. apply in_choices. unfold seen.
  apply forall2_of_nth.
  - rewrite repeat_length. apply map2_length. now symmetry.
  - intros i c l Ec El. apply nth_error_In, repeat_spec in El. subst l.
    apply map2_nth in Ec. destruct Ec as (u & t & Eu & Et & ->). apply nth_error_In in Eu, Et.
    apply Hcodes; [exact HW|exact Eu|exact (Hi t Et)|].
    destruct (bad t) eqn:Eb; [|reflexivity]. rewrite <- Z. symmetry. apply existsb_exists. exists t. now split.
Qed.

Theorem dictionary_count :
  sum_over (fun v => length (filter (run_won v) all_tapes)) dict
  <= m * (M * length codes) ^ n + length dict * length (filter (existsb bad) all_tapes) \/ two_accept.
Proof.
  rewrite <- filter_prod. fold runs.
  destruct (all_or (fun b => length (filter (fun p => listB_eqb (seen (fst p) (snd p)) b) (filter good runs)) <= m * M ^ n)
    two_accept (choices (repeat codes n)) (fun b _ => one_view b)) as [H|H]; [left|now right].
  pose proof (fibre_bound listB_eqb listB_eqb_eq (fun p => seen (fst p) (snd p)) (choices (repeat codes n)) (m * M ^ n)
    (filter good runs) good_seen H) as HG.
  rewrite choices_length_eq in HG.
  assert (length (filter (fun q => run_won (fst q) (snd q)) runs)
          <= length (filter good runs) + length (filter (fun q => existsb bad (snd q)) runs)) as HS.
  { unfold good. clear. induction runs as [|p l IH]; cbn; [lia|].
    destruct (run_won (fst p) (snd p)), (existsb bad (snd p)); cbn; lia. }
  assert (length (filter (fun q => existsb bad (snd q)) runs) = length dict * length (filter (existsb bad) all_tapes)) as HZ.
  { unfold runs. rewrite (filter_prod (fun _ ts => existsb bad ts)). clear. induction dict as [|W l IH]; cbn; [reflexivity|]. now rewrite IH. }
  rewrite HZ in HS. eapply Nat.le_trans; [exact HS|]. apply Nat.add_le_mono_r. eapply Nat.le_trans; [exact HG|].
  now rewrite <- Nat.mul_assoc, <- Nat.pow_mul_l.
Qed.
End Dictionary.
