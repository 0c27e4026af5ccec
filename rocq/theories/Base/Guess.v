(** * Guessing: an attacker who asks [n] yes/no questions of one of several worlds it cannot tell apart. *)
From Coq Require Import List Lia Arith FinFun.
Import ListNotations.

Section Guess.
Context {W Q : Type} (accept : W -> Q -> bool) (ask : list (Q * bool) -> Q).

(** Does one of the next [n] questions get the answer yes?  [hist]: the questions and answers so far. *)
Fixpoint wins (w : W) (hist : list (Q * bool)) (n : nat) : bool :=
  match n with
  | O => false
  | S n' => let q := ask hist in let b := accept w q in b || wins w (hist ++ [(q, b)]) n'
  end.

(** The questions of an attacker that only hears no. *)
Fixpoint refused (hist : list (Q * bool)) (n : nat) : list Q :=
  match n with
  | O => []
  | S n' => ask hist :: refused (hist ++ [(ask hist, false)]) n'
  end.

Lemma refused_length hist n : length (refused hist n) = n.
Proof. revert hist. induction n as [|n IH]; intros hist; cbn; [reflexivity|]. now rewrite IH. Qed.

Lemma wins_refused w hist n : wins w hist n = true <-> exists q, In q (refused hist n) /\ accept w q = true.
Proof.
  revert hist. induction n as [|n IH]; intros hist; cbn.
  - split; [discriminate|]. now intros (q & [] & _).
  - destruct (accept w (ask hist)) eqn:E; cbn.
    + split; [|reflexivity]. intros _. exists (ask hist). auto.
    + rewrite IH. split.
      * intros (q & H & A). eauto.
      * intros (q & [<-|H] & A); [congruence|]. eauto.
Qed.

Lemma filter_length {A} (f : A -> bool) l :
  length (filter f l) + length (filter (fun a => negb (f a)) l) = length l.
Proof. induction l as [|a l IH]; cbn; [reflexivity|]. destruct (f a); cbn; lia. Qed.

(** A yes from each of more than [n] worlds: some question gets a yes from two of them. *)
Lemma pigeonhole qs (ws : list W) :
  NoDup ws -> (forall w, In w ws -> exists q, In q qs /\ accept w q = true) -> length qs < length ws ->
  exists w w' q, In w ws /\ In w' ws /\ w <> w' /\ In q qs /\ accept w q = true /\ accept w' q = true.
Proof.
  revert ws. induction qs as [|q qs IH]; intros ws ND H HL.
  - destruct ws as [|w ws]; [cbn in HL; lia|]. destruct (H w (or_introl eq_refl)) as (q & [] & _).
  - destruct (filter (fun w => accept w q) ws) as [|w [|w' l]] eqn:E.
    + destruct (IH ws) as (w & w' & q' & H1 & H2 & H3 & H4 & H5 & H6); [exact ND| |cbn in HL; lia|].
      * intros w Hw. destruct (H w Hw) as (q' & [<-|Hq] & A); [|eauto].
        assert (In w (filter (fun w => accept w q) ws)) as F by now apply filter_In. rewrite E in F. destruct F.
      * exists w, w', q'. cbn. auto 10.
    + assert (NoDup (filter (fun w => negb (accept w q)) ws)) as ND' by now apply NoDup_filter.
      destruct (IH (filter (fun w => negb (accept w q)) ws)) as (u & u' & q' & H1 & H2 & H3 & H4 & H5 & H6); [exact ND'| | |].
      * intros u Hu. apply filter_In in Hu. destruct Hu as [Hu A]. destruct (H u Hu) as (q' & [<-|Hq] & A'); [|eauto].
        rewrite A' in A. discriminate.
      * pose proof (filter_length (fun w => accept w q) ws) as FL. rewrite E in FL. cbn in FL, HL. lia.
      * apply filter_In in H1, H2. exists u, u', q'. cbn. intuition.
    + assert (In w ws /\ accept w q = true) as [A1 A2] by (apply (filter_In (fun w => accept w q)); rewrite E; now left).
      assert (In w' ws /\ accept w' q = true) as [B1 B2] by (apply (filter_In (fun w => accept w q)); rewrite E; right; now left).
      exists w, w', q. repeat split; auto; [|now left].
      intros <-. assert (NoDup (filter (fun w => accept w q) ws)) as ND' by now apply NoDup_filter.
      rewrite E in ND'. inversion ND' as [|? ? X _]. apply X. now left.
Qed.

Lemma guess_bound n (ws : list W) :
  NoDup ws -> (forall w, In w ws -> wins w [] n = true) ->
  length ws <= n \/
  exists w w' q, In w ws /\ In w' ws /\ w <> w' /\ In q (refused [] n) /\ accept w q = true /\ accept w' q = true.
Proof.
  intros ND H. destruct (Nat.le_gt_cases (length ws) n) as [HL|HL]; [now left|right].
  destruct (pigeonhole (refused [] n) ws) as (w & w' & q & H1 & H2 & H3 & H4 & H5 & H6); [exact ND| | |].
  - intros w Hw. apply wins_refused. now apply H.
  - now rewrite refused_length.
  - exists w, w', q. auto 10.
Qed.
End Guess.

Lemma wins_ext {W W' Q} (accept : W -> Q -> bool) (accept' : W' -> Q -> bool) ask w w' hist n :
  (forall q, accept w q = accept' w' q) -> wins accept ask w hist n = wins accept' ask w' hist n.
Proof. intros H. revert hist. induction n as [|n IH]; intros hist; cbn; [reflexivity|]. now rewrite !H, IH. Qed.

(** * Counting by fibres. *)
Section Fibre.
Context {A B : Type} (eqb : B -> B -> bool) (eqb_eq : forall b b', eqb b b' = true <-> b = b').

Lemma fibre_bound (f : A -> B) (image : list B) c (l : list A) :
  (forall a, In a l -> In (f a) image) ->
  (forall b, In b image -> length (filter (fun a => eqb (f a) b) l) <= c) -> length l <= c * length image.
Proof.
  revert l. induction image as [|b image IH]; intros l H1 H2.
  - destruct l as [|a l]; [cbn; lia|]. destruct (H1 a (or_introl eq_refl)).
  - rewrite <- (filter_length (fun a => eqb (f a) b) l). cbn [length].
    assert (length (filter (fun a => negb (eqb (f a) b)) l) <= c * length image).
    { apply IH.
      - intros a Ha. apply filter_In in Ha. destruct Ha as [Ha E]. destruct (H1 a Ha) as [Eb|Hi]; [|exact Hi].
        rewrite (proj2 (eqb_eq (f a) b) (eq_sym Eb)) in E. discriminate.
      - intros b' Hb'. eapply Nat.le_trans; [|exact (H2 b' (or_intror Hb'))].
        clear. induction l as [|a l IH]; cbn; [lia|]. destruct (negb (eqb (f a) b)); cbn; destruct (eqb (f a) b'); cbn; lia. }
    specialize (H2 b (or_introl eq_refl)). lia.
Qed.
End Fibre.

(** The lists with one element of each of the given lists. *)
Fixpoint choices {A} (ls : list (list A)) : list (list A) :=
  match ls with
  | [] => [[]]
  | l :: ls' => flat_map (fun a => map (cons a) (choices ls')) l
  end.
Lemma in_choices {A} (ls : list (list A)) v : In v (choices ls) <-> Forall2 (fun a l => In a l) v ls.
Proof.
  revert v. induction ls as [|l ls IH]; intros v; cbn.
  - split; [intros [<-|[]]; constructor|]. intros H. inversion H. now left.
  - rewrite in_flat_map. split.
    + intros (a & Ha & H). apply in_map_iff in H. destruct H as (v' & <- & H). constructor; [exact Ha|]. now apply IH.
    + intros H. inversion H as [|a l' v' ls' Ha Hv]; subst. exists a. split; [exact Ha|]. apply in_map. now apply IH.
Qed.
Lemma choices_length {A} (ls : list (list A)) c :
  Forall (fun l => length l <= c) ls -> length (choices ls) <= c ^ length ls.
Proof.
  induction 1 as [|l ls Hl _ IH]; cbn; [lia|].
  assert (length (flat_map (fun a => map (cons a) (choices ls)) l) = length l * length (choices ls)) as ->.
  { clear. induction l as [|a l IH]; cbn; [reflexivity|]. rewrite app_length, map_length. lia. }
  now apply Nat.mul_le_mono.
Qed.
Lemma choices_length_eq {A} (l : list A) n : length (choices (repeat l n)) = length l ^ n.
Proof.
  induction n as [|n IH]; cbn; [reflexivity|]. rewrite <- IH. clear.
  generalize (choices (repeat l n)). intros m. induction l as [|a l IH]; cbn; [reflexivity|].
  rewrite app_length, map_length. lia.
Qed.
Lemma nodup_choices {A} (ls : list (list A)) : Forall (@NoDup A) ls -> NoDup (choices ls).
Proof.
  induction 1 as [|l ls Hl _ IH]; cbn; [repeat constructor; intros []|].
  induction Hl as [|a l Ha Hl IHl]; cbn; [constructor|].
  assert (forall (X Y : list (list A)), NoDup X -> NoDup Y -> (forall x, In x X -> In x Y -> False) -> NoDup (X ++ Y)) as NA.
  { clear. induction X as [|x X IH]; intros Y HX HY H; cbn; [exact HY|]. inversion HX as [|? ? Hx HX']; subst.
    constructor.
    - intros Hi. apply in_app_or in Hi. destruct Hi as [Hi|Hi]; [exact (Hx Hi)|exact (H x (or_introl eq_refl) Hi)].
    - apply IH; [exact HX'|exact HY|]. intros z Hz Hz'. exact (H z (or_intror Hz) Hz'). }
  apply NA; [|exact IHl|].
  - apply FinFun.Injective_map_NoDup; [|exact IH]. intros u v E. now injection E.
  - intros x Hx Hy. apply in_map_iff in Hx. destruct Hx as (v & <- & _).
    apply in_flat_map in Hy. destruct Hy as (a' & Ha' & Hy). apply in_map_iff in Hy. destruct Hy as (v' & E & _).
    injection E as -> _. contradiction.
Qed.
