(** * Questions to somebody who multiplies by a secret.

    Somebody holds a secret [q] and answers a value [u] with [u * q], any number of times.  The values form a field (for
    AuCPace: the exponents of the points of a prime-order group).  An asker who computes with unknown values by adding
    them and multiplying them by known numbers only, whatever they are, gets the products of at most as many of them as
    it has asked questions. *)
From Coq Require Import List Lia Arith Field.
Import ListNotations.

(** What an asker computes: unknown values, answers so far, sums, multiples. *)
Inductive expr (F : Type) := Unknown (i : nat) | Answer (k : nat) | Plus (a b : expr F) | Times (s : F) (a : expr F).
Arguments Unknown {F}. Arguments Answer {F}. Arguments Plus {F}. Arguments Times {F}.

Section Questions.
Context (F : Type) (F0 F1 : F) (Fadd Fmul Fsub : F -> F -> F) (Fopp : F -> F) (Fdiv : F -> F -> F) (Finv : F -> F).
Context (Hfield : field_theory F0 F1 Fadd Fmul Fsub Fopp Fdiv Finv (@eq F)).
Context (Fdec : forall a b : F, {a = b} + {a <> b}).
Add Field FQ : Hfield.
Infix "+" := Fadd. Infix "*" := Fmul. Infix "-" := Fsub.

(** ** Vectors: at most as many independent ones as generators *)
Definition vec := nat -> F.
Fixpoint span (vs : list vec) (w : vec) : Prop :=
  match vs with
  | [] => forall i, w i = F0
  | v :: vs => exists c w', span vs w' /\ forall i, w i = c * v i + w' i
  end.
Lemma span_comb vs : forall w w' c, span vs w -> span vs w' -> span vs (fun i => w i - c * w' i).
Proof.
  induction vs as [|v vs IH]; cbn [span]; intros w w' c.
  - intros H H' i. rewrite H, H'. ring.
  - intros (a & u & Hu & H) (a' & u' & Hu' & H'). exists (a - c * a'), (fun i => u i - c * u' i).
    split; [now apply IH|]. intros i. rewrite H, H'. ring.
Qed.
Definition delta (i j : nat) : F := if Nat.eqb i j then F1 else F0.

Lemma units_bound vs : forall js, NoDup js ->
  (forall j, In j js -> exists w, span vs w /\ forall i, In i js -> w i = delta i j) -> length js <= length vs.
Proof.
  induction vs as [|v vs IH]; intros js ND H.
  - destruct js as [|j js]; [cbn; lia|]. exfalso. destruct (H j (or_introl eq_refl)) as (w & Hw & Hd).
    specialize (Hd j (or_introl eq_refl)). rewrite (Hw j) in Hd. unfold delta in Hd. rewrite Nat.eqb_refl in Hd.
    now apply (F_1_neq_0 Hfield).
  - assert (C : (forall j, In j js -> exists w, span vs w /\ forall i, In i js -> w i = delta i j) \/
      exists j0 c w', In j0 js /\ c <> F0 /\ span vs w' /\ forall i, In i js -> c * v i + w' i = delta i j0).
    { assert (G : forall l, (forall j, In j l -> In j js) ->
        (forall j, In j l -> exists w, span vs w /\ forall i, In i js -> w i = delta i j) \/
        exists j0 c w', In j0 js /\ c <> F0 /\ span vs w' /\ forall i, In i js -> c * v i + w' i = delta i j0).
      { induction l as [|j l IHl]; intros Hl; [left; intros j []|].
        destruct (IHl (fun j' Hj => Hl j' (or_intror Hj))) as [A|A]; [|now right].
        destruct (H j (Hl j (or_introl eq_refl))) as (w & (c & w' & Hw' & E) & Hd).
        destruct (Fdec c F0) as [->|Hc].
        - left. intros j' [<-|Hj']; [|now apply A]. exists w'. split; [exact Hw'|].
          intros i Hi. rewrite <- (Hd i Hi), (E i). ring.
        - right. exists j, c, w'. split; [apply Hl; now left|]. split; [exact Hc|]. split; [exact Hw'|].
          intros i Hi. now rewrite <- (Hd i Hi), (E i). }
      apply (G js). auto. }
    cbn [length]. destruct C as [C|(j0 & c0 & w0 & Hj0 & Hc0 & Hw0 & E0)]; [specialize (IH js ND C); lia|].
    apply in_split in Hj0. destruct Hj0 as (l1 & l2 & ->).
    apply NoDup_remove in ND. destruct ND as [ND Hnot].
    enough (length (l1 ++ l2) <= length vs) as Hle by (rewrite app_length in *; cbn [length]; lia).
    assert (Hsub : forall i, In i (l1 ++ l2) -> In i (l1 ++ j0 :: l2)).
    { intros i. rewrite !in_app_iff. intros [Hi|Hi]; [now left|right; now right]. }
    apply IH; [exact ND|]. intros j Hj. destruct (H j (Hsub j Hj)) as (w & (c & w' & Hw' & E) & Hd).
    exists (fun i => w' i - Fdiv c c0 * w0 i). split; [now apply span_comb|].
    intros i Hi. pose proof (Hd i (Hsub i Hi)) as Hdi. rewrite (E i) in Hdi. specialize (E0 i (Hsub i Hi)).
    assert (delta i j0 = F0) as Hz.
    { unfold delta. destruct (Nat.eqb_spec i j0) as [->|]; [contradiction|reflexivity]. }
    rewrite Hz in E0. rewrite <- Hdi.
    transitivity (c * v i + w' i - Fdiv c c0 * (c0 * v i + w0 i)); [field; exact Hc0|]. rewrite E0. ring.
Qed.

(** ** Polynomials, as lists of coefficients *)
Fixpoint ev (p : list F) (x : F) : F := match p with [] => F0 | c :: p => c + x * ev p x end.
Fixpoint padd (p r : list F) : list F :=
  match p, r with
  | [], r => r
  | p, [] => p
  | c :: p, d :: r => (c + d) :: padd p r
  end.
Definition pscale (s : F) (p : list F) : list F := map (Fmul s) p.
Lemma ev_padd p : forall r x, ev (padd p r) x = ev p x + ev r x.
Proof.
  induction p as [|c p IH]; intros [|d r] x; cbn [padd ev]; try ring. rewrite IH. ring.
Qed.
Lemma ev_pscale s p x : ev (pscale s p) x = s * ev p x.
Proof. unfold pscale. induction p as [|c p IH]; cbn [map ev]; [ring|]. rewrite IH. ring. Qed.
Lemma padd_length p : forall r, length (padd p r) = Nat.max (length p) (length r).
Proof. induction p as [|c p IH]; intros [|d r]; cbn [padd length]; try lia. rewrite IH. lia. Qed.
Lemma nth_padd k : forall p r, nth k (padd p r) F0 = nth k p F0 + nth k r F0.
Proof.
  induction k as [|k IH]; intros [|c p] [|d r]; cbn [padd nth]; try ring. apply IH.
Qed.
Lemma nth_pscale s k : forall p, nth k (pscale s p) F0 = s * nth k p F0.
Proof. unfold pscale. induction k as [|k IH]; intros [|c p]; cbn [map nth]; try ring. apply IH. Qed.

(** Division by X - a. *)
Fixpoint quot (a : F) (p : list F) : list F :=
  match p with [] => [] | c :: t => padd t (pscale a (quot a t)) end.
Lemma quot_length a p : length (quot a p) = pred (length p).
Proof.
  induction p as [|c t IH]; [reflexivity|]. cbn [quot length pred]. rewrite padd_length. unfold pscale.
  rewrite map_length, IH. lia.
Qed.
Lemma quot_ok a p x : ev p x = ev p a + (x - a) * ev (quot a p) x.
Proof.
  induction p as [|c t IH]; cbn [ev quot]; [ring|]. rewrite ev_padd, ev_pscale.
  transitivity (c + a * ev t a + (x - a) * ev t x + a * (ev t x - ev t a)); [ring|].
  replace (ev t x - ev t a) with ((x - a) * ev (quot a t) x) by (rewrite IH; ring). ring.
Qed.
Lemma mul_zero a b : a * b = F0 -> a <> F0 -> b = F0.
Proof.
  intros E Ha. transitivity (Finv a * (a * b)); [field; exact Ha|]. rewrite E. ring.
Qed.
Lemma sub_nonzero x a : x <> a -> x - a <> F0.
Proof. intros H E. apply H. transitivity ((x - a) + a); [ring|]. rewrite E. ring. Qed.
(** As many roots as coefficients: the polynomial vanishes. *)
Lemma roots_zero xs : forall p, NoDup xs -> length p <= length xs -> (forall x, In x xs -> ev p x = F0) -> forall x, ev p x = F0.
Proof.
  induction xs as [|a xs IH]; intros p ND Hl Hr x.
  - destruct p; [reflexivity|cbn in Hl; lia].
  - inversion ND as [|? ? Hn ND']; subst.
    rewrite (quot_ok a p x), (Hr a (or_introl eq_refl)). rewrite IH; [ring|exact ND'| |].
    + rewrite quot_length. cbn [length] in Hl. lia.
    + intros y Hy. apply (mul_zero (y - a)).
      * transitivity (ev p y - ev p a); [rewrite (quot_ok a p y); ring|].
        rewrite (Hr a (or_introl eq_refl)), (Hr y (or_intror Hy)). ring.
      * apply sub_nonzero. intros ->. contradiction.
Qed.
(** A polynomial that vanishes on enough values other than 0 has the second coefficient 0. *)
Lemma second_zero xs p : NoDup xs -> ~ In F0 xs -> length p <= length xs -> (forall x, In x xs -> ev p x = F0) -> nth 1 p F0 = F0.
Proof.
  intros ND H0 Hl Hr. pose proof (roots_zero xs p ND Hl Hr) as H. destruct p as [|c t]; [reflexivity|]. cbn [nth].
  assert (c = F0) as -> by (specialize (H F0); cbn [ev] in H; rewrite <- H; ring).
  assert (Ht : forall x, ev t x = F0).
  { apply (roots_zero xs); [exact ND|cbn [length] in Hl; lia|]. intros x Hx. apply (mul_zero x).
    - specialize (H x). cbn [ev] in H. rewrite <- H. ring.
    - intros ->. contradiction. }
  destruct t as [|d t]; [reflexivity|]. specialize (Ht F0). cbn [ev] in Ht. cbn [nth]. rewrite <- Ht. ring.
Qed.

(** ** The asker *)
Fixpoint value (y : vec) (ans : list F) (e : expr F) : F :=
  match e with
  | Unknown i => y i
  | Answer k => nth k ans F0
  | Plus a b => value y ans a + value y ans b
  | Times s a => s * value y ans a
  end.
(** The answers to a list of questions, each of which may use the answers before. *)
Fixpoint answers_from (y : vec) (q : F) (ans : list F) (es : list (expr F)) : list F :=
  match es with
  | [] => ans
  | e :: es => answers_from y q (ans ++ [value y ans e * q]) es
  end.
Definition answers (y : vec) (q : F) (es : list (expr F)) : list F := answers_from y q [] es.

(** The same as polynomials in the secret. *)
Fixpoint poly (y : vec) (ans : list (list F)) (e : expr F) : list F :=
  match e with
  | Unknown i => [y i]
  | Answer k => nth k ans []
  | Plus a b => padd (poly y ans a) (poly y ans b)
  | Times s a => pscale s (poly y ans a)
  end.
Fixpoint polys_from (y : vec) (ans : list (list F)) (es : list (expr F)) : list (list F) :=
  match es with
  | [] => ans
  | e :: es => polys_from y (ans ++ [F0 :: poly y ans e]) es
  end.
Lemma poly_ok y q ps e : value y (map (fun p => ev p q) ps) e = ev (poly y ps e) q.
Proof.
  induction e as [i|k|a IHa b IHb|s a IHa]; cbn [value poly ev].
  - ring.
  - change F0 with ((fun p => ev p q) []). now rewrite map_nth.
  - now rewrite ev_padd, IHa, IHb.
  - now rewrite ev_pscale, IHa.
Qed.
Lemma polys_ok y q es : forall ps, answers_from y q (map (fun p => ev p q) ps) es = map (fun p => ev p q) (polys_from y ps es).
Proof.
  induction es as [|e es IH]; intros ps; cbn [answers_from polys_from]; [reflexivity|].
  rewrite <- IH. f_equal. rewrite map_app. cbn [map ev]. rewrite poly_ok. do 2 f_equal. ring.
Qed.
Lemma poly_length y ps n e : (forall p, In p ps -> length p <= n) -> 1 <= n -> length (poly y ps e) <= n.
Proof.
  intros H Hn. induction e as [i|k|a IHa b IHb|s a IHa]; cbn [poly].
  - exact Hn.
  - destruct (nth_in_or_default k ps []) as [Hi|E]; [now apply H|]. rewrite E. cbn. lia.
  - rewrite padd_length. lia.
  - unfold pscale. now rewrite map_length.
Qed.
Lemma polys_length y es : forall ps n, (forall p, In p ps -> length p <= n) -> 1 <= n ->
  forall p, In p (polys_from y ps es) -> length p <= (length es + n)%nat.
Proof.
  induction es as [|e es IH]; intros ps n H Hn p Hp; cbn [polys_from length] in *; [specialize (H p Hp); lia|].
  replace (S (length es) + n)%nat with (length es + S n)%nat by lia. apply (IH (ps ++ [F0 :: poly y ps e])); [|lia|exact Hp].
  intros r Hr. apply in_app_iff in Hr. destruct Hr as [Hr|[<-|[]]]; [specialize (H r Hr); lia|].
  cbn [length]. pose proof (poly_length y ps n e H Hn). lia.
Qed.

(** The first two coefficients: a question's part without the secret, and the combination of questions in an expression. *)
Fixpoint part0 (e : expr F) : vec :=
  match e with
  | Unknown i => fun j => delta j i
  | Answer _ => fun _ => F0
  | Plus a b => fun j => part0 a j + part0 b j
  | Times s a => fun j => s * part0 a j
  end.
Definition unit_vec (j : nat) : vec := fun i => delta j i.
Definition first0 (y : vec) (ps : list (list F)) : Prop := forall p, In p ps -> nth 0 p F0 = F0.
Lemma poly_part0 j ps e : first0 (unit_vec j) ps -> nth 0 (poly (unit_vec j) ps e) F0 = part0 e j.
Proof.
  intros H. induction e as [i|k|a IHa b IHb|s a IHa]; cbn [poly part0].
  - reflexivity.
  - destruct (nth_in_or_default k ps []) as [Hi|E]; [now apply H|]. rewrite E. reflexivity.
  - now rewrite nth_padd, IHa, IHb.
  - now rewrite nth_pscale, IHa.
Qed.
Lemma polys_first0 y es : forall ps, first0 y ps -> first0 y (polys_from y ps es).
Proof.
  induction es as [|e es IH]; intros ps H; cbn [polys_from]; [exact H|]. apply IH.
  intros p Hp. apply in_app_iff in Hp. destruct Hp as [Hp|[<-|[]]]; [now apply H|reflexivity].
Qed.
(** The second coefficients of the answers are the questions' first ones. *)
Lemma polys_part1 j es : forall ps, first0 (unit_vec j) ps ->
  map (fun p => nth 1 p F0) (polys_from (unit_vec j) ps es) = map (fun p => nth 1 p F0) ps ++ map (fun e => part0 e j) es.
Proof.
  induction es as [|e es IH]; intros ps H; cbn [polys_from map]; [now rewrite app_nil_r|].
  rewrite IH.
  - rewrite map_app. cbn [map]. rewrite <- app_assoc. cbn [app nth]. now rewrite poly_part0.
  - intros p Hp. apply in_app_iff in Hp. destruct Hp as [Hp|[<-|[]]]; [now apply H|reflexivity].
Qed.
(** An expression is a combination of answers ... *)
Fixpoint weight (e : expr F) (k : nat) : F :=
  match e with
  | Unknown _ => F0
  | Answer k' => delta k k'
  | Plus a b => weight a k + weight b k
  | Times s a => s * weight a k
  end.
Fixpoint combine_at (w : nat -> F) (l : list F) : F := match l with [] => F0 | x :: l => w 0 * x + combine_at (fun k => w (S k)) l end.
Lemma combine_add l : forall w w', combine_at (fun k => w k + w' k) l = combine_at w l + combine_at w' l.
Proof. induction l as [|x l IH]; intros w w'; cbn [combine_at]; [ring|]. rewrite (IH (fun k => w (S k)) (fun k => w' (S k))). ring. Qed.
Lemma combine_scale s l : forall w, combine_at (fun k => s * w k) l = s * combine_at w l.
Proof. induction l as [|x l IH]; intros w; cbn [combine_at]; [ring|]. rewrite (IH (fun k => w (S k))). ring. Qed.
Lemma combine_zero l : combine_at (fun _ => F0) l = F0.
Proof. induction l as [|x l IH]; cbn [combine_at]; [reflexivity|]. rewrite IH. ring. Qed.
Lemma combine_delta l : forall k, combine_at (fun i => delta i k) l = nth k l F0.
Proof.
  induction l as [|x l IH]; intros [|k]; cbn [combine_at nth]; try reflexivity.
  - unfold delta at 1. cbn [Nat.eqb]. change (fun k => delta (S k) 0) with (fun _ : nat => F0). rewrite combine_zero. ring.
  - unfold delta at 1. cbn [Nat.eqb]. change (fun i => delta (S i) (S k)) with (fun i => delta i k). rewrite IH. ring.
Qed.
Lemma poly_part1 y ps e : nth 1 (poly y ps e) F0 = combine_at (weight e) (map (fun p => nth 1 p F0) ps).
Proof.
  induction e as [i|k|a IHa b IHb|s a IHa]; cbn [poly weight].
  - rewrite combine_zero. reflexivity.
  - rewrite combine_delta. change F0 with ((fun p : list F => nth 1 p F0) []) at 3. now rewrite map_nth.
  - rewrite nth_padd, IHa, IHb. symmetry. apply combine_add.
  - rewrite nth_pscale, IHa. symmetry. apply combine_scale.
Qed.
(** ... and so in the span of the questions. *)
Lemma combine_span es : forall w, span (map part0 es) (fun j => combine_at w (map (fun e => part0 e j) es)).
Proof.
  induction es as [|e es IH]; intros w; cbn [map span combine_at]; [reflexivity|].
  exists (w 0), (fun j => combine_at (fun k => w (S k)) (map (fun e => part0 e j) es)). split; [apply IH|reflexivity].
Qed.

(** ** The bound *)
Theorem questions_bound (es : list (expr F)) (js : list nat) (xs : list F) :
  NoDup js -> NoDup xs -> ~ In F0 xs -> S (length es) < length xs ->
  (forall j, In j js -> exists e, forall y q, q <> F0 -> value y (answers y q es) e = y j * q) ->
  length js <= length es.
Proof.
  intros NDj NDx H0 Hl H. rewrite <- (map_length part0 es). apply units_bound; [exact NDj|].
  intros j Hj. destruct (H j Hj) as (e & He).
  exists (fun i => combine_at (weight e) (map (fun u => part0 u i) es)). split; [apply combine_span|].
  intros i Hi. set (ps := polys_from (unit_vec i) [] es).
  assert (P1 : nth 1 (poly (unit_vec i) ps e) F0 = combine_at (weight e) (map (fun u => part0 u i) es)).
  { rewrite poly_part1. unfold ps. rewrite polys_part1 by (intros p []). reflexivity. }
  rewrite <- P1.
  assert (Z : nth 1 (padd (poly (unit_vec i) ps e) [F0; Fopp (delta i j)]) F0 = F0).
  { apply (second_zero xs); [exact NDx|exact H0| |].
    - rewrite padd_length. cbn [length].
      assert (length (poly (unit_vec i) ps e) <= S (length es)).
      { apply poly_length; [|lia]. intros p Hp. pose proof (polys_length (unit_vec i) es [] 1 (fun p (A : In p []) => match A with end) (le_n 1) p Hp). lia. }
      lia.
    - intros q Hq. rewrite ev_padd. unfold ps. rewrite <- poly_ok, <- polys_ok. cbn [map].
      fold (answers (unit_vec i) q es). rewrite He by (intros ->; contradiction). unfold unit_vec. cbn [ev]. ring. }
  rewrite nth_padd in Z. cbn [nth] in Z.
  transitivity ((nth 1 (poly (unit_vec i) ps e) F0 + Fopp (delta i j)) + delta i j); [ring|]. rewrite Z. ring.
Qed.
End Questions.
