(** * What a comparison shows besides its result.

    A small imperative language with the usual leakage of code that is to run in constant time: every branch shows
    which way it went, every access to memory shows its address; arithmetic on words shows nothing.  In this
    language the comparison of subtle 2.6.1 ([<[u8]>::ct_eq], which the crates call) and, for contrast, the
    comparison of two slices with [==]. *)
From Coq Require Import NArith Lia List Bool PeanoNat.
From Verif Require Import Base.Bytes Base.CtEq.
Import ListNotations.
Local Open Scope nat_scope.

(** Arrays and variables are numbered; a word is an [N], the arithmetic is that of [u8] (the operands are below 256). *)
Inductive expr :=
| EConst (n : N)
| EVar (x : nat)
| ELen (a : nat)
| EAt (a i : nat)            (* array [a] at the index held by variable [i] *)
| EXor (e f : expr)
| EOr (e f : expr)
| EAnd (e f : expr)
| EWrappingNeg (e : expr)
| EShr (e : expr) (k : N)
| ENe (e f : expr).

Inductive stmt :=
| SSet (x : nat) (e : expr)
| SIf (e : expr) (s t : stmt)
| SFor (i : nat) (e : expr) (s : stmt)   (* [for i in 0..e { s }] *)
| SSeq (s t : stmt)
| SReturn (e : expr)
| SSkip.

Inductive obs := OBranch (taken : bool) | ORead (array : nat) (index : N).

Definition arrays := nat -> bytes.
Definition vars := nat -> N.
Definition set (v : vars) (x : nat) (n : N) : vars := fun y => if Nat.eqb y x then n else v y.

Section Semantics.
Context (A : arrays).
Fixpoint eval (v : vars) (e : expr) : N * list obs :=
  match e with
  | EConst n => (n, [])
  | EVar x => (v x, [])
  | ELen a => (N.of_nat (length (A a)), [])
  | EAt a i => (b2n (nth (N.to_nat (v i)) (A a) x00), [ORead a (v i)])
  | EXor e f => (N.lxor (fst (eval v e)) (fst (eval v f)), snd (eval v e) ++ snd (eval v f))
  | EOr e f => (N.lor (fst (eval v e)) (fst (eval v f)), snd (eval v e) ++ snd (eval v f))
  | EAnd e f => (N.land (fst (eval v e)) (fst (eval v f)), snd (eval v e) ++ snd (eval v f))
  | EWrappingNeg e => (((256 - fst (eval v e)) mod 256)%N, snd (eval v e))
  | EShr e k => (N.shiftr (fst (eval v e)) k, snd (eval v e))
  | ENe e f => (if (fst (eval v e) =? fst (eval v f))%N then 0%N else 1%N, snd (eval v e) ++ snd (eval v f))
  end.

(** The value returned, if the statement returned; the variables; what was shown. *)
Definition run := (option N * vars * list obs)%type.
Definition emit (l : list obs) (r : run) : run := let '(o, v, t) := r in (o, v, l ++ t).
Definition andthen (r : run) (k : vars -> run) : run :=
  let '(o, v, t) := r in match o with Some _ => r | None => emit t (k v) end.
Fixpoint loop (body : vars -> run) (i : nat) (n : nat) (k : N) (v : vars) : run :=
  match n with
  | O => (None, v, [OBranch false])
  | S n => emit [OBranch true] (andthen (body (set v i k)) (loop body i n (k + 1)))
  end.
Fixpoint exec (s : stmt) (v : vars) : run :=
  match s with
  | SSet x e => (None, set v x (fst (eval v e)), snd (eval v e))
  | SIf e s t =>
      let taken := negb (fst (eval v e) =? 0)%N in
      emit (snd (eval v e) ++ [OBranch taken]) (if taken then exec s v else exec t v)
  | SFor i e s => emit (snd (eval v e)) (loop (exec s) i (N.to_nat (fst (eval v e))) 0 v)
  | SSeq s t => andthen (exec s v) (exec t)
  | SReturn e => (Some (fst (eval v e)), v, snd (eval v e))
  | SSkip => (None, v, [])
  end.
End Semantics.

(** A function of two slices, arrays 0 and 1: its result and what it shows. *)
Definition two (a b : bytes) : arrays := fun k => match k with O => a | _ => b end.
Definition call (s : stmt) (a b : bytes) : N * list obs :=
  let '(o, _, t) := exec (two a b) s (fun _ => 0%N) in (match o with Some n => n | None => 0%N end, t).

Definition vI := 0. Definition vX := 1. Definition vD := 2. Definition vY := 3.

(** [<u8 as ConstantTimeEq>::ct_eq], inlined, [x &= ai.ct_eq(bi).unwrap_u8()] *)
Definition ct_eq_step : stmt :=
  SSeq (SSet vD (EXor (EAt 0 vI) (EAt 1 vI)))
  (SSeq (SSet vY (EShr (EOr (EVar vD) (EWrappingNeg (EVar vD))) 7))
        (SSet vX (EAnd (EVar vX) (EXor (EVar vY) (EConst 1))))).
(** [<[T] as ConstantTimeEq>::ct_eq]: "short-circuit on the lengths of the slices, not their contents" *)
Definition ct_eq_code : stmt :=
  SSeq (SIf (ENe (ELen 0) (ELen 1)) (SReturn (EConst 0)) SSkip)
  (SSeq (SSet vX (EConst 1))
  (SSeq (SFor vI (ELen 0) ct_eq_step)
        (SReturn (EVar vX)))).
(** [==] on two slices: it stops at the first difference. *)
Definition eq_step : stmt := SIf (ENe (EAt 0 vI) (EAt 1 vI)) (SReturn (EConst 0)) SSkip.
Definition eq_code : stmt :=
  SSeq (SIf (ENe (ELen 0) (ELen 1)) (SReturn (EConst 0)) SSkip)
  (SSeq (SFor vI (ELen 0) eq_step)
        (SReturn (EConst 1))).

Definition ct_eq_l : bytes -> bytes -> N * list obs := call ct_eq_code.
Definition eq_l : bytes -> bytes -> N * list obs := call eq_code.

(** ** Programs that show nothing about the contents of the arrays *)

(** Expressions of public variables and of lengths. *)
Fixpoint public (P : list nat) (e : expr) : bool :=
  match e with
  | EConst _ | ELen _ => true
  | EVar x => existsb (Nat.eqb x) P
  | EAt _ _ => false
  | EXor e f | EOr e f | EAnd e f | ENe e f => public P e && public P f
  | EWrappingNeg e | EShr e _ => public P e
  end.
(** The addresses read are public. *)
Fixpoint addresses (P : list nat) (e : expr) : bool :=
  match e with
  | EConst _ | ELen _ | EVar _ => true
  | EAt _ i => existsb (Nat.eqb i) P
  | EXor e f | EOr e f | EAnd e f | ENe e f => addresses P e && addresses P f
  | EWrappingNeg e | EShr e _ => addresses P e
  end.
(** Branches and loops on public expressions only, public variables are given public values only. *)
Fixpoint oblivious (P : list nat) (s : stmt) : bool :=
  match s with
  | SSet x e => addresses P e && (negb (existsb (Nat.eqb x) P) || public P e)
  | SIf e s t => public P e && oblivious P s && oblivious P t
  | SFor i e s => existsb (Nat.eqb i) P && public P e && oblivious P s
  | SSeq s t => oblivious P s && oblivious P t
  | SReturn e => addresses P e
  | SSkip => true
  end.

Definition agree (P : list nat) (v w : vars) : Prop := forall x, existsb (Nat.eqb x) P = true -> v x = w x.
Definition same_lengths (A B : arrays) : Prop := forall k, length (A k) = length (B k).

Section Sound.
Context (A B : arrays) (HL : same_lengths A B) (P : list nat).

Lemma public_eval v w e : agree P v w -> public P e = true -> fst (eval A v e) = fst (eval B w e).
Proof.
  intros HA. induction e; cbn [public eval fst]; intros H; try discriminate;
    repeat rewrite ?andb_true_iff in H; try reflexivity.
  - now apply HA.
  - now rewrite (HL a).
  - destruct H. now rewrite IHe1, IHe2.
  - destruct H. now rewrite IHe1, IHe2.
  - destruct H. now rewrite IHe1, IHe2.
  - now rewrite IHe.
  - now rewrite IHe.
  - destruct H. now rewrite IHe1, IHe2.
Qed.

Lemma addresses_eval v w e : agree P v w -> addresses P e = true -> snd (eval A v e) = snd (eval B w e).
Proof.
  intros HA. induction e; cbn [addresses eval snd]; intros H;
    repeat rewrite ?andb_true_iff in H; try reflexivity.
  - now rewrite (HA _ H).
  - destruct H. now rewrite IHe1, IHe2.
  - destruct H. now rewrite IHe1, IHe2.
  - destruct H. now rewrite IHe1, IHe2.
  - now apply IHe.
  - now apply IHe.
  - destruct H. now rewrite IHe1, IHe2.
Qed.

Lemma public_addresses e : public P e = true -> addresses P e = true.
Proof.
  induction e; cbn [public addresses]; intros H; try discriminate; auto;
    apply andb_true_iff in H; destruct H; apply andb_true_iff; auto.
Qed.

Lemma agree_set v w x n m : agree P v w -> (existsb (Nat.eqb x) P = true -> n = m) -> agree P (set v x n) (set w x m).
Proof.
  intros HA E y Hy. unfold set. destruct (Nat.eqb_spec y x) as [->|]; auto.
Qed.

(** Two runs show the same, both return or both go on, and the public variables are the same. *)
Definition similar (r s : run) : Prop :=
  match r, s with
  | (o, v, t), (o', v', t') => t = t' /\ agree P v v' /\ (o = None <-> o' = None)
  end.

Lemma similar_emit l r s : similar r s -> similar (emit l r) (emit l s).
Proof. destruct r as [[? ?] ?], s as [[? ?] ?]. cbn. intuition congruence. Qed.

Lemma similar_andthen r s k h :
  similar r s -> (forall v w, agree P v w -> similar (k v) (h w)) -> similar (andthen r k) (andthen s h).
Proof.
  destruct r as [[o v] t], s as [[o' v'] t']. intros (E & HA & HO) H. cbn [andthen]. subst t'.
  destruct o as [n|], o' as [n'|].
  - cbn. intuition congruence.
  - exfalso. destruct HO as [_ HO]. specialize (HO eq_refl). discriminate.
  - exfalso. destruct HO as [HO _]. specialize (HO eq_refl). discriminate.
  - apply similar_emit, H, HA.
Qed.

Lemma similar_loop f g i :
  (forall v w, agree P v w -> similar (f v) (g w)) ->
  forall n k v w, agree P v w -> similar (loop f i n k v) (loop g i n k w).
Proof.
  intros H. induction n as [|n IH]; intros k v w HA; cbn [loop].
  - cbn. intuition.
  - apply similar_emit, similar_andthen; [|intros; now apply IH].
    apply H, agree_set; auto.
Qed.

Lemma oblivious_similar s : oblivious P s = true -> forall v w, agree P v w -> similar (exec A s v) (exec B s w).
Proof.
  induction s; cbn [oblivious exec]; intros H v w HA; repeat rewrite ?andb_true_iff in H.
  - destruct H as [H1 H2]. split; [now apply addresses_eval|]. split; [|tauto].
    apply agree_set; auto. intros Hx. rewrite Hx in H2. cbn in H2. now apply public_eval.
  - destruct H as [[H1 H2] H3].
    rewrite (public_eval v w) by auto. rewrite (addresses_eval v w) by (auto using public_addresses).
    apply similar_emit. destruct (negb _); auto.
  - destruct H as [[H1 H2] H3].
    rewrite (public_eval v w) by auto. rewrite (addresses_eval v w) by (auto using public_addresses).
    apply similar_emit, similar_loop; auto.
  - destruct H as [H1 H2]. apply similar_andthen; auto.
  - split; [now apply addresses_eval|]. split; [assumption|]. split; discriminate.
  - cbn. intuition.
Qed.
End Sound.

(** What an oblivious function shows is a function of the two lengths. *)
Lemma oblivious_call P s a b a' b' :
  oblivious P s = true -> length a = length a' -> length b = length b' -> snd (call s a b) = snd (call s a' b').
Proof.
  intros H La Lb. unfold call.
  assert (HL : same_lengths (two a b) (two a' b')) by (intros [|?]; auto).
  pose proof (oblivious_similar (two a b) (two a' b') HL P s H (fun _ => 0%N) (fun _ => 0%N) (fun _ _ => eq_refl)) as S.
  destruct (exec (two a b) s _) as [[? ?] ?], (exec (two a' b') s _) as [[? ?] ?]. cbn in *. tauto.
Qed.

Lemma ct_eq_oblivious : oblivious [vI] ct_eq_code = true. Proof. reflexivity. Qed.

(** ** The code computes the model's comparison *)

Lemma ct_eq_loop a b : forall n k v, k + n = length a -> length a = length b ->
  exists v' t, loop (exec (two a b) ct_eq_step) vI n (N.of_nat k) v = (None, v', t)
  /\ v' vX = fold_left (fun acc p => N.land acc (u8_ct_eq (fst p) (snd p))) (combine (skipn k a) (skipn k b)) (v vX).
Proof.
  induction n as [|n IH]; intros k v HK HL.
  - cbn [loop]. eexists _, _. split; [reflexivity|].
    rewrite !skipn_all2 by lia. reflexivity.
  - cbn [loop]. unfold ct_eq_step at 1. cbn [exec andthen emit eval fst snd].
    replace (N.of_nat k + 1)%N with (N.of_nat (S k)) by lia.
    match goal with |- context [loop _ _ n _ ?w] => destruct (IH (S k) w ltac:(lia) HL) as (v' & t & E & EV); rewrite E end.
    cbn [emit andthen]. eexists _, _. split; [reflexivity|]. rewrite EV.
    assert (Sk : forall (l : bytes), k < length l -> skipn k l = nth k l x00 :: skipn (S k) l).
    { clear. intros l. revert k. induction l as [|x l IHl]; intros [|k] Hk; cbn in *; try lia; auto.
      apply IHl. lia. }
    rewrite (Sk a), (Sk b) by lia. cbn [combine fold_left fst snd]. f_equal.
    unfold set. cbn. rewrite !Nat2N.id. reflexivity.
Qed.

Lemma ct_eq_value a b : fst (ct_eq_l a b) = slice_ct_eq a b.
Proof.
  unfold ct_eq_l, call, ct_eq_code, slice_ct_eq. cbn [exec eval fst snd two].
  destruct (Nat.eqb_spec (length a) (length b)) as [HL|HL].
  - rewrite <- HL, N.eqb_refl. cbn [negb N.eqb emit andthen app]. rewrite Nat2N.id.
    destruct (ct_eq_loop a b (length a) 0 (set (fun _ => 0%N) vX 1) eq_refl HL) as (v' & t & E & EV).
    cbn [N.of_nat] in E. rewrite E. cbn [emit andthen fst]. exact EV.
  - destruct (N.eqb_spec (N.of_nat (length a)) (N.of_nat (length b))); [lia|]. reflexivity.
Qed.

(** The result and what is shown depend on the lengths and on whether the slices are equal. *)
Lemma ct_eq_l_eq a b a' b' : length a = length a' -> length b = length b' ->
  (a = b <-> a' = b') -> ct_eq_l a b = ct_eq_l a' b'.
Proof.
  intros La Lb HE. apply injective_projections.
  - rewrite !ct_eq_value, !slice_ct_eq_spec.
    destruct (bytes_eqb a b) eqn:E, (bytes_eqb a' b') eqn:E'; auto.
    + apply bytes_eqb_eq in E. apply HE in E. apply bytes_eqb_eq in E. congruence.
    + apply bytes_eqb_eq in E'. apply HE in E'. apply bytes_eqb_eq in E'. congruence.
  - now apply (oblivious_call [vI] ct_eq_code), Lb; [reflexivity|].
Qed.

(** ** The comparison that stops early, for contrast *)

Fixpoint common_prefix (a b : bytes) : nat :=
  match a, b with
  | x :: a, y :: b => if byte_eqb x y then S (common_prefix a b) else 0
  | _, _ => 0
  end.
Fixpoint reads (t : list obs) : nat :=
  match t with
  | [] => 0
  | ORead _ _ :: t => S (reads t)
  | _ :: t => reads t
  end.

Lemma reads_app t u : reads (t ++ u) = reads t + reads u.
Proof. induction t as [|[] t IH]; cbn; auto. Qed.

Lemma eq_loop a b : forall n k v, k + n = length a -> length a = length b ->
  exists o v' t,
  loop (exec (two a b) eq_step) vI n (N.of_nat k) v = (o, v', t)
  /\ o = (if bytes_eqb (skipn k a) (skipn k b) then None else Some 0%N)
  /\ reads t = 2 * Nat.min n (S (common_prefix (skipn k a) (skipn k b))).
Proof.
  induction n as [|n IH]; intros k v HK HL.
  - cbn [loop]. eexists _, _, _. split; [reflexivity|].
    rewrite !skipn_all2 by lia. split; reflexivity.
  - assert (Sk : forall (l : bytes), k < length l -> skipn k l = nth k l x00 :: skipn (S k) l).
    { clear. intros l. revert k. induction l as [|x l IHl]; intros [|k] Hk; cbn in *; try lia; auto.
      apply IHl. lia. }
    cbn [loop]. unfold eq_step at 1. cbn [exec eval fst snd two].
    assert (EI : set v vI (N.of_nat k) vI = N.of_nat k) by reflexivity. rewrite EI, Nat2N.id.
    rewrite (Sk a), (Sk b) by lia. cbn [common_prefix].
    destruct (byte_eqb (nth k a x00) (nth k b x00)) eqn:EB.
    + apply byte_eqb_eq in EB. rewrite EB, N.eqb_refl. cbn [negb N.eqb emit andthen app].
      replace (N.of_nat k + 1)%N with (N.of_nat (S k)) by lia.
      match goal with |- context [loop _ _ n _ ?w] => destruct (IH (S k) w ltac:(lia) HL) as (o & v' & t & E & EO & ET); rewrite E end.
      cbn [emit andthen app]. eexists _, _, _. split; [reflexivity|]. split.
      * rewrite EO. cbn [bytes_eqb]. assert (byte_eqb (nth k b x00) (nth k b x00) = true) as -> by now apply byte_eqb_eq.
        reflexivity.
      * cbn [reads]. rewrite ET. lia.
    + destruct (N.eqb_spec (b2n (nth k a x00)) (b2n (nth k b x00))) as [E|E].
      { apply b2n_inj in E. rewrite E in EB. assert (byte_eqb (nth k b x00) (nth k b x00) = true) by now apply byte_eqb_eq. congruence. }
      cbn [negb N.eqb emit andthen app]. eexists _, _, _. split; [reflexivity|]. split.
      * cbn [bytes_eqb]. rewrite EB. reflexivity.
      * cbn [reads]. lia.
Qed.

Lemma eq_value a b : fst (eq_l a b) = slice_ct_eq a b.
Proof.
  rewrite slice_ct_eq_spec. unfold eq_l, call, eq_code. cbn [exec eval fst snd two].
  destruct (Nat.eq_dec (length a) (length b)) as [HL|HL].
  - rewrite <- HL, N.eqb_refl. cbn [negb N.eqb emit andthen app]. rewrite Nat2N.id.
    destruct (eq_loop a b (length a) 0 (fun _ => 0%N) eq_refl HL) as (o & v' & t & E & EO & ET).
    cbn [N.of_nat skipn] in *. rewrite E. cbn [emit andthen]. rewrite EO. now destruct (bytes_eqb a b).
  - destruct (N.eqb_spec (N.of_nat (length a)) (N.of_nat (length b))); [lia|]. cbn.
    destruct (bytes_eqb a b) eqn:EB; auto. apply bytes_eqb_eq in EB. now subst.
Qed.

Lemma eq_reads a b : length a = length b -> reads (snd (eq_l a b)) = 2 * Nat.min (length a) (S (common_prefix a b)).
Proof.
  intros HL. unfold eq_l, call, eq_code. cbn [exec eval fst snd two].
  rewrite <- HL, N.eqb_refl. cbn [negb N.eqb emit andthen app]. rewrite Nat2N.id.
  destruct (eq_loop a b (length a) 0 (fun _ => 0%N) eq_refl HL) as (o & v' & t & E & EO & ET).
  cbn [N.of_nat skipn] in *. rewrite E. cbn [emit andthen app]. rewrite EO. destruct (bytes_eqb a b); cbn [emit snd app reads].
  - cbn [app] in *. rewrite reads_app. cbn [reads]. lia.
  - assumption.
Qed.

(** An observer of the comparison of an unknown string with strings of its choice finds the unknown one byte by
    byte: it tries the 256 values of a byte until the comparison reads further (or succeeds, at the last byte).
    The result and the number of comparisons made. *)
Section Recover.
Context (shown : bytes -> N * list obs).
Definition further (known : bytes) (rest : nat) (y : byte) : bool :=
  let r := shown (known ++ y :: repeat x00 rest) in
  (fst r =? 1)%N || Nat.ltb (2 * S (length known)) (reads (snd r)).
Fixpoint try_bytes (known : bytes) (rest : nat) (l : list byte) : option byte * nat :=
  match l with
  | [] => (None, 0)
  | y :: l => if further known rest y then (Some y, 1)
              else let '(r, n) := try_bytes known rest l in (r, S n)
  end.
Fixpoint recover (n : nat) (known : bytes) : bytes * nat :=
  match n with
  | O => (known, 0)
  | S n => match try_bytes known n all_bytes with
           | (Some y, k) => let '(r, m) := recover n (known ++ [y]) in (r, k + m)
           | (None, k) => (known, k)
           end
  end.
End Recover.

Lemma try_bytes_count shown known rest l : snd (try_bytes shown known rest l) <= length l.
Proof.
  induction l as [|y l IH]; cbn [try_bytes length snd]; [lia|].
  destruct (further _ _ _ _); cbn [snd]; [lia|]. destruct (try_bytes _ _ _ l). cbn [snd] in *. lia.
Qed.

Lemma recover_count shown n : forall known, snd (recover shown n known) <= 256 * n.
Proof.
  induction n as [|n IH]; intros known; cbn [recover snd]; [lia|].
  pose proof (try_bytes_count shown known n all_bytes) as HC.
  assert (length all_bytes = 256) as E by reflexivity. rewrite E in HC.
  destruct (try_bytes _ _ _ _) as [[y|] k]; cbn [snd] in HC.
  - specialize (IH (known ++ [y])). destruct (recover _ _ _) as [r m]. cbn [snd] in *. lia.
  - cbn [snd]. lia.
Qed.

Lemma common_prefix_app u a b : common_prefix (u ++ a) (u ++ b) = length u + common_prefix a b.
Proof.
  induction u as [|x u IH]; cbn; [reflexivity|].
  assert (byte_eqb x x = true) as -> by now apply byte_eqb_eq. now rewrite IH.
Qed.

Lemma further_eq u x w y :
  further (eq_l (u ++ x :: w)) u (length w) y = byte_eqb x y.
Proof.
  unfold further. rewrite eq_value, slice_ct_eq_spec.
  rewrite eq_reads by (rewrite !app_length; cbn [length]; now rewrite repeat_length).
  rewrite common_prefix_app, app_length. cbn [common_prefix length].
  destruct (byte_eqb x y) eqn:E.
  - apply byte_eqb_eq in E. subst y. destruct w as [|z w].
    + cbn [length repeat]. assert (bytes_eqb (u ++ [x]) (u ++ [x]) = true) as -> by now apply bytes_eqb_eq. reflexivity.
    + apply orb_true_iff. right. apply Nat.ltb_lt. cbn [length]. lia.
  - destruct (bytes_eqb (u ++ x :: w) (u ++ y :: repeat x00 (length w))) eqn:EB.
    + apply bytes_eqb_eq, app_inv_head in EB. injection EB as -> _.
      assert (byte_eqb y y = true) by now apply byte_eqb_eq. congruence.
    + cbn [N.eqb orb]. apply Nat.ltb_ge. lia.
Qed.

Lemma try_bytes_eq u x w l : In x l -> fst (try_bytes (eq_l (u ++ x :: w)) u (length w) l) = Some x.
Proof.
  induction l as [|y l IH]; intros H; [destruct H|]. cbn [try_bytes]. rewrite further_eq.
  destruct (byte_eqb x y) eqn:E.
  - apply byte_eqb_eq in E. now subst.
  - destruct H as [H|H].
    { subst y. assert (byte_eqb x x = true) by now apply byte_eqb_eq. congruence. }
    specialize (IH H). destruct (try_bytes _ _ _ l). exact IH.
Qed.

Lemma recover_eq w : forall u, fst (recover (eq_l (u ++ w)) (length w) u) = u ++ w.
Proof.
  induction w as [|x w IH]; intros u; cbn [recover length]; [now rewrite app_nil_r|].
  pose proof (try_bytes_eq u x w all_bytes (all_bytes_complete x)) as H.
  destruct (try_bytes _ _ _ _) as [o k]. cbn [fst] in H. subst o.
  specialize (IH (u ++ [x])). rewrite <- app_assoc in IH. cbn [app] in IH.
  destruct (recover _ _ _) as [r m]. exact IH.
Qed.

(** ** Observers that choose every question after the answers so far *)
Section Observer.
Context {Shown : Type} (strategy : list Shown -> bytes).
Fixpoint transcript (answer : bytes -> Shown) (n : nat) (seen : list Shown) : list Shown :=
  match n with
  | O => seen
  | S n => transcript answer n (seen ++ [answer (strategy seen)])
  end.
Fixpoint questions (answer : bytes -> Shown) (n : nat) (seen : list Shown) : list bytes :=
  match n with
  | O => []
  | S n => strategy seen :: questions answer n (seen ++ [answer (strategy seen)])
  end.

Lemma transcript_same (f g : bytes -> Shown) (m m' : bytes) :
  (forall q, q <> m -> q <> m' -> f q = g q) ->
  forall n seen, ~ In m (questions f n seen) -> ~ In m' (questions f n seen) ->
  transcript f n seen = transcript g n seen.
Proof.
  intros H. induction n as [|n IH]; intros seen N1 N2; cbn [transcript questions] in *; [reflexivity|].
  rewrite <- (H (strategy seen)).
  - apply IH; intros HI; [apply N1|apply N2]; now right.
  - intros E. apply N1. now left.
  - intros E. apply N2. now left.
Qed.
End Observer.
