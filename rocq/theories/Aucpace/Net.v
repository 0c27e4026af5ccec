(** * Two programs joined by a TCP connection.

    The model of the standard library calls the examples of the aucpace crate make
    (examples/key_agreement.rs:15-30): [write_all] on a [TcpStream] hands its bytes to the connection, in
    one or more parts; [read] into a buffer of 1024 bytes waits for a byte and returns any non-empty
    part of what is there, from the front.  The connection keeps the order of the bytes and loses none
    while both ends are open.  A thread that has ended has closed its end: then a read may find the end
    of the stream, and any call may fail, which the examples answer with a panic ([.unwrap()]).
    Not modelled: calls that fail while both ends are open, and a [write_all] that waits for room. *)
From Coq Require Import Lia.
From Verif Require Import Base.Bytes Base.Outcome.
Local Open Scope nat_scope.

Section Net.
Context {Er A : Type}.

(** A thread between two calls on its stream. *)
Inductive proc :=
| PDone (r : outcome Er A)
| PSend (m : bytes) (k : proc)
| PRecv (k : bytes -> proc)
| PHang.

(** examples/key_agreement.rs:68, 143 [let mut buf = [0u8; 1024]] *)
Definition BUF : nat := 1024.

(** The two threads, the bytes under way in each direction, and, for the statements only, what each
    thread has written and what each of its reads has returned. *)
Record net := {
  cl : proc; sv : proc;
  c2s : bytes; s2c : bytes;
  c_out : bytes; s_out : bytes;
  c_reads : list bytes; s_reads : list bytes
}.

Inductive step : net -> net -> Prop :=
| c_part m1 m2 k s u d co so cr sr : m1 <> [] -> m2 <> [] ->
    step (Build_net (PSend (m1 ++ m2) k) s u d co so cr sr) (Build_net (PSend m2 k) s (u ++ m1) d (co ++ m1) so cr sr)
| c_send m k s u d co so cr sr :
    step (Build_net (PSend m k) s u d co so cr sr) (Build_net k s (u ++ m) d (co ++ m) so cr sr)
| c_recv k s u d1 d2 co so cr sr : 1 <= length d1 <= BUF ->
    step (Build_net (PRecv k) s u (d1 ++ d2) co so cr sr) (Build_net (k d1) s u d2 co so (cr ++ [d1]) sr)
| c_eof k r u co so cr sr :
    step (Build_net (PRecv k) (PDone r) u [] co so cr sr) (Build_net (k []) (PDone r) u [] co so (cr ++ [[]]) sr)
| c_send_fails m k r u d co so cr sr :
    step (Build_net (PSend m k) (PDone r) u d co so cr sr) (Build_net (PDone Panic) (PDone r) u d co so cr sr)
| c_recv_fails k r u d co so cr sr :
    step (Build_net (PRecv k) (PDone r) u d co so cr sr) (Build_net (PDone Panic) (PDone r) u d co so cr sr)
| s_part m1 m2 k c u d co so cr sr : m1 <> [] -> m2 <> [] ->
    step (Build_net c (PSend (m1 ++ m2) k) u d co so cr sr) (Build_net c (PSend m2 k) u (d ++ m1) co (so ++ m1) cr sr)
| s_send m k c u d co so cr sr :
    step (Build_net c (PSend m k) u d co so cr sr) (Build_net c k u (d ++ m) co (so ++ m) cr sr)
| s_recv k c u1 u2 d co so cr sr : 1 <= length u1 <= BUF ->
    step (Build_net c (PRecv k) (u1 ++ u2) d co so cr sr) (Build_net c (k u1) u2 d co so cr (sr ++ [u1]))
| s_eof k r d co so cr sr :
    step (Build_net (PDone r) (PRecv k) [] d co so cr sr) (Build_net (PDone r) (k []) [] d co so cr (sr ++ [[]]))
| s_send_fails m k r u d co so cr sr :
    step (Build_net (PDone r) (PSend m k) u d co so cr sr) (Build_net (PDone r) (PDone Panic) u d co so cr sr)
| s_recv_fails k r u d co so cr sr :
    step (Build_net (PDone r) (PRecv k) u d co so cr sr) (Build_net (PDone r) (PDone Panic) u d co so cr sr).

(** The state when the connection has been made. *)
Definition start (c s : proc) : net := Build_net c s [] [] [] [] [] [].

Inductive exec : net -> net -> Prop :=
| ex_nil n : exec n n
| ex_step n n' n'' : step n n' -> exec n' n'' -> exec n n''.

(** ** What a thread does with the results of its reads *)

(** what it writes before its next read or its end *)
Fixpoint flush (p : proc) : bytes * proc :=
  match p with
  | PSend m k => let '(o, q) := flush k in (m ++ o, q)
  | _ => ([], p)
  end.
(** what it writes, and where it is, after reads with the given results *)
Fixpoint feed (rs : list bytes) (p : proc) : bytes * proc :=
  match rs with
  | [] => flush p
  | r :: rs =>
      match flush p with
      | (o, PRecv k) => let '(o', q) := feed rs (k r) in (o ++ o', q)
      | (o, q) => (o, q)
      end
  end.
(** no message is empty *)
Fixpoint talks (p : proc) : Prop :=
  match p with
  | PSend m k => m <> [] /\ talks k
  | PRecv k => forall b, talks (k b)
  | _ => True
  end.

Lemma exec_trans n n' n'' : exec n n' -> exec n' n'' -> exec n n''.
Proof. induction 1; [auto|]. intros H'. econstructor; eauto. Qed.
Lemma exec_one n n' : step n n' -> exec n n'.
Proof. intros H. econstructor; [exact H|constructor]. Qed.

(** A property kept by every step holds whenever it holds at the start. *)
Lemma exec_inv (I : net -> Prop) : (forall n n', step n n' -> I n -> I n') -> forall n n', exec n n' -> I n -> I n'.
Proof. intros H n n'. induction 1; eauto. Qed.

(** Two threads that wait for each other. *)
Lemma both_wait k k' co so cr sr n' : ~ step (Build_net (PRecv k) (PRecv k') [] [] co so cr sr) n'.
Proof.
  intros Hs. inversion Hs; subst;
    match goal with H : _ ++ _ = [] |- _ => apply app_eq_nil in H; destruct H; subst end; cbn in *; lia.
Qed.

Lemma feed_snoc rs r p o k : feed rs p = (o, PRecv k) ->
  feed (rs ++ [r]) p = (o ++ fst (flush (k r)), snd (flush (k r))).
Proof.
  revert p o. induction rs as [|r0 rs IH]; cbn; intros p o E.
  - rewrite E. now destruct (flush (k r)).
  - destruct (flush p) as [o1 q] eqn:Ep. destruct q as [x|m k'|k'|]; try discriminate.
    destruct (feed rs (k' r0)) as [o2 q2] eqn:E2. injection E as <- ->.
    rewrite (IH _ _ E2). cbn. now rewrite app_assoc.
Qed.

(** [p] wrote [out] and is still to write [more] before stopping at [q]; a thread whose call failed has
    panicked before its end. *)
Definition follows (p0 : proc) (reads : list bytes) (out : bytes) (p : proc) : Prop :=
  exists more q, feed reads p0 = (out ++ more, q) /\
    (flush p = (more, q) \/ (p = PDone Panic /\ (more <> [] \/ exists k, q = PRecv k))).

Lemma follows_start p : follows p [] [] p.
Proof. unfold follows. cbn. destruct (flush p) as [o q] eqn:Ep. exists o, q. auto. Qed.
Lemma follows_send p0 rs out m k : follows p0 rs out (PSend m k) -> follows p0 rs (out ++ m) k.
Proof.
  intros (more & q & Ef & [H|[H _]]); [|discriminate]. cbn in H. destruct (flush k) as [o q'] eqn:Ek.
  injection H as <- ->. exists o, q. rewrite Ef, <- app_assoc. auto.
Qed.
Lemma follows_part p0 rs out m1 m2 k : follows p0 rs out (PSend (m1 ++ m2) k) -> follows p0 rs (out ++ m1) (PSend m2 k).
Proof.
  intros (more & q & Ef & [H|[H _]]); [|discriminate]. cbn in H. destruct (flush k) as [o q'] eqn:Ek.
  injection H as <- ->. exists (m2 ++ o), q. rewrite Ef, <- !app_assoc. cbn. rewrite Ek. auto.
Qed.
Lemma follows_recv p0 rs out k b : follows p0 rs out (PRecv k) -> follows p0 (rs ++ [b]) out (k b).
Proof.
  intros (more & q & Ef & [H|[H _]]); [|discriminate]. cbn in H. injection H as <- <-.
  rewrite app_nil_r in Ef. pose proof (feed_snoc rs b p0 out k Ef) as E.
  exists (fst (flush (k b))), (snd (flush (k b))). split; [exact E|]. left. now destruct (flush (k b)).
Qed.
Lemma follows_send_fails p0 rs out m k : m <> [] -> follows p0 rs out (PSend m k) -> follows p0 rs out (PDone Panic).
Proof.
  intros Hm (more & q & Ef & [H|[H _]]); [|discriminate]. cbn in H. destruct (flush k) as [o q'] eqn:Ek.
  injection H as <- ->. exists (m ++ o), q. split; [exact Ef|]. right. split; [reflexivity|]. left.
  destruct m; [now elim Hm|discriminate].
Qed.
Lemma follows_recv_fails p0 rs out k : follows p0 rs out (PRecv k) -> follows p0 rs out (PDone Panic).
Proof.
  intros (more & q & Ef & [H|[H _]]); [|discriminate]. cbn in H. injection H as <- <-.
  exists [], (PRecv k). split; [exact Ef|]. right. split; [reflexivity|]. right. now exists k.
Qed.
(** a thread that has ended, not by a failed call *)
Lemma follows_done p0 rs out r : r <> Panic -> follows p0 rs out (PDone r) -> feed rs p0 = (out, PDone r).
Proof.
  intros Hr (more & q & Ef & [H|[H _]]).
  - cbn in H. injection H as <- <-. now rewrite app_nil_r in Ef.
  - injection H as ->. now elim Hr.
Qed.
(** a thread that must have ended *)
Lemma follows_ended p0 rs out p r : talks p -> follows p0 rs out p -> feed rs p0 = (out, PDone r) -> p = PDone r.
Proof.
  intros Ht (more & q & Ef & H) Ed. rewrite Ed in Ef. injection Ef as E <-.
  assert (more = []) as ->.
  { apply (f_equal (@length _)) in E. rewrite app_length in E. destruct more; [reflexivity|cbn in E; lia]. }
  destruct H as [H|[-> [H|[k H]]]]; [|now elim H|discriminate].
  destruct p as [x|m k|k|]; cbn in H; try discriminate.
  - now injection H as ->.
  - destruct (flush k) as [o q]. injection H as H _. destruct m; [|discriminate]. destruct Ht as [Ht _]. now elim Ht.
Qed.
Lemma follows_prefix p0 rs out p : follows p0 rs out p -> exists more, fst (feed rs p0) = out ++ more.
Proof. intros (more & q & -> & _). now exists more. Qed.
Lemma follows_at p0 rs out p o q : follows p0 rs out p -> feed rs p0 = (o, q) ->
  p = PDone Panic \/ exists more, flush p = (more, q) /\ o = out ++ more.
Proof.
  intros (more & q' & Ef & H) E. rewrite E in Ef. injection Ef as -> <-.
  destruct H as [H|[-> _]]; [right; now exists more|now left].
Qed.

(** ** What holds of every state of every execution *)
Section Invariant.
Context (c0 s0 : proc) (Hc0 : talks c0) (Hs0 : talks s0).

Record good (n : net) : Prop := {
  g_ct : talks (cl n); g_st : talks (sv n);
  g_c : follows c0 (c_reads n) (c_out n) (cl n);
  g_s : follows s0 (s_reads n) (s_out n) (sv n);
  g_c2s : c_out n = concat (s_reads n) ++ c2s n;
  g_s2c : s_out n = concat (c_reads n) ++ s2c n;
  (** a read is short of the buffer, and finds the end of the stream only when the other thread has ended *)
  g_cr : Forall (fun r => length r <= BUF /\ (r = [] -> exists x, sv n = PDone x)) (c_reads n);
  g_sr : Forall (fun r => length r <= BUF /\ (r = [] -> exists x, cl n = PDone x)) (s_reads n)
}.

Lemma good_start : good (start c0 s0).
Proof. constructor; cbn; auto using follows_start. Qed.

Lemma concat_snoc {B} (l : list (list B)) x : concat (l ++ [x]) = concat l ++ x.
Proof. rewrite concat_app. cbn. now rewrite app_nil_r. Qed.
Lemma Forall_snoc {B} (P : B -> Prop) l x : Forall P l -> P x -> Forall P (l ++ [x]).
Proof. intros H1 H2. apply Forall_app. auto. Qed.
Lemma peer_open (r : list bytes) p p' : (forall x, p <> PDone x) ->
  Forall (fun r => length r <= BUF /\ (r = [] -> exists x, p = PDone x)) r ->
  Forall (fun r => length r <= BUF /\ (r = [] -> exists x, p' = PDone x)) r.
Proof.
  intros Hp. apply Forall_impl. intros b [H1 H2]. split; [exact H1|]. intros Hb. destruct (H2 Hb) as [x Hx].
  now elim (Hp x).
Qed.

Lemma good_step n n' : step n n' -> good n -> good n'.
Proof.
  intros Hs [H1 H2 H3 H4 H5 H6 H7 H8].
  inversion Hs; subst; cbn [cl sv c2s s2c c_out s_out c_reads s_reads] in *; constructor;
    cbn [cl sv c2s s2c c_out s_out c_reads s_reads];
    try exact H1; try exact H2; try exact H3; try exact H4; try exact H5; try exact H6; try exact H7; try exact H8;
    try exact I;
    try (eapply peer_open; [|eassumption]; discriminate);
    try (cbn in H1; tauto); try (cbn in H2; tauto);
    try (now apply follows_part); try (now apply follows_send); try (now apply follows_recv);
    try (eapply follows_recv_fails; eassumption);
    try (eapply follows_send_fails; [|eassumption]; cbn in H1, H2; tauto);
    try (rewrite H5; now rewrite app_assoc); try (rewrite H6; now rewrite app_assoc);
    try (rewrite H5, concat_snoc; now rewrite <- app_assoc); try (rewrite H6, concat_snoc; now rewrite <- app_assoc);
    try apply H1; try apply H2.
  all: try (split; [assumption|apply H1]); try (split; [assumption|apply H2]).
  all: try (apply Forall_snoc; [assumption|]; split;
            [lia|let Hb := fresh in intros Hb; rewrite Hb in *; cbn in *; lia]).
  all: try (apply Forall_snoc; [assumption|]; split; [cbn; unfold BUF; lia|eauto]).
Qed.

Lemma good_exec n : exec (start c0 s0) n -> good n.
Proof. intros H. exact (exec_inv good good_step _ _ H good_start). Qed.
End Invariant.
End Net.
Arguments proc : clear implicits.
Arguments net : clear implicits.
