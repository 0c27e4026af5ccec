(** * SPAKE2: the whole of the [{:#?}] output (C25). *)
From Verif Require Import Base.Bytes Base.Outcome Base.Utf8 Hash.Hash.
From Verif.Curve Require Import Scalar25519 Ed25519.
From Verif Require Import Spake2.Spake2Model Spake2.Ed25519Group Spake2.Spake2Spec Spake2.Spake2Generic Spake2.Spake2Proofs
  Spake2.Spake2Proofs2 Spake2.Spake2Debug Spake2.Spake2Props.
Local Open Scope nat_scope.
Local Notation E := Ed25519Group.

(** Independent text of the layout: lines, each ended by a line feed. *)
Definition lines (ls : list bytes) : bytes := concat (map (fun l => l ++ [x0a]) ls).
Definition one_line (l : bytes) : Prop := ~ In x0a l.

(** An identity as it is printed, when it is UTF-8 text. *)
Definition shown (i : bytes) : bytes := str "(s=" ++ i ++ str "),".

Definition alt_lines (sd : Side) : list bytes :=
  [str "SPAKE2 {"; str "    group: ""Ed25519"","] ++
  match sd with
  | SideA a b => [str "    side: Side::A {"; str "        idA: " ++ shown a; str "        idB: " ++ shown b]
  | SideB a b => [str "    side: Side::B {"; str "        idA: " ++ shown a; str "        idB: " ++ shown b]
  | SideSymmetric i => [str "    side: Side::Symmetric {"; str "        idS: " ++ shown i]
  end ++ [str "    },"].

Lemma pad_from_line l t : one_line l -> pad_from false (l ++ x0a :: t) = l ++ x0a :: pad t.
Proof.
  induction l as [|c l IH]; intros H; cbn; [reflexivity|].
  assert (byte_eqb c x0a = false) as ->.
  { destruct (byte_eqb c x0a) eqn:Q; [|reflexivity]. exfalso. apply H. left. now apply byte_eqb_eq. }
  rewrite IH; [reflexivity|]. intros HI. apply H. now right.
Qed.

Lemma pad_line c l t : one_line (c :: l) -> pad ((c :: l) ++ x0a :: t) = str "    " ++ (c :: l) ++ x0a :: pad t.
Proof.
  intros H. unfold pad at 1. cbn [app pad_from].
  assert (byte_eqb c x0a = false) as ->.
  { destruct (byte_eqb c x0a) eqn:Q; [|reflexivity]. exfalso. apply H. left. now apply byte_eqb_eq. }
  rewrite pad_from_line; [reflexivity|]. intros HI. apply H. now right.
Qed.

Lemma pad_nil : pad [] = [].
Proof. reflexivity. Qed.

Lemma pad_lines ls :
  Forall (fun l => one_line l /\ l <> []) ls -> pad (lines ls) = lines (map (app (str "    ")) ls).
Proof.
  intros H. induction H as [|l ls [H1 H2] _ IH]; [reflexivity|].
  unfold lines in *. cbn [map concat]. rewrite <- !app_assoc. cbn [app].
  destruct l as [|c l]; [now elim H2|].
  rewrite pad_line by exact H1. now rewrite IH.
Qed.

Lemma one_line_app a b : one_line a -> one_line b -> one_line (a ++ b).
Proof. intros Ha Hb H. apply in_app_or in H. destruct H as [H|H]; [exact (Ha H)|exact (Hb H)]. Qed.

Lemma one_line_dec a : existsb (byte_eqb x0a) a = false -> one_line a.
Proof.
  intros H HI. assert (existsb (byte_eqb x0a) a = true) as C; [|rewrite C in H; discriminate H].
  apply existsb_exists. exists x0a. split; [exact HI|apply byte_eqb_refl].
Qed.

Ltac line := split; [repeat apply one_line_app; first [assumption | apply one_line_dec; reflexivity] | intros Q; discriminate Q].

Lemma field_lines name i :
  one_line name -> name <> [] -> one_line i -> utf8_valid i = true ->
  pad (name ++ str ": " ++ maybe_utf8 i ++ str "," ++ [x0a]) = lines [str "    " ++ name ++ str ": " ++ shown i].
Proof.
  intros Hn Hz Hi V. unfold maybe_utf8. rewrite V.
  transitivity (pad (lines [name ++ str ": " ++ shown i])).
  - f_equal. unfold lines, shown. cbn [map concat]. rewrite app_nil_r, <- !app_assoc. reflexivity.
  - apply (pad_lines [_]). constructor; [|constructor]. split.
    + unfold shown. repeat apply one_line_app; first [assumption | apply one_line_dec; reflexivity].
    + destruct name as [|c l]; [now elim Hz|discriminate].
Qed.

Definition side_lines (sd : Side) : list bytes :=
  match sd with
  | SideA a b => [str "Side::A {"; str "    idA: " ++ shown a; str "    idB: " ++ shown b]
  | SideB a b => [str "Side::B {"; str "    idA: " ++ shown a; str "    idB: " ++ shown b]
  | SideSymmetric i => [str "Side::Symmetric {"; str "    idS: " ++ shown i]
  end.

Lemma debug_side_alt sd :
  Forall (fun i => utf8_valid i = true /\ one_line i) (identities sd) ->
  debug_side true sd = lines (side_lines sd) ++ str "}".
Proof.
  intros H.
  destruct sd as [a b|a b|i]; cbn [identities] in H;
    apply Forall_cons_iff in H; destruct H as [[Va La] H];
    try (apply Forall_cons_iff in H; destruct H as [[Vb Lb] _]);
    unfold debug_side, debug_struct2, debug_struct1, debug_field, debug_finish;
    rewrite !field_lines by (first [assumption | discriminate | apply one_line_dec; reflexivity]);
    unfold lines; cbn [map concat side_lines]; rewrite ?app_nil_r, <- ?app_assoc; reflexivity.
Qed.

(** ** C25: the [{:#?}] text, for identities that are UTF-8 without line feeds. *)
Theorem C25_debug_text_alternate :
  forall sd pw x s msg, start_internal E sd pw x = Ok (s, msg) ->
  Forall (fun i => utf8_valid i = true /\ one_line i) (identities sd) ->
  debug_spake2 E true s = lines (alt_lines sd) ++ str "}".
Proof.
  intros sd pw x s msg H Hi. apply start_side in H. unfold debug_spake2. rewrite H, ed_debug_name.
  clear H s msg pw x. rewrite debug_side_alt by exact Hi.
  unfold debug_struct2, debug_field, debug_finish.
  transitivity (str "SPAKE2 {" ++ [x0a] ++ pad (lines [str "group: ""Ed25519"","]) ++
    pad (lines (match side_lines sd with l :: ls => (str "side: " ++ l) :: ls | [] => [] end ++ [str "},"])) ++ str "}").
  { rewrite <- !app_assoc. destruct sd as [a b|a b|i]; unfold lines; cbn [map concat side_lines app]; rewrite ?app_nil_r, <- ?app_assoc; reflexivity. }
  rewrite !pad_lines.
  - destruct sd as [a b|a b|i]; unfold lines, alt_lines; cbn [map concat side_lines app]; rewrite ?app_nil_r, <- ?app_assoc; reflexivity.
  - destruct sd as [a b|a b|i]; cbn [identities] in Hi;
      apply Forall_cons_iff in Hi; destruct Hi as [[_ La] Hi];
      try (apply Forall_cons_iff in Hi; destruct Hi as [[_ Lb] _]);
      cbn [side_lines app]; unfold shown; repeat (constructor; [line|]); constructor.
  - repeat (constructor; [line|]). constructor.
Qed.
Print Assumptions C25_debug_text_alternate.

Example C25_alternate_case :
  (exists s msg, start_internal E (SideA (str "idA") (str "idB")) (str "secret") (sof 5) = Ok (s, msg)) /\
  Forall (fun i => utf8_valid i = true /\ one_line i) (identities (SideA (str "idA") (str "idB"))).
Proof.
  split; [rewrite start_ok; do 2 eexists; reflexivity|].
  repeat constructor; apply one_line_dec; reflexivity.
Qed.
