(** * AuCPace: hashing a dictionary before the database is stolen (C99).

    server.rs:276-281 and README.md:44-45 say that the strong variant protects against precomputation. *)
From Coq Require Import ZArith Lia List.
From Verif Require Import Base.Bytes Base.Outcome Base.Rng Base.Kat.
From Verif Require Import Curve.Primes Curve.Zmod Curve.Abelian Curve.Scalar25519 Curve.Questions Aucpace.RistrettoGroup Aucpace.PwHash Aucpace.AucpaceModel Aucpace.AucpaceSpec Aucpace.AucpaceDb
  Aucpace.AucpaceRun Aucpace.AucpaceProofs Aucpace.AucpaceToy.
Import ListNotations.
Local Open Scope nat_scope.

Section Precomputation.
Context (R : RGroup) (L : rgroup_laws R) (D : bytes -> bytes) (Dlen : forall m, length (D m) = 64).
Context (Params : Type) (params_try_into : Params -> outcome pherror bytes) (params_of : bytes -> res Params).

(** What the attacker prepares: the verifier of every password of a dictionary, for a known salt and parameters. *)
Definition entry (h : hasher Params) (user : bytes) (salt ps p : bytes) : list (bytes * pt R) :=
  match params_of ps with
  | Ok params => match spec_w h user p salt params with Ok w => [(p, spec_W R w)] | _ => [] end
  | _ => []
  end.
(** ... from one answer of the server, ... *)
Definition table (h : hasher Params) (user : bytes) (answer : ServerMessage R) (dict : list bytes) : list (bytes * pt R) :=
  match answer with
  | SAugmentationInfo _ _ salt ps => flat_map (entry h user salt ps) dict
  | _ => []
  end.
(** ... or, in the strong variant, from one answer for each password: the request is the password's point, not blinded. *)
Definition strong_table {S} (h : hasher Params) (user : bytes) (ask : pt R -> res (S * ServerMessage R)) (dict : list bytes)
  : list (bytes * pt R) :=
  flat_map (fun p => match ask (spec_Z R D user p) with
                     | Ok (_, SStrongAugmentationInfo _ _ salt_point ps) =>
                         entry h user (b64_encode (rcompress R salt_point)) ps p
                     | _ => []
                     end) dict.
(** After the theft of the verifier nothing is hashed any more: *)
Definition look_up (t : list (bytes * pt R)) (W : pt R) : list bytes := map fst (filter (fun e => reqb R (snd e) W) t).

Lemma look_up_in t W p : In p (look_up t W) <-> In (p, W) t.
Proof.
  unfold look_up. rewrite in_map_iff. split.
  - intros ((p' & W') & E & H). apply filter_In in H. destruct H as [H HW]. cbn in E, HW. subst.
    apply (rl_eqb R L) in HW. now subst.
  - intros H. exists (p, W). split; [reflexivity|]. apply filter_In. split; [exact H|]. now apply (rl_eqb R L).
Qed.
Lemma entry_in h user salt ps p p' W : In (p', W) (entry h user salt ps p) <->
  p' = p /\ exists params w, params_of ps = Ok params /\ spec_w h user p salt params = Ok w /\ W = spec_W R w.
Proof.
  unfold entry. split.
  - destruct (params_of ps) as [params|e|] eqn:Ep; [|intros []|intros []].
    destruct (spec_w h user p salt params) as [w|e|] eqn:Ew; [|intros []|intros []].
    intros [E|[]]. injection E as <- <-. split; [reflexivity|]. exists params, w. auto.
  - intros (-> & params & w & -> & -> & ->). now left.
Qed.

(** C99, without the strong variant: refuted.  Anybody who names the user gets an answer, and the table made from that
    one answer contains the right password under the stored verifier; whatever else it finds has that verifier too.
    The same with partial augmentation. *)
Theorem C99_precomputation_refuted :
  forall DB Treg m creg user pass params (h : hasher Params) salt ps W creg' d dict Ts sess sts,
  fits m user pass ->
  do_register R Params params_try_into m Treg creg user pass params h = (Ok (CRegistration user salt ps W), creg') ->
  params_of ps = Ok params -> lookup_verifier DB d user = Some (W, salt, ps) ->
  In pass dict ->
  let found answer := In pass (look_up (table h user answer dict) W) /\
    forall p, In p (look_up (table h user answer dict) W) ->
      In p dict /\ exists w, spec_w h user p salt params = Ok w /\ W = spec_W R w in
  (exists s' answer, generate_client_info R D DB Ts sess user d sts = Ok (s', answer) /\ found answer) /\
  (forall PDB x X, lookup_long_term_keypair PDB d user = Some (x, X) ->
     exists s' answer, generate_client_info_partial_aug R D DB PDB Ts sess user d sts = Ok (s', answer) /\ found answer).
Proof.
  intros DB Treg m creg user pass params h salt ps W creg' d dict Ts sess sts HF HR Hp Hl Hin found.
  apply do_register_ok in HR; [|exact HF]. destruct HR as (_ & _ & _ & w & Hw & HW).
  assert (F : forall X, found (SAugmentationInfo group_name X salt ps)).
  { intros X. unfold found. split.
    - apply look_up_in. unfold table. apply in_flat_map. exists pass. split; [exact Hin|].
      apply entry_in. split; [reflexivity|]. exists params, w. auto.
    - intros p H. apply look_up_in in H. unfold table in H. apply in_flat_map in H.
      destruct H as (p' & Hin' & H). apply entry_in in H. destruct H as (-> & params' & w' & Hp' & Hw' & HW').
      rewrite Hp in Hp'. injection Hp' as <-. split; [exact Hin'|]. now exists w'. }
  split.
  - rewrite generate_client_info_eq. unfold generate_prs. rewrite Hl. cbn [cpace_substep obind].
    do 2 eexists. split; [reflexivity|]. apply F.
  - intros PDB x X Hk. unfold generate_client_info_partial_aug. rewrite Hk. unfold generate_prs. rewrite Hl.
    cbn [cpace_substep obind]. do 2 eexists. split; [reflexivity|]. apply F.
Qed.

(** C99, the strong variant, as long as the server has not been asked: proved.  Every salt point is the one of the
    candidate for exactly one secret exponent, so nothing can be hashed in advance. *)
Theorem C99_strong_unasked :
  forall user p S, spec_Z R D user p <> rzero R ->
  exists! q, strong_salt R D user p q = b64_encode (rcompress R S) /\ rmul (spec_Z R D user p) q = S.
Proof.
  intros user p S HZ. destruct (rmul_onto L _ S HZ) as [q Hq]. exists q. split.
  - split; [|exact Hq]. unfold strong_salt. now rewrite Hq.
  - intros q' [_ Hq']. apply (rmul_inj L _ _ _ HZ). congruence.
Qed.

(** C99, the strong variant with questions: refuted.  A request that is not blinded is answered with the salt point of a
    candidate, whoever asks and without a login; with one request for each candidate the table is complete. *)
Theorem C99_strong_precomputation_refuted :
  forall DB Treg m creg user pass params (h : hasher Params) q ps W creg' d dict Ts sess sts,
  fits m user pass ->
  do_register_strong R D Params params_try_into m Treg creg user pass params h = (Ok (CStrongRegistration user q ps W), creg') ->
  params_of ps = Ok params -> lookup_verifier_strong DB d user = Some (W, q, ps) ->
  In pass dict -> rmul (spec_Z R D user pass) q <> rzero R ->
  let found ask := In pass (look_up (strong_table h user ask dict) W) /\
    forall p, In p (look_up (strong_table h user ask dict) W) ->
      In p dict /\ exists w, spec_w h user p (strong_salt R D user p q) params = Ok w /\ W = spec_W R w in
  found (fun U => generate_client_info_strong R D DB Ts sess user U d sts) /\
  (forall PDB x X, lookup_long_term_keypair PDB d user = Some (x, X) ->
     found (fun U => generate_client_info_partial_strong R D DB PDB Ts sess user U d sts)).
Proof.
  intros DB Treg m creg user pass params h q ps W creg' d dict Ts sess sts HF HR Hp Hl Hin HS found.
  apply do_register_strong_ok in HR; [|exact L|exact HF]. destruct HR as (_ & _ & w & Hw & HW).
  assert (F : forall ask : pt R -> res (AuCPaceServerCPaceSubstep Ts * ServerMessage R),
    (exists X, forall U, ask U = Err IllegalPointError /\ rmul U q = rzero R \/
       exists s', ask U = Ok (s', SStrongAugmentationInfo group_name X (rmul U q) ps) /\ rmul U q <> rzero R) -> found ask).
  { intros ask (X & HA). unfold found. split.
    - apply look_up_in. unfold strong_table. apply in_flat_map. exists pass. split; [exact Hin|].
      destruct (HA (spec_Z R D user pass)) as [[_ E]|(s' & -> & _)]; [contradiction|].
      apply entry_in. split; [reflexivity|]. exists params, w. auto.
    - intros p H. apply look_up_in in H. unfold strong_table in H. apply in_flat_map in H.
      destruct H as (p' & Hin' & H). destruct (HA (spec_Z R D user p')) as [[E _]|(s' & E & _)]; rewrite E in H; [destruct H|].
      apply entry_in in H. destruct H as (-> & params' & w' & Hp' & Hw' & HW').
      rewrite Hp in Hp'. injection Hp' as <-. split; [exact Hin'|]. now exists w'. }
  split.
  - apply F. exists (spec_X R (drawn Ts sts)). intros U. rewrite generate_client_info_strong_eq. unfold generate_prs_strong.
    rewrite Hl, smult_one_r. destruct (is_identity (rmul U q)) eqn:Ei.
    + left. split; [reflexivity|]. now apply (is_identity_eq L).
    + right. cbn [cpace_substep obind]. eexists. split; [reflexivity|]. now apply (is_identity_neq L).
  - intros PDB x X Hk. apply F. exists X. intros U. unfold generate_client_info_partial_strong. rewrite Hk.
    unfold generate_prs_strong. rewrite Hl, (smult_one_r q). destruct (is_identity (rmul U q)) eqn:Ei.
    + left. split; [reflexivity|]. now apply (is_identity_eq L).
    + right. cbn [cpace_substep obind]. eexists. split; [reflexivity|]. now apply (is_identity_neq L).
Qed.
(** C99, the strong variant, how many questions it takes: proved.  An attacker who computes with points only by adding
    and multiplying them (as generic algorithms do), with the passwords' points, the base point and any others as
    unknowns and each question chosen after the answers before. *)
Fixpoint computed (z : nat -> pt R) (answers : list (pt R)) (e : expr scalar) : pt R :=
  match e with
  | Unknown i => z i
  | Answer k => nth k answers (rzero R)
  | Plus a b => radd R (computed z answers a) (computed z answers b)
  | Times s a => rmul (computed z answers a) s
  end.
Definition salt_point_of {S} (r : res (S * ServerMessage R)) : pt R :=
  match r with Ok (_, SStrongAugmentationInfo _ _ P _) => P | _ => rzero R end.
(** The k-th question is asked in the k-th session. *)
Fixpoint asked (ask : nat -> pt R -> pt R) (z : nat -> pt R) (answers : list (pt R)) (questions : list (expr scalar)) : list (pt R) :=
  match questions with
  | [] => answers
  | e :: questions => asked ask z (answers ++ [ask (length answers) (computed z answers e)]) questions
  end.

Let fvalue := value scalar szero (zadd ell ell_gt_1) smult.
Let fanswers := answers_from scalar szero (zadd ell ell_gt_1) smult.
Lemma rmul_plus (P : pt R) a b : rmul P (zadd ell ell_gt_1 a b) = radd R (rmul P a) (rmul P b).
Proof.
  unfold rmul at 2 3. rewrite <- (smul_add _ _ _ _ (rl_abelian R L)), (smul_rmul L). reflexivity.
Qed.
Lemma computed_value y ans e :
  computed (fun i => rmul (rbase R) (y i)) (map (rmul (rbase R)) ans) e = rmul (rbase R) (fvalue y ans e).
Proof.
  induction e as [i|k|a IHa b IHb|s a IHa]; cbn [computed value].
  - reflexivity.
  - rewrite <- (rmul_szero (rbase R)). now rewrite map_nth.
  - now rewrite IHa, IHb, <- rmul_plus.
  - now rewrite IHa, (rmul_mul L), smult_comm.
Qed.
Lemma asked_answers ask q : (forall k U, ask k U = rmul U q) -> forall es y ans,
  asked ask (fun i => rmul (rbase R) (y i)) (map (rmul (rbase R)) ans) es = map (rmul (rbase R)) (fanswers y q ans es).
Proof.
  intros H es. induction es as [|e es IH]; intros y ans; cbn [asked answers_from]; [reflexivity|].
  rewrite H, computed_value, (rmul_mul L). unfold fanswers. cbn [answers_from]. fold fanswers. rewrite <- IH, map_app.
  reflexivity.
Qed.

(** What it takes to have the salt points of the passwords number js, whatever the points and the secret exponent. *)
Definition salt_points_from (user : bytes) (questions : list (expr scalar)) (js : list nat) : Prop :=
  forall j, In j js -> exists e, forall (DB : StrongDatabase R) (d : sdb DB) W q ps Ts sess sts (z : nat -> pt R),
    lookup_verifier_strong DB d user = Some (W, q, ps) -> q <> szero ->
    let ask k U := salt_point_of (generate_client_info_strong R D DB Ts (sess k) user U d (sts k)) in
    computed z (asked ask z [] questions) e = rmul (z j) q.

Lemma ask_strong (DB : StrongDatabase R) (d : sdb DB) user W q ps Ts sess sts U :
  lookup_verifier_strong DB d user = Some (W, q, ps) ->
  salt_point_of (generate_client_info_strong R D DB Ts sess user U d sts) = rmul U q.
Proof.
  intros Hl. rewrite generate_client_info_strong_eq. unfold generate_prs_strong. rewrite Hl, smult_one_r.
  destruct (is_identity (rmul U q)) eqn:Ei; [|reflexivity]. symmetry. now apply (is_identity_eq L).
Qed.

Lemma small_scalars n : (Z.of_nat n < ell)%Z ->
  let xs := map (fun k => sof (Z.of_nat (S k))) (seq 0 n) in NoDup xs /\ ~ In szero xs /\ length xs = n.
Proof.
  intros Hn xs.
  assert (V : forall k, k < n -> sval (sof (Z.of_nat (S k))) = Z.of_nat (S k)).
  { intros k Hk. rewrite sval_sof. apply Z.mod_small. revert Hn. generalize ell. intros; lia. }
  assert (Hi : forall k, In k (seq 0 n) -> k < n) by (intros k Hk; apply in_seq in Hk; lia).
  split; [|split].
  - unfold xs. revert Hi. generalize (seq_NoDup n 0). generalize (seq 0 n). intros l HN.
    induction HN as [|k l Hk HN IH]; intros Hi; cbn [map]; constructor.
    + intros C. apply in_map_iff in C. destruct C as (k' & E & Hk'). apply (f_equal sval) in E.
      rewrite !V in E by (apply Hi; cbn; auto). assert (k' = k) by lia. subst. contradiction.
    + apply IH. intros k' Hk'. apply Hi. now right.
  - unfold xs. intros C. apply in_map_iff in C. destruct C as (k & E & Hk). apply (f_equal sval) in E.
    rewrite (V k (Hi k Hk)), sval_szero in E. lia.
  - unfold xs. now rewrite map_length, seq_length.
Qed.

Theorem C99_strong_questions :
  forall user questions js, NoDup js -> (Z.of_nat (length questions) + 2 < ell)%Z ->
  salt_points_from user questions js -> length js <= length questions.
Proof.
  intros user es js ND Hn H.
  destruct (small_scalars (S (S (length es)))) as (NDx & H0 & Hl).
  { revert Hn. generalize ell. intros; lia. }
  refine (questions_bound scalar szero sone (zadd ell ell_gt_1) smult (zsub ell ell_gt_1) (zopp ell ell_gt_1)
    (zdiv ell ell_gt_1) sinv (zmod_field ell ell_gt_1 prime_ell) _ es js _ ND NDx H0 _ _).
  - intros a b. destruct (seqb a b) eqn:E; [left; now apply seqb_eq|right; now apply seqb_neq].
  - rewrite Hl. lia.
  - intros j Hj. destruct (H j Hj) as (e & He). exists e. intros y q Hq.
    pose (d := store_verifier_strong (AssocStrongDb R) empty_db user None (rzero R) q []).
    pose (Ts := tape_rng).
    assert (Hd : lookup_verifier_strong (AssocStrongDb R) d user = Some (rzero R, q, [])).
    { unfold d. apply (assoc_strong_db_lawful R). }
    specialize (He (AssocStrongDb R) d (rzero R) q [] Ts (fun _ => {| sal_ssid := []; sal_secret := 0 |})
      (fun _ => []) (fun i => rmul (rbase R) (y i)) Hd Hq). cbv zeta in He.
    change (@nil (pt R)) with (map (rmul (rbase R)) (@nil scalar)) in He.
    rewrite (asked_answers _ q) in He by (intros k U; apply (ask_strong _ _ _ _ _ _ _ _ _ _ Hd)).
    rewrite computed_value, (rmul_mul L) in He. apply (rmul_inj L) in He; [exact He|apply (rl_base R L)].
Qed.
(** The bound is reached: a question for each password. *)
Theorem C99_strong_questions_enough :
  forall user js, salt_points_from user (map Unknown js) js.
Proof.
  intros user js j Hj. apply In_nth with (d := 0) in Hj. destruct Hj as (k & Hk & Ej). exists (Answer k).
  intros DB d W q ps Ts sess sts z Hl _ ask. cbn [computed].
  assert (G : forall l ans, asked ask z ans (map Unknown l) = ans ++ map (fun i => rmul (z i) q) l).
  { induction l as [|i l IH]; intros ans; cbn [map asked computed]; [now rewrite app_nil_r|].
    rewrite IH, <- app_assoc. cbn [app]. unfold ask at 1. now rewrite (ask_strong _ _ _ _ _ _ _ _ _ _ Hl). }
  rewrite G. cbn [app]. rewrite (nth_indep _ _ (rmul (z 0) q)) by now rewrite map_length.
  rewrite (map_nth (fun i => rmul (z i) q)). now rewrite Ej.
Qed.
End Precomputation.

(** Case: the small group and the toy hasher; the user is registered (C29_case_registration), the attacker asks once without
    the strong variant and four times with it.  The table has an entry for each password, and finds the right one. *)
Definition four : list bytes := [wrong; str "letmein"; secret; str ""].
Definition aug0 : AuCPaceServerAugLayer := {| sal_ssid := repeat x01 64; sal_secret := 7 |}.
Definition stolen : pt ToyGroup :=
  match lookup_verifier (AssocDb ToyGroup) toy_db alice with Some (W, _, _) => W | None => rzero ToyGroup end.
Definition stolen_strong : pt ToyGroup :=
  match lookup_verifier_strong (AssocStrongDb ToyGroup) toy_sdb alice with Some (W, _, _) => W | None => rzero ToyGroup end.
Definition table0 : list (bytes * pt ToyGroup) :=
  match generate_client_info ToyGroup toyD (AssocDb ToyGroup) tape_rng aug0 alice toy_db (toy_tape 3001 3002) with
  | Ok (_, answer) => table ToyGroup bytes toy_params_of toy_hash alice answer four
  | _ => []
  end.
Definition strong_table0 : list (bytes * pt ToyGroup) :=
  strong_table ToyGroup toyD bytes toy_params_of toy_hash alice
    (fun U => generate_client_info_strong ToyGroup toyD (AssocStrongDb ToyGroup) tape_rng aug0 alice U toy_sdb (toy_tape 3001 3002)) four.
Check (test (map fst table0) four).
Check (test (look_up ToyGroup table0 stolen) [secret]).
Check (test (map fst strong_table0) four).
Check (test (look_up ToyGroup strong_table0 stolen_strong) [secret]).
(** Two questions, the sum of two passwords' points first: from the answers the salt points of both. *)
Definition points0 (i : nat) : pt ToyGroup := spec_Z ToyGroup toyD alice (nth i four []).
Definition answers0 : list (pt ToyGroup) :=
  asked ToyGroup (fun _ U => salt_point_of ToyGroup
    (generate_client_info_strong ToyGroup toyD (AssocStrongDb ToyGroup) tape_rng aug0 alice U toy_sdb (toy_tape 3001 3002)))
    points0 [] [Plus (Unknown 0) (Unknown 2); Unknown 2].
Definition exponent0 : scalar :=
  match lookup_verifier_strong (AssocStrongDb ToyGroup) toy_sdb alice with Some (_, q, _) => q | None => szero end.
Check (test (map sval [computed ToyGroup points0 answers0 (Plus (Answer 0) (Times (sof (-1)) (Answer 1)));
                       computed ToyGroup points0 answers0 (Answer 1)])
            (map sval [rmul (points0 0) exponent0; rmul (points0 2) exponent0])).
Check (test (seqb exponent0 szero, seqb (points0 0) (points0 2)) (false, false)).
