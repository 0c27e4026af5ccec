(** * AuCPace: what the debug output of a message discloses (C89). *)
From Coq Require Import ZArith Lia List String.
From Verif Require Import Base.Bytes Base.Outcome Base.Rng Base.Kat Hash.Hash Curve.Scalar25519.
From Verif Require Import Aucpace.RistrettoGroup Aucpace.Ristretto255Group Aucpace.AucpaceModel Aucpace.AucpaceSpec Aucpace.AucpaceRun
  Aucpace.ScryptParams Aucpace.AucpaceToy Aucpace.MessageDebug.
Import ListNotations.
Local Open Scope nat_scope.

(** ** Texts of byte strings *)

Definition stops (r : bytes) : Prop := match r with [] => True | c :: _ => ~ is_digit c end.
Lemma digits_split d d' r r' : Forall is_digit d -> Forall is_digit d' -> stops r -> stops r' ->
  d ++ r = d' ++ r' -> d = d' /\ r = r'.
Proof.
  intros H. revert d'. induction H as [|c d Hc H IH]; intros d' H' S1 S2 E.
  - destruct H' as [|c' d' Hc' _]; [now split|]. cbn in E. subst r. now elim S1.
  - destruct H' as [|c' d' Hc' H']; cbn in E.
    + subst r'. now elim S2.
    + injection E as <- E. destruct (IH d' H' S1 S2 E) as [-> ->]. now split.
Qed.
Lemma decimal_split b b' r r' : stops r -> stops r' ->
  decimal (b2n b) ++ r = decimal (b2n b') ++ r' -> b = b' /\ r = r'.
Proof.
  intros S1 S2 E. destruct (decimal_spec (b2n b)) as (H1 & H2 & _). destruct (decimal_spec (b2n b')) as (H1' & H2' & _).
  destruct (digits_split _ _ _ _ H1 H1' S1 S2 E) as [Ed Er]. split; [|exact Er].
  rewrite Ed, H2' in H2. now apply b2n_inj.
Qed.
Lemma comma_stops r : stops (str ", " ++ r).
Proof. unfold stops, is_digit. vm_compute. intros [H _]. now apply H. Qed.
Lemma bracket_stops r : stops (str "]" ++ r).
Proof. unfold stops, is_digit. vm_compute. intros [_ H]. now apply H. Qed.

Lemma show_items_split l l' r r' :
  show_items l ++ str "]" ++ r = show_items l' ++ str "]" ++ r' -> l = l' /\ r = r'.
Proof.
  assert (Hd : forall b, exists c s, decimal (b2n b) = c :: s /\ is_digit c).
  { intros b. destruct (decimal_spec (b2n b)) as (H1 & _ & H3). destruct (decimal (b2n b)) as [|c s]; [now elim H3|].
    exists c, s. split; [reflexivity|]. now inversion H1. }
  assert (Hn : forall b l, exists c s, show_items (b :: l) = c :: s /\ is_digit c).
  { intros b l0. destruct (Hd b) as (c & s & E & Hc). destruct l0; cbn [show_items]; rewrite E; eexists c, _; split; reflexivity || exact Hc. }
  assert (Hb : forall c (s x y : bytes), is_digit c -> (c :: s) ++ x = str "]" ++ y -> False).
  { intros c s x y Hc E. change (str "]") with [x5d] in E. cbn [app] in E. injection E as -> _.
    revert Hc. unfold is_digit. vm_compute. intros [_ H]. now apply H. }
  revert l'. induction l as [|b l IH]; intros l' E.
  - destruct l' as [|b' l']; [cbn [show_items app] in E; apply app_inv_head in E; now split|].
    destruct (Hn b' l') as (c & s & Ei & Hc). rewrite Ei in E. elim (Hb c s _ _ Hc (eq_sym E)).
  - destruct l' as [|b' l'].
    + destruct (Hn b l) as (c & s & Ei & Hc). rewrite Ei in E. elim (Hb c s _ _ Hc E).
    + destruct l as [|b1 l], l' as [|b1' l']; cbn [show_items] in E; rewrite <- ?app_assoc in E.
      * apply decimal_split in E; [|apply bracket_stops|apply bracket_stops]. destruct E as [-> E].
        apply app_inv_head in E. now split.
      * apply decimal_split in E; [|apply bracket_stops|apply comma_stops]. destruct E as [_ E]. discriminate E.
      * apply decimal_split in E; [|apply comma_stops|apply bracket_stops]. destruct E as [_ E]. discriminate E.
      * apply decimal_split in E; [|apply comma_stops|apply comma_stops]. destruct E as [-> E].
        apply app_inv_head in E. destruct (IH (b1' :: l') E) as [El Er]. rewrite El. now split.
Qed.
Lemma show_bytes_split l l' r r' : show_bytes l ++ r = show_bytes l' ++ r' -> l = l' /\ r = r'.
Proof.
  unfold show_bytes. rewrite <- !app_assoc. intros E. apply app_inv_head in E. now apply show_items_split.
Qed.
Lemma show_scalar_split q q' r r' : show_scalar q ++ r = show_scalar q' ++ r' -> q = q'.
Proof.
  unfold show_scalar. rewrite <- !app_assoc. intros E. do 3 apply app_inv_head in E.
  apply show_bytes_split in E. destruct E as [E _].
  apply (f_equal scalar_canonical) in E. rewrite !scalar_canonical_bytes in E. now injection E.
Qed.

(** ** C89 *)
Section Text.
Context (R : RGroup).

(** What a reader of the text knows: the kind of message, and these byte strings and numbers in it. *)
Inductive disclosed :=
| DNonce (n : bytes) | DUsername (u : bytes) | DStrongUsername (u : bytes) | DPublicKey | DAuthenticator (t : bytes)
| DRegistration (u : bytes) | DStrongRegistration (u : bytes) (q : scalar) | DAugmentation | DStrongAugmentation.
Definition of_client (m : ClientMessage R) : disclosed :=
  match m with
  | CNonce n => DNonce n | CUsername u => DUsername u | CStrongUsername u _ => DStrongUsername u | CPublicKey _ => DPublicKey
  | CAuthenticator t => DAuthenticator t | CRegistration u _ _ _ => DRegistration u
  | CStrongRegistration u q _ _ => DStrongRegistration u q
  end.
Definition of_server (m : ServerMessage R) : disclosed :=
  match m with
  | SNonce n => DNonce n | SAugmentationInfo _ _ _ _ => DAugmentation | SStrongAugmentationInfo _ _ _ _ => DStrongAugmentation
  | SPublicKey _ => DPublicKey | SAuthenticator t => DAuthenticator t
  end.

(** Whatever the texts of points, salts and parameters are (they may differ from one time to the next): the text
    of a message determines its kind, the nonce, the user name, the authenticator and the secret exponent. *)
Theorem C89_client_text :
  forall sp sp' ss ss' sr sr' m m',
  debug_client R sp ss sr m = debug_client R sp' ss' sr' m' -> of_client m = of_client m'.
Proof.
  intros sp sp' ss ss' sr sr' m m' E.
  destruct m, m'; cbn [debug_client] in E; try discriminate E; cbn [of_client]; try reflexivity;
    apply app_inv_head in E; apply show_bytes_split in E; destruct E as [-> E]; try reflexivity.
  apply app_inv_head in E. apply show_scalar_split in E. now rewrite E.
Qed.
Theorem C89_server_text :
  forall sp sp' sg sg' ss ss' sr sr' m m',
  debug_server R sp sg ss sr m = debug_server R sp' sg' ss' sr' m' -> of_server m = of_server m'.
Proof.
  intros sp sp' sg sg' ss ss' sr sr' m m' E.
  destruct m, m'; cbn [debug_server] in E; try discriminate E; cbn [of_server]; try reflexivity;
    apply app_inv_head in E; apply show_bytes_split in E; destruct E as [-> E]; reflexivity.
Qed.

(** The format of a derived [Debug], from core::fmt::builders: the name of the variant, then its fields in order; a
    tuple variant as [Name(f, ..)], a struct variant as [Name { field: f, .. }]. *)
Inductive variant := VTuple (name : string) (fields : list bytes) | VStruct (name : string) (fields : list (string * bytes)).
Definition separated (l : list bytes) : bytes :=
  match l with [] => [] | a :: l => a ++ concat (map (fun b => str ", " ++ b) l) end.
Definition variant_text (v : variant) : bytes :=
  match v with
  | VTuple name fs => str name ++ str "(" ++ separated fs ++ str ")"
  | VStruct name fs => str name ++ str " { " ++ separated (map (fun f => str (fst f) ++ str ": " ++ snd f) fs) ++ str " }"
  end.
(** The declarations of the two enums: client.rs:984-1044, server.rs:684-729. *)
Definition client_variant (sp : pt R -> bytes) (ss sr : bytes -> bytes) (m : ClientMessage R) : variant :=
  match m with
  | CNonce n => VTuple "Nonce" [show_bytes n]
  | CUsername u => VTuple "Username" [show_bytes u]
  | CStrongUsername u b => VStruct "StrongUsername" [("username", show_bytes u); ("blinded", sp b)]
  | CPublicKey k => VTuple "PublicKey" [sp k]
  | CAuthenticator a => VTuple "Authenticator" [show_bytes a]
  | CRegistration u s ps W =>
      VStruct "Registration" [("username", show_bytes u); ("salt", ss s); ("params", sr ps); ("verifier", sp W)]
  | CStrongRegistration u q ps W =>
      VStruct "StrongRegistration"
        [("username", show_bytes u); ("secret_exponent", show_scalar q); ("params", sr ps); ("verifier", sp W)]
  end%string.
Definition server_variant (sp : pt R -> bytes) (sg ss sr : bytes -> bytes) (m : ServerMessage R) : variant :=
  match m with
  | SNonce n => VTuple "Nonce" [show_bytes n]
  | SAugmentationInfo g X s ps =>
      VStruct "AugmentationInfo" [("group", sg g); ("x_pub", sp X); ("salt", ss s); ("pbkdf_params", sr ps)]
  | SStrongAugmentationInfo g X b ps =>
      VStruct "StrongAugmentationInfo" [("group", sg g); ("x_pub", sp X); ("blinded_salt", sp b); ("pbkdf_params", sr ps)]
  | SPublicKey k => VTuple "PublicKey" [sp k]
  | SAuthenticator a => VTuple "Authenticator" [show_bytes a]
  end%string.

(** Every field is printed after its own name, in the order of its declaration, and nothing else is. *)
Theorem C89_format :
  (forall sp ss sr m, debug_client R sp ss sr m = variant_text (client_variant sp ss sr m)) /\
  (forall sp sg ss sr m, debug_server R sp sg ss sr m = variant_text (server_variant sp sg ss sr m)).
Proof.
  split; intros; destruct m; cbn [debug_client debug_server client_variant server_variant variant_text separated map concat fst snd];
    rewrite ?app_nil_r, <- ?app_assoc; reflexivity.
Qed.

(** The claim that the text of a message does not depend on a secret is false: two strong registrations that
    differ in the secret exponent never have the same text. *)
Theorem C89_no_secret_refuted :
  forall sp ss sr u ps W q q', q <> q' ->
  debug_client R sp ss sr (CStrongRegistration u q ps W) <> debug_client R sp ss sr (CStrongRegistration u q' ps W).
Proof.
  intros sp ss sr u ps W q q' N E. apply N. apply C89_client_text in E. now injection E.
Qed.
End Text.
Print Assumptions C89_client_text.
Print Assumptions C89_server_text.
Print Assumptions C89_format.
Print Assumptions C89_no_secret_refuted.

(** Case: the text of a strong registration, and two exponents. *)
Check (test (debug_client ToyGroup (fun _ => str "P") (fun s => s) (fun s => s) (CNonce [x00; x09; xff])) (str "Nonce([0, 9, 255])")).
Check (test (show_bytes []) (str "[]")).
Example C89_case : sone <> szero /\
  debug_client Ristretto255 (fun _ => str "P") (fun s => s) (fun s => s) (CStrongRegistration (str "a") sone (str "ln=1") (rzero Ristretto255))
  = str "StrongRegistration { username: [97], secret_exponent: Scalar{" ++ [x0a; x09] ++
    str "bytes: [1, 0, 0, 0, 0, 0, 0, 0, 0, 0, 0, 0, 0, 0, 0, 0, 0, 0, 0, 0, 0, 0, 0, 0, 0, 0, 0, 0, 0, 0, 0, 0]," ++ [x0a] ++
    str "}, params: ln=1, verifier: P }".
Proof. split; [intros E; now apply (f_equal sval) in E|]. generalize (rzero Ristretto255). intros W. cbn [debug_client]. reflexivity. Qed.
