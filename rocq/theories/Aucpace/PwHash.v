(** * The parts of the [password-hash] crate (0.5.0, with [base64ct] 1.6.0) that aucpace uses:
    [SaltString], [Salt], [ParamsString], [Error].  These crates are not in /repo; the model follows
    their published source. *)
From Verif Require Import Base.Bytes Base.Outcome Base.Rng.
Local Open Scope N_scope.

(** [password_hash::errors::InvalidValue] *)
Inductive invalid_value := InvalidChar (c : byte) | InvalidFormat | Malformed | TooLong | TooShort.
(** [password_hash::errors::Error] *)
Inductive pherror :=
| Algorithm | B64Encoding | Crypto | OutputSize | ParamNameDuplicated | ParamNameInvalid
| ParamValueInvalid (v : invalid_value) | ParamsMaxExceeded | Password | PhcStringField
| PhcStringTrailingData | SaltInvalid (v : invalid_value) | Version.

(** ** Unpadded standard base64 *)

Definition b64_char (n : N) : byte :=
  n2b (if n <? 26 then 65 + n
       else if n <? 52 then 97 + (n - 26)
       else if n <? 62 then 48 + (n - 52)
       else if n =? 62 then 43 else 47).

Fixpoint b64_encode (l : bytes) : bytes :=
  match l with
  | [] => []
  | [a] =>
      let a := b2n a in
      [b64_char (a / 4); b64_char ((a mod 4) * 16)]
  | [a; b] =>
      let a := b2n a in let b := b2n b in
      [b64_char (a / 4); b64_char ((a mod 4) * 16 + b / 16); b64_char ((b mod 16) * 4)]
  | a :: b :: c :: r =>
      let a := b2n a in let b := b2n b in let c := b2n c in
      b64_char (a / 4) :: b64_char ((a mod 4) * 16 + b / 16)
      :: b64_char ((b mod 16) * 4 + c / 64) :: b64_char (c mod 64) :: b64_encode r
  end.

(** ** Salts.  A [SaltString] is represented by its characters. *)

(** value.rs [is_char_valid] *)
Definition value_char (c : byte) : bool :=
  let n := b2n c in
  ((65 <=? n) && (n <=? 90)) || ((97 <=? n) && (n <=? 122)) || ((48 <=? n) && (n <=? 57))
  || (n =? 47) || (n =? 43) || (n =? 46) || (n =? 45).

(** salt.rs: [Salt::MIN_LENGTH] = 4, [Salt::MAX_LENGTH] = 64 *)
Definition salt_min : nat := 4.
Definition salt_max : nat := 64.

(** salt.rs [Salt::from_b64] / [SaltString::from_b64] (the characters only have to be legal in a
    PHC value; they are not decoded) *)
Definition salt_from_b64 (s : bytes) : outcome pherror bytes :=
  if Nat.ltb (length s) salt_min then Err (SaltInvalid TooShort)
  else if Nat.ltb salt_max (length s) then Err (SaltInvalid TooLong)
  else match find (fun c => negb (value_char c)) s with
       | Some c => Err (SaltInvalid (InvalidChar c))
       | None => Ok s
       end.

(** salt.rs [SaltString::as_salt], also [Into<Salt> for &SaltString]: [expect]s the check above *)
Definition as_salt (s : bytes) : outcome pherror bytes :=
  match salt_from_b64 s with Ok v => Ok v | _ => Panic end.

(** salt.rs [SaltString::encode_b64]: encodes into a 64-byte buffer *)
Definition salt_encode_b64 (input : bytes) : outcome pherror bytes :=
  let e := b64_encode input in
  if Nat.leb (length e) salt_max then Ok e else Err B64Encoding.

(** salt.rs [SaltString::generate]: 16 random bytes, [encode_b64(..).expect(..)] *)
Definition salt_generate (T : Rng) (st : rng_state T) : outcome pherror bytes * rng_state T :=
  let '(b, st') := rng_fill T 16 st in
  (match salt_encode_b64 b with Ok s => Ok s | _ => Panic end, st').

(** ** Parameter strings, represented by their characters *)

(** params.rs [MAX_LENGTH] *)
Definition params_max : nat := 127.
(** ident.rs: 1 to 32 characters of [a-z0-9-] *)
Definition ident_char (c : byte) : bool :=
  let n := b2n c in ((97 <=? n) && (n <=? 122)) || ((48 <=? n) && (n <=? 57)) || (n =? 45).
Definition ident_ok (s : bytes) : bool :=
  Nat.leb 1 (length s) && Nat.leb (length s) 32 && forallb ident_char s.
(** value.rs [Value::try_from]: at most 64 characters *)
Definition value_ok (s : bytes) : bool :=
  Nat.leb (length s) 64 && forallb value_char s.

(** [str::split] on a one-byte pattern *)
Fixpoint split_on (c : byte) (s : bytes) : list bytes :=
  match s with
  | [] => [[]]
  | x :: r =>
      if byte_eqb x c then [] :: split_on c r
      else match split_on c r with
           | [] => [[x]]
           | h :: t => (x :: h) :: t
           end
  end.

Definition comma : byte := n2b 44.
Definition equals : byte := n2b 61.

(** one [name=value] pair *)
Definition param_ok (p : bytes) : outcome pherror unit :=
  match split_on equals p with
  | [n] => if ident_ok n then Err (ParamValueInvalid Malformed) else Err ParamNameInvalid
  | [n; v] =>
      if negb (ident_ok n) then Err ParamNameInvalid
      else if value_ok v then Ok tt else Err (ParamValueInvalid Malformed)
  | n :: v :: _ =>
      if negb (ident_ok n) then Err ParamNameInvalid
      else Err (ParamValueInvalid Malformed)
  | [] => Err ParamNameInvalid
  end.

Fixpoint params_ok (ps : list bytes) : outcome pherror unit :=
  match ps with
  | [] => Ok tt
  | p :: r => let! _ := param_ok p in params_ok r
  end.

(** params.rs [FromStr for ParamsString].  (Of an invalid value the model does not tell apart which
    [InvalidValue] is reported.) *)
Definition params_parse (s : bytes) : outcome pherror bytes :=
  if Nat.ltb params_max (length s) then Err ParamsMaxExceeded
  else match s with
       | [] => Ok []
       | _ => let! _ := params_ok (split_on comma s) in Ok s
       end.

(** [ParamsString::default()] *)
Definition params_default : bytes := [].

(** ** Hashers *)

(** [PasswordHasher::hash_password_customized(password, None, None, params, salt)] for a hasher value:
    the result is the [hash] field of the [PasswordHash] (the only field aucpace reads).  A hasher is
    any function; it may fail, give no hash, a hash of any size, or panic. *)
Definition hasher (Params : Type) := bytes -> Params -> bytes -> outcome pherror (option bytes).

(** ** Facts *)
Local Close Scope N_scope.

Lemma b64_length l : length (b64_encode l) = (4 * length l + 2) / 3.
Proof.
  assert (forall n l, length l <= n -> length (b64_encode l) = (4 * length l + 2) / 3) as HI.
  { intros n. induction n as [n IH] using (well_founded_induction Wf_nat.lt_wf).
    intros [|a [|b [|c r]]] Hn; try reflexivity.
    cbn [b64_encode length] in *.
    rewrite (IH (length r)) by lia.
    replace (4 * S (S (S (length r))) + 2) with (4 * length r + 2 + 4 * 3) by lia.
    rewrite Nat.div_add by lia. lia. }
  apply (HI (length l)). lia.
Qed.

Lemma b64_char_value n : value_char (b64_char n) = true.
Proof.
  unfold b64_char.
  destruct (N.ltb_spec n 26).
  { unfold value_char. rewrite b2n_n2b, N.mod_small by lia.
    rewrite (proj2 (N.leb_le 65 (65 + n))), (proj2 (N.leb_le (65 + n) 90)) by lia. reflexivity. }
  destruct (N.ltb_spec n 52).
  { unfold value_char. rewrite b2n_n2b, N.mod_small by lia.
    rewrite (proj2 (N.leb_le 97 (97 + (n - 26)))), (proj2 (N.leb_le (97 + (n - 26)) 122)) by lia.
    cbn [andb]. now rewrite Bool.orb_true_r. }
  destruct (N.ltb_spec n 62).
  { unfold value_char. rewrite b2n_n2b, N.mod_small by lia.
    rewrite (proj2 (N.leb_le 48 (48 + (n - 52)))), (proj2 (N.leb_le (48 + (n - 52)) 57)) by lia.
    cbn [andb]. now rewrite !Bool.orb_true_r. }
  destruct (N.eqb n 62); reflexivity.
Qed.

Lemma b64_value l : forallb value_char (b64_encode l) = true.
Proof.
  assert (forall n l, length l <= n -> forallb value_char (b64_encode l) = true) as HI.
  { intros n. induction n as [n IH] using (well_founded_induction Wf_nat.lt_wf).
    intros [|a [|b [|c r]]] Hn; cbn [b64_encode forallb length] in *; rewrite ?b64_char_value; try reflexivity.
    cbn [andb]. apply (IH (length r)); lia. }
  apply (HI (length l)). lia.
Qed.

Lemma b64_char_inj a b : (a < 64)%N -> (b < 64)%N -> b64_char a = b64_char b -> a = b.
Proof.
  intros Ha Hb E. apply (f_equal b2n) in E. unfold b64_char in E. rewrite !b2n_n2b in E.
  revert E.
  destruct (N.ltb_spec a 26), (N.ltb_spec b 26);
    try destruct (N.ltb_spec a 52); try destruct (N.ltb_spec b 52);
    try destruct (N.ltb_spec a 62); try destruct (N.ltb_spec b 62);
    try destruct (N.eqb_spec a 62); try destruct (N.eqb_spec b 62);
    rewrite ?N.mod_small by lia; intros E; try lia; cbn in E; lia.
Qed.

Lemma find_none_forallb (f : byte -> bool) s :
  find (fun c => negb (f c)) s = None <-> forallb f s = true.
Proof.
  induction s as [|x s IH]; cbn; [easy|].
  destruct (f x); cbn; [exact IH|easy].
Qed.

(** The salts a [SaltString] used as a [Salt] may hold. *)
Definition salt_valid (s : bytes) : Prop :=
  4 <= length s <= 64 /\ forallb value_char s = true.

Lemma salt_from_b64_ok s v : salt_from_b64 s = Ok v <-> v = s /\ salt_valid s.
Proof.
  unfold salt_from_b64, salt_valid, salt_min, salt_max.
  destruct (Nat.ltb_spec (length s) 4); [split; [discriminate|lia]|].
  destruct (Nat.ltb_spec 64 (length s)); [split; [discriminate|lia]|].
  rewrite <- find_none_forallb. destruct (find _ s).
  - split; [discriminate|]. intros (_ & _ & E). discriminate.
  - split; [intros E; injection E as <-; repeat split; lia|]. now intros (-> & _).
Qed.

Lemma salt_from_b64_no_panic s : salt_from_b64 s <> Panic.
Proof.
  unfold salt_from_b64. destruct (Nat.ltb _ _); [discriminate|].
  destruct (Nat.ltb _ _); [discriminate|]. destruct (find _ s); discriminate.
Qed.

Lemma as_salt_ok s : salt_valid s -> as_salt s = Ok s.
Proof.
  intros H. unfold as_salt. now rewrite (proj2 (salt_from_b64_ok s s) (conj eq_refl H)).
Qed.

Lemma salt_encode_ok l : 3 <= length l <= 48 ->
  salt_encode_b64 l = Ok (b64_encode l) /\ salt_valid (b64_encode l).
Proof.
  intros HL. assert (4 <= length (b64_encode l) <= 64).
  { rewrite b64_length. split.
    - apply (Nat.div_le_lower_bound _ 3); lia.
    - apply Nat.lt_succ_r, Nat.div_lt_upper_bound; lia. }
  unfold salt_encode_b64, salt_max, salt_valid.
  rewrite (proj2 (Nat.leb_le _ _)) by lia. split; [reflexivity|]. split; [lia|apply b64_value].
Qed.
