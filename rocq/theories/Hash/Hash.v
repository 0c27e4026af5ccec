(** * SHA-1, SHA-256, SHA-512, HMAC and HKDF (external crates sha1, sha2, hmac, hkdf).

    Executable definitions following FIPS 180-4, RFC 2104 and RFC 5869; words are [N] kept below
    [2^32] or [2^64].  Checked on published test vectors in Hash/HashKat.v. *)
From Verif Require Import Base.Bytes Base.BigUint.
Local Open Scope N_scope.

Definition mask32 : N := 0xffffffff.
Definition mask64 : N := 0xffffffffffffffff.

Section Word.
Context (bits mask : N).
Definition wadd (a b : N) : N := N.land (a + b) mask.
Definition rotr (n x : N) : N := N.lor (N.shiftr x n) (N.land (N.shiftl x (bits - n)) mask).
Definition rotl (n x : N) : N := rotr (bits - n) x.
Definition wnot (x : N) : N := N.lxor x mask.
End Word.

(** Big-endian words of [k] bytes each. *)
Fixpoint be_words (fuel k : nat) (l : bytes) : list N :=
  match fuel, l with
  | S f, _ :: _ => from_bytes_be (firstn k l) :: be_words f k (skipn k l)
  | _, _ => []
  end.

(** Merkle-Damgard padding to a multiple of [blk] bytes with an [lenb]-byte length field. *)
Definition md_pad (blk lenb : nat) (m : bytes) : bytes :=
  let r := Nat.modulo (length m + 1 + lenb) blk in
  let z := Nat.modulo (blk - r) blk in
  m ++ [x80] ++ repeat x00 z ++ be_bytes lenb (8 * N.of_nat (length m)).

Fixpoint blocks (fuel blk : nat) (l : bytes) : list bytes :=
  match fuel, l with
  | S f, _ :: _ => firstn blk l :: blocks f blk (skipn blk l)
  | _, _ => []
  end.

Definition md_blocks (blk lenb : nat) (m : bytes) : list bytes :=
  let p := md_pad blk lenb m in blocks (length p) blk p.

(** ** SHA-1 *)

Definition sha1_iv : list N := [0x67452301; 0xefcdab89; 0x98badcfe; 0x10325476; 0xc3d2e1f0].

(** Message schedule: the window holds the last 16 words, oldest first. *)
Fixpoint sha1_sched (n : nat) (w : list N) : list N :=
  match n with
  | O => []
  | S n' =>
    match w with
    | w0 :: rest =>
      let x := N.lxor (N.lxor (nth 13 w 0) (nth 8 w 0)) (N.lxor (nth 2 w 0) w0) in
      let nw := rotl 32 mask32 1 x in
      w0 :: sha1_sched n' (rest ++ [nw])
    | [] => []
    end
  end.

Definition sha1_f (t : nat) (b c d : N) : N :=
  if Nat.ltb t 20 then N.lor (N.land b c) (N.land (wnot mask32 b) d)
  else if Nat.ltb t 40 then N.lxor b (N.lxor c d)
  else if Nat.ltb t 60 then N.lor (N.land b c) (N.lor (N.land b d) (N.land c d))
  else N.lxor b (N.lxor c d).

Definition sha1_k (t : nat) : N :=
  if Nat.ltb t 20 then 0x5a827999 else if Nat.ltb t 40 then 0x6ed9eba1
  else if Nat.ltb t 60 then 0x8f1bbcdc else 0xca62c1d6.

Fixpoint sha1_rounds (t : nat) (ws : list N) (a b c d e : N) : list N :=
  match ws with
  | [] => [a; b; c; d; e]
  | w :: ws' =>
    let tmp := wadd mask32 (rotl 32 mask32 5 a)
      (wadd mask32 (sha1_f t b c d) (wadd mask32 e (wadd mask32 (sha1_k t) w))) in
    sha1_rounds (S t) ws' tmp a (rotl 32 mask32 30 b) c d
  end.

Definition sha1_block (h : list N) (blk : bytes) : list N :=
  match h with
  | [a; b; c; d; e] =>
    let ws := sha1_sched 80 (be_words 16 4 blk) in
    map (fun p => wadd mask32 (fst p) (snd p)) (combine h (sha1_rounds 0 ws a b c d e))
  | _ => h
  end.

Definition sha1 (m : bytes) : bytes :=
  flat_map (be_bytes 4) (fold_left sha1_block (md_blocks 64 8 m) sha1_iv).

(** ** SHA-2 *)

Record sha2_params := {
  s2_bits : N; s2_mask : N;
  s2_S0 : N * N * N; s2_S1 : N * N * N;       (* big sigma rotations *)
  s2_s0 : N * N * N; s2_s1 : N * N * N;       (* small sigma: rotr, rotr, shr *)
  s2_k : list N; s2_iv : list N; s2_wbytes : nat }.

Definition sha256_params : sha2_params := {|
  s2_bits := 32; s2_mask := mask32;
  s2_S0 := (2, 13, 22); s2_S1 := (6, 11, 25); s2_s0 := (7, 18, 3); s2_s1 := (17, 19, 10);
  s2_k :=
    [ 0x428a2f98; 0x71374491; 0xb5c0fbcf; 0xe9b5dba5; 0x3956c25b; 0x59f111f1; 0x923f82a4; 0xab1c5ed5;
    0xd807aa98; 0x12835b01; 0x243185be; 0x550c7dc3; 0x72be5d74; 0x80deb1fe; 0x9bdc06a7; 0xc19bf174;
    0xe49b69c1; 0xefbe4786; 0x0fc19dc6; 0x240ca1cc; 0x2de92c6f; 0x4a7484aa; 0x5cb0a9dc; 0x76f988da;
    0x983e5152; 0xa831c66d; 0xb00327c8; 0xbf597fc7; 0xc6e00bf3; 0xd5a79147; 0x06ca6351; 0x14292967;
    0x27b70a85; 0x2e1b2138; 0x4d2c6dfc; 0x53380d13; 0x650a7354; 0x766a0abb; 0x81c2c92e; 0x92722c85;
    0xa2bfe8a1; 0xa81a664b; 0xc24b8b70; 0xc76c51a3; 0xd192e819; 0xd6990624; 0xf40e3585; 0x106aa070;
    0x19a4c116; 0x1e376c08; 0x2748774c; 0x34b0bcb5; 0x391c0cb3; 0x4ed8aa4a; 0x5b9cca4f; 0x682e6ff3;
    0x748f82ee; 0x78a5636f; 0x84c87814; 0x8cc70208; 0x90befffa; 0xa4506ceb; 0xbef9a3f7; 0xc67178f2 ];
  s2_iv :=
    [ 0x6a09e667; 0xbb67ae85; 0x3c6ef372; 0xa54ff53a; 0x510e527f; 0x9b05688c; 0x1f83d9ab; 0x5be0cd19 ];
  s2_wbytes := 4 |}.

Definition sha512_params : sha2_params := {|
  s2_bits := 64; s2_mask := mask64;
  s2_S0 := (28, 34, 39); s2_S1 := (14, 18, 41); s2_s0 := (1, 8, 7); s2_s1 := (19, 61, 6);
  s2_k :=
    [ 0x428a2f98d728ae22; 0x7137449123ef65cd; 0xb5c0fbcfec4d3b2f; 0xe9b5dba58189dbbc;
    0x3956c25bf348b538; 0x59f111f1b605d019; 0x923f82a4af194f9b; 0xab1c5ed5da6d8118;
    0xd807aa98a3030242; 0x12835b0145706fbe; 0x243185be4ee4b28c; 0x550c7dc3d5ffb4e2;
    0x72be5d74f27b896f; 0x80deb1fe3b1696b1; 0x9bdc06a725c71235; 0xc19bf174cf692694;
    0xe49b69c19ef14ad2; 0xefbe4786384f25e3; 0x0fc19dc68b8cd5b5; 0x240ca1cc77ac9c65;
    0x2de92c6f592b0275; 0x4a7484aa6ea6e483; 0x5cb0a9dcbd41fbd4; 0x76f988da831153b5;
    0x983e5152ee66dfab; 0xa831c66d2db43210; 0xb00327c898fb213f; 0xbf597fc7beef0ee4;
    0xc6e00bf33da88fc2; 0xd5a79147930aa725; 0x06ca6351e003826f; 0x142929670a0e6e70;
    0x27b70a8546d22ffc; 0x2e1b21385c26c926; 0x4d2c6dfc5ac42aed; 0x53380d139d95b3df;
    0x650a73548baf63de; 0x766a0abb3c77b2a8; 0x81c2c92e47edaee6; 0x92722c851482353b;
    0xa2bfe8a14cf10364; 0xa81a664bbc423001; 0xc24b8b70d0f89791; 0xc76c51a30654be30;
    0xd192e819d6ef5218; 0xd69906245565a910; 0xf40e35855771202a; 0x106aa07032bbd1b8;
    0x19a4c116b8d2d0c8; 0x1e376c085141ab53; 0x2748774cdf8eeb99; 0x34b0bcb5e19b48a8;
    0x391c0cb3c5c95a63; 0x4ed8aa4ae3418acb; 0x5b9cca4f7763e373; 0x682e6ff3d6b2b8a3;
    0x748f82ee5defb2fc; 0x78a5636f43172f60; 0x84c87814a1f0ab72; 0x8cc702081a6439ec;
    0x90befffa23631e28; 0xa4506cebde82bde9; 0xbef9a3f7b2c67915; 0xc67178f2e372532b;
    0xca273eceea26619c; 0xd186b8c721c0c207; 0xeada7dd6cde0eb1e; 0xf57d4f7fee6ed178;
    0x06f067aa72176fba; 0x0a637dc5a2c898a6; 0x113f9804bef90dae; 0x1b710b35131c471b;
    0x28db77f523047d84; 0x32caab7b40c72493; 0x3c9ebe0a15c9bebc; 0x431d67c49c100d4c;
    0x4cc5d4becb3e42b6; 0x597f299cfc657e2a; 0x5fcb6fab3ad6faec; 0x6c44198c4a475817 ];
  s2_iv :=
    [ 0x6a09e667f3bcc908; 0xbb67ae8584caa73b; 0x3c6ef372fe94f82b; 0xa54ff53a5f1d36f1;
    0x510e527fade682d1; 0x9b05688c2b3e6c1f; 0x1f83d9abfb41bd6b; 0x5be0cd19137e2179 ];
  s2_wbytes := 8 |}.

Section Sha2.
Context (P : sha2_params).
Let add := wadd (s2_mask P).
Let rr := rotr (s2_bits P) (s2_mask P).

Definition bsig (r : N * N * N) (x : N) : N :=
  let '(a, b, c) := r in N.lxor (rr a x) (N.lxor (rr b x) (rr c x)).
Definition ssig (r : N * N * N) (x : N) : N :=
  let '(a, b, c) := r in N.lxor (rr a x) (N.lxor (rr b x) (N.shiftr x c)).

Fixpoint sha2_sched (n : nat) (w : list N) : list N :=
  match n with
  | O => []
  | S n' =>
    match w with
    | w0 :: rest =>
      let nw := add (add (ssig (s2_s1 P) (nth 14 w 0)) (nth 9 w 0))
                    (add (ssig (s2_s0 P) (nth 1 w 0)) w0) in
      w0 :: sha2_sched n' (rest ++ [nw])
    | [] => []
    end
  end.

Fixpoint sha2_rounds (kw : list (N * N)) (a b c d e f g h : N) : list N :=
  match kw with
  | [] => [a; b; c; d; e; f; g; h]
  | (k, w) :: kw' =>
    let ch := N.lxor (N.land e f) (N.land (wnot (s2_mask P) e) g) in
    let t1 := add (add h (bsig (s2_S1 P) e)) (add ch (add k w)) in
    let maj := N.lxor (N.land a b) (N.lxor (N.land a c) (N.land b c)) in
    let t2 := add (bsig (s2_S0 P) a) maj in
    sha2_rounds kw' (add t1 t2) a b c (add d t1) e f g
  end.

Definition sha2_block (hs : list N) (blk : bytes) : list N :=
  match hs with
  | [a; b; c; d; e; f; g; h] =>
    let ws := sha2_sched (length (s2_k P)) (be_words 16 (s2_wbytes P) blk) in
    map (fun p => add (fst p) (snd p))
        (combine hs (sha2_rounds (combine (s2_k P) ws) a b c d e f g h))
  | _ => hs
  end.

Definition sha2 (m : bytes) : bytes :=
  flat_map (be_bytes (s2_wbytes P))
    (fold_left sha2_block (md_blocks (16 * s2_wbytes P) (2 * s2_wbytes P) m) (s2_iv P)).
End Sha2.

Definition sha256 : bytes -> bytes := sha2 sha256_params.
Definition sha512 : bytes -> bytes := sha2 sha512_params.

(** ** HMAC (RFC 2104) and HKDF (RFC 5869) *)

Section Hmac.
Context (H : bytes -> bytes) (blk : nat).

Definition xor_pad (c : byte) (k : bytes) : bytes :=
  map (fun b => n2b (N.lxor (b2n b) (b2n c))) k.

Definition hmac (key msg : bytes) : bytes :=
  let k0 := if Nat.ltb blk (length key) then H key else key in
  let k := k0 ++ repeat x00 (blk - length k0) in
  H (xor_pad x5c k ++ H (xor_pad x36 k ++ msg)).

(** HKDF-Extract; [Some(b"")] and [None] salts are both the all-zero key block. *)
Definition hkdf_extract (salt ikm : bytes) : bytes := hmac salt ikm.

Fixpoint hkdf_t (n : nat) (prk info prev : bytes) (i : N) : bytes :=
  match n with
  | O => []
  | S n' =>
    let t := hmac prk (prev ++ info ++ [n2b i]) in
    t ++ hkdf_t n' prk info t (i + 1)
  end.

(** HKDF-Expand to [len] bytes ([hlen] is the digest length); the Rust [expand] fails when
    [len > 255 * hlen]. *)
Definition hkdf_expand (hlen : nat) (prk info : bytes) (len : nat) : option bytes :=
  if Nat.ltb (255 * hlen) len then None
  else Some (firstn len (hkdf_t (Nat.div (len + hlen - 1) hlen) prk info [] 1)).
End Hmac.

Definition hmac_sha256 := hmac sha256 64.

(** ** Output lengths *)

Lemma flat_map_length {A} (f : A -> bytes) (k : nat) (l : list A) :
  (forall x, length (f x) = k) -> length (flat_map f l) = (length l * k)%nat.
Proof.
  intros Hf. induction l as [|x l IH]; cbn; [reflexivity|]. rewrite app_length, Hf, IH. reflexivity.
Qed.

Lemma sha2_rounds_length P kw a b c d e f g h :
  length (sha2_rounds P kw a b c d e f g h) = 8%nat.
Proof.
  revert a b c d e f g h.
  induction kw as [|[k w] kw IH]; intros; cbn [sha2_rounds]; [reflexivity|apply IH].
Qed.

Lemma sha2_block_length P hs blk : length hs = 8%nat -> length (sha2_block P hs blk) = 8%nat.
Proof.
  intros H. do 8 (destruct hs as [|? hs]; [discriminate|]). destruct hs; [|discriminate].
  cbn [sha2_block]. rewrite map_length, combine_length, sha2_rounds_length. reflexivity.
Qed.

Lemma sha2_length P m : length (s2_iv P) = 8%nat -> length (sha2 P m) = (8 * s2_wbytes P)%nat.
Proof.
  intros H. unfold sha2. rewrite (flat_map_length _ (s2_wbytes P)) by (intros; apply be_bytes_length).
  f_equal. revert H. generalize (s2_iv P). generalize (md_blocks (16 * s2_wbytes P) (2 * s2_wbytes P) m).
  intros bs. induction bs as [|b bs IH]; intros h H; cbn [fold_left]; [exact H|].
  apply IH. now apply sha2_block_length.
Qed.

Lemma sha256_length m : length (sha256 m) = 32%nat.
Proof. unfold sha256. now rewrite sha2_length. Qed.

Lemma sha512_length m : length (sha512 m) = 64%nat.
Proof. unfold sha512. now rewrite sha2_length. Qed.

Lemma sha1_rounds_length t ws a b c d e : length (sha1_rounds t ws a b c d e) = 5%nat.
Proof. revert t a b c d e. induction ws as [|w ws IH]; intros; cbn [sha1_rounds]; [reflexivity|apply IH]. Qed.

Lemma sha1_block_length hs blk : length hs = 5%nat -> length (sha1_block hs blk) = 5%nat.
Proof.
  intros H. do 5 (destruct hs as [|? hs]; [discriminate|]). destruct hs; [|discriminate].
  cbn [sha1_block]. rewrite map_length, combine_length, sha1_rounds_length. reflexivity.
Qed.

Lemma sha1_length m : length (sha1 m) = 20%nat.
Proof.
  unfold sha1. rewrite (flat_map_length _ 4) by (intros; apply be_bytes_length).
  assert (G : forall bs h, length h = 5%nat -> length (fold_left sha1_block bs h) = 5%nat).
  { intros bs. induction bs as [|b bs IH]; intros h H; cbn [fold_left]; [exact H|].
    apply IH. now apply sha1_block_length. }
  now rewrite G.
Qed.

Lemma hmac_length H blk h k m : (forall x, length (H x) = h) -> length (hmac H blk k m) = h.
Proof. intros HL. unfold hmac. apply HL. Qed.

Lemma hkdf_t_length H blk h n prk info prev i :
  (forall x, length (H x) = h) -> length (hkdf_t H blk n prk info prev i) = (n * h)%nat.
Proof.
  intros HL. revert prev i. induction n as [|n IH]; intros prev i; cbn [hkdf_t]; [reflexivity|].
  rewrite app_length, IH, (hmac_length H blk h) by exact HL. reflexivity.
Qed.

Lemma hkdf_expand_length H blk h prk info len out :
  (forall x, length (H x) = h) -> (0 < h)%nat ->
  hkdf_expand H blk h prk info len = Some out -> length out = len.
Proof.
  intros HL Hh. unfold hkdf_expand. destruct (Nat.ltb_spec (255 * h) len); [discriminate|].
  intros E. injection E as <-. rewrite firstn_length, (hkdf_t_length H blk h) by exact HL.
  pose proof (Nat.div_mod (len + h - 1) h ltac:(lia)).
  pose proof (Nat.mod_upper_bound (len + h - 1) h ltac:(lia)). nia.
Qed.
