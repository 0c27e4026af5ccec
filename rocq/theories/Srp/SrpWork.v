(** * SRP: how much is hashed.

    The functions of srp/src/utils.rs and the two [process_reply] with the number of bytes given to each digest: what
    somebody sees who measures the time of a digest, which depends on the length of its input. *)
From Coq Require Import NArith Lia List.
From Verif Require Import Base.Bytes Base.Outcome Base.BigUint Base.Hashed.
From Verif Require Import Srp.SrpModel.
Import ListNotations.
Local Open Scope nat_scope.

Section Work.
Context (D : bytes -> bytes).
Definition digest_h : bytes -> hashed SrpAuthError bytes := digesting D.

(** utils.rs:8-13 *)
Definition compute_u_h (a_pub b_pub : bytes) : hashed SrpAuthError N :=
  let? d := digest_h (a_pub ++ b_pub) in silent (Ok (from_bytes_be d)).
(** utils.rs:17-28 *)
Definition compute_k_h (grp : SrpGroup) : hashed SrpAuthError N :=
  let n := to_bytes_be (sg_n grp) in
  let g_bytes := to_bytes_be (sg_g grp) in
  if Nat.ltb (length n) (length g_bytes) then silent Panic else
  let l := length n - length g_bytes in
  let buf := firstn l (repeat x00 (length n)) ++ g_bytes in
  let? d := digest_h (n ++ buf) in silent (Ok (from_bytes_be d)).
(** utils.rs:33-39, 43-49 *)
Definition compute_m1_h (a_pub b_pub key : bytes) : hashed SrpAuthError bytes := digest_h (a_pub ++ b_pub ++ key).
Definition compute_m2_h (a_pub m1 key : bytes) : hashed SrpAuthError bytes := digest_h (a_pub ++ m1 ++ key).
(** client.rs:125-131, 135-140 *)
Definition compute_identity_hash_h (username password : bytes) : hashed SrpAuthError bytes := digest_h (username ++ str ":" ++ password).
Definition compute_x_h (identity_hash salt : bytes) : hashed SrpAuthError N :=
  let? d := digest_h (salt ++ identity_hash) in silent (Ok (from_bytes_be d)).

(** client.rs:189-226 *)
Definition client_process_reply_h (grp : SrpGroup) (a username password salt b_pub : bytes) : hashed SrpAuthError ClientVerifier :=
  let a := from_bytes_be a in
  let? a_pub := silent (compute_a_pub grp a) in
  let b_pub := from_bytes_be b_pub in
  let? r := silent (big_rem b_pub (sg_n grp)) in
  if (r =? 0)%N then silent (Err (IllegalParameter (str "b_pub"))) else
  let? u := compute_u_h (to_bytes_be a_pub) (to_bytes_be b_pub) in
  let? k := compute_k_h grp in
  let? identity_hash := compute_identity_hash_h username password in
  let? x := compute_x_h identity_hash salt in
  let? key := silent (client_premaster grp b_pub k x a u) in
  let? m1 := compute_m1_h (to_bytes_be a_pub) (to_bytes_be b_pub) (to_bytes_be key) in
  let? m2 := compute_m2_h (to_bytes_be a_pub) m1 (to_bytes_be key) in
  silent (Ok {| cv_m1 := m1; cv_m2 := m2; cv_key := to_bytes_be key |}).

(** server.rs:129-164 *)
Definition server_process_reply_h (grp : SrpGroup) (b v a_pub : bytes) : hashed SrpAuthError ServerVerifier :=
  let b := from_bytes_be b in
  let v := from_bytes_be v in
  let a_pub := from_bytes_be a_pub in
  let? k := compute_k_h grp in
  let? b_pub := silent (compute_b_pub grp b k v) in
  let? r := silent (big_rem a_pub (sg_n grp)) in
  if (r =? 0)%N then silent (Err (IllegalParameter (str "a_pub"))) else
  let? u := compute_u_h (to_bytes_be a_pub) (to_bytes_be b_pub) in
  let? key := silent (server_premaster grp a_pub v u b) in
  let? m1 := compute_m1_h (to_bytes_be a_pub) (to_bytes_be b_pub) (to_bytes_be key) in
  let? m2 := compute_m2_h (to_bytes_be a_pub) m1 (to_bytes_be key) in
  silent (Ok {| sv_m1 := m1; sv_m2 := m2; sv_key := to_bytes_be key |}).

Lemma compute_k_h_fst grp : fst (compute_k_h grp) = compute_k D grp.
Proof. unfold compute_k_h, compute_k. now destruct (Nat.ltb _ _). Qed.

Lemma compute_u_h_fst a b : fst (compute_u_h a b) = Ok (compute_u D a b). Proof. reflexivity. Qed.
Lemma compute_x_h_fst h s : fst (compute_x_h h s) = Ok (compute_x D h s). Proof. reflexivity. Qed.
Lemma compute_identity_hash_h_fst u p : fst (compute_identity_hash_h u p) = Ok (compute_identity_hash D u p).
Proof. reflexivity. Qed.

Lemma client_h_fst grp a u p s B :
  fst (client_process_reply_h grp a u p s B) = client_process_reply D grp a u p s B.
Proof.
  unfold client_process_reply_h, client_process_reply. rewrite hbind_fst. cbn [silent fst].
  destruct (compute_a_pub grp (from_bytes_be a)) as [A|e|]; cbn [obind]; [|reflexivity|reflexivity].
  rewrite hbind_fst. cbn [silent fst]. destruct (big_rem (from_bytes_be B) (sg_n grp)) as [r|e|]; cbn [obind]; [|reflexivity|reflexivity].
  destruct (r =? 0)%N; [reflexivity|]. rewrite hbind_fst, compute_u_h_fst. cbn [obind].
  rewrite hbind_fst, compute_k_h_fst. destruct (compute_k D grp) as [k|e|]; cbn [obind]; [|reflexivity|reflexivity].
  rewrite hbind_fst, compute_identity_hash_h_fst. cbn [obind].
  rewrite hbind_fst, compute_x_h_fst. cbn [obind].
  rewrite hbind_fst. cbn [silent fst].
  destruct (client_premaster grp _ _ _ _ _); reflexivity.
Qed.
Lemma server_h_fst grp b v A :
  fst (server_process_reply_h grp b v A) = server_process_reply D grp b v A.
Proof.
  unfold server_process_reply_h, server_process_reply.
  rewrite hbind_fst, compute_k_h_fst. destruct (compute_k D grp) as [k|e|]; cbn [obind]; [|reflexivity|reflexivity].
  rewrite hbind_fst. cbn [silent fst].
  destruct (compute_b_pub grp (from_bytes_be b) k (from_bytes_be v)) as [B|e|]; cbn [obind]; [|reflexivity|reflexivity].
  rewrite hbind_fst. cbn [silent fst]. destruct (big_rem (from_bytes_be A) (sg_n grp)) as [r|e|]; cbn [obind]; [|reflexivity|reflexivity].
  destruct (r =? 0)%N; [reflexivity|]. rewrite hbind_fst, compute_u_h_fst. cbn [obind].
  rewrite hbind_fst. cbn [silent fst].
  destruct (server_premaster grp _ _ _ _); reflexivity.
Qed.
End Work.
