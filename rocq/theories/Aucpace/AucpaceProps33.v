(** * AuCPace: all that checking an authenticator shows (C96). *)
From Coq Require Import NArith Lia List Bool PeanoNat.
From Verif Require Import Base.Bytes Base.Outcome Base.CtEq Base.Kat Base.Leak Base.LeakShown Hash.Hash.
From Verif Require Import Aucpace.RistrettoGroup Aucpace.AucpaceModel Aucpace.AucpaceSpec Aucpace.AucpaceProofs Aucpace.AucpaceProps28.
Import ListNotations.
Local Open Scope nat_scope.

Section Shown.
Context (R : RGroup) (D : bytes -> bytes).

(** C96: nothing is left out of what the two functions show, and it comes in the order of the code: a client compares all
    the bytes, shows the verdict, and hashes if it accepts; a server hashes for both authenticators first. *)
Theorem C96_shown :
  (forall c a,
     let T := cem_server_authenticator c in
     snd (receive_server_authenticator_l D c a) =
       map Step (compare_shows (length T) (length a)) ++ [Step (OBranch (bytes_eqb T a))] ++
       (if bytes_eqb T a then [Hashed (length (word x05 ++ cem_ssid c ++ cem_sk1 c))] else [])) /\
  (forall s a,
     let T := spec_Tb D (sem_ssid s) (sem_sk1 s) in
     snd (receive_client_authenticator_l R D s a) =
       [Hashed (length (word x03 ++ sem_ssid s ++ sem_sk1 s)); Hashed (length (word x04 ++ sem_ssid s ++ sem_sk1 s))] ++
       map Step (compare_shows (length T) (length a)) ++ [Step (OBranch (bytes_eqb T a))] ++
       (if bytes_eqb T a then [Hashed (length (word x05 ++ sem_ssid s ++ sem_sk1 s))] else [])).
Proof.
  split; intros v a T.
  - unfold receive_server_authenticator_l. fold T. rewrite (surjective_pairing (ct_eq_l T a)), ct_eq_shows, ct_eq_value, slice_ct_eqb.
    destruct (bytes_eqb T a); cbn [compute_session_key_l finalize_l snd]; rewrite map_app, <- ?app_assoc, ?app_nil_r; reflexivity.
  - unfold receive_client_authenticator_l, compute_authenticator_messages_l, finalize_l.
    assert (EA : forall x y, finalize D (update (update H4 x) y) = spec_Tb D x y)
      by (intros x y; exact (f_equal snd (authenticators_eq D x y))).
    rewrite EA. fold T. rewrite (surjective_pairing (ct_eq_l T a)), ct_eq_shows, ct_eq_value, slice_ct_eqb.
    destruct (bytes_eqb T a); cbn [compute_session_key_l finalize_l snd]; rewrite map_app, <- ?app_assoc, ?app_nil_r; reflexivity.
Qed.
End Shown.
Check (test (snd (receive_server_authenticator_l sha512 (case_c x01) (repeat x01 2))) [Step (OBranch true); Step (OBranch false)]).
