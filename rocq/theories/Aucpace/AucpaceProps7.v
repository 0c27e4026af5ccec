(** * Properties C64-C66: the channel identifier, the databases and the program without the standard
    library of the aucpace examples. *)
From Coq Require Import ZArith Lia.
From Verif Require Import Base.Bytes Base.Outcome Base.Rng Base.Kat.
From Verif Require Import Curve.Scalar25519.
From Verif Require Import Aucpace.RistrettoGroup Aucpace.PwHash Aucpace.AucpaceModel Aucpace.AucpaceSpec
  Aucpace.AucpaceRun Aucpace.AucpaceDb Aucpace.AucpaceToy Aucpace.AucpaceProofs Aucpace.AucpaceProps
  Aucpace.Wire Aucpace.WireProofs Aucpace.AucpaceProps3 Aucpace.Net Aucpace.TcpExample Aucpace.TcpProofs
  Aucpace.AucpaceProps6 Aucpace.NoStdExample.
Local Open Scope nat_scope.

(** ** C64: the channel identifier *)

Definition family (a : socket_addr) : bool := match sa_ip a with V4 _ => true | V6 _ => false end.

Lemma channel_identifier_eq src dst : tcp_channel_identifier src dst
  = octets (sa_ip src) ++ colon :: be_bytes 2 (sa_port src) ++ colon :: octets (sa_ip dst) ++ colon :: be_bytes 2 (sa_port dst).
Proof. unfold tcp_channel_identifier. cbn [app]. rewrite <- !app_assoc. reflexivity. Qed.

Lemma octets_length a : socket_addr_valid a -> length (octets (sa_ip a)) = if family a then 4 else 16.
Proof. intros [H _]. unfold family, octets. destruct (sa_ip a); exact H. Qed.

Lemma app_split {A} (a b a' b' : list A) : length a = length a' -> a ++ b = a' ++ b' -> a = a' /\ b = b'.
Proof.
  revert a'. induction a as [|x a IH]; intros [|x' a'] HL E; cbn in *; try discriminate HL; [now split|].
  injection HL as HL. injection E as -> E. destruct (IH _ HL E) as [-> ->]. now split.
Qed.
Lemma cons_tail {A} (x : A) a b : x :: a = x :: b -> a = b.
Proof. intros E. now injection E. Qed.
Lemma port_inj p q : (p < 65536)%N -> (q < 65536)%N -> be_bytes 2 p = be_bytes 2 q -> p = q.
Proof.
  intros Hp Hq E. unfold be_bytes in E. apply (f_equal (@rev byte)) in E. rewrite !rev_involutive in E.
  exact (le_bytes_inj 2 p q Hp Hq E).
Qed.
Lemma addr_eq a b : socket_addr_valid a -> socket_addr_valid b -> family a = family b ->
  octets (sa_ip a) = octets (sa_ip b) -> sa_port a = sa_port b -> a = b.
Proof.
  destruct a as [[o|o] p], b as [[o'|o'] q]; unfold family, octets; cbn; intros _ _ F E1 E2; try discriminate F;
    now subst.
Qed.

(** Two connections whose first ends have addresses of the same family have different identifiers,
    unless both ends are the same. *)
Theorem C64_injective :
  forall src dst src' dst', socket_addr_valid src -> socket_addr_valid dst -> socket_addr_valid src' ->
  socket_addr_valid dst' -> family src = family src' ->
  tcp_channel_identifier src dst = tcp_channel_identifier src' dst' -> src = src' /\ dst = dst'.
Proof.
  intros src dst src' dst' V1 V2 V3 V4' F E. rewrite !channel_identifier_eq in E.
  apply app_split in E; [|rewrite !octets_length by assumption; now rewrite F]. destruct E as [E1 E].
  apply cons_tail in E. apply app_split in E; [|now rewrite !be_bytes_length]. destruct E as [E2 E].
  apply cons_tail in E.
  assert (F' : family dst = family dst').
  { apply (f_equal (@length byte)) in E. rewrite !app_length in E. cbn [length] in E.
    rewrite !be_bytes_length, !octets_length in E by assumption.
    destruct (family dst), (family dst'); try reflexivity; cbn in E; lia. }
  apply app_split in E; [|rewrite !octets_length by assumption; now rewrite F']. destruct E as [E3 E].
  apply cons_tail in E.
  split; apply addr_eq; try assumption; apply port_inj; try assumption; apply V1 || apply V2 || apply V3 || apply V4'.
Qed.

(** So the ends of a TCP connection, which have the same family, are determined by its identifier. *)
Theorem C64_connection :
  forall src dst src' dst', socket_addr_valid src -> socket_addr_valid dst -> socket_addr_valid src' ->
  socket_addr_valid dst' -> family src = family dst -> family src' = family dst' ->
  tcp_channel_identifier src dst = tcp_channel_identifier src' dst' -> src = src' /\ dst = dst'.
Proof.
  intros src dst src' dst' V1 V2 V3 V4' F F' E. apply (C64_injective src dst src' dst'); try assumption.
  apply (f_equal (@length byte)) in E. rewrite !channel_identifier_eq in E.
  repeat (rewrite app_length in E; cbn [length] in E).
  rewrite !be_bytes_length, !octets_length in E by assumption. rewrite <- F, <- F' in E.
  destruct (family src), (family src'); try reflexivity; cbn in E; lia.
Qed.

(** The function on pairs of addresses is not injective: ends of different families. *)
Theorem C64_mixed_families_refuted :
  exists src dst src' dst', socket_addr_valid src /\ socket_addr_valid dst /\ socket_addr_valid src' /\
  socket_addr_valid dst' /\ tcp_channel_identifier src dst = tcp_channel_identifier src' dst' /\ src <> src' /\ dst <> dst'.
Proof.
  exists {| sa_ip := V4 (map n2b [10; 0; 0; 1]%N); sa_port := 25519 |},
         {| sa_ip := V6 (map n2b [254; 128; 0; 0; 0; 0; 0; 0; 58; 1; 2; 58; 3; 4; 5; 6]%N); sa_port := 443 |},
         {| sa_ip := V6 (map n2b [10; 0; 0; 1; 58; 99; 175; 58; 254; 128; 0; 0; 0; 0; 0; 0]%N); sa_port := 258 |},
         {| sa_ip := V4 (map n2b [3; 4; 5; 6]%N); sa_port := 443 |}.
  unfold socket_addr_valid. cbn [sa_ip sa_port map length]. repeat apply conj; try reflexivity; discriminate.
Qed.

(** Cases: the addresses of the example, and of a connection over IPv6. *)
Example C64_case :
  let loopback p := {| sa_ip := V4 (map n2b [127; 0; 0; 1]%N); sa_port := p |} in
  socket_addr_valid (loopback 50000%N) /\
  tcp_channel_identifier (loopback 50000%N) (loopback 25519%N)
  = map n2b [127; 0; 0; 1; 58; 195; 80; 58; 127; 0; 0; 1; 58; 99; 175]%N.
Proof. vm_compute. repeat split. Qed.

(** ** C65: the databases of the examples *)
Section Databases.
Context (R : RGroup).

(** A history of stores, the latest first. *)
Definition stored (DB : Database R) (d : db DB) (l : list (bytes * (pt R * bytes * bytes) * option bytes)) : db DB :=
  fold_right (fun '(u, (W, salt, ps), uad) d => store_verifier DB d u salt uad W ps) d l.
Definition stored_strong (DB : StrongDatabase R) (d : sdb DB) (l : list (bytes * (pt R * scalar * bytes) * option bytes))
  : sdb DB := fold_right (fun '(u, (W, q, ps), uad) d => store_verifier_strong DB d u uad W q ps) d l.

(** The example's database holds the record stored last, for that user only. *)
Theorem C65_single :
  forall l u rec,
  lookup_verifier (SingleDb R) (stored (SingleDb R) single_default l) u = Some rec <->
  exists uad l', l = (u, rec, uad) :: l'.
Proof.
  intros [|[[u' [[W salt] ps]] uad] l] u rec; cbn [stored fold_right].
  - split; [discriminate|]. intros (uad & l' & E). discriminate E.
  - cbn [SingleDb lookup_verifier store_verifier]. unfold for_user, single_store. cbn [su_user su_data].
    destruct (bytes_eqb u' u) eqn:Eu.
    + apply bytes_eqb_eq in Eu. subst u'. split.
      * intros E. injection E as <-. now exists uad, l.
      * intros (uad' & l' & E). injection E as <- _ _. reflexivity.
    + split; [discriminate|]. intros (uad' & l' & E). injection E as -> _ _ _.
      assert (bytes_eqb u u = true) by now apply bytes_eqb_eq. congruence.
Qed.
Theorem C65_single_strong :
  forall l u rec,
  lookup_verifier_strong (SingleStrongDb R) (stored_strong (SingleStrongDb R) single_default l) u = Some rec <->
  exists uad l', l = (u, rec, uad) :: l'.
Proof.
  intros [|[[u' [[W salt] ps]] uad] l] u rec; cbn [stored_strong fold_right].
  - split; [discriminate|]. intros (uad & l' & E). discriminate E.
  - cbn [SingleStrongDb lookup_verifier_strong store_verifier_strong]. unfold for_user, single_store. cbn [su_user su_data].
    destruct (bytes_eqb u' u) eqn:Eu.
    + apply bytes_eqb_eq in Eu. subst u'. split.
      * intros E. injection E as <-. now exists uad, l.
      * intros (uad' & l' & E). injection E as <- _ _. reflexivity.
    + split; [discriminate|]. intros (uad' & l' & E). injection E as -> _ _ _.
      assert (bytes_eqb u u = true) by now apply bytes_eqb_eq. congruence.
Qed.
(** The database of the program without the standard library holds the record stored last with a name
    of at most [USERSIZE] bytes; the others were ignored. *)
Theorem C65_no_std :
  forall USERSIZE l u rec,
  lookup_verifier (NoStdDb R USERSIZE) (stored (NoStdDb R USERSIZE) {| nd_user := None; nd_data := None |} l) u
    = Some rec <->
  exists ignored uad l', l = ignored ++ (u, rec, uad) :: l' /\ length u <= USERSIZE /\
    Forall (fun e => USERSIZE < length (fst (fst e))) ignored.
Proof.
  intros N l u rec. induction l as [|[[u' [[W salt] ps]] uad] l IH].
  - cbn. split; [discriminate|]. intros (i & uad & l' & E & _). now apply app_cons_not_nil in E.
  - cbn [stored fold_right]. cbn [NoStdDb store_verifier]. destruct (Nat.leb_spec (length u') N) as [Hle|Hgt].
    + cbn [NoStdDb lookup_verifier nd_user nd_data]. rewrite firstn_app, firstn_all, Nat.sub_diag, firstn_O, app_nil_r.
      destruct (bytes_eqb u' u) eqn:Eu.
      * apply bytes_eqb_eq in Eu. subst u'. split.
        -- intros E. injection E as <-. exists [], uad, l. split; [reflexivity|]. split; [exact Hle|constructor].
        -- intros (i & uad' & l' & E & _ & Hi). destruct i as [|e i].
           ++ cbn in E. now injection E as -> _ _.
           ++ exfalso. cbn in E. injection E as <- _. inversion Hi as [|? ? Hl _]. cbn in Hl. lia.
      * split; [discriminate|]. intros (i & uad' & l' & E & _ & Hi). exfalso. destruct i as [|e i].
        -- cbn in E. injection E as -> _ _ _. assert (bytes_eqb u u = true) by now apply bytes_eqb_eq. congruence.
        -- cbn in E. injection E as <- _. inversion Hi as [|? ? Hl _]. cbn in Hl. lia.
    + etransitivity; [exact IH|]. split.
      * intros (i & uad' & l' & -> & Hu & Hi). exists ((u', (W, salt, ps), uad) :: i), uad', l'.
        split; [reflexivity|]. split; [exact Hu|]. constructor; [exact Hgt|exact Hi].
      * intros (i & uad' & l' & E & Hu & Hi). destruct i as [|e i].
        -- exfalso. cbn in E. injection E as -> _ _ _. lia.
        -- cbn in E. injection E as <- ->. exists i, uad', l'. split; [reflexivity|]. split; [exact Hu|].
           now inversion Hi.
Qed.

(** The law that a store leaves the other users' records alone fails for all three: whatever the
    database held for another user is lost. *)
Theorem C65_other_users_refuted :
  (forall d u salt uad W ps u', u' <> u -> lookup_verifier (SingleDb R) (store_verifier (SingleDb R) d u salt uad W ps) u' = None) /\
  (forall d u uad W q ps u', u' <> u ->
     lookup_verifier_strong (SingleStrongDb R) (store_verifier_strong (SingleStrongDb R) d u uad W q ps) u' = None) /\
  (forall USERSIZE d u salt uad W ps u', u' <> u -> length u <= USERSIZE ->
     lookup_verifier (NoStdDb R USERSIZE) (store_verifier (NoStdDb R USERSIZE) d u salt uad W ps) u' = None) /\
  exists d u u' salt W ps rec, u' <> u /\ lookup_verifier (SingleDb R) d u' = Some rec /\
    lookup_verifier (SingleDb R) (store_verifier (SingleDb R) d u salt None W ps) u' = None.
Proof.
  assert (NE : forall u u', u' <> u -> bytes_eqb u u' = false).
  { intros u u' H. destruct (bytes_eqb u u') eqn:E; [|reflexivity]. apply bytes_eqb_eq in E. now elim H. }
  split; [|split; [|split]].
  - intros d u salt uad W ps u' H. cbn. unfold for_user. cbn. now rewrite NE.
  - intros d u uad W q ps u' H. cbn. unfold for_user. cbn. now rewrite NE.
  - intros N d u salt uad W ps u' H Hl. cbn [NoStdDb store_verifier]. apply Nat.leb_le in Hl. rewrite Hl.
    cbn [NoStdDb lookup_verifier nd_user nd_data]. rewrite firstn_app, firstn_all, Nat.sub_diag, firstn_O, app_nil_r.
    now rewrite NE.
  - exists (store_verifier (SingleDb R) single_default alice [] None (rbase R) []), (str "bob"), alice, [], (rbase R), [],
      (rbase R, [], []). split; [discriminate|]. split; reflexivity.
Qed.

(** Long-term key pairs: a pair can be stored for the registered user only, and is then what a lookup
    returns, for that user only. *)
Theorem C65_keypair :
  forall d u x X,
  (forall d', store_long_term_keypair (SinglePartialDb R) d u x X = Ok d' <->
     su_user d = Some u /\ d' = {| su_user := Some u; su_data := su_data d; su_keypair := Some (x, X) |}) /\
  (su_user d <> Some u -> store_long_term_keypair (SinglePartialDb R) d u x X = Err UserNotRegistered) /\
  (forall d' u', store_long_term_keypair (SinglePartialDb R) d u x X = Ok d' ->
     lookup_long_term_keypair (SinglePartialDb R) d' u' = (if bytes_eqb u u' then Some (x, X) else None) /\
     lookup_verifier (SingleDb R) d' u' = lookup_verifier (SingleDb R) d u').
Proof.
  intros [du dd dk] u x X. cbn [SinglePartialDb store_long_term_keypair su_user su_data].
  destruct du as [s|]; [destruct (bytes_eqb s u) eqn:Es|].
  - apply bytes_eqb_eq in Es. subst s. split; [|split].
    + intros d'. split; [intros E; injection E as <-; now split|intros [_ ->]; reflexivity].
    + intros H. now elim H.
    + intros d' u' E. injection E as <-. split; reflexivity.
  - split; [|split].
    + intros d'. split; [discriminate|]. intros [E _]. injection E as ->.
      assert (bytes_eqb u u = true) by now apply bytes_eqb_eq. congruence.
    + reflexivity.
    + discriminate.
  - split; [|split].
    + intros d'. split; [discriminate|]. intros [E _]. discriminate E.
    + reflexivity.
    + discriminate.
Qed.

(** A user who registers after another inherits that user's key pair: no pair was ever stored for
    them. *)
Theorem C65_stale_keypair_refuted :
  forall d u x X d' u' salt uad W ps,
  store_long_term_keypair (SinglePartialDb R) d u x X = Ok d' ->
  lookup_long_term_keypair (SinglePartialDb R) (store_verifier (SingleDb R) d' u' salt uad W ps) u' = Some (x, X).
Proof.
  intros d u x X d' u' salt uad W ps H. apply (C65_keypair d u x X) in H. destruct H as [_ ->].
  cbn. unfold for_user. cbn. assert (bytes_eqb u' u' = true) as -> by now apply bytes_eqb_eq. reflexivity.
Qed.
End Databases.

(** Cases. *)
Example C65_case :
  let d := store_verifier (SingleDb ToyGroup) single_default alice [] None (rbase ToyGroup) [] in
  su_user d = Some alice /\
  is_ok (store_long_term_keypair (SinglePartialDb ToyGroup) d alice sone (rbase ToyGroup)) = true /\
  is_ok (store_long_term_keypair (SinglePartialDb ToyGroup) d (str "bob") sone (rbase ToyGroup)) = false.
Proof. repeat split. Qed.
Example C65_case_no_std :
  let store d u := store_verifier (NoStdDb ToyGroup 5) d u [] None (rbase ToyGroup) [] in
  let d := store (store {| nd_user := None; nd_data := None |} alice) (str "alice2") in
  lookup_verifier (NoStdDb ToyGroup 5) d alice = Some (rbase ToyGroup, [], []) /\
  lookup_verifier (NoStdDb ToyGroup 5) d (str "alice2") = None.
Proof. split; reflexivity. Qed.

(** ** C66: the program without the standard library *)
Section NoStd.
Context (R : RGroup) (L : rgroup_laws R) (D : bytes -> bytes) (Dlen : forall m, length (D m) = 64).
Context (Params : Type) (params_try_into : Params -> outcome pherror bytes) (params_of : bytes -> res Params).
Context (strong : bool).
Notation pc := (put_client R postcard strong).
Notation ps := (put_server R postcard strong).
Notation gc := (get_client R postcard strong K1).
Notation gs := (get_server R postcard strong K1).

(** A message in a buffer: what was sent is what is received, if it fits; if not, the sender panics. *)
Theorem C66_client_transport :
  forall m, client_has R strong m = true -> client_valid R K1 m ->
  (length (pc m) <= 1024 -> exists buf, send_buf (pc m) = Ok buf /\ length buf = 1024 /\ recv_buf gc buf = Ok m) /\
  (1024 < length (pc m) -> send_buf (pc m) = Panic).
Proof.
  intros m Hh Hv. unfold send_buf, BUFFER. split; intros Hl.
  - destruct (Nat.leb_spec (length (pc m)) 1024); [|lia]. eexists. split; [reflexivity|]. split.
    + rewrite app_length, repeat_length. lia.
    + unfold recv_buf. rewrite (C48_client_roundtrip R L postcard strong K1 m) by (now right || assumption). reflexivity.
  - destruct (Nat.leb_spec (length (pc m)) 1024); [lia|reflexivity].
Qed.
Theorem C66_server_transport :
  forall m, server_has R strong m = true -> server_valid R K1 m ->
  (length (ps m) <= 1024 -> exists buf, send_buf (ps m) = Ok buf /\ length buf = 1024 /\ recv_buf gs buf = Ok m) /\
  (1024 < length (ps m) -> send_buf (ps m) = Panic).
Proof.
  intros m Hh Hv. unfold send_buf, BUFFER. split; intros Hl.
  - destruct (Nat.leb_spec (length (ps m)) 1024); [|lia]. eexists. split; [reflexivity|]. split.
    + rewrite app_length, repeat_length. lia.
    + unfold recv_buf. rewrite (C48_server_roundtrip R L postcard strong K1 m) by (now right || assumption). reflexivity.
  - destruct (Nat.leb_spec (length (ps m)) 1024); [lia|reflexivity].
Qed.

(** Lengths in postcard. *)
Lemma varint_le k n : length (put_varint k n) <= k.
Proof.
  revert n. induction k as [|k IH]; intros n; cbn [put_varint length]; [lia|].
  destruct (N.ltb n 128); cbn [length]; [lia|]. specialize (IH (n / 128)%N). lia.
Qed.
Lemma varint_one k n : (n < 128)%N -> length (put_varint (S k) n) = 1.
Proof. intros H. cbn [put_varint]. apply N.ltb_lt in H. now rewrite H. Qed.
Lemma varint_two k n : (128 <= n < 16384)%N -> length (put_varint (S (S k)) n) = 2.
Proof.
  intros H. cbn [put_varint]. destruct (N.ltb_spec n 128); [lia|]. cbn [length].
  destruct (N.ltb_spec (n / 128) 128) as [H'|H']; [reflexivity|].
  assert (128 * (n / 128) <= n)%N by (apply N.mul_div_le; discriminate). lia.
Qed.
Lemma bytes_le b : length (put_bytes postcard b) <= 10 + length b.
Proof. unfold put_bytes. rewrite app_length. cbn [postcard put_len]. pose proof (varint_le 10 (N.of_nat (length b))). lia. Qed.
Lemma ctag_one m : length (put_tag postcard (client_tag R strong m)) = 1.
Proof. destruct m, strong; reflexivity. Qed.
Lemma stag_one m : length (put_tag postcard (server_tag R strong m)) = 1.
Proof. destruct m, strong; reflexivity. Qed.

(** The user name fits exactly when it has at most 1021 bytes. *)
Lemma username_fits u : length (pc (CUsername u)) <= 1024 <-> length u <= 1021.
Proof.
  unfold put_client. rewrite app_length, ctag_one. unfold put_bytes. rewrite app_length. cbn [postcard put_len].
  destruct (N.ltb_spec (N.of_nat (length u)) 128) as [H|H].
  - rewrite varint_one by exact H. lia.
  - destruct (N.ltb_spec (N.of_nat (length u)) 16384) as [H'|H'].
    + rewrite varint_two by lia. lia.
    + lia.
Qed.
Lemma client_short m : match m with CNonce n => length n = K1 | CPublicKey _ => True | CAuthenticator a => length a = 64 | _ => False end ->
  length (pc m) <= 1024.
Proof.
  unfold put_client. rewrite app_length, ctag_one. destruct m as [n| | |P|a| | ]; try contradiction; intros H.
  - pose proof (bytes_le n). unfold K1 in H. lia.
  - unfold put_point. rewrite (rl_length R L). lia.
  - pose proof (bytes_le a). lia.
Qed.
Lemma server_short m : match m with SNonce n => length n = K1 | SPublicKey _ => True | SAuthenticator a => length a = 64
  | _ => short_reply R m end ->
  length (ps m) <= 1024.
Proof.
  unfold put_server. rewrite app_length, stag_one. destruct m as [n|g P salt pp|g P Q pp|P|a]; cbn [short_reply]; intros H.
  - pose proof (bytes_le n). unfold K1 in H. lia.
  - destruct H as (-> & H1 & H2). unfold put_point. rewrite !app_length, (rl_length R L).
    pose proof (bytes_le group_name). change (length group_name) with 12 in *.
    pose proof (bytes_le salt). pose proof (bytes_le pp). lia.
  - destruct H as (-> & H2). unfold put_point. rewrite !app_length, !(rl_length R L).
    pose proof (bytes_le group_name). change (length group_name) with 12 in *. pose proof (bytes_le pp). lia.
  - unfold put_point. rewrite (rl_length R L). lia.
  - pose proof (bytes_le a). lia.
Qed.
Definition buf_of (m : bytes) : bytes := m ++ repeat x00 (BUFFER - length m).
Lemma c_send m : length (pc m) <= 1024 -> send_buf (pc m) = Ok (buf_of (pc m)).
Proof. intros H. unfold send_buf, BUFFER. apply Nat.leb_le in H. now rewrite H. Qed.
Lemma s_send m : length (ps m) <= 1024 -> send_buf (ps m) = Ok (buf_of (ps m)).
Proof. intros H. unfold send_buf, BUFFER. apply Nat.leb_le in H. now rewrite H. Qed.
Lemma c_recv m : client_has R strong m = true -> client_valid R K1 m -> recv_buf gc (buf_of (pc m)) = Ok m.
Proof.
  intros Hh Hv. unfold recv_buf, buf_of.
  rewrite (C48_client_roundtrip R L postcard strong K1 m) by (now right || assumption). reflexivity.
Qed.
Lemma s_recv m : server_has R strong m = true -> server_valid R K1 m -> recv_buf gs (buf_of (ps m)) = Ok m.
Proof.
  intros Hh Hv. unfold recv_buf, buf_of.
  rewrite (C48_server_roundtrip R L postcard strong K1 m) by (now right || assumption). reflexivity.
Qed.

Section Login.
Context (Tc Ts : Rng) (c : AuCPaceClient Tc) (s : AuCPaceServer Ts) (DB : Database R) (d : db DB).
Context (user pass : bytes) (h : hasher Params) (ci : bytes) (rngs : rng_state Ts) (rngc : rng_state Tc).
Notation login := (no_std_login R D Tc Ts strong Params params_of c s DB d user pass h ci rngs rngc).
Notation run := (run_login R D Params params_of Explicit Tc Ts (ByNonces 16) (FixedBuf 100) c s
  (fun sess u => generate_client_info R D DB Ts sess u d rngs) user pass h ci rngc).
Notation ssid := (the_ssid D Tc Ts c s).

(** The program's login is the protocol run in which every message is delivered; the only difference is
    that a server authenticator the client refuses makes it panic.  That needs a collision: the server
    accepted the client's authenticator, and both are made of the first session keys of the two sides. *)
Theorem C66_login :
  records_valid R DB d -> length user <= 1021 -> login = run \/
  (run = Err MutualAuthFail /\ login = Panic /\
   exists ss g P salt pp params cs,
     generate_client_info R D DB Ts {| sal_secret := s_secret Ts s; sal_ssid := ssid |} user d rngs
       = Ok (ss, SAugmentationInfo g P salt pp) /\
     params_of pp = Ok params /\
     generate_cpace R Params 100 {| cal_ssid := ssid; cal_username := user; cal_password := pass |} P salt params h = Ok cs /\
     let ys := drawn Ts (scs_rng Ts ss) in let yc := drawn Tc rngc in
     let sk1 K := D (word x02 ++ ssid ++ rcompress R K) in
     collision D (word x04 ++ ssid ++ sk1 (rmul (rmul (spec_G R D ssid (ccs_prs cs) ci) yc) ys))
                 (word x04 ++ ssid ++ sk1 (rmul (rmul (spec_G R D ssid (scs_prs Ts ss) ci) ys) yc))).
Proof.
  intros HD Hu. unfold run_login. change (ByNonces 16) with (ByNonces K1). rewrite run_ssid_nonces. cbn [obind].
  unfold no_std_login.
  destruct (client_begin R Tc K1 c) as [[sess m0] c'] eqn:Eb.
  pose proof (client_begin_nonce R Tc c) as En. rewrite Eb in En. injection En as -> ->.
  rewrite c_send by (apply client_short, nonce_length). cbn [obind].
  rewrite c_recv by (reflexivity || apply nonce_c_valid). cbn [obind].
  destruct (server_begin R Ts K1 s) as [[ses' m1] s'] eqn:Eb'.
  pose proof (server_begin_nonce R Ts s) as En. rewrite Eb' in En. injection En as -> ->.
  rewrite s_send by (apply server_short, nonce_length). cbn [obind].
  rewrite s_recv by (reflexivity || apply nonce_s_valid). cbn [obind].
  unfold client_agree_ssid, server_agree_ssid. rewrite !compute_ssid_eq. cbn [cse_nonce sse_nonce sse_secret].
  change {| cpa_ssid := spec_ssid D _ _ |} with {| cpa_ssid := ssid |}.
  change {| sal_secret := _; sal_ssid := _ |} with (sal D Ts s (nonce Tc (c_rng Tc c))).
  unfold run_aug. unfold start_augmentation.
  rewrite c_send by now apply username_fits. cbn [obind].

  assert (Su : small user). { unfold small. assert (N.of_nat (length user) <= 1021)%N by lia. lia. }
  rewrite c_recv by (reflexivity || exact Su). cbn [obind].
  destruct (generate_client_info R D DB Ts _ user d rngs) as [[ss M]|e|] eqn:Ei; cbn [obind]; try now left.
  assert (HM : scs_ssid Ts ss = ssid /\ server_valid R K1 M /\ (forall strong, server_has R strong M = true) /\ short_reply R M).
  { pose proof Ei as Ei'. rewrite generate_client_info_eq in Ei'. apply substep_ok in Ei'. destruct Ei' as [Es [prs Ei']].
    split; [exact Es|]. exact (prs_reply R D Dlen Params params_of Ts DB d _ _ _ _ _ _ _ HD Ei'). }
  destruct HM as (Es & HMv & HMh & HMs).
  assert (SM : length (ps M) <= 1024).
  { apply server_short. destruct M; try contradiction; exact HMs. }
  rewrite s_send by exact SM. cbn [obind]. rewrite s_recv by (apply HMh || exact HMv). cbn [obind].
  destruct M as [ |g P salt pp| | | ]; try now left.
  destruct (params_of pp) as [params|e|] eqn:Ep; cbn [obind]; try now left.
  cbn [do_generate_cpace].
  destruct (generate_cpace R Params 100 _ P salt params h) as [cs|e|] eqn:Ec; cbn [obind]; try now left.
  assert (Ecs : ccs_ssid cs = ssid).
  { pose proof Ec as Ec'. unfold generate_cpace in Ec'. destruct (is_identity P); [discriminate Ec'|].
    apply obind_ok in Ec'. destruct Ec' as (? & _ & Ec'). apply obind_ok in Ec'. destruct Ec' as (? & _ & Ec').
    injection Ec' as <-. reflexivity. }
  unfold run_cpace, run_explicit, run_keys, server_generate_public_key, client_generate_public_key.
  rewrite !generate_keypair_eq.
  rewrite s_send by now apply server_short. cbn [obind]. rewrite c_send by now apply client_short. cbn [obind].
  rewrite c_recv by (reflexivity || exact I). cbn [obind].
  unfold receive_client_pubkey. destruct (is_identity _); cbn [obind]; [now left|].
  rewrite s_recv by (reflexivity || exact I). cbn [obind].
  unfold receive_server_pubkey. destruct (is_identity _); cbn [obind]; [now left|].
  rewrite authenticators_eq. unfold spec_Tb. rewrite !expect64_D by exact Dlen. cbn [obind].
  rewrite c_send by apply client_short, Dlen. cbn [obind].
  rewrite c_recv by (reflexivity || apply Dlen). cbn [obind].
  unfold receive_client_authenticator. rewrite authenticators_eq, slice_ct_eqb.
  cbn [sem_ssid sem_sk1 cem_ssid cem_sk1 src_ssid src_priv_key crs_ssid crs_priv_key].
  destruct (bytes_eqb _ _) eqn:EB; cbn [obind]; [|now left].
  unfold spec_Ta. rewrite !expect64_D by exact Dlen. cbn [obind].
  rewrite s_send by apply server_short, Dlen. cbn [obind].
  rewrite s_recv by (reflexivity || apply Dlen). cbn [obind].
  unfold receive_server_authenticator.
  cbn [sem_ssid sem_sk1 cem_ssid cem_sk1 cem_server_authenticator src_ssid src_priv_key crs_ssid crs_priv_key]. rewrite !slice_ct_eqb.
  match goal with |- context [unwrap (if ?b then _ else _)] => destruct b eqn:EA end; cbn [unwrap obind]; [now left|right].
  split; [reflexivity|]. split; [reflexivity|].
  exists ss, g, P, salt, pp, params, cs. split; [reflexivity|]. split; [exact Ep|]. split; [exact Ec|].
  cbv zeta. rewrite Es, Ecs in EB, EA. unfold spec_Tb in EB.
  unfold compute_first_session_key, finalize, update in EB, EA. rewrite <- !app_assoc in EB, EA.
  apply bytes_eqb_eq in EB. apply bytes_eqb_neq in EA.
  split; [|exact EB]. intros E. apply app_inv_head, app_inv_head in E. exact (EA (eq_sym (f_equal (fun k => D (word x03 ++ ssid ++ k)) E))).
Qed.

(** A user name that does not fit the buffer makes the client panic. *)
Theorem C66_long_name : 1021 < length user -> login = Panic.
Proof.
  intros Hu. unfold no_std_login.
  destruct (client_begin R Tc K1 c) as [[sess m0] c'] eqn:Eb.
  pose proof (client_begin_nonce R Tc c) as En. rewrite Eb in En. injection En as -> ->.
  rewrite c_send by (apply client_short, nonce_length). cbn [obind].
  rewrite c_recv by (reflexivity || apply nonce_c_valid). cbn [obind].
  destruct (server_begin R Ts K1 s) as [[ses' m1] s'] eqn:Eb'.
  pose proof (server_begin_nonce R Ts s) as En. rewrite Eb' in En. injection En as -> ->.
  rewrite s_send by (apply server_short, nonce_length). cbn [obind].
  rewrite s_recv by (reflexivity || apply nonce_s_valid). cbn [obind].
  unfold start_augmentation. unfold send_buf, BUFFER.
  destruct (Nat.leb_spec (length (pc (CUsername user))) 1024) as [H|H]; [|reflexivity].
  apply username_fits in H. lia.
Qed.
End Login.

(** The whole program, its registration having succeeded: it prints the session key of the protocol
    table, or ends with [IllegalPointError] if one of the three points exchanged is the identity.  The
    assertion that the keys are equal does not fail. *)
Theorem C66_main :
  forall Tc Ts (c : AuCPaceClient Tc) (s : AuCPaceServer Ts) user pass params (h : hasher Params) ci
    (rngs : rng_state Ts) (rngc : rng_state Tc) u salt pstr W c',
  length user + length pass <= 99 -> params_valid pstr ->
  register R Params params_try_into Tc 100 c user pass params h = (Ok (CRegistration u salt pstr W), c') ->
  params_of pstr = Ok params ->
  exists w, spec_w h user pass salt params = Ok w /\
  let ssid := agreed_ssid D Tc Ts (ByNonces 16) c' s in
  let points := honest_points R D ssid w (drawn Ts rngs) ci (drawn Ts (after Ts 64 rngs)) (drawn Tc rngc) in
  let key := honest_key R D ssid w (drawn Ts rngs) ci (drawn Ts (after Ts 64 rngs)) (drawn Tc rngc) in
  let main := no_std_main R D Tc Ts strong Params params_try_into params_of c s user pass params h ci rngs rngc in
  ((forall P, In P points -> P <> rzero R) -> main = Ok key) /\
  ((exists P, In P points /\ P = rzero R) -> main = Err IllegalPointError).
Proof.
  intros Tc Ts c s user pass params h ci rngs rngc u salt pstr W c' Hl Hps Hreg Hp.
  set (d := {| nd_user := None; nd_data := None |} : no_std_single R).
  pose proof Hreg as Hr.
  apply (do_register_ok R Params params_try_into (FixedBuf 100)) in Hr; [|cbn; lia].
  destruct Hr as (-> & Hs & _).
  set (d' := store_verifier (NoStdDb R 100) d user salt None W pstr).
  assert (Hlook : forall v, lookup_verifier (NoStdDb R 100) d' v = if bytes_eqb user v then Some (W, salt, pstr) else None).
  { intros v. unfold d'. cbn [NoStdDb store_verifier]. destruct (Nat.leb_spec (length user) 100); [|lia].
    cbn [NoStdDb lookup_verifier nd_user nd_data]. rewrite firstn_app, firstn_all, Nat.sub_diag, firstn_O, app_nil_r.
    reflexivity. }
  destruct (C29_honest_login R L D Dlen Params params_try_into params_of (NoStdDb R 100) Tc Tc Ts c c' s (ByNonces 16)
    (FixedBuf 100) (FixedBuf 100) user pass params h user salt pstr W c' d None ci rngs rngc) as (w & Hw & E);
    try exact I; try (cbn; lia); try assumption.
  { fold d'. rewrite Hlook. assert (bytes_eqb user user = true) as -> by now apply bytes_eqb_eq. reflexivity. }
  exists w. split; [exact Hw|]. cbv zeta in *. fold d' in E.
  assert (HD : records_valid R (NoStdDb R 100) d').
  { intros v W' salt' ps' E'. rewrite Hlook in E'. destruct (bytes_eqb user v); [|discriminate E'].
    injection E' as <- <- <-. split; [rewrite Hs; apply salt_generate_eq|exact Hps]. }
  destruct (C66_login Tc Ts c' s (NoStdDb R 100) d' user pass h ci rngs rngc HD) as [El|(El & _)]; [lia| |].
  - unfold no_std_main. rewrite Hreg. cbn [obind]. fold d d'. rewrite El, E.
    split.
    + intros HP. rewrite (honest_outcome_ok R L) by exact HP. cbn [obind].
      assert (bytes_eqb _ _ = true) as -> by (apply bytes_eqb_eq; reflexivity). reflexivity.
    + intros (P & HP & ->). unfold honest_outcome.
      assert (existsb is_identity _ = true) as ->; [|reflexivity].
      apply existsb_exists. exists (rzero R). split; [exact HP|]. now apply (is_identity_eq L).
  - exfalso. rewrite El in E. unfold honest_outcome in E. destruct (existsb _ _) in E; discriminate E.
Qed.
End NoStd.

(** Cases. *)
Definition toy_no_std :=
  no_std_main ToyGroup toyD tape_rng tape_rng false bytes toy_params_try_into toy_params_of toy_client toy_server
    alice secret toy_params toy_hash channel (toy_tape 3001 3002) (toy_tape 4001 4002).
Check (test (match toy_no_std with Ok k => Nat.eqb (length k) 64 | _ => false end) true).
(** with a server generator that yields zeros, the other outcome *)
Check (test (illegal_point (no_std_main ToyGroup toyD tape_rng tape_rng false bytes toy_params_try_into toy_params_of
  toy_client toy_server alice secret toy_params toy_hash channel (toy_tape 3001 0) (toy_tape 4001 4002))) true).
