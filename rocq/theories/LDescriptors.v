(** Lemmas for C102: how the set of open descriptors changes. *)

From Verif Require Import Base Unicode MPackets MKeepalive MNetwork MServer MStatus MDb MDatabase MLib MRpc MRpcServer MNfs
  MSystem MDescriptors SUdp SRpc SRpcServer SSystem SDescriptors LBase LDatabase LServer LServer2 LRpcServer LNfs LSystem.
From Coq Require Import ZArith Lia Arith String.
Open Scope list_scope.
Open Scope N_scope.

Lemma descriptor_dec : forall x y : descriptor, {x = y} + {x <> y}.
Proof. decide equality; apply N.eq_dec. Qed.

Lemma has_open_unique : forall s n m, has_open s n -> has_open s m -> n = m.
Proof.
  intros s n m (xs & N1 & X1 & <-) (ys & N2 & X2 & <-). apply Nat.le_antisymm; apply NoDup_incl_length; try assumption;
    intros x I; [apply X2, X1|apply X1, X2]; assumption.
Qed.

(** If what is open afterwards was open before or is one of [added], it is no more
    than that many. *)
Lemma has_open_grows : forall s s' n added, has_open s n ->
  (forall x, open_in s' x = true -> open_in s x = true \/ In x added) ->
  exists m, has_open s' m /\ (m <= n + List.length added)%nat.
Proof.
  intros s s' n added (xs & N & X & <-) H.
  set (ys := filter (open_in s') (nodup descriptor_dec (xs ++ added))).
  exists (List.length ys). split.
  - exists ys. split; [apply NoDup_filter, NoDup_nodup|]. split; [|reflexivity].
    intros x. unfold ys. rewrite filter_In, nodup_In, in_app_iff. split; [intros [_ Y]; assumption|].
    intros Y. split; [|assumption]. destruct (H x Y) as [Z|Z]; [left; apply X; assumption|right; assumption].
  - rewrite <- app_length. apply NoDup_incl_length; [apply NoDup_filter, NoDup_nodup|].
    intros x I. unfold ys in I. rewrite filter_In, nodup_In in I. apply I.
Qed.

Lemma nodup_apart : forall A (a b : list A), NoDup a -> NoDup b -> (forall x, In x a -> In x b -> False) -> NoDup (a ++ b).
Proof.
  intros A a b Na Nb H. induction Na as [|x a I Na IH]; [exact Nb|]. cbn [app]. constructor.
  - rewrite in_app_iff. intros [J|J]; [contradiction|]. apply (H x); [left; reflexivity|exact J].
  - apply IH. intros y I1 I2. apply (H y); [right; exact I1|exact I2].
Qed.

Lemma sub_count : forall s n xs, has_open s n -> NoDup xs -> (forall x, In x xs -> open_in s x = true) ->
  (List.length xs <= n)%nat.
Proof.
  intros s n xs (ys & N & Y & <-) D H. apply NoDup_incl_length; [assumption|]. intros x I. apply Y, H, I.
Qed.

Lemma step_listening : forall w i, w_listening (fst (step w i)) = true -> w_listening w = true.
Proof.
  intros w i. unfold step. destruct (w_running w); [|trivial].
  destruct i as [dg ifs| |ok|ok].
  - destruct (w_listening w) eqn:L; [trivial|]. cbn [fst]. congruence.
  - trivial.
  - destruct (w_broadcasting w); [|trivial]. unfold broadcast_turn. destruct (w_poisoned w); [trivial|].
    destruct (st_address (w_state w)); [|trivial]. destruct (send_broadcast_payload _ _ _); trivial.
  - unfold app_turn. destruct (w_queue w) as [|ev q]; [trivial|]. destruct ev; [|trivial].
    unfold initiate_linking. cbn [w_poisoned w_state w_queue w_listening w_broadcasting].
    destruct (w_poisoned w); [trivial|]. destruct (st_address _); [|trivial].
    destruct (broadcast_messages _ _ _ _). trivial.
Qed.

Section Fd.
Variables (e : endian) (p : profile) (h : hash_order) (d : database).
Notation sstep := (sys_step e p h d).
Notation srun := (sys_run e p h d).

(** A turn of an NFS service opens at most one file. *)
Lemma nfs_turn_opens : forall j v n', sv_nfs (fst (nfs_turn e j v)) = Some n' ->
  exists n, sv_nfs v = Some n /\
    (nf_files n' = nf_files n \/
     exists ino f path, os_open (ni_os j) path = Some f /\ nf_files n' = hm_insert ino f (nf_files n)).
Proof.
  intros j v n' H. unfold nfs_turn in H. destruct (sv_nfs v) as [n|] eqn:E; [|cbn in H; congruence].
  exists n. split; [reflexivity|].
  assert (K : sv_nfs v = Some n' -> nf_files n' = nf_files n \/
     exists ino f path, os_open (ni_os j) path = Some f /\ nf_files n' = hm_insert ino f (nf_files n))
    by (intros K; rewrite E in K; injection K as ->; left; reflexivity).
  destruct (codec_decode (ni_datagram j)) as [[m|]| |]; try (apply K; exact H); [|discriminate H].
  destruct (rpc_body m) as [c|]; [|apply K; exact H].
  destruct (call_procedure e (ni_os j) (ca_procedure c) n) as [n1 r] eqn:C.
  assert (T : nf_files n1 = nf_files n \/
     exists ino f path, os_open (ni_os j) path = Some f /\ nf_files n1 = hm_insert ino f (nf_files n)).
  { unfold call_procedure in C. destruct (ca_procedure c); try (injection C as <- _; left; reflexivity).
    unfold lookup in C. destruct (os_stat _ _) as [mt|]; [|injection C as <- _; left; reflexivity].
    unfold get_fhandle in C. destruct (os_open _ _) as [f|] eqn:O; cbn [of_option rbind] in C;
      [|injection C as <- _; left; reflexivity].
    destruct (m_file mt); injection C as <- _; [|left; reflexivity]. right. do 3 eexists. split; [exact O|reflexivity]. }
  destruct r as [reply| |].
  - destruct (framed_send _ _ _ _). cbn in H. injection H as <-. exact T.
  - cbn in H. injection H as <-. exact T.
  - discriminate H.
Qed.

Lemma set_port_at : forall (u : db_ports) q x r, set_port u q x r = if r =? q then x else u r.
Proof. reflexivity. Qed.

(** What a step opens. *)
Lemma step_opens : forall limit n s i, within limit n s i -> (n <= limit)%nat ->
  exists added, (forall x, open_in (fst (sstep i s)) x = true -> open_in s x = true \/ In x added) /\
    (n + List.length added <= limit)%nat.
Proof.
  intros limit n s i W Le. destruct (w_running (sy_world s)) eqn:R.
  2:{ exists []. unfold sys_step. rewrite R. cbn [fst List.length]. split; [auto|lia]. }
  pose proof (step_shape e p h d i s R) as S.
  assert (None_ : forall s', (forall x, open_in s' x = true -> open_in s x = true) -> exists added,
     (forall x, open_in s' x = true -> open_in s x = true \/ In x added) /\ (n + List.length added <= limit)%nat)
    by (intros s' H; exists []; split; [intros x Hx; left; apply H, Hx|cbn; lia]).
  destruct i as [j|y|j|q j|ws|c chunk [port|]|c|y].
  - rewrite S. apply None_. intros x. destruct x; try (intros H; exact H). cbn [fst open_in with_world sy_world].
    apply step_listening.
  - rewrite S. apply None_. intros x. destruct (sy_status s) eqn:E; [destruct (status_turn y)|]; cbn [fst]; try (intros H; exact H);
      destruct x; try (intros H; exact H); cbn [open_in with_status sy_status]; discriminate.
  - rewrite S. destruct (sy_mapper s) eqn:E; [|apply None_; intros x H; exact H]. cbn [fst].
    destruct (pi_port j) as [pt|] eqn:P.
    + exists [DService pt]. split; [|cbn [List.length]; assert (n < limit)%nat by (apply W; congruence); lia].
      assert (K : start_services (sy_udp s) (snd (pm_turn j)) = sy_udp s \/
                  start_services (sy_udp s) (snd (pm_turn j)) = at_key (sy_udp s) pt (NfsUdp service_new) \/
                  start_services (sy_udp s) (snd (pm_turn j)) = at_key (sy_udp s) pt (MountUdp true)).
      { unfold pm_turn. rewrite P. destruct (codec_decode (pi_datagram j)) as [[m|]| |]; try (left; reflexivity).
        destruct (rpc_body m) as [c|]; [|destruct (send_to _ _); left; reflexivity].
        destruct (ca_procedure c); try (destruct (send_to _ _); left; reflexivity).
        destruct (gp_program _); destruct (send_to _ _); right; first [left; reflexivity|right; reflexivity]. }
      intros x. destruct x; cbn [open_in with_mapper sy_world sy_status sy_mapper sy_joined sy_query sy_db sy_udp];
        try (intros H; left; exact H).
      * intros _. left. exact E.
      * destruct K as [ -> | [ -> | -> ]]; [auto| |]; unfold at_key; (destruct (N.eqb_spec port pt) as [->|X]; [right; left; reflexivity|auto]).
      * destruct K as [ -> | [ -> | -> ]]; [auto| |]; unfold at_key; (destruct (N.eqb_spec port pt) as [->|X]; [|auto]); cbn; discriminate.
    + apply None_. assert (K : snd (pm_turn j) = []).
      { unfold pm_turn. rewrite P. destruct (codec_decode (pi_datagram j)) as [[m|]| |]; reflexivity. }
      rewrite K. intros x. destruct x; try (intros H; exact H). intros _. exact E.
  - destruct S as [S _]. rewrite S.
    set (v' := fst (udp_turn e (sy_world s) q j (sy_udp s q))).
    assert (Sv : open_in (with_udp s (at_key (sy_udp s) q v')) (DService q) = true -> open_in s (DService q) = true).
    { unfold open_in, with_udp, sy_udp at 1, at_key. rewrite N.eqb_refl. unfold v', udp_turn.
      destruct (sy_udp s q) as [|v|[|]]; try (intros H; exact H); [|reflexivity].
      destruct (nfs_turn e j v) as [v1 o] eqn:T. cbn [fst].
      destruct (sv_nfs v1) as [n1|] eqn:N1; [|discriminate]. intros _.
      destruct (nfs_turn_opens j v n1) as (n0 & E0 & _); [rewrite T; exact N1|]. rewrite E0. reflexivity. }
    assert (Fl : (forall ino, open_in (with_udp s (at_key (sy_udp s) q v')) (DFile q ino) = true -> open_in s (DFile q ino) = true) \/
       exists ino f path, os_open (ni_os j) path = Some f /\
         forall r, open_in (with_udp s (at_key (sy_udp s) q v')) (DFile q r) = true -> open_in s (DFile q r) = true \/ r = ino).
    { unfold open_in, with_udp, sy_udp, at_key. rewrite N.eqb_refl. fold (sy_udp s). unfold v', udp_turn.
      destruct (sy_udp s q) as [|v|[|]]; try (left; intros ino H; exact H).
      - destruct (nfs_turn e j v) as [v1 o] eqn:T. cbn [fst].
        destruct (sv_nfs v1) as [n1|] eqn:N1; [|left; discriminate].
        destruct (nfs_turn_opens j v n1) as (n0 & E0 & [F|(ino & f & path & O & F)]); [rewrite T; exact N1| |]; rewrite E0.
        + left. rewrite F. trivial.
        + right. exists ino, f, path. split; [exact O|]. intros r. rewrite F.
          destruct (N.eq_dec r ino) as [->|X]; [right; reflexivity|]. rewrite hm_get_insert, (proj2 (N.eqb_neq _ _) X). auto.
      - left. intros ino. destruct (ms_turn _) as [b os]. cbn [fst]. discriminate. }
    assert (Ot : forall x, (forall ino, x <> DFile q ino) -> open_in (with_udp s (at_key (sy_udp s) q v')) x = true -> open_in s x = true).
    { intros x N. destruct x; try (intros H; exact H).
      - destruct (N.eq_dec port q) as [->|X]; [exact Sv|]. unfold open_in, with_udp, sy_udp at 1, at_key.
        rewrite (proj2 (N.eqb_neq _ _) X). trivial.
      - destruct (N.eq_dec port q) as [->|X]; [exfalso; exact (N ino eq_refl)|]. unfold open_in, with_udp, sy_udp at 1, at_key.
        rewrite (proj2 (N.eqb_neq _ _) X). trivial. }
    destruct Fl as [Fl|(ino & f & path & O & Fl)].
    + apply None_. intros x. destruct x as [| | | | | | | |port ino] eqn:Ex; try (apply Ot; congruence).
      destruct (N.eq_dec port q) as [->|X]; [apply Fl|apply Ot; congruence].
    + exists [DFile q ino]. split; [|cbn [List.length]; assert (n < limit)%nat by (apply (W path); congruence); lia].
      intros x H. destruct x as [| | | | | | | |port r] eqn:Ex; try (left; revert H; apply Ot; congruence).
      destruct (N.eq_dec port q) as [->|X]; [|left; revert H; apply Ot; congruence].
      destruct (Fl r H) as [Y| ->]; [left; exact Y|right; left; reflexivity].
  - rewrite S. destruct (sy_joined s) eqn:J; [|apply None_; intros x H; exact H].
    destruct (sy_mapper s) eqn:M; cbn [fst].
    + exists (map DQuery (accepted ws)). split; [|rewrite map_length; exact W].
      intros x. destruct x; try (intros H; left; exact H); cbn [open_in with_joined sy_joined sy_query].
      * intros _. left. exact J.
      * rewrite fold_accept. intros [H|H]; [right; apply in_map; exact H|left; exact H].
    + apply None_. intros x. destruct x; try (intros H; exact H). cbn. discriminate.
  - rewrite S. destruct (sy_query s c); [|apply None_; intros x H; exact H]. cbn [fst db_step].
    exists [DListener port]. split; [|cbn [List.length]; assert (n < limit)%nat by (apply W; congruence); lia].
    intros x. destruct x as [| | | |c'|pt|pt|pt|pt ino]; try (intros H; left; exact H);
      unfold open_in, with_db, sy_db at 1, set_port; destruct (N.eqb_spec pt port) as [->|X]; auto; [right; left; reflexivity|discriminate].
  - rewrite S. destruct (sy_query s c); [|apply None_; intros x H; exact H]. apply None_.
    intros x. destruct x; try (intros H; exact H). cbn [fst open_in with_query sy_query]. unfold at_key.
    destruct (c0 =? c); [discriminate|trivial].
  - rewrite S. apply None_.
    intros x. destruct x; try (intros H; exact H). cbn [fst open_in with_query sy_query]. unfold at_key.
    destruct (c0 =? c); [discriminate|trivial].
  - assert (P : forall q x, (match x with Listening | Serving _ => true | _ => false end = true ->
                  match sy_db s q with Listening | Serving _ => true | _ => false end = true) ->
                (match x with Serving _ => true | _ => false end = true ->
                  match sy_db s q with Serving _ => true | _ => false end = true) ->
       forall z, open_in (with_db s (set_port (sy_db s) q x)) z = true -> open_in s z = true).
    { intros q x H1 H2 z. destruct z as [| | | |c'|pt|pt|pt|pt ino]; try (intros H; exact H);
        unfold open_in, with_db, sy_db at 1, set_port; (destruct (N.eqb_spec pt q) as [->|X]; [assumption|trivial]). }
    assert (Same : forall y, open_in (with_db s (sy_db s)) y = true -> open_in s y = true) by (intros [] H; exact H).
    destruct y as [q ch|q|q ch|q].
    + rewrite S. apply None_. intros x H. exact H.
    + rewrite S. cbn [db_step]. destruct (sy_db s q) eqn:E; cbn [fst]; try (apply None_; exact Same).
      exists [DClient q]. split; [|cbn [List.length]; assert (n < limit)%nat by (apply W; exact E); lia].
      intros x. destruct x as [| | | |c'|pt|pt|pt|pt ino]; try (intros H; left; exact H);
        unfold open_in, with_db, sy_db at 1, set_port; (destruct (N.eqb_spec pt q) as [->|X]; [|auto]).
      * rewrite E. auto.
      * right. left. reflexivity.
    + rewrite S. cbn [db_step]. destruct (sy_db s q) as [| |st|] eqn:E; cbn [fst]; try (apply None_; exact Same).
      destruct (process p h d st ch) as [[an st']| |]; cbn [fst]; apply None_; apply P; rewrite E; trivial; discriminate.
    + rewrite S. cbn [db_step]. destruct (sy_db s q) as [| |st|] eqn:E; cbn [fst]; try (apply None_; exact Same).
      apply None_; apply P; discriminate.
Qed.
End Fd.
