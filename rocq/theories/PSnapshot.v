(** C97: what follows the disk while the program runs, and what does not. *)

From Verif Require Import Base Unicode MPath MDb MDatabase MScan MLib SDb SDatabase SLib SScan SEnd
  SUdp MRpc SRpc MNetwork MRpcServer SRpcServer MNfs SNfs SLoad MPackets MServer MStatus MSystem SSystem SSnapshot
  LBase LUnicode LScan LDatabase LLib3 LEnd LNfs LNfs2 LLoad LSystem PDatabase PLib PScan PNfs PEnd PSystem PLoad.
From Coq Require Import ZArith Lia Arith String.
Open Scope list_scope.
Open Scope N_scope.

(** ** Everything but the file services *)

Definition alike_udp (v v' : udp_service) : Prop := v' = v \/ exists a b, v = NfsUdp a /\ v' = NfsUdp b.
Definition alike (s s' : system) : Prop :=
  sy_world s' = sy_world s /\ sy_status s' = sy_status s /\ sy_mapper s' = sy_mapper s /\ sy_joined s' = sy_joined s /\
  sy_query s' = sy_query s /\ sy_db s' = sy_db s /\ forall port, alike_udp (sy_udp s port) (sy_udp s' port).

Lemma alike_start : forall outs u u', (forall port, alike_udp (u port) (u' port)) ->
  forall port, alike_udp (start_services u outs port) (start_services u' outs port).
Proof.
  intros outs. unfold start_services. induction outs as [|o outs IH]; intros u u' H; [exact H|]. cbn [fold_left].
  apply IH. destruct o as [v q|to b]; [|exact H]. intros port. unfold at_key.
  destruct v; (destruct (port =? q); [left; reflexivity|apply H]).
Qed.

Lemma alike_step : forall e p h d i i' s s', alike s s' -> same_but_for_disk i i' ->
  alike (fst (sys_step e p h d i s)) (fst (sys_step e p h d i' s')) /\
  (~ for_file_service s i -> snd (sys_step e p h d i' s') = snd (sys_step e p h d i s)).
Proof.
  intros e p h d i i' s s' A B.
  destruct s as [w st mp jo qu db ud], s' as [w' st' mp' jo' qu' db' ud'].
  destruct A as (A1 & A2 & A3 & A4 & A5 & A6 & A7). cbn [sy_world sy_status sy_mapper sy_joined sy_query sy_db sy_udp] in *. subst.
  assert (AL : forall w st mp jo qu db u u', (forall port, alike_udp (u port) (u' port)) ->
    alike (mkSystem w st mp jo qu db u) (mkSystem w st mp jo qu db u')) by (intros; repeat split; assumption).
  destruct (w_running w) eqn:R.
  2:{ unfold sys_step. cbn [sy_world]. rewrite R. split; [exact (AL _ _ _ _ _ _ _ _ A7)|reflexivity]. }
  assert (U : forall port j o, alike (fst (sys_step e p h d (SysUdp port j) (mkSystem w st mp jo qu db ud)))
      (fst (sys_step e p h d (SysUdp port (mkNfsIn (ni_datagram j) (ni_from j) o (ni_resend j) (ni_send j))) (mkSystem w st mp jo qu db ud'))) /\
    (~ for_file_service (mkSystem w st mp jo qu db ud) (SysUdp port j) ->
     snd (sys_step e p h d (SysUdp port (mkNfsIn (ni_datagram j) (ni_from j) o (ni_resend j) (ni_send j))) (mkSystem w st mp jo qu db ud')) =
     snd (sys_step e p h d (SysUdp port j) (mkSystem w st mp jo qu db ud)))).
  { intros port j o. unfold sys_step. cbn [sy_world sy_udp]. rewrite R.
    destruct (A7 port) as [E|(a & b & Ea & Eb)].
    - rewrite E. destruct (ud port) as [|v|run] eqn:Eu.
      + cbn [udp_turn fst snd]. unfold with_udp. cbn [sy_world sy_status sy_mapper sy_joined sy_query sy_db sy_udp].
        split; [|reflexivity]. apply AL. intros q. unfold at_key. destruct (q =? port); [left; reflexivity|apply A7].
      + cbn [udp_turn]. destruct (nfs_turn e _ v) as [v1 o1]. destruct (nfs_turn e _ v) as [v2 o2]. cbn [fst snd].
        unfold with_udp. cbn [sy_world sy_status sy_mapper sy_joined sy_query sy_db sy_udp]. split.
        * apply AL. intros q. unfold at_key. destruct (q =? port); [right; eauto|apply A7].
        * intros N. elim N. exists port, j, v. split; [reflexivity|exact Eu].
      + cbn [udp_turn ni_datagram ni_from ni_send]. destruct run.
        * destruct (ms_turn _) as [r outs]. cbn [fst snd]. unfold with_udp.
          cbn [sy_world sy_status sy_mapper sy_joined sy_query sy_db sy_udp]. split; [|reflexivity]. apply AL. intros q. unfold at_key.
          destruct (q =? port); [left; reflexivity|apply A7].
        * cbn [fst snd]. unfold with_udp. cbn [sy_world sy_status sy_mapper sy_joined sy_query sy_db sy_udp]. split; [|reflexivity]. apply AL.
          intros q. unfold at_key. destruct (q =? port); [left; reflexivity|apply A7].
    - rewrite Ea, Eb. cbn [udp_turn]. destruct (nfs_turn e _ a) as [v1 o1]. destruct (nfs_turn e _ b) as [v2 o2]. cbn [fst snd].
      unfold with_udp. cbn [sy_world sy_status sy_mapper sy_joined sy_query sy_db sy_udp]. split.
      + apply AL. intros q. unfold at_key. destruct (q =? port); [right; eauto|apply A7].
      + intros N. elim N. exists port, j, a. split; [reflexivity|exact Ea]. }
  destruct B as [->|(port & j & o & -> & ->)]; [|apply U].
  destruct i as [j|x|j|port j|ws|c chunk [port|]|c|x].
  4:{ specialize (U port j (ni_os j)). replace (mkNfsIn (ni_datagram j) (ni_from j) (ni_os j) (ni_resend j) (ni_send j)) with j in U
        by (destruct j; reflexivity). exact U. }
  all: unfold sys_step; cbn [sy_world sy_status sy_mapper sy_joined sy_query sy_db sy_udp]; rewrite R.
  - destruct (step w j) as [w1 o1]. split; [exact (AL _ _ _ _ _ _ _ _ A7)|reflexivity].
  - destruct st; [|split; [exact (AL _ _ _ _ _ _ _ _ A7)|reflexivity]].
    destruct (status_turn x); (split; [exact (AL _ _ _ _ _ _ _ _ A7)|reflexivity]).
  - destruct mp; [|split; [exact (AL _ _ _ _ _ _ _ _ A7)|reflexivity]].
    destruct (pm_turn j) as [b outs]. split; [|reflexivity]. cbn [fst]. unfold with_mapper.
    cbn [sy_world sy_status sy_mapper sy_joined sy_query sy_db sy_udp]. apply AL. exact (alike_start outs ud ud' A7).
  - destruct jo; [|split; [exact (AL _ _ _ _ _ _ _ _ A7)|reflexivity]].
    destruct mp; (split; [exact (AL _ _ _ _ _ _ _ _ A7)|reflexivity]).
  - destruct (qu c); (split; [exact (AL _ _ _ _ _ _ _ _ A7)|reflexivity]).
  - destruct (qu c); (split; [exact (AL _ _ _ _ _ _ _ _ A7)|reflexivity]).
  - split; [exact (AL _ _ _ _ _ _ _ _ A7)|reflexivity].
  - destruct x as [q ch|q|q ch|q]; [split; [exact (AL _ _ _ _ _ _ _ _ A7)|reflexivity]| | |];
      destruct (db_step p h d db _) as [db1 o1]; (split; [exact (AL _ _ _ _ _ _ _ _ A7)|reflexivity]).
Qed.

(** What players are shown and told is what it was when the program started: two
    histories that differ only in what the disk answers get the same, step by
    step, from everything but the file services. *)
Theorem C97_lists_are_a_snapshot : forall e p h d s is is', Forall2 same_but_for_disk is is' ->
  forall k i, nth_error is k = Some i ->
    ~ for_file_service (fst (sys_run e p h d (firstn k is) s)) i ->
    nth k (snd (sys_run e p h d is' s)) [] = nth k (snd (sys_run e p h d is s)) [].
Proof.
  intros e p h d s is is' F.
  assert (G : forall s s', alike s s' -> forall k i, nth_error is k = Some i ->
    ~ for_file_service (fst (sys_run e p h d (firstn k is) s)) i ->
    nth k (snd (sys_run e p h d is' s')) [] = nth k (snd (sys_run e p h d is s)) []).
  { clear s. induction F as [|i i' is is' B F IH]; intros s s' A k x Hk N; [destruct k; discriminate|].
    destruct (alike_step e p h d i i' s s' A B) as [A' O]. cbn [sys_run].
    destruct (sys_step e p h d i s) as [s1 o1] eqn:E1, (sys_step e p h d i' s') as [s2 o2]. cbn [fst snd] in *.
    destruct k as [|k].
    - injection Hk as ->. cbn [firstn sys_run fst] in N. specialize (O N).
      destruct (sys_run e p h d is s1), (sys_run e p h d is' s2). exact O.
    - cbn [firstn sys_run] in N. rewrite E1 in N. specialize (IH s1 s2 A' k x Hk).
      destruct (sys_run e p h d (firstn k is) s1) as [s3 o3]. cbn [fst] in *. specialize (IH N).
      destruct (sys_run e p h d is s1), (sys_run e p h d is' s2). exact IH. }
  apply G. repeat split. intros port. left. reflexivity.
Qed.
Print Assumptions C97_lists_are_a_snapshot.

(** ** Loading *)

(** What a player loads is current: each piece it reads is that piece of what the
    file holds at that moment, with zeros past its end. *)
Theorem C97_pieces_are_current : forall p h root rname tree l d q t path size rnames before walk reads ino f contents cnt
    mp db start j run_on port,
  indexed_folder p h root rname tree l d -> short_page l (TrackMountInfo t) -> asking_ok p h d q -> str_ok path ->
  gives_path p h d q t path size -> root = absolute rnames -> Forall component rnames ->
  goes_well Little before -> position before = [47] -> looks_up path walk ->
  let s := fst (sys_run Little p h d start (system_start true true mp db)) in
  let s' := fst (sys_step Little p h d (SysMapper j) s) in
  let outs := snd (sys_run Little p h d run_on s') in
  starts (snd (sys_step Little p h d (SysMapper j) s)) NfsService port ->
  process_runs (start ++ SysMapper j :: run_on) ->
  (forall os v, In os outs -> ~ starts os v port) ->
  udp_inputs port run_on = map fst (before ++ walk ++ reads) ->
  exists names sc, music root rname tree names sc /\ s_size sc = size /\ below root names = utf8_encode path /\
  (on_disk (rnames ++ names) walk ino f ->
   reads_pieces (handle_for ino) cnt reads -> has_contents f contents reads -> cnt <= 65404 ->
   exists earlier got,
     udp_outputs port (List.concat outs) = earlier ++ map snd got /\
     Forall2 (fun x g => data_reply x (fst g) (snd g)) reads got /\
     forall k g c, nth_error got k = Some g -> nth_error contents k = Some c ->
       range_with_zeros c (cnt * N.of_nat k) cnt (fst g)).
Proof.
  intros p h root rname tree l d q t path size rnames before walk reads ino f contents cnt mp db start j run_on port
    Ix Sh Q Sp G Er Cr W P0 Lk s s' outs S R Ns U.
  destruct (load_each p h root rname tree l d q t path size rnames before walk reads ino f contents cnt Ix Sh Q Sp G Er Cr W P0 Lk)
    as (names & sc & Mu & Ez & Eb & H).
  exists names, sc. split; [exact Mu|]. split; [exact Ez|]. split; [exact Eb|]. intros Od Rp Hc Le.
  destruct (H Od Rp Hc Le) as (found & got & O & _ & _ & F & D).
  exists (List.concat (snd (served Little before)) ++ found), got. split; [|split; [exact F|exact D]].
  unfold outs, s', s. rewrite (C63_nfs_service_alone Little p h d mp db start j run_on port S R Ns).
  rewrite U. fold (served Little (before ++ walk ++ reads)). rewrite O, !concat_app, <- app_assoc. f_equal.
  assert (C : forall A (l : list A), List.concat (map (fun o => [o]) l) = l).
  { clear. intros A l. induction l as [|a l IH]; [reflexivity|]. cbn [map List.concat app]. congruence. }
  rewrite C. f_equal. rewrite <- (map_map snd (fun o => [o])). apply C.
Qed.
Print Assumptions C97_pieces_are_current.

(** The first [n] bytes of pieces read one after the other. *)
Lemma sized_join : forall content cnt datas off n,
  (forall k data, nth_error datas k = Some data -> range_with_zeros content (off + cnt * N.of_nat k) cnt data) ->
  n <= cnt * len datas -> range_with_zeros content off n (firstn (N.to_nat n) (List.concat datas)).
Proof.
  intros content cnt datas. induction datas as [|data datas IH]; intros off n H L.
  - unfold len in L. cbn [List.length] in L. assert (n = 0) by lia. subst n. split; [reflexivity|intros j J; lia].
  - cbn [List.concat]. destruct (H 0%nat data eq_refl) as [Ld Hd]. rewrite N.mul_0_r, N.add_0_r in Hd.
    specialize (IH (off + cnt) (n - cnt)). destruct IH as [Lr Hr].
    { intros k d' Hk. specialize (H (S k) d' Hk). replace (off + cnt + cnt * N.of_nat k) with (off + cnt * N.of_nat (S k)) by lia. exact H. }
    { unfold len in *. cbn [List.length] in L. lia. }
    rewrite firstn_app. replace (N.to_nat n - List.length data)%nat with (N.to_nat (n - cnt)) by (unfold len in *; lia). split.
    + unfold len in *. rewrite app_length, firstn_length. lia.
    + intros j J. destruct (N.ltb_spec j cnt) as [C|C].
      * rewrite app_nth1 by (rewrite firstn_length; unfold len in *; lia). rewrite nth_firstn_less by lia. apply Hd. exact C.
      * rewrite app_nth2 by (rewrite firstn_length; unfold len in *; lia).
        replace (N.to_nat j - List.length (firstn (N.to_nat n) data))%nat with (N.to_nat (j - cnt))
          by (rewrite firstn_length; unfold len in *; lia).
        rewrite Hr by lia. replace (off + cnt + (j - cnt)) with (off + j) by lia. reflexivity.
Qed.
Lemma zeros_cut : forall content n data, range_with_zeros content 0 n data ->
  data = firstn (N.to_nat n) content ++ repeat 0 (N.to_nat (n - len content)).
Proof.
  intros content n data [L H]. apply (nth_ext _ _ 0 0).
  - rewrite app_length, firstn_length, repeat_length. unfold len in *. lia.
  - intros k K. specialize (H (N.of_nat k)). rewrite Nat2N.id in H. rewrite H by (unfold len in *; lia). rewrite N.add_0_l, Nat2N.id.
    destruct (N.ltb_spec (N.of_nat k) (len content)) as [C|C].
    + rewrite app_nth1 by (rewrite firstn_length; unfold len in *; lia). rewrite nth_firstn_less by (unfold len in *; lia). reflexivity.
    + rewrite app_nth2 by (rewrite firstn_length; unfold len in *; lia). symmetry. apply nth_repeat.
Qed.

(** A player reads as many bytes as it was told the file has. It gets the file if
    it still has that size, its first part if it has grown, and the file followed
    by zeros if it has shrunk. *)
Theorem C97_loaded : forall p h root rname tree l d q t path size rnames before walk reads ino f content cnt,
  indexed_folder p h root rname tree l d -> short_page l (TrackMountInfo t) -> asking_ok p h d q -> str_ok path ->
  gives_path p h d q t path size -> root = absolute rnames -> Forall component rnames ->
  goes_well Little before -> position before = [47] -> looks_up path walk ->
  exists names s, music root rname tree names s /\ s_size s = size /\ below root names = utf8_encode path /\
  (on_disk (rnames ++ names) walk ino f ->
   reads_pieces (handle_for ino) cnt reads -> has_content f content reads ->
   cnt <= 65404 -> size <= cnt * len reads ->
   exists earlier got,
     List.concat (snd (served Little (before ++ walk ++ reads))) = earlier ++ map snd got /\
     Forall2 (fun x g => data_reply x (fst g) (snd g)) reads got /\
     let data := firstn (N.to_nat size) (List.concat (map fst got)) in
     range_with_zeros content 0 size data /\
     (data = content <-> len content = size) /\
     (size <= len content -> data = firstn (N.to_nat size) content) /\
     (len content <= size -> data = content ++ repeat 0 (N.to_nat (size - len content)))).
Proof.
  intros p h root rname tree l d q t path size rnames before walk reads ino f content cnt Ix Sh Q Sp G Er Cr W P0 Lk.
  destruct (load_each p h root rname tree l d q t path size rnames before walk reads ino f
              (repeat content (List.length reads)) cnt Ix Sh Q Sp G Er Cr W P0 Lk)
    as (names & s & Mu & Ez & Eb & H).
  exists names, s. split; [exact Mu|]. split; [exact Ez|]. split; [exact Eb|]. intros Od Rp Hc Le Lr.
  destruct (H Od Rp (same_contents _ _ _ Hc) Le) as (found & got & O & La & Lf & F & Rg).
  exists (List.concat (snd (served Little before)) ++ found), got. split.
  { rewrite O, !concat_app, <- app_assoc. f_equal.
    assert (C : forall A (l : list A), List.concat (map (fun o => [o]) l) = l).
    { clear. intros A l. induction l as [|a l IH]; [reflexivity|]. cbn [map List.concat app]. congruence. }
    rewrite C. f_equal. rewrite <- (map_map snd (fun o => [o])). apply C. }
  split; [exact F|]. intros data.
  assert (Lg : List.length got = List.length reads) by (clear -F; induction F; cbn [List.length]; congruence).
  assert (R : range_with_zeros content 0 size data).
  { apply (sized_join content cnt (map fst got) 0 size).
    - intros k x Hk. rewrite N.add_0_l. rewrite nth_error_map in Hk. destruct (nth_error got k) as [g|] eqn:Eg; [|discriminate].
      injection Hk as <-. apply (Rg k g content Eg). rewrite nth_error_repeat; [reflexivity|].
      rewrite <- Lg. apply nth_error_Some. congruence.
    - unfold len in *. rewrite map_length, Lg. lia. }
  pose proof (zeros_cut content size data R) as Z.
  assert (S1 : size <= len content -> data = firstn (N.to_nat size) content).
  { intros B. rewrite Z. replace (size - len content) with 0 by lia. apply app_nil_r. }
  assert (S2 : len content <= size -> data = content ++ repeat 0 (N.to_nat (size - len content))).
  { intros B. rewrite Z, firstn_all2 by (unfold len in *; lia). reflexivity. }
  split; [exact R|]. split; [|split; [exact S1|exact S2]]. split.
  - intros E. destruct R as [L _]. rewrite E in L. exact L.
  - intros E. rewrite S1 by lia. apply firstn_all2. unfold len in *. lia.
Qed.
Print Assumptions C97_loaded.

(** So a file of 4 GiB or more is cut, also when it has not changed. *)
Theorem C97_large_file : forall p h root rname tree l d q t path size rnames before walk reads ino f content cnt,
  indexed_folder p h root rname tree l d -> short_page l (TrackMountInfo t) -> asking_ok p h d q -> str_ok path ->
  gives_path p h d q t path size -> root = absolute rnames -> Forall component rnames ->
  goes_well Little before -> position before = [47] -> looks_up path walk ->
  exists names fi, In (names, fi) (all_files tree) /\ below root names = utf8_encode path /\
  (on_disk (rnames ++ names) walk ino f ->
   reads_pieces (handle_for ino) cnt reads -> has_content f content reads ->
   fi_size fi = Some (len content) -> 2 ^ 32 <= len content ->
   cnt <= 65404 -> size <= cnt * len reads ->
   exists earlier got,
     List.concat (snd (served Little (before ++ walk ++ reads))) = earlier ++ map snd got /\
     Forall2 (fun x g => data_reply x (fst g) (snd g)) reads got /\
     firstn (N.to_nat size) (List.concat (map fst got)) = firstn (N.to_nat (len content mod 2 ^ 32)) content /\
     firstn (N.to_nat size) (List.concat (map fst got)) <> content).
Proof.
  intros p h root rname tree l d q t path size rnames before walk reads ino f content cnt Ix Sh Q Sp G Er Cr W P0 Lk.
  destruct (C97_loaded p h root rname tree l d q t path size rnames before walk reads ino f content cnt Ix Sh Q Sp G Er Cr W P0 Lk)
    as (names & s & Mu & Ez & Eb & H).
  destruct Mu as (fi & If & _ & _ & (z & Fz & Sz & _)). exists names, fi. split; [exact If|]. split; [exact Eb|].
  intros Od Rp Hc Fs Big Le Lr. rewrite Fs in Fz. injection Fz as <-.
  assert (Em : size = len content mod 2 ^ 32) by congruence.
  assert (Lt : size < 2 ^ 32) by (rewrite Em; apply N.mod_lt; discriminate).
  destruct (H Od Rp Hc Le Lr) as (earlier & got & O & F & R & E & S1 & _). exists earlier, got.
  split; [exact O|]. split; [exact F|]. split; [rewrite S1 by lia; rewrite Em; reflexivity|].
  intros X. apply E in X. lia.
Qed.
Print Assumptions C97_large_file.

(** ** A file that is gone *)

Lemma last_is_nth : forall A (l : list A) d k, List.length l = S k -> nth k l d = last l d.
Proof.
  intros A l d. induction l as [|a l IH]; intros k L; [discriminate|]. injection L as L.
  destruct k as [|k]; [destruct l; [reflexivity|discriminate]|]. cbn [nth]. rewrite (IH k L). destruct l; [discriminate|reflexivity].
Qed.
Lemma unanswered_snoc : forall e hs x xid p, goes_well e hs ->
  bytes_ok (ni_datagram (fst x)) -> hears (ni_datagram (fst x)) (snd x) -> snd x = Asked xid p ->
  ni_send (fst x) = true ->
  (forall a, call_outcome e hs (ni_os (fst x)) p a -> a = NoAnswer) ->
  goes_well e (hs ++ [x]) /\ nth (List.length hs) (snd (served e (hs ++ [x]))) [] = [].
Proof.
  intros e hs x xid p W B Hh Hx Se O.
  assert (W' : goes_well e (hs ++ [x])).
  { destruct W as [A [K S]]. split; [apply history_snoc; repeat split; assumption|].
    split; [apply never_snoc; split; [exact K|]|apply sends_snoc; split; [exact S|split; [exact Se|]]].
    - unfold kills. rewrite Hx. intros D. discriminate (O _ D).
    - intros to d R. destruct (replies_result _ _ _ _ _ _ _ Hx R) as [r [C _]]. discriminate (O _ C). }
  split; [exact W'|]. destruct (firstn_snoc_eq _ hs x) as [F E].
  destruct (C51_history e (hs ++ [x]) _ x W' E) as (d & R & N). rewrite F in R.
  unfold replies in R. rewrite Hx in R. destruct R as [[r [C _]]|[_ ->]]; [discriminate (O _ C)|exact N].
Qed.

(** A track whose file is gone is still shown with its path. The lookup of the file
    is not answered, and the next load starts from a service as good as new. *)
Theorem C97_removed : forall p h root rname tree l d q t path size rnames before walk,
  indexed_folder p h root rname tree l d -> short_page l (TrackMountInfo t) -> asking_ok p h d q -> str_ok path ->
  gives_path p h d q t path size -> root = absolute rnames -> Forall component rnames ->
  goes_well Little before -> position before = [47] -> looks_up path walk ->
  exists names s, music root rname tree names s /\ s_size s = size /\ below root names = utf8_encode path /\
  (file_gone (rnames ++ names) walk ->
   goes_well Little (before ++ walk) /\ position (before ++ walk) = [47] /\
   last (snd (served Little (before ++ walk))) [] = []).
Proof.
  intros p h root rname tree l d q t path size rnames before walk Ix Sh Q Sp G Er Cr W P0 Lk.
  destruct (C67_path_parts p h root rname tree l d q t path size rnames Ix Sh Q Sp G Er Cr)
    as (cs & Pc & Pu & Nc & names & s & Mu & Ez & Mc).
  exists names, s. split; [exact Mu|]. split; [exact Ez|]. split.
  { destruct Pc as [Ep _]. rewrite Ep, utf8_parts, Mc. unfold below. rewrite Er. unfold absolute. rewrite flat_map_app. reflexivity. }
  intros Go. destruct Lk as (cs' & Pc' & F2). rewrite (Pu _ Pc') in F2. pose proof (walks_of _ _ F2) as Wk. rewrite Mc in Wk.
  assert (Ne : rnames ++ names <> []) by (rewrite <- Mc; destruct cs; [congruence|discriminate]).
  assert (Cn : Forall component (rnames ++ names)).
  { apply Forall_app. split; [exact Cr|]. destruct Ix as (_ & Ht & _). destruct Mu as (f0 & If & _).
    eapply Forall_impl; [|exact (files_names_ok tree Ht names f0 If)]. intros n (N1 & N2 & _). split; assumption. }
  clear F2 Pc' Mc Nc Pu Pc Mu. set (ns := rnames ++ names) in *. clearbody ns.
  pose proof (walks_length _ _ Wk) as Ln.
  destruct (exists_last Ne) as (ms & n & En).
  assert (Nw : walk <> []) by (destruct walk; [destruct ns; [congruence|discriminate]|discriminate]).
  destruct (exists_last Nw) as (w0 & x & Ew).
  assert (L0 : List.length w0 = List.length ms) by (rewrite Ew, En, !app_length in Ln; cbn [List.length] in Ln; lia).
  assert (Wx : walks ms w0 /\ bytes_ok (ni_datagram (fst x)) /\ hears (ni_datagram (fst x)) (snd x) /\ ni_send (fst x) = true /\
    exists xid h, snd x = Asked xid (NfsLookup (mkLookup n h))).
  { unfold walks in Wk. rewrite Ew, En in Wk. apply Forall2_app_inv_l in Wk. destruct Wk as (a & b & Fa & Fb & E).
    inversion Fb as [|? y ? b' K Fb']; subst. inversion Fb'; subst. apply app_inj_tail in E. destruct E as [-> ->]. split; assumption. }
  destruct Wx as (Wa & Bx & Hx & Sx & xid & hd & Ax).
  set (m0 := demo_meta false 0 0).
  set (o' := mkOs (fun _ => Some m0) (fun _ => Some 0) (fun _ => None) (fun _ => None)).
  set (x' := (mkNfsIn (ni_datagram (fst x)) (ni_from (fst x)) o' (ni_resend (fst x)) (ni_send (fst x)), snd x)).
  destruct (walk_prefix Little before ns (w0 ++ [x']) W P0 Cn) with (k := List.length ms) as (W1 & P1 & _).
  { rewrite En. apply Forall2_app; [exact Wa|]. constructor; [|constructor]. cbn [x' fst snd ni_datagram ni_send]. eauto 10. }
  { intros j y Hj. destruct (Nat.eq_dec j (List.length w0)) as [->|D].
    - rewrite nth_error_app2, Nat.sub_diag in Hj by lia. injection Hj as <-. exists m0, 0. split; [reflexivity|]. split; [reflexivity|].
      split; [repeat split; discriminate|]. symmetry. apply Nat.eqb_eq. rewrite En, app_length. cbn [List.length]. lia.
    - assert (J : (j < List.length w0)%nat).
      { assert (j < List.length (w0 ++ [x']))%nat by (apply nth_error_Some; congruence). rewrite app_length in H. cbn [List.length] in H. lia. }
      rewrite nth_error_app1 in Hj by exact J. specialize (Go j y). rewrite Ew, nth_error_app1 in Go by exact J. specialize (Go Hj).
      destruct (Nat.eqb_spec (j + 1) (List.length ns)) as [E|_]; [rewrite En, app_length in E; cbn [List.length] in E; lia|].
      destruct Go as (m & f & S1 & S2 & S3 & S4). exists m, f. auto. }
  { rewrite En, app_length. lia. }
  rewrite <- L0 in W1, P1. rewrite firstn_app, Nat.sub_diag, firstn_all in W1, P1. cbn [firstn] in W1, P1. rewrite app_nil_r in W1, P1.
  assert (Gx : os_stat (ni_os (fst x)) (absolute ns) = None).
  { specialize (Go (List.length w0) x). rewrite Ew, nth_error_app2, Nat.sub_diag in Go by lia. specialize (Go eq_refl).
    replace (List.length w0 + 1 =? List.length ns)%nat with true in Go; [exact Go|]. symmetry. apply Nat.eqb_eq.
    rewrite En, app_length. cbn [List.length]. lia. }
  assert (Re : resolve (position (before ++ w0)) n = absolute ns).
  { rewrite En in Cn. apply Forall_app in Cn. destruct Cn as [C1 C2]. apply Forall_inv in C2.
    rewrite En, <- (resolve_component _ _ C1 C2), P1, L0. f_equal.
    replace (List.length ms =? List.length ns)%nat with false
      by (symmetry; apply Nat.eqb_neq; rewrite En, app_length; cbn [List.length]; lia).
    destruct ms as [|m1 ms]; [reflexivity|]. cbn [List.length Nat.eqb orb]. rewrite En. cbn [app firstn].
    rewrite firstn_app, Nat.sub_diag, firstn_all. cbn [firstn]. rewrite app_nil_r. reflexivity. }
  destruct (unanswered_snoc Little (before ++ w0) x xid _ W1 Bx Hx Ax Sx) as (W2 & O2).
  { intros a C. cbn [call_outcome lk_filename] in C. rewrite Re in C. unfold lookup_outcome in C. rewrite Gx in C. exact C. }
  rewrite Ew, app_assoc. split; [exact W2|]. split.
  - rewrite position_snoc, Ax. cbn [lk_filename]. unfold walk_to. rewrite Re, Gx. reflexivity.
  - rewrite <- (last_is_nth _ (snd (served Little ((before ++ w0) ++ [x]))) [] (List.length (before ++ w0))); [exact O2|].
    unfold served. rewrite run_length, map_length, app_length. cbn [List.length]. lia.
Qed.
Print Assumptions C97_removed.

(** ** Examples *)

(** The example folder on a disk where the file is rewritten between two reads. *)
Definition rewritten_os : os :=
  mkOs (os_stat example_os) (os_open example_os)
       (fun f => if f =? 50 then Some [8; 9; 10; 11; 12; 13; 14] else None) (os_fstat example_os).
Definition torn_reads : history := [demo_read example_os 5 (handle_for 5) 0 4; demo_read rewritten_os 6 (handle_for 5) 4 4].

(** So the bytes of one load need not be any version of the file. *)
Theorem C97_one_version_refuted : exists (before walk reads : history) ino (f : fid) (contents : list bytes) (cnt : N) path names (got : list (bytes * (peer * bytes))),
  goes_well Little before /\ position before = [47] /\ looks_up path walk /\ on_disk names walk ino f /\
  reads_pieces (handle_for ino) cnt reads /\ has_contents f contents reads /\
  Forall (fun c => len c = 7) contents /\
  skipn (List.length (before ++ walk)) (snd (served Little (before ++ walk ++ reads))) = map (fun g => [snd g]) got /\
  Forall2 (fun x g => data_reply x (fst g) (snd g)) reads got /\
  ~ In (firstn 7 (List.concat (map fst got))) contents.
Proof.
  destruct C67_case as (Lk & Od & _ & _ & _ & W).
  set (out := snd (served Little ([] ++ example_walk ++ torn_reads))).
  exists [], example_walk, torn_reads, 5, 50, [[1; 2; 3; 4; 5; 6; 7]; [8; 9; 10; 11; 12; 13; 14]], 4,
    (lit "/home/TermDJ/sub/five.old.mp3"), ([lit "home"; lit "TermDJ"] ++ [lit "sub"; lit "five.old.mp3"]),
    [([1; 2; 3; 4], hd (0, []) (nth 4 out [])); ([12; 13; 14; 0], hd (0, []) (nth 5 out []))].
  split; [exact W|]. split; [reflexivity|]. split; [exact Lk|]. split; [exact Od|]. split.
  { intros [|[|k]] x Hx; try (destruct k; discriminate); injection Hx as <-; exists 0; apply demo_asks; try reflexivity;
      constructor; reflexivity. }
  split; [repeat constructor; exists (demo_meta false 5 7); repeat split; discriminate|].
  split; [repeat constructor|]. split; [vm_compute; reflexivity|]. split.
  - repeat constructor; do 2 eexists.
    + exists (firstn 68 (skipn 28 (snd (hd (0, []) (nth 4 out []))))). split; [reflexivity|]. split; vm_compute; reflexivity.
    + exists (firstn 68 (skipn 28 (snd (hd (0, []) (nth 5 out []))))). split; [reflexivity|]. split; vm_compute; reflexivity.
  - vm_compute. intros [E|[E|[]]]; discriminate E.
Qed.
Print Assumptions C97_one_version_refuted.

(** A library of the example folder, and its file gone from the disk. *)
Definition gone_os : os :=
  mkOs (fun p => if list_eq_dec N.eq_dec p (lit "/home/TermDJ/sub/five.old.mp3") then None else os_stat example_os p)
       (os_open example_os) (os_content example_os) (os_fstat example_os).
Definition gone_walk : history :=
  [demo_lookup gone_os 1 (lit "home") (repeat 0 32); demo_lookup gone_os 2 (lit "TermDJ") (repeat 0 32);
   demo_lookup gone_os 3 (lit "sub") (repeat 0 32); demo_lookup gone_os 4 (lit "five.old.mp3") (repeat 0 32)].

Example C97_case :
  Forall2 same_but_for_disk (map (fun x => SysUdp 4001 (fst x)) example_walk) (map (fun x => SysUdp 4001 (fst x)) gone_walk) /\
  looks_up (lit "/home/TermDJ/sub/five.old.mp3") gone_walk /\
  file_gone ([lit "home"; lit "TermDJ"] ++ [lit "sub"; lit "five.old.mp3"]) gone_walk /\
  map (@List.length _) (snd (served Little gone_walk)) = [1; 1; 1; 0]%nat /\
  has_contents 50 [[1; 2; 3; 4; 5; 6; 7]; [8; 9; 10; 11; 12; 13; 14]] torn_reads /\
  (exists t, gives_path Checked reverse_order example_found_db fresh_asking t (lit "/home/TermDJ/sub/five.old.mp3") 7).
Proof.
  split; [|split; [|split; [|split; [|split]]]].
  - repeat (apply Forall2_cons; [right; do 3 eexists; split; reflexivity|]). constructor.
  - exists [lit "home"; lit "TermDJ"; lit "sub"; lit "five.old.mp3"]. split; [split; [reflexivity|]|].
    + repeat constructor; try discriminate; vm_compute; intuition discriminate.
    + repeat constructor; exists (repeat 0 32); apply demo_asks; try reflexivity; constructor; try reflexivity; apply ascii_ok; reflexivity.
  - intros [|[|[|[|j]]]] x Hx; try (destruct j; discriminate); injection Hx as <-; cbn [List.length app Nat.eqb Nat.add];
      try (vm_compute; reflexivity);
      do 2 eexists; (split; [vm_compute; reflexivity|]); (split; [vm_compute; reflexivity|]); (split; [repeat split; discriminate|reflexivity]).
  - vm_compute. reflexivity.
  - repeat constructor; exists (demo_meta false 5 7); repeat split; discriminate.
  - destruct C66_case as (_ & _ & a & t & _ & _ & G). exists t. exact G.
Qed.

(** The other file of that folder had 2^32 + 5 bytes: the size players are told is 5. *)
Definition big_os (content : bytes) : os :=
  let file p := if list_eq_dec N.eq_dec p (lit "/home") then Some (demo_meta true 2 4096, 20)
           else if list_eq_dec N.eq_dec p (lit "/home/TermDJ") then Some (demo_meta true 3 4096, 30)
           else if list_eq_dec N.eq_dec p (lit "/home/TermDJ/one.mp3") then Some (demo_meta false 6 4294967301, 60)
           else None in
  mkOs (fun p => option_map fst (file p)) (fun p => option_map snd (file p))
       (fun f => if f =? 60 then Some content else None)
       (fun f => if f =? 60 then Some (demo_meta false 6 4294967301) else None).
Definition big_walk (content : bytes) : history :=
  [demo_lookup (big_os content) 1 (lit "home") (repeat 0 32); demo_lookup (big_os content) 2 (lit "TermDJ") (repeat 0 32);
   demo_lookup (big_os content) 3 (lit "one.mp3") (repeat 0 32)].

Example C97_case_large : exists content t,
  fi_size (example_v2 "128") = Some (len content) /\ 2 ^ 32 <= len content /\
  In ([lit "one.mp3"], example_v2 "128") (all_files example_tree) /\
  gives_path Checked reverse_order example_found_db fresh_asking t (lit "/home/TermDJ/one.mp3") 5 /\
  looks_up (lit "/home/TermDJ/one.mp3") (big_walk content) /\
  on_disk ([lit "home"; lit "TermDJ"] ++ [lit "one.mp3"]) (big_walk content) 6 60 /\
  let reads := [demo_read (big_os content) 5 (handle_for 6) 0 5] in
  reads_pieces (handle_for 6) 5 reads /\ has_content 60 content reads.
Proof.
  assert (C : exists content : bytes, len content = 4294967301).
  { exists (repeat 1 (N.to_nat 4294967301)). unfold len. rewrite repeat_length. apply N2Nat.id. }
  destruct C as [content Lc].
  assert (Q : asking_ok Checked reverse_order example_found_db fresh_asking) by apply C66_case.
  assert (G : exists a t, lists_artist Checked reverse_order example_found_db fresh_asking a (lit "Artist") /\
    lists_track Checked reverse_order example_found_db fresh_asking a t [] /\
    gives_path Checked reverse_order example_found_db fresh_asking t (lit "/home/TermDJ/one.mp3") 5).
  { apply (C66_browsing _ _ _ _ _ _ _ _ _ _ _ _ _ _ example_indexed
      (short_scan_page _ ArtistMenu example_short) (short_scan_tracks _ _ example_short) Q Q Q);
      try (apply ascii_ok; reflexivity).
    exists [lit "one.mp3"], (nth 0 example_found (mkScanned [] [] None [] [] 0)).
    split; [|repeat split; vm_compute; reflexivity].
    exists (example_v2 "128"). split; [vm_compute; auto 10|]. split; [|split].
    + intros n I (r & _ & E). cbn [In] in I. rewrite utf8_encode_app in E. destruct I as [<-|[<-|[]]]; discriminate.
    + exists (lit "one"). split; [discriminate|reflexivity].
    + exists 4294967301. repeat split. left. eexists. split; [reflexivity|]. repeat split. left.
      exists (lit "128"), 128. split; [eexists; split; reflexivity|]. split; [|reflexivity].
      exists (lit "128"). split; [discriminate|]. split.
      { intros c I. vm_compute in I. repeat (destruct I as [<-|I]; [lia|]). destruct I. }
      split; [left; reflexivity|]. split; reflexivity. }
  destruct G as (a & t & _ & _ & G). exists content, t. rewrite Lc. split; [reflexivity|]. split; [discriminate|].
  split; [vm_compute; auto 10|]. split; [exact G|]. split; [|split; [|split]].
  - exists [lit "home"; lit "TermDJ"; lit "one.mp3"]. split; [split; [reflexivity|]|].
    + repeat constructor; try discriminate; vm_compute; intuition discriminate.
    + repeat constructor; exists (repeat 0 32); apply demo_asks; try reflexivity; constructor; try reflexivity; apply ascii_ok; reflexivity.
  - split; [reflexivity|]. intros [|[|[|j]]] x Hx; try (destruct j; discriminate); injection Hx as <-;
      do 2 eexists; (split; [vm_compute; reflexivity|]); (split; [vm_compute; reflexivity|]);
      (split; [repeat split; discriminate|]); split; try reflexivity; intros E; try discriminate E; split; reflexivity.
  - intros [|k] x Hx; try (destruct k; discriminate); injection Hx as <-; exists 0; apply demo_asks; try reflexivity;
      constructor; reflexivity.
  - repeat constructor; exists (demo_meta false 6 4294967301); repeat split; discriminate.
Qed.
