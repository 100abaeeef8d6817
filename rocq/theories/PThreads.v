(** Property theorems C68-C70: the threads of discovery and linking, action by
    action. *)

From Verif Require Import Base Unicode MPackets MKeepalive MNetwork MServer MThreads SUdp SNetwork SServer SThreads
  LServer LServer2 LThreads LThreads2 LThreads3 PServer.
From Coq Require Import Lia Arith String.
Open Scope list_scope.
Open Scope N_scope.

(** ** C68 *)

(** Whenever no thread is in the middle of its turn, the state is that of a
    history of whole turns with the same datagrams received, the same datagrams
    sent and the same events queued and taken. *)
Theorem C68_schedules_are_histories : forall acts t os, acts_typed acts ->
  schedule acts = Some (t, os) -> between_turns t ->
  exists is, inputs_typed is /\ received_in is = received_by acts /\
    agree t os (fst (run is)) (snd (run is)).
Proof.
  intros acts t os Ht H (Bk & Bb & Ba).
  assert (G : th_app t <> AppGone) by congruence.
  destruct (schedule_rel acts t os Ht H G) as (is & Hi & [R1 R2 R3 R4 R5 R6 R7 R8 R9 (ds & R10 & R11) R12]).
  exists is. split; [exact Hi|]. rewrite Ba in *. cbn [app_has took part app] in *.
  assert (Pk : pend (th_ka t) = [] /\ ds = []).
  { destruct Bk as [X|X]; rewrite X in *; auto. }
  destruct Pk as [Pk ->]. rewrite Pk, !app_nil_r in *.
  split; [symmetry; exact R10|]. unfold agree.
  split; [exact R5|]. split; [symmetry; exact R2|]. split; [symmetry; exact R6|].
  split; [rewrite R3; destruct (th_ka t); split; congruence|].
  split; [rewrite R4; destruct (th_bc t); split; congruence|].
  split; [rewrite Ba, R1; split; congruence|].
  split; [exact R7|]. split; [symmetry; exact R8|exact R9].
Qed.
Print Assumptions C68_schedules_are_histories.

(** The action that ends the main thread ends such a history as well. *)
Theorem C68_ends_are_histories : forall acts t os a t' o, acts_typed acts ->
  schedule acts = Some (t, os) -> act t a = Some (t', o) ->
  th_app t <> AppGone -> th_app t' = AppGone ->
  exists is, inputs_typed is /\ agree t' (os ++ o) (fst (run is)) (snd (run is)).
Proof.
  intros acts t os a t' o Ht H E G1 G2.
  destruct (schedule_rel acts t os Ht H G1) as (is & Hi & R).
  destruct (gone_step _ _ _ _ _ _ a t' o (schedule_locked _ _ _ H) (address_net_ok is Hi) R E G1 G2) as (ok & A).
  exists (is ++ [AppTurn ok]). split; [apply inputs_typed_app; split; [exact Hi|apply typed_other; discriminate]|].
  destruct (run_snoc is (AppTurn ok)) as [-> ->]. exact A.
Qed.
Print Assumptions C68_ends_are_histories.

(** And every history is the work of some schedule. *)
Theorem C68_histories_are_schedules : forall is, inputs_typed is ->
  exists acts t os, acts_typed acts /\ schedule acts = Some (t, os) /\
    agree t os (fst (run is)) (snd (run is)) /\
    (w_running (fst (run is)) = true ->
       between_turns t /\ (w_listening (fst (run is)) = true -> received_by acts = received_in is)).
Proof. exact history_scheduled. Qed.
Print Assumptions C68_histories_are_schedules.

Lemma hears_received : forall is hs,
  hears is hs <-> hears (map (fun d => KaDatagram d []) (received_in is)) hs.
Proof.
  assert (A : forall is hs, hears is hs -> hears (map (fun d => KaDatagram d []) (received_in is)) hs).
  { intros is hs H. induction H; cbn [received_in flat_map app map].
    - constructor.
    - apply hears_status; assumption.
    - apply hears_noise; assumption.
    - destruct i; cbn [app]; try exact IHhears. exfalso. exact (H d ifaces eq_refl). }
  intros is hs. split; [apply A|]. intros H. destruct (hears_total is) as [ks K].
  rewrite (hears_functional _ _ _ H (A is ks K)). exact K.
Qed.

(** So the players known between turns are those of the datagrams received so
    far, whatever the threads did in between. *)
Theorem C68_players_are_the_heard : forall acts t os hs, acts_typed acts ->
  schedule acts = Some (t, os) -> between_turns t -> th_ka t <> KaDead -> th_poisoned t = false ->
  hears (map (fun d => KaDatagram d []) (received_by acts)) hs ->
  players_of hs (st_players (th_state t)).
Proof.
  intros acts t os hs Ht H B Hk Hp Hh.
  destruct (C68_schedules_are_histories acts t os Ht H B) as (is & Hi & Er & (A1 & A2 & _ & A4 & _ & A6 & _)).
  rewrite <- Er in Hh. apply hears_received in Hh. rewrite A1. apply players_heard; [exact Hi|exact Hh|].
  destruct B as (_ & _ & Ba).
  split; [apply A6; congruence|]. split; [apply A4; exact Hk|congruence].
Qed.
Print Assumptions C68_players_are_the_heard.

(** A schedule in which the threads get in each other's way: the second status
    arrives while the broadcast thread has the mutex, the handshake begins while
    the keep-alive thread holds a third. *)
Definition example_acts : list action :=
  [KaReceives (status_datagram "XDJ-700" 3 192 168 10 52); BcAcquires; BcReleases; KaAcquires;
   KaLooksUp one_iface; KaQueues; AppTakes; KaQueues; AppTakes; KaReleases;
   BcAcquires; KaReceives (status_datagram "CDJ-850" 4 192 168 10 53); BcSends true; BcReleases;
   KaAcquires; KaLooksUp one_iface; KaQueues; KaQueues; KaReleases;
   AppAcquires; KaReceives (status_datagram "XDJ-1000" 2 192 168 10 52)]
  ++ repeat (AppSendsNext true) 40
  ++ [AppReleases; KaAcquires; KaLooksUp one_iface; KaReleases; BcAcquires; BcSends true; BcReleases].

Lemma example_acts_typed : acts_typed example_acts.
Proof.
  intros fs H. unfold example_acts in H. cbn [app repeat In] in H.
  repeat (destruct H as [H|H]; [try discriminate H; injection H as <-; apply one_iface_typed|]). destruct H.
Qed.

Example C68_case : acts_typed example_acts /\
  exists t os, schedule example_acts = Some (t, os) /\ between_turns t /\
    List.length (datagrams os) = 42%nat /\
    th_queue t = [DeviceChange; InitiateLink] /\
    map pl_number (st_players (th_state t)) = [2; 4].
Proof.
  split; [apply example_acts_typed|].
  eexists _, _. split; [vm_compute; reflexivity|]. split; [split; [left; reflexivity|split; [left; reflexivity|reflexivity]]|].
  vm_compute. auto.
Qed.

(** ** C69 *)

(** What has been sent consists of periodic announcements and whole handshakes,
    each on one network; only the last handshake can be unfinished: it is under
    way, or the main thread has panicked in it. *)
Theorem C69_never_torn : forall acts t os, acts_typed acts -> schedule acts = Some (t, os) ->
  exists whole rest h, datagrams os = whole ++ rest /\ traffic whole h /\
    (rest = [] \/
     exists n k, rest = map (broadcast_on n) (firstn k (handshake_bytes n)) /\
       (th_app t = AppSends n k \/ (th_app t = AppGone /\ th_poisoned t = true))).
Proof.
  intros acts t os Ht H. destruct (schedule_shape acts t os Ht H) as (whole & h & T & S).
  destruct (th_app t) as [| |n k|] eqn:Ea.
  - exists whole, [], h. rewrite app_nil_r. destruct S as [S _]. auto.
  - exists whole, [], h. rewrite app_nil_r. destruct S as [S _]. auto.
  - destruct S as [S _]. exists whole, (map (broadcast_on n) (firstn k (handshake_bytes n))), h.
    split; [exact S|]. split; [exact T|]. right. exists n, k. auto.
  - destruct S as [_ [S|(P & n & k & _ & S)]].
    + exists whole, [], h. rewrite app_nil_r. auto.
    + exists whole, (map (broadcast_on n) (firstn k (handshake_bytes n))), h.
      split; [exact S|]. split; [exact T|]. right. exists n, k. auto.
Qed.
Print Assumptions C69_never_torn.

(** One handshake for each link request taken, once it has been dealt with. *)
Theorem C69_one_per_request : forall acts t os, acts_typed acts -> schedule acts = Some (t, os) ->
  th_app t = AppIdle -> traffic (datagrams os) (links (taken [os])).
Proof.
  intros acts t os Ht H E. destruct (schedule_shape acts t os Ht H) as (whole & h & T & S).
  rewrite E in S. destruct S as [-> ->]. exact T.
Qed.
Print Assumptions C69_one_per_request.

(** After a panic within the handshake nothing more is sent, even if the other
    threads go on. *)
Theorem C69_silent_after_failure : forall acts t os acts' t' os', schedule acts = Some (t, os) ->
  th_app t = AppGone -> th_poisoned t = true ->
  schedule_from t acts' = Some (t', os') -> datagrams os' = [].
Proof.
  intros acts t os acts' t' os' H E1 E2 H'. exact (silent_from acts' t t' os' (schedule_locked _ _ _ H) E1 E2 H').
Qed.
Print Assumptions C69_silent_after_failure.

(** A socket that cannot be opened for the fifth datagram. *)
Example C69_case :
  exists acts t os, acts_typed acts /\ schedule acts = Some (t, os) /\
    th_app t = AppGone /\ th_poisoned t = true /\ List.length (datagrams os) = 5%nat /\
    exists acts' t', schedule_from t acts' = Some (t', []) /\ List.length acts' = 3%nat.
Proof.
  exists (firstn 25 example_acts ++ [AppSendsNext false]). eexists _, _.
  split; [|split; [vm_compute; reflexivity|]].
  - apply acts_typed_app; [|apply acts_typed_others; intros fs [X|[]]; discriminate].
    intros fs Hin. apply example_acts_typed. rewrite <- (firstn_skipn 25 example_acts). apply in_or_app. auto.
  - split; [reflexivity|]. split; [reflexivity|]. split; [vm_compute; reflexivity|].
    exists [BcAcquires; KaAcquires; KaFails]. eexists. split; [vm_compute; reflexivity|reflexivity].
Qed.

(** ** C70 *)

(** The shared state is used by one thread at a time. *)
Theorem C70_one_at_a_time : forall acts t os w w', schedule acts = Some (t, os) ->
  inside t w -> inside t w' -> w = w'.
Proof.
  intros acts t os w w' H I1 I2. pose proof (schedule_locked _ _ _ H) as L.
  apply (inside_locked t w L) in I1. apply (inside_locked t w' L) in I2. congruence.
Qed.
Print Assumptions C70_one_at_a_time.

(** Every thread with work to do can go on, or waits for one that can. *)
Theorem C70_no_deadlock : forall acts t os w, acts_typed acts -> schedule acts = Some (t, os) ->
  has_work t w -> can_act t w \/ exists w', inside t w' /\ can_act t w'.
Proof.
  intros acts t os w Ht H W. pose proof (schedule_locked _ _ _ H) as L. pose proof (schedule_good _ _ _ Ht H) as G.
  destruct (th_lock t) as [w'|] eqn:E.
  - right. exists w'. split; [apply inside_locked; assumption|apply holder_acts; assumption].
  - left. apply free_acts; assumption.
Qed.
Print Assumptions C70_no_deadlock.

(** A thread that uses the state lets go of it within 41 of its own actions; then
    nobody uses it, and whoever waits can have it. *)
Theorem C70_lets_go : forall acts t os w acts' t' os', acts_typed (acts ++ acts') ->
  schedule acts = Some (t, os) -> inside t w ->
  schedule_from t acts' = Some (t', os') -> (41 <= actions_of w acts')%nat ->
  exists acts1 acts2 t1 os1, acts' = acts1 ++ acts2 /\ schedule_from t acts1 = Some (t1, os1) /\
    (forall w', ~ inside t1 w') /\ (forall w', has_work t1 w' -> can_act t1 w').
Proof.
  intros acts t os w acts' t' os' Ht H I H' Hn.
  assert (T1 : acts_typed acts) by (intros fs Hin; apply Ht; apply in_or_app; auto).
  assert (T2 : acts_typed acts') by (intros fs Hin; apply Ht; apply in_or_app; auto).
  pose proof (schedule_locked _ _ _ H) as L. pose proof (schedule_good _ _ _ T1 H) as G.
  apply (inside_locked t w L) in I.
  pose proof (left_bound t G (schedule_posts _ _ _ H)) as B.
  destruct (released acts' t t' os' w L G T2 I H') as (acts1 & acts2 & t1 & os1 & E & S & N); [lia|].
  exists acts1, acts2, t1, os1. split; [exact E|]. split; [exact S|].
  pose proof (schedule_locked _ _ _ (schedule_from_app _ _ _ _ _ _ _ H S)) as L1. split.
  - intros w' X. apply (inside_locked t1 w' L1) in X. congruence.
  - intros w' W. exact (free_acts t1 w' L1 N W).
Qed.
Print Assumptions C70_lets_go.

(** But it is not guaranteed which thread gets it: a status announcement can wait
    for any number of turns of the broadcast thread. *)
Theorem C70_fairness_refuted : forall n,
  exists acts t os acts' t' os', schedule acts = Some (t, os) /\ schedule_from t acts' = Some (t', os') /\
    has_work t KaThread /\ th_ka t' = th_ka t /\ actions_of BcThread acts' = (2 * n)%nat /\
    actions_of KaThread acts' = 0%nat.
Proof.
  intros n. exists [KaReceives (status_datagram "XDJ-700" 3 192 168 10 52)]. eexists _, _.
  exists (List.concat (repeat [BcAcquires; BcReleases] n)). eexists _, _. split; [vm_compute; reflexivity|].
  assert (S : forall t m, th_lock t = None -> th_poisoned t = false -> th_bc t = BcIdle -> st_address (th_state t) = None ->
    schedule_from t (List.concat (repeat [BcAcquires; BcReleases] m)) = Some (t, [])).
  { intros t m E1 E2 E3 E4. induction m as [|m IH]; [reflexivity|].
    cbn [repeat List.concat app schedule_from act]. unfold bc_acquires. rewrite E1, E2, E3. unfold bc_releases. thr.
    rewrite E4. assert (X : bc_to (lock_to (bc_to (lock_to t (Some BcThread)) BcLocked) None) BcIdle = t)
      by (destruct t; thr; subst; reflexivity).
    rewrite X, IH. reflexivity. }
  split; [apply S; reflexivity|]. split; [split; discriminate|]. split; [reflexivity|].
  unfold actions_of. split; induction n as [|n IH]; cbn [repeat List.concat app filter thread_of List.length]; try reflexivity; [rewrite IH; lia|exact IH].
Qed.
Print Assumptions C70_fairness_refuted.

(** The keep-alive thread waits while the main thread sends its handshake. *)
Example C70_case :
  exists t os, schedule (firstn 25 example_acts) = Some (t, os) /\
    inside t AppThread /\ has_work t KaThread /\ has_work t BcThread /\
    act t KaAcquires = None /\ act t BcAcquires = None /\ can_act t AppThread.
Proof.
  eexists _, _. split; [vm_compute; reflexivity|]. split; [eexists _, _; reflexivity|].
  split; [split; discriminate|]. split; [discriminate|]. split; [reflexivity|]. split; [reflexivity|].
  exists (AppSendsNext true). split; [reflexivity|vm_compute; discriminate].
Qed.

(** From its first datagram on the main thread has 41 actions to do, and then nobody
    uses the state. *)
Example C70_case_lets_go :
  exists t os t' os', schedule (firstn 20 example_acts) = Some (t, os) /\ inside t AppThread /\
    schedule_from t (skipn 20 example_acts) = Some (t', os') /\
    actions_of AppThread (skipn 20 example_acts) = 41%nat /\
    acts_typed (firstn 20 example_acts ++ skipn 20 example_acts).
Proof.
  eexists _, _, _, _. split; [vm_compute; reflexivity|]. split; [eexists _, _; reflexivity|].
  split; [vm_compute; reflexivity|]. split; [vm_compute; reflexivity|]. rewrite firstn_skipn. exact example_acts_typed.
Qed.
