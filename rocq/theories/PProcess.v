(** Property theorems C77 and C78: the process as a whole, action by action. *)

From Verif Require Import Base Unicode MPackets MKeepalive MNetwork MServer MThreads MStatus MDb MDatabase MLib
  MRpc MRpcServer MNfs MSystem MProcess SNetwork SServer SThreads SUdp SRpc SRpcServer SSystem SProcess
  LBase LServer LServer2 LRpc LRpc2 LRpcServer LSystem LThreads LThreads2 LThreads3 LProcess
  PServer PRpcServer PDatabase PLib PNfs PSystem PThreads.
From Coq Require Import ZArith String Lia.
Open Scope list_scope.
Open Scope N_scope.

(** ** C77 *)

(** Whatever the threads and the services do at the same time, when no thread is
    in the middle of its turn everything is as after some history of whole turns:
    the same happened at the services, each of them sent the same at once, and
    they are in the same state; the threads received, sent, queued and took the
    same, and the shared state is the same. *)
Theorem C77_schedules_are_histories : forall e p h d mp db acts x outs,
  acts_typed (thread_acts acts) ->
  proc_run e p h d (process_start mp db) acts = Some (x, outs) -> between_turns (pr_threads x) ->
  exists is, inputs_typed (world_inputs is) /\
    received_in (world_inputs is) = received_by (thread_acts acts) /\
    let (s, souts) := sys_run e p h d is (system_start true true mp db) in
    at_services (combine acts outs) = beside_threads (combine is souts) /\ same_services x s /\
    agree (pr_threads x) (world_outputs (List.concat outs)) (sy_world s) [world_outputs (List.concat souts)].
Proof.
  intros e p h d mp db acts x outs Ht H (Bk & Bb & Ba).
  assert (G : th_app (pr_threads x) <> AppGone) by congruence.
  destruct (proc_explained e p h d acts mp db x outs Ht H G) as (is & [T S Tr R]).
  pose proof (start_world e p h d mp db is) as W.
  pose proof (proj2 (world_run e p h d is (system_start true true mp db))) as O.
  change (run_from (sy_world (system_start true true mp db)) (world_inputs is)) with (run (world_inputs is)) in O.
  exists is. destruct (sys_run e p h d is (system_start true true mp db)) as [s souts]. cbn [fst snd] in *.
  destruct R as [R1 R2 R3 R4 R5 R6 R7 R8 R9 (ds & R10 & R11) R12].
  split; [exact T|]. rewrite Ba in *. cbn [app_has took part app] in *.
  assert (Pk : pend (th_ka (pr_threads x)) = [] /\ ds = []).
  { destruct Bk as [X|X]; rewrite X in *; auto. }
  destruct Pk as [Pk ->]. rewrite Pk, !app_nil_r in *.
  split; [symmetry; exact R10|]. split; [exact Tr|]. split; [exact S|].
  rewrite W. unfold agree. rewrite O. unfold posted, taken in *. cbn [List.concat] in *. rewrite !app_nil_r in *.
  split; [exact R5|]. split; [symmetry; exact R2|]. split; [symmetry; exact R6|].
  split; [rewrite R3; destruct (th_ka (pr_threads x)); split; congruence|].
  split; [rewrite R4; destruct (th_bc (pr_threads x)); split; congruence|].
  split; [rewrite Ba, R1; split; congruence|].
  split; [exact R7|]. split; [symmetry; exact R8|exact R9].
Qed.
Print Assumptions C77_schedules_are_histories.

(** At any other moment before the main thread panics, the services have still
    answered as in some history of whole turns; at most the last datagram received
    by the keep-alive service has had no effect yet. *)
Theorem C77_answers_are_those_of_histories : forall e p h d mp db acts x outs,
  acts_typed (thread_acts acts) ->
  proc_run e p h d (process_start mp db) acts = Some (x, outs) -> th_app (pr_threads x) <> AppGone ->
  exists is late, inputs_typed (world_inputs is) /\ process_runs is /\
    received_by (thread_acts acts) = received_in (world_inputs is) ++ late /\ (List.length late <= 1)%nat /\
    let (s, souts) := sys_run e p h d is (system_start true true mp db) in
    at_services (combine acts outs) = beside_threads (combine is souts) /\ same_services x s.
Proof.
  intros e p h d mp db acts x outs Ht H G.
  destruct (proc_explained e p h d acts mp db x outs Ht H G) as (is & [T S Tr R]).
  destruct (r_received _ _ _ _ _ _ R) as (ds & R10 & R11).
  exists is, ds. split; [exact T|]. split; [exact (r_running _ _ _ _ _ _ R)|]. split; [exact R10|].
  split. { destruct (th_ka (pr_threads x)); cbn [waits] in R11; try (rewrite R11; cbn; lia); destruct R11 as (dg & -> & _); cbn; lia. }
  destruct (sys_run e p h d is (system_start true true mp db)) as [s souts]. cbn [fst snd] in *. auto.
Qed.
Print Assumptions C77_answers_are_those_of_histories.

(** And every history of whole turns the process survives is the work of some
    schedule. *)
Theorem C77_histories_are_schedules : forall e p h d mp db is,
  inputs_typed (world_inputs is) -> process_runs is ->
  exists acts x outs, acts_typed (thread_acts acts) /\
    proc_run e p h d (process_start mp db) acts = Some (x, outs) /\ between_turns (pr_threads x) /\
    let (s, souts) := sys_run e p h d is (system_start true true mp db) in
    (w_listening (sy_world s) = true -> received_by (thread_acts acts) = received_in (world_inputs is)) /\
    at_services (combine acts outs) = beside_threads (combine is souts) /\ same_services x s /\
    agree (pr_threads x) (world_outputs (List.concat outs)) (sy_world s) [world_outputs (List.concat souts)].
Proof.
  intros e p h d mp db is T R.
  destruct (history_acts e p h d is mp db T R) as (acts & x & outs & Ta & P & B & Rc & Tr & S & A).
  exists acts, x, outs. split; [exact Ta|]. split; [exact P|]. split; [exact B|].
  pose proof (start_world e p h d mp db is) as W.
  pose proof (proj2 (world_run e p h d is (system_start true true mp db))) as O.
  change (run_from (sy_world (system_start true true mp db)) (world_inputs is)) with (run (world_inputs is)) in O.
  destruct (sys_run e p h d is (system_start true true mp db)) as [s souts]. cbn [fst snd] in *. rewrite W.
  split; [exact Rc|]. split; [exact Tr|]. split; [exact S|].
  unfold agree in *. rewrite O. unfold posted, taken in *. cbn [List.concat] in *. rewrite !app_nil_r in *. exact A.
Qed.
Print Assumptions C77_histories_are_schedules.

(** ** C78 *)

(** Of all that can arrive at the services only an EXPORT call can have to wait,
    and it waits exactly while one of the threads uses the shared state. *)
Theorem C78_only_export_waits : forall e p h d mp db acts x outs i,
  proc_run e p h d (process_start mp db) acts = Some (x, outs) ->
  (forall j, i <> SysWorld j) -> (forall port j, i = SysUdp port j -> bytes_ok (ni_datagram j)) ->
  (proc_act e p h d x (ServiceActs i) = None <-> asks_export x i /\ exists w, inside (pr_threads x) w).
Proof.
  intros e p h d mp db acts x outs i H Ni B.
  pose proof (schedule_locked _ _ _ (proc_threads e p h d acts mp db x outs H)) as L.
  rewrite (pact_service e p h d x i Ni), <- (takes_iff x i B).
  destruct (sys_step e p h d i (services_with (pr_threads x) x)) as [s os].
  destruct (takes_mutex x i).
  - destruct (th_lock (pr_threads x)) as [w|] eqn:E; split; intros X; try discriminate X; try reflexivity.
    + split; [reflexivity|]. exists w. apply (inside_locked _ w L). exact E.
    + destruct X as (_ & w & X). apply (inside_locked _ w L) in X. congruence.
  - split; [discriminate|]. intros [X _]. discriminate X.
Qed.
Print Assumptions C78_only_export_waits.

Lemma export_turn : forall e p h d x port j x' o,
  asks_export x (SysUdp port j) -> bytes_ok (ni_datagram j) ->
  proc_act e p h d x (ServiceActs (SysUdp port j)) = Some (x', o) ->
  th_lock (pr_threads x) = None /\
  let y := mkMsIn (ni_datagram j) (ni_from j) (th_poisoned (pr_threads x)) (st_address (th_state (pr_threads x))) (ni_send j) in
  o = map (fun o => OutUdp port (fst o) (snd o)) (snd (ms_turn y)) /\ pr_udp x' port = MountUdp (fst (ms_turn y)).
Proof.
  intros e p h d x port j x' o A B H.
  assert (M : takes_mutex x (SysUdp port j) = true).
  { apply takes_iff; [|exact A]. intros q k X. injection X as -> ->. exact B. }
  destruct A as (port' & j' & m & c & X & U & _). injection X as <- <-.
  rewrite pact_service in H by (intros k; discriminate). rewrite M in H.
  destruct (th_lock (pr_threads x)); [discriminate H|]. split; [reflexivity|].
  unfold sys_step, services_with in H. cbn [sy_world w_running sy_udp] in H. rewrite U in H. unfold udp_turn in H.
  cbn [w_poisoned w_state] in H. cbv zeta.
  destruct (ms_turn _) as [b outs]. cbn [fst snd]. injection H as <- <-. split; [reflexivity|].
  cbn [pr_udp sy_udp with_udp]. unfold at_key. rewrite N.eqb_refl. reflexivity.
Qed.

(** An EXPORT call is never answered within a handshake: what has been sent by
    then consists of announcements and whole handshakes. *)
Theorem C78_not_within_handshake : forall e p h d mp db acts x outs port j x' o,
  acts_typed (thread_acts acts) ->
  proc_run e p h d (process_start mp db) acts = Some (x, outs) ->
  asks_export x (SysUdp port j) -> bytes_ok (ni_datagram j) ->
  proc_act e p h d x (ServiceActs (SysUdp port j)) = Some (x', o) -> o <> [] ->
  exists n, traffic (datagrams (world_outputs (List.concat outs))) n.
Proof.
  intros e p h d mp db acts x outs port j x' o Ht H A B E No.
  pose proof (proc_threads e p h d acts mp db x outs H) as Sc. pose proof (schedule_locked _ _ _ Sc) as [_ _ L3 _].
  destruct (export_turn e p h d x port j x' o A B E) as (Lk & Eo & _). rewrite Lk in L3.
  destruct (C69_never_torn _ _ _ Ht Sc) as (whole & rest & n & -> & T & [->|(nw & k & -> & [X|[X P]])]).
  - rewrite app_nil_r. exists n. exact T.
  - rewrite X in L3. discriminate.
  - exfalso. apply No. rewrite Eo. destruct A as (q & j' & m & c & Z & U & C & Cb & Cp). injection Z as <- <-.
    assert (Y : snd (ms_turn (mkMsIn (ni_datagram j) (ni_from j) (th_poisoned (pr_threads x))
      (st_address (th_state (pr_threads x))) (ni_send j))) = []).
    { unfold ms_turn. cbn [mi_datagram mi_from mi_poisoned mi_address mi_send]. rewrite P.
      destruct (codec_cases (ni_datagram j) B) as [(m' & c' & D & C' & Cb')|[(D & _)|([D|D] & _)]]; rewrite D; try reflexivity.
      rewrite (call_functional _ _ _ C' C). unfold rpc_procedure_router. rewrite Cb. unfold on_event. rewrite Cp. reflexivity. }
    rewrite Y. reflexivity.
Qed.
Print Assumptions C78_not_within_handshake.

Lemma split_threads : forall l a b, thread_acts l = a ++ b ->
  exists l1 l2, l = l1 ++ l2 /\ thread_acts l1 = a /\ thread_acts l2 = b.
Proof.
  induction l as [|x l IH]; intros a b H.
  - cbn in H. symmetry in H. apply app_eq_nil in H. destruct H as [-> ->]. exists [], []. auto.
  - destruct x as [y|i]; cbn [thread_acts flat_map app] in H; fold (thread_acts l) in H.
    + destruct a as [|z a].
      * cbn in H. exists [], (ThreadActs y :: l). split; [reflexivity|]. split; [reflexivity|]. exact H.
      * cbn [app] in H. injection H as -> H. destruct (IH a b H) as (l1 & l2 & -> & <- & <-).
        exists (ThreadActs z :: l1), l2. auto.
    + destruct (IH a b H) as (l1 & l2 & -> & <- & <-). exists (ServiceActs i :: l1), l2. auto.
Qed.

Lemma prun_split : forall e p h d a b x x' oss, proc_run e p h d x (a ++ b) = Some (x', oss) ->
  exists x1 o1 o2, proc_run e p h d x a = Some (x1, o1) /\ proc_run e p h d x1 b = Some (x', o2) /\ oss = o1 ++ o2.
Proof.
  intros e p h d. induction a as [|c a IH]; intros b x x' oss H.
  - exists x, [], oss. auto.
  - cbn [app proc_run] in H |- *. destruct (proc_act e p h d x c) as [[x1 o]|]; [|discriminate].
    destruct (proc_run e p h d x1 (a ++ b)) as [[x2 o2]|] eqn:E; [|discriminate]. injection H as <- <-.
    destruct (IH b x1 x2 o2 E) as (x3 & o3 & o4 & E3 & E4 & ->). rewrite E3. exists x3, (o :: o3), o4. auto.
Qed.

Lemma prun_threads_from : forall e p h d a x x' oss, proc_run e p h d x a = Some (x', oss) ->
  schedule_from (pr_threads x) (thread_acts a) = Some (pr_threads x', world_outputs (List.concat oss)).
Proof.
  intros e p h d. induction a as [|c a IH]; intros x x' oss H; cbn [proc_run] in H.
  - injection H as <- <-. reflexivity.
  - destruct (proc_act e p h d x c) as [[x1 o]|] eqn:E; [|discriminate].
    destruct (proc_run e p h d x1 a) as [[x2 o2]|] eqn:E2; [|discriminate]. injection H as <- <-.
    specialize (IH x1 x2 o2 E2). cbn [List.concat]. rewrite world_outputs_app. destruct c as [c|i].
    + cbn [proc_act] in E. cbn [thread_acts flat_map app schedule_from]. fold (thread_acts a).
      destruct (act (pr_threads x) c) as [[t os]|]; [|discriminate]. injection E as <- <-. cbn [pr_threads] in IH.
      rewrite IH, world_outputs_map. reflexivity.
    + cbn [thread_acts flat_map app]. fold (thread_acts a).
      assert (Ni : not_thread i) by (intros k ->; discriminate E).
      rewrite (pact_service e p h d x i Ni) in E.
      pose proof (service_quiet e p h d i (services_with (pr_threads x) x) Ni) as [_ Q].
      destruct (sys_step e p h d i (services_with (pr_threads x) x)) as [s os]. cbn [snd] in Q.
      assert (E' : pr_threads x1 = pr_threads x /\ o = os).
      { destruct (takes_mutex x i), (th_lock (pr_threads x)); try discriminate E; injection E as <- <-; split; reflexivity. }
      destruct E' as [E' ->]. rewrite Q. rewrite E' in IH. exact IH.
Qed.

(** It waits at most for 41 actions of the thread that uses the shared state:
    within them there is a moment at which any EXPORT call is taken at once. *)
Theorem C78_waits_for_one_turn : forall e p h d mp db acts x outs acts' x' outs' w,
  acts_typed (thread_acts (acts ++ acts')) ->
  proc_run e p h d (process_start mp db) acts = Some (x, outs) -> inside (pr_threads x) w ->
  proc_run e p h d x acts' = Some (x', outs') -> (41 <= actions_of w (thread_acts acts'))%nat ->
  exists acts1 acts2 x1 outs1, acts' = acts1 ++ acts2 /\ proc_run e p h d x acts1 = Some (x1, outs1) /\
    forall i, (forall j, i <> SysWorld j) -> proc_act e p h d x1 (ServiceActs i) <> None.
Proof.
  intros e p h d mp db acts x outs acts' x' outs' w Ht H I H' Hn.
  rewrite thread_acts_app in Ht.
  destruct (C70_lets_go (thread_acts acts) _ _ w (thread_acts acts') _ _ Ht
    (proc_threads e p h d acts mp db x outs H) I (prun_threads_from _ _ _ _ _ _ _ _ H') Hn)
    as (a1 & a2 & t1 & os1 & E & S & Free & _).
  destruct (split_threads _ _ _ E) as (l1 & l2 & -> & <- & <-).
  destruct (prun_split _ _ _ _ _ _ _ _ _ H') as (x1 & o1 & o2 & P1 & P2 & ->).
  exists l1, l2, x1, o1. split; [reflexivity|]. split; [exact P1|]. intros i Ni.
  rewrite (prun_threads_from _ _ _ _ _ _ _ _ P1) in S. injection S as S _.
  pose proof (proc_threads _ _ _ _ _ _ _ _ _ (prun_app _ _ _ _ _ _ _ _ _ _ _ H P1)) as Sc.
  assert (N0 : th_lock (pr_threads x1) = None).
  { destruct (th_lock (pr_threads x1)) as [w'|] eqn:X; [|reflexivity]. exfalso. apply (Free w'). rewrite <- S.
    apply (inside_locked _ w' (schedule_locked _ _ _ Sc)). exact X. }
  rewrite (pact_service e p h d x1 i Ni), N0.
  destruct (sys_step e p h d i (services_with (pr_threads x1) x1)). destruct (takes_mutex x1 i); discriminate.
Qed.
Print Assumptions C78_waits_for_one_turn.

(** The answer names the network chosen for the last device whose status has been
    handled, whatever else is going on; without one the service ends in silence. *)
Theorem C78_export_reply : forall e p h d mp db acts x outs port j x' o a1 dg a2 ifaces a3,
  acts_typed (thread_acts acts) ->
  proc_run e p h d (process_start mp db) acts = Some (x, outs) ->
  asks_export x (SysUdp port j) -> bytes_ok (ni_datagram j) -> ni_send j = true ->
  proc_act e p h d x (ServiceActs (SysUdp port j)) = Some (x', o) ->
  thread_acts acts = a1 ++ KaReceives dg :: a2 ++ KaLooksUp ifaces :: a3 ->
  (forall dg', ~ In (KaReceives dg') a2) -> (forall ifaces', ~ In (KaLooksUp ifaces') a3) ->
  th_poisoned (pr_threads x) = false ->
  exists hh found, status_of dg hh /\ chosen ifaces (h_ip hh) found /\
    match found with
    | Some n => exists reply rest, o = [OutUdp port (ni_from j) reply] /\
                  exports_in reply = Some ([([47; 0], [network_text n])], rest)
    | None => o = [] /\ pr_udp x' port = MountUdp false
    end.
Proof.
  intros e p h d mp db acts x outs port j x' o a1 dg a2 ifaces a3 Ht H A B Sj E Ea N2 N3 P.
  pose proof (proc_threads e p h d acts mp db x outs H) as Sc.
  destruct (export_turn e p h d x port j x' o A B E) as (Lk & Eo & Eu).
  assert (Hf : ifaces_typed ifaces).
  { apply Ht. rewrite Ea. apply in_or_app. right. right. apply in_or_app. right. left. reflexivity. }
  pose proof Sc as Sc'. rewrite Ea in Sc'.
  destruct (last_lookup a1 dg a2 ifaces a3 _ _ Hf Sc' N2 N3 P) as (hh & S & C).
  exists hh, (st_address (th_state (pr_threads x))). split; [exact S|]. split; [exact C|].
  destruct A as (q & j' & m & c & Z & U & Cs & Cb & Cp). injection Z as <- <-. cbv zeta in Eo, Eu.
  set (y := mkMsIn (ni_datagram j) (ni_from j) (th_poisoned (pr_threads x)) (st_address (th_state (pr_threads x))) (ni_send j)) in *.
  pose proof (ms_turn_cases y B) as K.
  destruct (st_address (th_state (pr_threads x))) as [n|] eqn:Ad.
  - destruct K as [(K1 & K2 & K3)|(K1 & K2 & K3)].
    + destruct (ms_turn y) as [b os]. cbn [fst snd] in *. subst o.
      destruct K3 as [(m' & c' & dd & C' & Cb' & Rp & ->)|[Nc _]]; [|exfalso; exact (Nc m Cs)].
      rewrite <- (call_functional _ _ _ Cs C') in *. rewrite Cb in Cb'. injection Cb' as <-. rewrite Cp in Rp.
      destruct Rp as (a & result & padding & rest & Ey & _ & Ex). cbn [mi_address y] in Ey. injection Ey as <-.
      exists dd, rest. split; [reflexivity|]. apply Ex. exact (proj2 (proj1 (chosen_ok _ _ _ Hf C))).
    + exfalso. destruct K2 as [[_ F]|(m' & c' & C' & Cb' & F)].
      * destruct Cs as [? [_ [_ [_ [G _]]]]]. cbn [mi_datagram y] in F. congruence.
      * rewrite <- (call_functional _ _ _ Cs C') in *. rewrite Cb in Cb'. injection Cb' as <-.
        destruct F as [F|F]; [|cbn [mi_send y] in F; congruence]. apply F. rewrite Cp. right.
        split; [reflexivity|]. split; [exact P|]. exists n. reflexivity.
  - assert (Z : ms_stops y).
    { right. exists m, c. split; [exact Cs|]. split; [exact Cb|]. left. rewrite Cp. intros [[paths X]|(_ & X & a & Y)]; [discriminate|].
      cbn [mi_address y] in Y. discriminate. }
    destruct K as [(_ & K & _)|(K1 & _ & K3)]; [contradiction|].
    rewrite Eo, Eu. destruct (ms_turn y). cbn [fst snd] in *. subst. auto.
Qed.
Print Assumptions C78_export_reply.

(** A mount service is asked for its exports while the main thread is at its
    sixth datagram. *)
Definition case_process (acts : list proc_action) : option (process * list (list sys_output)) :=
  proc_run Little Checked reverse_order example_db (process_start true true) acts.
Definition busy_acts : list proc_action :=
  [ServiceActs (SysMapper (mkPmIn getport_mount 1 (Some 4002) true))] ++
  map ThreadActs (firstn 11 example_acts) ++ [ServiceActs (SysMapper (mkPmIn getport_nfs 1 (Some 4001) true))] ++
  map ThreadActs (skipn 11 (firstn 26 example_acts)).
Definition calm_acts : list proc_action := busy_acts ++ map ThreadActs (skipn 26 example_acts).
Definition asked_export : sys_input := SysUdp 4002 (mkNfsIn export_call 1 demo true true).

Lemma calm_typed : acts_typed (thread_acts calm_acts).
Proof.
  assert (E : thread_acts calm_acts = example_acts) by (vm_compute; reflexivity).
  rewrite E. exact example_acts_typed.
Qed.

(** Five datagrams of the handshake are out, and a lookup has no need to wait. *)
Example C77_case : exists x outs, case_process busy_acts = Some (x, outs) /\
  List.length (datagrams (world_outputs (List.concat outs))) = 6%nat /\
  th_app (pr_threads x) <> AppGone /\ ~ between_turns (pr_threads x) /\
  proc_act Little Checked reverse_order example_db x (ServiceActs asked_export) = None /\
  proc_act Little Checked reverse_order example_db x
    (ServiceActs (SysUdp 4001 (fst (demo_lookup demo 1 (lit "a") (repeat 0 32))))) <> None /\
  exists x' outs', case_process calm_acts = Some (x', outs') /\ between_turns (pr_threads x') /\
    map (map kind_of) (map snd (at_services (combine calm_acts outs'))) = [[(2, 4002); (3, 1)]; [(2, 4001); (3, 1)]].
Proof.
  eexists _, _. split; [vm_compute; reflexivity|]. split; [vm_compute; reflexivity|]. split; [vm_compute; discriminate|].
  split; [intros (_ & _ & X); vm_compute in X; discriminate X|]. split; [vm_compute; reflexivity|].
  split; [vm_compute; discriminate|]. eexists _, _. split; [vm_compute; reflexivity|].
  split; [split; [left; reflexivity|split; [left; reflexivity|reflexivity]]|]. vm_compute. reflexivity.
Qed.

(** After the handshake the call is answered with the network of the device. *)
Example C78_case : exists x outs x' o reply rest, case_process calm_acts = Some (x, outs) /\
  asks_export x asked_export /\ th_poisoned (pr_threads x) = false /\
  proc_act Little Checked reverse_order example_db x (ServiceActs asked_export) = Some (x', o) /\
  o = [OutUdp 4002 1 reply] /\ exports_in reply = Some ([([47; 0], [lit "192.168.10.50/255.255.255.0"])], rest) /\
  exists a1 a2 a3, thread_acts calm_acts =
    a1 ++ KaReceives (status_datagram "XDJ-1000" 2 192 168 10 52) :: a2 ++ KaLooksUp one_iface :: a3 /\
    (forall dg, ~ In (KaReceives dg) a2) /\ (forall fs, ~ In (KaLooksUp fs) a3).
Proof.
  destruct export_call_says as (m & c & C & Cb & Cp).
  eexists _, _, _, _, _, _. split; [vm_compute; reflexivity|].
  split. { exists 4002, (mkNfsIn export_call 1 demo true true), m, c. repeat (split; [reflexivity|]). auto. }
  split; [reflexivity|]. split; [vm_compute; reflexivity|]. split; [reflexivity|]. split; [vm_compute; reflexivity|].
  exists (firstn 20 example_acts), (repeat (AppSendsNext true) 40 ++ [AppReleases; KaAcquires]),
    [KaReleases; BcAcquires; BcSends true; BcReleases].
  split; [vm_compute; reflexivity|]. split.
  - intros dg H. apply in_app_or in H. destruct H as [H|[H|[H|[]]]]; try discriminate H.
    apply repeat_spec in H. discriminate H.
  - intros fs [H|[H|[H|[H|[]]]]]; discriminate H.
Qed.

(** The same with the services: a call made within the handshake waits that long. *)
Example C78_case_waits : exists x outs x' outs',
  let begun := map ThreadActs (firstn 20 example_acts) in
  let rest := map ThreadActs (skipn 20 example_acts) in
  case_process begun = Some (x, outs) /\ inside (pr_threads x) AppThread /\
  proc_run Little Checked reverse_order example_db x rest = Some (x', outs') /\
  actions_of AppThread (thread_acts rest) = 41%nat /\ acts_typed (thread_acts (begun ++ rest)).
Proof.
  eexists _, _, _, _. cbv zeta. split; [vm_compute; reflexivity|]. split; [eexists _, _; reflexivity|].
  split; [vm_compute; reflexivity|]. split; [vm_compute; reflexivity|].
  rewrite <- map_app, firstn_skipn.
  assert (E : thread_acts (map ThreadActs example_acts) = example_acts) by (vm_compute; reflexivity).
  rewrite E. exact example_acts_typed.
Qed.
