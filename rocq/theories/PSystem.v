(** Property theorems C54 and C63-C65: the process as a whole. *)

From Verif Require Import Base Unicode MPackets MNetwork MServer MStatus MDb MDatabase MLib MRpc MRpcServer MNfs
  MSystem SUdp SNetwork SRpc SServer SRpcServer SSystem LBase LServer LServer2 LRpc LRpc2 LRpcServer LSystem PServer PRpcServer PDatabase PLib PNfs.
From Coq Require Import ZArith String.
Open Scope list_scope.
Open Scope N_scope.

Lemma start_runs : forall e p h d mp db is,
  sy_world (fst (sys_run e p h d is (system_start true true mp db))) = fst (run (world_inputs is)).
Proof. intros. rewrite (proj1 (world_run e p h d is _)). reflexivity. Qed.

(** ** C54 *)

(** A connection to port 12523 is accepted exactly if the ports could be bound at
    the start, the process is running, the port mapper has received nothing that
    stops it, and the listener gets its turn. *)
Theorem C54_accepts_exactly : forall e p h d ka st mp db is i c,
  Forall (fun j => bytes_ok (pi_datagram j)) (mapper_inputs is) ->
  (In (OutAccept c) (snd (sys_step e p h d i (fst (sys_run e p h d is (system_start ka st mp db))))) <->
   ka = true /\ st = true /\ mp = true /\ db = true /\ process_runs is /\
   Forall (fun j => ~ pm_stops j) (mapper_inputs is) /\ exists waiting, i = SysJoin waiting /\ In (Some c) waiting).
Proof.
  intros e p h d ka st mp db is i c B. rewrite accept_step.
  destruct ka; [destruct st|].
  2:{ split; [|intros (_ & X & _); discriminate]. intros [R _].
      rewrite (proj1 (stopped e p h d is (system_start true false mp db) eq_refl)) in R. discriminate. }
  2:{ split; [|intros [X _]; discriminate]. intros [R _].
      rewrite (proj1 (stopped e p h d is (system_start false st mp db) eq_refl)) in R. discriminate. }
  rewrite start_runs. unfold process_runs.
  assert (M : w_running (fst (run (world_inputs is))) = true ->
     sy_mapper (fst (sys_run e p h d is (system_start true true mp db))) = fst (pm_run mp (mapper_inputs is))).
  { intros R. apply (mapper_srun e p h d is (system_start true true mp db)). rewrite start_runs. assumption. }
  assert (J : w_running (fst (run (world_inputs is))) = true ->
     sy_mapper (fst (sys_run e p h d is (system_start true true mp db))) = true ->
     sy_joined (fst (sys_run e p h d is (system_start true true mp db))) = db).
  { intros R X. apply (joined_srun e p h d is (system_start true true mp db)); [rewrite start_runs|]; assumption. }
  split.
  - intros (R & X & Y & W). rewrite (J R Y) in X. rewrite (M R) in Y. destruct mp.
    + apply (C44_running_exactly _ B) in Y. repeat split; assumption.
    + rewrite pm_run_false in Y. discriminate.
  - intros (_ & _ & -> & -> & R & F & W). apply (C44_running_exactly _ B) in F. rewrite <- (M R) in F.
    split; [assumption|]. split; [exact (J R F)|]. split; assumption.
Qed.
Print Assumptions C54_accepts_exactly.

(** In particular none is, ever after something has stopped the port mapper. *)
Theorem C54_none_after_failure : forall e p h d mp db before j after c,
  bytes_ok (pi_datagram j) -> pm_stops j ->
  process_runs before ->
  ~ In (OutAccept c) (List.concat (snd (sys_run e p h d (SysMapper j :: after)
                        (fst (sys_run e p h d before (system_start true true mp db)))))).
Proof.
  intros e p h d mp db before j after c B P R.
  set (s := fst (sys_run e p h d before (system_start true true mp db))).
  assert (R0 : w_running (sy_world s) = true) by (unfold s; rewrite start_runs; exact R).
  clearbody s. rewrite srun_cons. cbn [snd List.concat]. intros H. apply in_app_or in H. destruct H as [H|H].
  - apply accept_step in H. destruct H as (_ & _ & _ & ws & X & _). discriminate.
  - assert (M : sy_mapper (fst (sys_step e p h d (SysMapper j) s)) = false).
    { rewrite (proj1 (mapper_step e p h d (SysMapper j) s R0)).
      destruct (pm_turn_cases j B) as [[_ [X _]]|[X _]]; [contradiction|]. rewrite X. apply Bool.andb_false_r. }
    revert H. generalize dependent (fst (sys_step e p h d (SysMapper j) s)). clear.
    induction after as [|i is IH]; intros s M H; [destruct H|].
    rewrite srun_cons in H. cbn [snd List.concat] in H. apply in_app_or in H. destruct H as [H|H].
    + apply accept_step in H. destruct H as (_ & _ & X & _). congruence.
    + apply (IH (fst (sys_step e p h d i s))); [|assumption].
      change (sy_mapper (fst (sys_step e p h d i s)) = false).
      pose proof (mapper_gone e p h d [i] s M) as G. rewrite srun_cons in G. exact G.
Qed.
Print Assumptions C54_none_after_failure.

(** Discovery and linking go on as if nothing else existed. *)
Theorem C54_discovery_continues : forall e p h d mp db is,
  world_outputs (List.concat (snd (sys_run e p h d is (system_start true true mp db)))) =
  List.concat (snd (run (world_inputs is))).
Proof. intros. apply (world_run e p h d is (system_start true true mp db)). Qed.
Print Assumptions C54_discovery_continues.

(** So does the status service, while the process runs. *)
Theorem C54_status_continues : forall e p h d mp db is, process_runs is ->
  status_outputs (List.concat (snd (sys_run e p h d is (system_start true true mp db)))) =
  snd (status_run (status_inputs is)).
Proof.
  intros e p h d mp db is R. apply (status_srun e p h d is (system_start true true mp db)); [|reflexivity].
  rewrite start_runs. exact R.
Qed.
Print Assumptions C54_status_continues.

(** Connections accepted before, and the ports given out on them, are served as
    if nothing else existed; there is one history of events at them. *)
Theorem C54_connections_continue : forall e p h d mp db is, process_runs is ->
  let outs := snd (sys_run e p h d is (system_start true true mp db)) in
  exists es, db_history (combine is outs) es /\ (forall es', db_history (combine is outs) es' -> es' = es) /\
    db_outputs (List.concat outs) = snd (db_run p h d (fun _ => NoHandler) es).
Proof.
  intros e p h d mp db is R outs.
  destruct (db_srun e p h d is (system_start true true mp db) (fun _ => eq_refl)) as (es & H & _ & O).
  { rewrite start_runs. exact R. }
  exists es. split; [exact H|]. split; [|exact O].
  intros es' H'. exact (db_history_functional _ _ _ H' H).
Qed.
Print Assumptions C54_connections_continue.

(** The port mapper does not depend on the listener, nor on anything else. *)
Theorem C54_port_mapper_alone : forall e p h d mp db is, process_runs is ->
  mapper_outputs (List.concat (snd (sys_run e p h d is (system_start true true mp db)))) =
  List.concat (snd (pm_run mp (mapper_inputs is))).
Proof.
  intros e p h d mp db is R. apply (mapper_srun e p h d is (system_start true true mp db)).
  rewrite start_runs. exact R.
Qed.
Print Assumptions C54_port_mapper_alone.

(** ** C63 *)

(** An NFS service answers as if it were alone from the moment it was started;
    neither the other services nor the end of the port mapper touch it. *)
Theorem C63_nfs_service_alone : forall e p h d mp db before j after port,
  let s := fst (sys_run e p h d before (system_start true true mp db)) in
  let s' := fst (sys_step e p h d (SysMapper j) s) in
  starts (snd (sys_step e p h d (SysMapper j) s)) NfsService port ->
  process_runs (before ++ SysMapper j :: after) ->
  (forall os v, In os (snd (sys_run e p h d after s')) -> ~ starts os v port) ->
  udp_outputs port (List.concat (snd (sys_run e p h d after s'))) =
  List.concat (snd (nfs_run e (udp_inputs port after) service_new)).
Proof.
  intros e p h d mp db before j after port s s' S R F.
  apply starts_step in S. destruct S as (R0 & M & j' & X & S). injection X as <-.
  apply (nfs_srun e p h d after s' port service_new); [| |exact F].
  - unfold s'. pose proof (step_shape e p h d (SysMapper j) s R0) as E. cbn beta iota in E. rewrite M in E. rewrite E.
    exact (start_services_started j (sy_udp s) NfsService port S).
  - unfold process_runs in R.
    rewrite <- (start_runs e p h d mp db) in R. rewrite srun_app in R. cbn [fst] in R. fold s in R.
    rewrite srun_cons in R. exact R.
Qed.
Print Assumptions C63_nfs_service_alone.

(** A mount service depends on nothing but its datagrams and what discovery and
    linking have found by the time of each. *)
Theorem C63_mount_service : forall e p h d mp db before j after port,
  let s := fst (sys_run e p h d before (system_start true true mp db)) in
  let s' := fst (sys_step e p h d (SysMapper j) s) in
  starts (snd (sys_step e p h d (SysMapper j) s)) ProgramService port ->
  process_runs (before ++ SysMapper j :: after) ->
  (forall os v, In os (snd (sys_run e p h d after s')) -> ~ starts os v port) ->
  udp_outputs port (List.concat (snd (sys_run e p h d after s'))) =
  List.concat (snd (ms_run true (mount_inputs (before ++ [SysMapper j]) port after))).
Proof.
  intros e p h d mp db before j after port s s' S R F.
  apply starts_step in S. destruct S as (R0 & M & j' & X & S). injection X as <-.
  apply (mount_srun e p h d after (before ++ [SysMapper j]) s' port true); [| | |exact F].
  - unfold s'. pose proof (step_shape e p h d (SysMapper j) s R0) as E. cbn beta iota in E. rewrite M in E. rewrite E.
    exact (start_services_started j (sy_udp s) ProgramService port S).
  - unfold s'. rewrite (proj1 (world_step e p h d (SysMapper j) s)). unfold s. rewrite start_runs.
    unfold world_inputs. rewrite flat_map_app. cbn [flat_map]. rewrite app_nil_r. reflexivity.
  - unfold process_runs in R.
    rewrite <- (start_runs e p h d mp db) in R. rewrite srun_app in R. cbn [fst] in R. fold s in R.
    rewrite srun_cons in R. exact R.
Qed.
Print Assumptions C63_mount_service.

(** At a port nobody was given, nothing is answered. *)
Theorem C63_silent_before_start : forall e p h d ka st mp db is port,
  (forall os v, In os (snd (sys_run e p h d is (system_start ka st mp db))) -> ~ starts os v port) ->
  udp_outputs port (List.concat (snd (sys_run e p h d is (system_start ka st mp db)))) = [].
Proof.
  intros e p h d ka st mp db is port. 
  assert (U : sy_udp (system_start ka st mp db) port = NoService) by reflexivity.
  revert U. generalize (system_start ka st mp db).
  induction is as [|i is IH]; intros s U F; [reflexivity|].
  rewrite srun_cons in *. cbn [snd List.concat] in *. unfold udp_outputs. rewrite flat_map_app.
  destruct (w_running (sy_world s)) eqn:R.
  - destruct (udp_step e p h d i s port R (fun w => F _ w (or_introl eq_refl))) as [E1 E2].
    assert (U' : sy_udp (fst (sys_step e p h d i s)) port = NoService).
    { rewrite E1. destruct i; try assumption. destruct (port0 =? port); [|assumption]. rewrite U. reflexivity. }
    assert (O' : udp_outputs port (snd (sys_step e p h d i s)) = []).
    { rewrite E2. destruct i; try reflexivity. destruct (port0 =? port); [|reflexivity]. rewrite U. reflexivity. }
    unfold udp_outputs in O'. rewrite O'. apply (IH _ U'). intros os v H. apply F. right. assumption.
  - assert (E : sys_step e p h d i s = (s, [])) by (unfold sys_step; rewrite R; reflexivity).
    rewrite E in *. cbn [fst snd flat_map app] in *. apply IH; [assumption|]. intros os v H. apply F. right. assumption.
Qed.
Print Assumptions C63_silent_before_start.

(** ** C65 *)

(** The end of the process: exactly in a turn of the application that takes a
    link request and finds the shared state unusable, no network or no socket;
    nothing received on any port ends it at once. *)
Theorem C65_ends_exactly : forall is i, inputs_typed (world_inputs is) -> process_runs is ->
  (~ process_runs (is ++ [i]) <->
   exists ok q, i = SysWorld (AppTurn ok) /\ w_queue (fst (run (world_inputs is))) = InitiateLink :: q /\
     (w_poisoned (fst (run (world_inputs is))) = true \/
      st_address (w_state (fst (run (world_inputs is)))) = None \/ exists k, (k < 40)%nat /\ ok k = false)).
Proof.
  intros is i T R. unfold process_runs in *. unfold world_inputs in *. rewrite flat_map_app.
  fold (world_inputs is) in *.
  destruct i as [j|x|j|q j|ws|c chunk q|c|x]; cbn [flat_map app]; rewrite ?app_nil_r;
    try (split; [intros H; contradiction|intros (ok & q' & X & _); discriminate]).
  pose proof (C33_terminates_exactly (world_inputs is) j T R) as E.
  destruct (w_running (fst (run (world_inputs is ++ [j])))).
  - split; [intros H; congruence|]. intros (ok & q & X & H). injection X as ->. exfalso.
    enough (true = false) by discriminate. apply E. exists ok, q. split; [reflexivity|exact H].
  - split; [|discriminate]. intros _. destruct (proj1 E eq_refl) as (ok & q & -> & H). exists ok, q. split; [reflexivity|exact H].
Qed.
Print Assumptions C65_ends_exactly.

(** After it nothing is sent or accepted on any port; nor is anything ever if the
    port of the keep-alive or of the status service could not be bound. *)
Theorem C65_nothing_after : forall e p h d ka st mp db before after,
  ka = false \/ st = false \/ ~ process_runs before ->
  List.concat (snd (sys_run e p h d after (fst (sys_run e p h d before (system_start ka st mp db))))) = [].
Proof.
  intros e p h d ka st mp db before after H. apply stopped.
  destruct ka; [destruct st|].
  - destruct H as [H|[H|H]]; [discriminate|discriminate|]. rewrite start_runs. unfold process_runs in H.
    destruct (w_running _); [destruct (H eq_refl)|reflexivity].
  - rewrite (proj1 (stopped e p h d before (system_start true false mp db) eq_refl)). reflexivity.
  - rewrite (proj1 (stopped e p h d before (system_start false st mp db) eq_refl)). reflexivity.
Qed.
Print Assumptions C65_nothing_after.

(** ** C64 *)

Lemma quiet_port : forall e p h d is s port, sy_udp s port = NoService \/ sy_udp s port = MountUdp false ->
  (forall os v, In os (snd (sys_run e p h d is s)) -> ~ starts os v port) ->
  udp_outputs port (List.concat (snd (sys_run e p h d is s))) = [].
Proof.
  intros e p h d is s port. revert s.
  induction is as [|i is IH]; intros s U F; [reflexivity|].
  rewrite srun_cons in *. cbn [snd List.concat] in *. unfold udp_outputs. rewrite flat_map_app.
  destruct (w_running (sy_world s)) eqn:R.
  - destruct (udp_step e p h d i s port R (fun w => F _ w (or_introl eq_refl))) as [E1 E2].
    assert (K : sy_udp (fst (sys_step e p h d i s)) port = sy_udp s port /\ udp_outputs port (snd (sys_step e p h d i s)) = []).
    { rewrite E1, E2. destruct i; try (split; reflexivity). destruct (port0 =? port); [|split; reflexivity].
      destruct U as [U|U]; rewrite U; split; reflexivity. }
    destruct K as [U' O']. unfold udp_outputs in O'. rewrite O'. apply IH; [rewrite U'; assumption|].
    intros os v H. apply F. right. assumption.
  - assert (E : sys_step e p h d i s = (s, [])) by (unfold sys_step; rewrite R; reflexivity).
    rewrite E in *. cbn [fst snd flat_map app] in *. apply IH; [assumption|]. intros os v H. apply F. right. assumption.
Qed.

(** The mount service started by the call [j] is still running after [after]. *)
Definition mount_service_up (e : endian) (p : profile) (h : hash_order) (d : database) (mp db : bool)
    (before : list sys_input) (j : pm_input) (after : list sys_input) (port : N) : Prop :=
  let s := fst (sys_run e p h d before (system_start true true mp db)) in
  let s' := fst (sys_step e p h d (SysMapper j) s) in
  starts (snd (sys_step e p h d (SysMapper j) s)) ProgramService port /\
  (forall os v, In os (snd (sys_run e p h d after s')) -> ~ starts os v port) /\
  Forall (fun y => bytes_ok (mi_datagram y) /\ ~ ms_stops y) (mount_inputs (before ++ [SysMapper j]) port after).

Lemma mount_state : forall e p h d mp db before j after port,
  mount_service_up e p h d mp db before j after port ->
  process_runs (before ++ SysMapper j :: after) ->
  let s := fst (sys_run e p h d (before ++ SysMapper j :: after) (system_start true true mp db)) in
  sy_udp s port = MountUdp true /\ w_running (sy_world s) = true /\
  sy_world s = fst (run (world_inputs (before ++ SysMapper j :: after))).
Proof.
  intros e p h d mp db before j after port (S & F & B) R s.
  assert (W : sy_world s = fst (run (world_inputs (before ++ SysMapper j :: after)))) by apply start_runs.
  unfold process_runs in R. rewrite <- W in R. split; [|split; [exact R|exact W]].
  unfold s in *. clear W. rewrite srun_app in R |- *. cbn [fst] in *. rewrite srun_cons in R |- *. cbn [fst] in *.
  set (s0 := fst (sys_run e p h d before (system_start true true mp db))) in *.
  assert (W0 : sy_world s0 = fst (run (world_inputs before))) by apply start_runs.
  apply starts_step in S. destruct S as (R0 & M & j' & X & S). injection X as <-.
  assert (U : sy_udp (fst (sys_step e p h d (SysMapper j) s0)) port = MountUdp true).
  { pose proof (step_shape e p h d (SysMapper j) s0 R0) as E. cbn beta iota in E. rewrite M in E. rewrite E.
    exact (start_services_started j (sy_udp s0) ProgramService port S). }
  assert (W1 : sy_world (fst (sys_step e p h d (SysMapper j) s0)) = fst (run (world_inputs (before ++ [SysMapper j])))).
  { rewrite (proj1 (world_step e p h d (SysMapper j) s0)), W0.
    unfold world_inputs. rewrite flat_map_app. cbn [flat_map]. rewrite app_nil_r. reflexivity. }
  rewrite (proj1 (mount_srun e p h d after _ _ port true U W1 R F)). f_equal.
  apply C46_running_exactly.
  - eapply Forall_impl; [|exact B]. intros y [Y _]. exact Y.
  - eapply Forall_impl; [|exact B]. intros y [_ Y]. exact Y.
Qed.

(** The answer to an EXPORT call: the network found for the last device heard.
    Without one, or once the shared state is unusable, there is no answer and the
    service is gone. *)
Theorem C64_export_reply : forall e p h d mp db before j after port x m c ka_before dg ifaces hh ka_after,
  let is := before ++ SysMapper j :: after in
  let s := fst (sys_run e p h d is (system_start true true mp db)) in
  mount_service_up e p h d mp db before j after port -> process_runs is ->
  bytes_ok (ni_datagram x) -> call_says (ni_datagram x) m -> rpc_body m = Call c ->
  ca_procedure c = MountExport -> ni_send x = true ->
  inputs_typed (world_inputs is) -> world_inputs is = ka_before ++ KaDatagram dg ifaces :: ka_after ->
  status_of dg hh -> hears ka_after [] -> attentive (fst (run (ka_before ++ [KaDatagram dg ifaces]))) ->
  exists o, chosen ifaces (h_ip hh) o /\
    match o with
    | Some n =>
        w_poisoned (fst (run (world_inputs is))) = false ->
        exists reply rest, udp_outputs port (snd (sys_step e p h d (SysUdp port x) s)) = [(ni_from x, reply)] /\
          exports_in reply = Some ([([47; 0], [network_text n])], rest)
    | None => True
    end /\
    (o = None \/ w_poisoned (fst (run (world_inputs is))) = true ->
     forall later, (forall os v, In os (snd (sys_run e p h d (SysUdp port x :: later) s)) -> ~ starts os v port) ->
       udp_outputs port (List.concat (snd (sys_run e p h d (SysUdp port x :: later) s))) = []).
Proof.
  intros e p h d mp db before j after port x m c ka_before dg ifaces hh ka_after is s Up R B C Cb Cp Sx T E S H A.
  destruct (mount_state _ _ _ _ _ _ _ _ _ _ Up R) as (U & Rs & W). fold is in U, Rs, W. fold s in U, Rs, W.
  pose proof E as E'. rewrite E in T.
  pose proof (C30_follows_last_status ka_before dg ifaces hh ka_after T S H A) as Ch. rewrite <- E in Ch, T.
  exists (st_address (w_state (fst (run (world_inputs is))))). split; [exact Ch|].
  assert (St : sys_step e p h d (SysUdp port x) s =
    let (b, outs) := ms_turn (mkMsIn (ni_datagram x) (ni_from x) (w_poisoned (fst (run (world_inputs is))))
                       (st_address (w_state (fst (run (world_inputs is))))) (ni_send x)) in
    (with_udp s (at_key (sy_udp s) port (MountUdp b)), map (fun o => OutUdp port (fst o) (snd o)) outs)).
  { unfold sys_step. rewrite Rs, U. unfold udp_turn. rewrite W. destruct (ms_turn _). reflexivity. }
  set (y := mkMsIn (ni_datagram x) (ni_from x) (w_poisoned (fst (run (world_inputs is))))
              (st_address (w_state (fst (run (world_inputs is))))) (ni_send x)) in *.
  pose proof (ms_turn_cases y B) as K.
  split.
  - destruct (st_address (w_state (fst (run (world_inputs is))))) as [n|] eqn:Ad; [|exact I]. intros P.
    destruct K as [(K1 & K2 & K3)|(K1 & K2 & K3)].
    + rewrite St. destruct (ms_turn y) as [b outs]. cbn [fst snd] in *.
      destruct K3 as [(m' & c' & dd & C' & Cb' & Rp & ->)|[N _]].
      * rewrite <- (call_functional _ _ _ C C') in *. rewrite Cb in Cb'. injection Cb' as <-. rewrite Cp in Rp.
        destruct Rp as (a & result & padding & rest & Ea & _ & Ex). cbn [mi_address y] in Ea. injection Ea as <-.
        exists dd, rest. split; [|exact (Ex (proj2 (address_net_ok _ T n Ad)))].
        pose proof (udp_outs_map port [(ni_from x, dd)]) as Z. exact Z.
      * exfalso. exact (N m C).
    + exfalso. destruct K2 as [[_ F]|(m' & c' & C' & Cb' & F)].
      * destruct C as [? [_ [_ [_ [G _]]]]]. cbn [mi_datagram y] in F. congruence.
      * rewrite <- (call_functional _ _ _ C C') in *. rewrite Cb in Cb'. injection Cb' as <-.
        destruct F as [F|F]; [|cbn [mi_send y] in F; congruence]. apply F. rewrite Cp. right.
        split; [reflexivity|]. split; [exact P|]. exists n. reflexivity.
  - intros Bad later F. rewrite srun_cons in *. cbn [snd List.concat] in *.
    assert (Dead : ms_turn y = (false, [])).
    { assert (Z : ms_stops y).
      { right. exists m, c. split; [exact C|]. split; [exact Cb|]. left. rewrite Cp. intros [[paths X]|(_ & X & a & Y)]; [discriminate|].
        cbn [mi_poisoned mi_address y] in X, Y. destruct Bad; congruence. }
      destruct K as [(_ & K & _)|(K1 & _ & K3)]; [contradiction|]. destruct (ms_turn y). cbn [fst snd] in *. congruence. }
    rewrite Dead in St. cbn [map] in St. rewrite St in *. cbn [fst snd app] in *.
    apply quiet_port.
    + right. cbn. unfold at_key. rewrite N.eqb_refl. reflexivity.
    + intros os v Ho. apply F. right. exact Ho.
Qed.
Print Assumptions C64_export_reply.

(** Before any device has been heard an EXPORT call ends the service. *)
Theorem C64_export_before_discovery : forall e p h d mp db before j after port x m c,
  let is := before ++ SysMapper j :: after in
  let s := fst (sys_run e p h d is (system_start true true mp db)) in
  mount_service_up e p h d mp db before j after port -> process_runs is ->
  bytes_ok (ni_datagram x) -> call_says (ni_datagram x) m -> rpc_body m = Call c -> ca_procedure c = MountExport ->
  inputs_typed (world_inputs is) -> hears (world_inputs is) [] ->
  forall later, (forall os v, In os (snd (sys_run e p h d (SysUdp port x :: later) s)) -> ~ starts os v port) ->
    udp_outputs port (List.concat (snd (sys_run e p h d (SysUdp port x :: later) s))) = [].
Proof.
  intros e p h d mp db before j after port x m c is s Up R B C Cb Cp T H later F.
  destruct (mount_state _ _ _ _ _ _ _ _ _ _ Up R) as (U & Rs & W). fold is in U, Rs, W. fold s in U, Rs, W.
  pose proof (C30_no_network_before _ T H) as Ad.
  rewrite srun_cons in *. cbn [snd List.concat] in *.
  set (y := mkMsIn (ni_datagram x) (ni_from x) (w_poisoned (sy_world s)) (st_address (w_state (sy_world s))) (ni_send x)).
  assert (Dead : ms_turn y = (false, [])).
  { assert (Z : ms_stops y).
    { right. exists m, c. split; [exact C|]. split; [exact Cb|]. left. rewrite Cp. intros [[paths X]|(_ & X & a & Y)]; [discriminate|].
      cbn [mi_address y] in Y. rewrite W, Ad in Y. discriminate. }
    destruct (ms_turn_cases y B) as [(_ & K & _)|(K1 & _ & K3)]; [contradiction|]. destruct (ms_turn y). cbn [fst snd] in *. congruence. }
  assert (St : sys_step e p h d (SysUdp port x) s = (with_udp s (at_key (sy_udp s) port (MountUdp false)), [])).
  { unfold sys_step. rewrite Rs, U. unfold udp_turn. fold y. rewrite Dead. reflexivity. }
  rewrite St in *. cbn [fst snd app] in *. apply quiet_port.
  - right. cbn. unfold at_key. rewrite N.eqb_refl. reflexivity.
  - intros os v Ho. apply F. right. exact Ho.
Qed.
Print Assumptions C64_export_before_discovery.

(** ** Concrete cases *)

(** A device is heard; two NFS services and a mount service are started; one
    connection is accepted; both NFS services are used.  Then eight bytes stop the
    port mapper, and another connection tries to get in. *)
Definition case_first : list sys_input :=
  [SysWorld (KaDatagram (status_datagram "XDJ-700" 3 192 168 10 52) one_iface);
   SysMapper (mkPmIn getport_nfs 1 (Some 4001) true)].
Definition case_second : list sys_input :=
  [SysMapper (mkPmIn getport_mount 1 (Some 4002) true)].
Definition case_third : list sys_input :=
  [SysMapper (mkPmIn getport_nfs 1 (Some 4003) true);
   SysJoin [Some 1; None];
   SysQuery 1 [0; 0; 0; 15] (Some 5000);
   SysUdp 4002 (mkNfsIn export_call 1 demo true true);
   SysUdp 4001 (fst (demo_lookup demo 1 (lit "a") (repeat 0 32)));
   SysUdp 4003 (fst (demo_lookup demo 2 (lit "x") (repeat 0 32)));
   SysMapper (mkPmIn [0; 0; 0; 0; 0; 0; 0; 1] 1 (Some 4004) true);
   SysJoin [Some 2];
   SysQuery 2 [0; 0; 0; 15] (Some 5001);
   SysQuery 1 [0; 0; 0; 15] (Some 5002);
   SysUdp 4001 (fst (demo_lookup demo 3 (lit "x") (repeat 0 32)));
   SysWorld (BroadcastTurn true)].
Definition case_history : list sys_input := case_first ++ case_second ++ case_third.
Definition case_run (is : list sys_input) : system * list (list sys_output) :=
  sys_run Little Checked reverse_order example_db is (system_start true true true true).

(** What is sent, by kind: service port, or the number of the connection. *)
Definition kind_of (o : sys_output) : N * N :=
  match o with
  | OutWorld _ => (0, 0) | OutStatus _ => (1, 0) | OutMapper (PmStart _ q) => (2, q) | OutMapper (PmReply to _) => (3, to)
  | OutUdp q _ _ => (4, q) | OutAccept c => (5, c) | OutQuery c b => (6, of_be b) | OutDb _ => (7, 0)
  end.

(** Connection 2 is not accepted, its query not answered; connection 1, the NFS
    service at 4001 and the announcements go on.  The failed lookup at 4003 does
    not disturb the walk at 4001. *)
Example C54_case :
  map (map kind_of) (snd (case_run case_history)) =
  [[(0, 0); (0, 0)]; [(2, 4001); (3, 1)]; [(2, 4002); (3, 1)]; [(2, 4003); (3, 1)]; [(5, 1)]; [(6, 5000)];
   [(4, 4002)]; [(4, 4001)]; []; []; []; []; [(6, 5002)]; [(4, 4001)]; [(0, 0)]] /\
  process_runs case_history /\ pm_stops (mkPmIn [0; 0; 0; 0; 0; 0; 0; 1] 1 (Some 4004) true) /\
  Forall (fun j => bytes_ok (pi_datagram j)) (mapper_inputs case_history).
Proof.
  split; [vm_compute; reflexivity|]. split; [vm_compute; reflexivity|].
  split; [left; split; [unfold reaches; cbn; lia|vm_compute; reflexivity]|].
  repeat constructor; apply demo_bytes; vm_compute; reflexivity.
Qed.

Lemma no_start : forall outs port,
  forallb (forallb (fun o => match o with OutMapper (PmStart _ q) => negb (q =? port) | _ => true end)) outs = true ->
  forall os v, In os outs -> ~ starts os v port.
Proof.
  intros outs port H os v Ho S. unfold starts in S.
  pose proof (proj1 (forallb_forall _ _) (proj1 (forallb_forall _ _) H os Ho) _ S) as X. cbn in X.
  rewrite N.eqb_refl in X. discriminate.
Qed.

(** The theorem on NFS services at work for the service at 4001. *)
Example C63_case :
  udp_outputs 4001 (List.concat (snd (sys_run Little Checked reverse_order example_db (case_second ++ case_third)
                                  (fst (case_run case_first))))) =
  List.concat (snd (nfs_run Little [fst (demo_lookup demo 1 (lit "a") (repeat 0 32));
                                    fst (demo_lookup demo 3 (lit "x") (repeat 0 32))] service_new)).
Proof.
  change (fst (case_run case_first)) with
    (fst (sys_step Little Checked reverse_order example_db (SysMapper (mkPmIn getport_nfs 1 (Some 4001) true))
       (fst (sys_run Little Checked reverse_order example_db (firstn 1 case_first) (system_start true true true true))))).
  apply (C63_nfs_service_alone Little Checked reverse_order example_db true true (firstn 1 case_first)
          (mkPmIn getport_nfs 1 (Some 4001) true) (case_second ++ case_third) 4001).
  - vm_compute. left. reflexivity.
  - vm_compute. reflexivity.
  - apply no_start. vm_compute. reflexivity.
Qed.

Lemma export_call_says : exists m c, call_says export_call m /\ rpc_body m = Call c /\ ca_procedure c = MountExport.
Proof.
  assert (B : bytes_ok export_call) by (apply demo_bytes; vm_compute; reflexivity).
  destruct (codec_cases export_call B) as [[m [c [E [C Bc]]]]|[[E _]|[[E|E] _]]]; try (vm_compute in E; discriminate E).
  exists m, c. split; [exact C|]. split; [exact Bc|].
  assert (X : match codec_decode export_call with
              | Ok (Some m) => match rpc_body m with Call c => ca_procedure c | _ => PortmapNull end | _ => PortmapNull end = MountExport)
    by (vm_compute; reflexivity).
  rewrite E, Bc in X. exact X.
Qed.

Lemma case_typed : inputs_typed (world_inputs (case_first ++ case_second)).
Proof.
  intros dg fs H. assert (X : fs = one_iface) by (destruct H as [H|[]]; congruence).
  rewrite X. exact one_iface_typed.
Qed.

(** The EXPORT call of the case is answered with the network of the device. *)
Example C64_case : exists reply rest,
  udp_outputs 4002 (snd (sys_step Little Checked reverse_order example_db
    (SysUdp 4002 (mkNfsIn export_call 1 demo true true)) (fst (case_run (case_first ++ case_second))))) = [(1, reply)] /\
  exports_in reply = Some ([([47; 0], [lit "192.168.10.50/255.255.255.0"])], rest).
Proof.
  destruct export_call_says as (m & c & C & Cb & Cp).
  destruct (C64_export_reply Little Checked reverse_order example_db true true case_first
    (mkPmIn getport_mount 1 (Some 4002) true) [] 4002 (mkNfsIn export_call 1 demo true true) m c
    [] (status_datagram "XDJ-700" 3 192 168 10 52) one_iface (mkHeard 3232238132 3 (lit "XDJ-700")) [])
    as (o & Ch & Y & _); try assumption; try reflexivity.
  - split; [vm_compute; left; reflexivity|]. split; [intros os v []|constructor].
  - apply demo_bytes. vm_compute. reflexivity.
  - exact case_typed.
  - apply status_computed_some. vm_compute. reflexivity.
  - constructor.
  - repeat split; vm_compute; reflexivity.
  - destruct o as [n|].
    + destruct (Y ltac:(vm_compute; reflexivity)) as (reply & rest & Y1 & Y2). exists reply, rest. split; [exact Y1|].
      rewrite Y2. destruct Ch as (b & a & E & _ & _).
      assert (L : v4_networks one_iface = [(mkNet 3232238130 24, Some [0; 0x45; 0xcb; 0x9a; 0xa5; 0x0b])]) by reflexivity.
      rewrite L in E. destruct b as [|x [|y b]]; try discriminate E.
      injection E as E1 _ _. unfold network_text. rewrite <- E1. vm_compute. reflexivity.
    + exfalso. cbn [chosen] in Ch.
      destruct (Ch (mkNet 3232238130 24) (Some [0; 0x45; 0xcb; 0x9a; 0xa5; 0x0b]) (or_introl eq_refl)) as [_ F].
      apply F. cbn [net_prefix net_addr h_ip]. intros i Hi. replace i with ((i - 8) + 8) by lia.
      rewrite <- !N.shiftr_spec'. reflexivity.
Qed.

(** One status datagram of a device outside the own networks ends everything
    (C33), and then no port answers. *)
Example C65_case : let is := [SysWorld (KaDatagram (status_datagram "CDJ" 1 10 0 0 1) one_iface);
                              SysWorld (AppTurn (fun _ => true)); SysWorld (AppTurn (fun _ => true))] in
  w_running (fst (run (world_inputs is))) = false /\
  snd (case_run (is ++ [SysMapper (mkPmIn getport_nfs 1 (Some 4001) true); SysJoin [Some 1]])) =
  [[OutWorld (Posted DeviceChange); OutWorld (Posted InitiateLink)]; [OutWorld (Took DeviceChange)];
   [OutWorld (Took InitiateLink)]; []; []].
Proof. split; vm_compute; reflexivity. Qed.
