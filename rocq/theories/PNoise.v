(** Property theorems C100: datagrams that mean nothing to the program. *)

From Verif Require Import Base Unicode MPackets MKeepalive MNetwork MServer MStatus MDb MDatabase MLib MRpc MRpcServer MNfs
  MSystem SUdp SNetwork SRpc SServer SRpcServer SSystem STraffic SCopies SNoise LBase LUdp LStatus LStatus2 LServer LServer2 LRpc LRpc2
  LRpcServer LSystem PUdp PServer PRpcServer PNfs PSystem.
From Coq Require Import ZArith String Lia.
Open Scope list_scope.
Open Scope N_scope.

(** ** The state does not depend on how its maps are written *)

Lemma same_refl : forall s, same_state s s.
Proof. intros s. repeat split. Qed.

Lemma at_key_same : forall A (f g : N -> A) k x, (forall q, f q = g q) -> forall q, at_key f k x q = at_key g k x q.
Proof. intros A f g k x H q. unfold at_key. destruct (q =? k); [reflexivity|apply H]. Qed.

Lemma started_same : forall outs u v, (forall q, u q = v q) -> forall q, start_services u outs q = start_services v outs q.
Proof.
  unfold start_services. induction outs as [|o outs IH]; intros u v H q; [apply H|]. cbn [fold_left]. apply IH. clear q.
  destruct o as [[|] port|to b]; [apply at_key_same, H|apply at_key_same, H|exact H].
Qed.

Lemma opened_same : forall cs (f g : N -> bool), (forall c, f c = g c) ->
  forall c, fold_left (fun q c => at_key q c true) cs f c = fold_left (fun q c => at_key q c true) cs g c.
Proof. induction cs as [|x cs IH]; intros f g H c; [apply H|]. cbn [fold_left]. apply IH, at_key_same, H. Qed.

Lemma db_same : forall p h d x f g, (forall q, f q = g q) ->
  snd (db_step p h d f x) = snd (db_step p h d g x) /\
  forall q, fst (db_step p h d f x) q = fst (db_step p h d g x) q.
Proof.
  intros p h d x f g H.
  assert (S : forall port v q, set_port f port v q = set_port g port v q).
  { intros port v q. unfold set_port. destruct (q =? port); [reflexivity|apply H]. }
  unfold db_step. destruct x as [port chunk|port|port chunk|port]; cbn [fst snd]; rewrite <- ?H.
  - split; [reflexivity|apply S].
  - destruct (f port); cbn [fst snd]; (split; [reflexivity|]); auto.
  - destruct (f port) as [| |st|]; cbn [fst snd]; try (split; [reflexivity|exact H]).
    destruct (process p h d st chunk) as [[a st']| |]; cbn [fst snd]; (split; [reflexivity|]); auto.
  - destruct (f port); cbn [fst snd]; (split; [reflexivity|]); auto.
Qed.

Lemma step_same : forall e p h d i s s', same_state s s' ->
  snd (sys_step e p h d i s) = snd (sys_step e p h d i s') /\ same_state (fst (sys_step e p h d i s)) (fst (sys_step e p h d i s')).
Proof.
  intros e p h d i s s' Q. pose proof Q as (Ew & Es & Em & Ej & Eq & Ed & Eu). unfold sys_step. rewrite <- Ew.
  destruct (w_running (sy_world s)); [|split; [reflexivity|exact Q]].
  destruct i as [i|x|i|port i|waiting|c chunk port|c|x].
  - destruct (step (sy_world s) i) as [w os]. split; [reflexivity|]. repeat split; auto.
  - rewrite <- Es. destruct (sy_status s); [|split; [reflexivity|exact Q]].
    destruct (status_turn x); cbn [fst snd]; (split; [reflexivity|]); try exact Q; repeat split; auto.
  - rewrite <- Em. destruct (sy_mapper s); [|split; [reflexivity|exact Q]]. destruct (pm_turn i) as [r outs]. split; [reflexivity|].
    repeat split; auto. cbn [fst with_mapper sy_udp]. apply started_same. exact Eu.
  - rewrite <- (Eu port). destruct (udp_turn e (sy_world s) port i (sy_udp s port)) as [v outs]. split; [reflexivity|].
    repeat split; auto. cbn [fst with_udp sy_udp]. apply at_key_same. exact Eu.
  - rewrite <- Ej, <- Em. destruct (sy_joined s); [|split; [reflexivity|exact Q]].
    destruct (sy_mapper s) eqn:M; (split; [reflexivity|]); repeat split; auto; cbn [fst with_joined sy_query sy_mapper]; try congruence.
    apply opened_same. exact Eq.
  - rewrite <- (Eq c). destruct (sy_query s c); [|split; [reflexivity|exact Q]]. destruct port as [port|].
    + destruct (db_same p h d (Query port chunk) _ _ Ed) as [D1 D2].
      destruct (db_step p h d (sy_db s) (Query port chunk)) as [b outs], (db_step p h d (sy_db s') (Query port chunk)) as [b' outs'].
      cbn [fst snd] in *. subst. split; [reflexivity|]. repeat split; auto.
    + split; [reflexivity|]. repeat split; auto. cbn [fst with_query sy_query]. apply at_key_same. exact Eq.
  - split; [reflexivity|]. repeat split; auto. cbn [fst with_query sy_query]. apply at_key_same. exact Eq.
  - destruct x as [q chunk|q|q chunk|q]; [split; [reflexivity|exact Q]| | |];
      match goal with |- context [db_step p h d (sy_db s) ?y] =>
        destruct (db_same p h d y _ _ Ed) as [D1 D2];
        destruct (db_step p h d (sy_db s) y) as [b outs], (db_step p h d (sy_db s') y) as [b' outs'] end;
      cbn [fst snd] in *; subst; (split; [reflexivity|]); repeat split; auto.
Qed.

Lemma run_same : forall e p h d is s s', same_state s s' ->
  snd (sys_run e p h d is s) = snd (sys_run e p h d is s') /\
  same_state (fst (sys_run e p h d is s)) (fst (sys_run e p h d is s')).
Proof.
  intros e p h d is. induction is as [|i is IH]; intros s s' Q; [split; [reflexivity|exact Q]|].
  rewrite !srun_cons. cbn [fst snd]. destruct (step_same e p h d i s s' Q) as [O Q']. destruct (IH _ _ Q') as [O' Q''].
  rewrite O, O'. split; [reflexivity|exact Q''].
Qed.

(** ** Noise *)

Lemma no_rpc_decode : forall b, bytes_ok b -> (no_rpc b <-> codec_decode b = Err \/ codec_decode b = Ok None).
Proof.
  intros b B. destruct (codec_cases b B) as [(m & c & E & C & _)|[(E & R & _)|(E & C & R)]].
  - rewrite E. split; [intros [N _]; exfalso; exact (N m C)|intros [F|F]; discriminate].
  - rewrite E. split; [intros [_ N]; contradiction|intros [F|F]; discriminate].
  - split; [intros _; exact E|intros _; split; assumption].
Qed.

(** Noise has no effect whatever, in any state. *)
Theorem C100_no_effect : forall e p h d i s, is_datagram i -> noise i ->
  snd (sys_step e p h d i s) = [] /\ same_state s (fst (sys_step e p h d i s)).
Proof.
  intros e p h d i s D N. unfold sys_step. destruct (w_running (sy_world s)); [|split; [reflexivity|apply same_refl]].
  destruct i as [[dg ifaces| |ok|ok]|[ip port dg|]|j|port j|w|c k y|c|x]; cbn [is_datagram noise] in D, N; try contradiction.
  - rewrite (step_noise _ dg ifaces N). split; [reflexivity|]. repeat split.
  - assert (E : step (sy_world s) KaRecvError = (sy_world s, [])) by (unfold step; destruct (w_running (sy_world s)); reflexivity).
    rewrite E. split; [reflexivity|]. repeat split.
  - destruct N as (N1 & N2 & N3). destruct (sy_status s); [|split; [reflexivity|apply same_refl]].
    destruct (status_turn_answer (StatusDatagram ip port dg)) as (out & E & A).
    { intros ip' port' b [F|[]]. inversion F; subst. exact N3. }
    rewrite E. destruct A as (_ & _ & A). rewrite (A N1 N2). split; [reflexivity|apply same_refl].
  - destruct (sy_status s); (split; [reflexivity|apply same_refl]).
  - destruct (sy_mapper s) eqn:M; [|split; [reflexivity|apply same_refl]].
    assert (E : pm_turn j = (true, [])) by (unfold pm_turn; apply no_rpc_decode in N; [|exact D]; destruct N as [-> | ->]; reflexivity).
    rewrite E. split; [reflexivity|]. repeat split. exact M.
  - assert (E : udp_turn e (sy_world s) port j (sy_udp s port) = (sy_udp s port, [])).
    { apply no_rpc_decode in N; [|exact D]. unfold udp_turn. destruct (sy_udp s port) as [|v|[|]]; try reflexivity.
      - unfold nfs_turn. destruct (sv_nfs v); [|reflexivity]. destruct N as [-> | ->]; reflexivity.
      - unfold ms_turn. cbn [mi_datagram]. destruct N as [-> | ->]; reflexivity. }
    rewrite E. split; [reflexivity|]. repeat split. intros q. cbn [fst with_udp sy_udp]. unfold at_key.
    destruct (N.eqb_spec q port) as [->|X]; reflexivity.
Qed.
Print Assumptions C100_no_effect.

(** Leaving noise out of a history changes neither what is sent nor the state. *)
Theorem C100_without_noise : forall e p h d is more s, with_extra (fun i => is_datagram i /\ noise i) is more ->
  List.concat (snd (sys_run e p h d more s)) = List.concat (snd (sys_run e p h d is s)) /\
  same_state (fst (sys_run e p h d is s)) (fst (sys_run e p h d more s)).
Proof.
  intros e p h d is more s H. revert s. induction H as [|i is more H IH|i is more [D N] H IH]; intros s.
  - split; [reflexivity|apply same_refl].
  - rewrite !srun_cons. cbn [fst snd List.concat]. destruct (IH (fst (sys_step e p h d i s))) as [F G]. rewrite F. split; [reflexivity|exact G].
  - rewrite srun_cons. cbn [fst snd List.concat]. destruct (C100_no_effect e p h d i s D N) as [O Q]. rewrite O. cbn [app].
    destruct (IH (fst (sys_step e p h d i s))) as [F G]. destruct (run_same e p h d is _ _ Q) as [F' G']. rewrite F, F'. split; [reflexivity|].
    destruct G as (G1 & G2 & G3 & G4 & G5 & G6 & G7), G' as (K1 & K2 & K3 & K4 & K5 & K6 & K7).
    repeat split; congruence.
Qed.
Print Assumptions C100_without_noise.

(** Nothing else is without effect: a datagram that is never noticed, in any state the
    process can reach, is noise. *)
Theorem C100_noise_exactly : forall e p h d i, is_datagram i ->
  ((forall s, reached e p h d s -> snd (sys_step e p h d i s) = [] /\ same_state s (fst (sys_step e p h d i s))) <-> noise i).
Proof.
  intros e p h d i D. split; [|intros N s _; apply C100_no_effect; assumption].
  intros H.
  assert (S0 : reached e p h d (system_start true true true true)).
  { exists true, true, []. split; [intros x ifaces []|reflexivity]. }
  destruct i as [[dg ifaces| |ok|ok]|[ip port dg|]|j|port j|w|c k y|c|x]; cbn [is_datagram noise] in *; try contradiction; try exact I.
  - intros v V. destruct (H _ S0) as [_ (Ew & _)]. revert Ew. unfold sys_step. cbn [system_start sy_world w_running andb].
    rewrite status_of_iff in V. destruct V as (q & E & T & _).
    unfold step. cbn [world_start w_running w_listening]. unfold keepalive_turn. cbn [w_poisoned w_state w_queue w_broadcasting w_listening w_running].
    rewrite E, T. unfold handle_keepalive_status. destruct (find_interface ifaces (h_ip v)) as [n| |]; cbn [rbind fst with_world sy_world];
      intros F; discriminate F.
  - assert (Z : snd (sys_step e p h d (SysStatus (StatusDatagram ip port dg)) (system_start true true true true)) = [] /\
                sy_status (fst (sys_step e p h d (SysStatus (StatusDatagram ip port dg)) (system_start true true true true))) = true).
    { destruct (H _ S0) as [O (_ & Q & _)]. split; [exact O|]. rewrite <- Q. reflexivity. }
    clear H. unfold sys_step in Z. cbn [system_start sy_world w_running sy_status andb] in Z.
    assert (St : ~ stops_status dg).
    { intros St. rewrite (status_turn_stop ip port dg St) in Z. destruct Z as [_ Z]. discriminate Z. }
    destruct (status_turn_answer (StatusDatagram ip port dg)) as (out & E & A1 & A2 & _).
    { intros ip' port' b [F|[]]. inversion F; subst. exact St. }
    rewrite E in Z. destruct Z as [Z _]. cbn [snd] in Z. split; [|split; [|exact St]].
    + intros K. rewrite (A1 K) in Z. discriminate Z.
    + intros K. rewrite (A2 K) in Z. discriminate Z.
  - apply no_rpc_decode; [exact D|]. destruct (H _ S0) as [O (_ & _ & M & _)]. revert O M. unfold sys_step.
    cbn [system_start sy_world w_running sy_mapper andb]. unfold pm_turn. destruct (codec_decode (pi_datagram j)) as [[m|]| |]; auto.
    + destruct (pi_port j) as [q|]; [|intros _ M; discriminate M].
      destruct (send_to (pi_send j) _); cbn [fst snd]; [|intros _ M; discriminate M].
      rewrite map_app. intros O. apply app_eq_nil in O. destruct O as [_ O]. discriminate O.
    + intros _ M. discriminate M.
  - apply no_rpc_decode; [exact D|].
    set (s1 := fst (sys_run e p h d [SysMapper (mkPmIn getport_mount 9 (Some port) true)] (system_start true true true true))).
    assert (S1 : reached e p h d s1).
    { exists true, true, [SysMapper (mkPmIn getport_mount 9 (Some port) true)]. split; [intros x ifaces []|reflexivity]. }
    assert (R : w_running (sy_world s1) = true) by (vm_compute; reflexivity).
    assert (U : sy_udp s1 port = MountUdp true).
    { subst s1. rewrite srun_cons. cbn [sys_run fst]. unfold sys_step. cbn [system_start sy_world w_running sy_mapper andb].
      assert (T : pm_turn (mkPmIn getport_mount 9 (Some port) true) =
                  (true, [PmStart ProgramService port; PmReply 9 (codec_encode (reply_to (PortmapGetportReply port) 8))])).
      { unfold pm_turn. change (codec_decode (pi_datagram (mkPmIn getport_mount 9 (Some port) true))) with (codec_decode getport_mount).
        destruct (codec_decode getport_mount) as [[m|]| |] eqn:E; try (vm_compute in E; discriminate E).
        vm_compute in E. inversion E; subst. cbn [pi_port pi_send pi_from rpc_body ca_procedure gp_program rpc_xid].
        match goal with |- context [send_to true ?x] => replace (send_to true x) with true end. reflexivity. }
      rewrite T. cbn [fst with_mapper sy_udp]. unfold start_services. cbn [fold_left]. unfold at_key. rewrite N.eqb_refl. reflexivity. }
    destruct (H s1 S1) as [O (_ & _ & _ & _ & _ & _ & M)]. specialize (M port). revert O M. unfold sys_step. rewrite R, U. unfold udp_turn.
    unfold ms_turn. cbn [mi_datagram mi_from mi_send mi_poisoned mi_address].
    destruct (codec_decode (ni_datagram j)) as [[m|]| |]; auto.
    + destruct (rpc_procedure_router _ _ m) as [r| |]; try destruct (send_to (ni_send j) _); cbn [fst snd map with_udp sy_udp];
        intros O M; try discriminate O; unfold at_key in M; rewrite N.eqb_refl in M; discriminate M.
    + cbn [fst with_udp sy_udp]. intros _ M. unfold at_key in M. rewrite N.eqb_refl in M. discriminate M.
Qed.
Print Assumptions C100_noise_exactly.

(** Between a player's announcement and the turns of the two threads: three bytes at the
    ports, and a call that is cut off.  None of the program's outputs changes.  The
    announcement itself is not noise. *)
Example C100_case : forall e p h d,
  let hears := SysWorld (KaDatagram (status_datagram "XDJ-700" 3 192 168 10 52) one_iface) in
  let own := SysWorld (BroadcastTurn true) in
  let app := SysWorld (AppTurn (fun _ => true)) in
  let junk := [SysWorld (KaDatagram [1; 2; 3] one_iface); SysStatus (StatusDatagram 5 6 [1; 2; 3]);
               SysMapper (mkPmIn (firstn 30 getport_mount) 9 None true);
               SysUdp 4000 (mkNfsIn [1; 2; 3] 9 demo true true)] in
  Forall (fun i => is_datagram i /\ noise i) junk /\
  ~ noise hears /\
  with_extra (fun i => is_datagram i /\ noise i) [hears; own; app] (hears :: junk ++ [own; app]) /\
  (1 < List.length (List.concat (snd (sys_run e p h d [hears; own; app] (system_start true true true true)))))%nat.
Proof.
  intros e p h d hears own app0 junk.
  assert (F : Forall (fun i => is_datagram i /\ noise i) junk).
  { repeat apply Forall_cons; [..|apply Forall_nil]; (split; [cbn [is_datagram]|cbn [noise]]); try exact I.
    - intros v V. apply status_of_iff in V. destruct V as (q & E & _). vm_compute in E. discriminate E.
    - unfold is_hello, is_link_query, stops_status, status_header.
      split; [|split]; intros [K _]; destruct K as [K _]; vm_compute in K; try lia; try discriminate.
    - apply Forall_forall. intros x K. vm_compute in K. repeat (destruct K as [<-|K]; [reflexivity|]). destruct K.
    - apply no_rpc_decode; [|left; vm_compute; reflexivity].
      apply Forall_forall. intros x K. vm_compute in K. repeat (destruct K as [<-|K]; [reflexivity|]). destruct K.
    - apply Forall_forall. intros x K. vm_compute in K. repeat (destruct K as [<-|K]; [reflexivity|]). destruct K.
    - apply no_rpc_decode; [|left; vm_compute; reflexivity].
      apply Forall_forall. intros x K. vm_compute in K. repeat (destruct K as [<-|K]; [reflexivity|]). destruct K. }
  split; [exact F|]. split; [|split].
  - intros N. cbn [noise hears] in N.
    destruct (ka_receive (status_datagram "XDJ-700" 3 192 168 10 52)) as [q| |] eqn:E; [|vm_compute in E; discriminate E..].
    destruct (event_status q) as [[n ip]|] eqn:T.
    + apply (N (mkHeard ip n (ka_model q))). apply status_of_iff. exists q. auto.
    + vm_compute in E. inversion E; subst. vm_compute in T. discriminate T.
  - apply extra_keep. clear -F. induction F as [|i l H F IH]; [repeat (apply extra_keep); apply extra_none|].
    cbn [app]. apply extra_put; [exact H|exact IH].
  - vm_compute. lia.
Qed.
