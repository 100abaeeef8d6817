(** C95: what the process writes, and the process once it cannot write. *)

From Verif Require Import Base Unicode MPackets MKeepalive MNetwork MServer MStatus MDb MDatabase MLib MRpc MRpcServer MNfs
  MSystem MPrint SUdp SRpc SRpcServer SServer SNfs SSystem SDb SLib SPrint
  LBase LServer LServer2 LSystem LPrint PUdp PServer PDatabase PLib PNfs PRpcServer.
From Coq Require Import ZArith Lia String.
Open Scope list_scope.
Open Scope N_scope.

(** The steps that write a line, in terms of the bytes received. *)
Theorem C95_written_exactly : forall e p h d i s, w_running (sy_world s) = true -> input_bytes i ->
  (forall port v, sy_udp s port = NfsUdp v -> forall j, i <> SysUdp port j) ->
  (prints e p h d i s = true <-> line_written p s i).
Proof.
  intros e p h d i s R B Nf. unfold prints, line_written. rewrite R. cbn [andb].
  destruct i as [j|x|j|port j|ws|c chunk port|c|x]; cbn [input_bytes] in B; try (split; [discriminate|intros []]).
  - destruct j as [d0 f| |ok|ok]; cbn [world_prints]; try (split; [discriminate|intros []]).
    + rewrite Bool.andb_true_iff, ka_prints. reflexivity.
    + destruct (w_queue (sy_world s)); split; congruence.
  - rewrite Bool.andb_true_iff, status_prints_iff. reflexivity.
  - rewrite Bool.andb_true_iff, codec_prints by exact B. reflexivity.
  - destruct (sy_udp s port) as [|v|run] eqn:U.
    + split; [discriminate|]. intros [F _]. discriminate.
    + elim (Nf port v U j eq_refl).
    + rewrite Bool.andb_true_iff, codec_prints by exact B. split.
      * intros [-> X]. split; [reflexivity|exact X].
      * intros [E X]. injection E as ->. split; [reflexivity|exact X].
  - rewrite !Bool.andb_true_iff. assert (X : snd (accepted_first ws) = true <-> In None ws).
    { clear B Nf. induction ws as [|[c|] ws IH]; cbn [accepted_first].
      - split; [discriminate|intros []].
      - destruct (accepted_first ws). cbn [snd In] in *. rewrite IH. split; [auto|]. intros [F|F]; [discriminate|exact F].
      - cbn. tauto. }
    rewrite X. tauto.
  - destruct x as [q c|q|q c|q]; try (split; [discriminate|intros []]).
    destruct (sy_db s q) as [| |st|].
    + split; [discriminate|]. intros [[st F] _]. discriminate.
    + split; [discriminate|]. intros [[st F] _]. discriminate.
    + rewrite chunk_prints_iff by exact B. split; [|tauto]. intros X. split; [eauto|exact X].
    + split; [discriminate|]. intros [[st F] _]. discriminate.
Qed.
Print Assumptions C95_written_exactly.

(** A file service writes a line for what it cannot read and for every call it
    does not answer. *)
Theorem C95_written_by_file_service : forall e hs x, history_ok (hs ++ [x]) -> never_killed e hs ->
  (nfs_prints e (fst x) (fst (served e hs)) = true <->
   rpc_noise (ni_datagram (fst x)) \/ call_fails e hs x).
Proof. exact nfs_prints_iff. Qed.
Print Assumptions C95_written_by_file_service.

(** As long as nothing would be written, nothing differs. *)
Theorem C95_same_while_silent : forall e p h d is s,
  (forall k i, nth_error is k = Some i ->
     prints e p h d i (fst (sys_run e p h d (firstn k is) s)) = false) ->
  mute_run e p h d is s = sys_run e p h d is s.
Proof. exact silent_same. Qed.
Print Assumptions C95_same_while_silent.

(** A line that cannot be written ends whoever writes it, before anything is sent,
    and nobody else. *)
Theorem C95_ends_only_the_writer : forall e p h d i s, prints e p h d i s = true ->
  let s' := fst (mute_step e p h d i s) in
  writer_gone i s' /\ others_same i s s' /\ nothing_sent i s s' (snd (mute_step e p h d i s)).
Proof. exact writer_only. Qed.
Print Assumptions C95_ends_only_the_writer.

(** The process that cannot write ends exactly when its main thread notices the
    first device. *)
Theorem C95_ends_exactly : forall e p h d mp db is, inputs_typed (world_inputs is) ->
  (w_running (sy_world (fst (mute_run e p h d is (system_start true true mp db)))) = false <->
   noticed (world_inputs is)).
Proof.
  intros e p h d mp db is T.
  destruct (discovery_run e p h d is mp db T) as [[N R]|[N [R _]]]; rewrite R.
  - tauto.
  - split; [discriminate|]. intros F. contradiction.
Qed.
Print Assumptions C95_ends_exactly.

(** It never takes part in the link handshake: all it ever sends is its periodic
    announcement. *)
Theorem C95_never_links : forall e p h d is s from to port data,
  In (OutWorld (Sent from to port data)) (List.concat (snd (mute_run e p h d is s))) ->
  exists n, data = status_bytes (pn_ip n) (pn_mac n) 1.
Proof. exact mute_announces. Qed.
Print Assumptions C95_never_links.

(** The status service is there exactly as long as it gets nothing but complete
    statuses of players, hellos and link queries. *)
Theorem C95_status_service : forall e p h d is s,
  w_running (sy_world (fst (mute_run e p h d is s))) = true ->
  (sy_status (fst (mute_run e p h d is s)) = true <->
   sy_status s = true /\ Forall status_expected (status_inputs is)).
Proof. exact status_run_mute. Qed.
Print Assumptions C95_status_service.

(** The port mapper: nothing but calls that can be answered, and empty datagrams. *)
Theorem C95_port_mapper : forall e p h d is s,
  w_running (sy_world (fst (mute_run e p h d is s))) = true ->
  Forall (fun i => bytes_ok (pi_datagram i)) (mapper_inputs is) ->
  (sy_mapper (fst (mute_run e p h d is s)) = true <->
   sy_mapper s = true /\ Forall mapper_expected (mapper_inputs is)).
Proof. exact mapper_run_mute. Qed.
Print Assumptions C95_port_mapper.

(** A database connection answers as ever up to the first chunk that it cannot
    read or has no controller for, and nothing from there on. *)
Theorem C95_connection : forall e p h d port is s st, sy_db s port = Serving st -> no_query port is ->
  w_running (sy_world (fst (mute_run e p h d is s))) = true -> Forall bytes_ok (chunks_at port is) ->
  exists quiet, quiet_part p (chunks_at port is) quiet /\
    answers_at port (List.concat (snd (mute_run e p h d is s))) = serve p h d st quiet.
Proof. exact connection_mute. Qed.
Print Assumptions C95_connection.

(** A file service answers as ever up to the first datagram that it cannot read or
    call that it does not answer, and nothing from there on. *)
Theorem C95_file_service : forall e p h d port is s hs, sy_udp s port = NfsUdp service_new -> no_start port is ->
  w_running (sy_world (fst (mute_run e p h d is s))) = true ->
  map fst hs = udp_inputs port is -> history_ok hs ->
  exists quiet, quiet_calls e [] hs quiet /\
    udp_outputs port (List.concat (snd (mute_run e p h d is s))) = List.concat (snd (served e quiet)).
Proof.
  intros e p h d port is s hs U N R M Hok.
  destruct (file_mute e p h d port is s [] hs) as [quiet [Q A]]; try assumption.
  - intros k x F. destruct k; discriminate.
  - exists quiet. split; [exact Q|]. rewrite A. reflexivity.
Qed.
Print Assumptions C95_file_service.

Lemma refusable_iff : forall os, existsb refusable os = true <-> sends_freely os.
Proof.
  intros os. rewrite existsb_exists. unfold sends_freely. split; intros (o & I & H); exists o; split; try exact I.
  - destruct o as [[f t q b|x|x]|x|x|q t b|c|c b|x]; try discriminate H; eauto 9.
  - destruct H as [(f & t & q & b & ->)|[(x & ->)|[(c & b & ->)|(x & ->)]]]; reflexivity.
Qed.

(** A step whose answer the system does not refuse is as before; so is one that sends
    nothing, or only as an RPC service. *)
Theorem C95_granted : forall e p h d i granted s,
  granted = true \/ ~ sends_freely (snd (mute_step e p h d i s)) ->
  mute_send e p h d i granted s = mute_step e p h d i s.
Proof.
  intros e p h d i granted s H. unfold mute_send. destruct (mute_step e p h d i s) as [s' os]. cbn [snd] in H.
  destruct H as [->|H]; [reflexivity|]. rewrite <- refusable_iff in H. destruct (existsb refusable os); [elim H; reflexivity|].
  rewrite Bool.orb_true_r. reflexivity.
Qed.
Print Assumptions C95_granted.

Lemma mute_sends_inv : forall e p h d i s, sends_freely (snd (mute_step e p h d i s)) ->
  w_running (sy_world s) = true /\ prints e p h d i s = false.
Proof.
  intros e p h d i s F. destruct (w_running (sy_world s)) eqn:R.
  - split; [reflexivity|]. destruct (prints e p h d i s) eqn:Pr; [|reflexivity].
    exfalso. destruct (writer_only e p h d i s Pr) as (_ & _ & N). destruct F as (o & I & F).
    destruct i as [[a b| |ok|ok]|x|j|port j|ws|c chunk port|c|x]; cbn [nothing_sent] in N; try (rewrite N in I; destruct I).
    + destruct N as (y & N & _). rewrite N in I. destruct I as [<-|[]].
      destruct F as [(? & ? & ? & ? & F)|[(? & F)|[(? & ? & F)|(? & F)]]]; discriminate F.
    + destruct N as (b & r & _ & N & _). rewrite N in I. apply in_map_iff in I. destruct I as (y & <- & _).
      destruct F as [(? & ? & ? & ? & F)|[(? & F)|[(? & ? & F)|(? & F)]]]; discriminate F.
  - exfalso. unfold mute_step, prints in F. rewrite R in F. cbn [andb] in F. unfold sys_step in F. rewrite R in F.
    destruct F as (o & [] & _).
Qed.

(** An answer that is refused while nothing can be written does what some other input
    would have done: it ends its service, without an answer; an announcement takes the
    shared state with it. *)
Theorem C95_refused : forall e p h d i s, sends_freely (snd (mute_step e p h d i s)) ->
  (forall c chunk port, i <> SysQuery c chunk port) ->
  mute_send e p h d i false s = mute_step e p h d (met_with i) s.
Proof.
  intros e p h d i s F Nq. destruct (mute_sends_inv e p h d i s F) as [R Pr].
  pose proof (proj2 (refusable_iff _) F) as B. unfold mute_send. destruct (mute_step e p h d i s) as [s' os] eqn:E. cbn [snd] in *.
  rewrite B. cbn [orb negb]. unfold mute_step in E. rewrite Pr in E.
  assert (M : forall A (g : A -> sys_output) l, os = map g l -> (forall a, refusable (g a) = false) -> False).
  { intros A g l -> H. apply existsb_exists in B. destruct B as (o & I & Q). apply in_map_iff in I. destruct I as (a & <- & _).
    rewrite H in Q. discriminate Q. }
  clear F. unfold sys_step in E. rewrite R in E. unfold prints in Pr. rewrite R in Pr. cbn [andb] in Pr.
  destruct i as [[a b| |ok|ok]|x|j|port j|ws|c chunk port|c|x]; cbn [met_with].
  - exfalso. unfold step in E. rewrite R in E. destruct (w_listening (sy_world s)); [|inversion E; subst; discriminate B].
    unfold keepalive_turn in E. destruct (ka_receive a) as [q| |]; try (inversion E; subst; discriminate B).
    destruct (event_status q) as [[n ip]|]; [|inversion E; subst; discriminate B].
    destruct (w_poisoned (sy_world s)); [inversion E; subst; discriminate B|].
    destruct (handle_keepalive_status _ _ _ _ _) as [[t es]| |]; try (inversion E; subst; discriminate B).
    inversion E; subst. rewrite map_map in M. eapply M; [reflexivity|]. reflexivity.
  - unfold step in E. rewrite R in E. inversion E; subst. discriminate B.
  - unfold mute_step, prints, sys_step. rewrite R. cbn [andb world_prints]. revert E. unfold step. rewrite R.
    destruct (w_broadcasting (sy_world s)) eqn:Bc; [|intros E; inversion E; subst; discriminate B].
    unfold broadcast_turn. destruct (w_poisoned (sy_world s)) eqn:Po; [intros E; inversion E; subst; discriminate B|].
    destruct (st_address (w_state (sy_world s))) as [n|] eqn:Ad; [|intros E; inversion E; subst; discriminate B].
    unfold send_broadcast_payload. destruct ok; [|intros E; inversion E; subst; discriminate B].
    rewrite status_encoded. cbn [rbind]. intros E. inversion E; subst. reflexivity.
  - cbn [world_prints] in Pr. unfold step in E. rewrite R in E. unfold app_turn in E.
    destruct (w_queue (sy_world s)); [|discriminate Pr]. inversion E; subst. discriminate B.
  - destruct (sy_status s) eqn:St; [|inversion E; subst; discriminate B].
    unfold mute_step, prints. rewrite R, St. cbn [andb].
    replace (status_prints StatusRecvError) with true by reflexivity. cbn [unprinted].
    destruct (status_turn x) as [out| |]; inversion E; subst; try discriminate B.
    assert (Fi : filter (fun o => negb (refusable o)) (map OutStatus out) = []).
    { clear. induction out as [|o out IH]; [reflexivity|exact IH]. }
    rewrite Fi. reflexivity.
  - exfalso. destruct (sy_mapper s); [|inversion E; subst; discriminate B]. destruct (pm_turn j) as [r outs].
    inversion E; subst. eapply M; reflexivity.
  - exfalso. destruct (udp_turn e (sy_world s) port j (sy_udp s port)) as [v outs] eqn:U. inversion E; subst. clear E.
    unfold udp_turn in U. destruct (sy_udp s port) as [|w|[|]].
    + inversion U; subst. discriminate B.
    + destruct (nfs_turn e j w). inversion U; subst. eapply M; reflexivity.
    + destruct (ms_turn _). inversion U; subst. eapply M; reflexivity.
    + inversion U; subst. discriminate B.
  - exfalso. destruct (sy_joined s); [|inversion E; subst; discriminate B].
    destruct (sy_mapper s); inversion E; subst; [|discriminate B]. eapply M; reflexivity.
  - elim (Nq c chunk port eq_refl).
  - inversion E; subst. discriminate B.
  - destruct x as [q c|q|q c|q].
    + inversion E; subst. discriminate B.
    + cbn [db_step] in E. destruct (sy_db s q); inversion E; subst; discriminate B.
    + unfold mute_step, prints. rewrite R. cbn [andb]. cbn [db_step] in E.
      destruct (sy_db s q) as [| |st|]; try (inversion E; subst; discriminate B).
      replace (chunk_prints p h d st []) with true by (destruct p; reflexivity). cbn [unprinted].
      destruct (process p h d st c) as [[a st']| |]; inversion E; subst; try discriminate B.
      reflexivity.
    + cbn [db_step] in E. destruct (sy_db s q); inversion E; subst; discriminate B.
Qed.
Print Assumptions C95_refused.

(** A port number that is refused ends the connection that asked for it as if the client
    had closed it; the database port it named has been opened all the same. *)
Theorem C95_refused_port : forall e p h d c chunk port s,
  sends_freely (snd (mute_step e p h d (SysQuery c chunk port) s)) ->
  mute_send e p h d (SysQuery c chunk port) false s =
  (fst (mute_step e p h d (SysQueryEnd c) (fst (mute_step e p h d (SysQuery c chunk port) s))), []) /\
  exists q, port = Some q /\ sy_db (fst (mute_send e p h d (SysQuery c chunk port) false s)) q = Listening.
Proof.
  intros e p h d c chunk port s F. destruct (mute_sends_inv e p h d _ s F) as [R Pr].
  pose proof (proj2 (refusable_iff _) F) as B. clear F.
  assert (E : exists q, port = Some q /\ mute_step e p h d (SysQuery c chunk port) s =
    (with_db s (set_port (sy_db s) q Listening), [OutQuery c (be 2 q)])).
  { revert B. unfold mute_step. rewrite Pr. unfold sys_step. rewrite R.
    destruct (sy_query s c) eqn:Q; [|intros B; discriminate B]. destruct port as [q|]; [|intros B; discriminate B].
    intros _. exists q. split; reflexivity. }
  destruct E as (q & -> & E). unfold mute_send. rewrite E. cbn [existsb refusable orb negb filter fst].
  unfold mute_step, prints. cbn [with_db sy_world]. rewrite R. cbn [andb]. unfold sys_step. cbn [with_db sy_world]. rewrite R.
  split; [reflexivity|]. exists q. split; [reflexivity|]. cbn [unsent with_query with_db sy_db fst]. unfold set_port. rewrite N.eqb_refl. reflexivity.
Qed.
Print Assumptions C95_refused_port.

Lemma poisoned_stays : forall e p h d i granted s, w_poisoned (sy_world s) = true ->
  w_poisoned (sy_world (fst (mute_send e p h d i granted s))) = true /\
  w_state (sy_world (fst (mute_send e p h d i granted s))) = w_state (sy_world s) /\
  (forall from to port data, ~ In (OutWorld (Sent from to port data)) (snd (mute_send e p h d i granted s))).
Proof.
  intros e p h d i granted s P.
  assert (M : w_poisoned (sy_world (fst (mute_step e p h d i s))) = true /\
              w_state (sy_world (fst (mute_step e p h d i s))) = w_state (sy_world s) /\
              (forall from to port data, ~ In (OutWorld (Sent from to port data)) (snd (mute_step e p h d i s)))).
  { destruct (mute_world_step e p h d i s) as [W O]. rewrite W.
    assert (S : forall j, w_poisoned (fst (world_mute (sy_world s) j)) = true /\
                w_state (fst (world_mute (sy_world s) j)) = w_state (sy_world s)).
    { intros j. unfold world_mute. destruct (w_running (sy_world s) && world_prints (sy_world s) j)%bool eqn:Pr.
      - destruct j as [a b| |ok|ok]; cbn [world_unprinted]; try (split; [exact P|reflexivity]).
        destruct (w_queue (sy_world s)); split; try exact P; reflexivity.
      - unfold step. destruct (w_running (sy_world s)); [|split; [exact P|reflexivity]].
        destruct j as [a b| |ok|ok].
        + destruct (w_listening (sy_world s)); [|split; [exact P|reflexivity]]. unfold keepalive_turn.
          destruct (ka_receive a) as [q| |]; [|split; [exact P|reflexivity]..].
          destruct (event_status q) as [[n ip]|]; [rewrite P|]; (split; [exact P|reflexivity]).
        + split; [exact P|reflexivity].
        + destruct (w_broadcasting (sy_world s)); [unfold broadcast_turn; rewrite P|]; (split; [exact P|reflexivity]).
        + cbn [andb world_prints] in Pr. unfold app_turn. destruct (w_queue (sy_world s)); [split; [exact P|reflexivity]|discriminate Pr]. }
    split; [destruct i; try exact P; apply S|]. split; [destruct i; try reflexivity; apply S|].
    intros from to port data I.
    assert (J : In (Sent from to port data) (world_outputs (snd (mute_step e p h d i s)))).
    { apply in_flat_map. eexists. split; [exact I|left; reflexivity]. }
    rewrite O in J. destruct i as [j|x|j|q j|ws|c chunk q|c|x]; try (destruct J).
    apply mute_sends in J. destruct J as [ok [-> J]]. unfold broadcast_turn in J. rewrite P in J. destruct J. }
  unfold mute_send. destruct (mute_step e p h d i s) as [s' os] eqn:E. cbn [fst snd] in M.
  destruct (granted || negb (existsb refusable os))%bool eqn:G; [exact M|].
  destruct M as (M1 & M2 & M3). cbn [fst snd]. split; [|split].
  - destruct i as [j|x|j|q j|ws|c chunk q|c|[? ?|?|? ?|?]]; cbn [unsent with_world with_status with_query with_db sy_world w_poisoned]; try exact M1. reflexivity.
  - destruct i as [j|x|j|q j|ws|c chunk q|c|[? ?|?|? ?|?]]; exact M2.
  - intros from to port data I. apply filter_In in I. destruct I as [_ I]. discriminate I.
Qed.

(** Without output, a refused announcement is the last: from then on nothing is announced
    and no device or network is recorded, whatever happens. *)
Theorem C95_refused_announcement : forall e p h d ok s is,
  sends_freely (snd (mute_step e p h d (SysWorld (BroadcastTurn ok)) s)) ->
  let r := mute_sends_run e p h d ((SysWorld (BroadcastTurn ok), false) :: is) s in
  (forall from to port data, ~ In (OutWorld (Sent from to port data)) (List.concat (snd r))) /\
  w_state (sy_world (fst r)) = w_state (sy_world s).
Proof.
  intros e p h d ok s is F.
  assert (K : forall is s, w_poisoned (sy_world s) = true ->
    (forall from to port data, ~ In (OutWorld (Sent from to port data)) (List.concat (snd (mute_sends_run e p h d is s)))) /\
    w_state (sy_world (fst (mute_sends_run e p h d is s))) = w_state (sy_world s)).
  { clear. induction is as [|[i granted] is IH]; intros s P; [split; [intros ? ? ? ? []|reflexivity]|].
    destruct (poisoned_stays e p h d i granted s P) as (A & B & C). cbn [mute_sends_run].
    destruct (mute_send e p h d i granted s) as [s' o]. cbn [fst snd] in *. destruct (IH s' A) as [X Y].
    destruct (mute_sends_run e p h d is s') as [s2 os]. cbn [fst snd] in *. split; [|congruence].
    intros from to port data I. cbn [List.concat] in I. apply in_app_or in I. destruct I as [I|I]; [elim (C _ _ _ _ I)|elim (X _ _ _ _ I)]. }
  cbv zeta. cbn [mute_sends_run].
  assert (E : w_poisoned (sy_world (fst (mute_send e p h d (SysWorld (BroadcastTurn ok)) false s))) = true /\
              w_state (sy_world (fst (mute_send e p h d (SysWorld (BroadcastTurn ok)) false s))) = w_state (sy_world s) /\
              forall from to port data, ~ In (OutWorld (Sent from to port data)) (snd (mute_send e p h d (SysWorld (BroadcastTurn ok)) false s))).
  { pose proof (proj2 (refusable_iff _) F) as B. destruct (mute_world_step e p h d (SysWorld (BroadcastTurn ok)) s) as [W _].
    unfold mute_send. destruct (mute_step e p h d (SysWorld (BroadcastTurn ok)) s) as [s' os]. cbn [fst snd] in *. rewrite B. cbn [orb negb fst snd].
    split; [reflexivity|]. split.
    - cbn [unsent with_world sy_world w_state]. rewrite W. unfold world_mute. cbn [world_prints]. rewrite Bool.andb_false_r.
      unfold step. destruct (w_running (sy_world s)); [|reflexivity]. destruct (w_broadcasting (sy_world s)); [|reflexivity].
      unfold broadcast_turn. destruct (w_poisoned (sy_world s)); [reflexivity|]. destruct (st_address (w_state (sy_world s))); [|reflexivity].
      destruct (send_broadcast_payload _ _ _); reflexivity.
    - intros from to port data I. apply filter_In in I. destruct I as [_ I]. discriminate I. }
  destruct (mute_send e p h d (SysWorld (BroadcastTurn ok)) false s) as [s' o]. cbn [fst snd] in E. destruct E as (A & B & C).
  destruct (K is s' A) as [X Y]. destruct (mute_sends_run e p h d is s') as [s2 os]. cbn [fst snd] in *. split; [|congruence].
  intros from to port data I. cbn [List.concat] in I. apply in_app_or in I. destruct I as [I|I]; [elim (C _ _ _ _ I)|elim (X _ _ _ _ I)].
Qed.
Print Assumptions C95_refused_announcement.

(** The claim that the process does not depend on what becomes of its output is
    false: with one status of a player on the network it goes on for ever, and
    ends without its output. *)
Theorem C95_output_does_not_matter_refuted : forall e p h d,
  let is := [SysWorld (KaDatagram (status_datagram "CDJ" 1 192 168 10 9) one_iface); SysWorld (AppTurn (fun _ => true))] in
  w_running (sy_world (fst (sys_run e p h d is (system_start true true true true)))) = true /\
  w_running (sy_world (fst (mute_run e p h d is (system_start true true true true)))) = false.
Proof. intros e p h d is. split; vm_compute; reflexivity. Qed.
Print Assumptions C95_output_does_not_matter_refuted.

(** A player's status keeps the status service; a mixer's ends it.  The greeting
    and a supported request are answered; an unreadable chunk ends the connection. *)
Example C95_case :
  let player := lit "Qspt1WmJOL" ++ [0x0a] ++ lit "XDJ-700" ++ repeat 0 13 ++ [1; 4; 3] ++ repeat 0 20 in
  let mixer := lit "Qspt1WmJOL" ++ [0x29] ++ lit "DJM" ++ repeat 0 17 ++ [1; 4; 3] in
  let s := fst (mute_run Little Checked reverse_order example_db
    [SysJoin [Some 1]; SysQuery 1 [0] (Some 40000); SysDb (Connect 40000)] (system_start true true true true)) in
  let is := [SysStatus (StatusDatagram 1 2 player); SysDb (Chunk 40000 [0x11; 0; 0; 0; 1]);
             SysDb (Chunk 40000 [1; 2; 3]); SysDb (Chunk 40000 [0x11; 0; 0; 0; 1])] in
  status_expected (StatusDatagram 1 2 player) /\ ~ status_expected (StatusDatagram 1 2 mixer) /\
  sy_db s 40000 = Serving None /\ no_query 40000 is /\
  sy_status (fst (mute_run Little Checked reverse_order example_db is s)) = true /\
  sy_status (fst (mute_run Little Checked reverse_order example_db (is ++ [SysStatus (StatusDatagram 1 2 mixer)]) s)) = false /\
  answers_at 40000 (List.concat (snd (mute_run Little Checked reverse_order example_db is s))) = [[0x11; 0; 0; 0; 1]] /\
  answers_at 40000 (List.concat (snd (sys_run Little Checked reverse_order example_db is s))) =
    [[0x11; 0; 0; 0; 1]; lit "panic"; [0x11; 0; 0; 0; 1]].
Proof.
  cbv zeta. split; [apply status_silent_iff; vm_compute; reflexivity|].
  split; [rewrite <- status_silent_iff; vm_compute; discriminate|].
  split; [vm_compute; reflexivity|].
  split; [intros c chunk [F|[F|[F|[F|[]]]]]; discriminate F|].
  repeat split; vm_compute; reflexivity.
Qed.

(** A file service: a lookup that is answered, one that is not, and the first again. *)
Example C95_file_case :
  let a := demo_lookup demo 1 (lit "a") (repeat 0 32) in
  let z := demo_lookup demo 2 (lit "zz") (repeat 0 32) in
  let s := with_udp (system_start true true true true) (fun _ => NfsUdp service_new) in
  let is := [SysUdp 700 (fst a); SysUdp 700 (fst z); SysUdp 700 (fst a)] in
  no_start 700 is /\ udp_inputs 700 is = map fst [a; z; a] /\
  w_running (sy_world (fst (mute_run Little Checked reverse_order example_db is s))) = true /\
  len (udp_outputs 700 (List.concat (snd (mute_run Little Checked reverse_order example_db is s)))) = 1 /\
  len (udp_outputs 700 (List.concat (snd (sys_run Little Checked reverse_order example_db is s)))) = 2.
Proof.
  cbv zeta. split; [intros j [F|[F|[F|[]]]]; discriminate F|]. repeat split; vm_compute; reflexivity.
Qed.

(** A device is heard, and the first announcement is refused: the program goes on
    running, announces nothing more and does not record the second device.  A greeting
    whose answer is refused ends the status service; a database client's greeting whose
    answer is refused ends its connection. *)
Example C95_refused_case : forall e p h d,
  let first := SysWorld (KaDatagram (status_datagram "CDJ" 1 192 168 10 9) one_iface) in
  let second := SysWorld (KaDatagram (status_datagram "XDJ-700" 2 192 168 10 11) one_iface) in
  let own := SysWorld (BroadcastTurn true) in
  let s0 := system_start true true true true in
  let s1 := fst (mute_sends_run e p h d [(first, true)] s0) in
  sends_freely (snd (mute_step e p h d own s1)) /\
  w_running (sy_world (fst (mute_sends_run e p h d [(first, true); (own, false); (second, true); (own, true)] s0))) = true /\
  map pl_number (st_players (w_state (sy_world (fst (mute_sends_run e p h d [(first, true); (own, false); (second, true); (own, true)] s0))))) = [1] /\
  map pl_number (st_players (w_state (sy_world (fst (mute_sends_run e p h d [(first, true); (own, true); (second, true)] s0))))) = [1; 2] /\
  let ask := SysQuery 5 [0] (Some 4000) in
  let connected := fst (mute_sends_run e p h d [(SysJoin [Some 5], true); (ask, true); (SysDb (Connect 4000), true)] s0) in
  sends_freely (snd (mute_step e p h d (SysDb (Chunk 4000 [17; 0; 0; 0; 1])) connected)) /\
  sy_db (fst (mute_send e p h d (SysDb (Chunk 4000 [17; 0; 0; 0; 1])) false connected)) 4000 = Gone /\
  (exists st, sy_db (fst (mute_send e p h d (SysDb (Chunk 4000 [17; 0; 0; 0; 1])) true connected)) 4000 = Serving st).
Proof.
  intros e p h d first second own s0 s1.
  split; [apply refusable_iff; vm_compute; reflexivity|]. split; [vm_compute; reflexivity|]. split; [vm_compute; reflexivity|].
  split; [vm_compute; reflexivity|]. intros ask connected. split; [apply refusable_iff; vm_compute; reflexivity|].
  split; [vm_compute; reflexivity|]. eexists. vm_compute. reflexivity.
Qed.
