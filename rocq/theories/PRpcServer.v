(** Properties C44 to C46: the port mapper and the mount service. *)

From Verif Require Import Base Unicode SUdp MRpc SRpc MNetwork MRpcServer SRpcServer LBase LUnicode LUdp LRpc LRpc2 PRpc LRpcServer.
From Coq Require Import ZArith String.
Open Scope list_scope.
Open Scope N_scope.

(** ** C44 *)

(** Decoding panics exactly on datagrams of at least 8 bytes with message type 1. *)
Theorem C44_panics_exactly : forall d, bytes_ok d -> (codec_decode d = Panic <-> reply_type d).
Proof.
  intros d Hd. destruct (codec_cases d Hd) as [[m [c [E [C _]]]]|[[E [R _]]|[E [_ Nr]]]].
  - rewrite E. split; [discriminate|]. intros [_ F]. destruct C as [c' [_ [_ [_ [G _]]]]]. congruence.
  - rewrite E. split; intros _; [exact R|reflexivity].
  - split; [intros F; destruct E; congruence|contradiction].
Qed.
Print Assumptions C44_panics_exactly.

(** The port mapper is still running after a history exactly if no input was of
    the kinds in [pm_stops]. *)
Theorem C44_running_exactly : forall is, Forall (fun i => bytes_ok (pi_datagram i)) is ->
  (fst (pm_run true is) = true <-> Forall (fun i => ~ pm_stops i) is).
Proof.
  intros is H. rewrite pm_run_loop, loop_running.
  induction H as [|i is Hi _ IH]; [split; constructor|].
  destruct (pm_turn_cases i Hi) as [[T [N _]]|[T [N _]]]; split; intros F; inversion F; subst;
    constructor; try tauto; try congruence.
Qed.
Print Assumptions C44_running_exactly.

(** The claim that no datagram can stop it is false: after these eight bytes
    nothing is ever answered, whatever comes and whoever sends. *)
Theorem C44_no_datagram_stops_it_refuted : forall from port send later,
  let r := pm_run true (mkPmIn [0; 0; 0; 0; 0; 0; 0; 1] from port send :: later) in
  fst r = false /\ forall outs, In outs (snd r) -> outs = [].
Proof.
  intros from port send later r. unfold r. rewrite pm_run_loop. cbn [loop].
  change (pm_turn (mkPmIn [0; 0; 0; 0; 0; 0; 0; 1] from port send)) with (false, @nil pm_output).
  cbn iota. pose proof (fun k => loop_dead pm_turn later k) as D.
  destruct (loop pm_turn false later) as [b rest]. cbn [fst snd] in *. split; [exact (proj1 (D 0%nat))|].
  intros outs [<-|H]; [reflexivity|].
  destruct (In_nth _ _ [] H) as [k [_ <-]]. exact (proj2 (D k)).
Qed.
Print Assumptions C44_no_datagram_stops_it_refuted.

(** ** C45 *)

(** While it runs, every call gets exactly one reply, to its sender and with its
    transaction id, announcing the freshly allocated port; a service is started
    behind that port exactly for GETPORT; other datagrams get nothing.  The input
    that stops it gets no reply, and nothing later gets anything. *)
Theorem C45_history : forall is k i, Forall (fun i => bytes_ok (pi_datagram i)) is ->
  nth_error is k = Some i ->
  let outs := nth k (snd (pm_run true is)) [] in
  (Forall (fun i => ~ pm_stops i) (firstn (k + 1) is) -> pm_answers i outs) /\
  (pm_stops i -> forall to d, ~ In (PmReply to d) outs) /\
  (Exists pm_stops (firstn k is) -> outs = []).
Proof.
  intros is k i H Hk outs. unfold outs. rewrite pm_run_loop.
  assert (Hi : bytes_ok (pi_datagram i)).
  { rewrite Forall_forall in H. apply H. apply (nth_error_In is k Hk). }
  assert (Hf : Forall (fun i => bytes_ok (pi_datagram i)) (firstn k is)).
  { rewrite <- (firstn_skipn k is) in H. rewrite Forall_app in H. exact (proj1 H). }
  assert (Run : Forall (fun i => ~ pm_stops i) (firstn k is) -> Forall (fun i => fst (pm_turn i) = true) (firstn k is)).
  { intros F. rewrite Forall_forall in F, Hf |- *. intros x Hx.
    destruct (pm_turn_cases x (Hf x Hx)) as [[T _]|[_ [N _]]]; [exact T|contradiction (F x Hx N)]. }
  assert (Dead : Exists pm_stops (firstn k is) -> nth k (snd (loop pm_turn true is)) [] = []).
  { intros E. apply loop_after. rewrite Exists_exists in E |- *. destruct E as [x [Hx Sx]].
    exists x. split; [exact Hx|]. rewrite Forall_forall in Hf.
    destruct (pm_turn_cases x (Hf x Hx)) as [[_ [N _]]|[T _]]; [contradiction|exact T]. }
  assert (Snoc : firstn (k + 1) is = firstn k is ++ [i]).
  { clear -Hk. revert is Hk. induction k; intros [|j is] Hk; try discriminate Hk.
    - injection Hk as ->. reflexivity.
    - cbn [Nat.add firstn app]. f_equal. apply IHk. exact Hk. }
  split; [|split].
  - intros F. rewrite Snoc, Forall_app in F. destruct F as [F1 F2]. inversion F2 as [|? ? Ni _]; subst.
    rewrite (loop_outputs pm_turn is k i Hk (Run F1)).
    destruct (pm_turn_cases i Hi) as [[_ [_ A]]|[_ [S _]]]; [exact A|contradiction].
  - intros S to d.
    destruct (Forall_Exists_dec (fun i => fst (pm_turn i) = true) (fun x => Bool.bool_dec (fst (pm_turn x)) true) (firstn k is)) as [F|E].
    + rewrite (loop_outputs pm_turn is k i Hk F).
      destruct (pm_turn_cases i Hi) as [[_ [N _]]|[_ [_ N]]]; [contradiction|apply N].
    + rewrite (loop_after pm_turn is k); [intros []|].
      rewrite Exists_exists in E |- *. destruct E as [x [Hx Nx]]. exists x. split; [exact Hx|].
      destruct (fst (pm_turn x)); congruence.
  - exact Dead.
Qed.
Print Assumptions C45_history.

(** The claim that every announced port is served is false: a standard DUMP call
    is answered with the port of a socket nobody serves. *)
Theorem C45_every_port_served_refuted : exists d xid, forall from port, port < 65536 ->
  pm_turn (mkPmIn d from (Some port) true) =
  (true, [PmReply from (std_reply xid (std_getport_result port))]).
Proof.
  exists (std_call 5 2 100000 2 4 (std_auth 1 (unix_body 0 [] 0 0 [])) (std_auth 0 []) []), 5.
  intros from port Hp. unfold pm_turn. cbn [pi_datagram pi_port pi_send pi_from].
  assert (E : codec_decode (std_call 5 2 100000 2 4 (std_auth 1 (unix_body 0 [] 0 0 [])) (std_auth 0 []) []) =
    Ok (Some (mkRpc 5 (Call (mkCall 2 Portmap 2 PortmapDump (mkCred 1 20 0 0 0 0 0) AuthNull)))))
    by (vm_compute; reflexivity).
  rewrite E. cbn [rpc_body ca_procedure rpc_xid]. rewrite getport_reply_datagram. unfold send_to.
  rewrite std_reply_len. reflexivity.
Qed.
Print Assumptions C45_every_port_served_refuted.

Definition getport_nfs : bytes :=
  std_call 7 2 100000 2 3 (std_auth 1 (unix_body 0 [] 0 0 [])) (std_auth 0 [])
    (word 100003 ++ word 2 ++ word 17 ++ word 0).
Definition getport_mount : bytes :=
  std_call 8 2 100000 2 3 (std_auth 1 (unix_body 0 [] 0 0 [])) (std_auth 0 [])
    (word 100005 ++ word 1 ++ word 17 ++ word 0).

(** Two clients, a broken datagram in between. *)
Example C45_case :
  pm_run true [mkPmIn getport_mount 1 (Some 4000) true; mkPmIn [1; 2; 3] 9 (Some 4001) true;
               mkPmIn getport_nfs 2 (Some 4002) true] =
  (true, [[PmStart ProgramService 4000; PmReply 1 (std_reply 8 (word 4000))]; [];
          [PmStart NfsService 4002; PmReply 2 (std_reply 7 (word 4002))]]).
Proof. vm_compute. reflexivity. Qed.

Example C44_case :
  pm_run true [mkPmIn getport_mount 1 (Some 4000) true; mkPmIn getport_mount 1 None true;
               mkPmIn getport_nfs 2 (Some 4002) true] =
  (false, [[PmStart ProgramService 4000; PmReply 1 (std_reply 8 (word 4000))]; []; []]).
Proof. vm_compute. reflexivity. Qed.

(** ** C46 *)

(** The mount service answers each mount and export call, in order, to its
    sender and with its transaction id; it ends at the first input of the kinds in
    [ms_stops], without answering it, and answers nothing afterwards. *)
Theorem C46_history : forall is k i, Forall (fun i => bytes_ok (mi_datagram i)) is ->
  nth_error is k = Some i ->
  let outs := nth k (snd (ms_run true is)) [] in
  (Forall (fun i => ~ ms_stops i) (firstn (k + 1) is) -> ms_answers i outs) /\
  (Exists ms_stops (firstn (k + 1) is) -> outs = []).
Proof.
  intros is k i H Hk outs. unfold outs. rewrite ms_run_loop.
  assert (Hi : bytes_ok (mi_datagram i)).
  { rewrite Forall_forall in H. apply H. apply (nth_error_In is k Hk). }
  assert (Hf : Forall (fun i => bytes_ok (mi_datagram i)) (firstn k is)).
  { rewrite <- (firstn_skipn k is) in H. rewrite Forall_app in H. exact (proj1 H). }
  assert (Run : Forall (fun i => ~ ms_stops i) (firstn k is) -> Forall (fun i => fst (ms_turn i) = true) (firstn k is)).
  { intros F. rewrite Forall_forall in F, Hf |- *. intros x Hx.
    destruct (ms_turn_cases x (Hf x Hx)) as [[T _]|[_ [N _]]]; [exact T|contradiction (F x Hx N)]. }
  assert (Dead : Exists ms_stops (firstn k is) -> nth k (snd (loop ms_turn true is)) [] = []).
  { intros E. apply loop_after. rewrite Exists_exists in E |- *. destruct E as [x [Hx Sx]].
    exists x. split; [exact Hx|]. rewrite Forall_forall in Hf.
    destruct (ms_turn_cases x (Hf x Hx)) as [[_ [N _]]|[T _]]; [contradiction|exact T]. }
  assert (Snoc : firstn (k + 1) is = firstn k is ++ [i]).
  { clear -Hk. revert is Hk. induction k; intros [|j is] Hk; try discriminate Hk.
    - injection Hk as ->. reflexivity.
    - cbn [Nat.add firstn app]. f_equal. apply IHk. exact Hk. }
  rewrite Snoc. split.
  - intros F. rewrite Forall_app in F. destruct F as [F1 F2]. inversion F2 as [|? ? Ni _]; subst.
    rewrite (loop_outputs ms_turn is k i Hk (Run F1)).
    destruct (ms_turn_cases i Hi) as [[_ [_ A]]|[_ [S _]]]; [exact A|contradiction].
  - intros E. rewrite Exists_app in E. destruct E as [E|E]; [exact (Dead E)|].
    inversion E as [? ? S|? ? F]; subst; [|inversion F].
    destruct (Forall_Exists_dec (fun i => fst (ms_turn i) = true) (fun x => Bool.bool_dec (fst (ms_turn x)) true) (firstn k is)) as [F|F].
    + rewrite (loop_outputs ms_turn is k i Hk F).
      destruct (ms_turn_cases i Hi) as [[_ [N _]]|[_ [_ N]]]; [contradiction|exact N].
    + apply (loop_after ms_turn is k).
      rewrite Exists_exists in F |- *. destruct F as [x [Hx Nx]]. exists x. split; [exact Hx|].
      destruct (fst (ms_turn x)); congruence.
Qed.
Print Assumptions C46_history.

(** It is running after a history exactly if nothing in it stopped it. *)
Theorem C46_running_exactly : forall is, Forall (fun i => bytes_ok (mi_datagram i)) is ->
  (fst (ms_run true is) = true <-> Forall (fun i => ~ ms_stops i) is).
Proof.
  intros is H. rewrite ms_run_loop, loop_running.
  induction H as [|i is Hi _ IH]; [split; constructor|].
  destruct (ms_turn_cases i Hi) as [[T [N _]]|[T [N _]]]; split; intros F; inversion F; subst;
    constructor; try tauto; try congruence.
Qed.
Print Assumptions C46_running_exactly.

(** The export list the server sends is read right by a standard reader for every
    address and mask (C42 for the actual server). *)
Theorem C42_server_export : forall xid address r,
  mount_export_callback false (Some address) = Ok r -> net_prefix (pn_net address) <= 32 ->
  exists rest, exports_in (codec_encode (reply_to r xid)) = Some ([([47; 0], [network_text address])], rest).
Proof.
  intros xid a r E Hp. cbn [mount_export_callback] in E. injection E as <-.
  destruct (export_reply_good a xid) as [_ [? [? [rest [_ R]]]]]. exists rest. exact (R Hp).
Qed.
Print Assumptions C42_server_export.

Definition export_call : bytes :=
  std_call 3 2 100005 1 5 (std_auth 1 (unix_body 0 [] 0 0 [])) (std_auth 0 []) [].
Definition case_network : network := mkNetwork (mkNet 0xc0a80105 24) [1; 2; 3; 4; 5; 6].

(** An export call is answered; an NFS call then ends the service. *)
Example C46_case :
  let r := ms_run true [mkMsIn [9] 1 false None true; mkMsIn export_call 1 false (Some case_network) true;
                        mkMsIn getport_nfs 2 false (Some case_network) true;
                        mkMsIn export_call 1 false (Some case_network) true] in
  fst r = false /\
  map (map (fun o => option_map fst (exports_in (snd o)))) (snd r) =
    [[]; [Some [([47; 0], [lit "192.168.1.5/255.255.255.0"])]]; []; []].
Proof. vm_compute. split; reflexivity. Qed.
