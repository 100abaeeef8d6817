(** Property C90: what the program sends, against the traffic of the real software
    recorded in the documents of the repository. *)

From Verif Require Import Base Unicode MPackets MKeepalive MNetwork MServer MStatus SUdp SNetwork SServer
  MRpc SRpc MRpcServer SRpcServer SDocs
  LBase LUnicode LUdp LNetwork LServer LServer2 LRpc LRpc2 LRpcServer PServer PUdp PRpc PRpcServer.
From Coq Require Import ZArith Lia Arith String.
Open Scope list_scope.
Open Scope N_scope.

(** The substitution of addresses leaves the recorded datagrams as they are when the
    addresses are the recorded ones. *)
Example C90_recorded_addresses :
  map (sent_by recorded_mac recorded_ip) (recorded_discovery ++ [recorded_broadcast]) = recorded_discovery ++ [recorded_broadcast].
Proof. vm_compute. reflexivity. Qed.

Lemma be4 : forall x, be 4 x = [x / 16777216 mod 256; x / 65536 mod 256; x / 256 mod 256; x mod 256].
Proof. intros x. rewrite <- word_be. reflexivity. Qed.

Lemma handshake_recorded : forall n, handshake_bytes n =
  map (sent_by (pn_mac n) (pn_ip n)) (recorded_discovery ++ [recorded_broadcast]).
Proof.
  intros [net m]. unfold pn_ip. cbn [pn_mac pn_net].
  unfold handshake_bytes, mac_claim_bytes, ip_claim_bytes, status_bytes, announcement_bytes, pn_ip. cbn [pn_mac pn_net].
  rewrite !be4.
  set (a := net_addr net / 16777216 mod 256). set (b := net_addr net / 65536 mod 256).
  set (c := net_addr net / 256 mod 256). set (d := net_addr net mod 256).
  cbn [map app recorded_discovery recorded_broadcast sent_by nth firstn skipn flat_map].
  rewrite ?be4. fold a b c d. clearbody a b c d.
  repeat (rewrite app_nil_r). 
  cbn. rewrite ?app_nil_r. reflexivity.
Qed.

(** Handling a link request sends exactly the forty recorded datagrams, in the
    recorded order, with the addresses of the machine in place of those recorded. *)
Theorem C90_discovery : forall is ok q n, inputs_typed is ->
  w_running (fst (run is)) = true -> w_poisoned (fst (run is)) = false ->
  w_queue (fst (run is)) = InitiateLink :: q ->
  st_address (w_state (fst (run is))) = Some n ->
  (forall k, (k < 40)%nat -> ok k = true) ->
  snd (step (fst (run is)) (AppTurn ok)) =
    Took InitiateLink ::
    map (fun d => broadcast_on n (sent_by (pn_mac n) (pn_ip n) d)) (recorded_discovery ++ [recorded_broadcast]).
Proof.
  intros is ok q n T R P Q A K. rewrite (proj1 (C31_handshake is ok q n T R P Q A K)).
  rewrite handshake_recorded, map_map. reflexivity.
Qed.
Print Assumptions C90_discovery.

(** The announcement repeated afterwards is the recorded one but for one number,
    the two bytes at 51, which is 4 on record and 1 here. *)
Theorem C90_announcement : forall is n, inputs_typed is ->
  w_running (fst (run is)) = true -> w_broadcasting (fst (run is)) = true ->
  w_poisoned (fst (run is)) = false -> st_address (w_state (fst (run is))) = Some n ->
  len (pn_mac n) = 6 ->
  let recorded := sent_by (pn_mac n) (pn_ip n) recorded_broadcast in
  snd (step (fst (run is)) (BroadcastTurn true)) =
    [broadcast_on n (firstn 51 recorded ++ [0; 1] ++ skipn 53 recorded)] /\
  slice 51 2 recorded = [0; 4].
Proof.
  intros is n T R B P A L recorded.
  rewrite (C30_periodic_announcement is n T R B P A). cbn [snd].
  unfold recorded. destruct (pn_mac n) as [|m0 [|m1 [|m2 [|m3 [|m4 [|m5 [|? ?]]]]]]] eqn:Em;
    try (exfalso; unfold len in L; cbn in L; lia).
  unfold sent_by, status_bytes, announcement_bytes, slice. rewrite !be4. split; reflexivity.
Qed.
Print Assumptions C90_announcement.

(** The announcement of a player, as recorded, makes the player known, whatever its
    number and its addresses. *)
Theorem C90_player_heard : forall number m ip, len m = 6 -> ip < 4294967296 ->
  status_of (recorded_player number m ip) (mkHeard ip number (lit "XDJ-700")).
Proof.
  intros number m ip L Hi.
  destruct m as [|m0 [|m1 [|m2 [|m3 [|m4 [|m5 [|? ?]]]]]]]; try (exfalso; unfold len in L; cbn in L; lia).
  unfold status_of, recorded_player, reaches, slice, octet, number_at, slice. cbn [h_model h_number h_ip].
  assert (E : fold_left (fun a b => a * 256 + b) (be 4 ip) 0 = ip) by (apply (of_be_be_small 4); exact Hi).
  rewrite be4 in *. cbn [fold_left] in E.
  split; [cbn; lia|]. split; [reflexivity|]. split; [reflexivity|].
  split; [split; [repeat constructor; vm_compute; auto|split; [|exists 13%nat; reflexivity]]|].
  { intros t F. apply (f_equal (fun l => last l 0)) in F. rewrite last_last in F. vm_compute in F. discriminate F. }
  split; [intros F; vm_compute in F; discriminate F|].
  split; [cbn; lia|]. split; [reflexivity|]. cbn [skipn firstn app fold_left]. exact E.
Qed.
Print Assumptions C90_player_heard.

(** A recorded datagram of a player to the status service is answered with the
    recorded answer, but for the two names: the program is called "Linux" in place of
    "rekordbox", the machine "Term DJ". *)
Theorem C90_hello_answered : forall number ip port,
  status_run [StatusDatagram ip port (recorded_hello number)] =
  (true, [(ip, 50002, firstn 11 recorded_hello_answer ++ ascii_padded 20 "Linux" ++
                      slice 31 9 recorded_hello_answer ++ utf16_padded 256 (lit "Term DJ"))]).
Proof.
  intros number ip port.
  assert (U : utf8_text (slice 11 20 (recorded_hello number))).
  { exists (lit "XDJ-700" ++ repeat 0 13). split; [|reflexivity]. repeat constructor; vm_compute; auto. }
  assert (H : is_hello (recorded_hello number)).
  { split; [split; [reflexivity|split; [|exact U]]|reflexivity]. unfold reaches. cbn. lia. }
  assert (N : none_stops [StatusDatagram ip port (recorded_hello number)]).
  { intros i p d [E|[]]. injection E as <- <- <-. intros [_ S]. apply S. vm_compute. auto 10. }
  destruct (C37_answers _ N) as (outs & A & R). rewrite R. f_equal.
  inversion A as [|? o ? ? A1 A2]; subst. inversion A2; subst. destruct A1 as (A1 & _ & _).
  rewrite (A1 H). reflexivity.
Qed.
Print Assumptions C90_hello_answered.

(** A link query from a player that names its byte 1, as the recorded answer does,
    gets the recorded answer, again but for the names. *)
Theorem C90_link_answered : forall d ip port, is_link_query d -> octet 32 d = 1 ->
  status_run [StatusDatagram ip port d] =
  (true, [(ip, 50002, firstn 11 recorded_link_answer ++ ascii_padded 20 "Linux" ++
                      slice 31 13 recorded_link_answer ++ utf16_padded 64 (lit "Term DJ") ++
                      skipn 108 recorded_link_answer)]).
Proof.
  intros d ip port Q O.
  assert (N : none_stops [StatusDatagram ip port d]).
  { intros i p d' [E|[]]. injection E as <- <- <-. intros [_ S]. apply S. rewrite (proj1 (proj2 Q)). vm_compute. auto 10. }
  destruct (C37_answers _ N) as (outs & A & R). rewrite R. f_equal.
  inversion A as [|? o ? ? A1 A2]; subst. inversion A2; subst. destruct A1 as (_ & A1 & _).
  rewrite (A1 Q), O. reflexivity.
Qed.
Print Assumptions C90_link_answered.

(** The names are where the recorded answers have theirs. *)
Example C90_recorded_names :
  slice 11 20 recorded_hello_answer = ascii_padded 20 "rekordbox" /\
  slice 40 256 recorded_hello_answer = utf16_padded 256 (lit "Jonass-MBP-2") /\
  slice 11 20 recorded_link_answer = ascii_padded 20 "rekordbox" /\
  slice 44 64 recorded_link_answer = utf16_padded 64 (lit "rekordbox").
Proof. vm_compute. repeat split. Qed.

Lemma recorded_calls : forall xid stamp,
  recorded_getport xid stamp = std_call xid 2 100000 2 3 (std_auth 1 (unix_body stamp [] 0 0 [])) (std_auth 0 [])
    (word 100005 ++ word 1 ++ word 17 ++ word 0) /\
  recorded_export xid stamp = std_call xid 2 100005 1 5 (std_auth 1 (unix_body stamp [] 0 0 [])) (std_auth 0 []) [] /\
  forall r, std_reply xid r = recorded_reply xid ++ r.
Proof.
  intros xid stamp. unfold recorded_getport, recorded_export, recorded_credentials, recorded_reply.
  rewrite <- !word_be. split; [|split]; reflexivity.
Qed.

(** The recorded question for the port of the mount service starts one and gets the
    recorded answer with its port, for every transaction and stamp. *)
Theorem C90_getport_answered : forall xid stamp from port, word_ok xid -> word_ok stamp ->
  pm_turn (mkPmIn (recorded_getport xid stamp) from (Some port) true) =
  (true, [PmStart ProgramService port; PmReply from (recorded_getport_answer xid port)]).
Proof.
  intros xid stamp from port Hx Hs. unfold pm_turn. cbn [pi_datagram pi_port pi_send pi_from].
  destruct (recorded_calls xid stamp) as (E & _ & R). rewrite E.
  rewrite (C40_standard_calls_understood xid 2 2 stamp 0 0 (PortmapGetport (mkGetport 1 Mount ProtoUdp 0)) Portmap 3);
    try assumption; try (intros path F; discriminate F); [|reflexivity..|constructor; reflexivity].
  cbn [rpc_body ca_procedure gp_program rpc_xid].
  rewrite getport_reply_datagram. unfold send_to. rewrite std_reply_len, R. unfold std_getport_result. rewrite word_be. reflexivity.
Qed.
Print Assumptions C90_getport_answered.

(** The recorded question for the export list is answered, but never with the recorded
    answer: rekordbox lists no export, the program lists one. *)
Theorem C90_export_answered_refuted : forall xid stamp from address, word_ok xid -> word_ok stamp ->
  net_prefix (pn_net address) <= 32 ->
  exports_in (recorded_export_answer xid) = Some ([], []) /\
  exists answer rest,
    ms_turn (mkMsIn (recorded_export xid stamp) from false (Some address) true) = (true, [(from, answer)]) /\
    firstn 24 answer = recorded_reply xid /\
    exports_in answer = Some ([([47; 0], [network_text address])], rest) /\
    answer <> recorded_export_answer xid.
Proof.
  intros xid stamp from address Hx Hs Hp.
  assert (X : exports_in (recorded_export_answer xid) = Some ([], [])).
  { unfold recorded_export_answer, recorded_reply. rewrite be4. reflexivity. }
  split; [exact X|].
  destruct (recorded_calls xid stamp) as (_ & E & R). rewrite E. unfold ms_turn. cbn [mi_datagram mi_poisoned mi_address mi_send mi_from].
  rewrite (C40_standard_calls_understood xid 2 1 stamp 0 0 MountExport Mount 5);
    try assumption; try (intros path F; discriminate F); [|reflexivity..|constructor].
  cbn [rpc_procedure_router rpc_body ca_procedure mount_export_callback rbind].
  destruct (export_reply_good address xid) as (L & result & padding & rest & D & X1). specialize (X1 Hp).
  cbn zeta in *.
  match type of X1 with exports_in ?a = _ => exists a, rest; set (answer := a) in * end.
  split; [|split; [|split; [exact X1|]]].
  - change (match answer with d => if send_to true d then (true, [(from, d)]) else (false, []) end = (true, [(from, answer)])).
    unfold send_to. destruct (N.leb_spec (len answer) max_datagram) as [_|F]; [reflexivity|lia].
  - rewrite D, R. unfold recorded_reply. rewrite be4. reflexivity.
  - intros F. rewrite F, X in X1. discriminate X1.
Qed.
Print Assumptions C90_export_answered_refuted.

(** A player on the network of the recording: on a machine with the addresses of the
    recorded one its announcement leads to the forty recorded datagrams. *)
Definition recorded_machine : list iface := [mkIface (Some recorded_mac) [V4 (mkNet recorded_ip 16)]].
Definition recorded_meeting : list input :=
  [KaDatagram (recorded_player 2 [0xc8; 0x3d; 0xfc; 4; 0x1d; 0xe6] 2852003302) recorded_machine;
   AppTurn (fun _ => true)].
Example C90_case :
  let w := fst (run recorded_meeting) in
  let n := mkNetwork (mkNet recorded_ip 16) recorded_mac in
  inputs_typed recorded_meeting /\
  w_running w = true /\ w_poisoned w = false /\ w_broadcasting w = true /\
  w_queue w = [InitiateLink] /\ st_address (w_state w) = Some n /\ len (pn_mac n) = 6 /\
  snd (step w (AppTurn (fun _ => true))) =
    Took InitiateLink :: map (broadcast_on n) (recorded_discovery ++ [recorded_broadcast]) /\
  word_ok 2 /\ word_ok 0x9922e112 /\ net_prefix (pn_net n) <= 32 /\
  is_link_query (lit "Qspt1WmJOL" ++ [0x05] ++ lit "CDJ" ++ repeat 0 17 ++ [1; 1; 2] ++ repeat 0 14).
Proof.
  cbv zeta. split.
  { intros d fs [E|[E|[]]]; [|discriminate E]. injection E as _ <-. intros i [<-|[]]. split.
    - intros m E. cbn in E. assert (X := f_equal (fun o => match o with Some v => v | None => [] end) E).
      cbn in X. rewrite <- X. split; [reflexivity|]. apply Forall_forall. intros b Hb. cbn in Hb.
      destruct Hb as [<-|[<-|[<-|[<-|[<-|[<-|[]]]]]]]; reflexivity.
    - intros n [E|[]]. injection E as <-. split; [reflexivity|vm_compute; discriminate]. }
  do 6 (split; [vm_compute; reflexivity|]). split; [vm_compute; reflexivity|].
  split; [reflexivity|]. split; [reflexivity|]. split; [cbn; lia|].
  split; [|split; [reflexivity|unfold reaches; cbn; lia]].
  split; [reflexivity|]. split; [unfold reaches; cbn; lia|].
  exists (lit "CDJ" ++ repeat 0 17). split; [|reflexivity].
  apply utf8_decode_some with (l := lit "CDJ" ++ repeat 0 17). reflexivity.
Qed.
