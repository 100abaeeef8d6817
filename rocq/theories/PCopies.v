(** Property theorems C99: several copies of the program on one network. *)

From Verif Require Import Base Unicode MPackets MKeepalive MNetwork MServer MStatus MDb MDatabase MLib MRpc MRpcServer MNfs
  MSystem SUdp SNetwork SRpc SServer SRpcServer SSystem STraffic SCopies LBase LUdp LStatus LStatus2 LServer LServer2 LRpc LRpc2
  LRpcServer LSystem PUdp PServer PRpcServer PNfs PSystem.
From Coq Require Import ZArith String Lia.
Open Scope list_scope.
Open Scope N_scope.

(** ** What a copy sends *)

(** An RPC answer: any number, then the message type 1. *)
Definition rpc_answer (b : bytes) : Prop := exists xid rest, b = be 4 xid ++ [0; 0; 0; 1] ++ rest.

Lemma encoded_answer : forall r xid, rpc_answer (codec_encode (reply_to r xid)).
Proof.
  intros r xid. unfold codec_encode. rewrite reply_datagram. unfold std_reply. rewrite !word_be. exists xid.
  eexists. rewrite <- !app_assoc. cbn [app]. reflexivity.
Qed.

Lemma answer_stops : forall b, rpc_answer b -> codec_decode b = Panic.
Proof.
  intros b (xid & rest & ->). unfold codec_decode, rpc_try_from, rpc_decode.
  destruct (be 4 xid ++ [0; 0; 0; 1] ++ rest) as [|x l] eqn:E; [apply (f_equal (@List.length N)) in E; rewrite app_length in E;
    cbn [List.length app] in E; lia|]. rewrite <- E. clear E.
  assert (U : be_u32 (be 4 xid ++ [0; 0; 0; 1] ++ rest) = Ok ([0; 0; 0; 1] ++ rest, of_be (be 4 xid))).
  { unfold be_u32, be_uint, take. replace (len (be 4 xid ++ [0; 0; 0; 1] ++ rest) <? 4) with false.
    - reflexivity.
    - symmetry. apply N.ltb_ge. rewrite len_app, be_len. lia. }
  rewrite U. cbn [rbind].
  assert (T : message_type_decode ([0; 0; 0; 1] ++ rest) = Panic).
  { unfold message_type_decode, be_u32, be_uint, take. replace (len ([0; 0; 0; 1] ++ rest) <? 4) with false; [reflexivity|].
    symmetry. apply N.ltb_ge. rewrite len_app. change (len [0; 0; 0; 1]) with 4. lia. }
  rewrite T. reflexivity.
Qed.

(** It is neither a keep-alive nor a status datagram. *)
Lemma answer_no_magic : forall b, rpc_answer b -> magic_decode (firstn 1024 b) = Err.
Proof.
  intros b (xid & rest & ->). unfold magic_decode.
  destruct (be 4 xid) as [|x1 [|x2 [|x3 [|x4 [|x5 l]]]]] eqn:E; pose proof (be_len 4 xid) as L; rewrite E in L; unfold len in L;
    cbn [List.length] in L; try lia.
  assert (K : exists k, 1024%nat = S (S (S (S (S k))))) by (exists 1019%nat; reflexivity). destruct K as [k ->]. cbn [app firstn].
  generalize (firstn k (0 :: 0 :: 1 :: rest)). intros r.
  change UDP_MAGIC with (lit "Qspt1WmJOL"). change (lit "Qspt1WmJOL") with [81; 115; 112; 116; 49; 87; 109; 74; 79; 76]. cbn [tag].
  destruct (81 =? x1), (115 =? x2), (112 =? x3), (116 =? x4); reflexivity.
Qed.

Lemma answer_no_status : forall ip port b, rpc_answer b -> status_turn (StatusDatagram ip port b) = Ok [].
Proof.
  intros ip port b A. unfold status_turn. cbn [status_recv_from]. unfold status_packet_try_from, status_packet_decode.
  rewrite (answer_no_magic b A). reflexivity.
Qed.

Lemma answer_no_announcement : forall w ifaces b, rpc_answer b -> step w (KaDatagram b ifaces) = (w, []).
Proof.
  intros w ifaces b A. unfold step. destruct (w_running w), (w_listening w); try reflexivity.
  unfold keepalive_turn, ka_receive, ka_try_from, ka_decode. rewrite (answer_no_magic b A). reflexivity.
Qed.

Lemma hello_reply_stops : forall ip port, status_turn (StatusDatagram ip port hello_reply) = Panic.
Proof. intros. vm_compute. reflexivity. Qed.

Lemma link_answer_ignored : forall ip port u, status_turn (StatusDatagram ip port (link_answer u)) = Ok [].
Proof. intros. reflexivity. Qed.

Lemma status_says : forall e out ip port b, status_turn e = Ok out -> In (ip, port, b) out ->
  port = 50002 /\ (b = hello_reply \/ exists u, b = link_answer u).
Proof.
  intros e out ip port b T H. unfold status_turn in T.
  destruct (status_recv_from e) as [[q a]| |]; [|inversion T; subst; destruct H|discriminate].
  assert (K : process_packet q = None \/ sp_kind q = KRekordboxHello \/ sp_kind q = KLinkQuery).
  { unfold process_packet. destruct (sp_kind q); auto. }
  destruct K as [K|[K|K]].
  - rewrite K in T. inversion T; subst. destruct H.
  - destruct (hello_reply_encoded q K) as (r & R & B). rewrite R, B in T. cbn [rbind] in T. inversion T; subst.
    destruct H as [H|[]]. inversion H; subst. auto.
  - destruct (link_answer_encoded q K) as (r & R & B). rewrite R, B in T. cbn [rbind] in T. inversion T; subst.
    destruct H as [H|[]]. inversion H; subst. eauto.
Qed.

Lemma mapper_says : forall i to b, In (PmReply to b) (snd (pm_turn i)) -> rpc_answer b.
Proof.
  intros i to b H. unfold pm_turn in H. destruct (codec_decode (pi_datagram i)) as [[m|]| |]; try destruct H.
  destruct (pi_port i) as [port|]; [|destruct H].
  set (started := match rpc_body m with Call _ => _ | Reply _ => _ end) in H.
  assert (S : ~ In (PmReply to b) started).
  { subst started. destruct (rpc_body m) as [c|r]; [|intros []]. destruct (ca_procedure c) as [| | |g| | | | | | | | |]; try (intros []; fail).
    destruct (gp_program g); intros [F|[]]; discriminate. }
  destruct (send_to (pi_send i) _); cbn [snd] in H; [|contradiction].
  apply in_app_or in H. destruct H as [H|[H|[]]]; [contradiction|]. inversion H; subst. apply encoded_answer.
Qed.

Lemma mount_says : forall i to b, In (to, b) (snd (ms_turn i)) -> rpc_answer b.
Proof.
  intros i to b H. unfold ms_turn in H. destruct (codec_decode (mi_datagram i)) as [[m|]| |]; try destruct H.
  unfold rpc_procedure_router in H. destruct (rpc_body m) as [c|r]; [|destruct H].
  destruct (on_event (mi_poisoned i) (mi_address i) c) as [[r| |]|]; try destruct H.
  destruct (send_to (mi_send i) _); [|destruct H]. destruct H as [H|[]]. inversion H; subst. apply encoded_answer.
Qed.

Definition waits_well (v : udp_service) : Prop :=
  match v with NfsUdp s => forall x, sv_unsent s = Some x -> rpc_answer (snd x) | _ => True end.

Lemma file_says : forall e i s, (forall x, sv_unsent s = Some x -> rpc_answer (snd x)) ->
  (forall x, sv_unsent (fst (nfs_turn e i s)) = Some x -> rpc_answer (snd x)) /\
  (forall to b, In (to, b) (snd (nfs_turn e i s)) -> rpc_answer b).
Proof.
  intros e i s W. unfold nfs_turn. destruct (sv_nfs s) as [n|]; [|split; [exact W|intros to b []]].
  destruct (codec_decode (ni_datagram i)) as [[m|]| |]; try (split; [exact W|intros to b []]).
  destruct (rpc_body m) as [c|r]; [|split; [exact W|intros to b []]].
  destruct (call_procedure e (ni_os i) (ca_procedure c) n) as [n' [reply| |]]; try (split; [exact W|intros to b []]).
  set (new := (ni_from i, _)). assert (A : rpc_answer (snd new)) by apply encoded_answer. clearbody new.
  unfold framed_send.
  destruct (sv_unsent s) as [old|].
  - destruct (send_to (ni_resend i) (snd old)).
    + destruct (send_to (ni_send i) (snd new)); cbn [fst snd sv_unsent app].
      * split; [discriminate|]. intros to b [H|[H|[]]]; [specialize (W _ eq_refl); rewrite H in W; exact W|rewrite H in A; exact A].
      * split; [intros x H; inversion H; subst; exact A|]. intros to b [H|[]]. specialize (W _ eq_refl). rewrite H in W. exact W.
    + cbn [fst snd sv_unsent]. split; [exact W|intros to b []].
  - destruct (send_to (ni_send i) (snd new)); cbn [fst snd sv_unsent app].
    + split; [discriminate|]. intros to b [H|[]]. rewrite H in A. exact A.
    + split; [intros x H; inversion H; subst; exact A|intros to b []].
Qed.

(** What a copy sends, by the place it sends it from. *)
Definition copy_says (o : sys_output) : Prop :=
  match o with
  | OutWorld (Sent _ _ port b) => port = 50000 /\ slice 12 20 b = ascii_padded 20 "rekordbox"
  | OutStatus (_, port, b) => port = 50002 /\ (b = hello_reply \/ exists u, b = link_answer u)
  | OutMapper (PmReply _ b) => rpc_answer b
  | OutUdp _ _ b => rpc_answer b
  | _ => True
  end.

Lemma started_wait : forall outs u, (forall q, waits_well (u q)) -> forall q, waits_well (start_services u outs q).
Proof.
  unfold start_services. induction outs as [|o outs IH]; intros u W q; [apply W|]. cbn [fold_left]. apply IH. clear q.
  intros q. destruct o as [[|] port|to b]; try apply W; unfold at_key; destruct (q =? port); try apply W; try exact I.
  cbn [waits_well service_new sv_unsent]. discriminate.
Qed.

Lemma udp_says : forall e w port i v, waits_well v ->
  waits_well (fst (udp_turn e w port i v)) /\ (forall o, In o (snd (udp_turn e w port i v)) -> copy_says o).
Proof.
  intros e w port i v W. unfold udp_turn. destruct v as [|s|running].
  - split; [exact I|intros o []].
  - destruct (file_says e i s W) as [F G]. destruct (nfs_turn e i s) as [s' outs]. cbn [fst snd] in *. split; [exact F|].
    intros o H. apply in_map_iff in H. destruct H as ([to b] & <- & H). cbn [copy_says fst snd]. exact (G to b H).
  - destruct running; [|split; [exact I|intros o []]].
    match goal with |- context [ms_turn ?x] => pose proof (mount_says x) as M; destruct (ms_turn x) as [r outs] end.
    cbn [fst snd] in *. split; [exact I|].
    intros o H. apply in_map_iff in H. destruct H as ([to b] & <- & H). cbn [copy_says fst snd]. exact (M to b H).
Qed.

Lemma world_says : forall is i o, inputs_typed is -> In o (snd (step (fst (run is)) i)) -> copy_says (OutWorld o).
Proof.
  intros is i o T H. destruct o as [from to port b|x|x]; try exact I. cbn [copy_says].
  destruct (C30_sent_on_that_network is i from to port b T H) as (n & _ & E & D). unfold broadcast_on in E. inversion E; subst.
  split; [reflexivity|].
  assert (G : forall k s x, slice 12 20 (announcement_bytes k s x) = ascii_padded 20 "rekordbox") by reflexivity.
  destruct D as [D| ->]; [|apply G].
  apply C31_handshake_content in D. destruct D as [(it & _ & ->)|[(it & ix & _ & _ & ->)| ->]]; apply G.
Qed.

Lemma says : forall e p h d mp db is, inputs_typed (world_inputs is) ->
  let r := sys_run e p h d is (system_start true true mp db) in
  (forall q, waits_well (sy_udp (fst r) q)) /\ (forall o, In o (List.concat (snd r)) -> copy_says o).
Proof.
  intros e p h d mp db is. induction is as [|i is IH] using rev_ind; intros T r.
  { split; [intros q; exact I|intros o []]. }
  subst r. unfold world_inputs in T. rewrite flat_map_app in T. apply inputs_typed_app in T. destruct T as [T T'].
  change (inputs_typed (world_inputs is)) in T. specialize (IH T). cbv zeta in IH. destruct IH as [W S].
  destruct (srun_snoc e p h d is i (system_start true true mp db)) as [E1 E2]. rewrite E1, E2. rewrite concat_app. cbn [List.concat].
  rewrite app_nil_r.
  pose proof (start_runs e p h d mp db is) as Wo.
  set (s := fst (sys_run e p h d is (system_start true true mp db))) in *.
  enough (N : (forall q, waits_well (sy_udp (fst (sys_step e p h d i s)) q)) /\
              (forall o, In o (snd (sys_step e p h d i s)) -> copy_says o)).
  { destruct N as [N1 N2]. split; [exact N1|]. intros o H. apply in_app_or in H. destruct H; auto. }
  clearbody s. unfold sys_step. destruct (w_running (sy_world s)); [|split; [exact W|intros o []]].
  destruct i as [i|x|i|port i|waiting|c chunk port|c|x].
  - rewrite Wo. pose proof (world_says (world_inputs is) i) as V. destruct (step (fst (run (world_inputs is))) i) as [w os].
    cbn [fst snd with_world sy_udp] in *. split; [exact W|]. intros o H. apply in_map_iff in H. destruct H as (x & <- & H). exact (V x T H).
  - destruct (sy_status s); [|split; [exact W|intros o []]]. destruct (status_turn x) as [out| |] eqn:X; cbn [fst snd with_status sy_udp];
      (split; [exact W|]); try (intros o []).
    intros o H. apply in_map_iff in H. destruct H as ([[ip q] b] & <- & H). exact (status_says _ _ _ _ _ X H).
  - destruct (sy_mapper s); [|split; [exact W|intros o []]]. pose proof (mapper_says i) as M. destruct (pm_turn i) as [r outs].
    cbn [fst snd with_mapper sy_udp] in *. split; [apply started_wait; exact W|]. intros o H. apply in_map_iff in H.
    destruct H as ([v q|to b] & <- & H); [exact I|]. exact (M to b H).
  - destruct (udp_says e (sy_world s) port i (sy_udp s port) (W port)) as [U1 U2].
    destruct (udp_turn e (sy_world s) port i (sy_udp s port)) as [v outs]. cbn [fst snd with_udp sy_udp] in *. split; [|exact U2].
    intros q. unfold at_key. destruct (q =? port); [exact U1|apply W].
  - destruct (sy_joined s); [|split; [exact W|intros o []]].
    destruct (sy_mapper s); cbn [fst snd with_joined sy_udp]; (split; [exact W|]); intros o H; [|destruct H].
    apply in_map_iff in H. destruct H as (x & <- & _). exact I.
  - destruct (sy_query s c); [|split; [exact W|intros o []]]. destruct port as [port|]; [|split; [exact W|intros o []]].
    destruct (db_step p h d (sy_db s) (Query port chunk)) as [b outs]. cbn [fst snd with_db sy_udp]. split; [exact W|].
    intros o H. apply in_map_iff in H. destruct H as (x & <- & _). destruct x; exact I.
  - split; [exact W|intros o []].
  - destruct x as [q chunk|q|q chunk|q]; try (split; [exact W|intros o []]);
      match goal with |- context [db_step p h d (sy_db s) ?y] => destruct (db_step p h d (sy_db s) y) as [b outs] end;
      cbn [fst snd with_db sy_udp]; (split; [exact W|]); intros o H; apply in_map_iff in H; destruct H as (x & <- & _); exact I.
Qed.

Lemma copy_said : forall o, said_by_a_copy o -> copy_says o.
Proof. intros o (e & p & h & d & mp & db & is & T & H). exact (proj2 (says e p h d mp db is T) o H). Qed.

(** ** Theorems *)

(** What a copy announces has no effect on any copy. *)
Theorem C99_announcements_ignored : forall e p h d i s, announcement_of_a_copy i -> sys_step e p h d i s = (s, []).
Proof.
  intros e p h d i s (o & A & S & q & b & G & C). apply copy_said in S.
  destruct o as [[from to port data|x|x]|x|x|x y z|x|x y|x]; try discriminate. cbn [copy_says goes_out] in S, G.
  destruct S as [-> S], G as [-> ->].
  assert (N : forall w ifaces, step w (KaDatagram data ifaces) = (w, []))
    by (intros w ifaces; apply step_noise, C32_rekordbox_is_no_status, S).
  unfold sys_step. destruct (w_running (sy_world s)); [|reflexivity].
  destruct i as [[dg ifaces| |ok|ok]|[ip port dg|]|j|port j|w|c k y|c|x]; cbn [comes_in] in C; try contradiction;
    try (destruct C as [C _]; discriminate).
  - destruct C as [_ ->]. rewrite N. destruct s; reflexivity.
  - exfalso. destruct C as (C & _ & C' & _). congruence.
Qed.
Print Assumptions C99_announcements_ignored.

(** A copy that hears the announcements of copies does what it would do alone. *)
Theorem C99_as_alone : forall e p h d is more s, with_extra announcement_of_a_copy is more ->
  fst (sys_run e p h d more s) = fst (sys_run e p h d is s) /\
  List.concat (snd (sys_run e p h d more s)) = List.concat (snd (sys_run e p h d is s)).
Proof.
  intros e p h d is more s H. revert s. induction H as [|i is more H IH|i is more X H IH]; intros s.
  - split; reflexivity.
  - rewrite !srun_cons. cbn [fst snd List.concat]. destruct (IH (fst (sys_step e p h d i s))) as [F G]. rewrite F, G. split; reflexivity.
  - rewrite srun_cons. cbn [fst snd List.concat]. rewrite (C99_announcements_ignored e p h d i s X). cbn [fst snd app]. apply IH.
Qed.
Print Assumptions C99_as_alone.

(** What any datagram of a copy does to a copy it reaches: nothing is sent, and only
    services can end: the status service by the answer to a greeting, the port mapper
    or one of its services by any answer of theirs. *)
Theorem C99_what_ends : forall e p h d o i s, carried o i -> w_running (sy_world s) = true ->
  snd (sys_step e p h d i s) = [] /\
  let s' := fst (sys_step e p h d i s) in
  match i, o with
  | SysStatus _, OutStatus (_, _, b) => s' = if len b =? 296 then status_ended s else s
  | SysMapper _, _ => s' = mapper_ended s
  | SysUdp q _, _ => ended_at q s s'
  | _, _ => s' = s
  end.
Proof.
  intros e p h d o i s (S & q & b & G & C) R. pose proof (copy_said o S) as Y.
  destruct i as [[dg ifaces| |ok|ok]|[ip port dg|]|j|port j|w|c k y|c|x]; cbn [comes_in] in C; try contradiction.
  - destruct (announces o) eqn:A.
    + rewrite (C99_announcements_ignored e p h d (SysWorld (KaDatagram dg ifaces)) s).
      * split; reflexivity.
      * exists o. split; [exact A|]. split; [exact S|]. exists q, b. split; [exact G|exact C].
    + assert (Z : rpc_answer b).
      { destruct o as [[from to port data|x|x]|[[x y] z]|[v x|to data]|x y z|x|x y|x]; try discriminate; cbn [goes_out copy_says] in G, Y;
          try contradiction; try (subst b; exact Y). destruct G as [G _], Y as [Y _], C as [C _]. congruence. }
      destruct C as [_ ->]. unfold sys_step. rewrite R. rewrite (answer_no_announcement _ ifaces b Z).
      split; [reflexivity|]. cbv zeta. destruct s; reflexivity.
  - destruct C as [-> ->]. unfold sys_step. rewrite R.
    destruct o as [[from to pt data|x|x]|[[x y] z]|[v x|to data]|x y z|x|x y|x]; cbn [goes_out copy_says] in G, Y; try contradiction.
    + destruct G as [G _], Y as [Y _]. congruence.
    + destruct G as [<- ->], Y as [_ [->|[u ->]]].
      * change (len hello_reply =? 296) with true. cbv iota. destruct (sy_status s) eqn:St.
        -- rewrite hello_reply_stops. split; reflexivity.
        -- split; [reflexivity|]. unfold status_ended. destruct s as [s1 s2 s3 s4 s5 s6 s7]; cbn [fst sy_status] in *. subst. reflexivity.
      * change (len (link_answer u) =? 296) with false. cbv iota. rewrite link_answer_ignored. destruct (sy_status s); split; reflexivity.
    + subst b. rewrite (answer_no_status ip port data Y). destruct (sy_status s); split; reflexivity.
    + subst b. rewrite (answer_no_status ip port z Y). destruct (sy_status s); split; reflexivity.
  - assert (Z : rpc_answer b).
    { destruct C as [C _].
      destruct o as [[from to pt data|x|x]|[[x y] z]|[v x|to data]|x y z|x|x y|x]; cbn [goes_out copy_says] in G, Y; try contradiction;
        try (subst b; exact Y); destruct G as [G _], Y as [Y _]; congruence. }
    destruct C as [_ C]. unfold sys_step. rewrite R. unfold pm_turn. rewrite C, (answer_stops b Z). destruct (sy_mapper s) eqn:M.
    + split; reflexivity.
    + split; [reflexivity|]. unfold mapper_ended. destruct s as [s1 s2 s3 s4 s5 s6 s7]; cbn [fst sy_mapper] in *. subst. reflexivity.
  - assert (Z : rpc_answer b).
    { destruct C as (C & _ & C1 & C2 & C3).
      destruct o as [[from to pt data|x|x]|[[x y] z]|[v x|to data]|x y z|x|x y|x]; cbn [goes_out copy_says] in G, Y; try contradiction;
        try (subst b; exact Y); destruct G as [G _], Y as [Y _]; congruence. }
    destruct C as (_ & C & _). unfold sys_step. rewrite R.
    assert (U : snd (udp_turn e (sy_world s) port j (sy_udp s port)) = [] /\
                service_ended (fst (udp_turn e (sy_world s) port j (sy_udp s port)))).
    { unfold udp_turn. destruct (sy_udp s port) as [|v|running].
      - split; [reflexivity|exact I].
      - unfold nfs_turn. destruct (sv_nfs v) eqn:V; [rewrite C, (answer_stops b Z)|]; (split; [reflexivity|]); [reflexivity|exact V].
      - destruct running; [|split; reflexivity]. unfold ms_turn. cbn [mi_datagram]. rewrite C, (answer_stops b Z). split; reflexivity. }
    destruct (udp_turn e (sy_world s) port j (sy_udp s port)) as [v outs]. cbn [fst snd] in *. destruct U as [-> U]. split; [reflexivity|].
    unfold ended_at. cbn [with_udp sy_world sy_status sy_mapper sy_joined sy_query sy_db sy_udp]. repeat (split; [reflexivity|]).
    unfold at_key. split.
    + intros q' N. apply N.eqb_neq in N. rewrite N. reflexivity.
    + rewrite N.eqb_refl. exact U.
Qed.
Print Assumptions C99_what_ends.

(** No datagram of a copy makes a copy send anything: there are no endless exchanges
    among copies, whoever delivers their datagrams and wherever. *)
Theorem C99_no_echo : forall e p h d is s,
  Forall2 (fun i out => from_a_copy i -> out = []) is (snd (sys_run e p h d is s)).
Proof.
  intros e p h d is. induction is as [|i is IH]; intros s; [constructor|]. rewrite srun_cons. cbn [snd]. constructor; [|apply IH].
  intros [o C]. destruct (w_running (sy_world s)) eqn:R.
  - exact (proj1 (C99_what_ends e p h d o i s C R)).
  - unfold sys_step. rewrite R. reflexivity.
Qed.
Print Assumptions C99_no_echo.

Lemma status_gone : forall e p h d is s, sy_status s = false ->
  status_outputs (List.concat (snd (sys_run e p h d is s))) = [].
Proof.
  intros e p h d is. induction is as [|i is IH]; intros s F; [reflexivity|]. rewrite srun_cons. cbn [snd List.concat].
  unfold status_outputs. rewrite flat_map_app.
  assert (K : sy_status (fst (sys_step e p h d i s)) = false /\ status_outputs (snd (sys_step e p h d i s)) = []).
  { assert (M : forall A (f : A -> sys_output) l, (forall x, match f x with OutStatus _ => False | _ => True end) ->
      status_outputs (map f l) = []).
    { intros A f l H. induction l as [|x l IHl]; [reflexivity|]. specialize (H x). cbn [map]. unfold status_outputs in *. cbn [flat_map].
      rewrite IHl. destruct (f x); try reflexivity. contradiction. }
    unfold sys_step. destruct (w_running (sy_world s)); [|split; [exact F|reflexivity]].
    destruct i as [i|x|i|port i|waiting|c chunk port|c|x].
    - destruct (step (sy_world s) i) as [w os]. split; [exact F|]. apply M. intros x. exact I.
    - rewrite F. split; [exact F|reflexivity].
    - destruct (sy_mapper s); [|split; [exact F|reflexivity]]. destruct (pm_turn i) as [r outs]. split; [exact F|]. apply M. intros x. exact I.
    - assert (U : status_outputs (snd (udp_turn e (sy_world s) port i (sy_udp s port))) = []).
      { unfold udp_turn. destruct (sy_udp s port) as [|v|[|]]; [reflexivity| | |reflexivity].
        - destruct (nfs_turn e i v) as [v' outs]. apply M. intros x. exact I.
        - destruct (ms_turn _) as [v' outs]. apply M. intros x. exact I. }
      destruct (udp_turn e (sy_world s) port i (sy_udp s port)) as [v outs]. split; [exact F|exact U].
    - destruct (sy_joined s); [|split; [exact F|reflexivity]]. destruct (sy_mapper s); split; try exact F; try reflexivity.
      apply M. intros x. exact I.
    - destruct (sy_query s c); [|split; [exact F|reflexivity]]. destruct port as [port|]; [|split; [exact F|reflexivity]].
      destruct (db_step p h d (sy_db s) (Query port chunk)) as [b outs]. split; [exact F|]. apply M. intros x; destruct x; exact I.
    - split; [exact F|reflexivity].
    - destruct x as [q chunk|q|q chunk|q]; try (split; [exact F|reflexivity]);
        match goal with |- context [db_step p h d (sy_db s) ?y] => destruct (db_step p h d (sy_db s) y) as [b outs] end;
        (split; [exact F|]); apply M; intros y; exact I. }
  destruct K as [K1 K2]. unfold status_outputs in K2. rewrite K2. apply IH. exact K1.
Qed.

Lemma mapper_quiet : forall e p h d is s, sy_mapper s = false ->
  mapper_outputs (List.concat (snd (sys_run e p h d is s))) = [] /\
  (forall c, ~ In (OutAccept c) (List.concat (snd (sys_run e p h d is s)))).
Proof.
  intros e p h d is. induction is as [|i is IH]; intros s F; [split; [reflexivity|intros c []]|]. rewrite srun_cons. cbn [snd List.concat].
  assert (F' : sy_mapper (fst (sys_step e p h d i s)) = false).
  { pose proof (mapper_gone e p h d [i] s F) as G. rewrite srun_cons in G. exact G. }
  destruct (IH _ F') as [I1 I2]. split.
  - unfold mapper_outputs in *. rewrite flat_map_app, I1, app_nil_r.
    destruct (w_running (sy_world s)) eqn:R; [|unfold sys_step; rewrite R; reflexivity].
    pose proof (mapper_step e p h d i s R) as E. rewrite F in E. unfold mapper_outputs in E. destruct i; exact (proj2 E).
  - intros c H. apply in_app_or in H. destruct H as [H|H]; [|exact (I2 c H)].
    apply accept_step in H. destruct H as (_ & _ & X & _). congruence.
Qed.

(** Copies can do harm all the same if a sender is forged: somebody greets a copy in
    the name of another one, or asks it for a port, and the answer silences the
    status service there, or the port mapper and the listener on port 12523. *)
Theorem C99_harmless_refuted : forall e p h d s, w_running (sy_world s) = true ->
  (forall ip, said_by_a_copy (OutStatus (ip, 50002, hello_reply)) /\
     forall from port later,
       status_outputs (List.concat (snd (sys_run e p h d (SysStatus (StatusDatagram from port hello_reply) :: later) s))) = []) /\
  (forall to, exists b, said_by_a_copy (OutMapper (PmReply to b)) /\
     forall j later, pi_datagram j = b ->
       let outs := List.concat (snd (sys_run e p h d (SysMapper j :: later) s)) in
       mapper_outputs outs = [] /\ forall c, ~ In (OutAccept c) outs).
Proof.
  intros e p h d s R. split.
  - intros ip. assert (S : said_by_a_copy (OutStatus (ip, 50002, hello_reply))).
    { exists e, p, h, d, true, true,
        [SysStatus (StatusDatagram ip 7 (lit "Qspt1WmJOL" ++ [0x10] ++ lit "CDJ" ++ repeat 0 17 ++ [1; 0; 2]))].
      split; [intros x ifaces []|]. left. vm_compute. reflexivity. }
    split; [exact S|]. intros from port later.
    destruct (C99_what_ends e p h d (OutStatus (ip, 50002, hello_reply)) (SysStatus (StatusDatagram from port hello_reply)) s) as [O E];
      [split; [exact S|]; exists 50002, hello_reply; repeat split|exact R|].
    change (len hello_reply =? 296) with true in E. cbv iota zeta in E. rewrite srun_cons. cbn [snd List.concat]. rewrite O, E. cbn [app].
    apply status_gone. reflexivity.
  - intros to. exists (std_reply 8 (word 4000)). assert (S : said_by_a_copy (OutMapper (PmReply to (std_reply 8 (word 4000))))).
    { exists e, p, h, d, true, true, [SysMapper (mkPmIn getport_mount to (Some 4000) true)].
      split; [intros x ifaces []|]. right. left. vm_compute. reflexivity. }
    split; [exact S|]. intros j later J outs.
    destruct (C99_what_ends e p h d (OutMapper (PmReply to (std_reply 8 (word 4000)))) (SysMapper j) s) as [O E];
      [split; [exact S|]; exists 50111, (std_reply 8 (word 4000)); repeat split; exact J|exact R|].
    cbv zeta in E. subst outs. rewrite srun_cons. cbn [snd List.concat]. rewrite O, E. cbn [app]. apply mapper_quiet. reflexivity.
Qed.
Print Assumptions C99_harmless_refuted.

(** A copy has heard a player and announces itself; another copy hears this among its
    own turns.  An answer of its port mapper, bounced to a mount service of the other
    copy, ends that service. *)
Example C99_case : forall e p h d,
  let hears := SysWorld (KaDatagram (status_datagram "XDJ-700" 3 192 168 10 52) one_iface) in
  let own := SysWorld (BroadcastTurn true) in
  exists b, In (OutWorld (Sent 3232238130 3232238335 50000 b))
              (List.concat (snd (sys_run e p h d [hears; own] (system_start true true true true)))) /\
    len b = 54 /\
    announcement_of_a_copy (SysWorld (KaDatagram b one_iface)) /\
    with_extra announcement_of_a_copy [hears; own] [hears; SysWorld (KaDatagram b one_iface); own] /\
    let question := SysMapper (mkPmIn getport_mount 9 (Some 4000) true) in
    let bounced := SysUdp 4000 (mkNfsIn (std_reply 8 (word 4000)) 9 demo true true) in
    from_a_copy bounced /\
    sy_udp (fst (sys_run e p h d [question] (system_start true true true true))) 4000 = MountUdp true /\
    sy_udp (fst (sys_run e p h d [question; bounced] (system_start true true true true))) 4000 = MountUdp false.
Proof.
  intros e p h d hears own.
  exists (status_bytes 3232238130 [0x00; 0x45; 0xcb; 0x9a; 0xa5; 0x0b] 1).
  match goal with |- ?P /\ _ => assert (S : P) end.
  { vm_compute. repeat (try (left; reflexivity); right). }
  assert (T : inputs_typed (world_inputs [hears; own])).
  { intros x ifaces [H|[H|[]]]; [|discriminate]. inversion H; subst. exact one_iface_typed. }
  assert (A : announcement_of_a_copy (SysWorld (KaDatagram (status_bytes 3232238130 [0x00; 0x45; 0xcb; 0x9a; 0xa5; 0x0b] 1) one_iface))).
  { eexists. split; [|split].
    2:{ exists e, p, h, d, true, true, [hears; own]. split; [exact T|]. exact S. }
    - reflexivity.
    - exists 50000. eexists. repeat split. }
  split; [exact S|]. split; [reflexivity|]. split; [exact A|]. split.
  { apply extra_keep, extra_put; [exact A|]. apply extra_keep, extra_none. }
  intros question bounced. split; [|split; vm_compute; reflexivity].
  exists (OutMapper (PmReply 9 (std_reply 8 (word 4000)))). split.
  - exists e, p, h, d, true, true, [question]. split; [intros x ifaces []|]. right. left. vm_compute. reflexivity.
  - exists 4000, (std_reply 8 (word 4000)). repeat split; discriminate.
Qed.
