(** Property theorems C81: nothing is sent unasked. *)

From Verif Require Import Base Unicode MPackets MNetwork MServer MStatus MDb MDatabase MLib MRpc MRpcServer MNfs
  MSystem SUdp SNetwork SRpc SServer SRpcServer SSystem STraffic LBase LServer LServer2 LRpc LRpc2 LRpcServer LSystem
  PServer PRpcServer PSystem PSession PDatabase PScan PEnd.
From Coq Require Import ZArith Lia Arith String.
Open Scope list_scope.
Open Scope N_scope.

Lemma count_app : forall A (f : A -> bool) a b, count f (a ++ b) = (count f a + count f b)%nat.
Proof. intros. unfold count. rewrite filter_app, app_length. reflexivity. Qed.

Lemma count_none : forall A (f : A -> bool) l, (forall x, In x l -> f x = false) -> count f l = 0%nat.
Proof.
  intros A f l H. unfold count. induction l as [|a l IH]; [reflexivity|]. cbn [filter].
  rewrite (H a (or_introl eq_refl)). apply IH. intros x I. apply H. right. assumption.
Qed.

Lemma count_zero : forall A (f : A -> bool) l x, (count f l <= 0)%nat -> In x l -> f x = false.
Proof.
  intros A f l x H I. unfold count in H. destruct (f x) eqn:E; [|reflexivity].
  assert (X : In x (filter f l)) by (apply filter_In; auto). destruct (filter f l); [destruct X|cbn in H; lia].
Qed.

Section Traffic.
Variables (e : endian) (p : profile) (h : hash_order) (d : database).
Notation sstep := (sys_step e p h d).
Notation srun := (sys_run e p h d).

(** A reply that the file service has not got rid of. *)
Definition owed_by (v : udp_service) (a : peer) : nat :=
  match v with
  | NfsUdp s => match sv_unsent s with Some (b, _) => if b =? a then 1%nat else 0%nat | None => 0%nat end
  | _ => 0%nat
  end.
Definition owed (x : correspondent) (s : system) : nat :=
  match x with UdpPeer port a => owed_by (sy_udp s port) a | _ => 0%nat end.

Lemma udp_turn_count : forall w q j v a,
  (count (sent_to (UdpPeer q a)) (snd (udp_turn e w q j v)) + owed_by (fst (udp_turn e w q j v)) a
   <= (if (ni_from j =? a)%N then 1 else 0) + owed_by v a)%nat.
Proof.
  intros w q j v a. unfold udp_turn. destruct v as [|v|[|]]; [cbn; lia| | |cbn; lia].
  - unfold nfs_turn. destruct (sv_nfs v) as [n|]; [|cbn; lia].
    destruct (codec_decode (ni_datagram j)) as [[m|]| |]; try (cbn; lia).
    destruct (rpc_body m) as [c|r]; [|cbn; lia].
    destruct (call_procedure e (ni_os j) (ca_procedure c) n) as [n' [reply| |]]; try (cbn; lia).
    set (b := codec_encode (reply_to reply (rpc_xid m))). clearbody b.
    unfold framed_send. destruct (sv_unsent v) as [[a' b']|] eqn:U; cbn [snd].
    + destruct (send_to (ni_resend j) b'); [destruct (send_to (ni_send j) b)|];
        cbn [fst snd map app owed_by sv_unsent]; rewrite ?U; unfold count; cbn [filter sent_to fst snd];
        rewrite ?N.eqb_refl; cbn [andb];
        destruct (a' =? a), (ni_from j =? a); cbn; lia.
    + destruct (send_to (ni_send j) b); cbn [fst snd map app owed_by sv_unsent]; rewrite ?U;
        unfold count; cbn [filter sent_to fst snd]; rewrite ?N.eqb_refl; cbn [andb];
        destruct (ni_from j =? a); cbn; lia.
  - unfold ms_turn. cbn [mi_datagram mi_poisoned mi_address mi_send mi_from].
    destruct (codec_decode (ni_datagram j)) as [[m|]| |]; try (cbn; lia).
    destruct (rpc_procedure_router _ _ m) as [r| |]; try (cbn; lia).
    destruct (send_to _ _); cbn [fst snd map owed_by]; unfold count; cbn [filter sent_to fst snd]; [|cbn; lia].
    rewrite N.eqb_refl; cbn [andb]. destruct (ni_from j =? a); cbn; lia.
Qed.

Lemma start_services_owed : forall outs u port a,
  (owed_by (start_services u outs port) a <= owed_by (u port) a)%nat.
Proof.
  induction outs as [|o outs IH]; intros u port a; [cbn; lia|].
  unfold start_services in *. cbn [fold_left]. etransitivity; [apply IH|].
  destruct o as [[|] q|]; unfold at_key; try lia; destruct (port =? q); cbn; lia.
Qed.

Lemma count_map_other : forall A (f : sys_output -> bool) (g : A -> sys_output) l,
  (forall a, f (g a) = false) -> count f (map g l) = 0%nat.
Proof. intros A f g l H. apply count_none. intros x I. apply in_map_iff in I. destruct I as (a & <- & _). apply H. Qed.

(** What goes out, and is owed, was owed or has just been asked for. *)
Lemma step_count : forall x i s,
  (count (sent_to x) (snd (sstep i s)) + owed x (fst (sstep i s)) <= count (received_from x) [i] + owed x s)%nat.
Proof.
  intros x i s. destruct (w_running (sy_world s)) eqn:R.
  2:{ unfold sys_step. rewrite R. cbn. destruct (received_from x i); cbn; lia. }
  pose proof (step_shape e p h d i s R) as S.
  destruct i as [j|y|j|q j|ws|c chunk [port|]|c|y].
  - rewrite S. cbn [fst snd]. rewrite count_map_other by (destruct x; reflexivity).
    destruct x; cbn; lia.
  - destruct (sy_status s) eqn:E.
    2:{ rewrite S. cbn [fst snd]. unfold count at 1. cbn [filter List.length]. lia. }
    unfold status_turn in S. destruct y as [ip pt b|].
    2:{ cbn in S. rewrite S. unfold count. cbn. destruct x; cbn; lia. }
    cbn [status_recv_from] in S. destruct (status_packet_try_from (firstn 1024 b)) as [pk| |]; cbn [rbind] in S.
    + destruct (process_packet pk) as [r|].
      * destruct (status_packet_encode r) as [bb| |]; cbn [rbind] in S; rewrite S; cbn [fst snd map].
        -- unfold count. destruct x as [a|a|q a|k|q]; cbn [filter sent_to received_from owed List.length]; try lia.
           destruct (ip =? a); cbn; lia.
        -- unfold count. cbn [filter List.length]. destruct x; cbn; lia.
        -- unfold count. cbn [filter List.length]. destruct x; cbn; lia.
      * rewrite S. cbn [fst snd map]. unfold count at 1. cbn [filter List.length]. lia.
    + rewrite S. cbn [fst snd map]. unfold count at 1. cbn [filter List.length]. lia.
    + rewrite S. cbn [fst snd]. unfold count at 1. cbn [filter List.length]. destruct x; cbn; lia.
  - destruct (sy_mapper s) eqn:E.
    2:{ rewrite S. cbn [fst snd]. unfold count at 1. cbn [filter List.length]. lia. }
    rewrite S. cbn [fst snd].
    assert (O : (owed x (with_mapper s (fst (pm_turn j)) (start_services (sy_udp s) (snd (pm_turn j)))) <= owed x s)%nat).
    { destruct x; try (cbn; lia). apply start_services_owed. }
    assert (C : (count (sent_to x) (map OutMapper (snd (pm_turn j))) <= count (received_from x) [SysMapper j])%nat); [|lia].
    unfold pm_turn.
    destruct (codec_decode (pi_datagram j)) as [[m|]| |]; try (cbn; lia).
    destruct (pi_port j) as [pt|]; [|cbn; lia].
    set (st := match rpc_body m with Call c => _ | Reply _ => _ end).
    assert (Z : count (sent_to x) (map OutMapper st) = 0%nat).
    { unfold st. destruct (rpc_body m) as [c|]; [destruct (ca_procedure c)|]; try (destruct x; reflexivity).
      destruct (gp_program _); destruct x; reflexivity. }
    clearbody st. destruct (send_to _ _); cbn [snd].
    + rewrite map_app, count_app, Z. unfold count. cbn [map filter].
      destruct x as [a|a|q a|k|q]; cbn [sent_to received_from List.length]; try lia.
      destruct (pi_from j =? a); cbn; lia.
    + rewrite Z. lia.
  - destruct S as [S1 S2]. rewrite S1, S2.
    destruct x as [a|a|port a|k|port]; try (rewrite count_none;
      [cbn; lia|intros o I; apply udp_turn_outs in I; destruct I as (to & bb & ->); reflexivity]).
    cbn [owed with_udp sy_udp]. unfold at_key. destruct (N.eqb_spec port q) as [->|N].
    + unfold count at 2. cbn [filter received_from]. rewrite N.eqb_refl. cbn [andb].
      pose proof (udp_turn_count (sy_world s) q j (sy_udp s q) a) as H.
      destruct (ni_from j =? a); cbn [List.length] in *; lia.
    + rewrite count_none; [|intros o I; apply udp_turn_outs in I; destruct I as (to & bb & ->); cbn [sent_to];
        destruct (N.eqb_spec q port); [congruence|reflexivity]]. lia.
  - rewrite S. destruct (sy_joined s); [destruct (sy_mapper s)|]; cbn [fst snd]; try (unfold count at 1; cbn; destruct x; cbn; lia).
    rewrite count_map_other by (destruct x; reflexivity). destruct x; cbn; lia.
  - rewrite S. destruct (sy_query s c); cbn [fst snd]; [|unfold count at 1; cbn [filter List.length]; lia].
    unfold count. destruct x as [a|a|q a|k|q]; cbn [filter sent_to received_from owed List.length]; try (cbn; lia).
    destruct (c =? k); cbn; lia.
  - rewrite S. destruct (sy_query s c); cbn [fst snd]; unfold count at 1; cbn [filter List.length]; [|lia].
    destruct x; cbn; lia.
  - rewrite S. cbn [fst snd]. unfold count at 1. cbn [filter List.length]. destruct x; cbn; lia.
  - destruct y as [q ch|q|q ch|q].
    + rewrite S. cbn [fst snd]. unfold count at 1. cbn [filter List.length]. lia.
    + rewrite S. cbn [fst snd db_step]. destruct (sy_db s q); cbn [fst snd map]; unfold count at 1; cbn [filter List.length];
        destruct x; cbn; lia.
    + rewrite S. cbn [fst snd db_step]. destruct (sy_db s q); cbn [fst snd map];
        try (unfold count at 1; cbn [filter List.length]; destruct x; cbn; lia).
      destruct (process p h d st ch) as [[an st']| |]; cbn [fst snd map]; unfold count at 1; cbn [filter List.length];
        try (destruct x; cbn; lia).
      unfold count. destruct x as [a|a|q' a|k|q']; cbn [filter sent_to received_from List.length]; try (cbn; lia).
      destruct (q =? q'); cbn; lia.
    + rewrite S. cbn [fst snd db_step]. destruct (sy_db s q); cbn [fst snd map]; unfold count at 1; cbn [filter List.length];
        destruct x; cbn; lia.
Qed.

Lemma run_count : forall x is s,
  (count (sent_to x) (List.concat (snd (srun is s))) <= count (received_from x) is + owed x s)%nat.
Proof.
  intros x is. induction is as [|i is IH]; intros s; [cbn; lia|].
  pose proof (step_count x i s) as S. rewrite (srun_cons e p h d). cbn [snd List.concat].
  specialize (IH (fst (sstep i s))).
  rewrite count_app. change (i :: is) with ([i] ++ is). rewrite count_app. lia.
Qed.

(** Everything that goes out has an addressee, or is an announcement. *)
Lemma step_addressed : forall i s o, In o (snd (sstep i s)) -> carries o = true ->
  announces o = true \/ exists x, sent_to x o = true.
Proof.
  intros i s o I C.
  assert (D : (exists b, o = OutDb (PortAnswer b)) \/ (forall b, o <> OutDb (PortAnswer b))).
  { destruct o as [| | | | | |[b|q b]]; try (right; intros; discriminate). left. exists b. reflexivity. }
  destruct D as [[b ->]|D].
  - exfalso. clear C. destruct (w_running (sy_world s)) eqn:R.
    2:{ unfold sys_step in I. rewrite R in I. destruct I. }
    pose proof (step_shape e p h d i s R) as S.
    destruct i as [j|y|j|q j|ws|c chunk [port|]|c|y].
    + rewrite S in I. cbn [snd] in I. apply in_map_iff in I. destruct I as (? & X & _). discriminate.
    + rewrite S in I. destruct (sy_status s); [|destruct I]. destruct (status_turn y); cbn [snd] in I; try (destruct I).
      apply in_map_iff in I. destruct I as (? & X & _). discriminate.
    + rewrite S in I. destruct (sy_mapper s); [|destruct I]. cbn [snd] in I. apply in_map_iff in I.
      destruct I as (? & X & _). discriminate.
    + destruct S as [_ S]. rewrite S in I. apply udp_turn_outs in I. destruct I as (? & ? & X). discriminate.
    + rewrite S in I. destruct (sy_joined s); [destruct (sy_mapper s)|]; cbn [snd] in I; try (destruct I).
      apply in_map_iff in I. destruct I as (? & X & _). discriminate.
    + rewrite S in I. destruct (sy_query s c); [|destruct I]. destruct I as [X|[]]. discriminate.
    + rewrite S in I. destruct (sy_query s c); destruct I.
    + rewrite S in I. destruct I.
    + destruct y as [q ch|q|q ch|q]; rewrite S in I; cbn [snd db_step] in I; [destruct I| | |].
      * destruct (sy_db s q); destruct I.
      * destruct (sy_db s q); try (destruct I). destruct (process p h d st ch) as [[an st']| |]; cbn [snd] in I.
        -- destruct I as [X|[]]. discriminate.
        -- destruct I.
        -- destruct I.
      * destruct (sy_db s q); destruct I.
  - destruct o as [[| |]|[[a pt] b]|[|]| | | |[b|q b]]; try discriminate C.
    + left. reflexivity.
    + right. exists (StatusPeer a). apply N.eqb_refl.
    + right. eexists (MapperPeer _). apply N.eqb_refl.
    + right. exists (UdpPeer port to). cbn. rewrite !N.eqb_refl. reflexivity.
    + right. eexists (QueryPeer _). apply N.eqb_refl.
    + destruct (D b eq_refl).
    + right. exists (DbPeer q). apply N.eqb_refl.
Qed.

Lemma run_addressed : forall is s o, In o (List.concat (snd (srun is s))) -> carries o = true ->
  announces o = true \/ exists x, sent_to x o = true.
Proof.
  induction is as [|i is IH]; intros s o I C; [destruct I|].
  rewrite (srun_cons e p h d) in I. cbn [snd List.concat] in I. apply in_app_or in I. destruct I as [I|I].
  - exact (step_addressed i s o I C).
  - exact (IH _ o I C).
Qed.

End Traffic.

(** ** C81 *)

(** No correspondent is ever sent more than it has sent. *)
Theorem C81_no_more_than_asked : forall e p h d ka st mp db is x,
  (count (sent_to x) (List.concat (snd (sys_run e p h d is (system_start ka st mp db))))
   <= count (received_from x) is)%nat.
Proof.
  intros. pose proof (run_count e p h d x is (system_start ka st mp db)) as H.
  destruct x; cbn [owed system_start sy_udp owed_by] in H; lia.
Qed.
Print Assumptions C81_no_more_than_asked.

(** Whatever goes out is an announcement or goes to a correspondent. *)
Theorem C81_addressed : forall e p h d ka st mp db is o,
  In o (List.concat (snd (sys_run e p h d is (system_start ka st mp db)))) -> carries o = true ->
  announces o = true \/
  exists x, sent_to x o = true /\ exists i, In i is /\ received_from x i = true.
Proof.
  intros e p h d ka st mp db is o I C. destruct (run_addressed e p h d _ _ _ I C) as [A|[x S]]; [left; assumption|].
  right. exists x. split; [assumption|].
  pose proof (C81_no_more_than_asked e p h d ka st mp db is x) as L. unfold count in L.
  destruct (filter (received_from x) is) as [|i l] eqn:F.
  - exfalso. assert (X : In o (filter (sent_to x) (List.concat (snd (sys_run e p h d is (system_start ka st mp db))))))
      by (apply filter_In; auto).
    destruct (filter (sent_to x) _); [destruct X|cbn in L; lia].
  - exists i. apply filter_In. rewrite F. left. reflexivity.
Qed.
Print Assumptions C81_addressed.

Definition announcement (o : output) : bool := match o with Sent _ _ _ _ => true | _ => false end.
Definition turn_due (i : input) : bool := match i with BroadcastTurn _ => true | _ => false end.

Lemma count_posted : forall es, count announcement (map Posted es) = 0%nat.
Proof. intros es. apply count_none. intros x I. apply in_map_iff in I. destruct I as (a & <- & _). reflexivity. Qed.
Lemma count_announcements : forall n l, count announcement (map (broadcast_on n) l) = List.length l.
Proof. intros n l. unfold count. induction l; cbn; [reflexivity|]. f_equal. assumption. Qed.
Lemma links_app : forall a b, links (a ++ b) = (links a + links b)%nat.
Proof. intros. unfold links. rewrite filter_app, app_length. reflexivity. Qed.

Lemma step_announcements : forall w i hs, inputs_typed [i] -> hears [i] hs ->
  (forall n, st_address (w_state w) = Some n -> net_ok n) ->
  (count announcement (snd (step w i)) + 40 * links (w_queue (fst (step w i)))
   <= count turn_due [i] + 40 * List.length hs + 40 * links (w_queue w))%nat.
Proof.
  intros w i hs Ht Hh Hn. destruct i as [b fs| |ok|ok].
  - apply inputs_typed_one in Ht.
    destruct (datagram_cases w b fs Ht) as [(k & o & A & S & C & F & E)|[(k & _ & _ & _ & E)|[_ E]]]; rewrite E.
    + assert (L : List.length hs = 1%nat).
      { replace hs with [k]; [reflexivity|]. apply (hears_functional [KaDatagram b fs]); [|assumption].
        apply hears_status; [assumption|constructor]. }
      unfold accept. cbv zeta. cbn [fst snd w_queue]. rewrite count_posted, links_app, L.
      set (es := (_ ++ _) : list app_event). assert (X : (links es <= 1)%nat).
      { unfold es. destruct (known _ _), (st_linking _); cbn; lia. }
      lia.
    + cbn [fst snd w_queue]. unfold count at 1. cbn [filter List.length]. lia.
    + cbn [fst snd w_queue]. unfold count at 1. cbn [filter List.length]. lia.
  - unfold step. destruct (w_running w); cbn [fst snd]; unfold count at 1; cbn [filter List.length]; lia.
  - destruct (turn_cases w ok Hn) as [[_ E]|(n & _ & _ & _ & Ea & [[_ E]|[_ E]])]; rewrite E; cbn [fst snd w_queue];
      unfold count; cbn [filter announcement broadcast_on turn_due List.length]; lia.
  - destruct (w_running w) eqn:Er.
    2:{ unfold step. rewrite Er. cbn [fst snd]. unfold count at 1. cbn [filter List.length]. lia. }
    destruct (app_cases w ok Er Hn) as
        [[Eq E]|[(q & Eq & E)|(q & Eq & [(_ & E)|[(_ & _ & E)|[(n & _ & Ea & _ & E)|(n & k & _ & Ea & Hk & _ & _ & E)]]])]];
      rewrite E, ?Eq; cbn [fst snd w_queue with_queue].
    + unfold count at 1. cbn [filter List.length]. rewrite Eq. lia.
    + unfold count at 1. cbn [filter announcement List.length]. change (links (DeviceChange :: q)) with (links q). lia.
    + unfold count at 1. cbn [filter announcement List.length]. change (links (InitiateLink :: q)) with (S (links q)). lia.
    + unfold count at 1. cbn [filter announcement List.length]. change (links (InitiateLink :: q)) with (S (links q)). lia.
    + change (Took InitiateLink :: map (broadcast_on n) (handshake_bytes n))
        with ([Took InitiateLink] ++ map (broadcast_on n) (handshake_bytes n)).
      rewrite count_app, count_announcements. change (links (InitiateLink :: q)) with (S (links q)).
      change (List.length (handshake_bytes n)) with 40%nat.
      unfold count at 1. cbn [filter announcement List.length]. lia.
    + change (Took InitiateLink :: map (broadcast_on n) (firstn k (handshake_bytes n)))
        with ([Took InitiateLink] ++ map (broadcast_on n) (firstn k (handshake_bytes n))).
      rewrite count_app, count_announcements. change (links (InitiateLink :: q)) with (S (links q)).
      rewrite firstn_length. change (List.length (handshake_bytes n)) with 40%nat.
      unfold count at 1. cbn [filter announcement List.length]. lia.
Qed.

Lemma run_announcements : forall is hs, inputs_typed is -> hears is hs ->
  (count announcement (List.concat (snd (run is))) + 40 * links (w_queue (fst (run is)))
   <= count turn_due is + 40 * List.length hs)%nat.
Proof.
  intros is. induction is as [|i is IH] using rev_ind; intros hs Ht Hh; [cbn; lia|].
  apply inputs_typed_app in Ht. destruct Ht as [Ht Hi].
  destruct (hears_total is) as [h1 H1]. destruct (hears_total [i]) as [h2 H2].
  assert (E : hs = h1 ++ h2) by (eapply hears_functional; [exact Hh|apply hears_app; assumption]). subst hs.
  specialize (IH h1 Ht H1). pose proof (step_announcements (fst (run is)) i h2 Hi H2 (address_net_ok is Ht)) as S.
  destruct (run_snoc is i) as [-> ->]. rewrite concat_snoc, !count_app, app_length. lia.
Qed.

Lemma announces_world : forall os, count announces os = count announcement (world_outputs os).
Proof.
  unfold count, world_outputs. induction os as [|o os IH]; [reflexivity|]. cbn [flat_map filter].
  destruct o as [[| |]| | | | | |]; cbn [announces app filter announcement List.length]; congruence.
Qed.
Lemma due_world : forall is, count broadcast_due is = count turn_due (world_inputs is).
Proof.
  unfold count, world_inputs. induction is as [|o os IH]; [reflexivity|]. cbn [flat_map filter].
  destruct o as [[| | |]| | | | | | |]; cbn [broadcast_due app filter turn_due List.length]; congruence.
Qed.

(** Announcements: one for a turn of the broadcast thread, and forty for a status
    heard on port 50000, at most. *)
Theorem C81_announcements : forall e p h d ka st mp db is hs,
  inputs_typed (world_inputs is) -> hears (world_inputs is) hs ->
  (count announces (List.concat (snd (sys_run e p h d is (system_start ka st mp db))))
   <= count broadcast_due is + 40 * List.length hs)%nat.
Proof.
  intros e p h d ka st mp db is hs Ht Hh. destruct (ka && st)%bool eqn:K.
  - apply andb_true_iff in K. destruct K as [-> ->].
    rewrite announces_world, (proj2 (world_run e p h d is _)), due_world.
    pose proof (run_announcements (world_inputs is) hs Ht Hh) as H. unfold run in H.
    change (sy_world (system_start true true mp db)) with (mkWorld state_default false [] true true true).
    unfold world_start in H. lia.
  - rewrite (proj2 (stopped e p h d is (system_start ka st mp db) K)). cbn. lia.
Qed.
Print Assumptions C81_announcements.

Lemma unheard_announcements : forall is, inputs_typed is -> hears is [] -> count announcement (List.concat (snd (run is))) = 0%nat.
Proof.
  intros is. induction is as [|i is IH] using rev_ind; intros Ht Hh; [reflexivity|].
  apply inputs_typed_app in Ht. destruct Ht as [Ht Hi].
  destruct (hears_total is) as [h1 H1]. destruct (hears_total [i]) as [h2 H2].
  assert (E : h1 ++ h2 = []) by (eapply hears_functional; [apply hears_app; eassumption|exact Hh]).
  apply app_eq_nil in E. destruct E as [-> ->].
  destruct (run_snoc is i) as [_ ->]. rewrite concat_snoc, count_app, (IH Ht H1). cbn [Nat.add].
  apply count_none. intros o I. destruct o as [from to port data| |]; try reflexivity. exfalso.
  destruct (C30_sent_on_that_network is i from to port data Ht I) as (n & A & _).
  rewrite (C30_no_network_before is Ht H1) in A. discriminate.
Qed.

(** Nothing at all goes out, whoever connects or listens and however long it runs,
    as long as no player has announced itself and nobody has asked for anything. *)
Theorem C81_silent : forall e p h d ka st mp db is,
  inputs_typed (world_inputs is) -> hears (world_inputs is) [] ->
  (forall i, In i is -> asked i = false) ->
  forall o, In o (List.concat (snd (sys_run e p h d is (system_start ka st mp db)))) -> on_the_wire o = None.
Proof.
  intros e p h d ka st mp db is Ht Hh Ha o I. destruct (on_the_wire o) as [b|] eqn:W; [exfalso|reflexivity].
  assert (C : carries o = true) by (unfold carries; rewrite W; reflexivity).
  destruct (C81_addressed e p h d ka st mp db is o I C) as [A|(x & _ & i & Hi & R)].
  - destruct (ka && st)%bool eqn:K.
    + apply andb_true_iff in K. destruct K as [-> ->].
      assert (Z : count announces (List.concat (snd (sys_run e p h d is (system_start true true mp db)))) = 0%nat).
      { rewrite announces_world, (proj2 (world_run e p h d is _)). exact (unheard_announcements _ Ht Hh). }
      pose proof (count_zero _ announces _ o (Nat.eq_le_incl _ _ Z) I). congruence.
    + rewrite (proj2 (stopped e p h d is (system_start ka st mp db) K)) in I. destruct I.
  - specialize (Ha i Hi). destruct x, i as [| [|] | | | | | |[| | |]]; cbn in R, Ha; discriminate.
Qed.
Print Assumptions C81_silent.

Lemma status_turn_size : forall y out a port b, status_turn y = Ok out -> In (a, port, b) out ->
  port = 50002 /\ (len b = 296 \/ len b = 192).
Proof.
  intros y out a port b E I. unfold status_turn in E. destruct (status_recv_from y) as [[pk ip]| |]; try discriminate.
  2:{ injection E as <-. destruct I. }
  unfold process_packet in E.
  destruct (sp_kind pk);
    try (match type of E with Ok [] = _ => injection E as <- end; destruct I; fail);
    match type of E with rbind ?r _ = _ => destruct r as [bb| |] eqn:B end; try discriminate; cbn [rbind] in E;
    injection E as <-; destruct I as [I|[]]; injection I as <- <- <-; (split; [reflexivity|]);
    vm_compute in B; injection B as <-; first [left; reflexivity|right; reflexivity].
Qed.

Lemma udp_turn_size : forall e w q j v o, In o (snd (udp_turn e w q j v)) -> exists to b, o = OutUdp q to b /\ len b <= 65507.
Proof.
  intros e w q j v o I. unfold udp_turn in I. destruct v as [|v|[|]]; try destruct I.
  - assert (S : forall ok b, send_to ok b = true -> len b <= 65507).
    { intros ok b H. unfold send_to, max_datagram in H. apply andb_true_iff in H. apply N.leb_le. apply H. }
    assert (G : forall a b, In (a, b) (snd (nfs_turn e j v)) -> len b <= 65507).
    { unfold nfs_turn. destruct (sv_nfs v) as [n|]; [|intros ? ? []].
      destruct (codec_decode (ni_datagram j)) as [[m|]| |]; try (intros ? ? []).
      destruct (rpc_body m) as [c|r]; [|intros ? ? []].
      destruct (call_procedure e (ni_os j) (ca_procedure c) n) as [n' [reply| |]]; try (intros ? ? []).
      set (b := codec_encode (reply_to reply (rpc_xid m))). clearbody b. intros a b'.
      unfold framed_send. destruct (sv_unsent v) as [[a1 b1]|]; cbn [snd].
      - destruct (send_to (ni_resend j) b1) eqn:S1; [destruct (send_to (ni_send j) b) eqn:S2|]; cbn [snd app].
        + intros [X|[X|[]]]; injection X as <- <-; eauto.
        + intros [X|[]]; injection X as <- <-; eauto.
        + intros [].
      - destruct (send_to (ni_send j) b) eqn:S2; cbn [snd app]; [|intros []].
        intros [X|[]]; injection X as <- <-; eauto. }
    destruct (nfs_turn e j v) as [v' outs]. cbn [snd] in I, G. apply in_map_iff in I. destruct I as ([a b] & <- & I).
    exists a, b. split; [reflexivity|]. exact (G a b I).
  - unfold ms_turn in I. cbn [mi_datagram mi_poisoned mi_address mi_send mi_from] in I.
    destruct (codec_decode (ni_datagram j)) as [[m|]| |]; try destruct I.
    destruct (rpc_procedure_router _ _ m) as [r| |]; try destruct I.
    destruct (send_to (ni_send j) (codec_encode r)) eqn:S; cbn [snd map] in I; [|destruct I].
    destruct I as [<-|[]]. exists (ni_from j), (codec_encode r). split; [reflexivity|].
    unfold send_to, max_datagram in S. apply andb_true_iff in S. apply N.leb_le. apply S.
Qed.

Lemma announced_size : forall n b, len (pn_mac n) = 6 ->
  In b (handshake_bytes n) \/ b = status_bytes (pn_ip n) (pn_mac n) 1 -> len b = 44 \/ len b = 50 \/ len b = 54.
Proof.
  intros n b L H.
  assert (K : forall k z body, len (announcement_bytes k z body) = 36 + len body).
  { intros. unfold announcement_bytes. rewrite !len_app. change (len (lit "Qspt1WmJOL")) with 10.
    change (len (ascii_padded 20 "rekordbox")) with 20. unfold len. cbn [List.length]. lia. }
  assert (S : forall x, len (status_bytes (pn_ip n) (pn_mac n) x) = 54).
  { intros. unfold status_bytes. rewrite K, !len_app, !be_len, L. reflexivity. }
  assert (C : forall x, len (mac_claim_bytes x (pn_mac n)) = 44).
  { intros. unfold mac_claim_bytes. rewrite K, !len_app, L. reflexivity. }
  assert (I : forall x y, len (ip_claim_bytes x y (pn_ip n) (pn_mac n)) = 50).
  { intros. unfold ip_claim_bytes. rewrite K, !len_app, !be_len, L. reflexivity. }
  destruct H as [H| ->]; [|right; right; apply S].
  unfold handshake_bytes in H. apply in_app_or in H. destruct H as [H|H].
  - left. destruct H as [<-|[<-|[<-|[]]]]; apply C.
  - apply in_app_or in H. destruct H as [H|[<-|[]]]; [|right; right; apply S].
    right. left. apply in_flat_map in H. destruct H as (x & _ & H). apply in_map_iff in H. destruct H as (y & <- & _). apply I.
Qed.

(** And nothing that goes out is larger than its kind allows, whatever came in. *)
Theorem C81_sizes : forall e p h d ka st mp db is i o,
  inputs_typed (world_inputs is) ->
  In o (snd (sys_step e p h d i (fst (sys_run e p h d is (system_start ka st mp db))))) -> fair_size o.
Proof.
  intros e p h d ka st mp db is i o Ht I.
  destruct (ka && st)%bool eqn:K.
  2:{ rewrite (proj1 (stopped e p h d is (system_start ka st mp db) K)) in I.
      unfold sys_step in I. cbn [system_start sy_world w_running] in I. rewrite K in I. destruct I. }
  apply andb_true_iff in K. destruct K as [-> ->].
  pose proof (start_runs e p h d mp db is) as W.
  set (s := fst (sys_run e p h d is (system_start true true mp db))) in *. clearbody s.
  destruct (w_running (sy_world s)) eqn:R.
  2:{ unfold sys_step in I. rewrite R in I. destruct I. }
  pose proof (step_shape e p h d i s R) as S.
  destruct i as [j|y|j|q j|ws|c chunk [port|]|c|y].
  - rewrite S in I. cbn [snd] in I. apply in_map_iff in I. destruct I as (o' & <- & I). rewrite W in I.
    destruct o' as [from to port data| |]; cbn [fair_size]; auto.
    destruct (C30_sent_on_that_network _ _ _ _ _ _ Ht I) as (n & A & B & D).
    split; [unfold broadcast_on in B; congruence|].
    apply (announced_size n); [|assumption]. apply (address_ok _ Ht n A).
  - rewrite S in I. destruct (sy_status s); [|destruct I]. destruct (status_turn y) as [out| |] eqn:E; cbn [snd] in I;
      [|destruct I|destruct I].
    apply in_map_iff in I. destruct I as ([[a port] b] & <- & I). exact (status_turn_size y out a port b E I).
  - rewrite S in I. destruct (sy_mapper s); [|destruct I]. cbn [snd] in I. apply in_map_iff in I.
    destruct I as (o' & <- & I). destruct o' as [|a b]; cbn [fair_size]; [exact Logic.I|].
    unfold pm_turn in I. destruct (codec_decode (pi_datagram j)) as [[m|]| |]; try destruct I.
    destruct (pi_port j) as [pt|]; [|destruct I].
    match type of I with context [?st ++ [PmReply _ _]] => set (sv := st) in I end.
    assert (Z : ~ In (PmReply a b) sv).
    { unfold sv. destruct (rpc_body m) as [c|]; [|intros []]. destruct (ca_procedure c); try (intros []; fail).
      destruct (gp_program _); intros [X|[]]; discriminate. }
    clearbody sv. destruct (send_to _ _); cbn [snd] in I; [|contradiction].
    apply in_app_or in I. destruct I as [I|[I|[]]]; [contradiction|].
    injection I as _ <-. rewrite getport_reply_datagram, std_reply_len. reflexivity.
  - destruct S as [_ S]. rewrite S in I. apply udp_turn_size in I. destruct I as (a & b & -> & L). exact L.
  - rewrite S in I. destruct (sy_joined s); [destruct (sy_mapper s)|]; cbn [snd] in I; try destruct I.
    apply in_map_iff in I. destruct I as (c & <- & _). exact Logic.I.
  - rewrite S in I. destruct (sy_query s c); [|destruct I]. destruct I as [<-|[]]. cbn [fair_size]. apply be_len.
  - rewrite S in I. destruct (sy_query s c); destruct I.
  - rewrite S in I. destruct I.
  - destruct y as [q ch|q|q ch|q]; rewrite S in I; cbn [snd] in I; [destruct I| | |];
      apply in_map_iff in I; destruct I as (o' & <- & _); exact Logic.I.
Qed.
Print Assumptions C81_sizes.

Definition busy_run : list sys_input :=
  map SysWorld example_history ++ session_start ++ SysMapper session_nfs :: session_rest ++
  map SysWorld (repeat (AppTurn (fun _ => true)) 5) ++ [SysWorld (BroadcastTurn true)].
Example C81_case :
  let os := List.concat (snd (sys_run Little Checked reverse_order example_found_db busy_run (system_start true true true true))) in
  inputs_typed (world_inputs busy_run) /\
  count announces os = 122%nat /\ count broadcast_due busy_run = 2%nat /\
  count (sent_to (DbPeer 5000)) os = 6%nat /\ count (received_from (DbPeer 5000)) busy_run = 6%nat /\
  count carries os = 137%nat.
Proof.
  cbv zeta. split.
  { intros d fs I. apply (proj1 C28_case d fs).
    assert (E : world_inputs busy_run = example_history ++ repeat (AppTurn (fun _ => true)) 5 ++ [BroadcastTurn true]) by reflexivity.
    rewrite E in I. apply in_app_or in I. destruct I as [I|I]; [assumption|exfalso].
    cbn [repeat app In] in I. repeat (destruct I as [I|I]; [discriminate I|]). destruct I. }
  repeat (split; [vm_compute; reflexivity|]). vm_compute; reflexivity.
Qed.

(** A device connects and goes, noise is heard on port 50000, and time passes. *)
Definition quiet_run : list sys_input :=
  [SysJoin [Some 1]; SysWorld (KaDatagram (lit "hello") []); SysWorld (BroadcastTurn true);
   SysWorld (AppTurn (fun _ => true)); SysQueryEnd 1; SysDb (Connect 5000)].
Example C81_case_silent :
  inputs_typed (world_inputs quiet_run) /\ SServer.hears (world_inputs quiet_run) [] /\
  (forall i, In i quiet_run -> asked i = false).
Proof.
  split; [|split].
  - intros d fs I. cbn in I. destruct I as [I|I]; [injection I as <- <-; intros x []|]. repeat (destruct I as [I|I]; [discriminate I|]). destruct I.
  - cbn [world_inputs quiet_run]. apply hears_noise; [intros h [R _]; vm_compute in R; lia|].
    apply hears_other; [discriminate|]. apply hears_other; [discriminate|]. apply hears_nil.
  - intros i I. repeat (destruct I as [<-|I]; [reflexivity|]). destruct I.
Qed.
