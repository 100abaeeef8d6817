(** Property theorems C28-C33, C58 and C59: discovery and linking. *)

From Verif Require Import Base Unicode MPackets MKeepalive MNetwork MServer SUdp SNetwork SServer
  LBase LUnicode LUdp LNetwork LServer LServer2.
From Coq Require Import ZArith String.
Open Scope list_scope.
Open Scope N_scope.

(** ** C28 *)

(** Every history hears exactly one list of devices. *)
Theorem C28_hears_one_list : forall is, exists! hs, hears is hs.
Proof.
  intros is. destruct (hears_total is) as [hs H]. exists hs. split; [assumption|].
  intros hs' H'. eapply hears_functional; eassumption.
Qed.
Print Assumptions C28_hears_one_list.

(** The player list is the list of the devices heard, by first appearance, with
    their first model and their last number. *)
Theorem C28_players_are_the_heard : forall is hs, inputs_typed is -> hears is hs ->
  attentive (fst (run is)) ->
  players_of hs (st_players (w_state (fst (run is)))).
Proof. exact players_heard. Qed.
Print Assumptions C28_players_are_the_heard.

(** When the program no longer takes notice, the list stays as it was. *)
Theorem C28_frozen_afterwards : forall is is', ~ attentive (fst (run is)) ->
  st_players (w_state (fst (run (is ++ is')))) = st_players (w_state (fst (run is))).
Proof. intros is is' H. rewrite run_app_fst. apply (inattentive_frozen is' _ H). Qed.
Print Assumptions C28_frozen_afterwards.

(** Together, for every history: the list is that of a prefix of the history,
    which is the whole of it or ends just before the program stops taking
    notice. *)
Theorem C28_every_history : forall is, inputs_typed is ->
  exists before after hs, is = before ++ after /\ hears before hs /\
    players_of hs (st_players (w_state (fst (run is)))) /\
    (after = [] \/ exists i rest, after = i :: rest /\ ~ attentive (fst (run (before ++ [i])))).
Proof.
  intros is. induction is as [|i is IH] using rev_ind; intros Ht.
  - exists [], [], []. split; [reflexivity|]. split; [constructor|]. split; [|auto].
    split; [reflexivity|]. intros p [].
  - pose proof Ht as Ht0. apply inputs_typed_app in Ht. destruct Ht as [Ht Hi].
    destruct (attentive_dec (fst (run (is ++ [i])))) as [A|A].
    + destruct (hears_total (is ++ [i])) as [hs H]. exists (is ++ [i]), [], hs.
      rewrite app_nil_r. split; [reflexivity|]. split; [assumption|].
      split; [apply players_heard; assumption|auto].
    + destruct (attentive_dec (fst (run is))) as [B|B].
      * destruct (hears_total is) as [hs H]. exists is, [i], hs. split; [reflexivity|].
        split; [assumption|]. split; [|right; exists i, []; auto].
        assert (E : st_players (w_state (fst (run (is ++ [i])))) = st_players (w_state (fst (run is)))).
        { rewrite (proj1 (run_snoc is i)) in *. set (w := fst (run is)) in *. clearbody w.
          assert (O : (forall d fs, i <> KaDatagram d fs) ->
                      st_players (w_state (fst (step w i))) = st_players (w_state w))
            by (intros O; apply (step_other w i O)).
          destruct i as [d fs| | |]; [clear O|apply O; discriminate|apply O; discriminate|apply O; discriminate].
          apply inputs_typed_one in Hi.
          destruct (datagram_cases w d fs Hi) as [(h & o & _ & _ & _ & _ & E)|[(h & _ & _ & _ & E)|[_ E]]];
            rewrite E in *; try reflexivity.
          exfalso. apply A. repeat split. }
        rewrite E. apply players_heard; assumption.
      * destruct (IH Ht) as (b & a & hs & -> & Hh & P & C).
        exists b, (a ++ [i]), hs. rewrite app_assoc. split; [reflexivity|]. split; [assumption|].
        split.
        -- rewrite (run_app_fst (b ++ a) [i]). rewrite (proj1 (inattentive_frozen [i] _ B)). assumption.
        -- right. destruct C as [->|(j & rest & -> & N)].
           ++ exists i, []. split; [reflexivity|]. rewrite app_nil_r in *. assumption.
           ++ exists j, (rest ++ [i]). auto.
Qed.
Print Assumptions C28_every_history.

(** Two players, the first of which changes its number and its name; noise and a
    rekordbox in between. *)
Definition status_datagram (name : string) (number a b c d : N) : bytes :=
  lit "Qspt1WmJOL" ++ [6; 0] ++ ascii_padded 20 name ++ [1; 2; 0; 0x36]
  ++ [number; 1] ++ [0xc8; 0x3d; 0xfc; 4; 5; 6] ++ [a; b; c; d] ++ [2; 0; 0; 0; 1; 0].
Definition one_iface : list iface :=
  [mkIface (Some [0; 0x45; 0xcb; 0x9a; 0xa5; 0x0b]) [V6; V4 (mkNet 3232238130 24)]].
Definition example_history : list input :=
  [KaDatagram (status_datagram "XDJ-700" 3 192 168 10 52) one_iface; KaRecvError;
   KaDatagram (status_datagram "CDJ-850" 4 192 168 10 53) one_iface;
   KaDatagram (status_datagram "rekordbox" 17 192 168 10 54) one_iface;
   KaDatagram (status_datagram "XDJ-1000" 2 192 168 10 52) one_iface;
   KaDatagram (firstn 53 (status_datagram "XDJ-1000" 2 192 168 10 55)) one_iface; BroadcastTurn true].

Lemma one_iface_typed : ifaces_typed one_iface.
Proof.
  intros i [<-|[]]. split.
  - intros m E. cbn in E. assert (X := f_equal (fun o => match o with Some v => v | None => [] end) E).
    cbn in X. rewrite <- X. split; [reflexivity|].
    apply Forall_forall. intros b Hb. cbn in Hb.
    destruct Hb as [<-|[<-|[<-|[<-|[<-|[<-|[]]]]]]]; reflexivity.
  - intros n [E|[E|[]]]; [discriminate|]. injection E as <-. cbn. lia.
Qed.

Definition status_computed (d : bytes) : option heard :=
  match ka_receive d with
  | Ok p => match event_status p with Some (n, ip) => Some (mkHeard ip n (ka_model p)) | None => None end
  | _ => None
  end.
Lemma status_computed_some : forall d h, status_computed d = Some h -> status_of d h.
Proof.
  intros d h H. unfold status_computed in H. destruct (ka_receive d) as [p| |] eqn:E; try discriminate.
  destruct (event_status p) as [[n ip]|] eqn:Q; try discriminate. injection H as <-.
  apply status_of_iff. exists p. auto.
Qed.
Lemma status_computed_none : forall d, status_computed d = None -> forall h, ~ status_of d h.
Proof.
  intros d H h S. apply status_of_iff in S. destruct S as (p & E & Q & _).
  unfold status_computed in H. rewrite E, Q in H. discriminate.
Qed.
Ltac hear := first
  [ apply hears_nil
  | eapply hears_status; [apply status_computed_some; vm_compute; reflexivity|]
  | apply hears_noise; [apply status_computed_none; vm_compute; reflexivity|]
  | apply hears_other; [discriminate|] ].

Example C28_case :
  inputs_typed example_history /\
  hears example_history
    [mkHeard 3232238132 3 (lit "XDJ-700"); mkHeard 3232238133 4 (lit "CDJ-850");
     mkHeard 3232238132 2 (lit "XDJ-1000")] /\
  attentive (fst (run example_history)) /\
  st_players (w_state (fst (run example_history))) =
    [mkPlayer (lit "XDJ-700") 3232238132 2 false; mkPlayer (lit "CDJ-850") 3232238133 4 false].
Proof.
  split.
  { intros d fs H. cbn [example_history In] in H.
    repeat (destruct H as [H|H]; [try discriminate H; inversion H; apply one_iface_typed|]). destruct H. }
  split; [unfold example_history; repeat hear|].
  split; [repeat split; vm_compute; reflexivity|vm_compute; reflexivity].
Qed.

(** ** C29 *)

(** In all, as many device changes are queued as there are players. *)
Theorem C29_as_many_changes_as_players : forall is, inputs_typed is ->
  changes (posted (snd (run is))) = List.length (st_players (w_state (fst (run is)))).
Proof.
  intros is. induction is as [|i is IH] using rev_ind; intros Ht; [reflexivity|].
  apply inputs_typed_app in Ht. destruct Ht as [Ht Hi]. specialize (IH Ht).
  destruct (run_snoc is i) as [-> ->]. rewrite posted_app. unfold changes in *.
  rewrite filter_app, app_length, IH. clear IH.
  set (w := fst (run is)) in *. clearbody w.
  assert (O : (forall d fs, i <> KaDatagram d fs) ->
     (List.length (st_players (w_state w)) +
      List.length (filter (fun e => negb (is_link e)) (posted [snd (step w i)])))%nat =
     List.length (st_players (w_state (fst (step w i))))).
  { intros O. destruct (step_other w i O) as (-> & _ & _ & N). rewrite (not_posted _ N). cbn. lia. }
  destruct i as [d fs| | |]; [clear O|apply O; discriminate|apply O; discriminate|apply O; discriminate].
  apply inputs_typed_one in Hi.
  destruct (datagram_cases w d fs Hi) as [(h & o & _ & _ & _ & _ & E)|[(h & _ & _ & _ & E)|[_ E]]];
    rewrite E; [|cbn; lia|cbn; lia].
  unfold accept. cbv zeta. cbn [fst snd w_state st_players]. rewrite posted_posted, filter_app, app_length.
  pose proof (add_or_update_length (st_players (w_state w)) (player_new (h_model h) (h_number h) (h_ip h))) as L.
  cbn [player_new pl_address] in L. unfold len in L.
  destruct (known (h_ip h) (st_players (w_state w))), (st_linking (w_state w)); cbn; lia.
Qed.
Print Assumptions C29_as_many_changes_as_players.

(** A datagram queues a device change exactly if it is a status that is taken
    notice of, from an address not heard before. *)
Theorem C29_changed_by_first_mention : forall is i hs, inputs_typed (is ++ [i]) -> hears is hs ->
  (In (Posted DeviceChange) (snd (step (fst (run is)) i)) <->
   attentive (fst (run is)) /\
   exists d ifaces h, i = KaDatagram d ifaces /\ status_of d h /\
     ~ lookup_fails ifaces (h_ip h) /\ ~ In (h_ip h) (map h_ip hs)).
Proof.
  intros is i hs Ht Hh. apply inputs_typed_app in Ht. destruct Ht as [Ht Hi].
  pose proof (players_heard is hs Ht Hh) as P. set (w := fst (run is)) in *. clearbody w.
  split.
  - intros H.
    assert (O : (forall d fs, i <> KaDatagram d fs) -> False).
    { intros O. destruct (step_other w i O) as (_ & _ & _ & N). apply (N _ H). }
    destruct i as [d fs| | |]; [clear O|exfalso; apply O; discriminate|exfalso; apply O; discriminate|exfalso; apply O; discriminate].
    apply inputs_typed_one in Hi.
    destruct (datagram_cases w d fs Hi) as [(h & o & A & S & C & F & E)|[(h & _ & _ & _ & E)|[_ E]]];
      rewrite E in H; [|destruct H|destruct H].
    split; [assumption|]. exists d, fs, h. repeat (split; [first [assumption|reflexivity]|]).
    unfold accept in H. cbv zeta in H. cbn [snd] in H. apply in_map_iff in H.
    destruct H as (e & Ee & He). injection Ee as ->. apply in_app_or in He. destruct He as [He|He].
    2: { destruct (st_linking (w_state w)); [destruct He|]. destruct He as [He|[]]. discriminate. }
    destruct (known (h_ip h) (st_players (w_state w))) eqn:K; [destruct He|].
    destruct (P A) as [P1 _]. intros I. apply in_distinct in I. rewrite <- P1 in I.
    apply known_in in I. congruence.
  - intros (A & d & fs & h & -> & S & F & N). apply inputs_typed_one in Hi.
    destruct (find_chosen fs (h_ip h) Hi) as [(o & C & _ & _)|(X & _)]; [|contradiction].
    rewrite (step_accept w d fs h o A S Hi C). unfold accept. cbv zeta. cbn [snd].
    destruct (P A) as [P1 _].
    destruct (known (h_ip h) (st_players (w_state w))) eqn:K.
    + exfalso. apply N. apply known_in in K. rewrite P1 in K. apply (in_distinct (map h_ip hs)). assumption.
    + left. reflexivity.
Qed.
Print Assumptions C29_changed_by_first_mention.

Example C29_case :
  posted (snd (run example_history)) =
  [DeviceChange; InitiateLink; DeviceChange; InitiateLink; InitiateLink].
Proof. vm_compute. reflexivity. Qed.

(** ** C30 *)

(** Before any status is heard there is no network; afterwards it is the one
    chosen for the last status taken notice of. *)
Theorem C30_no_network_before : forall is, inputs_typed is -> hears is [] ->
  st_address (w_state (fst (run is))) = None.
Proof.
  intros is. induction is as [|i is IH] using rev_ind; intros Ht Hh; [reflexivity|].
  apply inputs_typed_app in Ht. destruct Ht as [Ht Hi].
  destruct (hears_total is) as [hs H1]. destruct (hears_total [i]) as [ks H2].
  assert (E : hs ++ ks = []) by (eapply hears_functional; [apply hears_app; eassumption|exact Hh]).
  apply app_eq_nil in E. destruct E as [-> ->]. specialize (IH Ht H1).
  rewrite (proj1 (run_snoc is i)). set (w := fst (run is)) in *. clearbody w.
  inversion H2; subst.
  - rewrite step_noise by assumption. assumption.
  - rewrite (proj1 (proj2 (step_other w i H3))). assumption.
Qed.
Print Assumptions C30_no_network_before.

(** The network is the one of the last status heard. *)
Theorem C30_follows_last_status : forall before d ifaces h after,
  inputs_typed (before ++ KaDatagram d ifaces :: after) ->
  status_of d h -> hears after [] ->
  attentive (fst (run (before ++ [KaDatagram d ifaces]))) ->
  chosen ifaces (h_ip h) (st_address (w_state (fst (run (before ++ KaDatagram d ifaces :: after))))).
Proof.
  intros before d fs h after Ht S Hh A. apply inputs_typed_app in Ht. destruct Ht as [Ht Ha].
  change (KaDatagram d fs :: after) with ([KaDatagram d fs] ++ after) in *.
  apply inputs_typed_app in Ha. destruct Ha as [Hi Ha]. apply inputs_typed_one in Hi.
  rewrite app_assoc, run_app_fst. rewrite (proj1 (run_snoc before (KaDatagram d fs))) in *.
  set (w := fst (run before)) in *. clearbody w.
  assert (E : chosen fs (h_ip h) (st_address (w_state (fst (step w (KaDatagram d fs)))))).
  { destruct (datagram_cases w d fs Hi) as [(h' & o & _ & S' & C & _ & E)|[(h' & _ & _ & _ & E)|[[N|N] E]]];
      rewrite E in *.
    - rewrite (status_of_functional d h h' S S'). exact C.
    - destruct A as (_ & A & _). discriminate.
    - contradiction.
    - exfalso. exact (N h S). }
  set (w1 := fst (step w (KaDatagram d fs))) in *. clearbody w1. clear A.
  replace (st_address (w_state (fst (run_from w1 after)))) with (st_address (w_state w1)); [exact E|].
  clear - Hh. revert w1. remember [] as hs eqn:Eh. 
  induction Hh as [|d fs h is hs S H IH|d fs is hs S H IH|i is hs S H IH]; intros w; [reflexivity|discriminate| |];
    cbn [run_from].
  - rewrite step_noise by assumption. specialize (IH Eh w). destruct (run_from w is). exact IH.
  - pose proof (proj1 (proj2 (step_other w i S))) as X. destruct (step w i) as [w1 o]. cbn [fst] in X.
    rewrite <- X. specialize (IH Eh w1). destruct (run_from w1 is). exact IH.
Qed.
Print Assumptions C30_follows_last_status.

(** It stays as it was once the program no longer listens. *)
Theorem C30_frozen_afterwards : forall is is', ~ attentive (fst (run is)) ->
  st_address (w_state (fst (run (is ++ is')))) = st_address (w_state (fst (run is))).
Proof. intros is is' H. rewrite run_app_fst. apply (inattentive_frozen is' _ H). Qed.
Print Assumptions C30_frozen_afterwards.

(** Everything sent is a broadcast on that network, port 50000, and is one of
    its announcements. *)
Theorem C30_sent_on_that_network : forall is i from to port data, inputs_typed is ->
  In (Sent from to port data) (snd (step (fst (run is)) i)) ->
  exists n, st_address (w_state (fst (run is))) = Some n /\
    Sent from to port data = broadcast_on n data /\
    (In data (handshake_bytes n) \/ data = status_bytes (pn_ip n) (pn_mac n) 1).
Proof.
  intros is i from to port data Ht H. pose proof (address_net_ok is Ht) as Hn.
  set (w := fst (run is)) in *. clearbody w.
  destruct i as [d fs| |ok|ok].
  - exfalso. unfold step, keepalive_turn in H.
    destruct (w_running w), (w_listening w), (ka_receive d) as [p| |], (w_poisoned w); try contradiction;
      destruct (event_status p) as [[n ip]|]; try contradiction.
    destruct (handle_keepalive_status fs p n ip (w_state w)) as [[s es]| |]; try contradiction.
    cbn [snd] in H. apply in_map_iff in H. destruct H as (e & X & _). discriminate.
  - exfalso. unfold step in H. destruct (w_running w); contradiction.
  - destruct (turn_cases w ok Hn) as [[_ E]|(n & _ & _ & _ & Ea & [[_ E]|[_ E]])]; rewrite E in H;
      [destruct H| |destruct H]. exists n. split; [assumption|].
    cbn [snd] in H. destruct H as [H|[]]. assert (D : data = status_bytes (pn_ip n) (pn_mac n) 1) by (unfold broadcast_on in H; congruence).
    rewrite D at 1 2. split; [congruence|auto].
  - destruct (w_running w) eqn:Er.
    2: { unfold step in H. rewrite Er in H. destruct H. }
    destruct (app_cases w ok Er Hn) as
        [[Eq E]|[(q & Eq & E)|(q & Eq & [(_ & E)|[(_ & _ & E)|[(n & _ & Ea & _ & E)|(n & k & _ & Ea & _ & _ & _ & E)]]])]];
      rewrite E in H; cbn [snd] in H; try (destruct H as [H|[]]; discriminate).
    + destruct H.
    + destruct H as [H|H]; [discriminate|]. apply in_map_iff in H. destruct H as (b & Eb & Hb).
      exists n. assert (D : data = b) by (unfold broadcast_on in Eb; congruence). subst b. auto.
    + destruct H as [H|H]; [discriminate|]. apply in_map_iff in H. destruct H as (b & Eb & Hb).
      exists n. assert (D : data = b) by (unfold broadcast_on in Eb; congruence). subst b.
      split; [assumption|]. split; [auto|]. left. rewrite <- (firstn_skipn k). apply in_or_app. auto.
Qed.
Print Assumptions C30_sent_on_that_network.

(** A turn of the broadcaster announces exactly once if a network is known. *)
Theorem C30_periodic_announcement : forall is n, inputs_typed is ->
  w_running (fst (run is)) = true -> w_broadcasting (fst (run is)) = true ->
  w_poisoned (fst (run is)) = false -> st_address (w_state (fst (run is))) = Some n ->
  step (fst (run is)) (BroadcastTurn true) =
  (fst (run is), [broadcast_on n (status_bytes (pn_ip n) (pn_mac n) 1)]).
Proof.
  intros is n Ht H1 H2 H3 H4.
  destruct (turn_cases (fst (run is)) true (address_net_ok is Ht)) as
    [[[X|[X|[X|X]]] _]|(m & _ & _ & _ & Ea & [[_ E]|[X _]])]; try congruence.
Qed.
Print Assumptions C30_periodic_announcement.

Example C30_case :
  st_address (w_state (fst (run example_history))) =
    Some (mkNetwork (mkNet 3232238130 24) [0; 0x45; 0xcb; 0x9a; 0xa5; 0x0b]) /\
  snd (step (fst (run example_history)) (BroadcastTurn true)) =
    [Sent 3232238130 3232238335 50000 (status_bytes 3232238130 [0; 0x45; 0xcb; 0x9a; 0xa5; 0x0b] 1)].
Proof. vm_compute. auto. Qed.

(** ** C31 *)

(** Once made, the handshake is never forgotten. *)
Theorem C31_never_undone : forall is is', inputs_typed (is ++ is') ->
  st_linking (w_state (fst (run is))) = true -> st_linking (w_state (fst (run (is ++ is')))) = true.
Proof.
  intros is is'. induction is' as [|i is' IH] using rev_ind; intros Ht H; [rewrite app_nil_r; assumption|].
  rewrite app_assoc in *. apply inputs_typed_app in Ht. destruct Ht as [Ht Hi].
  specialize (IH Ht H). pose proof (address_net_ok _ Ht) as Hn.
  rewrite (proj1 (run_snoc (is ++ is') i)). set (w := fst (run (is ++ is'))) in *. clearbody w.
  destruct i as [d fs| |ok|ok].
  - apply inputs_typed_one in Hi.
    destruct (datagram_cases w d fs Hi) as [(h & o & _ & _ & _ & _ & E)|[(h & _ & _ & _ & E)|[_ E]]];
      rewrite E; exact IH.
  - unfold step. destruct (w_running w); exact IH.
  - destruct (turn_cases w ok Hn) as [[_ E]|(n & _ & _ & _ & Ea & [[_ E]|[_ E]])]; rewrite E; exact IH.
  - destruct (w_running w) eqn:Er; [|unfold step; rewrite Er; exact IH].
    destruct (app_cases w ok Er Hn) as
        [[Eq E]|[(q & Eq & E)|(q & Eq & [(_ & E)|[(_ & _ & E)|[(n & _ & Ea & _ & E)|(n & k & _ & Ea & _ & _ & _ & E)]]])]];
      rewrite E; first [exact IH|reflexivity].
Qed.
Print Assumptions C31_never_undone.

(** Linking is on exactly once a link request has been handled. *)
Theorem C31_linking_exactly : forall is, inputs_typed is -> w_running (fst (run is)) = true ->
  (st_linking (w_state (fst (run is))) = true <-> In InitiateLink (taken (snd (run is)))).
Proof. intros is Ht Hr. apply (queue_invariant is Ht). assumption. Qed.
Print Assumptions C31_linking_exactly.

(** Events are handled in the order in which they were queued. *)
Theorem C31_first_in_first_out : forall is, inputs_typed is ->
  posted (snd (run is)) = taken (snd (run is)) ++ w_queue (fst (run is)).
Proof. intros is Ht. apply (queue_invariant is Ht). Qed.
Print Assumptions C31_first_in_first_out.

(** A link request is queued exactly by a status taken notice of before the
    first link request has been handled. *)
Theorem C31_requested_exactly : forall is i, inputs_typed (is ++ [i]) ->
  (In (Posted InitiateLink) (snd (step (fst (run is)) i)) <->
   attentive (fst (run is)) /\ ~ In InitiateLink (taken (snd (run is))) /\
   exists d ifaces h, i = KaDatagram d ifaces /\ status_of d h /\ ~ lookup_fails ifaces (h_ip h)).
Proof.
  intros is i Ht. apply inputs_typed_app in Ht. destruct Ht as [Ht Hi].
  destruct (queue_invariant is Ht) as [_ L]. set (t := taken (snd (run is))) in *. clearbody t.
  set (w := fst (run is)) in *. clearbody w. split.
  - intros H.
    assert (O : (forall d fs, i <> KaDatagram d fs) -> False).
    { intros O. destruct (step_other w i O) as (_ & _ & _ & N). apply (N _ H). }
    destruct i as [d fs| | |]; [clear O|exfalso; apply O; discriminate|exfalso; apply O; discriminate|exfalso; apply O; discriminate].
    apply inputs_typed_one in Hi.
    destruct (datagram_cases w d fs Hi) as [(h & o & A & S & C & F & E)|[(h & _ & _ & _ & E)|[_ E]]];
      rewrite E in H; [|destruct H|destruct H].
    split; [assumption|]. split; [|exists d, fs, h; auto].
    unfold accept in H. cbv zeta in H. cbn [snd] in H. apply in_map_iff in H.
    destruct H as (e & Ee & He). injection Ee as ->. apply in_app_or in He. destruct He as [He|He].
    { destruct (known (h_ip h) (st_players (w_state w))); [destruct He|]. destruct He as [He|[]]. discriminate. }
    destruct (st_linking (w_state w)) eqn:El; [destruct He|].
    intros I. apply L in I; [discriminate|apply A].
  - intros (A & N & d & fs & h & -> & S & F). apply inputs_typed_one in Hi.
    destruct (find_chosen fs (h_ip h) Hi) as [(o & C & _ & _)|(X & _)]; [|contradiction].
    rewrite (step_accept w d fs h o A S Hi C). unfold accept. cbv zeta. cbn [snd].
    destruct (st_linking (w_state w)) eqn:El.
    + exfalso. apply N, L; [apply A|reflexivity].
    + apply in_map. apply in_or_app. right. left. reflexivity.
Qed.
Print Assumptions C31_requested_exactly.

(** The handling of a link request with all sockets available. *)
Theorem C31_handshake : forall is ok q n, inputs_typed is ->
  w_running (fst (run is)) = true -> w_poisoned (fst (run is)) = false ->
  w_queue (fst (run is)) = InitiateLink :: q ->
  st_address (w_state (fst (run is))) = Some n ->
  (forall k, (k < 40)%nat -> ok k = true) ->
  snd (step (fst (run is)) (AppTurn ok)) =
    Took InitiateLink :: map (broadcast_on n) (handshake_bytes n) /\
  w_running (fst (step (fst (run is)) (AppTurn ok))) = true /\
  w_poisoned (fst (step (fst (run is)) (AppTurn ok))) = false /\
  st_linking (w_state (fst (step (fst (run is)) (AppTurn ok)))) = true /\
  w_queue (fst (step (fst (run is)) (AppTurn ok))) = q.
Proof.
  intros is ok q n Ht Hr Hp Hq Ha Hk.
  destruct (app_cases (fst (run is)) ok Hr (address_net_ok is Ht)) as
        [[Eq E]|[(q' & Eq & E)|(q' & Eq & [(X & E)|[(_ & X & E)|[(m & _ & Ea & _ & E)|(m & k & _ & Ea & Lk & X & _ & E)]]])]];
    try congruence.
  - rewrite E. cbn [fst snd w_running w_poisoned w_state w_queue linked_state set_linking st_linking].
    assert (q' = q) by congruence. assert (m = n) by congruence. subst. auto.
  - rewrite Hk in X by assumption. discriminate.
Qed.
Print Assumptions C31_handshake.

(** Its content: forty datagrams; the number of each kind, iteration and index. *)
Theorem C31_handshake_content : forall n b,
  In b (handshake_bytes n) <->
  (exists iteration, 1 <= iteration <= 3 /\ b = mac_claim_bytes iteration (pn_mac n)) \/
  (exists iteration index, 1 <= iteration <= 6 /\ 1 <= index <= 6 /\
     b = ip_claim_bytes iteration index (pn_ip n) (pn_mac n)) \/
  b = status_bytes (pn_ip n) (pn_mac n) 4.
Proof.
  intros n b.
  assert (R6 : forall x, In x [1; 2; 3; 4; 5; 6] <-> 1 <= x <= 6).
  { intros x. cbn. split; [intros [<-|[<-|[<-|[<-|[<-|[<-|[]]]]]]]; lia|].
    intros H. assert (x = 1 \/ x = 2 \/ x = 3 \/ x = 4 \/ x = 5 \/ x = 6) by lia. intuition. }
  unfold handshake_bytes. rewrite !in_app_iff, in_flat_map. split.
  - intros [H|[H|H]].
    + left. destruct H as [<-|[<-|[<-|[]]]]; [exists 1|exists 2|exists 3]; (split; [lia|reflexivity]).
    + right. left. destruct H as (it & Hit & H). apply in_map_iff in H. destruct H as (ix & <- & Hix).
      apply R6 in Hit. apply R6 in Hix. eauto 6.
    + right. right. destruct H as [<-|[]]. reflexivity.
  - intros [(it & H & ->)|[(it & ix & H1 & H2 & ->)| ->]].
    + left. assert (C : it = 1 \/ it = 2 \/ it = 3) by lia.
      destruct C as [->|[->| ->]]; cbn [In]; auto.
    + right. left. exists it. split; [apply R6; assumption|]. apply in_map_iff. exists ix.
      split; [reflexivity|apply R6; assumption].
    + right. right. left. reflexivity.
Qed.
Print Assumptions C31_handshake_content.

Example C31_case :
  let w := fst (run (example_history ++ [AppTurn (fun _ => true)])) in
  w_running w = true /\ w_poisoned w = false /\
  w_queue w = [InitiateLink; DeviceChange; InitiateLink; InitiateLink] /\
  List.length (snd (step w (AppTurn (fun _ => true)))) = 41%nat.
Proof. vm_compute. auto. Qed.

(** ** C32 *)

(** A datagram that is not the status of another device has no effect at all. *)
Theorem C32_no_effect : forall w d ifaces, (forall h, ~ status_of d h) ->
  step w (KaDatagram d ifaces) = (w, []).
Proof. exact step_noise. Qed.
Print Assumptions C32_no_effect.

(** A datagram with the name rekordbox is no status of another device. *)
Theorem C32_rekordbox_is_no_status : forall d, slice 12 20 d = ascii_padded 20 "rekordbox" ->
  forall h, ~ status_of d h.
Proof.
  intros d E h (_ & _ & _ & Hn & X & _). rewrite E in Hn. apply X.
  eapply name_field_functional; [exact Hn|].
  split; [|split].
  - apply utf8_decode_some with (l := lit "rekordbox"). reflexivity.
  - intros t H. apply (f_equal (@rev N)) in H. rewrite rev_app_distr in H. vm_compute in H. discriminate.
  - exists 11%nat. reflexivity.
Qed.
Print Assumptions C32_rekordbox_is_no_status.

(** Whatever the program sends itself has no effect when it comes back. *)
Theorem C32_own_datagrams_ignored : forall is i from to port data w ifaces, inputs_typed is ->
  In (Sent from to port data) (snd (step (fst (run is)) i)) ->
  step w (KaDatagram data ifaces) = (w, []).
Proof.
  intros is i from to port data w ifaces Ht H.
  destruct (C30_sent_on_that_network is i from to port data Ht H) as (n & _ & _ & D).
  apply step_noise. apply C32_rekordbox_is_no_status.
  assert (G : forall k s b, slice 12 20 (announcement_bytes k s b) = ascii_padded 20 "rekordbox") by reflexivity.
  destruct D as [D| ->]; [|apply G].
  apply C31_handshake_content in D. destruct D as [(it & _ & ->)|[(it & ix & _ & _ & ->)| ->]]; apply G.
Qed.
Print Assumptions C32_own_datagrams_ignored.

Example C32_case :
  status_computed (status_datagram "rekordbox" 17 192 168 10 54) = None /\
  status_computed (status_bytes 3232238130 [0; 0x45; 0xcb; 0x9a; 0xa5; 0x0b] 1) = None /\
  status_computed (status_datagram "Rekordbox" 17 192 168 10 54) <> None.
Proof. split; [|split]; vm_compute; try reflexivity. discriminate. Qed.

(** ** C33 *)

(** The step that ends the program. *)
Theorem C33_terminates_exactly : forall is i, inputs_typed is -> w_running (fst (run is)) = true ->
  (w_running (fst (run (is ++ [i]))) = false <->
   exists ok q, i = AppTurn ok /\ w_queue (fst (run is)) = InitiateLink :: q /\
     (w_poisoned (fst (run is)) = true \/ st_address (w_state (fst (run is))) = None \/
      exists k, (k < 40)%nat /\ ok k = false)).
Proof.
  intros is i Ht Hr. pose proof (address_net_ok is Ht) as Hn. rewrite (proj1 (run_snoc is i)).
  set (w := fst (run is)) in *. clearbody w.
  destruct i as [d fs| |ok|ok].
  - split; [|intros (ok & q & X & _); discriminate]. intros H. exfalso.
    unfold step in H. rewrite Hr in H. unfold keepalive_turn in H.
    destruct (w_listening w), (ka_receive d) as [p| |]; cbn [fst w_running] in H; try congruence.
    destruct (event_status p) as [[n ip]|], (w_poisoned w); cbn [fst w_running] in H; try congruence.
    destruct (handle_keepalive_status fs p n ip (w_state w)) as [[s es]| |]; cbn [fst w_running] in H; congruence.
  - split; [|intros (ok & q & X & _); discriminate]. intros H. exfalso.
    unfold step in H. rewrite Hr in H. cbn [fst] in H. congruence.
  - split; [|intros (ok' & q & X & _); discriminate]. intros H. exfalso.
    destruct (turn_cases w ok Hn) as [[_ E]|(n & _ & _ & _ & Ea & [[_ E]|[_ E]])]; rewrite E in H;
      cbn [fst w_running] in H; congruence.
  - destruct (app_cases w ok Hr Hn) as
        [[Eq E]|[(q & Eq & E)|(q & Eq & [(X & E)|[(_ & X & E)|[(n & Ep & Ea & Lk & E)|(n & k & _ & Ea & Lk & X & _ & E)]]])]];
      rewrite E; cbn [fst w_running with_queue].
    + split; [congruence|]. intros (ok' & q & _ & X & _). congruence.
    + split; [congruence|]. intros (ok' & q' & _ & X & _). congruence.
    + split; [|reflexivity]. intros _. exists ok, q. auto.
    + split; [|reflexivity]. intros _. exists ok, q. auto.
    + split; [discriminate|]. intros (ok' & q' & Eo & Y & [Z|[Z|(k & Hk & Z)]]); try congruence.
      injection Eo as ->. rewrite Lk in Z by assumption. discriminate.
    + split; [|reflexivity]. intros _. exists ok, q. split; [reflexivity|]. split; [assumption|]. eauto.
Qed.
Print Assumptions C33_terminates_exactly.

(** In terms of the run: turns of the application on a state without network. *)
Lemma turns_without_network : forall turns w, w_running w = true ->
  st_address (w_state w) = None -> In InitiateLink (w_queue w) ->
  (List.length (w_queue w) <= List.length turns)%nat ->
  w_running (fst (run_from w (map AppTurn turns))) = false.
Proof.
  induction turns as [|ok turns IH]; intros w Hr Ha Hq L.
  - destruct (w_queue w); [destruct Hq|cbn in L; lia].
  - cbn [map run_from].
    destruct (app_cases w ok Hr) as
        [[Eq E]|[(q & Eq & E)|(q & Eq & [(X & E)|[(_ & X & E)|[(n & Ep & Ea & Lk & E)|(n & k & _ & Ea & Lk & X & _ & E)]]])]];
      rewrite ?E; try congruence.
    + rewrite Eq in Hq. destruct Hq.
    + assert (I : w_running (fst (run_from (with_queue w q) (map AppTurn turns))) = false).
      { rewrite Eq in Hq, L. apply IH; try assumption.
        - destruct Hq as [Hq|Hq]; [discriminate|exact Hq].
        - cbn in *. lia. }
      destruct (run_from (with_queue w q) (map AppTurn turns)). exact I.
    + match goal with |- context [run_from ?w1 ?l] => pose proof (run_dead l w1 eq_refl) as D; destruct (run_from w1 l) end.
      cbn [fst] in *. rewrite D. reflexivity.
    + match goal with |- context [run_from ?w1 ?l] => pose proof (run_dead l w1 eq_refl) as D; destruct (run_from w1 l) end.
      cbn [fst] in *. rewrite D. reflexivity.
Qed.

(** Before linking, one status naming an address on none of the local networks
    ends the program as soon as the application has worked off its queue. *)
Theorem C33_one_datagram_suffices : forall is d ifaces h turns, inputs_typed is -> ifaces_typed ifaces ->
  attentive (fst (run is)) -> ~ In InitiateLink (taken (snd (run is))) ->
  status_of d h -> chosen ifaces (h_ip h) None ->
  (List.length (w_queue (fst (run is))) + 2 <= List.length turns)%nat ->
  w_running (fst (run (is ++ KaDatagram d ifaces :: map AppTurn turns))) = false.
Proof.
  intros is d fs h turns Ht Hf A N S C L.
  destruct (queue_invariant is Ht) as [_ Q]. rewrite run_app_fst. cbn [run_from].
  rewrite (step_accept _ d fs h None A S Hf C). unfold accept. cbv zeta.
  destruct (st_linking (w_state (fst (run is)))) eqn:El.
  { exfalso. apply N, Q; [apply A|reflexivity]. }
  match goal with |- context [run_from ?w ?l] => assert (X : w_running (fst (run_from w l)) = false) end.
  { apply turns_without_network; try reflexivity.
    - cbn [w_queue]. apply in_or_app. right. apply in_or_app. right. left. reflexivity.
    - cbn [w_queue]. rewrite !app_length. cbn [List.length].
      destruct (known _ _); cbn [List.length]; lia. }
  match goal with |- context [run_from ?w ?l] => destruct (run_from w l) end. exact X.
Qed.
Print Assumptions C33_one_datagram_suffices.

(** The claim that no datagram can end the program is false. *)
Theorem C33_no_datagram_ends_it_refuted :
  w_running (fst (run [KaDatagram (status_datagram "CDJ" 1 10 0 0 1) one_iface;
                       AppTurn (fun _ => true); AppTurn (fun _ => true)])) = false.
Proof. vm_compute. reflexivity. Qed.
Print Assumptions C33_no_datagram_ends_it_refuted.

(** Once a link request has been handled and none is left, nothing ends it. *)
Theorem C33_safe_once_linked : forall is is', inputs_typed (is ++ is') ->
  w_running (fst (run is)) = true -> In InitiateLink (taken (snd (run is))) ->
  ~ In InitiateLink (w_queue (fst (run is))) ->
  w_running (fst (run (is ++ is'))) = true.
Proof.
  intros is is' Ht Hr Hl Hq.
  assert (G : w_running (fst (run (is ++ is'))) = true /\ In InitiateLink (taken (snd (run (is ++ is')))) /\
              ~ In InitiateLink (w_queue (fst (run (is ++ is'))))); [|apply G].
  induction is' as [|i is' IH] using rev_ind; [rewrite app_nil_r; auto|].
  rewrite app_assoc in *. pose proof Ht as Hta. apply inputs_typed_app in Ht. destruct Ht as [Ht Hi].
  destruct (IH Ht) as (R & T & Q). clear IH.
  assert (R1 : w_running (fst (run ((is ++ is') ++ [i]))) = true).
  { destruct (w_running (fst (run ((is ++ is') ++ [i])))) eqn:E; [reflexivity|].
    apply C33_terminates_exactly in E; [|assumption|assumption].
    destruct E as (ok & q & _ & X & _). exfalso. apply Q. rewrite X. left. reflexivity. }
  split; [assumption|]. destruct (run_snoc (is ++ is') i) as [E1 E2].
  assert (T1 : In InitiateLink (taken (snd (run ((is ++ is') ++ [i]))))).
  { rewrite E2, taken_app. apply in_or_app. left. assumption. }
  split; [assumption|].
  intros X. 
  pose proof (C31_first_in_first_out _ Hta) as F. pose proof (C31_first_in_first_out _ Ht) as F0.
  rewrite E2, posted_app, F0, taken_app, <- !app_assoc in F. apply app_inv_head in F.
  assert (Y : In InitiateLink (w_queue (fst (run (is ++ is'))) ++ posted [snd (step (fst (run (is ++ is'))) i)])).
  { rewrite F. apply in_or_app. right. rewrite app_assoc. assumption. }
  apply in_app_or in Y. destruct Y as [Y|Y]; [contradiction|].
  assert (Z : In (Posted InitiateLink) (snd (step (fst (run (is ++ is'))) i))).
  { unfold posted in Y. cbn [List.concat] in Y. rewrite app_nil_r in Y. apply in_flat_map in Y.
    destruct Y as ([] & Y1 & Y2); cbn in Y2; try contradiction. destruct Y2 as [->|[]]. assumption. }
  apply C31_requested_exactly in Z; [|assumption]. destruct Z as (_ & Z & _). contradiction.
Qed.
Print Assumptions C33_safe_once_linked.

Example C33_case :
  (exists h, status_of (status_datagram "CDJ" 1 10 0 0 1) h /\ chosen one_iface (h_ip h) None) /\
  let w := fst (run (example_history ++ repeat (AppTurn (fun _ => true)) 5)) in
  w_running w = true /\ w_queue w = [].
Proof.
  split; [|vm_compute; auto].
  exists (mkHeard 167772161 1 (lit "CDJ")). split; [apply status_computed_some; vm_compute; reflexivity|].
  apply find_none_iff; [apply one_iface_typed|]. vm_compute. reflexivity.
Qed.

(** ** C58 *)

(** The mutex is poisoned exactly by a failing interface lookup, a failing socket
    of the broadcaster, or a failing socket of the handshake. *)
Theorem C58_poisoned_exactly : forall is i, inputs_typed (is ++ [i]) ->
  w_running (fst (run is)) = true -> w_poisoned (fst (run is)) = false ->
  (w_poisoned (fst (run (is ++ [i]))) = true <->
   (exists d ifaces h, i = KaDatagram d ifaces /\ w_listening (fst (run is)) = true /\
      status_of d h /\ lookup_fails ifaces (h_ip h)) \/
   (i = BroadcastTurn false /\ w_broadcasting (fst (run is)) = true /\
      st_address (w_state (fst (run is))) <> None) \/
   (exists ok q, i = AppTurn ok /\ w_queue (fst (run is)) = InitiateLink :: q /\
      st_address (w_state (fst (run is))) <> None /\ exists k, (k < 40)%nat /\ ok k = false)).
Proof.
  intros is i Ht Hr Hp. apply inputs_typed_app in Ht. destruct Ht as [Ht Hi].
  pose proof (address_net_ok is Ht) as Hn. rewrite (proj1 (run_snoc is i)).
  set (w := fst (run is)) in *. clearbody w.
  destruct i as [d fs| |ok|ok].
  - apply inputs_typed_one in Hi. split.
    + intros H. left.
      destruct (datagram_cases w d fs Hi) as [(h & o & A & S & C & F & E)|[(h & A & S & F & E)|[_ E]]];
        rewrite E in H; cbn [fst w_poisoned accept] in H; try congruence.
      exists d, fs, h. destruct A as (_ & A & _). auto.
    + intros [(d' & fs' & h & X & L & S & F)|[(X & _)|(ok & q & X & _)]]; try discriminate.
      injection X as -> ->. rewrite (step_lookup_fails w d' fs' h); auto. repeat split; assumption.
  - split.
    + unfold step. rewrite Hr. cbn [fst]. congruence.
    + intros [(d' & fs' & h & X & _)|[(X & _)|(ok & q & X & _)]]; discriminate.
  - split.
    + intros H. right. left.
      destruct (turn_cases w ok Hn) as [[_ E]|(n & _ & B & _ & Ea & [[Y E]|[Y E]])]; rewrite E in H;
        cbn [fst w_poisoned] in H; try congruence.
      split; [congruence|]. split; [assumption|congruence].
    + intros [(d' & fs' & h & X & _)|[(X & B & Na)|(ok' & q & X & _)]]; try discriminate.
      injection X as ->.
      destruct (turn_cases w false Hn) as [[[Y|[Y|[Y|Y]]] E]|(n & _ & _ & _ & Ea & [[Y E]|[Y E]])];
        try congruence. rewrite E. reflexivity.
  - destruct (app_cases w ok Hr Hn) as
        [[Eq E]|[(q & Eq & E)|(q & Eq & [(X & E)|[(_ & X & E)|[(n & Ep & Ea & Lk & E)|(n & k & _ & Ea & Lk & X & _ & E)]]])]];
      rewrite E; cbn [fst w_poisoned with_queue]; try congruence.
    + split; [congruence|]. intros [(d' & fs' & h & X & _)|[(X & _)|(ok' & q & _ & X & _)]]; congruence.
    + split; [congruence|]. intros [(d' & fs' & h & X & _)|[(X & _)|(ok' & q' & _ & X & _)]]; congruence.
    + split; [congruence|]. intros [(d' & fs' & h & Y & _)|[(Y & _)|(ok' & q' & _ & _ & Y & _)]]; congruence.
    + split; [discriminate|]. intros [(d' & fs' & h & Y & _)|[(Y & _)|(ok' & q' & Y & _ & _ & k & Hk & Z)]]; try congruence.
      injection Y as ->. rewrite Lk in Z by assumption. discriminate.
    + split; [|reflexivity]. intros _. right. right. exists ok, q. repeat (split; [first [assumption|reflexivity|congruence]|]).
      eauto.
Qed.
Print Assumptions C58_poisoned_exactly.

(** Afterwards it stays poisoned, nothing is sent and nothing queued, players
    and network stay as they were, and handling a link request ends the program. *)
Theorem C58_silent_afterwards : forall w is, w_poisoned w = true ->
  w_poisoned (fst (run_from w is)) = true /\
  st_players (w_state (fst (run_from w is))) = st_players (w_state w) /\
  st_address (w_state (fst (run_from w is))) = st_address (w_state w) /\
  (forall o, In o (List.concat (snd (run_from w is))) -> exists e, o = Took e) /\
  (In InitiateLink (taken (snd (run_from w is))) -> w_running (fst (run_from w is)) = false).
Proof.
  intros w is. revert w. induction is as [|i is IH]; intros w Hp.
  { repeat split; auto; cbn; intros; contradiction. }
  assert (NA : ~ attentive w) by (intros (_ & _ & X); congruence).
  destruct (inattentive_frozen (i :: is) w NA) as (F1 & F2 & _ & _).
  assert (S : w_poisoned (fst (step w i)) = true /\
    ((snd (step w i) = []) \/ snd (step w i) = [Took DeviceChange] \/
     (snd (step w i) = [Took InitiateLink] /\ w_running (fst (step w i)) = false))).
  { destruct i as [d fs| |ok|ok].
    - rewrite step_inattentive by assumption. auto.
    - unfold step. destruct (w_running w); auto.
    - unfold step, broadcast_turn. rewrite Hp. destruct (w_running w), (w_broadcasting w); auto.
    - unfold step, app_turn, initiate_linking. destruct (w_running w); [|auto].
      destruct (w_queue w) as [|[|] q]; cbn [w_poisoned]; rewrite ?Hp; auto. }
  destruct S as [Sp So]. cbn [run_from] in *. destruct (step w i) as [w1 o] eqn:E. cbn [fst snd] in *.
  pose proof (run_dead is w1) as D.
  destruct (IH w1 Sp) as (I1 & _ & _ & I4 & I5). destruct (run_from w1 is) as [w2 os]. cbn [fst snd] in *.
  split; [assumption|]. split; [assumption|]. split; [assumption|]. split.
  - intros x Hx. cbn [List.concat] in Hx. apply in_app_or in Hx. destruct Hx as [Hx|Hx]; [|auto].
    destruct So as [->|[->|[-> _]]]; [destruct Hx| |]; destruct Hx as [<-|[]]; eauto.
  - intros H. change (o :: os) with ([o] ++ os) in H. rewrite taken_app in H. apply in_app_or in H.
    destruct H as [H|H]; [|auto].
    destruct So as [->|[->|[-> R]]]; cbn in H; [destruct H|destruct H as [H|[]]; discriminate|].
    rewrite (D R). exact R.
Qed.
Print Assumptions C58_silent_afterwards.

(** A tunnel without hardware address in front of the network: one datagram. *)
Example C58_case :
  let fs := mkIface None [V4 (mkNet 167772161 8)] :: one_iface in
  let w := fst (run [KaDatagram (status_datagram "CDJ" 1 192 168 10 7) fs]) in
  lookup_fails fs 3232238087 /\ w_poisoned w = true /\ w_listening w = false /\ w_running w = true.
Proof.
  cbv zeta. split; [|vm_compute; auto].
  exists [], (mkNet 167772161 8). eexists. split; [reflexivity|]. intros n m [].
Qed.

(** ** C59 *)

(** No input queues two requests. *)
Theorem C59_requests_by_inputs : forall is, inputs_typed is ->
  links (posted (snd (run is))) =
  List.length (filter (fun os => existsb (fun o => match o with Posted InitiateLink => true | _ => false end) os)
                 (snd (run is))).
Proof.
  intros is. induction is as [|i is IH] using rev_ind; intros Ht; [reflexivity|].
  apply inputs_typed_app in Ht. destruct Ht as [Ht Hi]. specialize (IH Ht).
  destruct (run_snoc is i) as [_ ->]. rewrite posted_app, filter_app. unfold links in *.
  rewrite filter_app, !app_length, IH. f_equal. clear IH.
  set (w := fst (run is)) in *. clearbody w.
  assert (G : forall l, (forall e, ~ In (Posted e) l) ->
     existsb (fun o => match o with Posted InitiateLink => true | _ => false end) l = false).
  { intros l H. destruct (existsb _ l) eqn:E; [|reflexivity]. apply existsb_exists in E.
    destruct E as ([|e|] & E1 & E2); try discriminate. exfalso. apply (H e E1). }
  assert (O : (forall d fs, i <> KaDatagram d fs) ->
    List.length (filter is_link (posted [snd (step w i)])) =
    List.length (filter (fun os => existsb (fun o => match o with Posted InitiateLink => true | _ => false end) os) [snd (step w i)])).
  { intros O. destruct (step_other w i O) as (_ & _ & _ & N). rewrite (not_posted _ N). cbn [filter]. rewrite (G _ N). reflexivity. }
  destruct i as [d fs| | |]; [clear O|apply O; discriminate|apply O; discriminate|apply O; discriminate].
  apply inputs_typed_one in Hi.
  destruct (datagram_cases w d fs Hi) as [(h & o & _ & _ & _ & _ & E)|[(h & _ & _ & _ & E)|[_ E]]];
    rewrite E; try reflexivity.
  unfold accept. cbv zeta. cbn [snd]. rewrite posted_posted.
  destruct (known _ _), (st_linking (w_state w)); reflexivity.
Qed.
Print Assumptions C59_requests_by_inputs.

(** The number of requests queued in a history is the number of statuses heard
    before the first request is handled (or before the program stops taking
    notice): [before] is all of the history up to that point. *)
Theorem C59_requests_exactly : forall is, inputs_typed is ->
  exists before after hs, is = before ++ after /\ hears before hs /\
    attentive (fst (run before)) /\ ~ In InitiateLink (taken (snd (run before))) /\
    (after = [] \/ exists i rest, after = i :: rest /\
       (In InitiateLink (taken (snd (run (before ++ [i])))) \/ ~ attentive (fst (run (before ++ [i]))))) /\
    links (posted (snd (run is))) = List.length hs.
Proof.
  intros is. induction is as [|i is IH] using rev_ind; intros Ht.
  { exists [], [], []. split; [reflexivity|]. split; [constructor|]. split; [repeat split|].
    split; [intros []|]. split; [auto|reflexivity]. }
  pose proof (C59_requests_by_inputs (is ++ [i]) Ht) as Cn.
  pose proof (C31_requested_exactly is i Ht) as Ex. pose proof Ht as Ht0.
  apply inputs_typed_app in Ht. destruct Ht as [Ht Hi].
  rewrite (proj2 (run_snoc is i)) in Cn at 2.
  rewrite filter_app, app_length, <- (C59_requests_by_inputs is Ht) in Cn. cbn [filter] in Cn.
  assert (Cn1 : In (Posted InitiateLink) (snd (step (fst (run is)) i)) ->
                links (posted (snd (run (is ++ [i])))) = S (links (posted (snd (run is))))).
  { intros H. rewrite Cn. rewrite (proj2 (existsb_exists _ _)); [cbn; lia|].
    exists (Posted InitiateLink). auto. }
  assert (Cn0 : ~ In (Posted InitiateLink) (snd (step (fst (run is)) i)) ->
                links (posted (snd (run (is ++ [i])))) = links (posted (snd (run is)))).
  { intros H. rewrite Cn. destruct (existsb _ _) eqn:E; [|cbn; lia]. exfalso. apply H.
    apply existsb_exists in E. destruct E as ([|[]|] & E1 & E2); try discriminate. assumption. }
  clear Cn. destruct (IH Ht) as (before & after & hs & Eis & Hh & A & Nt & Af & L). clear IH.
  destruct Af as [->|(i0 & rest & -> & Af)].
  - rewrite app_nil_r in Eis. subst before.
    assert (D : {In InitiateLink (taken (snd (run (is ++ [i]))))} + {~ In InitiateLink (taken (snd (run (is ++ [i]))))})
      by (apply in_dec; decide equality).
    destruct (attentive_dec (fst (run (is ++ [i])))) as [A'|A'], D as [T|T].
    2: {
      destruct (hears_total [i]) as [ks Hk].
      exists (is ++ [i]), [], (hs ++ ks). rewrite app_nil_r. split; [reflexivity|].
      split; [apply hears_app; assumption|]. split; [assumption|]. split; [assumption|]. split; [auto|].
      rewrite app_length, <- L. inversion Hk as [|d fs h is0 hs0 S Hk0|d fs is0 hs0 S Hk0|i1 is0 hs0 S Hk0]; subst.
      - inversion Hk0. subst. cbn [List.length]. rewrite Cn1; [lia|]. apply Ex. split; [assumption|]. split; [assumption|].
        exists d, fs, h. split; [reflexivity|]. split; [assumption|]. intros F.
        rewrite (proj1 (run_snoc is _)) in A'. apply inputs_typed_one in Hi.
        rewrite (step_lookup_fails _ d fs h A S Hi F) in A'. destruct A' as (_ & X & _). discriminate X.
      - inversion Hk0. subst. cbn [List.length]. rewrite Cn0; [lia|]. intros X. apply Ex in X.
        destruct X as (_ & _ & d' & fs' & h & E & S' & _). injection E as <- <-. apply (S h S').
      - inversion Hk0. subst. cbn [List.length]. rewrite Cn0; [lia|]. intros X. apply Ex in X.
        destruct X as (_ & _ & d' & fs' & h & E & S' & _). apply (S _ _ E). }
    all: exists is, [i], hs; split; [reflexivity|]; split; [assumption|]; split; [assumption|]; split; [assumption|];
      split; [right; exists i, []; auto|]; rewrite Cn0; [assumption|]; intros X; apply Ex in X;
      destruct X as (_ & _ & d & fs & h & -> & S & F); apply inputs_typed_one in Hi;
      destruct (find_chosen fs (h_ip h) Hi) as [(o & C & _ & _)|(X & _)]; try contradiction.
    + rewrite (proj2 (run_snoc is _)), taken_app, (step_accept _ d fs h o A S Hi C) in T.
      unfold accept in T. cbv zeta in T. cbn [snd] in T. rewrite taken_posted, app_nil_r in T. contradiction.
    + rewrite (proj2 (run_snoc is _)), taken_app, (step_accept _ d fs h o A S Hi C) in T.
      unfold accept in T. cbv zeta in T. cbn [snd] in T. rewrite taken_posted, app_nil_r in T. contradiction.
    + apply A'. rewrite (proj1 (run_snoc is _)), (step_accept _ d fs h o A S Hi C). repeat split.
  - exists before, (i0 :: rest ++ [i]), hs. split; [rewrite Eis, <- app_assoc; reflexivity|].
    split; [assumption|]. split; [assumption|]. split; [assumption|].
    split; [right; exists i0, (rest ++ [i]); auto|]. rewrite Cn0; [assumption|].
    intros X. apply Ex in X. destruct X as (Xa & Xt & _).
    assert (E : is = (before ++ [i0]) ++ rest) by (rewrite Eis, <- app_assoc; reflexivity).
    destruct Af as [T|T].
    + apply Xt. rewrite E. unfold run. rewrite run_from_app. cbn [snd]. rewrite taken_app. apply in_or_app. left. exact T.
    + apply T. rewrite E, run_app_fst in Xa. apply run_attentive_back in Xa. exact Xa.
Qed.
Print Assumptions C59_requests_exactly.

(** The claim that the handshake is made at most once is false: it is made as
    often as statuses are queued before it is first handled. *)
Theorem C59_only_once_refuted : forall n, 
  let is := repeat (KaDatagram (status_datagram "CDJ" 1 192 168 10 7) one_iface) (S n)
            ++ repeat (AppTurn (fun _ => true)) (S (S n)) in
  links (taken (snd (run is))) = S n /\ w_running (fst (run is)) = true.
Proof.
  intros n is.
  assert (S : status_of (status_datagram "CDJ" 1 192 168 10 7) (mkHeard 3232238087 1 (lit "CDJ")))
    by (apply status_computed_some; vm_compute; reflexivity).
  assert (C : chosen one_iface (h_ip (mkHeard 3232238087 1 (lit "CDJ")))
                (Some (mkNetwork (mkNet 3232238130 24) [0; 0x45; 0xcb; 0x9a; 0xa5; 0x0b]))).
  { apply find_some_iff; [apply one_iface_typed|]. vm_compute. reflexivity. }
  set (h := mkHeard 3232238087 1 (lit "CDJ")) in *. clearbody h.
  set (net := mkNetwork (mkNet 3232238130 24) [0; 0x45; 0xcb; 0x9a; 0xa5; 0x0b]) in *. clearbody net.
  set (d := status_datagram "CDJ" 1 192 168 10 7) in *. clearbody d.
  assert (Nok : net_ok net) by (apply (chosen_ok one_iface (h_ip h) net one_iface_typed C)).
  (* after the datagrams *)
  assert (D : forall k, let r := run (repeat (KaDatagram d one_iface) (Datatypes.S k)) in
     attentive (fst r) /\ st_linking (w_state (fst r)) = false /\ st_address (w_state (fst r)) = Some net /\
     known (h_ip h) (st_players (w_state (fst r))) = true /\
     w_queue (fst r) = DeviceChange :: repeat InitiateLink (Datatypes.S k) /\ taken (snd r) = []).
  { induction k as [|k IH]; cbv zeta.
    - unfold run. cbn [repeat run_from].
      rewrite (step_accept world_start d one_iface h (Some net)); [|repeat split|exact S|exact one_iface_typed|exact C].
      unfold accept. cbv zeta. cbn [fst snd].
      split; [repeat split|]. split; [reflexivity|]. split; [reflexivity|].
      split; [cbn; rewrite N.eqb_refl; reflexivity|]. split; reflexivity.
    - cbv zeta in IH. destruct IH as (I1 & I2 & I3 & I4 & I5 & I6).
      replace (repeat (KaDatagram d one_iface) (Datatypes.S (Datatypes.S k)))
        with (repeat (KaDatagram d one_iface) (Datatypes.S k) ++ [KaDatagram d one_iface])
        by (rewrite <- repeat_cons; reflexivity).
      destruct (run_snoc (repeat (KaDatagram d one_iface) (Datatypes.S k)) (KaDatagram d one_iface)) as [-> ->].
      set (w := fst (run (repeat (KaDatagram d one_iface) (Datatypes.S k)))) in *. clearbody w.
      rewrite taken_app, I6.
      rewrite (step_accept w d one_iface h (Some net) I1 S one_iface_typed C).
      unfold accept. cbv zeta. rewrite I2, I4, I5. cbn [fst snd w_state st_linking st_address st_players w_queue].
      split; [repeat split|]. split; [reflexivity|]. split; [reflexivity|]. split.
      { apply known_in. rewrite add_or_update_address. cbn [player_new pl_address]. rewrite I4.
        apply known_in. assumption. }
      split; [|apply taken_posted]. cbn [app]. f_equal. rewrite <- repeat_cons. reflexivity. }
  destruct (D n) as (I1 & I2 & I3 & I4 & I5 & I6). clear D. unfold is. unfold run in *. rewrite run_from_app.
  set (w := fst (run_from world_start (repeat (KaDatagram d one_iface) (Datatypes.S n)))) in *. clearbody w.
  cbn [fst snd]. rewrite taken_app, I6. cbn [app].
  (* the device change *)
  change (repeat (AppTurn (fun _ : nat => true)) (Datatypes.S (Datatypes.S n)))
    with (AppTurn (fun _ : nat => true) :: repeat (AppTurn (fun _ : nat => true)) (Datatypes.S n)).
  cbn [run_from].
  assert (E : step w (AppTurn (fun _ => true)) = (with_queue w (repeat InitiateLink (Datatypes.S n)), [Took DeviceChange])).
  { unfold step, app_turn. rewrite (proj1 I1), I5. unfold with_queue. rewrite (proj1 I1). reflexivity. }
  rewrite E. clear E.
  (* the handshakes *)
  assert (G : forall k w, w_running w = true -> w_poisoned w = false -> st_address (w_state w) = Some net ->
     w_queue w = repeat InitiateLink k ->
     links (taken (snd (run_from w (repeat (AppTurn (fun _ : nat => true)) k)))) = k /\
     w_running (fst (run_from w (repeat (AppTurn (fun _ : nat => true)) k))) = true).
  { clear - Nok. induction k as [|k IH]; intros w H1 H2 H3 H4; [auto|]. cbn [repeat run_from].
    assert (H5 : forall m, st_address (w_state w) = Some m -> net_ok m) by (intros m Em; congruence).
    destruct (app_cases w (fun _ => true) H1 H5) as
        [[Eq X]|[(q & Eq & X)|(q & Eq & [(Y & X)|[(_ & Y & X)|[(m & Ep & Ea & Lk & X)|(m & j & _ & Ea & Lk & Y & _ & X)]]])]];
      try congruence; try (cbn [repeat] in H4; congruence).
    rewrite X. clear X.
    match goal with |- context [run_from ?w1 _] => destruct (IH w1) as [I1 I2] end;
      [reflexivity|reflexivity|exact H3|cbn [w_queue]; cbn [repeat] in H4; congruence|].
    match goal with |- context [run_from ?w1 ?l] => destruct (run_from w1 l) as [w2 os2] end.
    cbn [fst snd] in *. split; [|assumption].
    change (?x :: os2) with ([x] ++ os2). rewrite taken_app, taken_took. unfold links in *. cbn [app filter is_link List.length].
    rewrite I1. reflexivity. }
  destruct (G (Datatypes.S n) (with_queue w (repeat InitiateLink (Datatypes.S n)))) as [G1 G2];
    [apply I1|apply I1|exact I3|reflexivity|].
  destruct (run_from (with_queue w (repeat InitiateLink (Datatypes.S n))) (repeat (AppTurn (fun _ : nat => true)) (Datatypes.S n))) as [w2 os2].
  cbn [fst snd] in *. split; [|assumption].
  change ([Took DeviceChange] :: os2) with ([[Took DeviceChange]] ++ os2). rewrite taken_app. exact G1.
Qed.
Print Assumptions C59_only_once_refuted.

Example C59_case :
  let is := example_history ++ repeat (AppTurn (fun _ => true)) 5 in
  links (taken (snd (run is))) = 3%nat /\ List.length (filter (fun o => match o with Sent _ _ _ _ => true | _ => false end) (List.concat (snd (run is)))) = 121%nat.
Proof. vm_compute. auto. Qed.
