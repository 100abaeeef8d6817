(** Invariants of the server state machine. *)

From Verif Require Import Base Unicode MPackets MKeepalive MNetwork MServer SUdp SNetwork SServer
  LBase LUnicode LUdp LNetwork LServer.
From Coq Require Import ZArith String.
Open Scope list_scope.
Open Scope N_scope.

Definition linked_state (s : server_state) : server_state := set_linking s true.

Lemma app_cases : forall w ok, w_running w = true ->
  (forall n, st_address (w_state w) = Some n -> net_ok n) ->
  (w_queue w = [] /\ step w (AppTurn ok) = (w, [])) \/
  (exists q, w_queue w = DeviceChange :: q /\
     step w (AppTurn ok) = (with_queue w q, [Took DeviceChange])) \/
  (exists q, w_queue w = InitiateLink :: q /\
     ((w_poisoned w = true /\
       step w (AppTurn ok) =
       (mkWorld (w_state w) true q (w_listening w) (w_broadcasting w) false, [Took InitiateLink])) \/
      (w_poisoned w = false /\ st_address (w_state w) = None /\
       step w (AppTurn ok) =
       (mkWorld (linked_state (w_state w)) false q (w_listening w) (w_broadcasting w) false, [Took InitiateLink])) \/
      (exists n, w_poisoned w = false /\ st_address (w_state w) = Some n /\
       (forall k, (k < 40)%nat -> ok k = true) /\
       step w (AppTurn ok) =
       (mkWorld (linked_state (w_state w)) false q (w_listening w) (w_broadcasting w) true,
        Took InitiateLink :: map (broadcast_on n) (handshake_bytes n))) \/
      (exists n k, w_poisoned w = false /\ st_address (w_state w) = Some n /\
       (k < 40)%nat /\ ok k = false /\ (forall j, (j < k)%nat -> ok j = true) /\
       step w (AppTurn ok) =
       (mkWorld (linked_state (w_state w)) true q (w_listening w) (w_broadcasting w) false,
        Took InitiateLink :: map (broadcast_on n) (firstn k (handshake_bytes n)))))).
Proof.
  intros w ok Hr Hn. unfold step. rewrite Hr. unfold app_turn.
  destruct (w_queue w) as [|[|] q] eqn:Eq; [left; auto| |].
  2: { right. left. exists q. split; [reflexivity|]. unfold with_queue. reflexivity. }
  right. right. exists q. split; [reflexivity|].
  unfold initiate_linking. cbn [w_poisoned w_state w_queue w_listening w_broadcasting w_running].
  destruct (w_poisoned w) eqn:Ep; [left; auto|]. right.
  cbn [set_linking st_address]. destruct (st_address (w_state w)) as [n|] eqn:Ea; [|left; auto]. right.
  specialize (Hn n eq_refl).
  destruct (first_false ok 40) as [F|(k & Hk & E & F)].
  - left. exists n. repeat (split; [auto|]).
    rewrite (broadcast_messages_all n ok (negotiation n) (handshake_bytes n) 0 Hn (negotiation_bytes n)).
    + reflexivity.
    + intros j Hj. apply F. rewrite handshake_length in Hj. exact Hj.
  - right. exists n, k. repeat (split; [auto|]).
    rewrite (broadcast_messages_some n ok (negotiation n) (handshake_bytes n) 0 Hn (negotiation_bytes n) k).
    + reflexivity.
    + rewrite handshake_length. exact Hk.
    + exact E.
    + intros i Hi. apply F. exact Hi.
Qed.

Lemma turn_cases : forall w ok,
  (forall n, st_address (w_state w) = Some n -> net_ok n) ->
  ((w_running w = false \/ w_broadcasting w = false \/ w_poisoned w = true \/ st_address (w_state w) = None) /\
   step w (BroadcastTurn ok) = (w, [])) \/
  (exists n, w_running w = true /\ w_broadcasting w = true /\ w_poisoned w = false /\
     st_address (w_state w) = Some n /\
     ((ok = true /\
       step w (BroadcastTurn ok) = (w, [broadcast_on n (status_bytes (pn_ip n) (pn_mac n) 1)])) \/
      (ok = false /\
       step w (BroadcastTurn ok) = (mkWorld (w_state w) true (w_queue w) (w_listening w) false true, [])))).
Proof.
  intros w ok Hn. unfold step, broadcast_turn.
  destruct (w_running w) eqn:Er; [|left; auto]. destruct (w_broadcasting w) eqn:Eb; [|left; auto].
  destruct (w_poisoned w) eqn:Ep; [left; auto|].
  destruct (st_address (w_state w)) as [n|] eqn:Ea; [|left; auto].
  right. exists n. repeat (split; [reflexivity|]). specialize (Hn n eq_refl). destruct ok.
  - left. split; [reflexivity|]. rewrite (send_ok n _ _ Hn (status_encoded _ _ 1 0)). reflexivity.
  - right. split; reflexivity.
Qed.

Lemma chosen_ok : forall ifaces ip n, ifaces_typed ifaces -> chosen ifaces ip (Some n) ->
  net_ok n /\ len (pn_mac n) = 6 /\ bytes_ok (pn_mac n).
Proof.
  intros ifaces ip n Ht (b & a & E & _).
  assert (I : In (pn_net n, Some (pn_mac n)) (v4_networks ifaces)) by (rewrite E; apply in_or_app; right; left; reflexivity).
  unfold v4_networks in I. apply in_flat_map in I. destruct I as (i & Hi & I).
  apply in_flat_map in I. destruct I as ([m|] & Hm & I); [|destruct I]. destruct I as [I|[]].
  injection I as Em Ec. subst m. destruct (Ht i Hi) as [T1 T2].
  split; [apply T2; assumption|apply T1; assumption].
Qed.

(** The address in use is always that of a well-formed network. *)
Lemma address_ok : forall is, inputs_typed is ->
  forall n, st_address (w_state (fst (run is))) = Some n ->
  net_ok n /\ len (pn_mac n) = 6 /\ bytes_ok (pn_mac n).
Proof.
  intros is. induction is as [|i is IH] using rev_ind; intros Ht n E; [discriminate|].
  apply inputs_typed_app in Ht. destruct Ht as [Ht Hi]. specialize (IH Ht).
  rewrite (proj1 (run_snoc is i)) in E. set (w := fst (run is)) in *. clearbody w.
  assert (O : (forall d fs, i <> KaDatagram d fs) -> net_ok n /\ len (pn_mac n) = 6 /\ bytes_ok (pn_mac n)).
  { intros O. rewrite (proj1 (proj2 (step_other w i O))) in E. exact (IH n E). }
  destruct i as [d fs| | |]; [clear O|apply O; discriminate|apply O; discriminate|apply O; discriminate].
  apply inputs_typed_one in Hi.
  destruct (datagram_cases w d fs Hi) as [(h & o & _ & _ & C & _ & Es)|[(h & _ & _ & _ & Es)|[_ Es]]];
    rewrite Es in E; cbn [fst accept w_state st_address] in E.
  - rewrite E in C. apply chosen_ok in C; assumption.
  - exact (IH n E).
  - exact (IH n E).
Qed.

Lemma address_net_ok : forall is, inputs_typed is ->
  forall n, st_address (w_state (fst (run is))) = Some n -> net_ok n.
Proof. intros is H n E. exact (proj1 (address_ok is H n E)). Qed.

Lemma posted_app : forall a b, posted (a ++ b) = posted a ++ posted b.
Proof. intros. unfold posted. rewrite concat_app, flat_map_app. reflexivity. Qed.
Lemma taken_app : forall a b, taken (a ++ b) = taken a ++ taken b.
Proof. intros. unfold taken. rewrite concat_app, flat_map_app. reflexivity. Qed.
Lemma posted_posted : forall es, posted [map Posted es] = es.
Proof. intros. unfold posted. cbn. rewrite app_nil_r. induction es; cbn; congruence. Qed.
Lemma taken_posted : forall es, taken [map Posted es] = [].
Proof. intros. unfold taken. cbn. rewrite app_nil_r. induction es; cbn; auto. Qed.
Lemma posted_sent : forall n bs, flat_map (fun o => match o with Posted e => [e] | _ => [] end) (map (broadcast_on n) bs) = [].
Proof. intros. induction bs; auto. Qed.
Lemma taken_sent : forall n bs, flat_map (fun o => match o with Took e => [e] | _ => [] end) (map (broadcast_on n) bs) = [].
Proof. intros. induction bs; auto. Qed.
Lemma posted_took : forall e n bs, posted [Took e :: map (broadcast_on n) bs] = [].
Proof. intros. unfold posted. cbn [List.concat flat_map app]. rewrite app_nil_r. apply posted_sent. Qed.
Lemma taken_took : forall e n bs, taken [Took e :: map (broadcast_on n) bs] = [e].
Proof. intros. unfold taken. cbn [List.concat flat_map app]. rewrite app_nil_r, taken_sent. reflexivity. Qed.

(** The queue holds the events posted and not yet taken, in order; linking is on
    exactly if a link request has been taken, as long as the program runs. *)
Lemma queue_invariant : forall is, inputs_typed is ->
  posted (snd (run is)) = taken (snd (run is)) ++ w_queue (fst (run is)) /\
  (w_running (fst (run is)) = true ->
   (st_linking (w_state (fst (run is))) = true <-> In InitiateLink (taken (snd (run is))))).
Proof.
  intros is. induction is as [|i is IH] using rev_ind; intros Ht.
  - split; [reflexivity|]. intros _. cbn. split; [discriminate|intros []].
  - apply inputs_typed_app in Ht. destruct Ht as [Ht Hi]. destruct (IH Ht) as [Q L].
    pose proof (address_net_ok is Ht) as Hn.
    destruct (run_snoc is i) as [-> ->]. rewrite posted_app, taken_app, Q.
    set (w := fst (run is)) in *. set (t := taken (snd (run is))) in *. clearbody w t. clear IH Q.
    destruct i as [d fs| |ok|ok].
    + apply inputs_typed_one in Hi.
      destruct (datagram_cases w d fs Hi) as [(h & o & A & _ & _ & _ & E)|[(h & A & _ & _ & E)|[_ E]]];
        rewrite E; cbn [fst snd].
      * unfold accept. cbv zeta. cbn [fst snd w_queue w_state w_running st_linking].
        rewrite posted_posted, taken_posted, !app_nil_r, <- app_assoc. split; [reflexivity|].
        intros _. apply L, A.
      * cbn [w_queue w_state w_running]. unfold posted, taken. cbn. rewrite !app_nil_r.
        split; [reflexivity|]. intros _. apply L, A.
      * unfold posted, taken. cbn. rewrite !app_nil_r. auto.
    + assert (E : step w KaRecvError = (w, [])) by (unfold step; destruct (w_running w); reflexivity).
      rewrite E. unfold posted, taken. cbn. rewrite !app_nil_r. auto.
    + destruct (turn_cases w ok Hn) as [[_ E]|(n & A & _ & _ & _ & [[_ E]|[_ E]])]; rewrite E;
        unfold posted, taken; cbn [fst snd List.concat flat_map app broadcast_on w_queue w_state w_running];
        rewrite ?app_nil_r; auto.
    + destruct (w_running w) eqn:Er.
      2: { assert (E : step w (AppTurn ok) = (w, [])) by (unfold step; rewrite Er; reflexivity).
           rewrite E. unfold posted, taken. cbn [fst snd List.concat flat_map app]. rewrite !app_nil_r, Er. auto. }
      destruct (app_cases w ok Er Hn) as
        [[Eq E]|[(q & Eq & E)|(q & Eq & [(_ & E)|[(_ & _ & E)|[(n & _ & _ & _ & E)|(n & k & _ & _ & _ & _ & _ & E)]]])]];
        rewrite E, Eq; cbn [fst snd w_queue w_state w_running with_queue];
        rewrite ?(posted_took), ?taken_took;
        try (unfold posted, taken; cbn [List.concat flat_map app]);
        rewrite ?app_nil_r, <- ?app_assoc; cbn [app].
      * rewrite Eq, app_nil_r. auto.
      * split; [reflexivity|]. intros H. rewrite in_app_iff. cbn. rewrite (L eq_refl).
        intuition discriminate.
      * split; [reflexivity|discriminate].
      * split; [reflexivity|discriminate].
      * split; [reflexivity|]. intros _. cbn. rewrite in_app_iff. cbn. tauto.
      * split; [reflexivity|discriminate].
Qed.

Lemma running_back : forall w i, w_running (fst (step w i)) = true -> w_running w = true.
Proof. intros w i H. unfold step in H. destruct (w_running w) eqn:E; [reflexivity|]. cbn [fst] in H. congruence. Qed.

Lemma run_running_back : forall is w, w_running (fst (run_from w is)) = true -> w_running w = true.
Proof.
  induction is as [|i is IH]; intros w H; [assumption|]. cbn [run_from] in H.
  pose proof (running_back w i) as B. destruct (step w i) as [w1 o]. cbn [fst] in B.
  apply B, IH. destruct (run_from w1 is). exact H.
Qed.

Lemma run_dead : forall is w, w_running w = false -> fst (run_from w is) = w.
Proof.
  induction is as [|i is IH]; intros w H; [reflexivity|]. cbn [run_from].
  assert (E : step w i = (w, [])) by (unfold step; rewrite H; reflexivity). rewrite E.
  specialize (IH w H). destruct (run_from w is). exact IH.
Qed.

(** As long as the program is attentive, its players are those heard. *)
Lemma players_heard : forall is hs, inputs_typed is -> hears is hs -> attentive (fst (run is)) ->
  players_of hs (st_players (w_state (fst (run is)))).
Proof.
  intros is. induction is as [|i is IH] using rev_ind; intros hs Ht Hh A.
  - inversion Hh. split; [reflexivity|]. intros p [].
  - apply inputs_typed_app in Ht. destruct Ht as [Ht Hi].
    destruct (run_snoc is i) as [E _]. rewrite E in *. clear E.
    destruct (hears_total is) as [hs1 H1].
    pose proof (step_attentive_back _ _ A) as A1. specialize (IH hs1 Ht H1 A1).
    set (w := fst (run is)) in *. clearbody w.
    assert (O : (forall d fs, i <> KaDatagram d fs) -> players_of hs (st_players (w_state (fst (step w i))))).
    { intros O. rewrite (proj1 (step_other w i O)).
      replace hs with hs1; [assumption|]. eapply hears_functional; [|exact Hh].
      rewrite <- (app_nil_r hs1). apply hears_app; [assumption|]. apply hears_other; [assumption|constructor]. }
    destruct i as [d fs| | |]; [clear O|apply O; discriminate|apply O; discriminate|apply O; discriminate].
    apply inputs_typed_one in Hi.
    destruct (datagram_cases w d fs Hi) as [(h & o & _ & S & _ & _ & E)|[(h & _ & S & _ & E)|[[N|N] E]]];
      rewrite E in *; cbn [fst w_state accept st_players].
    + replace hs with (hs1 ++ [h]); [apply players_of_snoc; assumption|].
      eapply hears_functional; [|exact Hh]. apply hears_app; [assumption|].
      apply hears_status; [assumption|constructor].
    + destruct A as (_ & A & _). discriminate.
    + contradiction.
    + replace hs with hs1; [assumption|]. eapply hears_functional; [|exact Hh].
      rewrite <- (app_nil_r hs1). apply hears_app; [assumption|]. apply hears_noise; [assumption|constructor].
Qed.

Lemma not_posted : forall l, (forall e, ~ In (Posted e) l) -> posted [l] = [].
Proof.
  intros l H. unfold posted. cbn [List.concat]. rewrite app_nil_r.
  induction l as [|[a b c d|e|e] l IH]; cbn [flat_map app]; auto.
  - apply IH. intros e He. apply (H e). right. assumption.
  - exfalso. apply (H e). left. reflexivity.
  - apply IH. intros e' He. apply (H e'). right. assumption.
Qed.

(** Once it is not, nothing about players or address changes any more. *)
Lemma inattentive_frozen : forall is w, ~ attentive w ->
  st_players (w_state (fst (run_from w is))) = st_players (w_state w) /\
  st_address (w_state (fst (run_from w is))) = st_address (w_state w) /\
  ~ attentive (fst (run_from w is)) /\
  posted (snd (run_from w is)) = [].
Proof.
  induction is as [|i is IH]; intros w H; [auto|]. cbn [run_from].
  assert (S : st_players (w_state (fst (step w i))) = st_players (w_state w) /\
              st_address (w_state (fst (step w i))) = st_address (w_state w) /\
              ~ attentive (fst (step w i)) /\ posted [snd (step w i)] = []).
  { assert (O : (forall d fs, i <> KaDatagram d fs) ->
              st_players (w_state (fst (step w i))) = st_players (w_state w) /\
              st_address (w_state (fst (step w i))) = st_address (w_state w) /\
              ~ attentive (fst (step w i)) /\ posted [snd (step w i)] = []).
    { intros O. destruct (step_other w i O) as (E1 & E2 & E3 & E4).
      split; [assumption|]. split; [assumption|]. split; [intros X; apply H, E3, X|apply not_posted, E4]. }
    destruct i as [d fs| | |]; [clear O|apply O; discriminate|apply O; discriminate|apply O; discriminate].
    rewrite step_inattentive by assumption. auto. }
  destruct (step w i) as [w1 o]. cbn [fst snd] in S. destruct S as (S1 & S2 & S3 & S4).
  specialize (IH w1 S3). destruct (run_from w1 is) as [w2 os]. cbn [fst snd] in *.
  destruct IH as (I1 & I2 & I3 & I4).
  split; [congruence|]. split; [congruence|]. split; [assumption|].
  change (o :: os) with ([o] ++ os). rewrite posted_app, S4, I4. reflexivity.
Qed.
