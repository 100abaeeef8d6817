(** Lemmas about the server state machine. *)

From Verif Require Import Base Unicode MPackets MKeepalive MNetwork MServer SUdp SNetwork SServer
  LBase LUnicode LUdp LNetwork.
From Coq Require Import ZArith String.
Open Scope list_scope.
Open Scope N_scope.

(** ** What a datagram says *)

Lemma str_eqb_eq : forall a b, str_eqb a b = true <-> a = b.
Proof.
  induction a as [|x a IH]; intros [|y b]; cbn; try (split; intro H; congruence || discriminate H).
  rewrite Bool.andb_true_iff, N.eqb_eq, IH. split; [intros [-> ->]; reflexivity|].
  intros H. inversion H. auto.
Qed.

Lemma ka_says_acceptable : forall d p, ka_says d p -> ka_acceptable d.
Proof.
  intros d p (S1 & S2 & S3 & S4 & S5 & S6 & S7). unfold ka_acceptable.
  split; [assumption|]. split.
  { rewrite S2. destruct (ka_kind_of p), (ka_content_of p); cbn in S7; try contradiction;
      (eexists; split; [reflexivity|apply S7]). }
  split; [apply utf8_text_name; eauto|].
  split; [rewrite S5; destruct (ka_device p); cbn; lia|].
  intros K. rewrite S2 in K.
  destruct (ka_kind_of p), (ka_content_of p); cbn in S7, K; try contradiction; try discriminate.
  destruct S7 as (_ & _ & _ & _ & _ & A). rewrite A. destruct player_number_assignment; lia.
Qed.

Lemma status_of_iff : forall d h, status_of d h <->
  exists p, ka_receive d = Ok p /\ event_status p = Some (h_number h, h_ip h) /\ ka_model p = h_model h.
Proof.
  intros d h. rewrite ka_receive_whole. split.
  - intros (R & M & K & Nm & Nr & D & Hn & Hi).
    destruct (ka_cases d) as [(p & S & E)|(_ & A & _)].
    + exists p. split; [assumption|]. destruct S as (S1 & S2 & S3 & S4 & S5 & S6 & S7).
      assert (Em : ka_model p = h_model h) by (eapply name_field_functional; eassumption).
      split; [|assumption].
      assert (Kk : ka_kind_of p = KaStatus) by (apply kind_code_inj; rewrite <- S2; exact K).
      unfold event_status. rewrite Kk in *. destruct (ka_content_of p); cbn [ka_fields] in S7; try contradiction.
      destruct S7 as (_ & -> & _ & _ & -> & _).
      destruct (str_eqb (ka_model p) (lit "rekordbox")) eqn:Q.
      { exfalso. apply Nr. rewrite <- Em. apply str_eqb_eq. exact Q. }
      cbn [negb]. rewrite Hn, Hi. reflexivity.
    + exfalso. apply A. split; [assumption|]. split; [exists 54%nat; rewrite K; split; [reflexivity|assumption]|].
      split; [apply utf8_text_name; eauto|]. split; [assumption|]. rewrite K. discriminate.
  - intros (p & E & Q & Em). apply ka_try_from_iff in E.
    pose proof (ka_says_acceptable _ _ E) as (_ & _ & _ & Dv & _).
    destruct E as (S1 & S2 & S3 & S4 & S5 & S6 & S7). unfold event_status in Q.
    destruct (ka_kind_of p); try discriminate Q. destruct (ka_content_of p); try discriminate Q.
    destruct (negb (str_eqb (ka_model p) (lit "rekordbox"))) eqn:Nq; [|discriminate Q].
    cbn [ka_fields] in S7. destruct S7 as (R & F1 & _ & _ & F2 & _).
    assert (A1 : player_number = h_number h) by congruence.
    assert (A2 : ip_addr = h_ip h) by congruence.
    split; [assumption|]. split; [assumption|]. split; [assumption|].
    rewrite <- Em. split; [assumption|]. split; [|split; [assumption|split; congruence]].
    intros X. apply str_eqb_eq in X. rewrite X in Nq. discriminate.
Qed.

Lemma status_of_functional : forall d h k, status_of d h -> status_of d k -> h = k.
Proof.
  intros d [i1 n1 m1] [i2 n2 m2] (_ & _ & _ & N1 & _ & _ & A1 & B1) (_ & _ & _ & N2 & _ & _ & A2 & B2).
  cbn in *. f_equal; try congruence. eapply name_field_functional; eassumption.
Qed.

Lemma status_of_dec : forall d, (exists h, status_of d h) \/ (forall h, ~ status_of d h).
Proof.
  intros d. destruct (ka_receive d) as [p| |] eqn:E.
  - destruct (event_status p) as [[n ip]|] eqn:Q.
    + left. exists (mkHeard ip n (ka_model p)). apply status_of_iff. exists p. auto.
    + right. intros h H. apply status_of_iff in H. destruct H as (q & E' & Q' & _). congruence.
  - right. intros h H. apply status_of_iff in H. destruct H as (q & E' & _). congruence.
  - right. intros h H. apply status_of_iff in H. destruct H as (q & E' & _). congruence.
Qed.

Lemma ka_receive_not_panic : forall d, ka_receive d <> Panic.
Proof.
  intros d. rewrite ka_receive_whole.
  destruct (ka_cases d) as [(p & _ & E)|(_ & _ & E)]; rewrite E; discriminate.
Qed.

(** ** One step *)

Lemma find_chosen : forall ifaces ip, ifaces_typed ifaces ->
  (exists o, chosen ifaces ip o /\ find_interface ifaces ip = Ok o /\ ~ lookup_fails ifaces ip) \/
  (lookup_fails ifaces ip /\ find_interface ifaces ip = Panic /\ forall o, ~ chosen ifaces ip o).
Proof.
  intros ifaces ip Ht. destruct (find_interface ifaces ip) as [o| |] eqn:E.
  - left. exists o. split; [|split; [reflexivity|]].
    + destruct o as [[n x]|]; cbn [chosen pn_net pn_mac]; [apply find_some_iff|apply find_none_iff]; assumption.
    + intros F. apply find_panic_iff in F; [|assumption]. congruence.
  - exfalso. revert E. apply find_not_err.
  - right. split; [apply find_panic_iff; assumption|]. split; [reflexivity|].
    intros [[n x]|] C; cbn [chosen pn_net pn_mac] in C;
      [apply find_some_iff in C|apply find_none_iff in C]; try assumption; congruence.
Qed.

Lemma chosen_find : forall ifaces ip o, ifaces_typed ifaces -> chosen ifaces ip o ->
  find_interface ifaces ip = Ok o.
Proof.
  intros ifaces ip [[n x]|] Ht C; cbn [chosen pn_net pn_mac] in C;
    [apply find_some_iff|apply find_none_iff]; assumption.
Qed.

Definition with_queue (w : world) (q : list app_event) : world :=
  mkWorld (w_state w) (w_poisoned w) q (w_listening w) (w_broadcasting w) (w_running w).

Definition known (ip : ipv4) (ps : list player) : bool := existsb (fun p => pl_address p =? ip) ps.

Lemma add_or_update_length : forall ps p,
  len (add_or_update ps p) = if known (pl_address p) ps then len ps else len ps + 1.
Proof.
  intros ps p. induction ps as [|q ps IH]; [reflexivity|].
  cbn [add_or_update known existsb]. destruct (pl_address q =? pl_address p) eqn:E; cbn [orb].
  - unfold len. cbn [List.length]. reflexivity.
  - unfold len in *. cbn [List.length]. fold (known (pl_address p) ps).
    destruct (known (pl_address p) ps); lia.
Qed.

Lemma add_or_update_nonempty : forall ps p, 0 < len (add_or_update ps p).
Proof.
  intros [|q ps] p; cbn [add_or_update]; [reflexivity|].
  destruct (_ =? _); unfold len; cbn [List.length]; lia.
Qed.

Lemma linking_possible : forall s, 0 < len (st_players s) -> is_linking_possible s = negb (st_linking s).
Proof.
  intros s H. unfold is_linking_possible. apply N.ltb_lt in H. rewrite H. destruct (st_linking s); reflexivity.
Qed.

(** The effect of a status announcement that is heard and whose lookup succeeds. *)
Definition accept (w : world) (h : heard) (o : option network) : world * list output :=
  let es := (if known (h_ip h) (st_players (w_state w)) then [] else [DeviceChange])
            ++ (if st_linking (w_state w) then [] else [InitiateLink]) in
  (mkWorld
     (mkState (st_linking (w_state w)) (st_discovery (w_state w)) (st_linked (w_state w)) o
        (add_or_update (st_players (w_state w)) (player_new (h_model h) (h_number h) (h_ip h))))
     false (w_queue w ++ es) true (w_broadcasting w) true,
   map Posted es).

Lemma step_accept : forall w d ifaces h o, attentive w -> status_of d h ->
  ifaces_typed ifaces -> chosen ifaces (h_ip h) o ->
  step w (KaDatagram d ifaces) = accept w h o.
Proof.
  intros w d ifaces h o (A1 & A2 & A3) S Ht C. apply status_of_iff in S.
  destruct S as (p & E & Q & Em). apply chosen_find in C; [|assumption].
  unfold step, keepalive_turn. rewrite A1, A2, E, Q, A3. unfold handle_keepalive_status. rewrite C.
  cbn [rbind]. unfold accept. rewrite Em.
  set (pl := player_new (h_model h) (h_number h) (h_ip h)).
  rewrite linking_possible by apply add_or_update_nonempty.
  cbn [set_address set_players st_players st_linking st_discovery st_linked st_address].
  rewrite (add_or_update_length _ pl). change (pl_address pl) with (h_ip h).
  assert (E1 : (if len (st_players (w_state w)) =?
                   (if known (h_ip h) (st_players (w_state w)) then len (st_players (w_state w))
                    else len (st_players (w_state w)) + 1) then [] else [DeviceChange]) =
               (if known (h_ip h) (st_players (w_state w)) then [] else [DeviceChange])).
  { destruct (known _ _); [rewrite N.eqb_refl; reflexivity|].
    destruct (_ =? _) eqn:X; [apply N.eqb_eq in X; lia|reflexivity]. }
  rewrite E1.
  cbv zeta.
  replace (if negb (st_linking (w_state w)) then [InitiateLink] else [])
    with (if st_linking (w_state w) then [] else [InitiateLink])
    by (destruct (st_linking (w_state w)); reflexivity).
  reflexivity.
Qed.

Lemma step_lookup_fails : forall w d ifaces h, attentive w -> status_of d h ->
  ifaces_typed ifaces -> lookup_fails ifaces (h_ip h) ->
  step w (KaDatagram d ifaces) =
  (mkWorld (w_state w) true (w_queue w) false (w_broadcasting w) true, []).
Proof.
  intros w d ifaces h (A1 & A2 & A3) S Ht C. apply status_of_iff in S.
  destruct S as (p & E & Q & Em). apply find_panic_iff in C; [|assumption].
  unfold step, keepalive_turn. rewrite A1, A2, E, Q, A3. unfold handle_keepalive_status. rewrite C.
  cbn [rbind]. reflexivity.
Qed.

Lemma step_noise : forall w d ifaces, (forall h, ~ status_of d h) ->
  step w (KaDatagram d ifaces) = (w, []).
Proof.
  intros w d ifaces Hn. unfold step, keepalive_turn.
  destruct (w_running w); [|reflexivity]. destruct (w_listening w); [|reflexivity].
  destruct (ka_receive d) as [p| |] eqn:E; [|reflexivity|].
  - destruct (event_status p) as [[n ip]|] eqn:Q; [|reflexivity].
    exfalso. apply (Hn (mkHeard ip n (ka_model p))). apply status_of_iff. exists p. auto.
  - exfalso. revert E. apply ka_receive_not_panic.
Qed.

Lemma attentive_dec : forall w, attentive w \/ ~ attentive w.
Proof.
  intros w. unfold attentive. destruct (w_running w), (w_listening w), (w_poisoned w); intuition discriminate.
Qed.

Lemma step_inattentive : forall w d ifaces, ~ attentive w -> step w (KaDatagram d ifaces) = (w, []).
Proof.
  intros w d ifaces H. unfold step, keepalive_turn.
  destruct (w_running w) eqn:E1; [|reflexivity]. destruct (w_listening w) eqn:E2; [|reflexivity].
  destruct (ka_receive d) as [p| |] eqn:E; [|reflexivity|].
  - destruct (event_status p) as [[n ip]|]; [|reflexivity].
    destruct (w_poisoned w) eqn:E3; [reflexivity|]. exfalso. apply H. repeat split; assumption.
  - exfalso. revert E. apply ka_receive_not_panic.
Qed.

(** The five things a datagram can do. *)
Lemma datagram_cases : forall w d ifaces, ifaces_typed ifaces ->
  (exists h o, attentive w /\ status_of d h /\ chosen ifaces (h_ip h) o /\ ~ lookup_fails ifaces (h_ip h) /\
     step w (KaDatagram d ifaces) = accept w h o) \/
  (exists h, attentive w /\ status_of d h /\ lookup_fails ifaces (h_ip h) /\
     step w (KaDatagram d ifaces) =
     (mkWorld (w_state w) true (w_queue w) false (w_broadcasting w) true, [])) \/
  ((~ attentive w \/ forall h, ~ status_of d h) /\ step w (KaDatagram d ifaces) = (w, [])).
Proof.
  intros w d ifaces Ht. destruct (attentive_dec w) as [A|A].
  2: { right. right. split; [auto|]. apply step_inattentive. assumption. }
  destruct (status_of_dec d) as [[h S]|S].
  2: { right. right. split; [auto|]. apply step_noise. assumption. }
  destruct (find_chosen ifaces (h_ip h) Ht) as [(o & C & _ & F)|(F & _ & _)].
  - left. exists h, o. repeat (split; [assumption|]). apply step_accept; assumption.
  - right. left. exists h. repeat (split; [assumption|]). apply step_lookup_fails with h; assumption.
Qed.

(** ** Sending *)

Lemma mac_encoded : forall s m, ka_encode (ka_mac_package s m) = Ok (mac_claim_bytes s m).
Proof. intros. reflexivity. Qed.

Lemma ip_encoded : forall s i ip m, In i [1; 2; 3; 4; 5; 6] ->
  ka_encode (ka_ip_package s i ip m) = Ok (ip_claim_bytes s i ip m).
Proof.
  intros s i ip m H. unfold ka_encode. cbn [ka_ip_package ka_model ka_kind_of ka_unknown1 ka_device ka_subkind
      ka_content_of ka_content_encode]. unfold ip_addr_to_bytes, ip_claim_bytes, announcement_bytes.
  generalize (be 4 ip). intros b.
  cbn in H. destruct H as [<-|[<-|[<-|[<-|[<-|[<-|[]]]]]]]; reflexivity.
Qed.

Lemma status_encoded : forall ip m x y, ka_encode (ka_status_package ip m x y) = Ok (status_bytes ip m x).
Proof.
  intros ip m x y. unfold ka_encode. cbn [ka_status_package ka_model ka_kind_of ka_unknown1 ka_device ka_subkind
      ka_content_of ka_content_encode]. unfold ip_addr_to_bytes, status_bytes, announcement_bytes.
  generalize (be 4 ip) as b, (be 2 x) as c. intros b c. reflexivity.
Qed.

Definition net_ok (n : network) : Prop :=
  net_addr (pn_net n) < 4294967296 /\ net_prefix (pn_net n) <= 32.

Lemma send_ok : forall n p b, net_ok n -> ka_encode p = Ok b ->
  send_broadcast_payload n true p = Ok (broadcast_on n b).
Proof.
  intros n p b [H1 H2] E. unfold send_broadcast_payload. rewrite E. cbn [rbind].
  unfold broadcast_on, pn_ip, pn_broadcast. rewrite broadcast_value by assumption. reflexivity.
Qed.

Lemma broadcast_messages_all : forall n ok ps bs k, net_ok n ->
  Forall2 (fun p b => ka_encode p = Ok b) ps bs ->
  (forall j, (j < List.length ps)%nat -> ok (k + j)%nat = true) ->
  broadcast_messages n ok k ps = (map (broadcast_on n) bs, true).
Proof.
  intros n ok ps bs k Hn F. revert k. induction F as [|p b ps bs E F IH]; intros k Hk; [reflexivity|].
  cbn [broadcast_messages map].
  rewrite (f_equal ok (eq_sym (Nat.add_0_r k))), (Hk 0%nat) by (cbn; lia).
  rewrite (send_ok n p b Hn E), IH; [reflexivity|].
  intros j Hj. replace (S k + j)%nat with (k + S j)%nat by lia. apply Hk. cbn. lia.
Qed.

Lemma broadcast_messages_some : forall n ok ps bs k, net_ok n ->
  Forall2 (fun p b => ka_encode p = Ok b) ps bs ->
  forall j, (j < List.length ps)%nat -> ok (k + j)%nat = false ->
  (forall i, (i < j)%nat -> ok (k + i)%nat = true) ->
  broadcast_messages n ok k ps = (map (broadcast_on n) (firstn j bs), false).
Proof.
  intros n ok ps bs k Hn F. revert k. induction F as [|p b ps bs E F IH]; intros k j Hj Hf Ht; [cbn in Hj; lia|].
  cbn [broadcast_messages]. destruct j as [|j].
  - rewrite Nat.add_0_r in Hf. rewrite Hf. reflexivity.
  - rewrite (f_equal ok (eq_sym (Nat.add_0_r k))), (Ht 0%nat) by lia.
    rewrite (send_ok n p b Hn E). cbn [firstn map].
    rewrite (IH (S k) j); [reflexivity|cbn in Hj; lia| |].
    + replace (S k + j)%nat with (k + S j)%nat by lia. assumption.
    + intros i Hi. replace (S k + i)%nat with (k + S i)%nat by lia. apply Ht. lia.
Qed.

Lemma negotiation_bytes : forall n,
  Forall2 (fun p b => ka_encode p = Ok b) (negotiation n) (handshake_bytes n).
Proof.
  intros n. unfold negotiation, handshake_bytes. cbn [map flat_map app].
  repeat (apply Forall2_cons; [first [apply mac_encoded|apply ip_encoded; cbn; tauto|apply status_encoded]|]).
  apply Forall2_nil.
Qed.

Lemma handshake_length : forall n, List.length (negotiation n) = 40%nat.
Proof. reflexivity. Qed.

(** First failing socket below a bound, if there is one. *)
Lemma first_false : forall (ok : nat -> bool) m,
  (forall j, (j < m)%nat -> ok j = true) \/
  (exists j, (j < m)%nat /\ ok j = false /\ forall i, (i < j)%nat -> ok i = true).
Proof.
  intros ok m. induction m as [|m [H|(j & Hj & E & H)]].
  - left. intros j Hj. lia.
  - destruct (ok m) eqn:E.
    + left. intros j Hj. destruct (Nat.eq_dec j m) as [->|]; [assumption|apply H; lia].
    + right. exists m. split; [lia|]. auto.
  - right. exists j. split; [lia|]. auto.
Qed.

(** ** Runs *)

Lemma run_from_app : forall is is' w,
  run_from w (is ++ is') =
  (fst (run_from (fst (run_from w is)) is'),
   snd (run_from w is) ++ snd (run_from (fst (run_from w is)) is')).
Proof.
  induction is as [|i is IH]; intros is' w.
  - cbn. destruct (run_from w is'); reflexivity.
  - cbn [app run_from]. destruct (step w i) as [w1 o]. rewrite IH.
    destruct (run_from w1 is) as [w2 os]. reflexivity.
Qed.

Lemma run_snoc : forall is i,
  fst (run (is ++ [i])) = fst (step (fst (run is)) i) /\
  snd (run (is ++ [i])) = snd (run is) ++ [snd (step (fst (run is)) i)].
Proof.
  intros is i. unfold run. rewrite run_from_app. cbn [fst snd run_from].
  destruct (step (fst (run_from world_start is)) i). auto.
Qed.

Lemma run_app_fst : forall is is', fst (run (is ++ is')) = fst (run_from (fst (run is)) is').
Proof. intros. unfold run. rewrite run_from_app. reflexivity. Qed.

Lemma inputs_typed_app : forall a b, inputs_typed (a ++ b) <-> inputs_typed a /\ inputs_typed b.
Proof.
  intros a b. unfold inputs_typed. split.
  - intros H. split; intros d fs Hin; apply (H d); apply in_or_app; auto.
  - intros [H1 H2] d fs Hin. apply in_app_or in Hin. destruct Hin; eauto.
Qed.

Lemma inputs_typed_one : forall d ifaces, inputs_typed [KaDatagram d ifaces] -> ifaces_typed ifaces.
Proof. intros d fs H. apply (H d). left. reflexivity. Qed.

Ltac nothing_done := cbn [fst snd]; exact (conj eq_refl (conj eq_refl (conj (fun H => H) (fun e H => H)))).

Lemma broadcast_not_posted : forall n ok ps k e, ~ In (Posted e) (fst (broadcast_messages n ok k ps)).
Proof.
  induction ps as [|p ps IH]; intros k e; [cbn; tauto|]. cbn [broadcast_messages].
  unfold send_broadcast_payload. destruct (ok k); [|cbn; tauto].
  destruct (ka_encode p); cbn [rbind]; try (cbn; tauto).
  specialize (IH (S k) e). destruct (broadcast_messages n ok (S k) ps). cbn in *.
  intros [H|H]; [discriminate|tauto].
Qed.

(** Inputs other than datagrams never make the program attentive, nor change the
    players or the address. *)
Lemma step_other : forall w i, (forall d fs, i <> KaDatagram d fs) ->
  st_players (w_state (fst (step w i))) = st_players (w_state w) /\
  st_address (w_state (fst (step w i))) = st_address (w_state w) /\
  (attentive (fst (step w i)) -> attentive w) /\
  (forall e, ~ In (Posted e) (snd (step w i))).
Proof.
  intros w i Hi. unfold step. destruct (w_running w) eqn:Er; [|nothing_done].
  destruct i as [d fs| |ok|ok].
  - exfalso. apply (Hi d fs). reflexivity.
  - nothing_done.
  - destruct (w_broadcasting w) eqn:Eb; [|nothing_done]. unfold broadcast_turn.
    destruct (w_poisoned w) eqn:Ep; [nothing_done|].
    destruct (st_address (w_state w)) as [n|] eqn:Ea; [|rewrite <- Ea; nothing_done].
    unfold send_broadcast_payload. destruct ok.
    + rewrite status_encoded. cbn [rbind fst snd]. split; [reflexivity|]. split; [assumption|].
      split; [auto|]. intros e [H|[]]. discriminate.
    + cbn [fst snd w_state]. split; [reflexivity|]. split; [assumption|].
      split; [intros (_ & _ & H); discriminate|]. intros e [].
  - unfold app_turn. destruct (w_queue w) as [|[|] q]; [nothing_done| |].
    + unfold initiate_linking. cbn [w_poisoned w_state w_queue w_listening w_broadcasting w_running].
      destruct (w_poisoned w) eqn:Ep.
      { cbn [fst snd w_state]. split; [reflexivity|]. split; [reflexivity|].
        split; [intros (H & _); discriminate|]. intros e [H|[]]. discriminate. }
      cbn [set_linking st_address]. destruct (st_address (w_state w)) as [n|] eqn:Ea.
      * pose proof (broadcast_not_posted n ok (negotiation n) 0%nat) as NP.
        destruct (broadcast_messages n ok 0 (negotiation n)) as [os b].
        cbn [fst snd w_state set_linking st_players st_address] in *.
        split; [reflexivity|]. split; [assumption|]. split.
        -- intros (H1 & H2 & H3). exact (conj Er (conj H2 Ep)).
        -- intros e [H|H]; [discriminate|]. revert H. apply NP.
      * cbn [fst snd w_state set_linking st_players st_address]. split; [reflexivity|]. split; [assumption|].
        split; [intros (H & _); discriminate|]. intros e [H|[]]. discriminate.
    + cbn [fst snd w_state]. split; [reflexivity|]. split; [reflexivity|].
      split; [intros (H1 & H2 & H3); exact (conj Er (conj H2 H3))|]. intros e [H|[]]. discriminate.
Qed.

Lemma step_attentive_back : forall w i, attentive (fst (step w i)) -> attentive w.
Proof.
  intros w i H. destruct i as [d fs| | |]; try (apply step_other in H; [assumption|discriminate]).
  destruct (attentive_dec w) as [A|A]; [assumption|]. rewrite step_inattentive in H; assumption.
Qed.

Lemma run_attentive_back : forall is w, attentive (fst (run_from w is)) -> attentive w.
Proof.
  induction is as [|i is IH]; intros w H; [assumption|]. cbn [run_from] in H.
  pose proof (step_attentive_back w i) as B. destruct (step w i) as [w1 o]. cbn [fst] in B.
  apply B, IH. destruct (run_from w1 is). exact H.
Qed.

(** ** Hearing *)

Lemma hears_total : forall is, exists hs, hears is hs.
Proof.
  induction is as [|i is [hs IH]]; [exists []; constructor|].
  destruct i as [d fs| | |]; try (exists hs; apply hears_other; [discriminate|assumption]).
  destruct (status_of_dec d) as [[h S]|S]; [exists (h :: hs)|exists hs];
    [apply hears_status|apply hears_noise]; assumption.
Qed.

Lemma hears_functional : forall is hs hs', hears is hs -> hears is hs' -> hs = hs'.
Proof.
  intros is hs hs' H. revert hs'. induction H as [|d fs h is hs S H IH|d fs is hs S H IH|i is hs S H IH];
    intros hs' H'; inversion H'; subst; auto; try (f_equal; [eapply status_of_functional; eassumption|auto]);
    exfalso;
    match goal with
    | A : forall h, ~ status_of ?d h, B : status_of ?d ?h |- _ => exact (A h B)
    | A : forall d fs, KaDatagram ?x ?y <> KaDatagram d fs |- _ => exact (A x y eq_refl)
    end.
Qed.

Lemma hears_app : forall a b hs ks, hears a hs -> hears b ks -> hears (a ++ b) (hs ++ ks).
Proof.
  intros a b hs ks H Hb. induction H; cbn [app]; try assumption.
  - apply hears_status; assumption.
  - apply hears_noise; assumption.
  - apply hears_other; assumption.
Qed.

(** ** The player list *)

Lemma in_distinct : forall l a, In a (distinct l) <-> In a l.
Proof.
  induction l as [|b l IH]; intros a; [reflexivity|]. cbn [distinct In]. rewrite filter_In, IH.
  destruct (N.eq_dec b a) as [->|Hn]; [tauto|].
  assert (negb (a =? b) = true) by (apply Bool.negb_true_iff, N.eqb_neq; congruence). tauto.
Qed.

Lemma filter_app_N : forall (f : N -> bool) a b, filter f (a ++ b) = filter f a ++ filter f b.
Proof. intros. induction a as [|x a IH]; [reflexivity|]. cbn. destruct (f x); cbn; rewrite IH; reflexivity. Qed.

Lemma distinct_snoc : forall a l,
  distinct (l ++ [a]) = if in_dec N.eq_dec a l then distinct l else distinct l ++ [a].
Proof.
  intros a l. induction l as [|b l IH]; [reflexivity|].
  cbn [app distinct]. rewrite IH. clear IH.
  destruct (in_dec N.eq_dec a l) as [H|H]; destruct (in_dec N.eq_dec a (b :: l)) as [K|K]; try reflexivity.
  - exfalso. apply K. right. assumption.
  - destruct K as [->|K]; [|contradiction]. rewrite filter_app_N. cbn [filter].
    rewrite N.eqb_refl. cbn [negb]. rewrite app_nil_r. reflexivity.
  - rewrite filter_app_N. cbn [filter].
    assert (E : negb (a =? b) = true).
    { apply Bool.negb_true_iff, N.eqb_neq. intros ->. apply K. left. reflexivity. }
    rewrite E. reflexivity.
Qed.

Lemma distinct_nodup : forall l, NoDup (distinct l).
Proof.
  induction l as [|a l IH]; [constructor|]. cbn [distinct]. constructor; [|apply NoDup_filter; assumption].
  rewrite filter_In, N.eqb_refl. intros [_ H]. discriminate.
Qed.

Lemma known_in : forall ip ps, known ip ps = true <-> In ip (map pl_address ps).
Proof.
  intros ip ps. unfold known. rewrite existsb_exists, in_map_iff. split.
  - intros (p & H1 & H2). apply N.eqb_eq in H2. eauto.
  - intros (p & H1 & H2). exists p. split; [assumption|]. apply N.eqb_eq. assumption.
Qed.

Lemma add_or_update_address : forall ps p,
  map pl_address (add_or_update ps p) =
  if known (pl_address p) ps then map pl_address ps else map pl_address ps ++ [pl_address p].
Proof.
  intros ps p. induction ps as [|q ps IH]; [reflexivity|].
  cbn [add_or_update known existsb]. destruct (pl_address q =? pl_address p) eqn:E; cbn [orb map].
  - reflexivity.
  - fold (known (pl_address p) ps). rewrite IH. destruct (known (pl_address p) ps); reflexivity.
Qed.

Lemma add_or_update_in : forall ps p q, NoDup (map pl_address ps) -> In q (add_or_update ps p) ->
  (In q ps /\ pl_address q <> pl_address p) \/
  (exists r, In r ps /\ pl_address r = pl_address p /\ q = player_update r p) \/
  (~ In (pl_address p) (map pl_address ps) /\ q = p).
Proof.
  intros ps p q. induction ps as [|r ps IH]; intros Hn H.
  - cbn in H. destruct H as [<-|[]]. right. right. split; [intros []|reflexivity].
  - cbn [add_or_update] in H. cbn [map] in Hn. inversion Hn as [|? ? Hr Hn']; subst.
    destruct (pl_address r =? pl_address p) eqn:E.
    + apply N.eqb_eq in E. destruct H as [<-|H].
      * right. left. exists r. split; [left; reflexivity|]. auto.
      * left. split; [right; assumption|]. intros X. apply Hr. rewrite E, <- X. apply in_map. assumption.
    + apply N.eqb_neq in E. destruct H as [<-|H]; [left; split; [left; reflexivity|assumption]|].
      destruct (IH Hn' H) as [[H1 H2]|[(r' & H1 & H2 & H3)|[H1 H2]]].
      * left. split; [right; assumption|assumption].
      * right. left. exists r'. split; [right; assumption|]. auto.
      * right. right. split; [|assumption]. cbn [map]. intros [X|X]; contradiction.
Qed.

Lemma players_of_snoc : forall hs ps h, players_of hs ps ->
  players_of (hs ++ [h]) (add_or_update ps (player_new (h_model h) (h_number h) (h_ip h))).
Proof.
  intros hs ps h [H1 H2]. split.
  - rewrite add_or_update_address, map_app. cbn [map]. rewrite distinct_snoc.
    cbn [player_new pl_address]. rewrite H1.
    pose proof (known_in (h_ip h) ps) as K. rewrite H1, in_distinct in K.
    destruct (known (h_ip h) ps), (in_dec N.eq_dec (h_ip h) (map h_ip hs)) as [I|I]; try reflexivity; exfalso.
    + apply I, K. reflexivity.
    + apply K in I. discriminate.
  - assert (Nd : NoDup (map pl_address ps)) by (rewrite H1; apply distinct_nodup).
    intros q Hq. destruct (add_or_update_in _ _ _ Nd Hq) as [[I N]|[(r & I & E & ->)|[I ->]]].
    + destruct (H2 q I) as [(b & k & a & E1 & E2 & E3 & E4) [(b' & k' & a' & F1 & F2 & F3 & F4) L]].
      split; [|split; [|assumption]].
      * exists b, k, (a ++ [h]). rewrite E1, <- app_assoc. auto.
      * exists b', k', (a' ++ [h]). rewrite F1, <- app_assoc. repeat split; auto.
        rewrite map_app, in_app_iff. cbn. intros [X|[X|[]]]; [contradiction|].
        apply N. cbn [player_new pl_address]. congruence.
    + destruct (H2 r I) as [(b & k & a & E1 & E2 & E3 & E4) [_ L]].
      cbn [player_new pl_address] in E.
      split; [|split].
      * exists b, k, (a ++ [h]). rewrite E1, <- app_assoc. cbn [player_update pl_address pl_model]. auto.
      * exists hs, h, []. cbn [player_update pl_address pl_number player_new map]. repeat split; auto.
      * cbn [player_update pl_linking player_new]. rewrite L. reflexivity.
    + rewrite H1, in_distinct in I. cbn [player_new pl_address] in *.
      split; [|split; [|reflexivity]].
      * exists hs, h, []. repeat split; auto.
      * exists hs, h, []. cbn [map pl_number]. repeat split; auto.
Qed.
