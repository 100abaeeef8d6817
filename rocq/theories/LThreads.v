(** Schedules of single actions against histories of whole turns. *)

From Verif Require Import Base Unicode MPackets MKeepalive MNetwork MServer MThreads SNetwork SServer SThreads
  LServer LServer2.
From Coq Require Import Lia.
Open Scope list_scope.
Open Scope N_scope.

(** ** The mutex *)

Definition ka_has (k : ka_at) : bool := match k with KaLocked _ _ _ | KaPosts _ => true | _ => false end.
Definition bc_has (b : bc_at) : bool := match b with BcLocked | BcSent => true | _ => false end.
Definition app_has (a : app_at) : bool := match a with AppSends _ _ => true | _ => false end.

Record locked (t : threads) : Prop := mkLocked {
  l_ka : ka_has (th_ka t) = match th_lock t with Some KaThread => true | _ => false end;
  l_bc : bc_has (th_bc t) = match th_lock t with Some BcThread => true | _ => false end;
  l_app : app_has (th_app t) = match th_lock t with Some AppThread => true | _ => false end;
  l_poison : th_lock t <> None -> th_poisoned t = false
}.

Ltac act_cases H :=
  repeat (cbn [act] in H;
          match type of H with
          | Some _ = Some _ => injection H as <- <-
          | None = Some _ => discriminate H
          | (match ?x with _ => _ end) = Some _ => destruct x eqn:?; try discriminate H
          | (if ?x then _ else _) = Some _ => destruct x eqn:?; try discriminate H
          end).

Lemma locked_step : forall t a t' o, locked t -> act t a = Some (t', o) -> locked t'.
Proof.
  intros [s p l q k b ap] a t' o [L1 L2 L3 L4] H. cbn [th_ka th_bc th_app th_lock th_poisoned] in *.
  destruct a; cbn [act] in H;
    unfold ka_receives, ka_fails, ka_acquires, ka_looks_up, ka_queues, ka_releases, bc_acquires, bc_sends,
      bc_releases, app_takes, app_acquires, app_sends_next, app_releases in H;
    cbn [th_ka th_bc th_app th_lock th_poisoned th_state th_queue] in H; act_cases H; subst;
    constructor; cbn in *; try assumption; try congruence;
    destruct l as [[| |]|]; cbn in *; congruence.
Qed.

Lemma schedule_from_snoc : forall acts a t t' os,
  schedule_from t (acts ++ [a]) = Some (t', os) <->
  exists t1 os1 o, schedule_from t acts = Some (t1, os1) /\ act t1 a = Some (t', o) /\ os = os1 ++ o.
Proof.
  induction acts as [|b acts IH]; intros a t t' os; cbn [app schedule_from].
  - split.
    + intros H. destruct (act t a) as [[t1 o]|] eqn:E; [|discriminate]. injection H as <- <-.
      exists t, [], o. rewrite app_nil_r. auto.
    + intros (t1 & os1 & o & H & E & ->). injection H as <- <-. rewrite E, app_nil_r. reflexivity.
  - destruct (act t b) as [[t1 o]|] eqn:E.
    + split.
      * intros H. destruct (schedule_from t1 (acts ++ [a])) as [[t2 os2]|] eqn:E2; [|discriminate].
        injection H as <- <-. apply IH in E2. destruct E2 as (t3 & os3 & o3 & E3 & Ea & ->).
        rewrite E3. exists t3, (o ++ os3), o3. rewrite app_assoc. auto.
      * intros (t3 & os3 & o3 & E3 & Ea & ->).
        destruct (schedule_from t1 acts) as [[t4 os4]|] eqn:E4; [|discriminate]. injection E3 as <- <-.
        rewrite (proj2 (IH a t1 t' (os4 ++ o3))); [rewrite app_assoc; reflexivity|].
        exists t4, os4, o3. auto.
    + split; [discriminate|]. intros (t1 & os1 & o & H & _). discriminate.
Qed.

Lemma schedule_snoc : forall acts a t os,
  schedule (acts ++ [a]) = Some (t, os) <->
  exists t1 os1 o, schedule acts = Some (t1, os1) /\ act t1 a = Some (t, o) /\ os = os1 ++ o.
Proof. intros. apply schedule_from_snoc. Qed.

Lemma schedule_locked : forall acts t os, schedule acts = Some (t, os) -> locked t.
Proof.
  intros acts. induction acts as [|a acts IH] using rev_ind; intros t os H.
  - injection H as <- <-. constructor; reflexivity.
  - apply schedule_snoc in H. destruct H as (t1 & os1 & o & H & E & _).
    exact (locked_step t1 a t o (IH t1 os1 H) E).
Qed.

(** ** What is in the middle of a turn *)

Definition pend (k : ka_at) : list app_event := match k with KaPosts es => es | _ => [] end.
Definition took (a : app_at) : list app_event :=
  match a with AppWaits | AppSends _ _ => [InitiateLink] | _ => [] end.
Definition part (a : app_at) : list output :=
  match a with AppSends n k => map (broadcast_on n) (firstn k (handshake_bytes n)) | _ => [] end.
Definition waits (k : ka_at) (ds : list bytes) : Prop :=
  match k with
  | KaWaits p x ip | KaLocked p x ip => exists d, ds = [d] /\ ka_receive d = Ok p /\ event_status p = Some (x, ip)
  | _ => ds = []
  end.

Record rel (rc : list bytes) (t : threads) (os : list output) (ri : list bytes) (w : world) (ws : list (list output)) : Prop := mkRel {
  r_running : w_running w = true;
  r_poisoned : w_poisoned w = th_poisoned t;
  r_listening : w_listening w = match th_ka t with KaDead => false | _ => true end;
  r_broadcasting : w_broadcasting w = match th_bc t with BcDead => false | _ => true end;
  r_state : th_state t = if app_has (th_app t) then set_linking (w_state w) true else w_state w;
  r_queue : w_queue w = took (th_app t) ++ th_queue t ++ pend (th_ka t);
  r_sent : datagrams os = datagrams (List.concat ws) ++ part (th_app t);
  r_posted : posted ws = posted [os] ++ pend (th_ka t);
  r_taken : taken [os] = taken ws ++ took (th_app t);
  r_received : exists ds, rc = ri ++ ds /\ waits (th_ka t) ds;
  r_app : match th_app t with
          | AppSends n k => st_address (w_state w) = Some n /\ (k <= 40)%nat
          | AppGone => False
          | _ => True
          end
}.

Lemma datagrams_app : forall a b, datagrams (a ++ b) = datagrams a ++ datagrams b.
Proof. intros. unfold datagrams. apply filter_app. Qed.
Lemma datagrams_sent : forall n bs, datagrams (map (broadcast_on n) bs) = map (broadcast_on n) bs.
Proof. intros. unfold datagrams. induction bs; [reflexivity|]. cbn [map filter broadcast_on]. rewrite IHbs. reflexivity. Qed.
Lemma datagrams_took : forall e l, datagrams (Took e :: l) = datagrams l.
Proof. reflexivity. Qed.
Lemma datagrams_posted : forall es, datagrams (map Posted es) = [].
Proof. induction es; auto. Qed.
Lemma posted_cat : forall a b, posted [a ++ b] = posted [a] ++ posted [b].
Proof. intros. unfold posted. cbn [List.concat]. rewrite !app_nil_r, flat_map_app. reflexivity. Qed.
Lemma taken_cat : forall a b, taken [a ++ b] = taken [a] ++ taken [b].
Proof. intros. unfold taken. cbn [List.concat]. rewrite !app_nil_r, flat_map_app. reflexivity. Qed.
Lemma concat_snoc : forall (ws : list (list output)) o, List.concat (ws ++ [o]) = List.concat ws ++ o.
Proof. intros. rewrite concat_app. cbn. rewrite app_nil_r. reflexivity. Qed.

Lemma posted_none : posted [[]] = [].
Proof. reflexivity. Qed.
Lemma taken_none : taken [[]] = [].
Proof. reflexivity. Qed.
Lemma datagrams_none : datagrams [] = [].
Proof. reflexivity. Qed.
Lemma posted_one_sent : forall n b, posted [[broadcast_on n b]] = [].
Proof. reflexivity. Qed.
Lemma taken_one_sent : forall n b, taken [[broadcast_on n b]] = [].
Proof. reflexivity. Qed.
Lemma datagrams_one_sent : forall n b, datagrams [broadcast_on n b] = [broadcast_on n b].
Proof. reflexivity. Qed.
Lemma posted_one : forall e, posted [[Posted e]] = [e].
Proof. reflexivity. Qed.
Lemma taken_one_posted : forall e, taken [[Posted e]] = [].
Proof. reflexivity. Qed.
Lemma posted_one_took : forall e, posted [[Took e]] = [].
Proof. reflexivity. Qed.
Lemma taken_one : forall e, taken [[Took e]] = [e].
Proof. reflexivity. Qed.
Lemma datagrams_one_posted : forall e, datagrams [Posted e] = [].
Proof. reflexivity. Qed.
Lemma datagrams_one_took : forall e, datagrams [Took e] = [].
Proof. reflexivity. Qed.
Ltac traces := rewrite ?concat_snoc, ?posted_app, ?taken_app, ?posted_cat, ?taken_cat, ?datagrams_app,
  ?posted_posted, ?taken_posted, ?datagrams_posted, ?posted_took, ?taken_took, ?datagrams_took,
  ?posted_none, ?taken_none, ?datagrams_none, ?posted_one_sent, ?taken_one_sent, ?datagrams_one_sent,
  ?posted_one, ?taken_one_posted, ?posted_one_took, ?taken_one, ?datagrams_one_posted, ?datagrams_one_took,
  ?datagrams_sent, ?app_nil_r.

Lemma handshake_bytes_length : forall n, List.length (handshake_bytes n) = 40%nat.
Proof. reflexivity. Qed.

Lemma forall2_nth : forall A B (P : A -> B -> Prop) l l' k a, Forall2 P l l' -> nth_error l k = Some a ->
  exists b, nth_error l' k = Some b /\ P a b.
Proof.
  intros A B P l l' k a F. revert k. induction F as [|x y l l' H F IH]; intros k E; [destruct k; discriminate|].
  destruct k as [|k]; [injection E as <-; exists y; auto|]. apply IH. exact E.
Qed.

Lemma firstn_nth : forall A (l : list A) k b, nth_error l k = Some b -> firstn (S k) l = firstn k l ++ [b].
Proof.
  induction l as [|x l IH]; intros k b E; [destruct k; discriminate|]. destruct k as [|k].
  - injection E as <-. reflexivity.
  - cbn [firstn app]. f_equal. exact (IH k b E).
Qed.

(** One datagram of the handshake. *)
Lemma next_sent : forall n k p, net_ok n -> nth_error (negotiation n) k = Some p ->
  (k < 40)%nat /\
  exists b, send_broadcast_payload n true p = Ok (broadcast_on n b) /\
    firstn (S k) (handshake_bytes n) = firstn k (handshake_bytes n) ++ [b].
Proof.
  intros n k p Hn E. split.
  - rewrite <- (handshake_length n). apply nth_error_Some. rewrite E. discriminate.
  - destruct (forall2_nth _ _ _ _ _ k p (negotiation_bytes n) E) as (b & Eb & Ek).
    exists b. split; [exact (send_ok n p b Hn Ek)|exact (firstn_nth _ _ _ _ Eb)].
Qed.

(** ** One action *)

Lemma keeps : forall rc t t' os o ri w ws a,
  rel rc t os ri w ws ->
  received_by [a] = [] -> datagrams o = [] -> posted [o] = [] -> taken [o] = [] ->
  th_state t' = th_state t -> th_poisoned t' = th_poisoned t -> th_queue t' = th_queue t ->
  pend (th_ka t') = pend (th_ka t) -> (forall ds, waits (th_ka t) ds -> waits (th_ka t') ds) ->
  (th_ka t' = KaDead <-> th_ka t = KaDead) -> (th_bc t' = BcDead <-> th_bc t = BcDead) ->
  th_app t' = th_app t ->
  rel (rc ++ received_by [a]) t' (os ++ o) ri w ws.
Proof.
  intros rc t t' os o ri w ws a [R1 R2 R3 R4 R5 R6 R7 R8 R9 (ds & R10 & R11) R12] Ea E1 E2 E3 E4 E5 E6 E7 E8 E9 E10 E11.
  rewrite Ea, app_nil_r.
  constructor; rewrite ?E4, ?E5, ?E6, ?E7, ?E11, ?datagrams_app, ?posted_cat, ?taken_cat, ?E1, ?E2, ?E3, ?app_nil_r;
    try assumption.
  - rewrite R3. destruct (th_ka t), (th_ka t'); try reflexivity; exfalso;
      first [discriminate (proj1 E9 eq_refl)|discriminate (proj2 E9 eq_refl)].
  - rewrite R4. destruct (th_bc t), (th_bc t'); try reflexivity; exfalso;
      first [discriminate (proj1 E10 eq_refl)|discriminate (proj2 E10 eq_refl)].
  - exists ds. auto.
Qed.

Definition act_typed (a : action) : Prop := forall ifaces, a = KaLooksUp ifaces -> ifaces_typed ifaces.
Definition address_good (w : world) : Prop := forall n, st_address (w_state w) = Some n -> net_ok n.

(** What one action is: nothing yet, or a whole turn. *)
Definition simulated (rc : list bytes) (t' : threads) (os : list output) (ri : list bytes) (w : world)
    (ws : list (list output)) : Prop :=
  rel rc t' os ri w ws \/
  exists i, inputs_typed [i] /\
    rel rc t' os (ri ++ received_in [i]) (fst (step w i)) (ws ++ [snd (step w i)]).

Lemma typed_nil : forall d, inputs_typed [KaDatagram d []].
Proof. intros d d' fs [E|[]]. injection E as _ <-. intros x []. Qed.
Lemma typed_other : forall i, (forall d fs, i <> KaDatagram d fs) -> inputs_typed [i].
Proof. intros i H d fs [E|[]]. exfalso. exact (H d fs E). Qed.

(** A datagram without effect. *)
Lemma ignored : forall rc t os ri w ws d ds, rel rc t os ri w ws ->
  step w (KaDatagram d []) = (w, []) -> rc = ri ++ ds -> waits (th_ka t) ds ->
  forall t', th_state t' = th_state t -> th_poisoned t' = th_poisoned t -> th_queue t' = th_queue t ->
  th_bc t' = th_bc t -> th_app t' = th_app t -> pend (th_ka t) = [] -> th_ka t <> KaDead -> th_ka t' = KaIdle ->
  rel (ri ++ [d]) t' (os ++ []) (ri ++ received_in [KaDatagram d []])
    (fst (step w (KaDatagram d []))) (ws ++ [snd (step w (KaDatagram d []))]).
Proof.
  intros rc t os ri w ws d ds [R1 R2 R3 R4 R5 R6 R7 R8 R9 _ R12] Es _ _ t' E1 E2 E3 E4 E5 E6 E7 E8.
  rewrite Es. cbn [fst snd received_in flat_map app].
  constructor; rewrite ?E1, ?E2, ?E3, ?E4, ?E5, ?E8; traces; cbn [pend]; try assumption.
  - rewrite R3. destruct (th_ka t); try reflexivity. congruence.
  - rewrite R6, E6, ?app_nil_r. reflexivity.
  - rewrite R8, E6, ?app_nil_r. reflexivity.
  - exists []. split; [rewrite app_nil_r; reflexivity|reflexivity].
Qed.

Ltac thr := cbn [ka_to bc_to app_to lock_to queue_to state_to poison
  th_state th_poisoned th_lock th_queue th_ka th_bc th_app] in *.

Lemma step_ka : forall w d ifaces, w_running w = true -> w_listening w = true ->
  step w (KaDatagram d ifaces) = keepalive_turn w d ifaces.
Proof. intros w d fs H1 H2. unfold step. rewrite H1, H2. reflexivity. Qed.

Lemma sim_receives : forall rc t os ri w ws d t' o,
  rel rc t os ri w ws -> act t (KaReceives d) = Some (t', o) ->
  simulated (rc ++ received_by [KaReceives d]) t' (os ++ o) ri w ws.
Proof.
  intros rc t os ri w ws d t' o R H. cbn [act] in H. unfold ka_receives in H.
  destruct (th_ka t) eqn:Ek; try discriminate.
  pose proof R as [R1 R2 R3 R4 R5 R6 R7 R8 R9 (ds & R10 & R11) R12]. rewrite Ek in *.
  cbn [waits] in R11. subst ds. rewrite app_nil_r in R10. subst rc. cbn [received_by flat_map app].
  assert (Hl := step_ka w d [] R1 R3). unfold keepalive_turn in Hl.
  assert (Ign : step w (KaDatagram d []) = (w, []) -> simulated (ri ++ [d]) t (os ++ []) ri w ws).
  { intros E. right. exists (KaDatagram d []). split; [apply typed_nil|].
    apply (ignored ri t os ri w ws d [] R E); rewrite ?Ek, ?app_nil_r; try reflexivity. discriminate. }
  destruct (ka_receive d) as [p| |] eqn:Er.
  - destruct (event_status p) as [[x ip]|] eqn:Ee.
    + injection H as <- <-. left. rewrite app_nil_r. constructor; thr; rewrite ?Ek in *; cbn [pend] in *; try assumption.
      exists [d]. split; [reflexivity|]. exists d. auto.
    + injection H as <- <-. apply Ign. exact Hl.
  - injection H as <- <-. apply Ign. exact Hl.
  - exfalso. exact (ka_receive_not_panic d Er).
Qed.

Lemma sim_acquires : forall rc t os ri w ws t' o,
  rel rc t os ri w ws -> act t KaAcquires = Some (t', o) ->
  simulated (rc ++ received_by [KaAcquires]) t' (os ++ o) ri w ws.
Proof.
  intros rc t os ri w ws t' o R H. cbn [act] in H. unfold ka_acquires in H.
  destruct (th_ka t) as [|p x ip| | |] eqn:Ek; try discriminate. destruct (th_lock t) eqn:El; [discriminate|].
  destruct (th_poisoned t) eqn:Ep; injection H as <- <-.
  - pose proof R as [R1 R2 R3 _ _ _ _ _ _ (ds & R10 & R11) _]. rewrite Ek in *.
    pose proof R11 as R11'. destruct R11' as (d & -> & Er & Ee).
    assert (E : step w (KaDatagram d []) = (w, [])).
    { rewrite (step_ka w d [] R1 R3). unfold keepalive_turn. rewrite Er, Ee, R2, Ep. reflexivity. }
    right. exists (KaDatagram d []). split; [apply typed_nil|]. cbn [received_by flat_map]. rewrite app_nil_r, R10.
    apply (ignored rc t os ri w ws d [d] R E); thr; rewrite ?Ek, ?Ep; try reflexivity; try assumption. discriminate.
  - left. apply (keeps rc t); thr; rewrite ?Ek, ?Ep; try reflexivity; try assumption; try (intros; assumption).
    split; discriminate.
Qed.

Lemma sim_looks_up : forall rc t os ri w ws ifaces t' o, locked t ->
  ifaces_typed ifaces ->
  rel rc t os ri w ws -> act t (KaLooksUp ifaces) = Some (t', o) ->
  simulated (rc ++ received_by [KaLooksUp ifaces]) t' (os ++ o) ri w ws.
Proof.
  intros rc t os ri w ws ifaces t' o [L1 L2 L3 L4] Hf [R1 R2 R3 R4 R5 R6 R7 R8 R9 (ds & R10 & R11) R12] H.
  cbn [act] in H. unfold ka_looks_up in H. destruct (th_ka t) as [| |p x ip| |] eqn:Ek; try discriminate.
  destruct (th_lock t) as [[| |]|] eqn:El; try discriminate L1.
  assert (Ep : th_poisoned t = false) by (apply L4; discriminate).
  rewrite L3 in R5. cbn [waits] in R11. destruct R11 as (d & -> & Er & Ee).
  right. exists (KaDatagram d ifaces). split; [intros d' fs [E|[]]; injection E as _ <-; assumption|].
  cbn [received_by received_in flat_map app]. rewrite app_nil_r, R10.
  rewrite (step_ka w d ifaces R1 R3). unfold keepalive_turn. rewrite Er, Ee, R2, Ep, <- R5.
  destruct (handle_keepalive_status ifaces p x ip (th_state t)) as [[s es]| |] eqn:Eh; injection H as <- <-;
    cbn [fst snd]; constructor; thr; cbn [w_running w_poisoned w_listening w_broadcasting w_state w_queue pend] in *;
    traces; rewrite ?L3; try assumption; try reflexivity;
    try (exists []; split; [rewrite app_nil_r; reflexivity|reflexivity]);
    try (destruct (th_app t); [exact R12|exact R12|discriminate L3|exact R12]);
    try (rewrite R6, ?app_nil_r, <- ?app_assoc; reflexivity);
    try (rewrite R8, ?app_nil_r; reflexivity).
  symmetry. exact Ep.
Qed.

Lemma sim_queues : forall rc t os ri w ws t' o,
  rel rc t os ri w ws -> act t KaQueues = Some (t', o) ->
  simulated (rc ++ received_by [KaQueues]) t' (os ++ o) ri w ws.
Proof.
  intros rc t os ri w ws t' o [R1 R2 R3 R4 R5 R6 R7 R8 R9 (ds & R10 & R11) R12] H.
  cbn [act] in H. unfold ka_queues in H. destruct (th_ka t) as [| | |[|e es]|] eqn:Ek; try discriminate.
  injection H as <- <-. left. cbn [received_by flat_map]. rewrite app_nil_r.
  constructor; thr; cbn [pend waits] in *; try assumption.
  - rewrite R6, <- !app_assoc. reflexivity.
  - traces. exact R7.
  - traces. rewrite R8, <- app_assoc. reflexivity.
  - traces. exact R9.
  - exists ds. auto.
Qed.

Lemma sim_bc_sends : forall rc t os ri w ws ok t' o, locked t -> address_good w ->
  rel rc t os ri w ws -> act t (BcSends ok) = Some (t', o) ->
  simulated (rc ++ received_by [BcSends ok]) t' (os ++ o) ri w ws.
Proof.
  intros rc t os ri w ws ok t' o [L1 L2 L3 L4] Hn [R1 R2 R3 R4 R5 R6 R7 R8 R9 R10 R12] H.
  cbn [act] in H. unfold bc_sends in H. destruct (th_bc t) eqn:Eb; try discriminate.
  destruct (th_lock t) as [[| |]|] eqn:El; try discriminate L2.
  assert (Ep : th_poisoned t = false) by (apply L4; discriminate).
  rewrite L3 in R5. destruct (st_address (th_state t)) as [n|] eqn:Ea; [|discriminate].
  assert (Kn : net_ok n) by (apply Hn; rewrite <- R5; exact Ea).
  assert (Pa : part (th_app t) = []) by (destruct (th_app t); [reflexivity|reflexivity|discriminate L3|reflexivity]).
  assert (R12' : match th_app t with
                 | AppSends m j => st_address (w_state w) = Some m /\ (j <= 40)%nat
                 | AppGone => False | _ => True end) by exact R12.
  right. exists (BroadcastTurn ok). split; [apply typed_other; discriminate|].
  cbn [received_by received_in flat_map app]. rewrite !app_nil_r.
  assert (Es : step w (BroadcastTurn ok) = broadcast_turn w ok) by (unfold step; rewrite R1, R4; reflexivity).
  rewrite Es. unfold broadcast_turn. rewrite R2, Ep, <- R5, Ea.
  destruct ok.
  - rewrite (send_ok n _ _ Kn (status_encoded _ _ 1 0)) in *. injection H as <- <-. cbn [fst snd].
    constructor; thr; traces; rewrite ?L3, ?R7, ?Pa, ?app_nil_r; try assumption. reflexivity.
  - injection H as <- <-. cbn [fst snd].
    constructor; thr; cbn [w_running w_poisoned w_listening w_broadcasting w_state w_queue]; traces;
      rewrite ?L3, ?R7, ?Pa, ?app_nil_r; try assumption; try reflexivity.
    rewrite R5. exact R12.
Qed.

Lemma sim_takes : forall rc t os ri w ws t' o,
  rel rc t os ri w ws -> act t AppTakes = Some (t', o) ->
  simulated (rc ++ received_by [AppTakes]) t' (os ++ o) ri w ws.
Proof.
  intros rc t os ri w ws t' o [R1 R2 R3 R4 R5 R6 R7 R8 R9 R10 R12] H.
  cbn [act] in H. unfold app_takes in H. destruct (th_app t) eqn:Ea; try discriminate.
  destruct (th_queue t) as [|[|] q] eqn:Eq; [discriminate| |]; injection H as <- <-;
    cbn [received_by flat_map]; rewrite app_nil_r; cbn [took part app app_has] in *; rewrite app_nil_r in R7, R9.
  - left. constructor; thr; cbn [took part app_has app] in *; traces; try assumption; try exact I.
    rewrite R9. reflexivity.
  - right. exists (AppTurn (fun _ => true)). split; [apply typed_other; discriminate|].
    assert (Es : step w (AppTurn (fun _ => true)) = (with_queue w (q ++ pend (th_ka t)), [Took DeviceChange])).
    { unfold step. rewrite R1. unfold app_turn. rewrite R6. unfold with_queue. rewrite R1. reflexivity. }
    rewrite Es. cbn [fst snd received_in flat_map]. rewrite app_nil_r.
    constructor; thr; rewrite ?Ea; cbn [took part app_has app] in *; traces; try assumption; try exact I.
    + reflexivity.
    + rewrite R9. reflexivity.
Qed.

Lemma sim_app_acquires : forall rc t os ri w ws t' o,
  rel rc t os ri w ws -> act t AppAcquires = Some (t', o) -> th_app t' <> AppGone ->
  simulated (rc ++ received_by [AppAcquires]) t' (os ++ o) ri w ws.
Proof.
  intros rc t os ri w ws t' o [R1 R2 R3 R4 R5 R6 R7 R8 R9 R10 R12] H G.
  cbn [act] in H. unfold app_acquires in H. destruct (th_app t) eqn:Ea; try discriminate.
  destruct (th_lock t) eqn:El; [discriminate|]. destruct (th_poisoned t) eqn:Ep.
  - injection H as <- <-. thr. congruence.
  - cbn [app_has took part set_linking st_address] in *. destruct (st_address (th_state t)) as [n|] eqn:En; injection H as <- <-; thr; [|congruence].
    left. cbn [received_by flat_map]. rewrite !app_nil_r.
    constructor; thr; cbn [app_has took part firstn map] in *; rewrite ?Ep; try assumption.
    + rewrite <- R5. reflexivity.
    + rewrite <- R5. split; [assumption|lia].
Qed.

Lemma sim_sends_next : forall rc t os ri w ws ok t' o, address_good w ->
  rel rc t os ri w ws -> act t (AppSendsNext ok) = Some (t', o) -> th_app t' <> AppGone ->
  simulated (rc ++ received_by [AppSendsNext ok]) t' (os ++ o) ri w ws.
Proof.
  intros rc t os ri w ws ok t' o Hn [R1 R2 R3 R4 R5 R6 R7 R8 R9 R10 R12] H G.
  cbn [act] in H. unfold app_sends_next in H. destruct (th_app t) as [| |n k|] eqn:Ea; try discriminate.
  destruct (nth_error (negotiation n) k) as [p|] eqn:Ep; [|discriminate].
  destruct R12 as [Ra Rk]. destruct (next_sent n k p (Hn n Ra) Ep) as (Hk & b & Es & Ef).
  destruct ok; [|injection H as <- <-; thr; congruence].
  rewrite Es in H. injection H as <- <-. left. cbn [received_by flat_map]. rewrite app_nil_r.
  constructor; thr; cbn [app_has took part] in *; try assumption.
  - rewrite datagrams_app, R7, Ef, map_app, app_assoc. reflexivity.
  - traces. exact R8.
  - traces. exact R9.
  - split; [assumption|lia].
Qed.

Lemma sim_app_releases : forall rc t os ri w ws t' o, locked t -> address_good w ->
  rel rc t os ri w ws -> act t AppReleases = Some (t', o) ->
  simulated (rc ++ received_by [AppReleases]) t' (os ++ o) ri w ws.
Proof.
  intros rc t os ri w ws t' o [L1 L2 L3 L4] Hn [R1 R2 R3 R4 R5 R6 R7 R8 R9 R10 R12] H.
  cbn [act] in H. unfold app_releases in H. destruct (th_app t) as [| |n k|] eqn:Ea; try discriminate.
  destruct (nth_error (negotiation n) k) as [p|] eqn:Ep; [discriminate|]. injection H as <- <-.
  destruct R12 as [Ra Rk]. apply nth_error_None in Ep. rewrite handshake_length in Ep. assert (k = 40%nat) as -> by lia.
  destruct (th_lock t) as [[| |]|] eqn:El; try discriminate L3.
  assert (Pz : th_poisoned t = false) by (apply L4; discriminate).
  assert (Pk : pend (th_ka t) = []) by (destruct (th_ka t); [reflexivity..|discriminate L1|reflexivity]).
  right. exists (AppTurn (fun _ => true)). split; [apply typed_other; discriminate|].
  cbn [app_has took part app] in *.
  destruct (app_cases w (fun _ => true) R1 Hn) as
    [[Eq E]|[(q & Eq & E)|(q & Eq & [(Ew & E)|[(_ & Ew & E)|[(m & _ & Em & _ & E)|(m & j & _ & _ & _ & F & _ & E)]]])]];
    try congruence.
  rewrite E. cbn [fst snd received_by received_in flat_map]. rewrite !app_nil_r.
  rewrite Ra in Em. injection Em as <-. rewrite R6 in Eq. injection Eq as <-.
  constructor; thr; cbn [w_running w_poisoned w_listening w_broadcasting w_state w_queue app_has took part app];
    traces; try assumption; try reflexivity.
  - congruence.
Qed.

Lemma rel_step : forall rc t os ri w ws a t' o, locked t -> address_good w -> act_typed a ->
  rel rc t os ri w ws -> act t a = Some (t', o) -> th_app t' <> AppGone ->
  simulated (rc ++ received_by [a]) t' (os ++ o) ri w ws.
Proof.
  intros rc t os ri w ws a t' o L Hn Ha R H G. destruct a as [d| | |fs| | | |ok| | | |ok|].
  - exact (sim_receives _ _ _ _ _ _ _ _ _ R H).
  - cbn [act] in H. unfold ka_fails in H. destruct (th_ka t) eqn:Ek; try discriminate. injection H as <- <-.
    left. apply (keeps rc t); auto; tauto.
  - exact (sim_acquires _ _ _ _ _ _ _ _ R H).
  - exact (sim_looks_up _ _ _ _ _ _ _ _ _ L (Ha fs eq_refl) R H).
  - exact (sim_queues _ _ _ _ _ _ _ _ R H).
  - cbn [act] in H. unfold ka_releases in H. destruct (th_ka t) as [| | |[|e es]|] eqn:Ek; try discriminate.
    injection H as <- <-. left. apply (keeps rc t); thr; rewrite ?Ek; auto; try tauto. split; discriminate.
  - cbn [act] in H. unfold bc_acquires in H. destruct (th_bc t) eqn:Eb; try discriminate.
    destruct (th_lock t); [discriminate|]. destruct (th_poisoned t); injection H as <- <-; left; apply (keeps rc t);
      thr; rewrite ?Eb; auto; try tauto. split; discriminate.
  - exact (sim_bc_sends _ _ _ _ _ _ _ _ _ L Hn R H).
  - cbn [act] in H. unfold bc_releases in H. left.
    destruct (th_bc t) eqn:Eb; try discriminate; [destruct (st_address (th_state t)); try discriminate|];
      injection H as <- <-; apply (keeps rc t); thr; rewrite ?Eb; auto; try tauto; split; discriminate.
  - exact (sim_takes _ _ _ _ _ _ _ _ R H).
  - exact (sim_app_acquires _ _ _ _ _ _ _ _ R H G).
  - exact (sim_sends_next _ _ _ _ _ _ _ _ _ Hn R H G).
  - exact (sim_app_releases _ _ _ _ _ _ _ _ L Hn R H).
Qed.

(** ** Whole schedules *)

Lemma gone_stays : forall t a t' o, act t a = Some (t', o) -> th_app t = AppGone -> th_app t' = AppGone.
Proof.
  intros [s p l q k b ap] a t' o H E. thr. subst ap.
  destruct a; cbn [act] in H;
    unfold ka_receives, ka_fails, ka_acquires, ka_looks_up, ka_queues, ka_releases, bc_acquires, bc_sends,
      bc_releases, app_takes, app_acquires, app_sends_next, app_releases in H;
    thr; act_cases H; reflexivity.
Qed.

Lemma acts_typed_snoc : forall acts a, acts_typed (acts ++ [a]) -> acts_typed acts /\ act_typed a.
Proof.
  intros acts a H. split.
  - intros fs Hin. apply H. apply in_or_app. auto.
  - intros fs ->. apply H. apply in_or_app. right. left. reflexivity.
Qed.

Lemma received_by_app : forall a b, received_by (a ++ b) = received_by a ++ received_by b.
Proof. intros. apply flat_map_app. Qed.
Lemma received_in_app : forall a b, received_in (a ++ b) = received_in a ++ received_in b.
Proof. intros. apply flat_map_app. Qed.

Lemma schedule_rel : forall acts t os, acts_typed acts -> schedule acts = Some (t, os) -> th_app t <> AppGone ->
  exists is, inputs_typed is /\
    rel (received_by acts) t os (received_in is) (fst (run is)) (snd (run is)).
Proof.
  intros acts. induction acts as [|a acts IH] using rev_ind; intros t os Ht H G.
  - injection H as <- <-. exists []. split; [intros d fs []|].
    constructor; try reflexivity; try exact I. exists []. split; reflexivity.
  - apply acts_typed_snoc in Ht. destruct Ht as [Ht Ha].
    apply schedule_snoc in H. destruct H as (t1 & os1 & o & H & E & ->).
    assert (G1 : th_app t1 <> AppGone) by (intros X; apply G; exact (gone_stays t1 a t o E X)).
    destruct (IH t1 os1 Ht H G1) as (is & Hi & R).
    rewrite received_by_app.
    destruct (rel_step _ _ _ _ _ _ a t o (schedule_locked acts t1 os1 H) (address_net_ok is Hi) Ha R E G) as [R'|(i & Hti & R')].
    + exists is. auto.
    + exists (is ++ [i]). split; [apply inputs_typed_app; auto|].
      rewrite received_in_app. destruct (run_snoc is i) as [-> ->]. exact R'.
Qed.
