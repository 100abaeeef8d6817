(** What is sent in a schedule, and the use of the mutex. *)

From Verif Require Import Base Unicode MPackets MKeepalive MNetwork MServer MThreads SNetwork SServer SThreads
  LServer LServer2 LThreads LThreads2.
From Coq Require Import Lia Arith.
Open Scope list_scope.
Open Scope N_scope.

Ltac each_action H :=
  cbn [act] in H;
  unfold ka_receives, ka_fails, ka_acquires, ka_looks_up, ka_queues, ka_releases, bc_acquires, bc_sends,
    bc_releases, app_takes, app_acquires, app_sends_next, app_releases in H; thr; act_cases H; thr.

(** ** Addresses *)

Record good (t : threads) : Prop := mkGood {
  g_address : forall n, st_address (th_state t) = Some n -> net_ok n;
  g_sends : forall n k, th_app t = AppSends n k -> net_ok n /\ (k <= 40)%nat
}.

Lemma handled_address : forall ifaces p x ip s s' es n, ifaces_typed ifaces ->
  handle_keepalive_status ifaces p x ip s = Ok (s', es) -> st_address s' = Some n -> net_ok n.
Proof.
  intros ifaces p x ip s s' es n Hf H E. unfold handle_keepalive_status in H.
  destruct (find_chosen ifaces ip Hf) as [(o & C & Ef & _)|(_ & Ef & _)]; rewrite Ef in H; [|discriminate].
  cbn [rbind] in H. injection H as <- _. cbn in E. subst o. exact (proj1 (chosen_ok ifaces ip n Hf C)).
Qed.

Lemma good_step : forall t a t' o, good t -> act_typed a -> act t a = Some (t', o) -> good t'.
Proof.
  intros [s p l q k b ap] a t' o [G1 G2] Ha H. thr.
  destruct a; each_action H; subst; constructor; thr; intros; subst; try discriminate; try (apply G1; congruence); try (eapply G2; reflexivity).
  all: try match goal with E : AppSends _ _ = AppSends _ _ |- _ => injection E as <- <- end; eauto.
  - eapply handled_address; [apply (Ha ifaces eq_refl)|eassumption|eassumption].
  - split; [|lia]. apply G1. cbn in *. assumption.
  - destruct (G2 _ _ eq_refl) as [X _]. split; [exact X|].
    match goal with E : nth_error _ _ = Some _ |- _ => destruct (next_sent _ _ _ X E) as [Y _] end. lia.
Qed.

Lemma schedule_good : forall acts t os, acts_typed acts -> schedule acts = Some (t, os) -> good t.
Proof.
  intros acts. induction acts as [|a acts IH] using rev_ind; intros t os Ht H.
  - injection H as <- <-. constructor; intros; discriminate.
  - apply acts_typed_snoc in Ht. destruct Ht as [Ht Ha].
    apply schedule_snoc in H. destruct H as (t1 & os1 & o & H & E & _).
    exact (good_step t1 a t o (IH t1 os1 Ht H) Ha E).
Qed.

(** ** Traffic *)

Lemma links_app : forall a b, links (a ++ b) = (links a + links b)%nat.
Proof. intros. unfold links. rewrite filter_app, app_length. reflexivity. Qed.

Definition shape (t : threads) (os : list output) : Prop :=
  exists whole h, traffic whole h /\
  match th_app t with
  | AppIdle => datagrams os = whole /\ links (taken [os]) = h
  | AppWaits => datagrams os = whole /\ links (taken [os]) = S h
  | AppSends n k => datagrams os = whole ++ map (broadcast_on n) (firstn k (handshake_bytes n)) /\
                    links (taken [os]) = S h
  | AppGone => links (taken [os]) = S h /\
      (datagrams os = whole \/
       (th_poisoned t = true /\ exists n k, (k < 40)%nat /\
          datagrams os = whole ++ map (broadcast_on n) (firstn k (handshake_bytes n))))
  end.

(** Actions that send nothing, take no link request and leave the main thread. *)
Lemma shape_quiet : forall t t' os o, shape t os -> th_app t' = th_app t ->
  (th_poisoned t = true -> th_poisoned t' = true) ->
  datagrams o = [] -> links (taken [o]) = 0%nat -> shape t' (os ++ o).
Proof.
  intros t t' os o (whole & h & T & S) E1 E2 E3 E4. exists whole, h. split; [exact T|].
  rewrite E1, datagrams_app, E3, taken_cat, links_app, E4, app_nil_r, Nat.add_0_r.
  destruct (th_app t); try exact S. destruct S as [S1 [S2|(S2 & S3)]]; auto.
Qed.

Lemma shape_step : forall t os a t' o, locked t -> good t -> shape t os -> act t a = Some (t', o) -> shape t' (os ++ o).
Proof.
  intros t os a t' o L G S H.
  destruct (Bool.bool_dec (match a with BcSends _ | AppTakes | AppAcquires | AppSendsNext _ | AppReleases => true | _ => false end) true) as [Sp|Sp].
  2: { destruct t as [s p l q k b ap].
       destruct a; try (exfalso; apply Sp; reflexivity); clear Sp L G; each_action H;
         (eapply shape_quiet; [exact S|thr; congruence|thr; auto|reflexivity|reflexivity]). }
  destruct a as [d| | |fs| | | |ok| | | |ok|]; try discriminate; clear Sp; cbn [act] in H.
  - unfold bc_sends in H. destruct (th_bc t) eqn:Eb; try discriminate.
    destruct (st_address (th_state t)) as [n|] eqn:Ea; [|discriminate].
    destruct L as [L1 L2 L3 L4]. rewrite Eb in L2. destruct (th_lock t) as [[| |]|] eqn:El; try discriminate L2.
    assert (Ep : th_poisoned t = false) by (apply L4; discriminate).
    destruct ok.
    + rewrite (send_ok n _ _ (g_address t G n Ea) (status_encoded _ _ 1 0)) in H. injection H as <- <-.
      destruct S as (whole & h & T & S).
      exists (whole ++ [broadcast_on n (status_bytes (pn_ip n) (pn_mac n) 1)]), h.
      split; [apply traffic_announcement; exact T|]. traces. thr.
      destruct (th_app t) eqn:Et; try discriminate L3.
      * destruct S as [-> <-]. auto.
      * destruct S as [-> <-]. auto.
      * destruct S as [S [->|(S2 & _)]]; [|congruence]. auto.
    + injection H as <- <-. eapply shape_quiet; [exact S|reflexivity|auto|reflexivity|reflexivity].
  - unfold app_takes in H. destruct (th_app t) eqn:Ea; try discriminate.
    destruct S as (whole & h & T & S). rewrite Ea in S. destruct S as [S1 S2].
    destruct (th_queue t) as [|[|] q]; [discriminate| |]; injection H as <- <-; exists whole, h; (split; [exact T|]);
      thr; rewrite ?Ea; traces; rewrite links_app, S2; (split; [exact S1|]); unfold links; cbn; lia.
  - unfold app_acquires in H. destruct (th_app t) eqn:Ea; try discriminate.
    destruct S as (whole & h & T & S). rewrite Ea in S. destruct S as [S1 S2].
    act_cases H; exists whole, h; (split; [exact T|]); thr; rewrite !app_nil_r; auto.
  - unfold app_sends_next in H. destruct (th_app t) as [| |n k|] eqn:Ea; try discriminate.
    destruct (nth_error (negotiation n) k) as [p|] eqn:Ep; [|discriminate].
    destruct (g_sends t G n k Ea) as [Gn _]. destruct (next_sent n k p Gn Ep) as (Hk & b & Es & Ef).
    destruct S as (whole & h & T & S). rewrite Ea in S. destruct S as [S1 S2].
    destruct ok.
    + rewrite Es in H. injection H as <- <-. exists whole, h. split; [exact T|]. thr. traces.
      split; [|exact S2]. rewrite S1, Ef, map_app, app_assoc. reflexivity.
    + injection H as <- <-. exists whole, h. split; [exact T|]. thr. rewrite app_nil_r.
      split; [exact S2|]. right. split; [reflexivity|]. exists n, k. auto.
  - unfold app_releases in H. destruct (th_app t) as [| |n k|] eqn:Ea; try discriminate.
    destruct (nth_error (negotiation n) k) as [p|] eqn:Ep; [discriminate|]. injection H as <- <-.
    apply nth_error_None in Ep. rewrite handshake_length in Ep.
    destruct S as (whole & h & T & S). rewrite Ea in S. destruct S as [S1 S2].
    exists (whole ++ map (broadcast_on n) (handshake_bytes n)), (S h).
    split; [apply traffic_handshake; exact T|]. thr. rewrite app_nil_r.
    rewrite firstn_all2 in S1 by (rewrite handshake_bytes_length; exact Ep). auto.
Qed.

Lemma schedule_shape : forall acts t os, acts_typed acts -> schedule acts = Some (t, os) -> shape t os.
Proof.
  intros acts. induction acts as [|a acts IH] using rev_ind; intros t os Ht H.
  - injection H as <- <-. exists [], 0%nat. split; [constructor|]. split; reflexivity.
  - apply acts_typed_snoc in Ht. destruct Ht as [Ht Ha].
    apply schedule_snoc in H. destruct H as (t1 & os1 & o & H & E & ->).
    exact (shape_step t1 os1 a t o (schedule_locked _ _ _ H) (schedule_good _ _ _ Ht H) (IH t1 os1 Ht H) E).
Qed.

(** After a panic of the main thread within the handshake nothing is sent. *)
Lemma silent_step : forall t a t' o, locked t -> th_app t = AppGone -> th_poisoned t = true ->
  act t a = Some (t', o) -> th_app t' = AppGone /\ th_poisoned t' = true /\ datagrams o = [].
Proof.
  intros [s p l q k b ap] a t' o [L1 L2 L3 L4] E1 E2 H. thr. subst ap p.
  assert (l = None) as -> by (destruct l; [|reflexivity]; exfalso; discriminate (L4 ltac:(discriminate))).
  destruct a; each_action H; subst; try discriminate; auto.
Qed.

Lemma silent_from : forall acts t t' os, locked t -> th_app t = AppGone -> th_poisoned t = true ->
  schedule_from t acts = Some (t', os) -> datagrams os = [].
Proof.
  induction acts as [|a acts IH]; intros t t' os L E1 E2 H; cbn [schedule_from] in H.
  - injection H as <- <-. reflexivity.
  - destruct (act t a) as [[t1 o]|] eqn:Ea; [|discriminate].
    destruct (schedule_from t1 acts) as [[t2 os2]|] eqn:Es; [|discriminate]. injection H as <- <-.
    destruct (silent_step t a t1 o L E1 E2 Ea) as (F1 & F2 & F3).
    rewrite datagrams_app, F3. exact (IH t1 t2 os2 (locked_step t a t1 o L Ea) F1 F2 Es).
Qed.

(** ** The mutex *)

Lemma inside_locked : forall t w, locked t -> (inside t w <-> th_lock t = Some w).
Proof.
  intros [s p l q k b ap] w [L1 L2 L3 L4]. destruct w; cbn [inside] in *; thr; split.
  - intros [(x & y & z & ->)|(es & ->)]; destruct l as [[| |]|]; try discriminate L1; reflexivity.
  - intros ->. destruct k; try discriminate L1; eauto 6.
  - intros [->| ->]; destruct l as [[| |]|]; try discriminate L2; reflexivity.
  - intros ->. destruct b; try discriminate L2; auto.
  - intros (n & j & ->). destruct l as [[| |]|]; try discriminate L3; reflexivity.
  - intros ->. destruct ap; try discriminate L3; eauto.
Qed.

Lemma handled_events : forall ifaces p x ip s s' es,
  handle_keepalive_status ifaces p x ip s = Ok (s', es) -> (List.length es <= 2)%nat.
Proof.
  intros ifaces p x ip s s' es H. unfold handle_keepalive_status in H.
  destruct (find_interface ifaces ip) as [o| |]; try discriminate. cbn [rbind] in H. injection H as _ <-.
  destruct (_ =? _), (is_linking_possible _); cbn; lia.
Qed.

(** Actions the holder has left, at most. *)
Definition left (t : threads) : nat :=
  match th_lock t with
  | Some KaThread => match th_ka t with KaLocked _ _ _ => 4 | KaPosts es => S (List.length es) | _ => 0 end
  | Some BcThread => match th_bc t with BcLocked => 2 | BcSent => 1 | _ => 0 end
  | Some AppThread => match th_app t with AppSends _ k => 41 - k | _ => 0 end
  | None => 0
  end.

Lemma held_step : forall t a t' o w, locked t -> good t -> th_lock t = Some w -> act t a = Some (t', o) ->
  (thread_of a = w /\ (th_lock t' = None \/ (th_lock t' = Some w /\ (S (left t') <= left t)%nat))) \/
  (thread_of a <> w /\ th_lock t' = Some w /\ left t' = left t).
Proof.
  intros [s p l q k b ap] a t' o w [L1 L2 L3 L4] [G1 G2] E H. thr. subst l. unfold left.
  destruct w; destruct a; each_action H; subst; try discriminate; cbn [thread_of];
    first [right; split; [discriminate|split; reflexivity]|left; split; [reflexivity|]];
    try (left; reflexivity); right; (split; [reflexivity|]).
  - match goal with E : handle_keepalive_status _ _ _ _ _ = _ |- _ => apply handled_events in E end. lia.
  - cbn [List.length]. lia.
  - lia.
  - destruct (G2 _ _ eq_refl) as [X _].
    match goal with E : nth_error _ _ = Some _ |- _ => destruct (next_sent _ _ _ X E) as [Y _] end. lia.
Qed.

Lemma left_bound : forall t, good t -> (forall es, th_ka t = KaPosts es -> (List.length es <= 2)%nat) -> (left t <= 41)%nat.
Proof.
  intros t [G1 G2] Hp. unfold left. destruct (th_lock t) as [[| |]|]; [| | |lia].
  - destruct (th_ka t); try lia. specialize (Hp es eq_refl). lia.
  - destruct (th_bc t); lia.
  - destruct (th_app t); lia.
Qed.

Lemma posts_step : forall t a t' o, act t a = Some (t', o) ->
  (forall es, th_ka t = KaPosts es -> (List.length es <= 2)%nat) ->
  (forall es, th_ka t' = KaPosts es -> (List.length es <= 2)%nat).
Proof.
  intros [s p l q k b ap] a t' o H Hp es E. thr.
  destruct a; each_action H; subst; try discriminate; try (apply Hp; congruence).
  - injection E as <-. match goal with E : handle_keepalive_status _ _ _ _ _ = _ |- _ => exact (handled_events _ _ _ _ _ _ _ E) end.
  - injection E as <-. specialize (Hp _ eq_refl). cbn in Hp. lia.
Qed.

Lemma schedule_posts : forall acts t os, schedule acts = Some (t, os) ->
  forall es, th_ka t = KaPosts es -> (List.length es <= 2)%nat.
Proof.
  intros acts. induction acts as [|a acts IH] using rev_ind; intros t os H.
  - injection H as <- <-. discriminate.
  - apply schedule_snoc in H. destruct H as (t1 & os1 & o & H & E & _).
    exact (posts_step t1 a t o E (IH t1 os1 H)).
Qed.

(** After as many actions of the holder it has released the mutex. *)
Lemma released : forall acts t t' os w, locked t -> good t -> acts_typed acts -> th_lock t = Some w ->
  schedule_from t acts = Some (t', os) -> (left t <= actions_of w acts)%nat ->
  exists acts1 acts2 t1 os1, acts = acts1 ++ acts2 /\ schedule_from t acts1 = Some (t1, os1) /\ th_lock t1 = None.
Proof.
  induction acts as [|a acts IH]; intros t t' os w L G T E H Hl.
  - exfalso. cbn in Hl. revert Hl. destruct L as [L1 L2 L3 L4]. destruct G as [G1 G2]. unfold left. rewrite E in *.
    destruct w; [destruct (th_ka t); try discriminate L1; lia|destruct (th_bc t); try discriminate L2; lia|].
    destruct (th_app t) eqn:Ea; try discriminate L3. destruct (G2 _ _ eq_refl). lia.
  - cbn [schedule_from] in H. destruct (act t a) as [[t1 o]|] eqn:Ea; [|discriminate].
    destruct (schedule_from t1 acts) as [[t2 os2]|] eqn:Es; [|discriminate].
    assert (Ta : act_typed a) by (intros fs ->; apply T; left; reflexivity).
    assert (T' : acts_typed acts) by (intros fs Hin; apply T; right; exact Hin).
    assert (Next : th_lock t1 = Some w -> (left t1 <= actions_of w acts)%nat ->
      exists acts1 acts2 t3 os3, a :: acts = acts1 ++ acts2 /\ schedule_from t acts1 = Some (t3, os3) /\ th_lock t3 = None).
    { intros E1 Hl1.
      destruct (IH t1 t2 os2 w (locked_step _ _ _ _ L Ea) (good_step _ _ _ _ G Ta Ea) T' E1 Es Hl1) as
        (acts1 & acts2 & t3 & os3 & -> & S3 & N3).
      exists (a :: acts1), acts2, t3, (o ++ os3). split; [reflexivity|]. split; [|exact N3].
      cbn [schedule_from]. rewrite Ea, S3. reflexivity. }
    destruct (held_step t a t1 o w L G E Ea) as [[Ew [N|[E1 Hl1]]]|(Nw & E1 & El)].
    + exists [a], acts, t1, o. split; [reflexivity|]. split; [exact (schedule_one _ _ _ _ Ea)|exact N].
    + apply Next; [exact E1|]. unfold actions_of in Hl. cbn [filter] in Hl. rewrite Ew in Hl.
      destruct w; cbn [List.length] in Hl; unfold actions_of; lia.
    + apply Next; [exact E1|]. rewrite El. unfold actions_of in Hl. cbn [filter] in Hl.
      destruct (thread_of a), w; try (exfalso; apply Nw; reflexivity); exact Hl.
Qed.

(** The holder can always act. *)
Lemma holder_acts : forall t w, locked t -> good t -> th_lock t = Some w -> can_act t w.
Proof.
  intros [s p l q k b ap] w [L1 L2 L3 L4] [G1 G2] E. thr. subst l. destruct w.
  - destruct k as [| |pk x ip|[|e es]|]; try discriminate L1.
    + exists (KaLooksUp []). split; [reflexivity|]. cbn [act]. unfold ka_looks_up. thr.
      destruct (handle_keepalive_status [] pk x ip s) as [[s' es]| |]; discriminate.
    + exists KaReleases. split; [reflexivity|discriminate].
    + exists KaQueues. split; [reflexivity|discriminate].
  - destruct b; try discriminate L2.
    + destruct (st_address s) as [n|] eqn:Ea.
      * exists (BcSends true). split; [reflexivity|]. cbn [act]. unfold bc_sends. thr. rewrite Ea.
        destruct (send_broadcast_payload _ _ _); discriminate.
      * exists BcReleases. split; [reflexivity|]. cbn [act]. unfold bc_releases. thr. rewrite Ea. discriminate.
    + exists BcReleases. split; [reflexivity|]. cbn [act]. unfold bc_releases. thr. discriminate.
  - destruct ap as [| |n j|]; try discriminate L3.
    destruct (nth_error (negotiation n) j) as [x|] eqn:En.
    + exists (AppSendsNext true). split; [reflexivity|]. cbn [act]. unfold app_sends_next. thr. rewrite En.
      destruct (send_broadcast_payload _ _ _); discriminate.
    + exists AppReleases. split; [reflexivity|]. cbn [act]. unfold app_releases. thr. rewrite En. discriminate.
Qed.

Lemma free_acts : forall t w, locked t -> th_lock t = None -> has_work t w -> can_act t w.
Proof.
  intros [s p l q k b ap] w [L1 L2 L3 L4] E W. thr. subst l. destruct w; cbn [has_work] in W; thr.
  - destruct k; try discriminate L1; try (exfalso; tauto).
    exists KaAcquires. split; [reflexivity|]. cbn [act]. unfold ka_acquires. thr. destruct p; discriminate.
  - destruct b; try discriminate L2; [|congruence].
    exists BcAcquires. split; [reflexivity|]. cbn [act]. unfold bc_acquires. thr. destruct p; discriminate.
  - destruct ap; try discriminate L3; [| |exfalso; tauto].
    + exists AppTakes. split; [reflexivity|]. cbn [act]. unfold app_takes. thr. destruct q as [|[|] q]; [tauto| |]; discriminate.
    + exists AppAcquires. split; [reflexivity|]. cbn [act]. unfold app_acquires. thr. destruct p; [discriminate|].
      destruct (st_address _); discriminate.
Qed.
