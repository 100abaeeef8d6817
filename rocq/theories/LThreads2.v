(** The end of the process, histories as schedules, what is sent, and the mutex. *)

From Verif Require Import Base Unicode MPackets MKeepalive MNetwork MServer MThreads SNetwork SServer SThreads
  LServer LServer2 LThreads.
From Coq Require Import Lia Arith.
Open Scope list_scope.
Open Scope N_scope.

Lemma schedule_from_app : forall a b t t1 os1 t2 os2,
  schedule_from t a = Some (t1, os1) -> schedule_from t1 b = Some (t2, os2) ->
  schedule_from t (a ++ b) = Some (t2, os1 ++ os2).
Proof.
  induction a as [|x a IH]; intros b t t1 os1 t2 os2 H1 H2.
  - injection H1 as <- <-. exact H2.
  - cbn [app schedule_from] in *. destruct (act t x) as [[t' o]|]; [|discriminate].
    destruct (schedule_from t' a) as [[t3 os3]|] eqn:E; [|discriminate]. injection H1 as <- <-.
    rewrite (IH b t' t3 os3 t2 os2 E H2), app_assoc. reflexivity.
Qed.

Lemma schedule_one : forall t a t' o, act t a = Some (t', o) -> schedule_from t [a] = Some (t', o).
Proof. intros t a t' o H. cbn [schedule_from]. rewrite H, app_nil_r. reflexivity. Qed.

(** ** The last action of the main thread *)

Lemma gone_cases : forall t a t' o, act t a = Some (t', o) -> th_app t <> AppGone -> th_app t' = AppGone ->
  (a = AppAcquires /\ th_app t = AppWaits /\ th_lock t = None /\ o = [] /\
   ((th_poisoned t = true /\ t' = app_to t AppGone) \/
    (th_poisoned t = false /\ st_address (th_state t) = None /\
     t' = app_to (state_to t (set_linking (th_state t) true)) AppGone))) \/
  (exists ok n k p, a = AppSendsNext ok /\ th_app t = AppSends n k /\ nth_error (negotiation n) k = Some p /\
     (forall x, send_broadcast_payload n ok p <> Ok x) /\ o = [] /\ t' = app_to (poison t) AppGone).
Proof.
  intros [s p l q k b ap] a t' o H G1 G2. thr.
  destruct a; cbn [act] in H;
    unfold ka_receives, ka_fails, ka_acquires, ka_looks_up, ka_queues, ka_releases, bc_acquires, bc_sends,
      bc_releases, app_takes, app_acquires, app_sends_next, app_releases in H;
    thr; try (act_cases H; thr; congruence).
  - left. act_cases H; thr; try congruence.
    + repeat (split; [reflexivity|]). left. auto.
    + repeat (split; [reflexivity|]). right. auto.
  - right. act_cases H; thr; try congruence.
    + exists socket_ok, address, k0, k1. repeat (split; [try assumption; try reflexivity|]). 2: auto. congruence.
    + exists socket_ok, address, k0, k1. repeat (split; [try assumption; try reflexivity|]). 2: auto. congruence.
Qed.

Lemma gone_step : forall rc t os ri w ws a t' o, locked t -> address_good w ->
  rel rc t os ri w ws -> act t a = Some (t', o) -> th_app t <> AppGone -> th_app t' = AppGone ->
  exists ok, agree t' (os ++ o) (fst (step w (AppTurn ok))) (ws ++ [snd (step w (AppTurn ok))]).
Proof.
  intros rc t os ri w ws a t' o [L1 L2 L3 L4] Hn [R1 R2 R3 R4 R5 R6 R7 R8 R9 R10 R12] H G1 G2.
  assert (Alive : (th_ka t <> KaDead <-> w_listening w = true) /\ (th_bc t <> BcDead <-> w_broadcasting w = true)).
  { rewrite R3, R4. split; [destruct (th_ka t)|destruct (th_bc t)]; split; intros X; congruence. }
  destruct Alive as [Al Ab].
  destruct (gone_cases t a t' o H G1 G2) as
    [(-> & Ea & El & -> & C)|(ok & n & k & p & -> & Ea & Ep & F & -> & ->)].
  - rewrite Ea in *. cbn [app_has took part app] in *. rewrite El in *.
    assert (Pk : pend (th_ka t) = []) by (destruct (th_ka t); [reflexivity..|discriminate L1|reflexivity]).
    rewrite Pk, app_nil_r in *. exists (fun _ => true).
    destruct C as [(Epo & ->)|(Epo & En & ->)];
      destruct (app_cases w (fun _ => true) R1 Hn) as
        [[Eq E]|[(q & Eq & E)|(q & Eq & [(Ew & E)|[(Ew & En' & E)|[(m & Ew & Em & _ & E)|(m & j & _ & _ & _ & F & _ & E)]]])]];
      try congruence; rewrite E; cbn [fst snd]; unfold agree; thr;
      cbn [w_state w_poisoned w_queue w_listening w_broadcasting w_running]; traces; rewrite ?app_nil_r, ?app_nil_r in R7.
    + repeat (split; [first [assumption|congruence|split; congruence]|]). congruence.
    + repeat (split; [first [assumption|congruence|split; congruence|rewrite R5; reflexivity]|]). congruence.
  - rewrite Ea in *. cbn [app_has took part app] in *. destruct R12 as [Ra Rk].
    destruct (th_lock t) as [[| |]|] eqn:El; try discriminate L3.
    assert (Epo : th_poisoned t = false) by (apply L4; discriminate).
    assert (Pk : pend (th_ka t) = []) by (destruct (th_ka t); [reflexivity..|discriminate L1|reflexivity]).
    rewrite Pk, app_nil_r in *.
    destruct (next_sent n k p (Hn n Ra) Ep) as (Hk & b & Es & Ef).
    exists (fun j => negb (Nat.eqb j k)).
    assert (Xk : (fun j => negb (Nat.eqb j k)) k = false) by (cbn; rewrite Nat.eqb_refl; reflexivity).
    assert (Xj : forall j, (j < k)%nat -> (fun j => negb (Nat.eqb j k)) j = true)
      by (intros j Hj; cbn; rewrite (proj2 (Nat.eqb_neq j k)) by lia; reflexivity).
    destruct (app_cases w (fun j => negb (Nat.eqb j k)) R1 Hn) as
      [[Eq E]|[(q & Eq & E)|(q & Eq & [(Ew & E)|[(Ew & En' & E)|[(m & Ew & Em & Y & E)|(m & j & _ & Em & Hj & Y & Z & E)]]])]];
      try congruence.
    + exfalso. specialize (Y k Hk). congruence.
    + assert (m = n) as -> by congruence. assert (j = k) as ->.
      { destruct (Nat.lt_trichotomy j k) as [X|[X|X]]; [|exact X|].
        - specialize (Xj j X). congruence.
        - specialize (Z k X). congruence. }
      rewrite E; cbn [fst snd]; unfold agree; thr;
      cbn [w_state w_poisoned w_queue w_listening w_broadcasting w_running]; traces.
      repeat (split; [first [assumption|congruence|split; congruence|rewrite R5; reflexivity]|]). congruence.
Qed.

(** ** Histories as schedules *)

Lemma queues_all : forall es t, th_ka t = KaPosts es ->
  schedule_from t (repeat KaQueues (List.length es)) =
  Some (ka_to (queue_to t (th_queue t ++ es)) (KaPosts []), map Posted es).
Proof.
  induction es as [|e es IH]; intros t E.
  - cbn [List.length repeat schedule_from map]. rewrite app_nil_r. destruct t; thr; subst; reflexivity.
  - cbn [List.length repeat schedule_from act]. unfold ka_queues. rewrite E, IH by reflexivity. thr.
    rewrite <- app_assoc. reflexivity.
Qed.

Lemma sends_all : forall k t n, net_ok n -> th_app t = AppSends n 0 -> (k <= 40)%nat ->
  schedule_from t (repeat (AppSendsNext true) k) =
  Some (app_to t (AppSends n k), map (broadcast_on n) (firstn k (handshake_bytes n))).
Proof.
  induction k as [|k IH]; intros t n Hn E Hk.
  - cbn [repeat schedule_from firstn map]. destruct t; thr; subst; reflexivity.
  - cbn [repeat]. rewrite repeat_cons. apply schedule_from_snoc.
    exists (app_to t (AppSends n k)), (map (broadcast_on n) (firstn k (handshake_bytes n))).
    destruct (nth_error (negotiation n) k) as [p|] eqn:Ep.
    2: { apply nth_error_None in Ep. rewrite handshake_length in Ep. lia. }
    destruct (next_sent n k p Hn Ep) as (_ & b & Es & Ef).
    exists [broadcast_on n b]. split; [apply IH; [assumption|assumption|lia]|]. split.
    + cbn [act]. unfold app_sends_next. thr. rewrite Ep, Es. reflexivity.
    + rewrite Ef, map_app. reflexivity.
Qed.

Lemma acts_typed_app : forall a b, acts_typed a -> acts_typed b -> acts_typed (a ++ b).
Proof. intros a b Ha Hb fs Hin. apply in_app_or in Hin. destruct Hin; auto. Qed.
Lemma acts_typed_others : forall l, (forall fs, ~ In (KaLooksUp fs) l) -> acts_typed l.
Proof. intros l H fs Hin. exfalso. exact (H fs Hin). Qed.
Lemma agree_nothing : forall t os w ws, agree t os w ws -> agree t os w (ws ++ [[]]).
Proof.
  intros t os w ws (A1 & A2 & A3 & A4 & A5 & A6 & A7 & A8 & A9). unfold agree. traces.
  exact (conj A1 (conj A2 (conj A3 (conj A4 (conj A5 (conj A6 (conj A7 (conj A8 A9)))))))).
Qed.
Lemma in_repeat : forall A (x y : A) n, In x (repeat y n) -> x = y.
Proof. intros A x y n H. exact (repeat_spec n y x H). Qed.

(** One turn as a sequence of actions. *)
Definition performs (t : threads) (os : list output) (i : input) (w : world) (ws : list (list output)) : Prop :=
  exists acts t' o, acts_typed acts /\ schedule_from t acts = Some (t', o) /\
    (w_running w = true -> between_turns t') /\
    agree t' (os ++ o) w ws /\
    (w_listening w = true -> received_by acts = received_in [i]).

Ltac typed_list := apply acts_typed_others; intros fs' Hin'; cbn in Hin'; intuition discriminate.

Lemma perform_datagram : forall t os d ifaces w ws, ifaces_typed ifaces ->
  between_turns t -> agree t os w ws -> locked t -> w_running w = true ->
  performs t os (KaDatagram d ifaces) (fst (step w (KaDatagram d ifaces)))
    (ws ++ [snd (step w (KaDatagram d ifaces))]).
Proof.
  intros t os d ifaces w ws Hf (Bk & Bb & Ba) A [L1 L2 L3 L4] Hr.
  pose proof A as (A1 & A2 & A3 & A4 & A5 & A6 & A7 & A8 & A9).
  assert (El : th_lock t = None).
  { destruct (th_lock t) as [[| |]|]; [exfalso..|reflexivity].
    - destruct Bk as [X|X]; rewrite X in L1; discriminate.
    - destruct Bb as [X|X]; rewrite X in L2; discriminate.
    - rewrite Ba in L3; discriminate. }
  destruct Bk as [Ek|Ek].
  2: { assert (Wl : w_listening w = false).
       { destruct (w_listening w); [|reflexivity]. exfalso. exact (proj2 A4 eq_refl Ek). }
       assert (Es : step w (KaDatagram d ifaces) = (w, [])) by (unfold step; rewrite Hr, Wl; reflexivity).
       rewrite Es. cbn [fst snd]. exists [], t, []. rewrite app_nil_r.
       split; [typed_list|]. split; [reflexivity|]. split; [intros _; split; auto|].
       split; [apply agree_nothing; exact A|congruence]. }
  assert (Wl : w_listening w = true) by (apply A4; congruence).
  rewrite (step_ka w d ifaces Hr Wl). unfold keepalive_turn.
  destruct (ka_receive d) as [p| |] eqn:Er; [| |exfalso; exact (ka_receive_not_panic d Er)].
  2: { cbn [fst snd]. exists [KaReceives d], t, []. rewrite app_nil_r.
       split; [typed_list|]. split; [apply schedule_one; cbn [act]; unfold ka_receives; rewrite Ek, Er; reflexivity|].
       split; [intros _; split; auto|]. split; [apply agree_nothing; exact A|reflexivity]. }
  destruct (event_status p) as [[x ip]|] eqn:Ee.
  2: { cbn [fst snd]. exists [KaReceives d], t, []. rewrite app_nil_r.
       split; [typed_list|]. split; [apply schedule_one; cbn [act]; unfold ka_receives; rewrite Ek, Er, Ee; reflexivity|].
       split; [intros _; split; auto|]. split; [apply agree_nothing; exact A|reflexivity]. }
  destruct (w_poisoned w) eqn:Ep.
  { cbn [fst snd]. exists [KaReceives d; KaAcquires], t, []. rewrite app_nil_r.
    split; [typed_list|]. split.
    - cbn [schedule_from act]. unfold ka_receives. rewrite Ek, Er, Ee. unfold ka_acquires. thr.
      rewrite El, A2. cbn [app]. destruct t; thr; subst; reflexivity.
    - split; [intros _; split; auto|]. split; [apply agree_nothing; exact A|reflexivity]. }
  rewrite <- A1.
  destruct (handle_keepalive_status ifaces p x ip (th_state t)) as [[s es]| |] eqn:Eh.
  - set (t1 := ka_to (state_to (ka_to (lock_to (ka_to t (KaWaits p x ip)) (Some KaThread)) (KaLocked p x ip)) s) (KaPosts es)).
    assert (S1 : schedule_from t [KaReceives d; KaAcquires; KaLooksUp ifaces] = Some (t1, [])).
    { cbn [schedule_from act]. unfold ka_receives. rewrite Ek, Er, Ee. unfold ka_acquires. thr.
      rewrite El, A2. unfold ka_looks_up. thr. rewrite Eh. reflexivity. }
    pose proof (queues_all es t1 eq_refl) as S2.
    pose proof (schedule_from_app _ _ _ _ _ _ _ S1 S2) as S3. cbn [app] in S3.
    match type of S3 with schedule_from _ _ = Some (?t2, _) =>
      assert (S5 : act t2 KaReleases = Some (ka_to (lock_to t2 None) KaIdle, [])) by reflexivity end.
    assert (S4 := schedule_from_app _ [KaReleases] _ _ _ _ _ S3 (schedule_one _ _ _ _ S5)).
    unfold t1 in S4. thr. rewrite app_nil_r in S4.
    eexists _, _, _. split; [|split; [exact S4|split; [|split]]].
    + apply acts_typed_app.
      * intros fs' Hin. cbn in Hin. destruct Hin as [X|[X|[X|Hin]]]; try discriminate; [injection X as <-; exact Hf|].
        apply in_repeat in Hin. discriminate.
      * typed_list.
    + intros _. split; [left; reflexivity|]. split; [exact Bb|exact Ba].
    + unfold agree. thr. cbn [fst snd w_state w_poisoned w_queue w_listening w_broadcasting w_running]. traces.
      rewrite A2, A3, A7, A8, A9, Wl, Hr.
      repeat (split; [first [reflexivity|exact A5|split; congruence]|]). reflexivity.
    + intros _. rewrite !received_by_app. cbn [received_by flat_map app].
      assert (X : received_by (repeat KaQueues (List.length es)) = []).
      { generalize (List.length es). induction n; [reflexivity|exact IHn]. }
      fold (received_by (repeat KaQueues (List.length es))). rewrite X. reflexivity.
  - exfalso. unfold handle_keepalive_status in Eh.
    destruct (find_chosen ifaces ip Hf) as [(o & _ & E & _)|(_ & E & _)]; rewrite E in Eh; discriminate.
  - assert (S1 : schedule_from t [KaReceives d; KaAcquires; KaLooksUp ifaces] =
      Some (ka_to (poison (ka_to (lock_to (ka_to t (KaWaits p x ip)) (Some KaThread)) (KaLocked p x ip))) KaDead, [])).
    { cbn [schedule_from act]. unfold ka_receives. rewrite Ek, Er, Ee. unfold ka_acquires. thr.
      rewrite El, A2. unfold ka_looks_up. thr. rewrite Eh. reflexivity. }
    eexists _, _, _. split; [|split; [exact S1|split; [|split]]].
    + intros fs' Hin. cbn in Hin. destruct Hin as [X|[X|[X|[]]]]; try discriminate. injection X as <-. exact Hf.
    + intros _. split; [right; reflexivity|]. split; [exact Bb|exact Ba].
    + unfold agree. thr. cbn [fst snd w_state w_poisoned w_queue w_listening w_broadcasting w_running]. traces.
      rewrite A3, A7, A8, A9, Hr.
      repeat (split; [first [reflexivity|exact A5|split; congruence]|]). reflexivity.
    + cbn. discriminate.
Qed.

Lemma perform_broadcast : forall t os ok w ws, address_good w ->
  between_turns t -> agree t os w ws -> locked t -> w_running w = true ->
  performs t os (BroadcastTurn ok) (fst (step w (BroadcastTurn ok))) (ws ++ [snd (step w (BroadcastTurn ok))]).
Proof.
  intros t os ok w ws Hn (Bk & Bb & Ba) A [L1 L2 L3 L4] Hr.
  pose proof A as (A1 & A2 & A3 & A4 & A5 & A6 & A7 & A8 & A9).
  assert (El : th_lock t = None).
  { destruct (th_lock t) as [[| |]|]; [exfalso..|reflexivity].
    - destruct Bk as [X|X]; rewrite X in L1; discriminate.
    - destruct Bb as [X|X]; rewrite X in L2; discriminate.
    - rewrite Ba in L3; discriminate. }
  destruct (turn_cases w ok Hn) as [[_ E]|(n & _ & Wb & Wp & En & [[-> E]|[-> E]])]; rewrite E; cbn [fst snd].
  - exists [], t, []. rewrite app_nil_r. split; [typed_list|]. split; [reflexivity|].
    split; [intros _; split; auto|]. split; [apply agree_nothing; exact A|reflexivity].
  - assert (Eb : th_bc t = BcIdle) by (destruct Bb as [X|X]; [exact X|exfalso; exact (proj2 A5 Wb X)]).
    exists [BcAcquires; BcSends true; BcReleases], (bc_to (lock_to t None) BcIdle),
      [broadcast_on n (status_bytes (pn_ip n) (pn_mac n) 1)].
    split; [typed_list|]. split; [|split; [|split]].
    + cbn [schedule_from act]. unfold bc_acquires. rewrite Eb, El, A2, Wp. unfold bc_sends. thr.
      rewrite A1, En, (send_ok n _ _ (Hn n En) (status_encoded _ _ 1 0)). unfold bc_releases. thr.
      reflexivity.
    + intros _. split; [exact Bk|]. split; [left; reflexivity|exact Ba].
    + unfold agree. thr. traces. rewrite A7, A8, A9.
      repeat (split; [first [reflexivity|assumption|split; congruence]|]). reflexivity.
    + reflexivity.
  - assert (Eb : th_bc t = BcIdle) by (destruct Bb as [X|X]; [exact X|exfalso; exact (proj2 A5 Wb X)]).
    exists [BcAcquires; BcSends false], (bc_to (poison (bc_to (lock_to t (Some BcThread)) BcLocked)) BcDead), [].
    split; [typed_list|]. split; [|split; [|split]].
    + cbn [schedule_from act]. unfold bc_acquires. rewrite Eb, El, A2, Wp. unfold bc_sends. thr.
      rewrite A1, En. reflexivity.
    + intros _. split; [exact Bk|]. split; [right; reflexivity|exact Ba].
    + unfold agree. thr. cbn [w_state w_poisoned w_queue w_listening w_broadcasting w_running]. traces. rewrite A7, A8, A9.
      repeat (split; [first [reflexivity|assumption|split; congruence]|]). reflexivity.
    + reflexivity.
Qed.

Lemma perform_app : forall t os ok w ws, address_good w ->
  between_turns t -> agree t os w ws -> locked t -> w_running w = true ->
  performs t os (AppTurn ok) (fst (step w (AppTurn ok))) (ws ++ [snd (step w (AppTurn ok))]).
Proof.
  intros t os ok w ws Hn (Bk & Bb & Ba) A [L1 L2 L3 L4] Hr.
  pose proof A as (A1 & A2 & A3 & A4 & A5 & A6 & A7 & A8 & A9).
  assert (El : th_lock t = None).
  { destruct (th_lock t) as [[| |]|]; [exfalso..|reflexivity].
    - destruct Bk as [X|X]; rewrite X in L1; discriminate.
    - destruct Bb as [X|X]; rewrite X in L2; discriminate.
    - rewrite Ba in L3; discriminate. }
  assert (NoR : forall k, received_by (repeat (AppSendsNext true) k) = []) by (induction k; [reflexivity|assumption]).
  assert (NoT : forall k, acts_typed (repeat (AppSendsNext true) k)).
  { intros k fs Hin. apply in_repeat in Hin. discriminate. }
  destruct (app_cases w ok Hr Hn) as
    [[Eq E]|[(q & Eq & E)|(q & Eq & [(Ew & E)|[(Ew & En & E)|[(n & Ew & En & Y & E)|(n & k & Ew & En & Hk & Y & Z & E)]]])]];
    rewrite E; cbn [fst snd]; rewrite Eq in A3.
  - exists [], t, []. rewrite app_nil_r. split; [typed_list|]. split; [reflexivity|].
    split; [intros _; split; auto|]. split; [apply agree_nothing; exact A|reflexivity].
  - exists [AppTakes], (queue_to t q), [Took DeviceChange].
    split; [typed_list|]. split; [|split; [|split]].
    + apply schedule_one. cbn [act]. unfold app_takes. rewrite Ba, A3. reflexivity.
    + intros _. split; [exact Bk|]. split; [exact Bb|exact Ba].
    + unfold agree, with_queue. thr. cbn [w_state w_poisoned w_queue w_listening w_broadcasting w_running]. traces. rewrite A7, A8, A9.
      repeat (split; [first [reflexivity|assumption|split; congruence]|]). reflexivity.
    + reflexivity.
  - exists [AppTakes; AppAcquires], (app_to (app_to (queue_to t q) AppWaits) AppGone), [Took InitiateLink].
    split; [typed_list|]. split; [|split; [|split]].
    + cbn [schedule_from act]. unfold app_takes. rewrite Ba, A3. unfold app_acquires. thr. rewrite El, A2, Ew. reflexivity.
    + cbn. discriminate.
    + unfold agree. thr. cbn [w_state w_poisoned w_queue w_listening w_broadcasting w_running]. traces. rewrite A7, A8, A9.
      repeat (split; [first [reflexivity|assumption|congruence|split; congruence]|]). reflexivity.
    + reflexivity.
  - exists [AppTakes; AppAcquires],
      (app_to (state_to (app_to (queue_to t q) AppWaits) (set_linking (th_state t) true)) AppGone), [Took InitiateLink].
    split; [typed_list|]. split; [|split; [|split]].
    + cbn [schedule_from act]. unfold app_takes. rewrite Ba, A3. unfold app_acquires. thr. rewrite El, A2, Ew.
      cbn [set_linking st_address]. rewrite A1, En. reflexivity.
    + cbn. discriminate.
    + unfold agree. thr. cbn [w_state w_poisoned w_queue w_listening w_broadcasting w_running]. traces. rewrite A7, A8, A9, A1.
      repeat (split; [first [reflexivity|assumption|congruence|split; congruence]|]). reflexivity.
    + reflexivity.
  - assert (S1 : schedule_from t [AppTakes; AppAcquires] =
      Some (app_to (lock_to (state_to (app_to (queue_to t q) AppWaits) (set_linking (th_state t) true)) (Some AppThread))
              (AppSends n 0), [Took InitiateLink])).
    { cbn [schedule_from act]. unfold app_takes. rewrite Ba, A3. unfold app_acquires. thr. rewrite El, A2, Ew.
      cbn [set_linking st_address]. rewrite A1, En. reflexivity. }
    match type of S1 with schedule_from _ _ = Some (?t2, _) =>
      assert (E0 : th_app t2 = AppSends n 0) by reflexivity;
      pose proof (schedule_from_app _ _ _ _ _ _ _ S1 (sends_all 40 t2 n (Hn n En) E0 (le_n _))) as S2 end.
    match type of S2 with schedule_from _ _ = Some (?t2, _) =>
      assert (S3 : act t2 AppReleases = Some (app_to (lock_to t2 None) AppIdle, [])) by reflexivity end.
    assert (S4 := schedule_from_app _ [AppReleases] _ _ _ _ _ S2 (schedule_one _ _ _ _ S3)).
    rewrite app_nil_r, firstn_all2 in S4 by (rewrite handshake_bytes_length; lia). cbn [app] in S4. thr.
    eexists _, _, _. split; [|split; [exact S4|split; [|split]]].
    + change (AppTakes :: AppAcquires :: repeat (AppSendsNext true) 40 ++ [AppReleases])
        with ([AppTakes; AppAcquires] ++ repeat (AppSendsNext true) 40 ++ [AppReleases]).
      apply acts_typed_app; [typed_list|]. apply acts_typed_app; [apply NoT|typed_list].
    + intros _. split; [exact Bk|]. split; [exact Bb|reflexivity].
    + unfold agree. thr. cbn [w_state w_poisoned w_queue w_listening w_broadcasting w_running]. traces. rewrite A7, A8, A9, A1.
      repeat (split; [first [reflexivity|assumption|congruence|split; congruence]|]). reflexivity.
    + intros _. cbn [received_by flat_map app]. fold (received_by (repeat (AppSendsNext true) 40 ++ [AppReleases])).
      rewrite received_by_app, NoR. reflexivity.
  - assert (S1 : schedule_from t [AppTakes; AppAcquires] =
      Some (app_to (lock_to (state_to (app_to (queue_to t q) AppWaits) (set_linking (th_state t) true)) (Some AppThread))
              (AppSends n 0), [Took InitiateLink])).
    { cbn [schedule_from act]. unfold app_takes. rewrite Ba, A3. unfold app_acquires. thr. rewrite El, A2, Ew.
      cbn [set_linking st_address]. rewrite A1, En. reflexivity. }
    match type of S1 with schedule_from _ _ = Some (?t2, _) =>
      assert (E0 : th_app t2 = AppSends n 0) by reflexivity;
      pose proof (schedule_from_app _ _ _ _ _ _ _ S1 (sends_all k t2 n (Hn n En) E0 (Nat.lt_le_incl _ _ Hk))) as S2 end.
    match type of S2 with schedule_from _ _ = Some (?t2, _) =>
      assert (S3 : act t2 (AppSendsNext false) = Some (app_to (poison t2) AppGone, [])) end.
    { cbn [act]. unfold app_sends_next. thr. destruct (nth_error (negotiation n) k) as [p|] eqn:Ep; [reflexivity|].
      apply nth_error_None in Ep. rewrite handshake_length in Ep. lia. }
    assert (S4 := schedule_from_app _ [AppSendsNext false] _ _ _ _ _ S2 (schedule_one _ _ _ _ S3)).
    rewrite app_nil_r in S4. cbn [app] in S4. thr.
    eexists _, _, _. split; [|split; [exact S4|split; [|split]]].
    + change (AppTakes :: AppAcquires :: repeat (AppSendsNext true) k ++ [AppSendsNext false])
        with ([AppTakes; AppAcquires] ++ repeat (AppSendsNext true) k ++ [AppSendsNext false]).
      apply acts_typed_app; [typed_list|]. apply acts_typed_app; [apply NoT|typed_list].
    + cbn. discriminate.
    + unfold agree. thr. cbn [w_state w_poisoned w_queue w_listening w_broadcasting w_running]. traces. rewrite A7, A8, A9, A1.
      repeat (split; [first [reflexivity|assumption|congruence|split; congruence]|]). reflexivity.
    + intros _. cbn [received_by flat_map app]. fold (received_by (repeat (AppSendsNext true) k ++ [AppSendsNext false])).
      rewrite received_by_app, NoR. reflexivity.
Qed.

Lemma history_scheduled : forall is, inputs_typed is ->
  exists acts t os, acts_typed acts /\ schedule acts = Some (t, os) /\
    agree t os (fst (run is)) (snd (run is)) /\
    (w_running (fst (run is)) = true ->
       between_turns t /\ (w_listening (fst (run is)) = true -> received_by acts = received_in is)).
Proof.
  intros is. induction is as [|i is IH] using rev_ind; intros Ht.
  - exists [], threads_start, []. split; [typed_list|]. split; [reflexivity|]. split.
    + unfold agree. repeat (split; [first [reflexivity|cbn; split; congruence]|]). reflexivity.
    + intros _. split; [split; [left; reflexivity|split; [left; reflexivity|reflexivity]]|reflexivity].
  - apply inputs_typed_app in Ht. destruct Ht as [Ht Hi]. destruct (IH Ht) as (acts & t & os & T & S & A & B).
    pose proof (address_net_ok is Ht) as Hn. destruct (run_snoc is i) as [-> ->].
    set (w := fst (run is)) in *. set (ws := snd (run is)) in *. clearbody w ws.
    destruct (w_running w) eqn:Er.
    2: { assert (E : step w i = (w, [])) by (unfold step; rewrite Er; reflexivity). rewrite E. cbn [fst snd].
         exists acts, t, os. split; [exact T|]. split; [exact S|]. split; [apply agree_nothing; exact A|congruence]. }
    destruct (B eq_refl) as [Bt Rc]. pose proof (schedule_locked acts t os S) as L.
    assert (P : performs t os i (fst (step w i)) (ws ++ [snd (step w i)])).
    { destruct i as [d fs| |ok|ok].
      - apply perform_datagram; try assumption. exact (inputs_typed_one d fs Hi).
      - assert (E : step w KaRecvError = (w, [])) by (unfold step; rewrite Er; reflexivity). rewrite E. cbn [fst snd].
        exists [], t, []. rewrite app_nil_r. split; [typed_list|]. split; [reflexivity|]. split; [auto|].
        split; [apply agree_nothing; exact A|reflexivity].
      - apply perform_broadcast; assumption.
      - apply perform_app; assumption. }
    destruct P as (acts' & t' & o & T' & S' & B' & A' & R').
    exists (acts ++ acts'), t', (os ++ o). split; [apply acts_typed_app; assumption|].
    split; [exact (schedule_from_app _ _ _ _ _ _ _ S S')|]. split; [exact A'|].
    intros Hr. split; [exact (B' Hr)|]. intros Hl. rewrite received_by_app, received_in_app, (R' Hl).
    f_equal. apply Rc.
    clear - Hl. destruct (w_listening w) eqn:X; [reflexivity|]. exfalso. revert Hl.
    unfold step. destruct (w_running w); [|cbn; congruence].
    destruct i as [d fs| |ok|ok]; rewrite ?X; cbn [fst]; try congruence.
    + destruct (w_broadcasting w); [|cbn; congruence]. unfold broadcast_turn.
      destruct (w_poisoned w); [cbn; congruence|]. destruct (st_address (w_state w)); [|cbn; congruence].
      destruct (send_broadcast_payload n ok _); cbn; congruence.
    + unfold app_turn. destruct (w_queue w) as [|[|] q]; [cbn; congruence| |cbn; congruence].
      unfold initiate_linking. cbn [w_poisoned w_state w_queue w_listening w_broadcasting w_running].
      destruct (w_poisoned w); [cbn; congruence|]. destruct (st_address (set_linking (w_state w) true)); [|cbn; congruence].
      destruct (broadcast_messages _ _ _ _); cbn; congruence.
Qed.
