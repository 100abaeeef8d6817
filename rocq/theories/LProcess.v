(** The process action by action against the process turn by turn. *)

From Verif Require Import Base Unicode MPackets MKeepalive MNetwork MServer MThreads MStatus MDb MDatabase MLib
  MRpc MRpcServer MNfs MSystem MProcess SNetwork SServer SThreads SRpc SSystem SProcess
  LServer LServer2 LRpcServer LSystem LThreads LThreads2 LThreads3.
From Coq Require Import ZArith Lia.
Open Scope list_scope.
Open Scope N_scope.

Section Proc.
Variables (e : endian) (p : profile) (h : hash_order) (d : database).
Notation sstep := (sys_step e p h d).
Notation srun := (sys_run e p h d).
Notation pact := (proc_act e p h d).
Notation prun := (proc_run e p h d).

(** ** Runs *)

Lemma prun_app : forall a b x x1 o1 x2 o2,
  prun x a = Some (x1, o1) -> prun x1 b = Some (x2, o2) -> prun x (a ++ b) = Some (x2, o1 ++ o2).
Proof.
  induction a as [|c a IH]; intros b x x1 o1 x2 o2 H1 H2.
  - injection H1 as <- <-. exact H2.
  - cbn [app proc_run] in *. destruct (pact x c) as [[x' o]|]; [|discriminate].
    destruct (prun x' a) as [[y o']|] eqn:E; [|discriminate]. injection H1 as <- <-.
    rewrite (IH b x' y o' x2 o2 E H2). reflexivity.
Qed.

Lemma prun_snoc : forall acts a x x' oss, prun x (acts ++ [a]) = Some (x', oss) ->
  exists x1 oss1 o, prun x acts = Some (x1, oss1) /\ pact x1 a = Some (x', o) /\ oss = oss1 ++ [o].
Proof.
  induction acts as [|b acts IH]; intros a x x' oss H; cbn [app proc_run] in *.
  - destruct (pact x a) as [[x1 o]|] eqn:E; [|discriminate]. injection H as <- <-. exists x, [], o. auto.
  - destruct (pact x b) as [[x1 o]|] eqn:E; [|discriminate].
    destruct (prun x1 (acts ++ [a])) as [[x2 o2]|] eqn:E2; [|discriminate]. injection H as <- <-.
    destruct (IH a x1 x2 o2 E2) as (x3 & o3 & o4 & E3 & E4 & ->). rewrite E3.
    exists x3, (o :: o3), o4. auto.
Qed.

Lemma prun_length : forall acts x x' oss, prun x acts = Some (x', oss) -> List.length oss = List.length acts.
Proof.
  induction acts as [|b acts IH]; intros x x' oss H; cbn [proc_run] in *.
  - injection H as <- <-. reflexivity.
  - destruct (pact x b) as [[x1 o]|]; [|discriminate]. destruct (prun x1 acts) as [[x2 o2]|] eqn:E2; [|discriminate].
    injection H as <- <-. cbn [List.length]. rewrite (IH _ _ _ E2). reflexivity.
Qed.

Lemma combine_snoc : forall A B (l : list A) (m : list B) a b, List.length l = List.length m ->
  combine (l ++ [a]) (m ++ [b]) = combine l m ++ [(a, b)].
Proof.
  induction l as [|x l IH]; intros [|y m] a b E; try discriminate E; [reflexivity|].
  cbn [app combine]. f_equal. apply IH. cbn in E. congruence.
Qed.

Lemma combine_cat : forall A B (l l' : list A) (m m' : list B), List.length l = List.length m ->
  combine (l ++ l') (m ++ m') = combine l m ++ combine l' m'.
Proof.
  induction l as [|x l IH]; intros l' [|y m] m' E; try discriminate E; [reflexivity|].
  cbn [app combine]. f_equal. apply IH. cbn in E. congruence.
Qed.

Lemma world_outputs_map : forall os, world_outputs (map OutWorld os) = os.
Proof. intros. unfold world_outputs. apply flat_map_map_id. reflexivity. Qed.
Lemma world_outputs_app : forall a b, world_outputs (a ++ b) = world_outputs a ++ world_outputs b.
Proof. intros. apply flat_map_app. Qed.
Lemma thread_acts_app : forall a b, thread_acts (a ++ b) = thread_acts a ++ thread_acts b.
Proof. intros. apply flat_map_app. Qed.
Lemma world_inputs_app : forall a b, world_inputs (a ++ b) = world_inputs a ++ world_inputs b.
Proof. intros. apply flat_map_app. Qed.
Lemma concat_one : forall A (l : list (list A)) o, List.concat (l ++ [o]) = List.concat l ++ o.
Proof. intros. rewrite concat_app. cbn. rewrite app_nil_r. reflexivity. Qed.

(** ** A turn of a service *)

Definition not_thread (i : sys_input) : Prop := forall j, i <> SysWorld j.

Lemma pact_service : forall x i, not_thread i ->
  pact x (ServiceActs i) =
  match takes_mutex x i, th_lock (pr_threads x) with
  | true, Some _ => None
  | _, _ =>
      let (s, os) := sstep i (services_with (pr_threads x) x) in
      Some (mkProcess (pr_threads x) (sy_status s) (sy_mapper s) (sy_joined s) (sy_query s) (sy_db s) (sy_udp s), os)
  end.
Proof. intros x i H. destruct i; try reflexivity. exfalso. exact (H _ eq_refl). Qed.

(** It does not depend on the threads but through the mutex. *)
Lemma same_step : forall i x s, not_thread i -> same_services x s -> w_running (sy_world s) = true ->
  (takes_mutex x i = true -> w_poisoned (sy_world s) = th_poisoned (pr_threads x) /\
                             w_state (sy_world s) = th_state (pr_threads x)) ->
  let (s', os) := sstep i (services_with (pr_threads x) x) in
  same_services (mkProcess (pr_threads x) (sy_status s') (sy_mapper s') (sy_joined s') (sy_query s') (sy_db s') (sy_udp s'))
    (fst (sstep i s)) /\ os = snd (sstep i s).
Proof.
  intros i x [w st mp jn q db u] Hi (E1 & E2 & E3 & E4 & E5 & E6) R M.
  destruct x as [t st' mp' jn' q' db' u']. cbn [pr_status pr_mapper pr_joined pr_query pr_db pr_udp pr_threads
    sy_status sy_mapper sy_joined sy_query sy_db sy_udp sy_world] in *. subst st' mp' jn' q' db' u'.
  unfold sys_step, services_with.
  cbn [sy_world w_running pr_status pr_mapper pr_joined pr_query pr_db pr_udp sy_status sy_mapper sy_joined sy_query sy_db sy_udp].
  rewrite R. destruct i as [j|z|j|port j|ws|c chunk [port|]|c|z].
  - exfalso. exact (Hi j eq_refl).
  - destruct st; [destruct (status_turn z)|]; split; try reflexivity; repeat split.
  - destruct mp; [destruct (pm_turn j)|]; split; try reflexivity; repeat split.
  - assert (E : udp_turn e (mkWorld (th_state t) (th_poisoned t) (th_queue t) true true true) port j (u port)
                = udp_turn e w port j (u port)).
    { unfold udp_turn. cbn [takes_mutex pr_udp] in M. destruct (u port) as [|v|[|]]; try reflexivity.
      unfold ms_turn. cbn [mi_datagram mi_from mi_poisoned mi_address mi_send w_poisoned w_state].
      destruct (codec_decode (ni_datagram j)) as [[m|]| |]; try reflexivity.
      unfold rpc_procedure_router. destruct (rpc_body m) as [c|r]; [|reflexivity]. unfold on_event.
      destruct (ca_procedure c); try reflexivity. destruct (M eq_refl) as [-> ->]. reflexivity. }
    rewrite E. destruct (udp_turn e w port j (u port)). split; [repeat split|reflexivity].
  - destruct jn, mp; split; try reflexivity; repeat split.
  - destruct (q c); [|split; try reflexivity; repeat split].
    destruct (db_step p h d db (Query port chunk)). split; [repeat split|reflexivity].
  - destruct (q c); split; try reflexivity; repeat split.
  - split; [repeat split|reflexivity].
  - destruct z; try (split; [repeat split|reflexivity]);
      match goal with |- context [db_step ?a ?b ?c ?x ?y] => destruct (db_step a b c x y) end;
      (split; [repeat split|reflexivity]).
Qed.

Lemma service_quiet : forall i s, not_thread i -> sy_world (fst (sstep i s)) = sy_world s /\ world_outputs (snd (sstep i s)) = [].
Proof.
  intros i s Hi. destruct (world_step e p h d i s) as [-> ->]. destruct i; try (split; reflexivity).
  exfalso. exact (Hi _ eq_refl).
Qed.

(** ** The threads of a schedule *)

Lemma proc_threads : forall acts mp db x outs, prun (process_start mp db) acts = Some (x, outs) ->
  schedule (thread_acts acts) = Some (pr_threads x, world_outputs (List.concat outs)).
Proof.
  intros acts mp db. induction acts as [|a acts IH] using rev_ind; intros x outs H.
  - injection H as <- <-. reflexivity.
  - apply prun_snoc in H. destruct H as (x1 & o1 & o & H & E & ->). specialize (IH x1 o1 H).
    rewrite thread_acts_app, concat_one, world_outputs_app. destruct a as [a|i].
    + cbn [proc_act] in E. destruct (act (pr_threads x1) a) as [[t os]|] eqn:Ea; [|discriminate].
      injection E as <- <-. cbn [thread_acts flat_map app pr_threads]. rewrite world_outputs_map.
      apply schedule_snoc. eauto 8.
    + cbn [thread_acts flat_map]. rewrite app_nil_r.
      assert (Hi : not_thread i) by (intros j ->; discriminate E).
      rewrite (pact_service x1 i Hi) in E. pose proof (service_quiet i (services_with (pr_threads x1) x1) Hi) as [_ Q].
      destruct (sstep i (services_with (pr_threads x1) x1)) as [s os]. cbn [snd] in Q.
      assert (E' : pr_threads x = pr_threads x1 /\ o = os).
      { destruct (takes_mutex x1 i), (th_lock (pr_threads x1)); try discriminate E; injection E as <- <-; split; reflexivity. }
      destruct E' as [-> ->]. rewrite Q, app_nil_r. exact IH.
Qed.

(** ** Schedules and histories *)

Record explained (mp db : bool) (acts : list proc_action) (x : process) (outs : list (list sys_output))
    (is : list sys_input) : Prop := mkExpl {
  ex_typed : inputs_typed (world_inputs is);
  ex_same : same_services x (fst (srun is (system_start true true mp db)));
  ex_trace : at_services (combine acts outs) =
             beside_threads (combine is (snd (srun is (system_start true true mp db))));
  ex_rel : rel (received_by (thread_acts acts)) (pr_threads x) (world_outputs (List.concat outs))
             (received_in (world_inputs is)) (fst (run (world_inputs is))) (snd (run (world_inputs is)))
}.

Lemma start_world : forall mp db is,
  sy_world (fst (srun is (system_start true true mp db))) = fst (run (world_inputs is)).
Proof. intros. rewrite (proj1 (world_run e p h d is _)). reflexivity. Qed.

Lemma gone_before : forall acts a t t' os, schedule acts = Some (t, os) ->
  (exists o, act t a = Some (t', o)) -> th_app t' <> AppGone -> th_app t <> AppGone.
Proof. intros acts a t t' os H (o & E) G X. apply G. exact (gone_stays t a t' o E X). Qed.

Lemma proc_explained : forall acts mp db x outs, acts_typed (thread_acts acts) ->
  prun (process_start mp db) acts = Some (x, outs) -> th_app (pr_threads x) <> AppGone ->
  exists is, explained mp db acts x outs is.
Proof.
  intros acts mp db. induction acts as [|a acts IH] using rev_ind; intros x outs Ht H G.
  - injection H as <- <-. exists []. constructor.
    + intros d' fs [].
    + repeat split.
    + reflexivity.
    + constructor; try reflexivity; try exact I. exists []. split; reflexivity.
  - apply prun_snoc in H. destruct H as (x1 & o1 & o & H & E & ->).
    pose proof (proc_threads acts mp db x1 o1 H) as Sc. pose proof (schedule_locked _ _ _ Sc) as L.
    pose proof (prun_length _ _ _ _ H) as Ln. destruct a as [a|i].
    + rewrite thread_acts_app in Ht. cbn [thread_acts flat_map app] in Ht. fold (thread_acts acts) in Ht.
      apply acts_typed_snoc in Ht. destruct Ht as [Ht Ha].
      cbn [proc_act] in E. destruct (act (pr_threads x1) a) as [[t os]|] eqn:Ea; [|discriminate].
      injection E as <- <-. cbn [pr_threads] in G.
      assert (G1 : th_app (pr_threads x1) <> AppGone) by (intros X; apply G; exact (gone_stays _ _ _ _ Ea X)).
      destruct (IH x1 o1 Ht H G1) as (is & [T S Tr R]).
      destruct (rel_step _ _ _ _ _ _ a t os L (address_net_ok _ T) Ha R Ea G) as [R'|(i & Ti & R')].
      * exists is. constructor; [exact T|exact S| |].
        -- rewrite combine_snoc by congruence. unfold at_services. rewrite flat_map_app. cbn [flat_map app].
           rewrite app_nil_r. exact Tr.
        -- rewrite thread_acts_app, received_by_app, concat_one, world_outputs_app, world_outputs_map. exact R'.
      * exists (is ++ [SysWorld i]).
        assert (Es : sstep (SysWorld i) (fst (srun is (system_start true true mp db))) =
          (with_world (fst (srun is (system_start true true mp db))) (fst (step (fst (run (world_inputs is))) i)),
           map OutWorld (snd (step (fst (run (world_inputs is))) i)))).
        { rewrite (step_shape e p h d (SysWorld i)); rewrite start_world; [reflexivity|]. apply R. }
        constructor.
        -- rewrite world_inputs_app. apply inputs_typed_app. auto.
        -- destruct (srun_snoc e p h d is (SysWorld i) (system_start true true mp db)) as [-> _]. rewrite Es. exact S.
        -- destruct (srun_snoc e p h d is (SysWorld i) (system_start true true mp db)) as [_ ->]. rewrite Es. cbn [snd].
           rewrite !combine_snoc by (rewrite ?srun_length; congruence).
           unfold at_services, beside_threads. rewrite !flat_map_app. cbn [flat_map app]. rewrite !app_nil_r. exact Tr.
        -- rewrite thread_acts_app, received_by_app, concat_one, world_outputs_app, world_outputs_map.
           rewrite world_inputs_app, received_in_app. cbn [world_inputs flat_map app].
           fold (world_inputs is). destruct (run_snoc (world_inputs is) i) as [-> ->]. exact R'.
    + rewrite thread_acts_app in *. cbn [thread_acts flat_map] in *. rewrite app_nil_r in *. fold (thread_acts acts) in *.
      assert (Hi : not_thread i) by (intros j ->; discriminate E).
      rewrite (pact_service x1 i Hi) in E.
      assert (K : takes_mutex x1 i = true -> th_lock (pr_threads x1) = None).
      { intros X. rewrite X in E. destruct (th_lock (pr_threads x1)); [discriminate E|reflexivity]. }
      assert (G1 : th_app (pr_threads x1) <> AppGone).
      { intros X. apply G. destruct (sstep i (services_with (pr_threads x1) x1)) as [s os].
        destruct (takes_mutex x1 i), (th_lock (pr_threads x1)); try discriminate E; injection E as <- <-; exact X. }
      destruct (IH x1 o1 Ht H G1) as (is & [T S Tr R]). exists (is ++ [i]).
      set (s0 := fst (srun is (system_start true true mp db))) in *.
      assert (W : sy_world s0 = fst (run (world_inputs is))) by apply start_world.
      pose proof (same_step i x1 s0 Hi S) as Z. rewrite W in Z. specialize (Z (r_running _ _ _ _ _ _ R)).
      assert (M : takes_mutex x1 i = true -> w_poisoned (fst (run (world_inputs is))) = th_poisoned (pr_threads x1) /\
                  w_state (fst (run (world_inputs is))) = th_state (pr_threads x1)).
      { intros X. specialize (K X). destruct L as [_ _ L3 _]. rewrite K in L3.
        pose proof (r_state _ _ _ _ _ _ R) as Rs. rewrite L3 in Rs. split; [exact (r_poisoned _ _ _ _ _ _ R)|congruence]. }
      specialize (Z M). pose proof (service_quiet i s0 Hi) as [Q1 Q2].
      destruct (sstep i (services_with (pr_threads x1) x1)) as [s' os]. destruct Z as [Z1 Z2].
      assert (E' : x = mkProcess (pr_threads x1) (sy_status s') (sy_mapper s') (sy_joined s') (sy_query s') (sy_db s') (sy_udp s')
                   /\ o = os).
      { destruct (takes_mutex x1 i), (th_lock (pr_threads x1)); try discriminate E; injection E as <- <-; split; reflexivity. }
      destruct E' as [-> ->].
      assert (Wi : world_inputs (is ++ [i]) = world_inputs is).
      { rewrite world_inputs_app. destruct i; cbn [world_inputs flat_map]; try apply app_nil_r. exfalso. exact (Hi _ eq_refl). }
      destruct (srun_snoc e p h d is i (system_start true true mp db)) as [F1 F2]. fold s0 in F1, F2.
      constructor.
      * rewrite Wi. exact T.
      * rewrite F1. exact Z1.
      * rewrite F2, !combine_snoc by (rewrite ?srun_length; congruence).
        unfold at_services, beside_threads. rewrite !flat_map_app. fold (at_services (combine acts o1)).
        fold (beside_threads (combine is (snd (srun is (system_start true true mp db))))). rewrite Tr. f_equal.
        cbn [flat_map app]. rewrite Z2. destruct i; try reflexivity. exfalso. exact (Hi _ eq_refl).
      * rewrite Wi, thread_acts_app, concat_one, world_outputs_app. cbn [thread_acts flat_map].
        fold (thread_acts acts). rewrite app_nil_r, Z2, Q2, app_nil_r. exact R.
Qed.

(** The actions of the threads within the process. *)
Lemma lift_threads : forall acts x t os, schedule_from (pr_threads x) acts = Some (t, os) ->
  exists outs, prun x (map ThreadActs acts) =
    Some (mkProcess t (pr_status x) (pr_mapper x) (pr_joined x) (pr_query x) (pr_db x) (pr_udp x), outs) /\
    world_outputs (List.concat outs) = os /\ at_services (combine (map ThreadActs acts) outs) = [] /\
    thread_acts (map ThreadActs acts) = acts.
Proof.
  induction acts as [|a acts IH]; intros x t os H; cbn [schedule_from map proc_run proc_act] in *.
  - injection H as <- <-. exists []. destruct x. repeat split.
  - destruct (act (pr_threads x) a) as [[t1 o]|]; [|discriminate].
    destruct (schedule_from t1 acts) as [[t2 o2]|] eqn:E; [|discriminate]. injection H as <- <-.
    destruct (IH (mkProcess t1 (pr_status x) (pr_mapper x) (pr_joined x) (pr_query x) (pr_db x) (pr_udp x)) t2 o2 E)
      as (outs & E1 & E2 & E3 & E4). rewrite E1. cbn [pr_status pr_mapper pr_joined pr_query pr_db pr_udp].
    exists (map OutWorld o :: outs). split; [reflexivity|]. cbn [List.concat combine at_services flat_map app thread_acts].
    rewrite world_outputs_app, world_outputs_map, E2. split; [reflexivity|]. split; [exact E3|].
    f_equal. exact E4.
Qed.

Lemma any_turn : forall t os i w ws, inputs_typed [i] -> address_good w ->
  between_turns t -> agree t os w ws -> locked t -> w_running w = true ->
  performs t os i (fst (step w i)) (ws ++ [snd (step w i)]).
Proof.
  intros t os i w ws Hi Hn Bt A L Er. destruct i as [d' fs| |ok|ok].
  - apply perform_datagram; try assumption. exact (inputs_typed_one d' fs Hi).
  - assert (E : step w KaRecvError = (w, [])) by (unfold step; rewrite Er; reflexivity). rewrite E. cbn [fst snd].
    exists [], t, []. rewrite app_nil_r. split; [intros fs []|]. split; [reflexivity|]. split; [auto|].
    split; [apply agree_nothing; exact A|reflexivity].
  - apply perform_broadcast; assumption.
  - apply perform_app; assumption.
Qed.

Lemma between_free : forall t, locked t -> between_turns t -> th_lock t = None.
Proof.
  intros t [L1 L2 L3 _] (Bk & Bb & Ba). rewrite Ba in L3.
  destruct (th_lock t) as [[| |]|]; [| | |reflexivity].
  - destruct Bk as [X|X]; rewrite X in L1; discriminate.
  - destruct Bb as [X|X]; rewrite X in L2; discriminate.
  - discriminate.
Qed.

Lemma step_stays_ended : forall w i, w_running (fst (step w i)) = true -> w_running w = true.
Proof.
  intros w i H. destruct (w_running w) eqn:R; [reflexivity|]. unfold step in H. rewrite R in H. cbn in H. congruence.
Qed.

Lemma listening_before : forall w i, w_listening (fst (step w i)) = true -> w_listening w = true.
Proof.
  intros w i Hl. destruct (w_listening w) eqn:X; [reflexivity|]. exfalso. revert Hl.
  unfold step. destruct (w_running w); [|cbn; congruence].
  destruct i as [d' fs| |ok|ok]; rewrite ?X; cbn [fst]; try congruence.
  + destruct (w_broadcasting w); [|cbn; congruence]. unfold broadcast_turn.
    destruct (w_poisoned w); [cbn; congruence|]. destruct (st_address (w_state w)); [|cbn; congruence].
    destruct (send_broadcast_payload n ok _); cbn; congruence.
  + unfold app_turn. destruct (w_queue w) as [|[|] q]; [cbn; congruence| |cbn; congruence].
    unfold initiate_linking. cbn [w_poisoned w_state w_queue w_listening w_broadcasting w_running].
    destruct (w_poisoned w); [cbn; congruence|]. destruct (st_address (set_linking (w_state w) true)); [|cbn; congruence].
    destruct (broadcast_messages _ _ _ _); cbn; congruence.
Qed.

Lemma history_acts : forall is mp db, inputs_typed (world_inputs is) -> process_runs is ->
  exists acts x outs, acts_typed (thread_acts acts) /\ prun (process_start mp db) acts = Some (x, outs) /\
    between_turns (pr_threads x) /\
    (w_listening (fst (run (world_inputs is))) = true -> received_by (thread_acts acts) = received_in (world_inputs is)) /\
    at_services (combine acts outs) = beside_threads (combine is (snd (srun is (system_start true true mp db)))) /\
    same_services x (fst (srun is (system_start true true mp db))) /\
    agree (pr_threads x) (world_outputs (List.concat outs)) (fst (run (world_inputs is))) (snd (run (world_inputs is))).
Proof.
  intros is mp db. induction is as [|i is IH] using rev_ind; intros Ht R.
  - exists [], (process_start mp db), []. split; [intros fs []|]. split; [reflexivity|].
    split; [split; [left; reflexivity|split; [left; reflexivity|reflexivity]]|]. split; [reflexivity|].
    split; [reflexivity|]. split; [repeat split|].
    unfold agree. repeat (split; [first [reflexivity|cbn; split; congruence]|]). reflexivity.
  - unfold process_runs in *. rewrite world_inputs_app in *. apply inputs_typed_app in Ht. destruct Ht as [Ht Hi].
    set (s0 := fst (srun is (system_start true true mp db))) in *.
    assert (W : sy_world s0 = fst (run (world_inputs is))) by apply start_world.
    destruct (srun_snoc e p h d is i (system_start true true mp db)) as [F1 F2]. fold s0 in F1, F2.
    assert (D : (exists j, i = SysWorld j) \/ not_thread i).
    { destruct i; try (right; intros j0; discriminate). left. eexists. reflexivity. }
    destruct D as [[j ->]|Ni].
    + cbn [world_inputs flat_map app] in *. fold (world_inputs is) in *.
      destruct (run_snoc (world_inputs is) j) as [R1 R2]. rewrite R1 in R.
      pose proof (step_stays_ended _ _ R) as R0.
      destruct (IH Ht R0) as (acts & x & outs & T & P & B & Rc & Tr & S & A).
      pose proof (schedule_locked _ _ _ (proc_threads acts mp db x outs P)) as L.
      destruct (any_turn _ _ j _ _ Hi (address_net_ok _ Ht) B A L R0) as (acts' & t' & o & T' & S' & B' & A' & Rc').
      destruct (lift_threads acts' x t' o S') as (outs' & P' & O' & Tr' & Th').
      exists (acts ++ map ThreadActs acts'). eexists _, (outs ++ outs').
      assert (Es : sstep (SysWorld j) s0 = (with_world s0 (fst (step (fst (run (world_inputs is))) j)),
                                            map OutWorld (snd (step (fst (run (world_inputs is))) j)))).
      { rewrite (step_shape e p h d (SysWorld j)); rewrite W; [reflexivity|exact R0]. }
      split; [rewrite thread_acts_app, Th'; apply acts_typed_app; assumption|].
      split; [exact (prun_app _ _ _ _ _ _ _ P P')|]. split; [exact (B' R)|].
      rewrite R1, R2, F1, F2, Es. cbn [snd fst].
      split; [|split; [|split; [exact S|]]].
      * intros Hl. rewrite thread_acts_app, Th', received_by_app, received_in_app, (Rc' Hl), (Rc (listening_before _ _ Hl)).
        reflexivity.
      * rewrite combine_snoc by (rewrite srun_length; reflexivity). unfold beside_threads. rewrite flat_map_app.
        cbn [flat_map app]. rewrite app_nil_r. fold (beside_threads (combine is (snd (srun is (system_start true true mp db))))).
        rewrite <- Tr, <- (app_nil_r (at_services (combine acts outs))), <- Tr'. unfold at_services.
        rewrite <- flat_map_app. f_equal. apply combine_cat. symmetry. exact (prun_length _ _ _ _ P).
      * cbn [pr_threads]. rewrite concat_app, world_outputs_app, O'. exact A'.
    + assert (Wi : world_inputs [i] = []) by (destruct i; try reflexivity; exfalso; exact (Ni _ eq_refl)).
      rewrite Wi, app_nil_r in *.
      destruct (IH Ht R) as (acts & x & outs & T & P & B & Rc & Tr & S & A).
      pose proof (schedule_locked _ _ _ (proc_threads acts mp db x outs P)) as L.
      pose proof (same_step i x s0 Ni S) as Z. rewrite W in Z. specialize (Z R).
      pose proof A as (A1 & A2 & _). specialize (Z (fun _ => conj (eq_sym A2) (eq_sym A1))).
      pose proof (pact_service x i Ni) as E. rewrite (between_free _ L B) in E.
      pose proof (service_quiet i s0 Ni) as [Q1 Q2].
      destruct (sstep i (services_with (pr_threads x) x)) as [s' os]. destruct Z as [Z1 Z2]. subst os.
      assert (E' : pact x (ServiceActs i) = Some (mkProcess (pr_threads x) (sy_status s') (sy_mapper s') (sy_joined s')
                     (sy_query s') (sy_db s') (sy_udp s'), snd (sstep i s0))) by (destruct (takes_mutex x i); exact E).
      exists (acts ++ [ServiceActs i]). eexists _, (outs ++ [snd (sstep i s0)]).
      split; [rewrite thread_acts_app; cbn [thread_acts flat_map]; rewrite app_nil_r; exact T|].
      split; [refine (prun_app _ _ _ _ _ _ _ P _); cbn [proc_run]; rewrite E'; reflexivity|].
      split; [exact B|]. rewrite F1, F2.
      split; [intros Hl; rewrite thread_acts_app; cbn [thread_acts flat_map]; rewrite app_nil_r; exact (Rc Hl)|].
      split; [|split; [exact Z1|]].
      * rewrite !combine_snoc by (rewrite ?srun_length, ?(prun_length _ _ _ _ P); reflexivity).
        unfold at_services, beside_threads. rewrite !flat_map_app.
        fold (at_services (combine acts outs)). fold (beside_threads (combine is (snd (srun is (system_start true true mp db))))).
        rewrite Tr. f_equal. destruct i; try reflexivity. exfalso. exact (Ni _ eq_refl).
      * cbn [pr_threads]. rewrite concat_one, world_outputs_app, Q2, app_nil_r. exact A.
Qed.

(** ** The mutex and the services *)

Lemma takes_iff : forall x i, (forall port j, i = SysUdp port j -> bytes_ok (ni_datagram j)) ->
  (takes_mutex x i = true <-> asks_export x i).
Proof.
  intros x i B. unfold asks_export. split.
  - intros H. destruct i as [ | | |port j| | | | ]; try discriminate H. cbn [takes_mutex] in H.
    destruct (pr_udp x port) as [|v|[|]] eqn:U; try discriminate H.
    destruct (codec_cases (ni_datagram j) (B port j eq_refl)) as [(m & c & E & C & Ec)|[(E & _)|([E|E] & _)]];
      rewrite E in H; try discriminate H.
    rewrite Ec in H. destruct (ca_procedure c) eqn:Ep; try discriminate H. exists port, j, m, c. auto.
  - intros (port & j & m & c & -> & U & C & Ec & Ep). cbn [takes_mutex]. rewrite U.
    destruct (codec_cases (ni_datagram j) (B port j eq_refl)) as [(m' & c' & E & C' & Ec')|[(E & _ & X)|(E & X & _)]];
      try (exfalso; exact (X m C)).
    rewrite E, (LRpc.call_functional _ _ _ C' C), Ec, Ep. reflexivity.
Qed.

End Proc.

(** ** The address in the shared state *)

Lemma poisoned_stays : forall t a t' o, act t a = Some (t', o) -> th_poisoned t = true -> th_poisoned t' = true.
Proof.
  intros [s p l q k b ap] a t' o H E. thr. subst p.
  destruct a; cbn [act] in H;
    unfold ka_receives, ka_fails, ka_acquires, ka_looks_up, ka_queues, ka_releases, bc_acquires, bc_sends,
      bc_releases, app_takes, app_acquires, app_sends_next, app_releases in H;
    thr; act_cases H; reflexivity.
Qed.

Lemma poisoned_from : forall acts t t' os, schedule_from t acts = Some (t', os) -> th_poisoned t = true -> th_poisoned t' = true.
Proof.
  induction acts as [|a acts IH]; intros t t' os H E; cbn [schedule_from] in H.
  - injection H as <- <-. exact E.
  - destruct (act t a) as [[t1 o]|] eqn:Ea; [|discriminate].
    destruct (schedule_from t1 acts) as [[t2 o2]|] eqn:E2; [|discriminate]. injection H as <- <-.
    exact (IH t1 t2 o2 E2 (poisoned_stays _ _ _ _ Ea E)).
Qed.

(** Only a lookup changes the address. *)
Lemma address_step : forall t a t' o, act t a = Some (t', o) -> (forall fs, a <> KaLooksUp fs) ->
  st_address (th_state t') = st_address (th_state t).
Proof.
  intros [s p l q k b ap] a t' o H N. thr.
  destruct a; cbn [act] in H; [| | |exfalso; exact (N _ eq_refl)|..];
    unfold ka_receives, ka_fails, ka_acquires, ka_queues, ka_releases, bc_acquires, bc_sends,
      bc_releases, app_takes, app_acquires, app_sends_next, app_releases in H;
    thr; act_cases H; try reflexivity; thr; cbn [st_address set_linking] in *; congruence.
Qed.

Lemma address_from : forall acts t t' os, schedule_from t acts = Some (t', os) -> (forall fs, ~ In (KaLooksUp fs) acts) ->
  st_address (th_state t') = st_address (th_state t).
Proof.
  induction acts as [|a acts IH]; intros t t' os H N; cbn [schedule_from] in H.
  - injection H as <- <-. reflexivity.
  - destruct (act t a) as [[t1 o]|] eqn:Ea; [|discriminate].
    destruct (schedule_from t1 acts) as [[t2 o2]|] eqn:E2; [|discriminate]. injection H as <- <-.
    rewrite (IH t1 t2 o2 E2) by (intros fs X; apply (N fs); right; exact X).
    apply (address_step t a t1 o Ea). intros fs ->. apply (N fs). left. reflexivity.
Qed.

(** While nothing is received, the packet waiting for its lookup is the same. *)
Definition packet_of (k : ka_at) : option (ka_packet * N * ipv4) :=
  match k with KaWaits q n ip | KaLocked q n ip => Some (q, n, ip) | _ => None end.

Lemma packet_step : forall t a t' o, act t a = Some (t', o) -> (forall x, a <> KaReceives x) ->
  packet_of (th_ka t') = packet_of (th_ka t) \/ packet_of (th_ka t') = None.
Proof.
  intros [s p l q k b ap] a t' o H N. thr.
  destruct a; cbn [act] in H; [exfalso; exact (N _ eq_refl)|..];
    unfold ka_receives, ka_fails, ka_acquires, ka_looks_up, ka_queues, ka_releases, bc_acquires, bc_sends,
      bc_releases, app_takes, app_acquires, app_sends_next, app_releases in H;
    thr; act_cases H; cbn [packet_of]; auto.
Qed.

Lemma packet_from : forall acts t t' os, schedule_from t acts = Some (t', os) -> (forall x, ~ In (KaReceives x) acts) ->
  packet_of (th_ka t') = packet_of (th_ka t) \/ packet_of (th_ka t') = None.
Proof.
  induction acts as [|a acts IH]; intros t t' os H N; cbn [schedule_from] in H.
  - injection H as <- <-. auto.
  - destruct (act t a) as [[t1 o]|] eqn:Ea; [|discriminate].
    destruct (schedule_from t1 acts) as [[t2 o2]|] eqn:E2; [|discriminate]. injection H as <- <-.
    assert (N1 : forall x, ~ In (KaReceives x) acts) by (intros x X; apply (N x); right; exact X).
    destruct (IH t1 t2 o2 E2 N1) as [->|E]; [|auto].
    apply (packet_step t a t1 o Ea). intros x ->. apply (N x). left. reflexivity.
Qed.

Lemma schedule_split : forall a b t t' os, schedule_from t (a ++ b) = Some (t', os) ->
  exists t1 o1 o2, schedule_from t a = Some (t1, o1) /\ schedule_from t1 b = Some (t', o2) /\ os = o1 ++ o2.
Proof.
  induction a as [|x a IH]; intros b t t' os H.
  - exists t, [], os. auto.
  - cbn [app schedule_from] in H |- *. destruct (act t x) as [[t1 o]|]; [|discriminate].
    destruct (schedule_from t1 (a ++ b)) as [[t2 o2]|] eqn:E; [|discriminate]. injection H as <- <-.
    destruct (IH b t1 t2 o2 E) as (t3 & o3 & o4 & E3 & E4 & ->). rewrite E3.
    exists t3, (o ++ o3), o4. rewrite app_assoc. auto.
Qed.

Lemma last_lookup : forall a1 dg a2 ifaces a3 t os, ifaces_typed ifaces ->
  schedule (a1 ++ KaReceives dg :: a2 ++ KaLooksUp ifaces :: a3) = Some (t, os) ->
  (forall x, ~ In (KaReceives x) a2) -> (forall fs, ~ In (KaLooksUp fs) a3) -> th_poisoned t = false ->
  exists hh, status_of dg hh /\ chosen ifaces (h_ip hh) (st_address (th_state t)).
Proof.
  intros a1 dg a2 ifaces a3 t os Hf H N2 N3 P. unfold schedule in H.
  apply schedule_split in H. destruct H as (t1 & o1 & o2 & H1 & H2 & ->).
  cbn [schedule_from] in H2. destruct (act t1 (KaReceives dg)) as [[t2 o3]|] eqn:E2; [|discriminate].
  destruct (schedule_from t2 (a2 ++ KaLooksUp ifaces :: a3)) as [[t5 o5]|] eqn:H3; [|discriminate]. injection H2 as <- <-.
  apply schedule_split in H3. destruct H3 as (t3 & o6 & o7 & H3 & H4 & ->).
  cbn [schedule_from] in H4. destruct (act t3 (KaLooksUp ifaces)) as [[t4 o8]|] eqn:E4; [|discriminate].
  destruct (schedule_from t4 a3) as [[t6 o9]|] eqn:H5; [|discriminate]. injection H4 as <- <-.
  rewrite (address_from _ _ _ _ H5 N3).
  assert (P4 : th_poisoned t4 = false).
  { destruct (th_poisoned t4) eqn:X; [|reflexivity]. rewrite (poisoned_from _ _ _ _ H5 X) in P. discriminate. }
  cbn [act] in E4. unfold ka_looks_up in E4. destruct (th_ka t3) as [| |q n ip| |] eqn:K3; try discriminate E4.
  destruct (packet_from _ _ _ _ H3 N2) as [K|K]; rewrite K3 in K; cbn [packet_of] in K; [|discriminate].
  cbn [act] in E2. unfold ka_receives in E2. destruct (th_ka t1) eqn:K1; try discriminate E2.
  destruct (ka_receive dg) as [q'| |] eqn:Er;
    [destruct (event_status q') as [[n' ip']|] eqn:Ev|..]; injection E2 as <- <-; thr; rewrite ?K1 in K; cbn [packet_of] in K;
    try discriminate K.
  injection K as -> -> ->. exists (mkHeard ip' n' (ka_model q')). split.
  - apply status_of_iff. exists q'. auto.
  - cbn [h_ip]. unfold handle_keepalive_status in E4.
    destruct (find_chosen ifaces ip' Hf) as [(o & C & Ef & _)|(_ & Ef & _)]; rewrite Ef in E4; cbn [rbind] in E4;
      injection E4 as <- <-; [exact C|discriminate P4].
Qed.
