(** Property theorems C101: the process on a number of workers. *)

From Verif Require Import Base Unicode MPackets MKeepalive MNetwork MServer MThreads MStatus MDb MDatabase MLib
  MRpc MRpcServer MNfs MSystem MProcess MTime MWorkers SNetwork SServer SThreads SUdp SRpc SRpcServer SSystem SProcess STime SWorkers
  LBase LServer LServer2 LRpc LRpc2 LRpcServer LSystem LThreads LThreads2 LThreads3 LProcess
  PServer PRpcServer PDatabase PLib PNfs PSystem PThreads PProcess PTime.
From Coq Require Import ZArith String Lia.
Open Scope list_scope.
Open Scope N_scope.

Section Pool.
Variables (n : nat) (e : endian) (p : profile) (h : hash_order) (d : database).
Notation pact := (proc_act e p h d).
Notation prun := (proc_run e p h d).
Notation wact := (pool_act n e p h d).
Notation wrun := (pool_run n e p h d).

Lemma wrun_snoc : forall acts a x x' oss, wrun x (acts ++ [a]) = Some (x', oss) ->
  exists x1 oss1 o, wrun x acts = Some (x1, oss1) /\ wact x1 a = Some (x', o) /\ oss = oss1 ++ [o].
Proof.
  induction acts as [|b acts IH]; intros a x x' oss H; cbn [app pool_run] in *.
  - destruct (wact x a) as [[x1 o]|] eqn:E; [|discriminate]. injection H as <- <-. exists x, [], o. auto.
  - destruct (wact x b) as [[x1 o]|] eqn:E; [|discriminate].
    destruct (wrun x1 (acts ++ [a])) as [[x2 o2]|] eqn:E2; [|discriminate]. injection H as <- <-.
    destruct (IH a x1 x2 o2 E2) as (x3 & o3 & o4 & E3 & E4 & ->). rewrite E3.
    exists x3, (o :: o3), o4. auto.
Qed.

Lemma wrun_app : forall a b x x1 o1 x2 o2,
  wrun x a = Some (x1, o1) -> wrun x1 b = Some (x2, o2) -> wrun x (a ++ b) = Some (x2, o1 ++ o2).
Proof.
  induction a as [|c a IH]; intros b x x1 o1 x2 o2 H1 H2.
  - injection H1 as <- <-. exact H2.
  - cbn [app pool_run] in *. destruct (wact x c) as [[x' o]|]; [|discriminate].
    destruct (wrun x' a) as [[y o']|] eqn:E; [|discriminate]. injection H1 as <- <-.
    rewrite (IH b x' y o' x2 o2 E H2). reflexivity.
Qed.

(** ** One action *)

(** A turn of a service is possible unless it is an export call under a held mutex. *)
Lemma pact_none : forall x i, pact x (ServiceActs i) = None ->
  (exists j, i = SysWorld j) \/ (takes_mutex x i = true /\ exists w, th_lock (pr_threads x) = Some w).
Proof.
  intros x i H. destruct i as [j|z|j|port j|ws|c chunk q|c|z]; [left; eauto| | | | | | |];
    right; rewrite pact_service in H by (intros k; discriminate);
    destruct (sys_step e p h d _ (services_with (pr_threads x) x)) as [s os];
    destruct (takes_mutex x _); try discriminate H; destruct (th_lock (pr_threads x)) as [w|]; try discriminate H; eauto.
Qed.

Lemma pact_threads : forall x i y o, pact x (ServiceActs i) = Some (y, o) -> pr_threads y = pr_threads x.
Proof.
  intros x i y o E. assert (Hi : not_thread i) by (intros j ->; discriminate E).
  rewrite (pact_service e p h d x i Hi) in E. destruct (sys_step e p h d i (services_with (pr_threads x) x)) as [s os].
  destruct (takes_mutex x i), (th_lock (pr_threads x)); try discriminate E; injection E as <- <-; reflexivity.
Qed.

Inductive wstep (x : pool) : pool_action -> pool -> list sys_output -> Prop :=
| ws_thread : forall a y os, pact (pl_process x) (ThreadActs a) = Some (y, os) ->
    wstep x (PoolThread a) (mkPool y (pl_waiting x)) os
| ws_turn : forall i y os, (needs_worker i -> (List.length (pl_waiting x) < n)%nat) -> own_waits x i = false ->
    pact (pl_process x) (ServiceActs i) = Some (y, os) -> wstep x (PoolTakes i) (mkPool y (pl_waiting x)) os
| ws_waits : forall port j, (List.length (pl_waiting x) < n)%nat -> own_waits x (SysUdp port j) = false ->
    takes_mutex (pl_process x) (SysUdp port j) = true -> (exists w, th_lock (pr_threads (pl_process x)) = Some w) ->
    wstep x (PoolTakes (SysUdp port j)) (mkPool (pl_process x) (pl_waiting x ++ [(port, j)])) []
| ws_goes : forall port j y os, waits_at x port = Some (port, j) -> th_lock (pr_threads (pl_process x)) = None ->
    pact (pl_process x) (ServiceActs (SysUdp port j)) = Some (y, os) ->
    wstep x (PoolGoes port) (mkPool y (filter (fun w => negb (fst w =? port)) (pl_waiting x))) os.

Lemma waits_key : forall x port q j, waits_at x port = Some (q, j) -> q = port /\ In (port, j) (pl_waiting x).
Proof.
  intros x port q j H. apply find_some in H. destruct H as [I E]. cbn [fst] in E. apply N.eqb_eq in E. subst. auto.
Qed.

Lemma wact_step : forall x a y os, wact x a = Some (y, os) -> wstep x a y os.
Proof.
  intros x [a|i|port] y os H; unfold pool_act in H.
  - destruct (pact (pl_process x) (ThreadActs a)) as [[z o]|] eqn:E; [|discriminate]. injection H as <- <-.
    constructor; exact E.
  - destruct (on_runtime i && (n <=? List.length (pl_waiting x))%nat) eqn:R; cbn [orb] in H; [discriminate|].
    destruct (own_waits x i) eqn:Ow; [discriminate|].
    assert (Lt : on_runtime i = true -> (List.length (pl_waiting x) < n)%nat).
    { intros X. rewrite X in R. apply Nat.leb_gt in R. exact R. }
    destruct (pact (pl_process x) (ServiceActs i)) as [[z o]|] eqn:E.
    + injection H as <- <-. constructor; [|exact Ow|exact E]. intros Nw. apply Lt.
      destruct i; try reflexivity; [discriminate E|exfalso; exact (Nw _ eq_refl)].
    + destruct i as [j|z|j|port j|ws|c chunk q|c|z]; try discriminate H. injection H as <- <-.
      destruct (pact_none _ _ E) as [[k X]|[T L]]; [discriminate X|]. constructor; auto.
  - destruct (waits_at x port) as [[q j]|] eqn:Wt; [|discriminate]. destruct (waits_key _ _ _ _ Wt) as [-> _].
    destruct (th_lock (pr_threads (pl_process x))) eqn:L; [discriminate|].
    destruct (pact (pl_process x) (ServiceActs (SysUdp port j))) as [[z o]|] eqn:E; [|discriminate].
    injection H as <- <-. econstructor; eauto.
Qed.

(** ** What is erased *)

Lemma flat_snoc : forall A B (f : A -> list B) l a, flat_map f (l ++ [a]) = flat_map f l ++ f a.
Proof. intros. rewrite flat_map_app. cbn. rewrite app_nil_r. reflexivity. Qed.

Lemma own_false : forall x port j, own_waits x (SysUdp port j) = false -> forall k, ~ In (port, k) (pl_waiting x).
Proof.
  intros x port j H k I. cbn [own_waits] in H. unfold waits_at in H.
  destruct (find (fun w => fst w =? port) (pl_waiting x)) eqn:F; [discriminate|].
  pose proof (find_none _ _ F _ I) as X. cbn [fst] in X. rewrite N.eqb_refl in X. discriminate.
Qed.

Lemma waiting_none : forall port ws, (forall k, ~ In (port, k) ws) -> waiting_at port ws = [].
Proof.
  intros port. induction ws as [|[q k] ws IH]; intros H; [reflexivity|]. cbn [waiting_at flat_map fst snd].
  destruct (N.eqb_spec q port) as [->|Nq]; [exfalso; apply (H k); left; reflexivity|]. cbn [app].
  apply IH. intros k' I. apply (H k'). right. exact I.
Qed.

Lemma waiting_other : forall port q ws, q <> port ->
  waiting_at q (filter (fun w => negb (fst w =? port)) ws) = waiting_at q ws.
Proof.
  intros port q. induction ws as [|[r k] ws IH]; intros H; [reflexivity|]. cbn [filter fst].
  destruct (N.eqb_spec r port) as [->|Nr]; cbn [negb waiting_at flat_map fst snd].
  - destruct (N.eqb_spec port q); [congruence|]. exact (IH H).
  - destruct (r =? q); cbn [app]; [f_equal|]; exact (IH H).
Qed.

Lemma filter_gone : forall port ws k, ~ In (port, k) (filter (fun w : N * nfs_input => negb (fst w =? port)) ws).
Proof. intros port ws k I. apply filter_In in I. destruct I as [_ X]. cbn [fst] in X. rewrite N.eqb_refl in X. discriminate. Qed.

Lemma waiting_single : forall port j ws, NoDup (map fst ws) -> In (port, j) ws -> waiting_at port ws = [j].
Proof.
  intros port j. induction ws as [|[q k] ws IH]; intros Nd I; [destruct I|].
  cbn [map fst] in Nd. inversion Nd as [|? ? Nq Nd']; subst. cbn [waiting_at flat_map fst snd].
  destruct I as [I|I].
  - injection I as -> ->. rewrite N.eqb_refl. cbn [app]. f_equal. apply waiting_none. intros k' I'.
    apply Nq. apply (in_map fst) in I'. exact I'.
  - destruct (N.eqb_spec q port) as [->|Nqp]; [exfalso; apply Nq; apply (in_map fst) in I; exact I|].
    exact (IH Nd' I).
Qed.

Lemma keys_kept : forall port ws, NoDup (map fst ws) ->
  NoDup (map fst (filter (fun w : N * nfs_input => negb (fst w =? port)) ws)).
Proof.
  intros port. induction ws as [|[q k] ws IH]; intros Nd; [constructor|]. cbn [map fst filter] in *.
  inversion Nd as [|? ? Nq Nd']; subst. destruct (negb (q =? port)); [|exact (IH Nd')]. cbn [map fst].
  constructor; [|exact (IH Nd')]. intros I. apply Nq. apply in_map_iff in I. destruct I as ([r k'] & E & I).
  cbn [fst] in E. subst r. apply filter_In in I. destruct I as [I _]. apply (in_map fst) in I. exact I.
Qed.

(** Mount services run only at ports the port mapper has given out. *)
Lemma started_mount : forall outs u port b,
  start_services u outs port = MountUdp b -> (exists b', u port = MountUdp b') \/ In (PmStart ProgramService port) outs.
Proof.
  induction outs as [|o outs IH]; intros u port b H; [left; eauto|]. cbn [start_services fold_left] in H.
  fold (start_services (match o with
    | PmStart NfsService port => at_key u port (NfsUdp service_new)
    | PmStart ProgramService port => at_key u port (MountUdp true)
    | PmReply _ _ => u
    end) outs) in H. destruct (IH _ _ _ H) as [[b' X]|X]; [|right; right; exact X].
  destruct o as [[|] q|to dd]; [| |left; eauto].
  - unfold at_key in X. destruct (N.eqb_spec port q); [discriminate X|]. left. eauto.
  - unfold at_key in X. destruct (N.eqb_spec port q) as [->|]; [right; left; reflexivity|]. left. eauto.
Qed.

Lemma mount_step : forall x i y o port b, pact x (ServiceActs i) = Some (y, o) ->
  pr_udp y port = MountUdp b -> (exists b', pr_udp x port = MountUdp b') \/ In port (mount_ports o).
Proof.
  intros x i y o port b E U. assert (Hi : not_thread i) by (intros j ->; discriminate E).
  rewrite (pact_service e p h d x i Hi) in E.
  destruct (sys_step e p h d i (services_with (pr_threads x) x)) as [s os] eqn:S.
  assert (E' : sy_udp s port = MountUdp b /\ o = os).
  { destruct (takes_mutex x i), (th_lock (pr_threads x)); try discriminate E; injection E as <- <-; auto. }
  clear E U. destruct E' as [U ->]. unfold sys_step, services_with in S.
  cbn [sy_world w_running pr_status pr_mapper pr_joined pr_query pr_db pr_udp sy_status sy_mapper sy_joined sy_query sy_db sy_udp] in S.
  destruct i as [j|z|j|q j|ws|c chunk [q|]|c|z].
  - exfalso. exact (Hi j eq_refl).
  - destruct (pr_status x); [destruct (status_turn z)|]; injection S as <- <-; left; eauto.
  - destruct (pr_mapper x); [|injection S as <- <-; left; eauto].
    destruct (pm_turn j) as [r outs]. injection S as <- <-. cbn [with_mapper sy_udp] in U.
    destruct (started_mount _ _ _ _ U) as [X|X]; [left; exact X|right].
    unfold mount_ports. apply in_flat_map. exists (OutMapper (PmStart ProgramService port)).
    split; [apply in_map; exact X|left; reflexivity].
  - left. unfold udp_turn in S. destruct (pr_udp x q) as [|v|r] eqn:Uq.
    + injection S as <- <-. cbn [with_udp sy_udp] in U. unfold at_key in U. destruct (N.eqb_spec port q); [discriminate|eauto].
    + destruct (nfs_turn e j v). injection S as <- <-. cbn [with_udp sy_udp] in U. unfold at_key in U.
      destruct (N.eqb_spec port q); [discriminate|eauto].
    + assert (X : exists b', sy_udp s = at_key (pr_udp x) q (MountUdp b')).
      { destruct r; [destruct (ms_turn _)|]; injection S as <- <-; cbn [with_udp sy_udp]; eauto. }
      destruct X as [b' X]. rewrite X in U. unfold at_key in U. destruct (N.eqb_spec port q) as [->|]; eauto.
  - destruct (pr_joined x), (pr_mapper x); injection S as <- <-; left; eauto.
  - destruct (pr_query x c); [|injection S as <- <-; left; eauto].
    destruct (db_step p h d (pr_db x) (Query q chunk)). injection S as <- <-. left; eauto.
  - destruct (pr_query x c); injection S as <- <-; left; eauto.
  - injection S as <- <-; left; eauto.
  - destruct z; try (injection S as <- <-; left; eauto);
      match type of S with context [db_step ?a ?b ?c ?x ?y] => destruct (db_step a b c x y) end;
      injection S as <- <-; left; eauto.
Qed.

(** What a reachable pool is. *)
Record pool_inv (mp db : bool) (acts : list pool_action) (x : pool) (outs : list (list sys_output)) : Prop := mkPI {
  pi_run : exists acts' outs', prun (process_start mp db) acts' = Some (pl_process x, outs') /\
    List.concat outs' = List.concat outs /\ thread_acts acts' = pool_threads acts /\
    elsewhere (handled acts') = elsewhere (pool_taken acts) /\
    (forall port, at_port port (handled acts') ++ waiting_at port (pl_waiting x) = at_port port (pool_taken acts));
  pi_mounts : forall port b, pr_udp (pl_process x) port = MountUdp b -> In port (mount_ports (List.concat outs));
  pi_keys : NoDup (map fst (pl_waiting x));
  pi_few : (List.length (pl_waiting x) <= n)%nat;
  pi_ports : forall port j, In (port, j) (pl_waiting x) -> In port (mount_ports (List.concat outs));
  pi_calls : taken_typed acts -> forall port j, In (port, j) (pl_waiting x) -> export_question j
}.

Lemma mount_ports_app : forall a b, mount_ports (a ++ b) = mount_ports a ++ mount_ports b.
Proof. intros. apply flat_map_app. Qed.
Lemma handled_app : forall a b, handled (a ++ b) = handled a ++ handled b.
Proof. intros. apply flat_map_app. Qed.
Lemma at_port_app : forall q a b, at_port q (a ++ b) = at_port q a ++ at_port q b.
Proof. intros. apply flat_map_app. Qed.
Lemma elsewhere_app : forall a b, elsewhere (a ++ b) = elsewhere a ++ elsewhere b.
Proof. intros. apply flat_map_app. Qed.
Lemma waiting_app : forall q a b, waiting_at q (a ++ b) = waiting_at q a ++ waiting_at q b.
Proof. intros. apply flat_map_app. Qed.
Lemma taken_app : forall a b, pool_taken (a ++ b) = pool_taken a ++ pool_taken b.
Proof. intros. apply flat_map_app. Qed.
Lemma pool_threads_app : forall a b, pool_threads (a ++ b) = pool_threads a ++ pool_threads b.
Proof. intros. apply flat_map_app. Qed.

Lemma prun_one : forall x c y o, pact x c = Some (y, o) -> prun x [c] = Some (y, [o]).
Proof. intros x c y o E. cbn [proc_run]. rewrite E. reflexivity. Qed.

Lemma filter_le : forall A (f : A -> bool) l, (List.length (filter f l) <= List.length l)%nat.
Proof. induction l as [|a l IH]; cbn [filter]; [lia|]. destruct (f a); cbn [List.length]; lia. Qed.

Lemma nodup_snoc : forall A (l : list A) a, NoDup l -> ~ In a l -> NoDup (l ++ [a]).
Proof.
  induction l as [|b l IH]; intros a Nd Na; [constructor; [intros []|constructor]|].
  inversion Nd as [|? ? Nb Nd']; subst. cbn [app]. constructor.
  - intros I. apply in_app_or in I. destruct I as [I|[->|[]]]; [exact (Nb I)|]. apply Na. left. reflexivity.
  - apply IH; [exact Nd'|]. intros I. apply Na. right. exact I.
Qed.

Lemma pool_reached : forall mp db acts x outs, wrun (pool_start mp db) acts = Some (x, outs) ->
  pool_inv mp db acts x outs.
Proof.
  intros mp db acts. induction acts as [|a acts IH] using rev_ind; intros x outs H.
  - injection H as <- <-. constructor.
    + exists [], []. repeat (split; [reflexivity|]). reflexivity.
    + intros port b X. discriminate X.
    + constructor.
    + cbn. lia.
    + intros port j [].
    + intros _ port j [].
  - apply wrun_snoc in H. destruct H as (x1 & o1 & o & H & E & ->).
    destruct (IH x1 o1 H) as [(acts' & outs' & P & C & Th & El & At) Mo Ke Fe Po Ca]. apply wact_step in E.
    assert (Ca' : taken_typed (acts ++ [a]) -> taken_typed acts) by (intros T q k I; apply (T q k); apply in_or_app; auto).
    assert (Up : forall q l, In q (mount_ports (List.concat o1)) -> In q (mount_ports (List.concat (o1 ++ [l])))).
    { intros q l I. rewrite concat_one, mount_ports_app. apply in_or_app. left. exact I. }
    destruct E as [b y os E|i y os Lt Ow E|port j Lt Ow T L|port j y os Wt L E]; cbn [pl_process pl_waiting].
    + constructor; cbn [pl_process pl_waiting]; auto.
      * exists (acts' ++ [ThreadActs b]), (outs' ++ [os]).
        split; [exact (prun_app e p h d _ _ _ _ _ _ _ P (prun_one _ _ _ _ E))|].
        rewrite !concat_one, C, thread_acts_app, Th, pool_threads_app, handled_app, taken_app, elsewhere_app, El.
        split; [reflexivity|]. split; [reflexivity|]. split; [rewrite elsewhere_app; reflexivity|]. intros q.
        rewrite !at_port_app. cbn [handled pool_taken flat_map app at_port]. rewrite !app_nil_r. exact (At q).
      * intros q b' U. apply Up. apply (Mo q b'). cbn [proc_act] in E.
        destruct (act (pr_threads (pl_process x1)) b) as [[t os']|]; [|discriminate]. injection E as <- <-. exact U.
      * intros q k I. apply Up. exact (Po q k I).
      * intros Tt. exact (Ca (Ca' Tt)).
    + constructor; cbn [pl_process pl_waiting]; auto.
      * exists (acts' ++ [ServiceActs i]), (outs' ++ [os]).
        split; [exact (prun_app e p h d _ _ _ _ _ _ _ P (prun_one _ _ _ _ E))|].
        rewrite !concat_one, C, thread_acts_app, Th, pool_threads_app, handled_app, taken_app, elsewhere_app, El.
        split; [reflexivity|]. split; [reflexivity|]. split; [rewrite elsewhere_app; reflexivity|]. intros q.
        rewrite !at_port_app, <- (At q). cbn [handled pool_taken flat_map app]. rewrite <- !app_assoc. f_equal.
        destruct i as [ | | |r k| | | | ]; cbn [at_port flat_map app]; try (rewrite app_nil_r; reflexivity).
        destruct (N.eqb_spec r q) as [->|]; [|cbn [app]; rewrite app_nil_r; reflexivity].
        rewrite (waiting_none q _ (own_false _ _ _ Ow)). reflexivity.
      * intros q b' U. destruct (mount_step _ _ _ _ _ _ E U) as [[b2 X]|X]; [apply Up; exact (Mo q b2 X)|].
        rewrite concat_one, mount_ports_app. apply in_or_app. right. exact X.
      * intros q k I. apply Up. exact (Po q k I).
      * intros Tt. exact (Ca (Ca' Tt)).
    + constructor; cbn [pl_process pl_waiting].
      * exists acts', outs'. split; [exact P|].
        rewrite concat_one, app_nil_r, pool_threads_app, taken_app, elsewhere_app. cbn [pool_threads pool_taken elsewhere flat_map app].
        rewrite !app_nil_r. split; [exact C|]. split; [exact Th|]. split; [exact El|]. intros q.
        rewrite at_port_app, waiting_app, app_assoc, (At q). reflexivity.
      * intros q b U. apply Up. exact (Mo q b U).
      * rewrite map_app. cbn [map fst]. apply nodup_snoc; [exact Ke|]. intros I. apply in_map_iff in I.
        destruct I as ([q k] & X & I). cbn [fst] in X. subst q. exact (own_false _ _ _ Ow k I).
      * rewrite app_length. cbn [List.length]. lia.
      * intros q k I. apply Up. apply in_app_or in I. destruct I as [I|[I|[]]]; [exact (Po q k I)|].
        injection I as <- <-. cbn [takes_mutex] in T. destruct (pr_udp (pl_process x1) port) as [|v|b] eqn:U; try discriminate T.
        exact (Mo port b U).
      * intros Tt q k I. apply in_app_or in I. destruct I as [I|[I|[]]]; [exact (Ca (Ca' Tt) q k I)|].
        injection I as <- <-. assert (B : bytes_ok (ni_datagram j)).
        { apply (Tt port). apply in_or_app. right. left. reflexivity. }
        apply takes_iff in T; [|intros r k X; injection X as <- <-; exact B].
        destruct T as (r & k & m & c & X & _ & Cs & Cb & Cp). injection X as <- <-. exists m, c. auto.
    + destruct (waits_key _ _ _ _ Wt) as [_ In0].
      constructor; cbn [pl_process pl_waiting].
      * exists (acts' ++ [ServiceActs (SysUdp port j)]), (outs' ++ [os]).
        split; [exact (prun_app e p h d _ _ _ _ _ _ _ P (prun_one _ _ _ _ E))|].
        rewrite !concat_one, C, thread_acts_app, Th, pool_threads_app, handled_app, taken_app, elsewhere_app, El.
        cbn [handled thread_acts pool_threads pool_taken elsewhere flat_map app]. rewrite !app_nil_r.
        split; [reflexivity|]. split; [reflexivity|]. split; [reflexivity|]. intros q.
        rewrite at_port_app, <- (At q), <- app_assoc. f_equal. cbn [at_port flat_map].
        destruct (N.eqb_spec port q) as [->|Nq].
        -- rewrite (waiting_none q _ (filter_gone q _)), (waiting_single q j _ Ke In0). reflexivity.
        -- cbn [app]. apply waiting_other. congruence.
      * intros q b' U. destruct (mount_step _ _ _ _ _ _ E U) as [[b2 X]|X]; [apply Up; exact (Mo q b2 X)|].
        rewrite concat_one, mount_ports_app. apply in_or_app. right. exact X.
      * exact (keys_kept port _ Ke).
      * pose proof (filter_le _ (fun w : N * nfs_input => negb (fst w =? port)) (pl_waiting x1)). lia.
      * intros q k I. apply filter_In in I. apply Up. exact (Po q k (proj1 I)).
      * intros Tt q k I. apply filter_In in I. exact (Ca (Ca' Tt) q k (proj1 I)).
Qed.

Lemma pool_schedule : forall mp db acts x outs, wrun (pool_start mp db) acts = Some (x, outs) ->
  exists os, schedule (pool_threads acts) = Some (pr_threads (pl_process x), os).
Proof.
  intros mp db acts x outs H. destruct (pool_reached _ _ _ _ _ H) as [(acts' & outs' & P & C & Th & _) _ _ _ _ _].
  rewrite <- Th. eexists. exact (proc_threads e p h d _ _ _ _ _ P).
Qed.

Lemma pool_locked : forall mp db acts x outs, wrun (pool_start mp db) acts = Some (x, outs) ->
  locked (pr_threads (pl_process x)).
Proof. intros mp db acts x outs H. destruct (pool_schedule _ _ _ _ _ H) as [os S]. exact (schedule_locked _ _ _ S). Qed.

Lemma own_iff : forall x i, own_waits x i = true <-> service_waits x i.
Proof.
  intros x i. unfold service_waits. split.
  - intros H. destruct i as [ | | |port j| | | | ]; try discriminate H. cbn [own_waits] in H.
    destruct (waits_at x port) as [[q k]|] eqn:E; [|discriminate]. destruct (waits_key _ _ _ _ E) as [-> I]. eauto.
  - intros (port & j & k & -> & I). destruct (own_waits x (SysUdp port j)) eqn:E; [reflexivity|].
    exfalso. exact (own_false _ _ _ E k I).
Qed.

Lemma takes_none : forall x i, not_thread i ->
  (wact x (PoolTakes i) = None <-> (needs_worker i /\ (n <= List.length (pl_waiting x))%nat) \/ service_waits x i).
Proof.
  intros x i Ni. rewrite <- own_iff. cbn [pool_act]. unfold needs_worker. split.
  - intros H. destruct (own_waits x i) eqn:Ow; [right; reflexivity|left].
    destruct (on_runtime i) eqn:R; cbn [andb orb] in H.
    + split; [intros z ->; discriminate R|]. destruct (n <=? List.length (pl_waiting x))%nat eqn:L; [apply Nat.leb_le; exact L|].
      exfalso. cbn [orb] in H. destruct (pact (pl_process x) (ServiceActs i)) as [[y o]|] eqn:E; [discriminate H|].
      destruct (pact_none _ _ E) as [[k X]|[T _]]; [exact (Ni k X)|].
      destruct i; try discriminate T. discriminate H.
    + exfalso. destruct (pact (pl_process x) (ServiceActs i)) as [[y o]|] eqn:E; [discriminate H|].
      destruct (pact_none _ _ E) as [[k X]|[T _]]; [exact (Ni k X)|]. destruct i; try discriminate T; discriminate R.
  - intros [[Nw L]|Ow].
    + assert (R : on_runtime i = true).
      { destruct i; try reflexivity; exfalso; [exact (Ni _ eq_refl)|exact (Nw _ eq_refl)]. }
      apply Nat.leb_le in L. rewrite R, L. reflexivity.
    + rewrite Ow, orb_true_r. reflexivity.
Qed.

Lemma goes_iff : forall x port, locked (pr_threads (pl_process x)) ->
  (wact x (PoolGoes port) <> None <-> (exists j, In (port, j) (pl_waiting x)) /\ forall w, ~ inside (pr_threads (pl_process x)) w).
Proof.
  intros x port L. cbn [pool_act]. split.
  - intros H. destruct (waits_at x port) as [[q j]|] eqn:Wt; [|congruence]. destruct (waits_key _ _ _ _ Wt) as [-> I].
    destruct (th_lock (pr_threads (pl_process x))) eqn:Lk; [congruence|]. split; [eauto|].
    intros w X. apply (inside_locked _ w L) in X. congruence.
  - intros [(j & I) F] H.
    assert (Wt : exists k, waits_at x port = Some (port, k)).
    { destruct (waits_at x port) as [[q k]|] eqn:Wt; [destruct (waits_key _ _ _ _ Wt) as [-> _]; eauto|].
      pose proof (find_none _ _ Wt _ I) as X. cbn [fst] in X. rewrite N.eqb_refl in X. discriminate. }
    destruct Wt as [k Wt]. rewrite Wt in H.
    destruct (th_lock (pr_threads (pl_process x))) as [w|] eqn:Lk; [exact (F w (proj2 (inside_locked _ w L) Lk))|].
    destruct (pact (pl_process x) (ServiceActs (SysUdp port k))) as [[y o]|] eqn:E; [discriminate|].
    destruct (pact_none _ _ E) as [[z X]|[_ [w X]]]; [discriminate|congruence].
Qed.

Lemma still : forall x acts x' outs, locked (pr_threads (pl_process x)) -> List.length (pl_waiting x) = n ->
  wrun x acts = Some (x', outs) ->
  (forall acts1 acts2 x1 o1, acts = acts1 ++ acts2 -> acts2 <> [] -> wrun x acts1 = Some (x1, o1) ->
     exists w, inside (pr_threads (pl_process x1)) w) ->
  Forall (fun a => match a with PoolThread _ | PoolTakes (SysStatus _) => True | _ => False end) acts /\
  pl_waiting x' = pl_waiting x /\
  Forall (Forall (fun o => match o with OutStatus _ | OutWorld _ => True | _ => False end)) outs.
Proof.
  intros x acts. revert x. induction acts as [|a acts IH]; intros x x' outs L Ln H Iw; cbn [pool_run] in H.
  - injection H as <- <-. auto.
  - destruct (wact x a) as [[x1 o]|] eqn:E; [|discriminate].
    destruct (wrun x1 acts) as [[x2 o2]|] eqn:E2; [|discriminate]. injection H as <- <-. pose proof E as Ew. apply wact_step in E.
    destruct (Iw [] (a :: acts) x [] eq_refl ltac:(discriminate) eq_refl) as [w I]. apply (inside_locked _ w L) in I. rename I into Lk.
    assert (S : (match a with PoolThread _ | PoolTakes (SysStatus _) => True | _ => False end) /\
      pl_waiting x1 = pl_waiting x /\ locked (pr_threads (pl_process x1)) /\
      Forall (fun o => match o with OutStatus _ | OutWorld _ => True | _ => False end) o).
    { clear Ew. destruct E as [b y os E|i y os Lt Ow E|port j Lt Ow T Lw|port j y os Wt Lw E]; cbn [pl_process pl_waiting].
      - cbn [proc_act] in E. destruct (act (pr_threads (pl_process x)) b) as [[t os']|] eqn:Ea; [|discriminate].
        injection E as <- <-. cbn [pr_threads]. split; [exact I|]. split; [reflexivity|].
        split; [exact (locked_step _ _ _ _ L Ea)|].
        apply Forall_forall. intros z Hz. apply in_map_iff in Hz. destruct Hz as (z' & <- & _). exact I.
      - assert (Z : exists z, i = SysStatus z).
        { destruct i; try (exfalso; assert (X : (List.length (pl_waiting x) < n)%nat) by (apply Lt; intros z X; discriminate X); lia).
          eauto. }
        destruct Z as [z ->]. split; [exact I|]. split; [reflexivity|]. rewrite (pact_threads _ _ _ _ E).
        split; [exact L|]. rewrite pact_service in E by (intros k; discriminate).
        cbn [takes_mutex] in E. destruct (sys_step e p h d (SysStatus z) (services_with (pr_threads (pl_process x)) (pl_process x))) as [s os'] eqn:S.
        injection E as <- <-. unfold sys_step, services_with in S. cbn [sy_world w_running sy_status] in S.
        destruct (pr_status (pl_process x)); [|injection S as <- <-; constructor].
        destruct (status_turn z); injection S as <- <-; try constructor.
        apply Forall_forall. intros y Hy. apply in_map_iff in Hy. destruct Hy as (y' & <- & _). exact I.
      - exfalso. lia.
      - congruence. }
    destruct S as (S1 & S2 & S3 & S5). rewrite <- S2 in Ln.
    destruct (IH x1 x2 o2 S3 Ln E2) as (I1 & I2 & I4).
    { intros acts1 acts2 y o1 -> Na R. refine (Iw (a :: acts1) acts2 y (o :: o1) eq_refl Na _). cbn [pool_run]. rewrite Ew, R. reflexivity. }
    split; [constructor; assumption|]. split; [congruence|]. constructor; assumption.
Qed.

(** From the start of a handshake to its end the main thread is at it. *)
Lemma sends_on : forall acts t t' os, schedule_from t acts = Some (t', os) ->
  (exists a k, th_app t = AppSends a k) -> ~ In AppReleases acts -> (exists a k, th_app t' = AppSends a k) \/ th_app t' = AppGone.
Proof.
  induction acts as [|b acts IH]; intros t t' os H (a & k & E) Nr; cbn [schedule_from] in H.
  - injection H as <- <-. left. eauto.
  - destruct (act t b) as [[t1 o]|] eqn:Ea; [|discriminate].
    destruct (schedule_from t1 acts) as [[t2 os2]|] eqn:E2; [|discriminate]. injection H as <- <-.
    assert (S : (exists a k, th_app t1 = AppSends a k) \/ th_app t1 = AppGone).
    { clear E2 IH. destruct t as [s q l qu ka bc ap]. cbn [th_app] in E. subst ap.
      destruct b; cbn [act] in Ea;
        unfold ka_receives, ka_fails, ka_acquires, ka_looks_up, ka_queues, ka_releases, bc_acquires, bc_sends,
          bc_releases, app_takes, app_acquires, app_sends_next, app_releases in Ea;
        cbn [th_ka th_bc th_app th_lock th_poisoned th_state th_queue] in Ea; act_cases Ea; subst; cbn; eauto;
        exfalso; apply Nr; left; reflexivity. }
    destruct S as [S|S]; [exact (IH t1 t2 os2 E2 S (fun X => Nr (or_intror X)))|]. right.
    clear - E2 S. revert t1 t2 os2 E2 S. induction acts as [|c acts IH]; intros t1 t2 os2 E2 S; cbn [schedule_from] in E2.
    + injection E2 as <- <-. exact S.
    + destruct (act t1 c) as [[t3 o3]|] eqn:Ec; [|discriminate].
      destruct (schedule_from t3 acts) as [[t4 o4]|] eqn:E4; [|discriminate]. injection E2 as <- <-.
      exact (IH t3 t4 o4 E4 (gone_stays _ _ _ _ Ec S)).
Qed.

Lemma gone_from_on : forall acts t t' os, schedule_from t acts = Some (t', os) -> th_app t = AppGone -> th_app t' = AppGone.
Proof.
  induction acts as [|c acts IH]; intros t1 t2 os2 E2 S; cbn [schedule_from] in E2.
  - injection E2 as <- <-. exact S.
  - destruct (act t1 c) as [[t3 o3]|] eqn:Ec; [|discriminate].
    destruct (schedule_from t3 acts) as [[t4 o4]|] eqn:E4; [|discriminate]. injection E2 as <- <-.
    exact (IH t3 t4 o4 E4 (gone_stays _ _ _ _ Ec S)).
Qed.

Lemma wrun_threads : forall acts x x' outs, wrun x acts = Some (x', outs) ->
  exists os, schedule_from (pr_threads (pl_process x)) (pool_threads acts) = Some (pr_threads (pl_process x'), os).
Proof.
  induction acts as [|a acts IH]; intros x x' outs H; cbn [pool_run] in H.
  - injection H as <- <-. exists []. reflexivity.
  - destruct (wact x a) as [[x1 o]|] eqn:E; [|discriminate].
    destruct (wrun x1 acts) as [[x2 o2]|] eqn:E2; [|discriminate]. injection H as <- <-. apply wact_step in E.
    destruct (IH _ _ _ E2) as [os S].
    destruct E as [b y os' E|i y os' Lt Ow E|port j Lt Ow T Lw|port j y os' Wt Lw E]; cbn [pl_process] in S;
      cbn [pool_threads flat_map app]; fold (pool_threads acts).
    + cbn [proc_act] in E. destruct (act (pr_threads (pl_process x)) b) as [[t os2]|] eqn:Ea; [|discriminate].
      injection E as <- <-. cbn [pr_threads] in S. cbn [schedule_from]. rewrite Ea, S. eauto.
    + rewrite (pact_threads _ _ _ _ E) in S. eauto.
    + eauto.
    + rewrite (pact_threads _ _ _ _ E) in S. eauto.
Qed.

Lemma pool_split_threads : forall l a b, pool_threads l = a ++ b ->
  exists l1 l2, l = l1 ++ l2 /\ pool_threads l1 = a /\ pool_threads l2 = b.
Proof.
  induction l as [|x l IH]; intros a b H.
  - cbn in H. symmetry in H. apply app_eq_nil in H. destruct H as [-> ->]. exists [], []. auto.
  - destruct x as [y|i|i]; cbn [pool_threads flat_map app] in H; fold (pool_threads l) in H.
    + destruct a as [|z a].
      * cbn in H. exists [], (PoolThread y :: l). split; [reflexivity|]. split; [reflexivity|]. exact H.
      * cbn [app] in H. injection H as -> H. destruct (IH a b H) as (l1 & l2 & -> & <- & <-).
        exists (PoolThread z :: l1), l2. auto.
    + destruct (IH a b H) as (l1 & l2 & -> & <- & <-). exists (PoolTakes i :: l1), l2. auto.
    + destruct (IH a b H) as (l1 & l2 & -> & <- & <-). exists (PoolGoes i :: l1), l2. auto.
Qed.

Lemma wrun_split : forall a b x x' oss, wrun x (a ++ b) = Some (x', oss) ->
  exists x1 o1 o2, wrun x a = Some (x1, o1) /\ wrun x1 b = Some (x', o2) /\ oss = o1 ++ o2.
Proof.
  induction a as [|c a IH]; intros b x x' oss H.
  - exists x, [], oss. auto.
  - cbn [app pool_run] in H |- *. destruct (wact x c) as [[x1 o]|]; [|discriminate].
    destruct (wrun x1 (a ++ b)) as [[x2 o2]|] eqn:E; [|discriminate]. injection H as <- <-.
    destruct (IH b x1 x2 o2 E) as (x3 & o3 & o4 & E3 & E4 & ->). rewrite E3. exists x3, (o :: o3), o4. auto.
Qed.

(** All that wait go, one after the other, once the mutex is free. *)
Lemma all_go : forall ws y, NoDup (map fst ws) -> th_lock (pr_threads y) = None ->
  exists x outs, wrun (mkPool y ws) (map PoolGoes (map fst ws)) = Some (x, outs) /\ pl_waiting x = [].
Proof.
  induction ws as [|[port j] ws IH]; intros y Nd Lk; [eexists _, _; split; reflexivity|].
  cbn [map fst] in *. inversion Nd as [|? ? Np Nd']; subst.
  cbn [pool_run pool_act]. unfold waits_at. cbn [pl_waiting pl_process find fst]. rewrite N.eqb_refl, Lk.
  destruct (pact y (ServiceActs (SysUdp port j))) as [[z o]|] eqn:E.
  - cbn [filter fst]. rewrite N.eqb_refl. cbn [negb].
    assert (F : filter (fun w : N * nfs_input => negb (fst w =? port)) ws = ws).
    { clear - Np. induction ws as [|[q k] ws IH]; [reflexivity|]. cbn [filter fst map In] in *.
      destruct (N.eqb_spec q port) as [->|]; [exfalso; apply Np; left; reflexivity|]. cbn [negb]. f_equal.
      apply IH. intros X. apply Np. right. exact X. }
    rewrite F. destruct (IH z Nd') as (x & outs & R & W); [rewrite (pact_threads _ _ _ _ E); exact Lk|].
    rewrite R. eauto.
  - destruct (pact_none _ _ E) as [[z X]|[_ [w X]]]; [discriminate|congruence].
Qed.
End Pool.

(** ** C101 *)

(** Whatever the number of workers, the process does what it does without a limit
    on them: the threads act as before, what is sent is the same, and each service
    handles what it has taken, in that order, but for the call that still waits
    there. *)
Theorem C101_same_answers : forall n e p h d mp db acts x outs,
  pool_run n e p h d (pool_start mp db) acts = Some (x, outs) ->
  exists acts' outs', proc_run e p h d (process_start mp db) acts' = Some (pl_process x, outs') /\
    List.concat outs' = List.concat outs /\ thread_acts acts' = pool_threads acts /\
    elsewhere (handled acts') = elsewhere (pool_taken acts) /\
    forall port, at_port port (handled acts') ++ waiting_at port (pl_waiting x) = at_port port (pool_taken acts).
Proof. intros n e p h d mp db acts x outs H. exact (pi_run _ _ _ _ _ _ _ _ _ _ (pool_reached _ _ _ _ _ _ _ _ _ _ H)). Qed.
Print Assumptions C101_same_answers.

(** All that is not sent by the threads is sent by the services. *)
Lemma not_world : forall os, world_outputs os = [] ->
  filter (fun o => match o with OutWorld _ => false | _ => true end) os = os.
Proof.
  induction os as [|o os IH]; intros H; [reflexivity|]. cbn [world_outputs flat_map] in H. fold (world_outputs os) in H.
  apply app_eq_nil in H. destruct H as [H1 H2]. cbn [filter]. destruct o; try discriminate H1; f_equal; exact (IH H2).
Qed.
Lemma all_world : forall os, filter (fun o => match o with OutWorld _ => false | _ => true end) (map OutWorld os) = [].
Proof. induction os; [reflexivity|assumption]. Qed.

Lemma services_only : forall e p h d acts x y outs, proc_run e p h d x acts = Some (y, outs) ->
  filter (fun o => match o with OutWorld _ => false | _ => true end) (List.concat outs) =
  List.concat (map snd (at_services (combine acts outs))).
Proof.
  intros e p h d. induction acts as [|a acts IH]; intros x y outs H; cbn [proc_run] in H.
  - injection H as <- <-. reflexivity.
  - destruct (proc_act e p h d x a) as [[x1 o]|] eqn:E; [|discriminate].
    destruct (proc_run e p h d x1 acts) as [[x2 o2]|] eqn:E2; [|discriminate]. injection H as <- <-.
    cbn [List.concat combine at_services flat_map]. fold (at_services (combine acts o2)).
    rewrite filter_app, (IH _ _ _ E2), map_app, concat_app. f_equal. destruct a as [a|i].
    + cbn [proc_act] in E. destruct (act (pr_threads x) a) as [[t os]|]; [|discriminate]. injection E as <- <-. apply all_world.
    + assert (Ni : not_thread i) by (intros k ->; discriminate E).
      rewrite (pact_service e p h d x i Ni) in E.
      pose proof (service_quiet e p h d i (services_with (pr_threads x) x) Ni) as [_ Q].
      destruct (sys_step e p h d i (services_with (pr_threads x) x)) as [s os]. cbn [snd] in Q.
      assert (E' : o = os).
      { destruct (takes_mutex x i), (th_lock (pr_threads x)); try discriminate E; injection E as <- <-; reflexivity. }
      subst o. cbn [map snd List.concat]. rewrite app_nil_r. exact (not_world _ Q).
Qed.

Lemma services_only_turns : forall e p h d is s,
  filter (fun o => match o with OutWorld _ => false | _ => true end) (List.concat (snd (sys_run e p h d is s))) =
  List.concat (map snd (beside_threads (combine is (snd (sys_run e p h d is s))))).
Proof.
  intros e p h d. induction is as [|i is IH]; intros s; [reflexivity|]. cbn [sys_run].
  destruct (sys_step e p h d i s) as [s1 o] eqn:E. specialize (IH s1). destruct (sys_run e p h d is s1) as [s2 os].
  cbn [snd List.concat combine beside_threads flat_map] in *. fold (beside_threads (combine is os)).
  rewrite filter_app, IH, map_app, concat_app. f_equal.
  destruct i as [j|z|j|port j|ws|c chunk q|c|z];
    [unfold sys_step in E; destruct (w_running (sy_world s)); [destruct (step (sy_world s) j) as [w ow]|]; injection E as <- <-;
     [apply all_world|reflexivity]|..];
    cbn [map snd List.concat]; rewrite app_nil_r; apply not_world;
    match type of E with sys_step _ _ _ _ ?i _ = _ =>
      pose proof (service_quiet e p h d i s ltac:(intros k; discriminate)) as [_ Q] end; rewrite E in Q; exact Q.
Qed.

(** With C77: until the main thread panics, what the services have sent is what
    they send in some history of whole turns. *)
Theorem C101_answers_are_those_of_histories : forall n e p h d mp db acts x outs,
  acts_typed (pool_threads acts) ->
  pool_run n e p h d (pool_start mp db) acts = Some (x, outs) -> th_app (pr_threads (pl_process x)) <> AppGone ->
  exists is, inputs_typed (world_inputs is) /\ process_runs is /\
    let (s, souts) := sys_run e p h d is (system_start true true mp db) in
    same_services (pl_process x) s /\
    filter (fun o => match o with OutWorld _ => false | _ => true end) (List.concat outs) =
    filter (fun o => match o with OutWorld _ => false | _ => true end) (List.concat souts) /\
    elsewhere (pool_taken acts) = elsewhere (flat_map (fun i => match i with SysWorld _ => [] | _ => [i] end) is) /\
    forall port, at_port port (pool_taken acts) = at_port port is ++ waiting_at port (pl_waiting x).
Proof.
  intros n e p h d mp db acts x outs Ht H G. destruct (C101_same_answers _ _ _ _ _ _ _ _ _ _ H) as (acts' & outs' & P & C & Th & El & At).
  rewrite <- Th in Ht.
  destruct (C77_answers_are_those_of_histories e p h d mp db acts' _ outs' Ht P G) as (is & late & T & R & _ & _ & S).
  exists is. split; [exact T|]. split; [exact R|]. rewrite <- C, <- El.
  pose proof (prun_length _ _ _ _ _ _ _ _ P) as Lp.
  pose proof (srun_length e p h d is (system_start true true mp db)) as Ls.
  destruct (sys_run e p h d is (system_start true true mp db)) as [s souts] eqn:Er. cbn [snd] in Ls. destruct S as [Tr Sm].
  split; [exact Sm|].
  set (nw := fun o : sys_output => match o with OutWorld _ => false | _ => true end).
  assert (Hs : forall l m, List.length l = List.length m -> flat_map (fun a => match a with ServiceActs i => [i] | ThreadActs _ => [] end) l
    = map fst (at_services (combine l m))).
  { induction l as [|a l IH]; intros [|o m] E; try discriminate E; [reflexivity|]. cbn [flat_map combine at_services].
    fold (at_services (combine l m)). rewrite map_app, (IH m) by (cbn in E; congruence). destruct a; reflexivity. }
  assert (Hi : forall (l : list sys_input) (m : list (list sys_output)), List.length l = List.length m ->
    flat_map (fun i => match i with SysWorld _ => [] | _ => [i] end) l = map fst (beside_threads (combine l m))).
  { induction l as [|a l IH]; intros [|o m] E; try discriminate E; [reflexivity|]. cbn [flat_map combine beside_threads].
    fold (beside_threads (combine l m)). rewrite map_app, (IH m) by (cbn in E; congruence). destruct a; reflexivity. }
  assert (Eh : handled acts' = flat_map (fun i => match i with SysWorld _ => [] | _ => [i] end) is).
  { unfold handled. rewrite (Hs acts' outs') by congruence. rewrite (Hi is souts) by congruence. rewrite Tr. reflexivity. }
  split; [|split].
  - unfold nw. rewrite (services_only e p h d _ _ _ _ P). pose proof (services_only_turns e p h d is (system_start true true mp db)) as X.
    rewrite Er in X. cbn [snd] in X. rewrite X, Tr. reflexivity.
  - rewrite Eh. reflexivity.
  - intros port. rewrite <- (At port), Eh. f_equal. clear. induction is as [|i is IH]; [reflexivity|].
    cbn [flat_map]. rewrite at_port_app, IH. change (i :: is) with ([i] ++ is). rewrite at_port_app. destruct i; reflexivity.
Qed.
Print Assumptions C101_answers_are_those_of_histories.

(** And even with one worker it can do all that. *)
Theorem C101_one_is_enough : forall n e p h d mp db acts x outs, (1 <= n)%nat ->
  proc_run e p h d (process_start mp db) acts = Some (x, outs) ->
  pool_run n e p h d (pool_start mp db)
    (map (fun a => match a with ThreadActs a => PoolThread a | ServiceActs i => PoolTakes i end) acts)
  = Some (mkPool x [], outs).
Proof.
  intros n e p h d mp db acts x outs Hn. unfold pool_start. generalize (process_start mp db). revert x outs.
  induction acts as [|a acts IH]; intros x outs y H; cbn [proc_run] in H.
  - injection H as <- <-. reflexivity.
  - destruct (proc_act e p h d y a) as [[y1 o]|] eqn:E; [|discriminate].
    destruct (proc_run e p h d y1 acts) as [[y2 o2]|] eqn:E2; [|discriminate]. injection H as <- <-.
    cbn [map pool_run].
    assert (S : pool_act n e p h d (mkPool y []) (match a with ThreadActs a => PoolThread a | ServiceActs i => PoolTakes i end)
      = Some (mkPool y1 [], o)).
    { destruct a as [a|i]; cbn [pool_act pl_process pl_waiting]; [rewrite E; reflexivity|].
      replace (n <=? List.length (@nil (N * nfs_input)))%nat with false by (symmetry; apply Nat.leb_gt; exact Hn).
      rewrite andb_false_r. replace (own_waits (mkPool y []) i) with false by (destruct i; reflexivity).
      cbn [orb]. rewrite E. reflexivity. }
    rewrite S, (IH _ _ _ E2). reflexivity.
Qed.
Print Assumptions C101_one_is_enough.

(** Who waits: EXPORT calls, at most one at each port, only at ports given out
    for other services than the file service, and no more than there are
    workers. *)
Theorem C101_who_waits : forall n e p h d mp db acts x outs, taken_typed acts ->
  pool_run n e p h d (pool_start mp db) acts = Some (x, outs) ->
  (List.length (pl_waiting x) <= n)%nat /\ NoDup (map fst (pl_waiting x)) /\
  forall port j, In (port, j) (pl_waiting x) -> In port (mount_ports (List.concat outs)) /\ export_question j.
Proof.
  intros n e p h d mp db acts x outs T H. destruct (pool_reached _ _ _ _ _ _ _ _ _ _ H) as [_ _ Ke Fe Po Ca].
  split; [exact Fe|]. split; [exact Ke|]. intros port j I. split; [exact (Po _ _ I)|exact (Ca T _ _ I)].
Qed.
Print Assumptions C101_who_waits.

(** What cannot be taken: what is for a service that waits itself, and, while
    there are as many calls waiting as workers, everything but the datagrams for
    the status service. *)
Theorem C101_waits_exactly : forall n e p h d mp db acts x outs i,
  pool_run n e p h d (pool_start mp db) acts = Some (x, outs) -> (forall j, i <> SysWorld j) ->
  (pool_act n e p h d x (PoolTakes i) = None <->
   (needs_worker i /\ List.length (pl_waiting x) = n) \/ service_waits x i).
Proof.
  intros n e p h d mp db acts x outs i H Ni. rewrite (takes_none n e p h d x i Ni).
  pose proof (pi_few _ _ _ _ _ _ _ _ _ _ (pool_reached _ _ _ _ _ _ _ _ _ _ H)) as F.
  split; (intros [[A B]|A]; [left; split; [exact A|lia]|right; exact A]).
Qed.
Print Assumptions C101_waits_exactly.

(** With more workers than ports have been given out for the mount service, only a
    service that waits itself takes nothing. *)
Theorem C101_enough_workers : forall n e p h d mp db acts x outs ports i,
  pool_run n e p h d (pool_start mp db) acts = Some (x, outs) -> (forall j, i <> SysWorld j) ->
  incl (mount_ports (List.concat outs)) ports -> (List.length ports < n)%nat ->
  (pool_act n e p h d x (PoolTakes i) = None <-> service_waits x i).
Proof.
  intros n e p h d mp db acts x outs ports i H Ni Ip Lp. rewrite (C101_waits_exactly _ _ _ _ _ _ _ _ _ _ _ H Ni).
  destruct (pool_reached _ _ _ _ _ _ _ _ _ _ H) as [_ _ Ke Fe Po _].
  split; [|intros X; right; exact X]. intros [[_ L]|X]; [|exact X]. exfalso.
  assert (Le : (List.length (map fst (pl_waiting x)) <= List.length ports)%nat).
  { apply NoDup_incl_length; [exact Ke|]. intros q Iq. apply in_map_iff in Iq. destruct Iq as ([r k] & <- & Iq).
    apply Ip. exact (Po r k Iq). }
  rewrite map_length in Le. lia.
Qed.
Print Assumptions C101_enough_workers.

(** A call that waits is let go exactly when no thread uses the shared state. *)
Theorem C101_goes_exactly : forall n e p h d mp db acts x outs port,
  pool_run n e p h d (pool_start mp db) acts = Some (x, outs) ->
  (pool_act n e p h d x (PoolGoes port) <> None <->
   (exists j, In (port, j) (pl_waiting x)) /\ forall w, ~ inside (pr_threads (pl_process x)) w).
Proof. intros. apply goes_iff. eapply pool_locked; eassumption. Qed.
Print Assumptions C101_goes_exactly.

(** That happens within 41 actions of the thread that uses it; then all calls
    that wait can go, one after the other, and after them everything can be
    taken. *)
Theorem C101_all_go : forall n e p h d mp db acts x outs acts' x' outs' w, (1 <= n)%nat ->
  acts_typed (pool_threads (acts ++ acts')) ->
  pool_run n e p h d (pool_start mp db) acts = Some (x, outs) -> inside (pr_threads (pl_process x)) w ->
  pool_run n e p h d x acts' = Some (x', outs') -> (41 <= actions_of w (pool_threads acts'))%nat ->
  exists acts1 acts2 x1 outs1, acts' = acts1 ++ acts2 /\ pool_run n e p h d x acts1 = Some (x1, outs1) /\
    exists y outs2, pool_run n e p h d x1 (map PoolGoes (map fst (pl_waiting x1))) = Some (y, outs2) /\
      forall i, (forall j, i <> SysWorld j) -> pool_act n e p h d y (PoolTakes i) <> None.
Proof.
  intros n e p h d mp db acts x outs acts' x' outs' w Hn Ht H I H' Ha. rewrite pool_threads_app in Ht.
  destruct (pool_schedule _ _ _ _ _ _ _ _ _ _ H) as [os S]. destruct (wrun_threads _ _ _ _ _ _ _ _ _ H') as [os' S'].
  destruct (C70_lets_go _ _ _ w _ _ _ Ht S I S' Ha) as (a1 & a2 & t1 & os1 & E & S1 & Free & _).
  destruct (pool_split_threads _ _ _ E) as (l1 & l2 & -> & <- & <-).
  destruct (wrun_split _ _ _ _ _ _ _ _ _ _ H') as (x1 & o1 & o2 & P1 & P2 & ->).
  exists l1, l2, x1, o1. split; [reflexivity|]. split; [exact P1|].
  destruct (wrun_threads _ _ _ _ _ _ _ _ _ P1) as [os2 S2]. rewrite S2 in S1. injection S1 as S1 _.
  pose proof (wrun_app _ _ _ _ _ _ _ _ _ _ _ _ H P1) as R1.
  assert (Lk : th_lock (pr_threads (pl_process x1)) = None).
  { destruct (th_lock (pr_threads (pl_process x1))) as [w'|] eqn:X; [|reflexivity]. exfalso. apply (Free w'). rewrite <- S1.
    apply (inside_locked _ w' (pool_locked _ _ _ _ _ _ _ _ _ _ R1)). exact X. }
  destruct (all_go n e p h d (pl_waiting x1) (pl_process x1)
    (pi_keys _ _ _ _ _ _ _ _ _ _ (pool_reached _ _ _ _ _ _ _ _ _ _ R1)) Lk) as (y & outs2 & R & W).
  exists y, outs2. split; [destruct x1; exact R|]. intros i Ni X. apply takes_none in X; [|exact Ni]. rewrite W in X.
  destruct X as [[_ X]|(port & j & k & _ & X)]; [cbn in X; lia|]. rewrite W in X. exact X.
Qed.
Print Assumptions C101_all_go.

(** While as many calls wait as there are workers and some thread uses the shared
    state, nothing is served but the status service: whatever happens is an action of
    a thread or a status datagram, and nothing else is sent. *)
Theorem C101_stalled : forall n e p h d mp db acts x outs acts' x' outs',
  pool_run n e p h d (pool_start mp db) acts = Some (x, outs) -> List.length (pl_waiting x) = n ->
  pool_run n e p h d x acts' = Some (x', outs') ->
  (forall acts1 acts2 x1 o1, acts' = acts1 ++ acts2 -> acts2 <> [] -> pool_run n e p h d x acts1 = Some (x1, o1) ->
     exists w, inside (pr_threads (pl_process x1)) w) ->
  (forall a, In a acts' -> (exists b, a = PoolThread b) \/ exists z, a = PoolTakes (SysStatus z)) /\
  pl_waiting x' = pl_waiting x /\
  forall o, In o (List.concat outs') -> (exists b, o = OutWorld b) \/ exists z, o = OutStatus z.
Proof.
  intros n e p h d mp db acts x outs acts' x' outs' H Ln H' Iw.
  destruct (still n e p h d x acts' x' outs' (pool_locked _ _ _ _ _ _ _ _ _ _ H) Ln H' Iw) as (A & B & C).
  split; [|split; [exact B|]].
  - intros a Ia. rewrite Forall_forall in A. specialize (A a Ia). destruct a as [b|[]|]; try destruct A; eauto.
  - intros o Io. apply in_concat in Io. destruct Io as (os & Ios & Io). rewrite Forall_forall in C.
    specialize (C os Ios). rewrite Forall_forall in C. specialize (C o Io). destruct o; try destruct C; eauto.
Qed.
Print Assumptions C101_stalled.

Lemma acquires_sends : forall t t' o, act t AppAcquires = Some (t', o) ->
  (exists a k, th_app t' = AppSends a k) \/ th_app t' = AppGone.
Proof.
  intros [s q l qu ka bc ap] t' o H. cbn [act] in H. unfold app_acquires in H.
  cbn [th_app th_lock th_poisoned th_state] in H. act_cases H; subst; cbn; eauto.
Qed.

(** A handshake that comes to its end takes at least 3.95 s, and a call taken
    meanwhile that waits is not let go before; so once as many wait as there are
    workers, for the rest of that time nothing but the status service takes
    anything. *)
Theorem C101_stall_lasts : forall n e p h d mp db pre mid1 mid2 post x outs tpre s tmid s' tpost c os y outs1,
  let acts := pre ++ PoolThread AppAcquires :: (mid1 ++ mid2) ++ PoolThread AppReleases :: post in
  pool_run n e p h d (pool_start mp db) acts = Some (x, outs) -> ~ In (PoolThread AppReleases) (mid1 ++ mid2) ->
  timed (tpre ++ (s, AppAcquires) :: tmid ++ (s', AppReleases) :: tpost) = Some (c, os) ->
  map snd tpre = pool_threads pre -> map snd tmid = pool_threads (mid1 ++ mid2) -> map snd tpost = pool_threads post ->
  pool_run n e p h d (pool_start mp db) (pre ++ PoolThread AppAcquires :: mid1) = Some (y, outs1) ->
  s + 3950 <= s' /\ (forall port, ~ In (PoolGoes port) (mid1 ++ mid2)) /\
  (List.length (pl_waiting y) = n ->
   forall a, In a mid2 -> (exists b, a = PoolThread b) \/ exists z, a = PoolTakes (SysStatus z)).
Proof.
  intros n e p h d mp db pre mid1 mid2 post x outs tpre s tmid s' tpost c os y outs1 acts H Nr Tm Ep Em Eo Hy.
  split.
  { refine (proj1 (C73_handshake_takes _ _ _ _ _ _ _ Tm _)). intros z Iz X. apply Nr.
    assert (J : In AppReleases (pool_threads (mid1 ++ mid2))) by (rewrite <- Em, <- X; apply in_map; exact Iz).
    apply in_flat_map in J. destruct J as (b & Ib & Jb). destruct b; cbn in Jb; try contradiction.
    destruct Jb as [->|[]]. exact Ib. }
  subst acts. destruct (wrun_split _ _ _ _ _ _ _ _ _ _ H) as (x0 & o0 & r0 & P0 & H1 & ->).
  cbn [pool_run] in H1. destruct (pool_act n e p h d x0 (PoolThread AppAcquires)) as [[x1 oa]|] eqn:Ea; [|discriminate].
  destruct (pool_run n e p h d x1 ((mid1 ++ mid2) ++ PoolThread AppReleases :: post)) as [[xx r1]|] eqn:H2; [|discriminate].
  injection H1 as <- <-.
  destruct (wrun_split _ _ _ _ _ _ _ _ _ _ H2) as (x3 & o3 & r3 & P3 & H3 & ->).
  assert (P1 : pool_run n e p h d (pool_start mp db) (pre ++ [PoolThread AppAcquires]) = Some (x1, o0 ++ [oa])).
  { eapply wrun_app; [exact P0|]. cbn [pool_run]. rewrite Ea. reflexivity. }
  assert (A1 : (exists a k, th_app (pr_threads (pl_process x1)) = AppSends a k) \/ th_app (pr_threads (pl_process x1)) = AppGone).
  { cbn [pool_act proc_act] in Ea. destruct (act (pr_threads (pl_process x0)) AppAcquires) as [[t o]|] eqn:E; [|discriminate].
    injection Ea as <- <-. exact (acquires_sends _ _ _ E). }
  assert (A3 : exists a k, th_app (pr_threads (pl_process x3)) = AppSends a k).
  { cbn [pool_run pool_act proc_act] in H3. destruct (act (pr_threads (pl_process x3)) AppReleases) as [[t o]|] eqn:E; [|discriminate].
    cbn [act] in E. unfold app_releases in E. destruct (th_app (pr_threads (pl_process x3))); try discriminate E. eauto. }
  assert (Nt : forall l, ~ In (PoolThread AppReleases) l -> ~ In AppReleases (pool_threads l)).
  { intros l Nl J. apply Nl. apply in_flat_map in J. destruct J as (b & Ib & Jb). destruct b; cbn in Jb; try contradiction.
    destruct Jb as [->|[]]. exact Ib. }
  assert (Iw : forall l1 l2 z oz, mid1 ++ mid2 = l1 ++ l2 -> pool_run n e p h d x1 l1 = Some (z, oz) ->
    inside (pr_threads (pl_process z)) AppThread).
  { intros l1 l2 z oz El Pz. rewrite El in *. destruct (wrun_split _ _ _ _ _ _ _ _ _ _ P3) as (z' & oz' & r' & Pz' & P4 & ->).
    rewrite Pz in Pz'. injection Pz' as <- <-.
    destruct (wrun_threads _ _ _ _ _ _ _ _ _ Pz) as [q1 S1]. destruct (wrun_threads _ _ _ _ _ _ _ _ _ P4) as [q2 S2].
    destruct A3 as (a3 & k3 & A3). destruct A1 as [A1|A1].
    - destruct (sends_on _ _ _ _ S1 A1) as [X|X]; [apply Nt; intros J; apply Nr; apply in_or_app; left; exact J|exact X|].
      exfalso. pose proof (gone_from_on _ _ _ _ S2 X). congruence.
    - exfalso. pose proof (gone_from_on _ _ _ _ S2 (gone_from_on _ _ _ _ S1 A1)). congruence. }
  split.
  - intros port J. apply in_split in J. destruct J as (l1 & l2 & El).
    assert (P3' := P3). rewrite El in P3'. destruct (wrun_split _ _ _ _ _ _ _ _ _ _ P3') as (z & oz & r & Pz & P4 & ->).
    pose proof (Iw l1 _ z oz El Pz) as I. cbn [pool_run] in P4.
    destruct (pool_act n e p h d z (PoolGoes port)) as [[z' oz']|] eqn:Eg; [|discriminate].
    assert (G : pool_act n e p h d z (PoolGoes port) <> None) by congruence.
    apply (C101_goes_exactly _ _ _ _ _ _ _ _ _ _ _ (wrun_app _ _ _ _ _ _ _ _ _ _ _ _ P1 Pz)) in G.
    exact (proj2 G AppThread I).
  - intros Ln a Ia. destruct (wrun_split _ _ _ _ _ _ _ _ _ _ P3) as (y' & oy & ry & Py & P5 & ->).
    assert (Ey : y' = y).
    { pose proof (wrun_app _ _ _ _ _ _ _ _ _ _ _ _ P1 Py) as R. rewrite <- app_assoc in R. cbn [app] in R.
      rewrite Hy in R. injection R as -> _. reflexivity. }
    subst y'. refine (proj1 (C101_stalled _ _ _ _ _ _ _ _ _ _ _ _ _ Hy Ln P5 _) a Ia).
    intros l1 l2 z oz -> _ Pz. exists AppThread.
    refine (Iw (mid1 ++ l1) l2 z (oy ++ oz) _ (wrun_app _ _ _ _ _ _ _ _ _ _ _ _ Py Pz)). rewrite app_assoc. reflexivity.
Qed.
Print Assumptions C101_stall_lasts.

(** Ports are asked for one after the other. *)
Definition ask_ports (k : nat) : list pool_action :=
  map (fun q => PoolTakes (SysMapper (mkPmIn getport_mount 1 (Some (4000 + N.of_nat q)) true))) (seq 0 k).
Definition ask_exports (k : nat) : list pool_action :=
  map (fun q => PoolTakes (SysUdp (4000 + N.of_nat q) (mkNfsIn export_call 1 demo true true))) (seq 0 k).

Section Stall.
Variables (n : nat) (e : endian) (p : profile) (h : hash_order) (d : database).
Notation wrun := (pool_run n e p h d).

Lemma threads_first : forall l t t' os y ws, schedule_from t l = Some (t', os) -> pr_threads y = t ->
  exists outs, wrun (mkPool y ws) (map PoolThread l) =
    Some (mkPool (mkProcess t' (pr_status y) (pr_mapper y) (pr_joined y) (pr_query y) (pr_db y) (pr_udp y)) ws, outs).
Proof.
  induction l as [|a l IH]; intros t t' os y ws H E; cbn [schedule_from] in H.
  - injection H as <- <-. exists []. subst t. destruct y. reflexivity.
  - destruct (act t a) as [[t1 o]|] eqn:Ea; [|discriminate].
    destruct (schedule_from t1 l) as [[t2 os2]|] eqn:E2; [|discriminate]. injection H as <- <-.
    cbn [map pool_run pool_act pl_process pl_waiting proc_act]. rewrite E, Ea.
    destruct (IH t1 t2 os2 (mkProcess t1 (pr_status y) (pr_mapper y) (pr_joined y) (pr_query y) (pr_db y) (pr_udp y)) ws E2 eq_refl)
      as [outs R]. cbn [pr_status pr_mapper pr_joined pr_query pr_db pr_udp] in R. rewrite R. eauto.
Qed.

Lemma port_given : forall port, exists dd,
  pm_turn (mkPmIn getport_mount 1 (Some port) true) = (true, [PmStart ProgramService port; PmReply 1 dd]).
Proof.
  intros port. exists (codec_encode (reply_to (PortmapGetportReply port) 8)). unfold pm_turn. change (codec_decode (pi_datagram (mkPmIn getport_mount 1 (Some port) true))) with (codec_decode getport_mount).
  destruct (codec_decode getport_mount) as [[m|]| |] eqn:E; try (vm_compute in E; discriminate E).
  vm_compute in E. inversion E; subst. cbn [pi_port pi_send pi_from rpc_body ca_procedure gp_program rpc_xid].
  match goal with |- context [send_to true ?x] => replace (send_to true x) with true end; reflexivity.
Qed.

Lemma asked_ports : forall k y, (1 <= n)%nat -> pr_mapper y = true ->
  exists z outs, wrun (mkPool y []) (ask_ports k) = Some (mkPool z [], outs) /\ pr_threads z = pr_threads y /\
    pr_mapper z = true /\ forall q, (q < k)%nat -> pr_udp z (4000 + N.of_nat q) = MountUdp true.
Proof.
  intros k y Hn Hm. induction k as [|k IH].
  - exists y, []. split; [reflexivity|]. split; [reflexivity|]. split; [exact Hm|]. intros q Hq. lia.
  - destruct IH as (z & outs & R & T & M & U). destruct (port_given (4000 + N.of_nat k)) as [dd Pt].
    eexists (mkProcess (pr_threads z) (pr_status z) true (pr_joined z) (pr_query z) (pr_db z)
      (at_key (pr_udp z) (4000 + N.of_nat k) (MountUdp true))), _.
    split.
    { unfold ask_ports. rewrite seq_S, map_app. cbn [map plus]. fold (ask_ports k). eapply wrun_app; [exact R|].
      cbn [pool_run pool_act pl_process pl_waiting on_runtime own_waits andb orb List.length].
      replace (n <=? 0)%nat with false by (symmetry; apply Nat.leb_gt; exact Hn). cbn [orb].
      cbn [proc_act takes_mutex]. unfold sys_step, services_with. cbn [sy_world w_running sy_mapper]. rewrite M, Pt.
      cbn [with_mapper sy_status sy_mapper sy_joined sy_query sy_db sy_udp start_services fold_left]. reflexivity. }
    split; [exact T|]. split; [reflexivity|]. intros q Hq. cbn [pr_udp]. unfold at_key.
    destruct (N.eqb_spec (4000 + N.of_nat q) (4000 + N.of_nat k)) as [|Ne]; [reflexivity|]. apply U. lia.
Qed.

Lemma asked_exports : forall k y w, (k <= n)%nat -> th_lock (pr_threads y) = Some w ->
  (forall q, (q < k)%nat -> pr_udp y (4000 + N.of_nat q) = MountUdp true) ->
  exists outs, wrun (mkPool y []) (ask_exports k) =
    Some (mkPool y (map (fun q => (4000 + N.of_nat q, mkNfsIn export_call 1 demo true true)) (seq 0 k)), outs).
Proof.
  intros k y w Hk Lk U. induction k as [|k IH]; [exists []; reflexivity|].
  destruct IH as [outs R]; [lia|intros q Hq; apply U; lia|]. eexists. unfold ask_exports. rewrite seq_S, !map_app. cbn [map plus].
  fold (ask_exports k). eapply wrun_app; [exact R|].
  assert (Ln : Nat.leb n (List.length (map (fun q => (4000 + N.of_nat q, mkNfsIn export_call 1 demo true true)) (seq 0 k))) = false).
  { apply Nat.leb_gt. rewrite map_length, seq_length. lia. }
  cbn [pool_run pool_act pl_process pl_waiting on_runtime andb]. rewrite Ln. cbn [orb].
  match goal with |- context [own_waits ?x ?i] => assert (Ow : own_waits x i = false) end.
  { cbn [own_waits]. unfold waits_at. cbn [pl_waiting].
    match goal with |- context [find ?f ?l] => destruct (find f l) as [[q j]|] eqn:F; [exfalso|reflexivity] end.
    apply find_some in F. destruct F as [I X]. apply in_map_iff in I. destruct I as (r & E & I). apply (f_equal fst) in E. cbn [fst] in E. subst q.
    cbn [fst] in X. apply N.eqb_eq in X. apply in_seq in I. lia. }
  rewrite Ow.
  assert (Tk : takes_mutex y (SysUdp (4000 + N.of_nat k) (mkNfsIn export_call 1 demo true true)) = true).
  { cbn [takes_mutex]. rewrite U by lia. vm_compute. reflexivity. }
  rewrite pact_service by (intros j; discriminate). rewrite Tk, Lk. reflexivity.
Qed.

Lemma prefix_threads : exists t os, schedule_from threads_start (firstn 20 example_acts) = Some (t, os) /\
  th_lock t = Some AppThread /\ inside t AppThread.
Proof.
  eexists _, _. split; [vm_compute; reflexivity|]. split; [reflexivity|]. unfold inside. cbn [th_app]. eauto.
Qed.
End Stall.

(** It is not true that a handshake leaves the other services alone: for every
    number of workers there is a history in which as many EXPORT calls arrive
    while the handshake is sent, after which no service but the status service takes
    anything. *)
Theorem C101_others_unaffected_refuted : forall n e p h d, (1 <= n)%nat ->
  exists acts x outs, acts_typed (pool_threads acts) /\ taken_typed acts /\
    pool_run n e p h d (pool_start true true) acts = Some (x, outs) /\
    inside (pr_threads (pl_process x)) AppThread /\ List.length (pl_waiting x) = n /\
    forall i, needs_worker i -> pool_act n e p h d x (PoolTakes i) = None.
Proof.
  intros n e p h d Hn. destruct prefix_threads as (t & os & S & Lk & I).
  destruct (threads_first n e p h d _ _ _ _ (process_start true true) [] S eq_refl) as [o1 R1].
  cbn [process_start pr_status pr_mapper pr_joined pr_query pr_db pr_udp] in R1.
  destruct (asked_ports n e p h d n _ Hn (eq_refl : pr_mapper (mkProcess t true true true (fun _ => false) (fun _ => NoHandler) (fun _ => NoService)) = true))
    as (z & o2 & R2 & T & M & U). cbn [pr_threads] in T.
  assert (Lz : th_lock (pr_threads z) = Some AppThread) by (rewrite T; exact Lk).
  destruct (asked_exports n e p h d n z AppThread (le_n n) Lz U) as [o3 R3].
  pose proof (wrun_app _ _ _ _ _ _ _ _ _ _ _ _ R1 (wrun_app _ _ _ _ _ _ _ _ _ _ _ _ R2 R3)) as R.
  eexists (map PoolThread (firstn 20 example_acts) ++ ask_ports n ++ ask_exports n), _, _.
  split; [|split; [|split; [exact R|split; [|split]]]]; cbn [pl_process pl_waiting].
  - intros fs H. apply example_acts_typed. rewrite !pool_threads_app in H.
    assert (X : forall k, pool_threads (ask_ports k) = [] /\ pool_threads (ask_exports k) = []).
    { intros k. unfold ask_ports, ask_exports. generalize 0%nat. induction k as [|k IH]; intros s0; [split; reflexivity|].
      cbn [seq map pool_threads flat_map app]. apply IH. }
    destruct (X n) as [X1 X2]. rewrite X1, X2, !app_nil_r in H.
    assert (Y : forall l, pool_threads (map PoolThread l) = l).
    { induction l as [|a l IH]; [reflexivity|]. cbn [map pool_threads flat_map app]. f_equal. exact IH. }
    rewrite Y in H. rewrite <- (firstn_skipn 20 example_acts). apply in_or_app. left. exact H.
  - intros port j H. apply in_app_or in H. destruct H as [H|H]; [apply in_map_iff in H; destruct H as (b & X & _); discriminate X|].
    apply in_app_or in H. destruct H as [H|H]; apply in_map_iff in H; destruct H as (b & X & _); [discriminate X|].
    injection X as <- <-. cbn [ni_datagram]. apply demo_bytes. vm_compute. reflexivity.
  - rewrite T. exact I.
  - rewrite map_length, seq_length. reflexivity.
  - intros i Nw. cbn [pool_act pl_waiting]. rewrite map_length, seq_length, Nat.leb_refl, andb_true_r.
    destruct i; try reflexivity. exfalso. exact (Nw _ eq_refl).
Qed.
Print Assumptions C101_others_unaffected_refuted.

(** One worker, one call: on a machine with one core a single EXPORT call during
    the handshake holds up the port mapper, the database port and the file
    service; with two cores they answer. *)
Example C101_case :
  let acts := map PoolThread (firstn 20 example_acts) ++ ask_ports 1 ++ ask_exports 1 in
  let others := [SysMapper (mkPmIn getport_nfs 1 (Some 4100) true); SysJoin [Some 7]] in
  forall n, (n = 1 \/ n = 2)%nat -> exists x outs,
    pool_run n Little Checked reverse_order example_db (pool_start true true) acts = Some (x, outs) /\
    inside (pr_threads (pl_process x)) AppThread /\ map fst (pl_waiting x) = [4000] /\
    mount_ports (List.concat outs) = [4000] /\
    map (fun i => match pool_act n Little Checked reverse_order example_db x (PoolTakes i) with
                  | Some (_, os) => Some (List.length os) | None => None end) others
    = (if Nat.eqb n 1 then [None; None] else [Some 2%nat; Some 1%nat]) /\
    pool_act n Little Checked reverse_order example_db x (PoolGoes 4000) = None /\
    exists x' outs', pool_run n Little Checked reverse_order example_db x
      (map PoolThread (repeat (AppSendsNext true) 40 ++ [AppReleases]) ++ [PoolGoes 4000]) = Some (x', outs') /\
      pl_waiting x' = [] /\ (41 <= actions_of AppThread (repeat (AppSendsNext true) 40 ++ [AppReleases]))%nat.
Proof.
  intros acts others n [->| ->]; eexists _, _; (split; [vm_compute; reflexivity|]);
    (split; [unfold inside; cbn [pl_process pr_threads th_app]; eauto|]); (split; [reflexivity|]);
    (split; [reflexivity|]); (split; [vm_compute; reflexivity|]); (split; [reflexivity|]);
    eexists _, _; (split; [vm_compute; reflexivity|]); (split; [reflexivity|]); vm_compute; lia.
Qed.

(** On one core the call comes at 160 ms; it is answered, and the port mapper heard
    again, after 4110 ms. *)
Example C101_lasting_case :
  let threads l := map PoolThread (map snd l) in
  let tpre := firstn 10 example_timed in
  let tmid := firstn 41 (skipn 11 example_timed) in
  let tpost := skipn 53 example_timed in
  let pre := threads tpre ++ ask_ports 1 in
  let post := PoolGoes 4000 :: PoolTakes (SysMapper (mkPmIn getport_nfs 1 (Some 4100) true)) :: threads tpost in
  exists x outs c os y outs1,
    pool_run 1 Little Checked reverse_order example_db (pool_start true true)
      (pre ++ PoolThread AppAcquires :: (ask_exports 1 ++ threads tmid) ++ PoolThread AppReleases :: post) = Some (x, outs) /\
    timed (tpre ++ (160, AppAcquires) :: tmid ++ (4110, AppReleases) :: tpost) = Some (c, os) /\
    map snd tpre = pool_threads pre /\ map snd tmid = pool_threads (ask_exports 1 ++ threads tmid) /\
    map snd tpost = pool_threads post /\
    pool_run 1 Little Checked reverse_order example_db (pool_start true true)
      (pre ++ PoolThread AppAcquires :: ask_exports 1) = Some (y, outs1) /\
    List.length (pl_waiting y) = 1%nat /\ pl_waiting x = [].
Proof.
  cbv zeta. eexists _, _, _, _, _, _. split; [vm_compute; reflexivity|]. split; [vm_compute; reflexivity|].
  split; [reflexivity|]. split; [vm_compute; reflexivity|]. split; [vm_compute; reflexivity|].
  split; [vm_compute; reflexivity|]. split; reflexivity.
Qed.
