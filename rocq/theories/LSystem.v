(** Lemmas on the process as a whole. *)

From Verif Require Import Base Unicode MPackets MNetwork MServer MStatus MDb MDatabase MLib MRpc MRpcServer MNfs MSystem SUdp
  SRpc SRpcServer SServer SNfs SSystem LBase LServer LServer2 LRpcServer.
From Coq Require Import ZArith.
Open Scope list_scope.
Open Scope N_scope.

Section Sys.
Variables (e : endian) (p : profile) (h : hash_order) (d : database).
Notation sstep := (sys_step e p h d).
Notation srun := (sys_run e p h d).

Lemma srun_app : forall a b s,
  srun (a ++ b) s =
  (fst (srun b (fst (srun a s))), snd (srun a s) ++ snd (srun b (fst (srun a s)))).
Proof.
  induction a as [|i a IH]; intros b s; cbn [app sys_run fst snd].
  - destruct (srun b s); reflexivity.
  - destruct (sstep i s) as [s1 o]. rewrite IH. destruct (srun a s1) as [s2 os]. reflexivity.
Qed.

Lemma srun_snoc : forall a i s,
  fst (srun (a ++ [i]) s) = fst (sstep i (fst (srun a s))) /\
  snd (srun (a ++ [i]) s) = snd (srun a s) ++ [snd (sstep i (fst (srun a s)))].
Proof.
  intros a i s. rewrite srun_app. cbn [fst snd sys_run].
  destruct (sstep i (fst (srun a s))); split; reflexivity.
Qed.

Lemma srun_length : forall a s, List.length (snd (srun a s)) = List.length a.
Proof.
  induction a as [|i a IH]; intros s; cbn [sys_run]; [reflexivity|].
  destruct (sstep i s) as [s1 o]. specialize (IH s1). destruct (srun a s1). cbn [snd List.length] in *. congruence.
Qed.

(** Discovery and linking go their own way. *)
Lemma world_step : forall i s,
  sy_world (fst (sstep i s)) = match i with SysWorld j => fst (step (sy_world s) j) | _ => sy_world s end /\
  world_outputs (snd (sstep i s)) = match i with SysWorld j => snd (step (sy_world s) j) | _ => [] end.
Proof.
  intros i s. unfold sys_step. destruct (w_running (sy_world s)) eqn:R.
  - destruct i as [j|x|j|port j|ws|c chunk [port|]|c|x].
    + destruct (step (sy_world s) j) as [w os]. cbn [fst snd]. split; [reflexivity|].
      unfold world_outputs. induction os; cbn; [reflexivity|congruence].
    + destruct (sy_status s); [destruct (status_turn x) as [out| |]|]; cbn [fst snd]; split; try reflexivity.
      unfold world_outputs. induction out; cbn; [reflexivity|assumption].
    + destruct (sy_mapper s); [destruct (pm_turn j) as [b outs]|]; cbn [fst snd]; split; try reflexivity.
      unfold world_outputs. induction outs; cbn; [reflexivity|assumption].
    + unfold udp_turn. destruct (sy_udp s port) as [|v|[|]]; cbn [fst snd]; [split; reflexivity| | |split; reflexivity].
      * destruct (nfs_turn e j v) as [v' outs]. cbn [fst snd]. split; [reflexivity|].
        unfold world_outputs. induction outs; cbn; [reflexivity|assumption].
      * destruct (ms_turn _) as [b outs]. cbn [fst snd]. split; [reflexivity|].
        unfold world_outputs. induction outs; cbn; [reflexivity|assumption].
    + destruct (sy_joined s), (sy_mapper s); cbn [fst snd]; split; try reflexivity.
      unfold world_outputs. induction (accepted ws); cbn; [reflexivity|assumption].
    + destruct (sy_query s c); split; reflexivity.
    + destruct (sy_query s c); split; reflexivity.
    + split; reflexivity.
    + destruct x as [q ch|q|q ch|q]; [split; reflexivity| | |];
        match goal with |- context [db_step ?a ?b ?c ?x ?y] => destruct (db_step a b c x y) as [db outs] end;
        cbn [fst snd]; (split; [reflexivity|]); unfold world_outputs; induction outs; cbn; auto.
  - cbn [fst snd]. destruct i; split; try reflexivity; unfold step; rewrite R; reflexivity.
Qed.

Lemma world_run : forall is s,
  sy_world (fst (srun is s)) = fst (run_from (sy_world s) (world_inputs is)) /\
  world_outputs (List.concat (snd (srun is s))) = List.concat (snd (run_from (sy_world s) (world_inputs is))).
Proof.
  induction is as [|i is IH]; intros s; [split; reflexivity|].
  cbn [sys_run]. pose proof (world_step i s) as [W O]. destruct (sstep i s) as [s1 o]. cbn [fst snd] in W, O.
  specialize (IH s1). destruct (srun is s1) as [s2 os]. cbn [fst snd List.concat] in *.
  unfold world_outputs in *. rewrite flat_map_app, O.
  assert (X : world_inputs (i :: is) = match i with SysWorld j => j :: world_inputs is | _ => world_inputs is end)
    by (destruct i; reflexivity).
  rewrite X. rewrite W in IH.
  destruct i as [j|x|j|port j|ws|c chunk port|c|x]; try exact IH.
  cbn [run_from]. destruct (step (sy_world s) j) as [w o']. cbn [fst snd] in *.
  destruct (run_from w (world_inputs is)) as [w2 os']. cbn [fst snd List.concat] in *.
  destruct IH as [-> ->]. split; reflexivity.
Qed.

(** The end of the process is the end of everything. *)
Lemma stopped : forall is s, w_running (sy_world s) = false ->
  fst (srun is s) = s /\ List.concat (snd (srun is s)) = [].
Proof.
  induction is as [|i is IH]; intros s R; [split; reflexivity|].
  cbn [sys_run]. unfold sys_step. rewrite R. specialize (IH s R). destruct (srun is s). exact IH.
Qed.

Lemma running_before : forall i is s, w_running (sy_world (fst (srun (i :: is) s))) = true ->
  w_running (sy_world s) = true /\ w_running (sy_world (fst (srun is (fst (sstep i s))))) = true.
Proof.
  intros i is s H. split.
  - destruct (w_running (sy_world s)) eqn:R; [reflexivity|].
    rewrite (proj1 (stopped (i :: is) s R)) in H. congruence.
  - cbn [sys_run] in H. destruct (sstep i s) as [s1 o]. cbn [fst].
    destruct (srun is s1) as [s2 os]. exact H.
Qed.

Lemma flat_map_map_nil : forall A B C (g : B -> list C) (f : A -> B) l,
  (forall x, g (f x) = []) -> flat_map g (map f l) = [].
Proof. intros A B C g f l H. induction l; cbn; [reflexivity|]. rewrite H. assumption. Qed.
Lemma flat_map_map_id : forall A B (g : B -> list A) (f : A -> B) l,
  (forall x, g (f x) = [x]) -> flat_map g (map f l) = l.
Proof. intros A B g f l H. induction l; cbn; [reflexivity|]. rewrite H, IHl. reflexivity. Qed.

(** The shape of a step of a running process. *)
Lemma step_shape : forall i s, w_running (sy_world s) = true ->
  match i with
  | SysWorld j => sstep i s = (with_world s (fst (step (sy_world s) j)), map OutWorld (snd (step (sy_world s) j)))
  | SysStatus x => sstep i s =
      if sy_status s then match status_turn x with Ok out => (s, map OutStatus out) | _ => (with_status s false, []) end
      else (s, [])
  | SysMapper j => sstep i s =
      if sy_mapper s then (with_mapper s (fst (pm_turn j)) (start_services (sy_udp s) (snd (pm_turn j))),
                           map OutMapper (snd (pm_turn j)))
      else (s, [])
  | SysUdp port j =>
      fst (sstep i s) = with_udp s (at_key (sy_udp s) port (fst (udp_turn e (sy_world s) port j (sy_udp s port)))) /\
      snd (sstep i s) = snd (udp_turn e (sy_world s) port j (sy_udp s port))
  | SysJoin ws => sstep i s =
      if sy_joined s then
        if sy_mapper s then
          (with_joined s true (fold_left (fun q c => at_key q c true) (accepted ws) (sy_query s)), map OutAccept (accepted ws))
        else (with_joined s false (sy_query s), [])
      else (s, [])
  | SysQuery c chunk (Some port) => sstep i s =
      if sy_query s c then (with_db s (fst (db_step p h d (sy_db s) (Query port chunk))), [OutQuery c (be 2 port)])
      else (s, [])
  | SysQuery c chunk None => sstep i s =
      if sy_query s c then (with_query s (at_key (sy_query s) c false) (sy_db s), []) else (s, [])
  | SysQueryEnd c => sstep i s = (with_query s (at_key (sy_query s) c false) (sy_db s), [])
  | SysDb (Query _ _) => sstep i s = (s, [])
  | SysDb x => sstep i s = (with_db s (fst (db_step p h d (sy_db s) x)), map OutDb (snd (db_step p h d (sy_db s) x)))
  end.
Proof.
  intros i s R. unfold sys_step. rewrite R.
  destruct i as [j|x|j|port j|ws|c chunk [port|]|c|x].
  - destruct (step (sy_world s) j); reflexivity.
  - reflexivity.
  - destruct (sy_mapper s); [|reflexivity]. destruct (pm_turn j); reflexivity.
  - destruct (udp_turn _ _ _ _ _); split; reflexivity.
  - reflexivity.
  - destruct (sy_query s c); reflexivity.
  - reflexivity.
  - reflexivity.
  - destruct x as [q ch|q|q ch|q]; [reflexivity| | |];
      match goal with |- context [db_step ?a ?b ?c ?x ?y] => destruct (db_step a b c x y); reflexivity end.
Qed.

Lemma udp_turn_outs : forall w port j v o, In o (snd (udp_turn e w port j v)) -> exists to b, o = OutUdp port to b.
Proof.
  intros w port j v o. unfold udp_turn. destruct v as [|v|[|]]; try (intros []; fail).
  - destruct (nfs_turn e j v) as [v' outs]. cbn [snd]. intros H. apply in_map_iff in H.
    destruct H as [[a b] [<- _]]. exists a, b. reflexivity.
  - destruct (ms_turn _) as [b outs]. cbn [snd]. intros H. apply in_map_iff in H.
    destruct H as [[a b'] [<- _]]. exists a, b'. reflexivity.
Qed.

Lemma flat_map_nil : forall A B (g : A -> list B) l, (forall x, In x l -> g x = []) -> flat_map g l = [].
Proof.
  intros A B g l. induction l as [|x l IH]; intros H; [reflexivity|]. cbn [flat_map].
  rewrite (H x (or_introl eq_refl)). apply IH. intros y Hy. apply H. right. assumption.
Qed.

Ltac nilmap := apply flat_map_map_nil; reflexivity.

(** The status thread. *)
Lemma status_step : forall i s, w_running (sy_world s) = true ->
  match i with
  | SysStatus x =>
      sy_status (fst (sstep i s)) = (sy_status s && match status_turn x with Ok _ => true | _ => false end)%bool /\
      status_outputs (snd (sstep i s)) = if sy_status s then match status_turn x with Ok out => out | _ => [] end else []
  | _ => sy_status (fst (sstep i s)) = sy_status s /\ status_outputs (snd (sstep i s)) = []
  end.
Proof.
  intros i s R. pose proof (step_shape i s R) as E. unfold status_outputs.
  destruct i as [j|x|j|port j|ws|c chunk [port|]|c|x].
  - rewrite E. split; [reflexivity|nilmap].
  - rewrite E. destruct (sy_status s) eqn:S; [|split; [assumption|reflexivity]].
    destruct (status_turn x) as [out| |]; cbn [fst snd]; (split; [try assumption; reflexivity|]); try reflexivity.
    apply flat_map_map_id. reflexivity.
  - rewrite E. destruct (sy_mapper s); split; try reflexivity. nilmap.
  - destruct E as [-> ->]. split; [reflexivity|]. apply flat_map_nil. intros o H.
    destruct (udp_turn_outs _ _ _ _ _ H) as [to [b ->]]. reflexivity.
  - rewrite E. destruct (sy_joined s), (sy_mapper s); split; try reflexivity. nilmap.
  - rewrite E. destruct (sy_query s c); split; reflexivity.
  - rewrite E. destruct (sy_query s c); split; reflexivity.
  - rewrite E. split; reflexivity.
  - destruct x as [q ch|q|q ch|q]; rewrite E; split; try reflexivity; nilmap.
Qed.

Lemma status_dead : forall is s, sy_status s = false ->
  sy_status (fst (srun is s)) = false /\ status_outputs (List.concat (snd (srun is s))) = [].
Proof.
  induction is as [|i is IH]; intros s S; [split; [assumption|reflexivity]|].
  assert (X : sy_status (fst (sstep i s)) = false /\ status_outputs (snd (sstep i s)) = []).
  { destruct (w_running (sy_world s)) eqn:R; [|unfold sys_step; rewrite R; split; [assumption|reflexivity]].
    pose proof (status_step i s R) as E. rewrite S in E. destruct i; exact E. }
  cbn [sys_run]. destruct (sstep i s) as [s1 o]. destruct X as [X1 X2]. cbn [fst snd] in X1, X2.
  specialize (IH s1 X1). destruct (srun is s1) as [s2 os]. cbn [fst snd List.concat] in *.
  split; [apply IH|]. unfold status_outputs in *. rewrite flat_map_app, X2. apply IH.
Qed.

Lemma status_srun : forall is s, w_running (sy_world (fst (srun is s))) = true -> sy_status s = true ->
  sy_status (fst (srun is s)) = fst (status_run (status_inputs is)) /\
  status_outputs (List.concat (snd (srun is s))) = snd (status_run (status_inputs is)).
Proof.
  induction is as [|i is IH]; intros s R S; [split; [assumption|reflexivity]|].
  apply running_before in R. destruct R as [R0 R].
  pose proof (status_step i s R0) as E.
  assert (C : srun (i :: is) s = (fst (srun is (fst (sstep i s))), snd (sstep i s) :: snd (srun is (fst (sstep i s))))).
  { cbn [sys_run]. destruct (sstep i s) as [s1 o]. cbn [fst snd]. destruct (srun is s1). reflexivity. }
  rewrite C. cbn [fst snd List.concat]. unfold status_outputs in *. rewrite flat_map_app.
  specialize (IH (fst (sstep i s)) R). rewrite S in E.
  destruct i as [j|x|j|port j|ws|c chunk port|c|x];
    try (destruct E as [E1 E2]; rewrite E2; exact (IH E1)).
  destruct E as [E1 E2]. rewrite E2. cbn [andb] in E1.
  change (status_inputs (SysStatus x :: is)) with (x :: status_inputs is). cbn [status_run].
  destruct (status_turn x) as [out| |].
  - destruct (IH E1) as [I1 I2]. rewrite I1, I2.
    destruct (status_run (status_inputs is)). split; reflexivity.
  - exact (status_dead is _ E1).
  - exact (status_dead is _ E1).
Qed.

(** The port mapper. *)
Lemma mapper_step : forall i s, w_running (sy_world s) = true ->
  match i with
  | SysMapper j =>
      sy_mapper (fst (sstep i s)) = (sy_mapper s && fst (pm_turn j))%bool /\
      mapper_outputs (snd (sstep i s)) = if sy_mapper s then snd (pm_turn j) else []
  | _ => sy_mapper (fst (sstep i s)) = sy_mapper s /\ mapper_outputs (snd (sstep i s)) = []
  end.
Proof.
  intros i s R. pose proof (step_shape i s R) as E. unfold mapper_outputs.
  destruct i as [j|x|j|port j|ws|c chunk [port|]|c|x].
  - rewrite E. split; [reflexivity|nilmap].
  - rewrite E. destruct (sy_status s); [destruct (status_turn x)|]; split; try reflexivity. nilmap.
  - rewrite E. destruct (sy_mapper s) eqn:M; split; try reflexivity; [|assumption]. apply flat_map_map_id. reflexivity.
  - destruct E as [-> ->]. split; [reflexivity|]. apply flat_map_nil. intros o H.
    destruct (udp_turn_outs _ _ _ _ _ H) as [to [b ->]]. reflexivity.
  - rewrite E. destruct (sy_joined s), (sy_mapper s) eqn:M; split; try reflexivity; try assumption. nilmap.
  - rewrite E. destruct (sy_query s c); split; reflexivity.
  - rewrite E. destruct (sy_query s c); split; reflexivity.
  - rewrite E. split; reflexivity.
  - destruct x as [q ch|q|q ch|q]; rewrite E; split; try reflexivity; nilmap.
Qed.

Lemma srun_cons : forall i is s,
  srun (i :: is) s = (fst (srun is (fst (sstep i s))), snd (sstep i s) :: snd (srun is (fst (sstep i s)))).
Proof.
  intros i is s. cbn [sys_run]. destruct (sstep i s) as [s1 o]. cbn [fst snd]. destruct (srun is s1). reflexivity.
Qed.

Lemma mapper_srun : forall is s, w_running (sy_world (fst (srun is s))) = true ->
  sy_mapper (fst (srun is s)) = fst (pm_run (sy_mapper s) (mapper_inputs is)) /\
  mapper_outputs (List.concat (snd (srun is s))) = List.concat (snd (pm_run (sy_mapper s) (mapper_inputs is))).
Proof.
  induction is as [|i is IH]; intros s R; [split; reflexivity|].
  apply running_before in R. destruct R as [R0 R].
  pose proof (mapper_step i s R0) as E.
  rewrite srun_cons. cbn [fst snd List.concat]. unfold mapper_outputs in *. rewrite flat_map_app.
  specialize (IH (fst (sstep i s)) R).
  destruct i as [j|x|j|port j|ws|c chunk port|c|x];
    try (destruct E as [E1 E2]; rewrite E2; rewrite E1 in IH; exact IH).
  destruct E as [E1 E2]. rewrite E2. rewrite E1 in IH. destruct IH as [I1 I2]. rewrite I1, I2.
  change (mapper_inputs (SysMapper j :: is)) with (j :: mapper_inputs is). cbn [pm_run].
  destruct (sy_mapper s); cbn [andb].
  - destruct (pm_turn j) as [b outs]. cbn [fst snd].
    destruct (pm_run b (mapper_inputs is)). split; reflexivity.
  - destruct (pm_run false (mapper_inputs is)). split; reflexivity.
Qed.

Lemma pm_run_false : forall is, fst (pm_run false is) = false.
Proof.
  induction is as [|i is IH]; [reflexivity|]. cbn [pm_run]. destruct (pm_run false is). exact IH.
Qed.

(** Once the port mapper has ended it stays so. *)
Lemma mapper_gone : forall is s, sy_mapper s = false -> sy_mapper (fst (srun is s)) = false.
Proof.
  induction is as [|i is IH]; intros s M; [assumption|]. rewrite srun_cons. cbn [fst]. apply IH.
  destruct (w_running (sy_world s)) eqn:R; [|unfold sys_step; rewrite R; assumption].
  pose proof (mapper_step i s R) as E. rewrite M in E. destruct i; apply E.
Qed.

(** The listener ends only after the port mapper, or with the process. *)
Lemma joined_step : forall i s, w_running (sy_world s) = true ->
  sy_joined (fst (sstep i s)) =
  match i with SysJoin _ => (sy_joined s && sy_mapper s)%bool | _ => sy_joined s end.
Proof.
  intros i s R. pose proof (step_shape i s R) as E.
  destruct i as [j|x|j|port j|ws|c chunk [port|]|c|x].
  - rewrite E. reflexivity.
  - rewrite E. destruct (sy_status s); [destruct (status_turn x)|]; reflexivity.
  - rewrite E. destruct (sy_mapper s); reflexivity.
  - destruct E as [-> _]. reflexivity.
  - rewrite E. destruct (sy_joined s) eqn:J, (sy_mapper s); cbn [fst]; try reflexivity; try assumption.
  - rewrite E. destruct (sy_query s c); reflexivity.
  - rewrite E. destruct (sy_query s c); reflexivity.
  - rewrite E. reflexivity.
  - destruct x as [q ch|q|q ch|q]; rewrite E; reflexivity.
Qed.

Lemma joined_srun : forall is s, w_running (sy_world (fst (srun is s))) = true ->
  sy_mapper (fst (srun is s)) = true -> sy_joined (fst (srun is s)) = sy_joined s.
Proof.
  induction is as [|i is IH]; intros s R M; [reflexivity|].
  assert (M0 : sy_mapper s = true).
  { destruct (sy_mapper s) eqn:X; [reflexivity|]. rewrite (mapper_gone (i :: is) s X) in M. discriminate. }
  apply running_before in R. destruct R as [R0 R]. rewrite srun_cons in M |- *. cbn [fst] in *.
  rewrite (IH _ R M). rewrite (joined_step i s R0). destruct i; try reflexivity.
  rewrite M0. apply Bool.andb_true_r.
Qed.

Lemma accept_step : forall i s c,
  In (OutAccept c) (snd (sstep i s)) <->
  w_running (sy_world s) = true /\ sy_joined s = true /\ sy_mapper s = true /\
  exists ws, i = SysJoin ws /\ In (Some c) ws.
Proof.
  intros i s c. destruct (w_running (sy_world s)) eqn:R.
  2:{ unfold sys_step. rewrite R. split; [intros []|intros [X _]; discriminate]. }
  pose proof (step_shape i s R) as E.
  assert (K : forall A (f : A -> sys_output) l, (forall x, f x <> OutAccept c) -> In (OutAccept c) (map f l) -> False).
  { intros A f l Hf H. apply in_map_iff in H. destruct H as [x [X _]]. exact (Hf x X). }
  assert (F : In (OutAccept c) (snd (sstep i s)) -> exists ws, i = SysJoin ws).
  { intros H. destruct i as [j|x|j|port j|ws|c' chunk [port|]|c'|x].
    - rewrite E in H. exfalso. revert H. apply K. discriminate.
    - rewrite E in H. exfalso. destruct (sy_status s); [destruct (status_turn x)|]; try (exact H). revert H. apply K. discriminate.
    - rewrite E in H. exfalso. destruct (sy_mapper s); [|exact H]. revert H. apply K. discriminate.
    - destruct E as [_ E]. rewrite E in H. apply udp_turn_outs in H. destruct H as [to [b X]]. discriminate.
    - exists ws. reflexivity.
    - rewrite E in H. destruct (sy_query s c'); [destruct H as [H|[]]; discriminate|destruct H].
    - rewrite E in H. destruct (sy_query s c'); destruct H.
    - rewrite E in H. destruct H.
    - exfalso. destruct x as [q ch|q|q ch|q]; rewrite E in H; [exact H| | |]; revert H; apply K; discriminate. }
  split.
  - intros H. destruct (F H) as [ws ->]. rewrite E in H.
    destruct (sy_joined s), (sy_mapper s); try (destruct H; fail). cbn [snd] in H.
    apply in_map_iff in H. destruct H as [x [X H]]. injection X as ->.
    split; [reflexivity|]. split; [reflexivity|]. split; [reflexivity|]. exists ws. split; [reflexivity|].
    unfold accepted in H. apply in_flat_map in H. destruct H as [[y|] [H1 H2]]; [|destruct H2].
    destruct H2 as [<-|[]]. assumption.
  - intros [_ [J [M [ws [-> H]]]]]. rewrite E, J, M. cbn [snd]. apply in_map.
    unfold accepted. apply in_flat_map. exists (Some c). split; [assumption|]. left. reflexivity.
Qed.

(** Connections to port 12523. *)
Lemma connected_snoc : forall tr i os c,
  connected (tr ++ [(i, os)]) c <->
  In (OutAccept c) os \/ connected tr c /\ i <> SysQueryEnd c /\ forall chunk, i <> SysQuery c chunk None.
Proof.
  intros tr i os c. split.
  - intros (b & j & ys & a & E & A & F). destruct a as [|x a] using rev_ind.
    + left. apply app_inj_tail in E. destruct E as [_ E]. congruence.
    + clear IHa. right. change (b ++ (j, ys) :: a ++ [x]) with (b ++ ((j, ys) :: a) ++ [x]) in E.
      rewrite app_assoc in E. apply app_inj_tail in E. destruct E as [-> <-]. split.
      * exists b, j, ys, a. split; [reflexivity|]. split; [assumption|]. intros k zs H. apply (F k zs).
        apply in_or_app. left. assumption.
      * apply (F i os). apply in_or_app. right. left. reflexivity.
  - intros [A|[(b & j & ys & a & -> & A & F) [N1 N2]]].
    + exists tr, i, os, []. split; [reflexivity|]. split; [assumption|]. intros j ys [].
    + exists b, j, ys, (a ++ [(i, os)]). split; [rewrite <- app_assoc; reflexivity|]. split; [assumption|].
      intros k zs H. apply in_app_or in H. destruct H as [H|[H|[]]]; [apply (F k zs H)|].
      injection H as <- <-. split; assumption.
Qed.

Lemma fold_accept : forall l q c,
  fold_left (fun (q : N -> bool) c => at_key q c true) l q c = true <-> In c l \/ q c = true.
Proof.
  induction l as [|x l IH]; intros q c; cbn [fold_left In]; [tauto|].
  rewrite IH. unfold at_key. destruct (N.eqb_spec c x) as [->|X]; [tauto|].
  split; [tauto|]. intros [[->|H]|H]; tauto.
Qed.

Lemma query_step : forall i s c, w_running (sy_world s) = true ->
  (sy_query (fst (sstep i s)) c = true <->
   In (OutAccept c) (snd (sstep i s)) \/
   sy_query s c = true /\ i <> SysQueryEnd c /\ forall chunk, i <> SysQuery c chunk None).
Proof.
  intros i s c R. pose proof (step_shape i s R) as E.
  assert (Triv : (forall ws, i <> SysJoin ws) -> sy_query (fst (sstep i s)) c = sy_query s c ->
     i <> SysQueryEnd c -> (forall chunk, i <> SysQuery c chunk None) ->
     (sy_query (fst (sstep i s)) c = true <->
      In (OutAccept c) (snd (sstep i s)) \/
      sy_query s c = true /\ i <> SysQueryEnd c /\ forall chunk, i <> SysQuery c chunk None)).
  { intros Nj -> N1 N2. split.
    - intros Q. right. split; [assumption|]. split; assumption.
    - intros [A|[Q _]]; [|assumption]. apply accept_step in A. destruct A as (_ & _ & _ & ws & A & _).
      destruct (Nj ws A). }
  assert (Drop : (forall ws, i <> SysJoin ws) -> sy_query (fst (sstep i s)) c = false ->
     ~ (sy_query s c = true /\ i <> SysQueryEnd c /\ forall chunk, i <> SysQuery c chunk None) ->
     (sy_query (fst (sstep i s)) c = true <->
      In (OutAccept c) (snd (sstep i s)) \/
      sy_query s c = true /\ i <> SysQueryEnd c /\ forall chunk, i <> SysQuery c chunk None)).
  { intros Nj -> No. split; [discriminate|]. intros [A|Q]; [|contradiction].
    apply accept_step in A. destruct A as (_ & _ & _ & ws & A & _). destruct (Nj ws A). }
  destruct i as [j|x|j|port j|ws|k chunk [port|]|k|x].
  - apply Triv; try discriminate. rewrite E. reflexivity.
  - apply Triv; try discriminate. rewrite E. destruct (sy_status s); [destruct (status_turn x)|]; reflexivity.
  - apply Triv; try discriminate. rewrite E. destruct (sy_mapper s); reflexivity.
  - apply Triv; try discriminate. destruct E as [-> _]. reflexivity.
  - rewrite E. destruct (sy_joined s), (sy_mapper s); cbn [fst snd with_joined sy_query In].
    1:{ rewrite fold_accept. split.
        - intros [A|Q]; [left; apply in_map; assumption|right]. split; [assumption|]. split; discriminate.
        - intros [A|[Q _]]; [left|right; assumption]. apply in_map_iff in A. destruct A as [y [Y A]].
          injection Y as ->. assumption. }
    all: split; [intros Q; right; split; [assumption|split; discriminate]|intros [[]|[Q _]]; assumption].
  - apply Triv; try discriminate. rewrite E. destruct (sy_query s k); reflexivity.
  - destruct (N.eq_dec k c) as [->|K].
    + apply Drop; try discriminate.
      * rewrite E. destruct (sy_query s c) eqn:Q; [|assumption]. cbn. unfold at_key. rewrite N.eqb_refl. reflexivity.
      * intros (_ & _ & F). exact (F chunk eq_refl).
    + apply Triv; try congruence. rewrite E. destruct (sy_query s k); [|reflexivity].
      cbn. unfold at_key. destruct (N.eqb_spec c k) as [->|]; [congruence|reflexivity].
  - destruct (N.eq_dec k c) as [->|K].
    + apply Drop; try discriminate.
      * rewrite E. cbn. unfold at_key. rewrite N.eqb_refl. reflexivity.
      * intros (_ & F & _). exact (F eq_refl).
    + apply Triv; try congruence. rewrite E. cbn. unfold at_key.
      destruct (N.eqb_spec c k) as [->|]; [congruence|reflexivity].
  - apply Triv; try discriminate. destruct x as [q ch|q|q ch|q]; rewrite E; reflexivity.
Qed.

Definition record (is : list sys_input) (s : system) : trace := combine is (snd (srun is s)).

Lemma record_snoc : forall is i s,
  record (is ++ [i]) s = record is s ++ [(i, snd (sstep i (fst (srun is s))))].
Proof.
  intros is i s. unfold record. rewrite (proj2 (srun_snoc is i s)).
  generalize (snd (sstep i (fst (srun is s)))). intros y.
  generalize (srun_length is s). generalize (snd (srun is s)). induction is as [|x is IH]; intros [|o os] L; try discriminate.
  - reflexivity.
  - cbn [app combine]. f_equal. apply IH. cbn in L. congruence.
Qed.

Lemma running_snoc : forall is i s, w_running (sy_world (fst (srun (is ++ [i]) s))) = true ->
  w_running (sy_world (fst (srun is s))) = true.
Proof.
  intros is i s H. rewrite (proj1 (srun_snoc is i s)) in H. destruct (w_running (sy_world (fst (srun is s)))) eqn:R; [reflexivity|].
  unfold sys_step in H. rewrite R in H. cbn [fst] in H. congruence.
Qed.

Lemma query_connected : forall is s, (forall c, sy_query s c = false) ->
  w_running (sy_world (fst (srun is s))) = true ->
  forall c, sy_query (fst (srun is s)) c = true <-> connected (record is s) c.
Proof.
  intros is s Q. induction is as [|i is IH] using rev_ind; intros R c.
  - cbn. rewrite Q. split; [discriminate|]. intros (b & j & ys & a & E & _). destruct b; discriminate.
  - apply running_snoc in R. specialize (IH R c). rewrite (proj1 (srun_snoc is i s)), record_snoc, connected_snoc, <- IH.
    apply query_step. assumption.
Qed.

Lemma db_history_snoc : forall tr i os es, db_history (tr ++ [(i, os)]) es -> exists es0, db_history tr es0 /\
  ((exists c chunk port, i = SysQuery c chunk (Some port) /\ connected tr c /\ es = es0 ++ [Query port chunk]) \/
   (exists x, i = SysDb x /\ (forall port chunk, x <> Query port chunk) /\ es = es0 ++ [x]) \/
   (forall c chunk port, i = SysQuery c chunk (Some port) -> ~ connected tr c) /\
   (forall x, i = SysDb x -> exists port chunk, x = Query port chunk) /\ es = es0).
Proof.
  intros tr i os es H. remember (tr ++ [(i, os)]) as T eqn:ET.
  destruct H as [|tr1 es1 c chunk port os1 H1 C1|tr1 es1 x os1 H1 C1|tr1 es1 j os1 H1 C1 D1].
  - destruct tr; discriminate.
  - apply app_inj_tail in ET. destruct ET as [-> ET]. injection ET as <- <-. exists es1. split; [assumption|].
    left. exists c, chunk, port. split; [reflexivity|]. split; [assumption|reflexivity].
  - apply app_inj_tail in ET. destruct ET as [-> ET]. injection ET as <- <-. exists es1. split; [assumption|].
    right. left. exists x. split; [reflexivity|]. split; [assumption|reflexivity].
  - apply app_inj_tail in ET. destruct ET as [-> ET]. injection ET as <- <-. exists es1. split; [assumption|].
    right. right. split; [assumption|]. split; [assumption|reflexivity].
Qed.

Lemma db_history_functional : forall tr es es', db_history tr es -> db_history tr es' -> es = es'.
Proof.
  intros tr. induction tr as [|[i os] tr IH] using rev_ind; intros es es' H H'.
  - assert (G : forall T l, db_history T l -> T = [] -> l = []).
    { intros T l [|? ? ? ? ? ? _ _|? ? ? ? _ _|? ? ? ? _ _ _] X; [reflexivity| | |];
        apply app_eq_nil in X; destruct X; discriminate. }
    rewrite (G _ _ H eq_refl), (G _ _ H' eq_refl). reflexivity.
  - apply db_history_snoc in H. apply db_history_snoc in H'.
    destruct H as (e1 & H1 & K1). destruct H' as (e2 & H2 & K2). rewrite (IH _ _ H1 H2) in K1.
    destruct K1 as [(c & ch & q & -> & C1 & ->)|[(x & -> & C1 & ->)|(C1 & D1 & ->)]];
    destruct K2 as [(c2 & ch2 & q2 & X & C2 & ->)|[(x2 & X & C2 & ->)|(C2 & D2 & ->)]]; try discriminate; try reflexivity.
    + injection X as -> -> ->. reflexivity.
    + destruct (C2 _ _ _ eq_refl C1).
    + injection X as ->. reflexivity.
    + destruct (D2 _ eq_refl) as [q [ch Y]]. destruct (C1 _ _ Y).
    + destruct (C1 _ _ _ X C2).
    + destruct (D1 _ X) as [q [ch Y]]. destruct (C2 _ _ Y).
Qed.

Lemma db_run_snoc : forall es x s,
  fst (db_run p h d s (es ++ [x])) = fst (db_step p h d (fst (db_run p h d s es)) x) /\
  snd (db_run p h d s (es ++ [x])) = snd (db_run p h d s es) ++ snd (db_step p h d (fst (db_run p h d s es)) x).
Proof.
  induction es as [|y es IH]; intros x s; cbn [app db_run fst snd].
  - destruct (db_step p h d s x) as [s1 o]. cbn [fst snd app]. split; [reflexivity|apply app_nil_r].
  - destruct (db_step p h d s y) as [s1 o]. specialize (IH x s1).
    destruct (db_run p h d s1 (es ++ [x])) as [s2 o2]. destruct (db_run p h d s1 es) as [s3 o3].
    cbn [fst snd] in *. destruct IH as [-> ->]. split; [reflexivity|apply app_assoc].
Qed.

Lemma concat_snoc : forall A (l : list (list A)) x, List.concat (l ++ [x]) = List.concat l ++ x.
Proof. intros A l x. rewrite concat_app. cbn. rewrite app_nil_r. reflexivity. Qed.

Lemma db_srun : forall is s, (forall c, sy_query s c = false) ->
  w_running (sy_world (fst (srun is s))) = true ->
  exists es, db_history (record is s) es /\
    sy_db (fst (srun is s)) = fst (db_run p h d (sy_db s) es) /\
    db_outputs (List.concat (snd (srun is s))) = snd (db_run p h d (sy_db s) es).
Proof.
  intros is s Q. induction is as [|i is IH] using rev_ind; intros R.
  - exists []. split; [constructor|]. split; reflexivity.
  - pose proof R as R1. apply running_snoc in R. destruct (IH R) as (es & H & D & O). clear IH R1.
    pose proof (query_connected is s Q R) as C. rewrite record_snoc.
    destruct (srun_snoc is i s) as [-> ->]. rewrite concat_snoc. unfold db_outputs in *. rewrite flat_map_app, O.
    set (s1 := fst (srun is s)) in *. clearbody s1.
    pose proof (step_shape i s1 R) as E.
    assert (Other : (forall c chunk port, i = SysQuery c chunk (Some port) -> sy_query s1 c = false) ->
      (forall x, i = SysDb x -> exists port chunk, x = Query port chunk) ->
      sy_db (fst (sstep i s1)) = sy_db s1 ->
      flat_map (fun o => match o with OutQuery _ b => [PortAnswer b] | OutDb o => [o] | _ => [] end) (snd (sstep i s1)) = [] ->
      exists es', db_history (record is s ++ [(i, snd (sstep i s1))]) es' /\
        sy_db (fst (sstep i s1)) = fst (db_run p h d (sy_db s) es') /\
        snd (db_run p h d (sy_db s) es) ++
        flat_map (fun o => match o with OutQuery _ b => [PortAnswer b] | OutDb o => [o] | _ => [] end) (snd (sstep i s1)) =
        snd (db_run p h d (sy_db s) es')).
    { intros O1 O2 O3 O4. exists es. split; [|split; [congruence|rewrite O4; apply app_nil_r]].
      apply dbh_other; [assumption| |assumption]. intros c chunk port X Y. apply C in Y. rewrite (O1 _ _ _ X) in Y. discriminate. }
    destruct i as [j|x|j|port j|ws|c chunk [port|]|c|x].
    + apply Other; try discriminate; rewrite E; [reflexivity|]. apply flat_map_map_nil; reflexivity.
    + apply Other; try discriminate; rewrite E; destruct (sy_status s1); try reflexivity;
        destruct (status_turn x); try reflexivity. apply flat_map_map_nil; reflexivity.
    + apply Other; try discriminate; rewrite E; destruct (sy_mapper s1); try reflexivity. apply flat_map_map_nil; reflexivity.
    + apply Other; try discriminate; destruct E as [E1 E2]; [rewrite E1; reflexivity|]. rewrite E2.
      apply flat_map_nil. intros o Ho. destruct (udp_turn_outs _ _ _ _ _ Ho) as [to [b ->]]. reflexivity.
    + apply Other; try discriminate; rewrite E; destruct (sy_joined s1), (sy_mapper s1); try reflexivity.
      apply flat_map_map_nil; reflexivity.
    + destruct (sy_query s1 c) eqn:Qc.
      * exists (es ++ [Query port chunk]). rewrite E. cbn [fst snd].
        destruct (db_run_snoc es (Query port chunk) (sy_db s)) as [-> ->]. rewrite <- D.
        split; [|split; reflexivity]. apply dbh_query; [assumption|]. apply C. assumption.
      * apply Other; try discriminate; try (rewrite E; reflexivity).
        intros c0 chunk0 port0 X. congruence.
    + apply Other; try discriminate; rewrite E; destruct (sy_query s1 c); reflexivity.
    + apply Other; try discriminate; rewrite E; reflexivity.
    + destruct x as [q ch|q|q ch|q].
      * apply Other; try discriminate; try (rewrite E; reflexivity). intros x X. injection X as <-. exists q, ch. reflexivity.
      * exists (es ++ [Connect q]). rewrite E. cbn [fst snd].
        destruct (db_run_snoc es (Connect q) (sy_db s)) as [-> ->]. rewrite <- D.
        split; [apply dbh_handler; [assumption|discriminate]|]. split; [reflexivity|].
        f_equal. apply flat_map_map_id. reflexivity.
      * exists (es ++ [Chunk q ch]). rewrite E. cbn [fst snd].
        destruct (db_run_snoc es (Chunk q ch) (sy_db s)) as [-> ->]. rewrite <- D.
        split; [apply dbh_handler; [assumption|discriminate]|]. split; [reflexivity|].
        f_equal. apply flat_map_map_id. reflexivity.
      * exists (es ++ [Close q]). rewrite E. cbn [fst snd].
        destruct (db_run_snoc es (Close q) (sy_db s)) as [-> ->]. rewrite <- D.
        split; [apply dbh_handler; [assumption|discriminate]|]. split; [reflexivity|].
        f_equal. apply flat_map_map_id. reflexivity.
Qed.

(** The RPC services. *)
Lemma start_services_other : forall outs u port, (forall v, ~ In (PmStart v port) outs) ->
  start_services u outs port = u port.
Proof.
  unfold start_services. induction outs as [|o outs IH]; intros u port H; [reflexivity|]. cbn [fold_left].
  rewrite IH by (intros v X; apply (H v); right; assumption).
  destruct o as [[|] q|to b]; try reflexivity; unfold at_key; destruct (N.eqb_spec port q) as [->|X]; try reflexivity;
    exfalso; [apply (H NfsService)|apply (H ProgramService)]; left; reflexivity.
Qed.

Definition fresh_service (v : service) : udp_service :=
  match v with NfsService => NfsUdp service_new | ProgramService => MountUdp true end.

Lemma start_services_started : forall j u v port, In (PmStart v port) (snd (pm_turn j)) ->
  start_services u (snd (pm_turn j)) port = fresh_service v.
Proof.
  intros j u v port. unfold pm_turn.
  destruct (codec_decode (pi_datagram j)) as [[m|]| |]; try (intros []; fail).
  destruct (pi_port j) as [q|]; [|intros []].
  set (started := match rpc_body m with Call _ => _ | Reply _ => _ end).
  assert (S : started = [] \/ exists w, started = [PmStart w q]).
  { unfold started. destruct (rpc_body m) as [c|]; [|left; reflexivity].
    destruct (ca_procedure c); try (left; reflexivity).
    destruct (gp_program g); right; eexists; reflexivity. }
  clearbody started. intros H.
  assert (I : In (PmStart v port) started).
  { destruct (send_to _ _); cbn [snd] in H; [|assumption].
    apply in_app_or in H. destruct H as [H|[H|[]]]; [assumption|discriminate]. }
  destruct S as [->|[w ->]]; [destruct I|]. destruct I as [I|[]]. injection I as -> ->.
  destruct (send_to _ _); destruct v; cbn; unfold at_key; rewrite N.eqb_refl; reflexivity.
Qed.

Lemma starts_step : forall i s v port, starts (snd (sstep i s)) v port <->
  w_running (sy_world s) = true /\ sy_mapper s = true /\ exists j, i = SysMapper j /\ In (PmStart v port) (snd (pm_turn j)).
Proof.
  intros i s v port. unfold starts. destruct (w_running (sy_world s)) eqn:R.
  2:{ unfold sys_step. rewrite R. split; [intros []|intros [X _]; discriminate]. }
  pose proof (mapper_step i s R) as E.
  assert (M : In (OutMapper (PmStart v port)) (snd (sstep i s)) <-> In (PmStart v port) (mapper_outputs (snd (sstep i s)))).
  { unfold mapper_outputs. rewrite in_flat_map. split.
    - intros H. exists (OutMapper (PmStart v port)). split; [assumption|left; reflexivity].
    - intros [o [H1 H2]]. destruct o; try (destruct H2; fail). destruct H2 as [->|[]]. assumption. }
  rewrite M. clear M. split.
  - intros H. split; [reflexivity|].
    destruct i as [j|x|j|q j|ws|c chunk q|c|x]; destruct E as [_ E]; rewrite E in H; try (destruct H; fail).
    destruct (sy_mapper s); [|destruct H]. split; [reflexivity|]. exists j. split; [reflexivity|assumption].
  - intros [_ [Q [j [-> H]]]]. destruct E as [_ E]. rewrite E, Q. assumption.
Qed.

Lemma udp_step : forall i s port, w_running (sy_world s) = true -> (forall v, ~ starts (snd (sstep i s)) v port) ->
  sy_udp (fst (sstep i s)) port =
    match i with
    | SysUdp q j => if q =? port then fst (udp_turn e (sy_world s) port j (sy_udp s port)) else sy_udp s port
    | _ => sy_udp s port
    end /\
  udp_outputs port (snd (sstep i s)) =
    match i with
    | SysUdp q j => if q =? port then udp_outputs port (snd (udp_turn e (sy_world s) port j (sy_udp s port))) else []
    | _ => []
    end.
Proof.
  intros i s port R Ns. pose proof (step_shape i s R) as E.
  pose proof (fun v => starts_step i s v port) as St.
  destruct i as [j|x|j|q j|ws|c chunk [q|]|c|x].
  - rewrite E. split; [reflexivity|nilmap].
  - rewrite E. destruct (sy_status s); [destruct (status_turn x)|]; split; try reflexivity. nilmap.
  - rewrite E in *. destruct (sy_mapper s); cbn [fst snd] in *; (split; [|try reflexivity; nilmap]); [|reflexivity].
    apply start_services_other. intros v H. apply (Ns v). apply St. split; [assumption|]. split; [reflexivity|].
    exists j. split; [reflexivity|assumption].
  - destruct E as [E1 E2]. rewrite E1, E2. cbn [with_udp sy_udp]. unfold at_key. rewrite (N.eqb_sym port q).
    destruct (N.eqb_spec q port) as [->|X]; [split; reflexivity|]. split; [reflexivity|].
    apply flat_map_nil. intros o H. destruct (udp_turn_outs _ _ _ _ _ H) as [to [b ->]].
    destruct (N.eqb_spec q port); [contradiction|reflexivity].
  - rewrite E. destruct (sy_joined s), (sy_mapper s); split; try reflexivity. nilmap.
  - rewrite E. destruct (sy_query s c); split; reflexivity.
  - rewrite E. destruct (sy_query s c); split; reflexivity.
  - rewrite E. split; reflexivity.
  - destruct x as [q ch|q|q ch|q]; rewrite E; split; try reflexivity; nilmap.
Qed.

Lemma udp_outs_map : forall port (outs : list (peer * bytes)),
  udp_outputs port (map (fun o => OutUdp port (fst o) (snd o)) outs) = outs.
Proof.
  intros port outs. unfold udp_outputs. apply flat_map_map_id. intros [a b]. rewrite N.eqb_refl. reflexivity.
Qed.

Lemma nfs_srun : forall is s port v, sy_udp s port = NfsUdp v ->
  w_running (sy_world (fst (srun is s))) = true ->
  (forall os w, In os (snd (srun is s)) -> ~ starts os w port) ->
  sy_udp (fst (srun is s)) port = NfsUdp (fst (nfs_run e (udp_inputs port is) v)) /\
  udp_outputs port (List.concat (snd (srun is s))) = List.concat (snd (nfs_run e (udp_inputs port is) v)).
Proof.
  induction is as [|i is IH]; intros s port v U R F; [split; [assumption|reflexivity]|].
  apply running_before in R. destruct R as [R0 R]. rewrite srun_cons in *. cbn [fst snd List.concat] in *.
  destruct (udp_step i s port R0 (fun w => F _ w (or_introl eq_refl))) as [E1 E2].
  unfold udp_outputs in *. rewrite flat_map_app. rewrite E2.
  assert (F' : forall os w, In os (snd (srun is (fst (sstep i s)))) -> ~ starts os w port)
    by (intros os w H; apply F; right; assumption).
  destruct i as [j|x|j|q j|ws|c chunk q|c|x]; try (rewrite U in E1; exact (IH _ port v E1 R F')).
  cbn [udp_inputs flat_map]. fold (udp_inputs port is).
  destruct (q =? port); [|rewrite U in E1; exact (IH _ port v E1 R F')].
  rewrite U in E1 |- *. unfold udp_turn in *. cbn [app nfs_run]. destruct (nfs_turn e j v) as [v' outs]. cbn [fst snd] in *.
  destruct (IH _ port v' E1 R F') as [I1 I2]. rewrite I1, I2.
  pose proof (udp_outs_map port outs) as X. unfold udp_outputs in X. rewrite X.
  destruct (nfs_run e (udp_inputs port is) v'). split; reflexivity.
Qed.

Lemma mount_srun : forall is before s port b, sy_udp s port = MountUdp b ->
  sy_world s = fst (run (world_inputs before)) ->
  w_running (sy_world (fst (srun is s))) = true ->
  (forall os w, In os (snd (srun is s)) -> ~ starts os w port) ->
  sy_udp (fst (srun is s)) port = MountUdp (fst (ms_run b (mount_inputs before port is))) /\
  udp_outputs port (List.concat (snd (srun is s))) = List.concat (snd (ms_run b (mount_inputs before port is))).
Proof.
  induction is as [|i is IH]; intros before s port b U W R F; [split; [assumption|reflexivity]|].
  apply running_before in R. destruct R as [R0 R]. rewrite srun_cons in *. cbn [fst snd List.concat] in *.
  destruct (udp_step i s port R0 (fun w => F _ w (or_introl eq_refl))) as [E1 E2].
  unfold udp_outputs in *. rewrite flat_map_app. rewrite E2.
  assert (F' : forall os w, In os (snd (srun is (fst (sstep i s)))) -> ~ starts os w port)
    by (intros os w H; apply F; right; assumption).
  assert (W' : sy_world (fst (sstep i s)) = fst (run (world_inputs (before ++ [i])))).
  { rewrite (proj1 (world_step i s)). unfold world_inputs in *. rewrite flat_map_app.
    destruct i; cbn [flat_map app]; rewrite ?app_nil_r; try assumption.
    rewrite W. symmetry. apply run_snoc. }
  pose proof (IH (before ++ [i]) (fst (sstep i s)) port) as IH'. clear IH.
  destruct i as [j|x|j|q j|ws|c chunk q|c|x]; try (rewrite U in E1; exact (IH' b E1 W' R F')).
  cbn [mount_inputs].
  destruct (q =? port); [|rewrite U in E1; exact (IH' b E1 W' R F')].
  rewrite U in E1 |- *. unfold udp_turn in *. cbn [app ms_run]. rewrite W in *.
  destruct b.
  - destruct (ms_turn _) as [b' outs]. cbn [fst snd] in *.
    destruct (IH' b' E1 W' R F') as [I1 I2]. rewrite I1, I2.
    pose proof (udp_outs_map port outs) as X. unfold udp_outputs in X. rewrite X.
    destruct (ms_run b' _). split; reflexivity.
  - cbn [fst snd flat_map app] in *. destruct (IH' false E1 W' R F') as [I1 I2]. rewrite I1, I2.
    destruct (ms_run false _). split; reflexivity.
Qed.
End Sys.
