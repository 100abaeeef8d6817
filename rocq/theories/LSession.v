(** Lemmas about database connections in the running process. *)

From Verif Require Import Base Unicode MPackets MNetwork MServer MStatus MDb MDatabase MLib MRpc MRpcServer MNfs MSystem
  SUdp SDb SLib SConn SServer SSystem SSession SEnd LBase LServer LServer2 LRpcServer LLib4 LSystem.
From Coq Require Import ZArith Arith Lia.
Open Scope list_scope.
Open Scope N_scope.

Section Db.
Variables (e : endian) (p : profile) (h : hash_order) (d : database).
Notation sstep := (sys_step e p h d).
Notation srun := (sys_run e p h d).

Lemma db_answers_app : forall port a b, db_answers port (a ++ b) = db_answers port a ++ db_answers port b.
Proof. intros. apply flat_map_app. Qed.

Lemma db_answers_out : forall port os, db_answers port (map OutDb os) = answers_on port os.
Proof.
  intros port os. induction os as [|o os IH]; [reflexivity|].
  cbn [map]. unfold db_answers, answers_on in *. cbn [flat_map]. rewrite IH. destruct o; reflexivity.
Qed.

Lemma db_inputs_app : forall port a b, db_inputs port (a ++ b) = db_inputs port a ++ db_inputs port b.
Proof. intros. apply flat_map_app. Qed.

(** One step, seen from a database port that is not handed out in it. *)
Lemma port_step : forall i s s0 port, w_running (sy_world s) = true -> ~ hands_out i port -> sy_db s port = s0 port ->
  sy_db (fst (sstep i s)) port = fst (db_run p h d s0 (db_inputs port [i])) port /\
  db_answers port (snd (sstep i s)) = answers_on port (snd (db_run p h d s0 (db_inputs port [i]))).
Proof.
  intros i s s0 port R N E. pose proof (step_shape e p h d i s R) as S.
  assert (Z : forall o, db_answers port (map OutStatus o) = []) by (intros; apply flat_map_map_nil; reflexivity).
  destruct i as [j|x|j|q j|ws|c chunk [q|]|c|x].
  - rewrite S. cbn. split; [exact E|]. apply flat_map_map_nil. reflexivity.
  - rewrite S. destruct (sy_status s); [destruct (status_turn x)|]; cbn; auto. split; [exact E|apply Z].
  - rewrite S. destruct (sy_mapper s); cbn; [|auto]. split; [exact E|]. apply flat_map_map_nil. reflexivity.
  - destruct S as [S1 S2]. rewrite S1, S2. cbn. split; [exact E|].
    apply flat_map_nil. intros o Ho. destruct (udp_turn_outs _ _ _ _ _ _ Ho) as (to & b & ->). reflexivity.
  - rewrite S. destruct (sy_joined s); [|cbn; auto]. destruct (sy_mapper s); cbn; [|auto].
    split; [exact E|]. apply flat_map_map_nil. reflexivity.
  - rewrite S. destruct (sy_query s c); [|cbn; auto]. cbn. split; [|reflexivity].
    unfold set_port. destruct (N.eqb_spec port q) as [->|_]; [|exact E]. elim N. exists c, chunk. reflexivity.
  - rewrite S. destruct (sy_query s c); cbn; auto.
  - rewrite S. cbn. auto.
  - destruct x as [q ch|q|q ch|q].
    + rewrite S. cbn. auto.
    + rewrite S. cbn [fst snd with_db sy_db]. rewrite db_answers_out.
      change (db_inputs port [SysDb (Connect q)]) with ((if q =? port then [Connect q] else []) ++ []). rewrite app_nil_r.
      pose proof (run_filter p h d port [Connect q] (sy_db s) s0 E) as F. rewrite run_cons in F. cbn [db_run fst snd] in F.
      rewrite app_nil_r in F. cbn [filter about] in F. destruct (q =? port); exact F.
    + rewrite S. cbn [fst snd with_db sy_db]. rewrite db_answers_out.
      change (db_inputs port [SysDb (Chunk q ch)]) with ((if q =? port then [Chunk q ch] else []) ++ []). rewrite app_nil_r.
      pose proof (run_filter p h d port [Chunk q ch] (sy_db s) s0 E) as F. rewrite run_cons in F. cbn [db_run fst snd] in F.
      rewrite app_nil_r in F. cbn [filter about] in F. destruct (q =? port); exact F.
    + rewrite S. cbn [fst snd with_db sy_db]. rewrite db_answers_out.
      change (db_inputs port [SysDb (Close q)]) with ((if q =? port then [Close q] else []) ++ []). rewrite app_nil_r.
      pose proof (run_filter p h d port [Close q] (sy_db s) s0 E) as F. rewrite run_cons in F. cbn [db_run fst snd] in F.
      rewrite app_nil_r in F. cbn [filter about] in F. destruct (q =? port); exact F.
Qed.

Lemma db_run_app : forall a b s,
  db_run p h d s (a ++ b) =
  (fst (db_run p h d (fst (db_run p h d s a)) b), snd (db_run p h d s a) ++ snd (db_run p h d (fst (db_run p h d s a)) b)).
Proof.
  induction a as [|x a IH]; intros b s.
  - cbn [app db_run fst snd]. destruct (db_run p h d s b); reflexivity.
  - cbn [app]. rewrite !run_cons, IH. cbn [fst snd]. rewrite app_assoc. reflexivity.
Qed.

Lemma port_srun : forall is s s0 port, w_running (sy_world (fst (srun is s))) = true ->
  (forall i, In i is -> ~ hands_out i port) -> sy_db s port = s0 port ->
  sy_db (fst (srun is s)) port = fst (db_run p h d s0 (db_inputs port is)) port /\
  db_answers port (List.concat (snd (srun is s))) = answers_on port (snd (db_run p h d s0 (db_inputs port is))).
Proof.
  induction is as [|i is IH]; intros s s0 port R N E; [cbn; auto|].
  apply running_before in R. destruct R as [R R'].
  destruct (port_step i s s0 port R (N i (or_introl eq_refl)) E) as [H1 H2].
  destruct (IH _ _ port R' (fun j I => N j (or_intror I)) H1) as [H3 H4].
  change (i :: is) with ([i] ++ is). rewrite db_inputs_app, db_run_app. cbn [fst snd].
  rewrite answers_on_app, <- H2, <- H4. change ([i] ++ is) with (i :: is). rewrite srun_cons.
  cbn [fst snd List.concat]. rewrite db_answers_app. auto.
Qed.


(** The part of a record after some point is that of a run from there. *)
Lemma record_at : forall before is s after, combine is (snd (srun is s)) = before ++ after ->
  exists is1 is2, is = is1 ++ is2 /\ List.length is1 = List.length before /\
    after = combine is2 (snd (srun is2 (fst (srun is1 s)))).
Proof.
  induction before as [|x before IH]; intros is s after E.
  - exists [], is. cbn [app] in *. auto.
  - destruct is as [|i is]; [discriminate|]. rewrite srun_cons in E. cbn [fst snd combine app] in E.
    injection E as _ E. destruct (IH _ _ _ E) as (is1 & is2 & -> & L & ->).
    exists (i :: is1), is2. rewrite srun_cons. cbn [fst snd app List.length]. auto.
Qed.

Lemma record_inputs : forall is s, map fst (combine is (snd (srun is s))) = is.
Proof.
  intros is. induction is as [|i is IH]; intros s; [reflexivity|]. rewrite srun_cons. cbn [fst snd combine map]. rewrite IH. reflexivity.
Qed.
Lemma record_outputs : forall is s, map snd (combine is (snd (srun is s))) = snd (srun is s).
Proof.
  intros is. induction is as [|i is IH]; intros s; [reflexivity|]. rewrite srun_cons. cbn [fst snd combine map]. rewrite IH. reflexivity.
Qed.

Lemma record_upto : forall before is s after, combine is (snd (srun is s)) = before ++ after ->
  exists is1 is2, is = is1 ++ is2 /\ before = combine is1 (snd (srun is1 s)) /\
    after = combine is2 (snd (srun is2 (fst (srun is1 s)))).
Proof.
  induction before as [|x before IH]; intros is s after E.
  - exists [], is. cbn [app] in *. auto.
  - destruct is as [|i is]; [discriminate|]. rewrite srun_cons in E. cbn [fst snd combine app] in E.
    injection E as <- E. destruct (IH _ _ _ E) as (is1 & is2 & -> & -> & ->).
    exists (i :: is1), is2. rewrite srun_cons. cbn [fst snd app combine]. auto.
Qed.

Lemma running_first : forall a b s, w_running (sy_world (fst (srun (a ++ b) s))) = true ->
  w_running (sy_world (fst (srun a s))) = true.
Proof.
  intros a b s R. rewrite srun_app in R. cbn [fst] in R. destruct (w_running (sy_world (fst (srun a s)))) eqn:E; [reflexivity|].
  rewrite (proj1 (stopped e p h d b _ E)) in R. congruence.
Qed.

Lemma db_inputs_about : forall port is, after_query port (db_inputs port is).
Proof.
  intros port is. induction is as [|i is IH]; [constructor|]. unfold db_inputs. cbn [flat_map].
  apply Forall_app. split; [|exact IH].
  destruct i; try constructor. destruct e0; try constructor;
    (destruct (N.eqb_spec port0 port) as [->|]; [|constructor]); constructor; try constructor; cbn [about]; rewrite ?N.eqb_refl; try reflexivity; discriminate.
Qed.

Lemma conversation_serve : forall is mp db port chunks answers,
  w_running (sy_world (fst (srun is (system_start true true mp db)))) = true ->
  conversation (combine is (snd (srun is (system_start true true mp db)))) port chunks answers ->
  answers = serve p h d None chunks.
Proof.
  intros is mp db port chunks answers R (before & c & query & os & during & later & T & Eos & Nh & -> & ->).
  apply record_upto in T. destruct T as (is1 & is2 & -> & _ & T).
  destruct is2 as [|i is2]; [discriminate|]. rewrite srun_cons in T. cbn [fst snd combine] in T.
  set (s := fst (srun is1 (system_start true true mp db))) in *.
  injection T as Ei Eo T. symmetry in T. apply record_upto in T. destruct T as (is3 & is4 & -> & -> & _).
  rewrite record_inputs, record_outputs.
  rewrite srun_app in R. cbn [fst] in R. fold s in R. apply running_before in R. destruct R as [R R']. apply running_first in R'.
  subst i. pose proof (step_shape e p h d (SysQuery c query (Some port)) s R) as S. cbv beta iota in S. rewrite Eos in Eo.
  destruct (sy_query s c).
  - assert (L : sy_db (fst (sstep (SysQuery c query (Some port)) s)) port = Listening).
    { rewrite S. unfold with_db. cbn [fst sy_db db_step].
      unfold set_port. rewrite N.eqb_refl. reflexivity. }
    destruct (port_srun is3 _ (sy_db (fst (sstep (SysQuery c query (Some port)) s))) port R') as [_ H]; [|reflexivity|].
    + intros j I (c' & ch & ->). rewrite <- (record_inputs is3 (fst (sstep (SysQuery c query (Some port)) s))) in I.
      apply in_map_iff in I. destruct I as ([j o] & E & I). cbn [fst] in E. subst j.
      apply (Nh _ _ I). exists c', ch. reflexivity.
    + rewrite H. apply connected_once; [apply db_inputs_about|exact L].
  - rewrite S in Eo. discriminate.
Qed.

Lemma start_silent : forall is s port, w_running (sy_world (fst (srun is s))) = true ->
  (forall i, In i is -> ~ hands_out i port) -> sy_db s port = NoHandler ->
  db_answers port (List.concat (snd (srun is s))) = [].
Proof.
  intros is s port R H E. destruct (port_srun is s (sy_db s) port R H eq_refl) as [_ ->].
  assert (G : forall es s0, after_query port es -> s0 port = NoHandler -> answers_on port (snd (db_run p h d s0 es)) = []).
  { clear. intros es. induction es as [|x es IH]; intros s0 A E; [reflexivity|].
    inversion A as [|? ? [Ha Hq] A']; subst. rewrite run_cons. cbn [snd]. rewrite answers_on_app.
    destruct x as [q ch|q|q ch|q]; [exfalso; exact (Hq q ch eq_refl)| | |]; cbn [about] in Ha;
      apply N.eqb_eq in Ha; subst q; cbn [db_step]; rewrite E; cbn [fst snd answers_on flat_map app]; apply IH; assumption. }
  apply G; [apply db_inputs_about|exact E].
Qed.

End Db.

(** ** What a player reads in a conversation *)

Lemma serve_firstn : forall p h d n chunks st, serve p h d st (firstn n chunks) = firstn n (serve p h d st chunks).
Proof.
  intros p h d n. induction n as [|n IH]; intros chunks st; [reflexivity|].
  destruct chunks as [|c chunks]; [reflexivity|]. cbn [firstn serve].
  destruct (process p h d st c) as [[a st']| |]; [|reflexivity|reflexivity]. cbn [firstn]. rewrite IH. reflexivity.
Qed.

Lemma serve_le : forall p h d chunks st, (List.length (serve p h d st chunks) <= List.length chunks)%nat.
Proof.
  intros p h d chunks. induction chunks as [|c chunks IH]; intros st; cbn [serve List.length]; [lia|].
  destruct (process p h d st c) as [[a st']| |]; cbn [List.length]; [|lia|lia]. specialize (IH st'). lia.
Qed.

Lemma firstn_two : forall A (l : list A) k a b, nth_error l k = Some a -> nth_error l (S k) = Some b ->
  firstn (S (S k)) l = firstn k l ++ [a; b].
Proof.
  intros A l. induction l as [|x l IH]; intros [|k] a b Ha Hb; try discriminate.
  - destruct l as [|y l]; [discriminate|]. injection Ha as ->. injection Hb as ->. reflexivity.
  - change (nth_error l k = Some a) in Ha. change (nth_error l (S k) = Some b) in Hb.
    change (firstn (S (S (S k))) (x :: l)) with (x :: firstn (S (S k)) l). rewrite (IH k a b Ha Hb). reflexivity.
Qed.

Lemma reads_asked : forall p h d chunks k tx tx' code args ms, Forall bytes_ok chunks ->
  (reads_at chunks (serve p h d None chunks) k tx tx' code args ms <->
   asking_ok p h d (mkAsking (firstn k chunks) tx tx') /\
   asked p h d (mkAsking (firstn k chunks) tx tx') code args ms /\
   nth_error chunks k = Some (client_request tx code args) /\
   nth_error chunks (S k) = Some (client_request tx' 0x3000 [])).
Proof.
  intros p h d chunks k tx tx' code args ms B. unfold asking_ok, asked, shows. cbn [ask_history ask_tx ask_tx'].
  split.
  - intros (T & T' & C1 & C2 & b & Nb & Rb).
    assert (Ll : (S k < List.length (serve p h d None chunks))%nat) by (apply nth_error_Some; congruence).
    assert (Lc : (k <= List.length chunks)%nat) by (pose proof (serve_le p h d chunks None); lia).
    assert (exists a, nth_error (serve p h d None chunks) k = Some a) as [a Na].
    { destruct (nth_error (serve p h d None chunks) k) eqn:E; [eauto|]. apply nth_error_None in E. lia. }
    split; [|split; [|auto]].
    + split; [|split; [|auto]].
      * apply Forall_forall. intros x I. rewrite Forall_forall in B. apply B. rewrite <- (firstn_skipn k chunks). apply in_or_app. auto.
      * rewrite serve_firstn, !firstn_length. lia.
    + exists a, b. split; [|exact Rb].
      rewrite <- (firstn_two _ chunks k _ _ C1 C2), !serve_firstn. apply firstn_two; assumption.
  - intros ((_ & L & T & T') & (a & b & E & Rb) & C1 & C2). repeat split; try assumption. exists b. split; [|exact Rb].
    rewrite <- (firstn_two _ chunks k _ _ C1 C2) in E. rewrite !serve_firstn in E.
    assert (Lk : List.length (firstn k chunks) = k).
    { apply firstn_length_le. apply Nat.lt_le_incl. apply nth_error_Some. congruence. }
    rewrite serve_firstn, Lk in L.
    assert (G : nth_error (firstn (S (S k)) (serve p h d None chunks)) (S k) = Some b).
    { rewrite E, nth_error_app2 by lia. rewrite L. replace (S k - k)%nat with 1%nat by lia. reflexivity. }
    rewrite <- G. rewrite <- (firstn_skipn (S (S k)) (serve p h d None chunks)) at 1.
    rewrite nth_error_app1; [reflexivity|]. apply nth_error_Some. congruence.
Qed.

Lemma asks_ok : forall p h d chunks k tx tx' code args, Forall bytes_ok chunks ->
  asks_at chunks (serve p h d None chunks) k tx tx' code args ->
  asking_ok p h d (mkAsking (firstn k chunks) tx tx').
Proof.
  intros p h d chunks k tx tx' code args B (T & T' & L & C1 & C2). unfold asking_ok. cbn [ask_history ask_tx ask_tx'].
  split; [|split; [|auto]].
  - apply Forall_forall. intros x I. rewrite Forall_forall in B. apply B. rewrite <- (firstn_skipn k chunks). apply in_or_app. auto.
  - rewrite serve_firstn, !firstn_length. pose proof (serve_le p h d chunks None). lia.
Qed.
