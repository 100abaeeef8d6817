(** Which times are possible. *)

From Verif Require Import Base Unicode MPackets MKeepalive MNetwork MServer MThreads MTime SNetwork SServer SThreads STime
  LBase LServer LServer2 LThreads LThreads2 LThreads3 LTime LTime2.
From Coq Require Import Lia Arith.
Open Scope list_scope.
Open Scope N_scope.

Definition pause_of (t : threads) (w : thread) : N :=
  match w with KaThread => ka_pause t | BcThread => bc_pause t | AppThread => app_pause t end.

(** What the last action of the main thread was. *)
Definition shape (a : action) (t : threads) : Prop :=
  match th_app t with
  | AppSends _ O => a = AppAcquires
  | AppSends _ (S k) => exists ok, a = AppSendsNext ok
  | _ => True
  end.

Definition last_is (w : thread) (acts : list (N * action)) (s : N) (a : action) : Prop :=
  exists pre mid, acts = pre ++ (s, a) :: mid /\ thread_of a = w /\ (forall x, In x mid -> thread_of (snd x) <> w).

Definition paused (acts : list (N * action)) (c : clocked) : Prop :=
  forall w, ((forall x, In x acts -> thread_of (snd x) <> w) /\ ck_until c w = 0) \/
    exists s a, last_is w acts s a /\ ck_until c w = s + pause_of (ck_threads c) w /\
                (w = AppThread -> shape a (ck_threads c)).

Lemma act_other : forall t a t' os w, act t a = Some (t', os) -> thread_of a <> w ->
  pause_of t' w = pause_of t w /\ (w = AppThread -> th_app t' = th_app t).
Proof.
  intros t a t' os w E D.
  assert (K : (thread_of a <> KaThread -> th_ka t' = th_ka t) /\ (thread_of a <> BcThread -> th_bc t' = th_bc t) /\
              (thread_of a <> AppThread -> th_app t' = th_app t)).
  { clear D w. destruct a; cbn [act thread_of] in *;
      unfold ka_receives, ka_fails, ka_acquires, ka_looks_up, ka_queues, ka_releases, bc_acquires, bc_sends,
        bc_releases, app_takes, app_acquires, app_sends_next, app_releases in E;
      act_cases E; cbn; repeat split; intros X; try reflexivity; elim X; reflexivity. }
  destruct K as (K1 & K2 & K3). destruct w; cbn [pause_of]; unfold ka_pause, bc_pause, app_pause.
  - rewrite (K1 D). split; [reflexivity|discriminate].
  - rewrite (K2 D). split; [reflexivity|discriminate].
  - rewrite (K3 D). split; [reflexivity|intros _; reflexivity].
Qed.

Lemma act_shape : forall t a t' os, act t a = Some (t', os) -> thread_of a = AppThread -> shape a t'.
Proof.
  intros t a t' os E D. destruct a; try discriminate D; cbn [act] in E;
    unfold app_takes, app_acquires, app_sends_next, app_releases in E; act_cases E; unfold shape; cbn [th_app app_to lock_to state_to queue_to poison];
    try exact Logic.I; try reflexivity; try (eexists; reflexivity).
  match goal with X : th_app _ = _ |- _ => rewrite X end. exact Logic.I.
Qed.

Lemma pause_until : forall c s a t, ck_until (pause c s a t) (thread_of a) = s + pause_of t (thread_of a).
Proof. intros c s a t. unfold pause. destruct (thread_of a); reflexivity. Qed.

Lemma last_snoc : forall acts s a, last_is (thread_of a) (acts ++ [(s, a)]) s a.
Proof. intros acts s a. exists acts, []. split; [reflexivity|]. split; [reflexivity|intros x []]. Qed.

Lemma last_other : forall acts w s a s' a', last_is w acts s a -> thread_of a' <> w -> last_is w (acts ++ [(s', a')]) s a.
Proof.
  intros acts w s a s' a' (pre & mid & -> & W & M) D. exists pre, (mid ++ [(s', a')]).
  split; [rewrite <- app_assoc; reflexivity|]. split; [exact W|]. intros x X. apply in_app_or in X.
  destruct X as [X|[<-|[]]]; [exact (M x X)|exact D].
Qed.

Lemma paused_start : paused [] clocked_start.
Proof. intros w. left. split; [intros x []|]. destruct w; reflexivity. Qed.

Lemma paused_step : forall acts c s a c' o, paused acts c -> timed_act c s a = Some (c', o) -> paused (acts ++ [(s, a)]) c'.
Proof.
  intros acts c s a c' o P E w. destruct (same_thread w (thread_of a)) eqn:S.
  - apply same_thread_iff in S. subst w. right. exists s, a. split; [apply last_snoc|].
    apply timed_act_iff in E. destruct E as (_ & _ & t & os & A & -> & _). rewrite pause_threads.
    split; [apply pause_until|]. intros W. exact (act_shape _ _ _ _ A W).
  - assert (D : thread_of a <> w).
    { intros <-. destruct (thread_of a); discriminate S. }
    pose proof (until_other _ _ _ _ _ w E S) as U.
    apply timed_act_iff in E. destruct E as (_ & _ & t & os & A & -> & _).
    destruct (act_other _ _ _ _ w A D) as [Q T]. rewrite U, pause_threads. destruct (P w) as [[N Z]|(s0 & a0 & L & Z & H)].
    + left. split; [|exact Z]. intros x X. apply in_app_or in X. destruct X as [X|[<-|[]]]; [exact (N x X)|exact D].
    + right. exists s0, a0. split; [exact (last_other _ _ _ _ _ _ L D)|]. rewrite Q. split; [exact Z|].
      intros W. specialize (H W). unfold shape in *. rewrite (T W). exact H.
Qed.

Lemma timed_paused : forall acts c os, timed acts = Some (c, os) -> paused acts c.
Proof.
  induction acts as [|[s a] acts IH] using rev_ind; intros c os H.
  - injection H as <- _. exact paused_start.
  - apply timed_snoc in H. destruct H as (c1 & os1 & o & H & E & _). exact (paused_step _ _ _ _ _ _ (IH _ _ H) E).
Qed.

(** The rest is told by the next action. *)
Lemma rest_is : forall t a' t' os a, act t a' = Some (t', os) -> thread_of a = thread_of a' ->
  (thread_of a' = AppThread -> shape a t) -> pause_of t (thread_of a') = rest a a'.
Proof.
  intros t a' t' os a E W H. unfold shape in H. destruct a'; cbn [act thread_of] in *;
    unfold ka_receives, ka_fails, ka_acquires, ka_looks_up, ka_queues, ka_releases, bc_acquires, bc_sends,
      bc_releases, app_takes, app_acquires, app_sends_next, app_releases in E;
    cbn [pause_of]; unfold ka_pause, bc_pause, app_pause;
    [destruct (th_ka t) | destruct (th_ka t) | destruct (th_ka t) | destruct (th_ka t) | destruct (th_ka t) | destruct (th_ka t)
    | destruct (th_bc t) | destruct (th_bc t) | destruct (th_bc t)
    | destruct (th_app t) | destruct (th_app t) | destruct (th_app t) as [| |n [|k]|] | destruct (th_app t) as [| |n [|k]|]];
    try discriminate E; try (destruct a; try discriminate W; reflexivity).
  - rewrite (H eq_refl). reflexivity.
  - destruct (H eq_refl) as [ok ->]. cbn [rest].
    destruct (nth_error (negotiation n) (S k)) as [p|] eqn:X; [|discriminate].
    apply negotiation_some in X. replace (Nat.ltb k 39) with true by (symmetry; apply Nat.ltb_lt; lia). reflexivity.
  - destruct (H eq_refl) as [ok ->]. cbn [rest].
    destruct (nth_error (negotiation n) (S k)) as [p|] eqn:X; [discriminate|].
    apply negotiation_none in X. replace (Nat.ltb k 39) with false by (symmetry; apply Nat.ltb_ge; lia). reflexivity.
Qed.

(** ** Possible times *)

Lemma rested_snoc : forall acts s' a', rested acts ->
  (forall s a, last_is (thread_of a') acts s a -> s + rest a a' <= s') -> rested (acts ++ [(s', a')]).
Proof.
  intros acts s' a' R L pre s a mid s2 a2 post E W M. destruct post as [|z post] using rev_ind.
  - change (pre ++ (s, a) :: mid ++ [(s2, a2)]) with (pre ++ ((s, a) :: mid) ++ [(s2, a2)]) in E.
    rewrite app_assoc in E. apply app_inj_tail in E. destruct E as [-> E]. injection E as <- <-.
    apply L. exists pre, mid. auto.
  - clear IHpost.
    assert (X : acts ++ [(s', a')] = (pre ++ (s, a) :: mid ++ (s2, a2) :: post) ++ [z]).
    { rewrite E, <- app_assoc. cbn [app]. rewrite <- app_assoc. reflexivity. }
    apply app_inj_tail in X. destruct X as [X _]. exact (R pre s a mid s2 a2 post X W M).
Qed.

Lemma rested_prefix : forall a b, rested (a ++ b) -> rested a.
Proof.
  intros l b R pre s a mid s' a' post -> W M. apply (R pre s a mid s' a' (post ++ b)); [|assumption|assumption].
  rewrite <- app_assoc. cbn [app]. rewrite <- app_assoc. reflexivity.
Qed.

Lemma rested_last : forall acts s' a' s a, rested (acts ++ [(s', a')]) -> last_is (thread_of a') acts s a -> s + rest a a' <= s'.
Proof.
  intros acts s' a' s a R (pre & mid & -> & W & M). apply (R pre s a mid s' a' []); [|assumption|assumption].
  rewrite <- app_assoc. reflexivity.
Qed.

Lemma last_now : forall acts c os, timed acts = Some (c, os) ->
  (acts = [] /\ ck_now c = 0) \/ exists l a, acts = l ++ [(ck_now c, a)].
Proof.
  destruct acts as [|[s a] acts _] using rev_ind; intros c os H.
  - injection H as <- _. left. auto.
  - apply timed_snoc in H. destruct H as (c1 & os1 & o & _ & E & _). apply timed_act_now in E.
    destruct E as [_ <-]. right. exists acts, a. reflexivity.
Qed.

Lemma apart_prefix : forall d a b, apart d (a ++ b) -> apart d a.
Proof.
  intros d a b A p s m s' q ->. apply (A p s m s' (q ++ b)). rewrite <- app_assoc. cbn [app]. rewrite <- app_assoc. reflexivity.
Qed.

Lemma times_ordered : forall acts c os, timed acts = Some (c, os) -> apart 0 (map fst acts) /\ forall x, In x (map fst acts) -> x <= ck_now c.
Proof.
  induction acts as [|[s a] acts IH] using rev_ind; intros c os H.
  - split; [apply apart_nil|intros x []].
  - apply timed_snoc in H. destruct H as (c1 & os1 & o & H & E & _). apply timed_act_now in E. destruct E as [E1 E2].
    destruct (IH _ _ H) as [A B]. rewrite map_app. cbn [map fst]. split.
    + apply apart_snoc; [exact A|]. intros x X. specialize (B x X). lia.
    + intros x X. apply in_app_or in X. destruct X as [X|[<-|[]]]; [specialize (B x X); lia|lia].
Qed.

Lemma timed_rested : forall acts c os, timed acts = Some (c, os) -> rested acts.
Proof.
  induction acts as [|[s a] acts IH] using rev_ind; intros c os H.
  - intros pre ? ? ? ? ? ? X. destruct pre; discriminate.
  - apply timed_snoc in H. destruct H as (c1 & os1 & o & H & E & _). apply rested_snoc; [exact (IH _ _ H)|].
    intros s0 a0 L. apply timed_act_iff in E. destruct E as (_ & U & t & os2 & A & _).
    destruct (timed_paused _ _ _ H (thread_of a)) as [[N _]|(s1 & a1 & L1 & Z & Sh)].
    + destruct L as (pre & mid & -> & W & _). elim (N (s0, a0)); [apply in_or_app; right; left; reflexivity|exact W].
    + assert (X : (s1, a1) = (s0, a0)).
      { clear - L L1. destruct L as (p & m & E & W & M). destruct L1 as (p1 & m1 & E1 & W1 & M1). subst acts.
        revert p1 E1. induction p as [|x p IHp]; intros p1 E1.
        - destruct p1 as [|y p1]; cbn [app] in E1; [congruence|]. injection E1 as X Y.
          elim (M (s1, a1)); [rewrite Y; apply in_or_app; right; left; reflexivity|exact W1].
        - destruct p1 as [|y p1]; cbn [app] in E1; injection E1 as X Y.
          + elim (M1 (s0, a0)); [rewrite <- Y; apply in_or_app; right; left; reflexivity|exact W].
          + exact (IHp p1 Y). }
      injection X as X1 X2. subst s1 a1. destruct L1 as (_ & _ & _ & W & _). rewrite Z, (rest_is _ _ _ _ _ A W Sh) in U. exact U.
Qed.

Theorem possible_times : forall acts,
  (exists c os, timed acts = Some (c, os)) <->
  (exists t os, schedule (map snd acts) = Some (t, os)) /\ apart 0 (map fst acts) /\ rested acts.
Proof.
  intros acts. split.
  - intros (c & os & H). split; [eexists; eexists; exact (timed_schedule _ _ _ H)|].
    split; [exact (proj1 (times_ordered _ _ _ H))|exact (timed_rested _ _ _ H)].
  - induction acts as [|[s a] acts IH] using rev_ind; intros ((t & os & S) & O & R).
    + eexists. eexists. reflexivity.
    + rewrite map_app in S, O. cbn [map fst snd] in S, O. apply schedule_snoc in S.
      destruct S as (t1 & os1 & o & S & A & _).
      destruct IH as (c & cos & H).
      { split; [eexists; eexists; exact S|]. split; [exact (apart_prefix _ _ _ O)|exact (rested_prefix _ _ R)]. }
      pose proof (timed_schedule _ _ _ H) as T. rewrite S in T. injection T as -> _.
      eexists. eexists. apply timed_snoc. exists c, cos. eexists. split; [exact H|]. split; [|reflexivity].
      apply timed_act_iff. split; [|split].
      * destruct (last_now _ _ _ H) as [[_ ->]|(l & b & ->)]; [lia|].
        rewrite map_app in O. cbn [map fst] in O. rewrite <- app_assoc in O. specialize (O (map fst l) (ck_now c) [] s [] eq_refl). lia.
      * destruct (timed_paused _ _ _ H (thread_of a)) as [[_ ->]|(s1 & a1 & L & -> & Sh)]; [lia|].
        assert (W : thread_of a1 = thread_of a) by (destruct L as (? & ? & _ & W & _); exact W).
        rewrite (rest_is _ _ _ _ _ A W Sh). exact (rested_last _ _ _ _ _ R L).
      * exists t, o. auto.
Qed.
