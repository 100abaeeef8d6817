(** Promptness, step by step. *)

From Verif Require Import Base Unicode MPackets MKeepalive MNetwork MServer MThreads MTime SNetwork SServer SThreads STime
  LBase LServer LServer2 LThreads LThreads2 LThreads3 LTime.
From Coq Require Import Lia Arith.
Open Scope list_scope.
Open Scope N_scope.

Definition same_thread (w v : thread) : bool :=
  match w, v with KaThread, KaThread | BcThread, BcThread | AppThread, AppThread => true | _, _ => false end.

Lemma same_thread_iff : forall w v, same_thread w v = true <-> w = v.
Proof. intros [] []; cbn; split; congruence. Qed.

Definition free (t : threads) : bool := match th_lock t with None => true | _ => false end.

Definition able_b (t : threads) (w : thread) : bool :=
  match w with
  | KaThread => match th_ka t with KaWaits _ _ _ => free t | KaLocked _ _ _ | KaPosts _ => true | _ => false end
  | BcThread => match th_bc t with BcIdle => free t | BcDead => false | _ => true end
  | AppThread => match th_app t with
                 | AppIdle => match th_queue t with [] => false | _ => true end
                 | AppWaits => free t
                 | AppSends _ _ => true
                 | AppGone => false
                 end
  end.

Lemma able_iff : forall c w, able c w <-> able_b (ck_threads c) w = true.
Proof.
  intros [t m u1 u2 u3] w. unfold able, can_act. cbn [ck_threads]. destruct t as [s p l q k b ap]. split.
  - intros [Hw (a & Ea & H)]. destruct w; destruct a; try discriminate Ea; cbn [act] in H;
      unfold ka_receives, ka_fails, ka_acquires, ka_looks_up, ka_queues, ka_releases, bc_acquires, bc_sends,
        bc_releases, app_takes, app_acquires, app_sends_next, app_releases in H;
      cbn [th_ka th_bc th_app th_lock th_poisoned th_state th_queue has_work] in *;
      unfold able_b, free; cbn [th_ka th_bc th_app th_lock th_queue].
    all: try (destruct k; try reflexivity; try (exfalso; apply H; reflexivity); try tauto; destruct l; try reflexivity; exfalso; apply H; reflexivity).
    all: try (destruct b; try reflexivity; try (exfalso; apply H; reflexivity); try tauto; destruct l; try reflexivity; exfalso; apply H; reflexivity).
    all: try (destruct ap; try reflexivity; try (exfalso; apply H; reflexivity); try tauto; destruct l, q; try reflexivity; exfalso; apply H; reflexivity).
  - intros H. unfold able_b, free in H. cbn [th_ka th_bc th_app th_lock th_queue] in H.
    destruct w; cbn [has_work th_ka th_bc th_app th_queue].
    + destruct k as [|pk pn ip|pk pn ip|es|]; try discriminate H; (split; [split; discriminate|]).
      * destruct l; [discriminate|]. exists KaAcquires. split; [reflexivity|]. cbn. destruct p; discriminate.
      * exists (KaLooksUp []). split; [reflexivity|]. cbn [act]. unfold ka_looks_up. cbn [th_ka].
        destruct (handle_keepalive_status _ _ _ _ _) as [[? ?]| |]; discriminate.
      * destruct es as [|e es]; [exists KaReleases|exists KaQueues]; (split; [reflexivity|cbn; discriminate]).
    + destruct b; try discriminate H; (split; [discriminate|]).
      * destruct l; [discriminate|]. exists BcAcquires. split; [reflexivity|]. cbn. destruct p; discriminate.
      * destruct (st_address s) as [n|] eqn:A.
        -- exists (BcSends true). split; [reflexivity|]. cbn [act]. unfold bc_sends. cbn [th_bc th_state]. rewrite A.
           destruct (send_broadcast_payload _ _ _); discriminate.
        -- exists BcReleases. split; [reflexivity|]. cbn. rewrite A. discriminate.
      * exists BcReleases. split; [reflexivity|]. cbn. discriminate.
    + destruct ap as [| |n k'|]; try discriminate H.
      * destruct q as [|e q]; [discriminate H|]. split; [split; [discriminate|intros [_ X]; discriminate X]|].
        exists AppTakes. split; [reflexivity|]. cbn. destruct e; discriminate.
      * destruct l; [discriminate|]. split; [split; [discriminate|intros [X _]; discriminate X]|].
        exists AppAcquires. split; [reflexivity|]. cbn [act]. unfold app_acquires. cbn [th_app th_lock th_poisoned].
        destruct p; [discriminate|]. cbn. destruct (st_address s); discriminate.
      * split; [split; [discriminate|intros [X _]; discriminate X]|].
        destruct (nth_error (negotiation n) k') as [pk|] eqn:E.
        -- exists (AppSendsNext true). split; [reflexivity|]. cbn [act]. unfold app_sends_next. cbn [th_app]. rewrite E.
           destruct (send_broadcast_payload _ _ _); discriminate.
        -- exists AppReleases. split; [reflexivity|]. cbn [act]. unfold app_releases. cbn [th_app]. rewrite E. discriminate.
Qed.

Definition since_after (c : clocked) (since : thread -> N) (s : N) (a : action) (c' : clocked) (w : thread) : N :=
  if (able_b (ck_threads c) w && negb (same_thread w (thread_of a)))%bool then since w
  else N.max s (ck_until c' w).

Inductive tracked (d : N) : list (N * action) -> clocked -> (thread -> N) -> Prop :=
| tracked_start : tracked d [] clocked_start (fun _ => 0)
| tracked_step : forall acts c since s a c' o, tracked d acts c since ->
    timed_act c s a = Some (c', o) ->
    (forall w, able_b (ck_threads c) w = true -> s <= since w + d) ->
    tracked d (acts ++ [(s, a)]) c' (since_after c since s a c').

Lemma tracked_timed : forall d acts c since, tracked d acts c since -> exists os, timed acts = Some (c, os).
Proof.
  intros d acts c since H. induction H as [|acts c since s a c' o H [os IH] E F].
  - exists []. reflexivity.
  - exists (os ++ o). apply timed_snoc. exists c, os, o. auto.
Qed.

Lemma until_other : forall c s a c' o w, timed_act c s a = Some (c', o) -> same_thread w (thread_of a) = false ->
  ck_until c' w = ck_until c w.
Proof.
  intros c s a c' o w E D. apply timed_act_iff in E. destruct E as (_ & _ & t & os & _ & -> & _).
  unfold pause. destruct (thread_of a), w; try discriminate D; reflexivity.
Qed.

Lemma timed_act_now : forall c s a c' o, timed_act c s a = Some (c', o) -> ck_now c <= s /\ ck_now c' = s.
Proof.
  intros c s a c' o E. apply timed_act_iff in E. destruct E as (E1 & _ & t & os & _ & -> & _).
  split; [exact E1|apply pause_now].
Qed.

Definition stretch (acts : list (N * action)) (w : thread) (v : N) : Prop :=
  exists pre mid c os, acts = pre ++ mid /\ timed pre = Some (c, os) /\
    (forall m1 m2, mid = m1 ++ m2 -> exists c os, timed (pre ++ m1) = Some (c, os) /\ able c w) /\
    (forall x, In x mid -> thread_of (snd x) <> w) /\ v = N.max (ck_now c) (ck_until c w).

Lemma stretch_now : forall acts c os w, timed acts = Some (c, os) -> able_b (ck_threads c) w = true ->
  stretch acts w (N.max (ck_now c) (ck_until c w)).
Proof.
  intros acts c os w H A. exists acts, [], c, os. rewrite app_nil_r. split; [reflexivity|]. split; [exact H|].
  split; [|split; [intros x []|reflexivity]].
  intros m1 m2 E. symmetry in E. apply app_eq_nil in E. destruct E as [-> ->]. rewrite app_nil_r.
  exists c, os. split; [exact H|]. apply able_iff, A.
Qed.

Lemma prompt_prefix : forall d a b, prompt d (a ++ b) -> prompt d a.
Proof.
  intros d a b P pre mid s x post w E. apply (P pre mid s x (post ++ b) w).
  rewrite E, <- app_assoc. f_equal. rewrite <- app_assoc. reflexivity.
Qed.

Lemma prompt_tracked : forall d acts c os, timed acts = Some (c, os) -> prompt d acts ->
  exists since, tracked d acts c since /\ forall w, able_b (ck_threads c) w = true -> stretch acts w (since w).
Proof.
  intros d. induction acts as [|[s a] acts IH] using rev_ind; intros c os H P.
  - injection H as <- <-. exists (fun _ => 0). split; [constructor|]. intros w A.
    assert (X := stretch_now [] clocked_start [] w eq_refl A). destruct w; exact X.
  - assert (H0 := H). apply timed_snoc in H. destruct H as (c1 & os1 & o & H & E & ->).
    destruct (IH c1 os1 H (prompt_prefix _ _ _ P)) as (since & T & St).
    exists (since_after c1 since s a c). split.
    + econstructor; [exact T|exact E|]. intros w A. destruct (St w A) as (pre & mid & c0 & os0 & -> & Hp & Hm & Hn & ->).
      apply (P pre mid s a [] w) with (os := os0); [rewrite <- app_assoc; reflexivity|exact Hm|exact Hn|exact Hp].
    + intros w A. unfold since_after. destruct (able_b (ck_threads c1) w) eqn:A1.
      * destruct (same_thread w (thread_of a)) eqn:D; cbn [andb negb].
        -- destruct (timed_act_now _ _ _ _ _ E) as [_ <-]. exact (stretch_now _ _ _ _ H0 A).
        -- destruct (St w A1) as (pre & mid & c0 & os0 & -> & Hp & Hm & Hn & Ev).
           exists pre, (mid ++ [(s, a)]), c0, os0. rewrite app_assoc. split; [reflexivity|]. split; [exact Hp|].
           split; [|split; [|exact Ev]].
           ++ intros m1 m2 Em. destruct m2 as [|x m2] using rev_ind.
              ** rewrite app_nil_r in Em. subst m1. rewrite app_assoc. exists c, (os1 ++ o). split; [exact H0|apply able_iff, A].
              ** rewrite app_assoc in Em. apply app_inj_tail in Em. destruct Em as [Em _]. exact (Hm m1 m2 Em).
           ++ intros x Hx. apply in_app_or in Hx. destruct Hx as [Hx|[<-|[]]]; [exact (Hn x Hx)|].
              cbn [snd]. intros X. subst w. destruct (thread_of a); discriminate D.
      * cbn [andb]. destruct (timed_act_now _ _ _ _ _ E) as [_ <-]. exact (stretch_now _ _ _ _ H0 A).
Qed.

Lemma tracked_below : forall d acts c since, tracked d acts c since ->
  forall w, able_b (ck_threads c) w = true -> since w <= N.max (ck_now c) (ck_until c w).
Proof.
  intros d acts c since H. induction H as [|acts c since s a c' o H IH E F]; intros w A.
  - lia.
  - unfold since_after. destruct (timed_act_now _ _ _ _ _ E) as [E1 E2].
    destruct (able_b (ck_threads c) w) eqn:A1.
    + destruct (same_thread w (thread_of a)) eqn:D; cbn [andb negb]; [lia|].
      rewrite (until_other _ _ _ _ _ _ E D). specialize (IH w A1). lia.
    + cbn [andb]. lia.
Qed.

Lemma tracked_prefix : forall d a b c since, tracked d (a ++ b) c since -> exists c' since', tracked d a c' since'.
Proof.
  intros d a b. induction b as [|x b IH] using rev_ind; intros c since H.
  - rewrite app_nil_r in H. exists c, since. exact H.
  - rewrite app_assoc in H. inversion H as [E|acts c0 since0 s y c' o H1 E1 F E]; subst.
    + destruct (a ++ b); discriminate.
    + apply app_inj_tail in E. destruct E as [-> _]. exact (IH _ _ H1).
Qed.

Lemma tracked_prompt : forall d acts c since, tracked d acts c since -> prompt d acts.
Proof.
  intros d acts c since H. induction H as [|acts c since s a c' o H IH E F].
  - intros pre mid s a post w E. destruct pre; [destruct mid|]; discriminate.
  - intros pre mid u b post w Ea Hm Hn c0 os0 H0.
    destruct post as [|y post] using rev_ind.
    + rewrite app_assoc in Ea. apply app_inj_tail in Ea. destruct Ea as [-> Eb]. injection Eb as <- <-.
      destruct (tracked_timed _ _ _ _ H) as [os Ht].
      enough (G : forall cc sn, tracked d (pre ++ mid) cc sn -> able_b (ck_threads cc) w = true /\ sn w <= N.max (ck_now c0) (ck_until c0 w)).
      { destruct (G c since H) as [A L]. specialize (F w A). lia. }
      clear H IH E F Ht. induction mid as [|[v x] mid IHm] using rev_ind; intros cc sn T.
      * rewrite app_nil_r in T. destruct (Hm [] [] eq_refl) as (c1 & os1 & T1 & A1). rewrite app_nil_r in T1.
        destruct (tracked_timed _ _ _ _ T) as [os2 T2].
        assert (cc = c0) by congruence. assert (c1 = c0) by congruence. subst cc c1.
        apply able_iff in A1. split; [exact A1|]. exact (tracked_below _ _ _ _ T w A1).
      * destruct (Hm (mid ++ [(v, x)]) []) as (c1 & os1 & T1 & A1); [rewrite app_nil_r; reflexivity|].
        destruct (tracked_timed _ _ _ _ T) as [os2 T2]. assert (c1 = cc) by congruence. subst c1.
        split; [apply able_iff, A1|].
        rewrite app_assoc in T. inversion T as [E|acts c2 since2 s2 y c3 o2 T3 E3 F3 E]; subst.
        -- destruct (pre ++ mid); discriminate.
        -- apply app_inj_tail in E. destruct E as [-> E]. injection E as -> ->.
           destruct (IHm) with (cc := c2) (sn := since2) as [A2 L2].
           ++ intros m1 m2 ->. apply (Hm m1 (m2 ++ [(v, x)])). rewrite app_assoc. reflexivity.
           ++ intros z Hz. apply Hn, in_or_app. left. exact Hz.
           ++ exact T3.
           ++ unfold since_after. rewrite A2. cbn [andb].
              assert (D : same_thread w (thread_of x) = false).
              { destruct (same_thread w (thread_of x)) eqn:D; [|reflexivity]. apply same_thread_iff in D.
                exfalso. apply (Hn (v, x)); [apply in_or_app; right; left; reflexivity|]. symmetry. exact D. }
              rewrite D. exact L2.
    + clear IHpost. rewrite app_comm_cons, !app_assoc in Ea. apply app_inj_tail in Ea. destruct Ea as [-> _].
      apply (IH pre mid u b post w) with (os := os0); try assumption. rewrite <- app_assoc. reflexivity.
Qed.

(** A check that can be computed. *)
Fixpoint prompt_b (d : N) (c : clocked) (since : thread -> N) (acts : list (N * action)) : bool :=
  match acts with
  | [] => true
  | (s, a) :: acts =>
      match timed_act c s a with
      | Some (c', _) =>
          (forallb (fun w => implb (able_b (ck_threads c) w) (s <=? since w + d)) [KaThread; BcThread; AppThread]
           && prompt_b d c' (since_after c since s a c') acts)%bool
      | None => false
      end
  end.

Lemma prompt_b_tracked : forall d b a c since, tracked d a c since -> prompt_b d c since b = true ->
  exists c' since', tracked d (a ++ b) c' since'.
Proof.
  intros d. induction b as [|[s x] b IH]; intros a c since T H.
  - exists c, since. rewrite app_nil_r. exact T.
  - cbn [prompt_b] in H. destruct (timed_act c s x) as [[c' o]|] eqn:E; [|discriminate].
    apply andb_prop in H. destruct H as [H1 H2].
    change (a ++ (s, x) :: b) with (a ++ [(s, x)] ++ b). rewrite app_assoc.
    apply (IH (a ++ [(s, x)]) c' (since_after c since s x c')); [|exact H2].
    econstructor; [exact T|exact E|]. intros w A. rewrite forallb_forall in H1.
    assert (X : implb (able_b (ck_threads c) w) (s <=? since w + d) = true) by (apply H1; destruct w; cbn; auto).
    rewrite A in X. apply N.leb_le. exact X.
Qed.

Lemma prompt_computed : forall d acts, prompt_b d clocked_start (fun _ => 0) acts = true -> prompt d acts.
Proof.
  intros d acts H. destruct (prompt_b_tracked d acts [] clocked_start (fun _ => 0) (tracked_start d) H) as (c & since & T).
  exact (tracked_prompt _ _ _ _ T).
Qed.
