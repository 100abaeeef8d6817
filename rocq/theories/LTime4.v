(** If no thread is left waiting, announcements keep coming. *)

From Verif Require Import Base Unicode MPackets MKeepalive MNetwork MServer MThreads MTime SNetwork SServer SThreads STime
  LBase LServer LServer2 LThreads LThreads2 LThreads3 LTime LTime2 LTime3.
From Coq Require Import Lia Arith.
Open Scope list_scope.
Open Scope N_scope.

(** The keep-alive thread holds the mutex, and had it by [v]. *)
Definition ka_since (v : N) (c : clocked) (since : thread -> N) : Prop :=
  match th_ka (ck_threads c) with
  | KaLocked _ _ _ => since KaThread <= v
  | KaPosts es => (List.length es <= 2)%nat /\ since KaThread + 16 * N.of_nat (List.length es) <= v + 48
  | _ => False
  end.

(** The broadcast thread sleeps until [b], or has done so. *)
Inductive waiting (b : N) (c : clocked) (since : thread -> N) : Prop :=
| w_free : th_bc (ck_threads c) = BcIdle -> ck_bc c = b -> th_lock (ck_threads c) = None ->
    since BcThread <= b -> waiting b c since
| w_ka : th_bc (ck_threads c) = BcIdle -> ck_bc c = b -> ka_since (b + 16) c since -> waiting b c since
| w_free2 : forall y, th_bc (ck_threads c) = BcIdle -> ck_bc c = b -> th_lock (ck_threads c) = None ->
    y <= b + 80 -> since BcThread <= y -> th_ka (ck_threads c) = KaIdle -> y + 250 <= ck_ka c -> waiting b c since
| w_app : forall n k, th_bc (ck_threads c) = BcIdle -> ck_bc c = b -> th_app (ck_threads c) = AppSends n k ->
    (k <= 40)%nat -> since AppThread <= b + 96 + 116 * N.of_nat k -> waiting b c since
| w_free3 : forall z, th_bc (ck_threads c) = BcIdle -> ck_bc c = b -> th_lock (ck_threads c) = None ->
    b <= z -> z <= ck_now c -> z <= b + 4752 -> since BcThread <= z ->
    th_app (ck_threads c) = AppIdle -> z + 150 <= ck_app c -> waiting b c since
| w_ka2 : forall z, th_bc (ck_threads c) = BcIdle -> ck_bc c = b ->
    b <= z -> z <= ck_now c -> z <= b + 4752 -> ka_since (z + 16) c since ->
    th_app (ck_threads c) = AppIdle -> z + 150 <= ck_app c -> waiting b c since
| w_free4 : forall z y, th_bc (ck_threads c) = BcIdle -> ck_bc c = b -> th_lock (ck_threads c) = None ->
    z <= b + 4752 -> y <= z + 80 -> since BcThread <= y ->
    th_ka (ck_threads c) = KaIdle -> y + 250 <= ck_ka c ->
    th_app (ck_threads c) = AppIdle -> z + 150 <= ck_app c -> waiting b c since
| w_bc : th_bc (ck_threads c) = BcLocked -> since BcThread <= b + 4848 -> waiting b c since.

Notation well := in_order.

Ltac pieces := cbn [ck_threads ck_now ck_ka ck_bc ck_app ka_to bc_to app_to queue_to lock_to state_to poison
  th_ka th_bc th_app th_queue th_state th_lock th_poisoned].
Ltac since_is := unfold since_after; cbn [ck_threads able_b free th_ka th_bc th_app th_queue th_lock thread_of same_thread andb negb
  ck_until ck_ka ck_bc ck_app ka_to bc_to app_to queue_to lock_to state_to poison]; unfold ka_pause, bc_pause, app_pause;
  cbn [th_ka th_bc th_app ka_to bc_to app_to queue_to lock_to state_to].

Lemma wait_free : forall b c since s a c' o, locked (ck_threads c) -> well c -> well c' ->
  (forall w, able_b (ck_threads c) w = true -> s <= since w + 16) ->
  th_bc (ck_threads c) = BcIdle -> ck_bc c = b -> th_lock (ck_threads c) = None -> since BcThread <= b ->
  timed_act c s a = Some (c', o) -> waiting b c' (since_after c since s a c').
Proof.
  intros b [[ts tp tl tq tk tb ta] m u1 u2 u3] since s a c' o [L1 L2 L3 L4] [A1 A2] [A3 A4] F H1 H2 H3 H4 E.
  clocks. cbn [th_lock th_poisoned th_state th_queue] in *. subst.
  assert (Fb := F BcThread eq_refl). clear F.
  opened E; try (apply w_free; pieces; first [reflexivity|assumption|since_is; lia]).
  - apply w_ka; pieces; try reflexivity. unfold ka_since. pieces. since_is. lia.
  - apply w_bc; pieces; try reflexivity. since_is. lia.
  - apply (w_app _ _ _ n 0); pieces; try reflexivity; [lia|]. since_is. lia.
Qed.

Ltac start_wait :=
  clocks; cbn [th_lock th_poisoned th_state th_queue] in *; subst.

Lemma wait_ka : forall v c since s a c' o, locked (ck_threads c) -> well c' ->
  (forall w, able_b (ck_threads c) w = true -> s <= since w + 16) ->
  th_bc (ck_threads c) = BcIdle -> ka_since v c since ->
  timed_act c s a = Some (c', o) ->
  th_bc (ck_threads c') = BcIdle /\ ck_bc c' = ck_bc c /\ ck_now c <= ck_now c' /\
  (ka_since v c' (since_after c since s a c') /\
     (th_app (ck_threads c) = AppIdle -> s < ck_app c -> th_app (ck_threads c') = AppIdle /\ ck_app c' = ck_app c) \/
   th_lock (ck_threads c') = None /\ th_ka (ck_threads c') = KaIdle /\ ck_ka c' = s + 250 /\ s <= v + 64 /\
     since_after c since s a c' BcThread = N.max s (ck_bc c) /\
     th_app (ck_threads c') = th_app (ck_threads c) /\ ck_app c' = ck_app c).
Proof.
  intros v [[ts tp tl tq tk tb ta] m u1 u2 u3] since s a c' o [L1 L2 L3 L4] [A3 A4] F H1 H2 E.
  start_wait. unfold ka_since in H2. pieces. cbn [ck_threads th_ka] in H2.
  assert (Fk : s <= since KaThread + 16) by (apply F; cbn; destruct tk; try contradiction; reflexivity).
  clear F. destruct tl as [[| |]|]; try (destruct tk; try contradiction; discriminate L1). clear L4.
  opened E; try contradiction; pieces; (split; [reflexivity|]); (split; [reflexivity|]); (split; [lia|]).
  - left. split; [|tauto]. unfold ka_since. pieces. since_is. apply handled_events in Heqr. split; [exact Heqr|].
    destruct l as [|? [|? [|]]]; cbn [List.length] in *; lia.
  - left. split; [|tauto]. unfold ka_since. pieces. since_is. destruct H2 as [H2 H3]. cbn [List.length] in *. split; [lia|].
    rewrite Nat2N.inj_succ in H3. lia.
  - right. cbn [List.length] in H2. repeat split; try lia; try (since_is; lia).
  - left. split; [unfold ka_since; pieces; destruct tk; try contradiction; since_is; exact H2|]. intros _ X. cbn in E2. lia.
  - left. split; [unfold ka_since; pieces; destruct tk; try contradiction; since_is; exact H2|]. intros _ X. cbn in E2. lia.
Qed.

Lemma wait_free2 : forall b y c since s a c' o, locked (ck_threads c) -> well c -> well c' ->
  (forall w, able_b (ck_threads c) w = true -> s <= since w + 16) ->
  th_bc (ck_threads c) = BcIdle -> ck_bc c = b -> th_lock (ck_threads c) = None ->
  y <= b + 80 -> since BcThread <= y -> th_ka (ck_threads c) = KaIdle -> y + 250 <= ck_ka c ->
  timed_act c s a = Some (c', o) -> waiting b c' (since_after c since s a c').
Proof.
  intros b y [[ts tp tl tq tk tb ta] m u1 u2 u3] since s a c' o [L1 L2 L3 L4] [A1 A2] [A3 A4] F H1 H2 H3 H4 H5 H6 H7 E.
  start_wait. assert (Fb := F BcThread eq_refl). clear F.
  opened E; try lia; try (apply (w_free2 _ _ _ y); pieces; first [reflexivity|assumption|since_is; lia]).
  - apply w_bc; pieces; try reflexivity. since_is. lia.
  - apply (w_app _ _ _ n 0); pieces; try reflexivity; [lia|]. since_is. lia.
Qed.

Lemma wait_app : forall b n k c since s a c' o, locked (ck_threads c) -> well c -> well c' ->
  (forall w, able_b (ck_threads c) w = true -> s <= since w + 16) ->
  th_bc (ck_threads c) = BcIdle -> ck_bc c = b -> th_app (ck_threads c) = AppSends n k ->
  (k <= 40)%nat -> since AppThread <= b + 96 + 116 * N.of_nat k ->
  timed_act c s a = Some (c', o) -> waiting b c' (since_after c since s a c').
Proof.
  intros b n k [[ts tp tl tq tk tb ta] m u1 u2 u3] since s a c' o [L1 L2 L3 L4] [A1 A2] [A3 A4] F H1 H2 H3 H4 H5 E.
  start_wait. assert (Fa := F AppThread eq_refl). clear F.
  cbn [app_has] in L3. destruct tl as [[| |]|]; try discriminate L3.
  opened E; try (apply (w_app _ _ _ n k); pieces; first [reflexivity|assumption|since_is; lia]).
  - injection Heqa as <- <-. apply negotiation_some in Heqo. apply (w_app _ _ _ n (S k)); pieces; try reflexivity; [lia|].
    since_is. rewrite Nat2N.inj_succ. destruct (Nat.ltb k 39); lia.
  - injection Heqa as <- <-. apply negotiation_none in Heqo. assert (k = 40%nat) by lia. subst k. cbn in H5.
    destruct (N.le_gt_cases s b) as [X|X].
    + apply w_free; pieces; try reflexivity. since_is. lia.
    + apply (w_free3 _ _ _ s); pieces; try reflexivity; try lia. since_is. lia.
Qed.

Lemma wait_free3 : forall b z c since s a c' o, locked (ck_threads c) -> well c -> well c' ->
  (forall w, able_b (ck_threads c) w = true -> s <= since w + 16) ->
  th_bc (ck_threads c) = BcIdle -> ck_bc c = b -> th_lock (ck_threads c) = None ->
  b <= z -> z <= ck_now c -> z <= b + 4752 -> since BcThread <= z ->
  th_app (ck_threads c) = AppIdle -> z + 150 <= ck_app c ->
  timed_act c s a = Some (c', o) -> waiting b c' (since_after c since s a c').
Proof.
  intros b z [[ts tp tl tq tk tb ta] m u1 u2 u3] since s a c' o [L1 L2 L3 L4] [A1 A2] [A3 A4] F H1 H2 H3 H4 H5 H6 H7 H8 H9 E.
  start_wait. assert (Fb := F BcThread eq_refl). clear F.
  opened E; try lia; try (apply (w_free3 _ _ _ z); pieces; first [reflexivity|assumption|lia|since_is; lia]).
  - apply (w_ka2 _ _ _ z); pieces; try first [reflexivity|assumption|lia]. unfold ka_since. pieces. since_is. lia.
  - apply w_bc; pieces; try reflexivity. since_is. lia.
Qed.

Lemma wait_free4 : forall b z y c since s a c' o, locked (ck_threads c) -> well c -> well c' ->
  (forall w, able_b (ck_threads c) w = true -> s <= since w + 16) ->
  th_bc (ck_threads c) = BcIdle -> ck_bc c = b -> th_lock (ck_threads c) = None ->
  z <= b + 4752 -> y <= z + 80 -> since BcThread <= y ->
  th_ka (ck_threads c) = KaIdle -> y + 250 <= ck_ka c ->
  th_app (ck_threads c) = AppIdle -> z + 150 <= ck_app c ->
  timed_act c s a = Some (c', o) -> waiting b c' (since_after c since s a c').
Proof.
  intros b z y [[ts tp tl tq tk tb ta] m u1 u2 u3] since s a c' o [L1 L2 L3 L4] [A1 A2] [A3 A4] F H1 H2 H3 H4 H5 H6 H7 H8 H9 H10 E.
  start_wait. assert (Fb := F BcThread eq_refl). clear F.
  opened E; try lia.
  apply w_bc; pieces; try reflexivity. since_is. lia.
Qed.

Lemma wait_bc : forall b c since s a c' o, locked (ck_threads c) -> well c -> well c' ->
  (forall w, able_b (ck_threads c) w = true -> s <= since w + 16) ->
  th_bc (ck_threads c) = BcLocked -> since BcThread <= b + 4848 -> announces a = false ->
  timed_act c s a = Some (c', o) -> waiting b c' (since_after c since s a c').
Proof.
  intros b [[ts tp tl tq tk tb ta] m u1 u2 u3] since s a c' o [L1 L2 L3 L4] [A1 A2] [A3 A4] F H1 H2 H3 E.
  start_wait. cbn [bc_has] in L2. destruct tl as [[| |]|]; try discriminate L2. clear F.
  opened E; try (apply w_bc; pieces; first [reflexivity|assumption|since_is; lia]).
Qed.

Lemma ka_bound : forall v c since s, (forall w, able_b (ck_threads c) w = true -> s <= since w + 16) ->
  ka_since v c since -> s <= v + 64.
Proof.
  intros v c since s F K. unfold ka_since in K. assert (X : s <= since KaThread + 16).
  { apply F. unfold able_b. destruct (th_ka (ck_threads c)); try contradiction; reflexivity. }
  destruct (th_ka (ck_threads c)); try contradiction; lia.
Qed.

Lemma waiting_bound : forall b c since s, (forall w, able_b (ck_threads c) w = true -> s <= since w + 16) ->
  waiting b c since -> s <= b + 4864.
Proof.
  intros b c since s F W.
  assert (Ab : th_bc (ck_threads c) = BcIdle -> th_lock (ck_threads c) = None -> s <= since BcThread + 16).
  { intros X Y. apply F. unfold able_b, free. rewrite X, Y. reflexivity. }
  destruct W as [H1 H2 H3 H4|H1 H2 H3|y H1 H2 H3 H4 H5 H6 H7|n k H1 H2 H3 H4 H5|z H1 H2 H3 H4 H5 H6 H7 H8 H9
    |z H1 H2 H3 H4 H5 H6 H7 H8|z y H1 H2 H3 H4 H5 H6 H7 H8 H9 H10|H1 H2]; try (specialize (Ab H1 H3); lia).
  - assert (X := ka_bound _ _ _ _ F H3). lia.
  - assert (X : s <= since AppThread + 16) by (apply F; unfold able_b; rewrite H3; reflexivity). lia.
  - assert (X := ka_bound _ _ _ _ F H6). lia.
  - assert (X : s <= since BcThread + 16) by (apply F; unfold able_b; rewrite H1; reflexivity). lia.
Qed.

Lemma waiting_step : forall b c since s a c' o, locked (ck_threads c) -> well c -> well c' ->
  (forall w, able_b (ck_threads c) w = true -> s <= since w + 16) -> announces a = false ->
  waiting b c since -> timed_act c s a = Some (c', o) ->
  waiting b c' (since_after c since s a c').
Proof.
  intros b c since s a c' o L A1 A2 F Na W E.
  destruct W as [H1 H2 H3 H4|H1 H2 H3|y H1 H2 H3 H4 H5 H6 H7|n k H1 H2 H3 H4 H5|z H1 H2 H3 H4 H5 H6 H7 H8 H9
    |z H1 H2 H3 H4 H5 H6 H7 H8|z y H1 H2 H3 H4 H5 H6 H7 H8 H9 H10|H1 H2].
  - apply (wait_free b) with (o := o); assumption.
  - destruct (wait_ka (b + 16) c since s a c' o L A2 F H1 H3 E) as (G1 & G2 & _ & [[G3 _]|(G3 & G4 & G5 & G6 & G7 & _)]).
    + apply w_ka; congruence.
    + rewrite H2 in *. destruct (N.le_gt_cases s b) as [X|X].
      * apply w_free; try congruence. lia.
      * apply (w_free2 _ _ _ s); try assumption; lia.
  - apply (wait_free2 b y) with (o := o); assumption.
  - apply (wait_app b n k) with (o := o); assumption.
  - apply (wait_free3 b z) with (o := o); assumption.
  - assert (X := ka_bound _ _ _ _ F H6).
    destruct (wait_ka (z + 16) c since s a c' o L A2 F H1 H6 E) as (G1 & G2 & G & [[G3 G4]|(G3 & G4 & G5 & G6 & G7 & G8 & G9)]).
    + destruct G4 as [G4 G5]; [exact H7|lia|]. apply (w_ka2 _ _ _ z); try congruence; lia.
    + destruct (timed_act_now _ _ _ _ _ E) as [T1 _].
      apply (w_free4 _ _ _ z s); try congruence; try assumption; lia.
  - apply (wait_free4 b z y) with (o := o); assumption.
  - apply (wait_bc b) with (o := o); assumption.
Qed.

(** From one announcement to the next. *)
Inductive calm (s0 : N) (c : clocked) (since : thread -> N) : Prop :=
| calm_sent : th_bc (ck_threads c) = BcSent -> since BcThread <= s0 -> calm s0 c since
| calm_waiting : forall b, b <= s0 + 516 -> waiting b c since -> calm s0 c since.

Lemma calm_bound : forall s0 c since s, (forall w, able_b (ck_threads c) w = true -> s <= since w + 16) ->
  calm s0 c since -> s <= s0 + 5380.
Proof.
  intros s0 c since s F [H1 H2|b H1 H2].
  - assert (X : s <= since BcThread + 16) by (apply F; unfold able_b; rewrite H1; reflexivity). lia.
  - assert (X := waiting_bound _ _ _ _ F H2). lia.
Qed.

Lemma calm_step : forall s0 c since s a c' o, locked (ck_threads c) -> well c -> well c' ->
  (forall w, able_b (ck_threads c) w = true -> s <= since w + 16) -> announces a = false ->
  calm s0 c since -> timed_act c s a = Some (c', o) ->
  calm s0 c' (since_after c since s a c').
Proof.
  intros s0 c since s a c' o L A1 A2 F Na [H1 H2|b H1 H2] E.
  - assert (X : s <= since BcThread + 16) by (apply F; unfold able_b; rewrite H1; reflexivity).
    destruct c as [[ts tp tl tq tk tb ta] m u1 u2 u3]. destruct L as [L1 L2 L3 L4]. destruct A1 as [A1 A1'], A2 as [A2 A2'].
    start_wait. cbn [bc_has] in L2. destruct tl as [[| |]|]; try discriminate L2. clear F.
    opened E; try (apply calm_sent; pieces; first [reflexivity|assumption|since_is; lia]).
    apply (calm_waiting _ _ _ (s + 500)); [lia|]. apply w_free; pieces; try reflexivity. since_is. lia.
  - apply (calm_waiting _ _ _ b H1). exact (waiting_step b c since s a c' o L A1 A2 F Na H2 E).
Qed.

Lemma calm_start : forall c since s ok c' o, timed_act c s (BcSends ok) = Some (c', o) -> well c' ->
  calm s c' (since_after c since s (BcSends ok) c').
Proof.
  intros [[ts tp tl tq tk tb ta] m u1 u2 u3] since s ok c' o E [A1 A2].
  start_wait. opened E. apply calm_sent; pieces; try reflexivity. since_is. lia.
Qed.

Lemma tracked_last : forall d acts s a c since, tracked d (acts ++ [(s, a)]) c since ->
  exists c0 since0 o, tracked d acts c0 since0 /\ timed_act c0 s a = Some (c, o) /\
    (forall w, able_b (ck_threads c0) w = true -> s <= since0 w + d) /\ since = since_after c0 since0 s a c.
Proof.
  intros d acts s a c since H. inversion H as [E|acts1 c0 since0 s1 a1 c' o H1 E1 F E]; subst.
  - destruct acts; discriminate.
  - apply app_inj_tail in E. destruct E as [-> E]. injection E as -> ->. exists c0, since0, o. auto.
Qed.

Lemma calm_along : forall pre s ok mid c since, tracked 16 (pre ++ (s, BcSends ok) :: mid) c since ->
  (forall x, In x mid -> announces (snd x) = false) ->
  (forall m1 m2 c os, mid = m1 ++ m2 -> timed (pre ++ (s, BcSends ok) :: m1) = Some (c, os) -> well c) ->
  calm s c since.
Proof.
  intros pre s ok mid. induction mid as [|[u a] mid IH] using rev_ind; intros c since T Na Hw.
  - destruct (tracked_timed _ _ _ _ T) as [os Ht].
    destruct (tracked_last _ _ _ _ _ _ T) as (c0 & since0 & o & _ & E & _ & ->).
    apply calm_start with (o := o); [exact E|]. apply (Hw [] [] c os eq_refl Ht).
  - destruct (tracked_timed _ _ _ _ T) as [os Ht].
    rewrite app_comm_cons, app_assoc in T.
    destruct (tracked_last _ _ _ _ _ _ T) as (c0 & since0 & o & T0 & E & F & ->).
    destruct (tracked_timed _ _ _ _ T0) as [os0 Ht0].
    refine (calm_step s c0 since0 u a c o _ _ _ F _ _ E).
    + exact (timed_locked _ _ _ Ht0).
    + apply (Hw mid [(u, a)] c0 os0 eq_refl Ht0).
    + apply (Hw (mid ++ [(u, a)]) [] c os); [rewrite app_nil_r; reflexivity|exact Ht].
    + apply (Na (u, a)). apply in_or_app. right. left. reflexivity.
    + apply IH; [exact T0| |].
      * intros x Hx. apply Na, in_or_app. left. exact Hx.
      * intros m1 m2 c1 os1 ->. apply (Hw m1 (m2 ++ [(u, a)])). rewrite app_assoc. reflexivity.
Qed.

Lemma next_by : forall pre s ok mid u a c os,
  timed (pre ++ (s, BcSends ok) :: mid ++ [(u, a)]) = Some (c, os) -> prompt 16 (pre ++ (s, BcSends ok) :: mid ++ [(u, a)]) ->
  (forall x, In x mid -> announces (snd x) = false) ->
  (forall m1 m2 c os, mid = m1 ++ m2 -> timed (pre ++ (s, BcSends ok) :: m1) = Some (c, os) -> in_order c) ->
  u <= s + 5380.
Proof.
  intros pre s ok mid u a c os H P Na Hw.
  destruct (prompt_tracked _ _ _ _ H P) as (since & T & _).
  rewrite app_comm_cons, app_assoc in T.
  destruct (tracked_last _ _ _ _ _ _ T) as (c0 & since0 & o & T0 & _ & F & _).
  exact (calm_bound _ _ _ _ F (calm_along pre s ok mid c0 since0 T0 Na Hw)).
Qed.
