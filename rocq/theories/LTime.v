(** The pauses of the threads. *)

From Verif Require Import Base Unicode MPackets MKeepalive MNetwork MServer MThreads MTime SNetwork SServer SThreads STime
  LBase LServer LServer2 LThreads LThreads2 LThreads3.
From Coq Require Import Lia Arith.
Open Scope list_scope.
Open Scope N_scope.

(** ** Single actions *)

Lemma timed_act_iff : forall c s a c' o, timed_act c s a = Some (c', o) <->
  ck_now c <= s /\ ck_until c (thread_of a) <= s /\
  exists t os, act (ck_threads c) a = Some (t, os) /\ c' = pause c s a t /\ o = map (pair s) os.
Proof.
  intros c s a c' o. unfold timed_act. split.
  - destruct (ck_now c <=? s) eqn:E1; [|discriminate].
    destruct (ck_until c (thread_of a) <=? s) eqn:E2; [|discriminate]. cbn [andb].
    apply N.leb_le in E1. apply N.leb_le in E2.
    destruct (act (ck_threads c) a) as [[t os]|]; [|discriminate]. intros H. injection H as <- <-.
    split; [exact E1|]. split; [exact E2|]. exists t, os. auto.
  - intros (E1 & E2 & t & os & E & -> & ->). apply N.leb_le in E1. apply N.leb_le in E2.
    rewrite E1, E2, E. reflexivity.
Qed.

Lemma pause_threads : forall c s a t, ck_threads (pause c s a t) = t.
Proof. intros c s a t. unfold pause. destruct (thread_of a); reflexivity. Qed.

Lemma pause_now : forall c s a t, ck_now (pause c s a t) = s.
Proof. intros c s a t. unfold pause. destruct (thread_of a); reflexivity. Qed.

Lemma timed_from_app : forall a b c c2 os,
  timed_from c (a ++ b) = Some (c2, os) <->
  exists c1 os1 os2, timed_from c a = Some (c1, os1) /\ timed_from c1 b = Some (c2, os2) /\ os = os1 ++ os2.
Proof.
  induction a as [|[s x] a IH]; intros b c c2 os; cbn [app timed_from].
  - split.
    + intros H. exists c, [], os. auto.
    + intros (c1 & os1 & os2 & H & E & ->). injection H as <- <-. exact E.
  - destruct (timed_act c s x) as [[c1 o]|].
    + split.
      * intros H. destruct (timed_from c1 (a ++ b)) as [[c3 os3]|] eqn:E; [|discriminate].
        injection H as <- <-. apply IH in E. destruct E as (c4 & os4 & os5 & E4 & E5 & ->).
        rewrite E4. exists c4, (o ++ os4), os5. rewrite app_assoc. auto.
      * intros (c4 & os4 & os5 & E4 & E5 & ->).
        destruct (timed_from c1 a) as [[c6 os6]|] eqn:E6; [|discriminate]. injection E4 as <- <-.
        rewrite (proj2 (IH b c1 c2 (os6 ++ os5))); [rewrite app_assoc; reflexivity|].
        exists c6, os6, os5. auto.
    + split; [discriminate|]. intros (c4 & os4 & os5 & E4 & _). discriminate.
Qed.

Lemma timed_from_one : forall c s a c' o, timed_from c [(s, a)] = Some (c', o) <-> timed_act c s a = Some (c', o).
Proof.
  intros c s a c' o. cbn [timed_from]. destruct (timed_act c s a) as [[c1 o1]|]; [|tauto].
  rewrite app_nil_r. tauto.
Qed.

Lemma timed_snoc : forall acts s a c' os,
  timed (acts ++ [(s, a)]) = Some (c', os) <->
  exists c os1 o, timed acts = Some (c, os1) /\ timed_act c s a = Some (c', o) /\ os = os1 ++ o.
Proof.
  intros acts s a c' os. unfold timed. rewrite timed_from_app. split.
  - intros (c1 & os1 & os2 & H & E & ->). apply timed_from_one in E. exists c1, os1, os2. auto.
  - intros (c1 & os1 & o & H & E & ->). apply timed_from_one in E. exists c1, os1, o. auto.
Qed.

Lemma timed_app_inv : forall a b c os, timed (a ++ b) = Some (c, os) ->
  exists c1 os1 os2, timed a = Some (c1, os1) /\ timed_from c1 b = Some (c, os2) /\ os = os1 ++ os2.
Proof. intros a b c os H. apply timed_from_app in H. exact H. Qed.

(** A schedule with times is a schedule. *)
Lemma timed_schedule : forall acts c os, timed acts = Some (c, os) ->
  schedule (map snd acts) = Some (ck_threads c, map snd os).
Proof.
  induction acts as [|[s a] acts IH] using rev_ind; intros c os H.
  - injection H as <- <-. reflexivity.
  - apply timed_snoc in H. destruct H as (c1 & os1 & o & H & E & ->).
    apply timed_act_iff in E. destruct E as (_ & _ & t & os2 & E & -> & ->).
    rewrite map_app. cbn [map snd]. apply schedule_snoc. exists (ck_threads c1), (map snd os1), os2.
    split; [exact (IH c1 os1 H)|]. rewrite pause_threads. split; [exact E|].
    rewrite map_app, map_map. cbn [snd]. rewrite map_id. reflexivity.
Qed.

(** And every schedule can be given times. *)
Lemma schedule_timed : forall acts t os, schedule acts = Some (t, os) ->
  exists tacts c tos, timed tacts = Some (c, tos) /\ map snd tacts = acts /\ ck_threads c = t /\ map snd tos = os.
Proof.
  induction acts as [|a acts IH] using rev_ind; intros t os H.
  - injection H as <- <-. exists [], clocked_start, []. auto.
  - apply schedule_snoc in H. destruct H as (t1 & os1 & o & H & E & ->).
    destruct (IH t1 os1 H) as (tacts & c & tos & Ht & Em & Et & Eo).
    set (s := N.max (ck_now c) (ck_until c (thread_of a))).
    exists (tacts ++ [(s, a)]), (pause c s a t), (tos ++ map (pair s) o).
    split; [|split; [rewrite map_app, Em; reflexivity|split; [apply pause_threads|]]].
    + apply timed_snoc. exists c, tos, (map (pair s) o). split; [exact Ht|]. split; [|reflexivity].
      apply timed_act_iff. split; [apply N.le_max_l|]. split; [apply N.le_max_r|].
      exists t, o. rewrite Et. auto.
    + rewrite map_app, map_map, Eo. cbn [snd]. rewrite map_id. reflexivity.
Qed.

(** ** Actions of one kind *)

Lemma apart_nil : forall d, apart d [].
Proof. intros d b s m s' l H. destruct b; discriminate. Qed.

Lemma apart_snoc : forall d l s, apart d l -> (forall x, In x l -> x + d <= s) -> apart d (l ++ [s]).
Proof.
  intros d l s A F b x m y r H.
  destruct r as [|z r] using rev_ind.
  - change (b ++ x :: m ++ [y]) with (b ++ (x :: m) ++ [y]) in H. rewrite app_assoc in H.
    apply app_inj_tail in H. destruct H as [-> <-]. apply F, in_or_app. right. left. reflexivity.
  - clear IHr. apply (A b x m y r).
    assert (E : l ++ [s] = (b ++ x :: m ++ y :: r) ++ [z]).
    { rewrite H, <- app_assoc. cbn [app]. rewrite <- app_assoc. reflexivity. }
    apply app_inj_tail in E. exact (proj1 E).
Qed.

Lemma moments_snoc : forall k l s a, moments k (l ++ [(s, a)]) = moments k l ++ (if k a then [s] else []).
Proof.
  intros k l s a. unfold moments. rewrite filter_app, map_app. cbn [filter snd]. destruct (k a); reflexivity.
Qed.

Lemma apart_moments : forall (k : action -> bool) d (inv : clocked -> N -> Prop),
  (forall c s a c' o x, inv c x -> x <= ck_now c -> timed_act c s a = Some (c', o) -> inv c' x) ->
  (forall c s a c' o, k a = true -> timed_act c s a = Some (c', o) -> inv c' s) ->
  (forall c s a c' o x, inv c x -> k a = true -> timed_act c s a = Some (c', o) -> x + d <= s) ->
  forall acts c os, timed acts = Some (c, os) ->
    apart d (moments k acts) /\ (forall x, In x (moments k acts) -> inv c x /\ x <= ck_now c).
Proof.
  intros k d inv I1 I2 I3. induction acts as [|[s a] acts IH] using rev_ind; intros c os H.
  - split; [apply apart_nil|]. intros x [].
  - apply timed_snoc in H. destruct H as (c1 & os1 & o & H & E & ->).
    destruct (IH c1 os1 H) as [A F]. rewrite moments_snoc.
    assert (En : ck_now c = s /\ ck_now c1 <= s).
    { apply timed_act_iff in E. destruct E as (E1 & _ & t & os2 & _ & -> & _). split; [apply pause_now|exact E1]. }
    destruct En as [En1 En2].
    assert (G : forall x, In x (moments k acts) -> inv c x /\ x <= ck_now c).
    { intros x Hx. destruct (F x Hx) as [Ix Lx]. split; [exact (I1 _ _ _ _ _ _ Ix Lx E)|lia]. }
    destruct (k a) eqn:Ek.
    + split.
      * apply apart_snoc; [exact A|]. intros x Hx. destruct (F x Hx) as [Ix _]. exact (I3 _ _ _ _ _ _ Ix Ek E).
      * intros x Hx. apply in_app_or in Hx. destruct Hx as [Hx|[<-|[]]]; [exact (G x Hx)|].
        split; [exact (I2 _ _ _ _ _ Ek E)|lia].
    + rewrite app_nil_r. split; [exact A|exact G].
Qed.

Ltac timed_cases E :=
  let a := fresh in
  apply timed_act_iff in E;
  let E1 := fresh "E1" in let E2 := fresh "E2" in let Ea := fresh "Ea" in
  destruct E as (E1 & E2 & ? & ? & Ea & -> & ->);
  match type of Ea with act _ ?x = _ => try (is_var x; destruct x) end;
  cbn [act thread_of] in *;
  unfold ka_receives, ka_fails, ka_acquires, ka_looks_up, ka_queues, ka_releases, bc_acquires, bc_sends,
    bc_releases, app_takes, app_acquires, app_sends_next, app_releases in Ea;
  cbn [th_ka th_bc th_app th_lock th_poisoned th_state th_queue] in Ea; act_cases Ea;
  unfold pause; cbn [thread_of].

Lemma receives_apart : forall acts c os, timed acts = Some (c, os) -> apart 250 (moments receives acts).
Proof.
  intros acts c os H.
  refine (proj1 (apart_moments receives 250
    (fun c x => th_ka (ck_threads c) = KaIdle -> x + 250 <= ck_ka c) _ _ _ acts c os H)).
  - intros [t n u1 u2 u3] s a c' o x I L E. cbn [ck_threads ck_ka ck_now] in *.
    timed_cases E; cbn [ck_threads ck_ka ck_now ck_until ka_pause ka_to bc_to app_to queue_to lock_to state_to poison th_ka] in *; try assumption; try (intros X; try discriminate X; unfold ka_pause; rewrite ?X; cbn; lia);
      try (intros X; rewrite X in *; discriminate); try (intros X; apply I; assumption).
  - intros [t n u1 u2 u3] s a c' o K E. destruct a; try discriminate K;
    timed_cases E; cbn [ck_threads ck_ka ck_now ck_until ka_pause ka_to bc_to app_to queue_to lock_to state_to poison th_ka] in *;
      intros X; try discriminate X; unfold ka_pause; rewrite ?X; cbn; lia.
  - intros [t n u1 u2 u3] s a c' o x I K E. cbn [ck_threads ck_ka] in *. destruct a; try discriminate K;
    timed_cases E; cbn [ck_until ck_ka] in *; subst; try (specialize (I eq_refl)); lia.
Qed.

Ltac clocks := cbn [ck_threads ck_ka ck_bc ck_app ck_now ck_until ka_to bc_to app_to queue_to lock_to state_to poison th_ka th_bc th_app] in *.

Definition bc_inv (c : clocked) (x : N) : Prop :=
  match th_bc (ck_threads c) with
  | BcIdle => x + 500 <= ck_bc c
  | BcLocked => x + 500 <= ck_now c
  | _ => True
  end.

Lemma announces_apart : forall acts c os, timed acts = Some (c, os) -> apart 500 (moments announces acts).
Proof.
  intros acts c os H.
  refine (proj1 (apart_moments announces 500 bc_inv _ _ _ acts c os H)); unfold bc_inv.
  - intros [t n u1 u2 u3] s a c' o x I L E. clocks.
    timed_cases E; clocks; unfold bc_pause; clocks;
      repeat match goal with X : th_bc _ = _ |- _ => rewrite X in * end;
      try (destruct (th_bc t); lia); try lia; exact Logic.I.
  - intros [t n u1 u2 u3] s a c' o K E. destruct a; try discriminate K. timed_cases E; clocks; exact Logic.I.
  - intros [t n u1 u2 u3] s a c' o x I K E. clocks. destruct a; try discriminate K.
    timed_cases E; clocks; repeat match goal with X : th_bc _ = _ |- _ => rewrite X in * end; lia.
Qed.

Lemma takes_apart : forall acts c os, timed acts = Some (c, os) -> apart 150 (moments takes acts).
Proof.
  intros acts c os H.
  refine (proj1 (apart_moments takes 150 (fun c x => th_app (ck_threads c) = AppIdle -> x + 150 <= ck_app c) _ _ _ acts c os H)).
  - intros [t n u1 u2 u3] s a c' o x I L E. clocks.
    timed_cases E; clocks; unfold app_pause; clocks; intros X; try discriminate X; rewrite ?X; try (apply I; assumption); try lia.
  - intros [t n u1 u2 u3] s a c' o K E. destruct a; try discriminate K.
    timed_cases E; clocks; intros X; try discriminate X; unfold app_pause; clocks; rewrite ?X; lia.
  - intros [t n u1 u2 u3] s a c' o x I K E. clocks. destruct a; try discriminate K.
    timed_cases E; clocks; match goal with X : th_app _ = AppIdle |- _ => specialize (I X) end; lia.
Qed.

Lemma negotiation_length : forall n, List.length (negotiation n) = 40%nat.
Proof. reflexivity. Qed.

Lemma negotiation_some : forall n k p, nth_error (negotiation n) k = Some p -> (k < 40)%nat.
Proof. intros n k p H. rewrite <- (negotiation_length n). apply nth_error_Some. congruence. Qed.

Lemma negotiation_none : forall n k, nth_error (negotiation n) k = None -> (40 <= k)%nat.
Proof. intros n k H. rewrite <- (negotiation_length n). apply nth_error_None. exact H. Qed.

Definition app_inv (c : clocked) (x : N) : Prop :=
  match th_app (ck_threads c) with
  | AppIdle => x + 200 <= ck_app c
  | AppWaits => x + 200 <= ck_now c
  | AppSends _ k => x + (if Nat.ltb k 40 then 100 else 50) <= ck_app c
  | AppGone => True
  end.

Lemma hands_over_apart : forall acts c os, timed acts = Some (c, os) -> apart 100 (moments hands_over acts).
Proof.
  intros acts c os H.
  refine (proj1 (apart_moments hands_over 100 app_inv _ _ _ acts c os H)); unfold app_inv.
  - intros [t n u1 u2 u3] s a c' o x I L E. clocks.
    timed_cases E; clocks; unfold app_pause; clocks;
      repeat match goal with X : th_app _ = _ |- _ => rewrite X in * end;
      try (exact Logic.I); try lia; try (destruct (th_app t) as [| |? k|]; try (destruct (Nat.ltb k 40)); lia).
    + cbn. lia.
    + apply negotiation_some in Heqo. change (Nat.ltb (S k) 40) with (Nat.ltb k 39). destruct (Nat.ltb k 39); lia.
    + apply negotiation_none in Heqo. apply Nat.ltb_ge in Heqo. rewrite Heqo in I. lia.
  - intros [t n u1 u2 u3] s a c' o K E. destruct a; try discriminate K. timed_cases E; clocks; try (exact Logic.I).
    change (Nat.ltb (S k) 40) with (Nat.ltb k 39). unfold app_pause; clocks. destruct (Nat.ltb k 39); lia.
  - intros [t n u1 u2 u3] s a c' o x I K E. clocks. destruct a; try discriminate K.
    timed_cases E; clocks; repeat match goal with X : th_app _ = _ |- _ => rewrite X in * end;
      apply negotiation_some in Heqo; apply Nat.ltb_lt in Heqo; rewrite Heqo in I; lia.
Qed.

(** ** How many in a given time *)

Fixpoint spaced (d : N) (l : list N) : Prop :=
  match l with
  | [] => True
  | x :: r => (forall y, In y r -> x + d <= y) /\ spaced d r
  end.

Lemma apart_spaced : forall d l, apart d l -> spaced d l.
Proof.
  intros d l. induction l as [|x r IH]; intros A; [exact Logic.I|]. split.
  - intros y Hy. apply in_split in Hy. destruct Hy as (m & q & ->). exact (A [] x m y q eq_refl).
  - apply IH. intros b s m s' q E. apply (A (x :: b) s m s' q). rewrite E. reflexivity.
Qed.

Lemma spaced_filter : forall d f l, spaced d l -> spaced d (filter f l).
Proof.
  intros d f l. induction l as [|x r IH]; intros H; [exact Logic.I|]. destruct H as [H1 H2]. cbn [filter].
  destruct (f x); [|exact (IH H2)]. split; [|exact (IH H2)]. intros y Hy. apply filter_In in Hy. apply H1, Hy.
Qed.

Lemma spaced_last : forall d l x, spaced d (x :: l) -> exists y, In y (x :: l) /\ x + d * len l <= y.
Proof.
  intros d l. unfold len. induction l as [|z l IH]; intros x [H1 H2].
  - exists x. split; [left; reflexivity|]. cbn. lia.
  - destruct (IH z H2) as (y & Hy & Ly). exists y. split; [right; exact Hy|].
    assert (Z := H1 z (or_introl eq_refl)). cbn [List.length]. rewrite Nat2N.inj_succ. lia.
Qed.

Lemma spaced_count : forall d l s t, 0 < d -> spaced d l -> (forall x, In x l -> s <= x <= s + t) ->
  len l <= t / d + 1.
Proof.
  intros d l s t Hd A F. destruct l as [|x l]; [unfold len; cbn [List.length N.of_nat]; apply N.le_0_l|].
  destruct (spaced_last d l x A) as (y & Hy & Ly).
  assert (X := F x (or_introl eq_refl)). assert (Y := F y Hy).
  assert (Z : len l <= t / d) by (apply N.div_le_lower_bound; lia).
  unfold len in *. cbn [List.length]. lia.
Qed.

Definition window (s d : N) (x : N) : bool := ((s <=? x) && (x <=? s + d))%bool.

Lemma window_count : forall k d' acts s d, 0 < d' -> apart d' (moments k acts) ->
  len (filter (window s d) (moments k acts)) <= d / d' + 1.
Proof.
  intros k d' acts s d Hd A. apply (spaced_count d' _ s d Hd); [apply spaced_filter, apart_spaced, A|].
  intros x Hx. apply filter_In in Hx. destruct Hx as [_ W]. unfold window in W.
  apply andb_prop in W. destruct W as [W1 W2]. apply N.leb_le in W1. apply N.leb_le in W2. lia.
Qed.

Lemma sent_is_one : forall n ok p o, send_broadcast_payload n ok p = Ok o -> datagrams [o] = [o].
Proof.
  intros n ok p o H. unfold send_broadcast_payload in H. destruct ok; [|discriminate].
  destruct (ka_encode p); try discriminate H. injection H as <-. reflexivity.
Qed.

Lemma act_datagrams : forall t a t' os, act t a = Some (t', os) ->
  (List.length (datagrams os) <= (if announces a then 1 else 0) + (if hands_over a then 1 else 0))%nat.
Proof.
  intros t a t' os Ea. destruct a; cbn [act announces hands_over] in *;
  unfold ka_receives, ka_fails, ka_acquires, ka_looks_up, ka_queues, ka_releases, bc_acquires, bc_sends,
    bc_releases, app_takes, app_acquires, app_sends_next, app_releases in Ea; act_cases Ea; cbn; try lia;
  match goal with |- context [match ?x with _ => _ end] => destruct x; cbn; lia end.
Qed.

Lemma sent_bound : forall s d acts c os, timed acts = Some (c, os) ->
  (sent_within s d os <= List.length (filter (window s d) (moments announces acts)) +
                         List.length (filter (window s d) (moments hands_over acts)))%nat.
Proof.
  intros s d. induction acts as [|[u a] acts IH] using rev_ind; intros c os H.
  - injection H as <- <-. cbn. lia.
  - apply timed_snoc in H. destruct H as (c1 & os1 & o & H & E & ->). specialize (IH c1 os1 H).
    apply timed_act_iff in E. destruct E as (_ & _ & t & os2 & E & _ & ->). apply act_datagrams in E.
    rewrite !moments_snoc, !filter_app, !app_length.
    unfold sent_within in *. rewrite filter_app, map_app, datagrams_app, app_length.
    assert (F : filter (fun x => ((s <=? fst x) && (fst x <=? s + d))%bool) (map (pair u) os2)
                = if window s d u then map (pair u) os2 else []).
    { clear E. induction os2 as [|y os2 IH2]; cbn [map filter fst]; [destruct (window s d u); reflexivity|].
      rewrite IH2. fold (window s d u). destruct (window s d u); reflexivity. }
    rewrite F. destruct (announces a), (hands_over a); cbn [filter List.length]; destruct (window s d u);
      rewrite ?map_map; cbn [snd map List.length datagrams filter] in *; rewrite ?map_id; lia.
Qed.

Lemma rate : forall s d acts c os, timed acts = Some (c, os) ->
  N.of_nat (sent_within s d os) <= d / 100 + d / 500 + 2.
Proof.
  intros s d acts c os H. assert (B := sent_bound s d acts c os H).
  assert (A1 := window_count announces 500 acts s d ltac:(lia) (announces_apart acts c os H)).
  assert (A2 := window_count hands_over 100 acts s d ltac:(lia) (hands_over_apart acts c os H)).
  unfold len in *. lia.
Qed.

(** ** How long the handshake takes *)

Record under_way (n : network) (s : N) (k : nat) (c : clocked) : Prop := {
  uw_app : th_app (ck_threads c) = AppSends n k;
  uw_lock : th_lock (ck_threads c) = Some AppThread;
  uw_k : (k <= 40)%nat;
  uw_sleep : s + (if Nat.ltb k 40 then 100 * N.of_nat k else 3950) <= ck_app c
}.

Lemma timed_locked : forall acts c os, timed acts = Some (c, os) -> locked (ck_threads c).
Proof. intros acts c os H. exact (schedule_locked _ _ _ (timed_schedule acts c os H)). Qed.

Lemma timed_act_locked : forall c u a c' o, locked (ck_threads c) -> timed_act c u a = Some (c', o) -> locked (ck_threads c').
Proof.
  intros c u a c' o L E. apply timed_act_iff in E. destruct E as (_ & _ & t & os & E & -> & _).
  rewrite pause_threads. exact (locked_step _ _ _ _ L E).
Qed.

Lemma under_way_step : forall n s k c u a c' o, locked (ck_threads c) -> under_way n s k c ->
  timed_act c u a = Some (c', o) -> a <> AppReleases ->
  th_app (ck_threads c') = AppGone \/
  (uses_state a = false /\ under_way n s (k + if hands_over a then 1 else 0) c').
Proof.
  intros n s k [[ts tp tl tq tk tb ta] m u1 u2 u3] u a c' o [L1 L2 L3 L4] [U1 U2 U3 U4] E Na. clocks.
  cbn [th_lock] in *. subst tl ta.
  timed_cases E; clocks; subst; cbn [uses_state hands_over ka_has bc_has th_lock th_queue] in *; try discriminate;
    try (exfalso; apply Na; reflexivity);
    rewrite ?Nat.add_0_r; try (left; reflexivity);
    try (right; split; [reflexivity|constructor; cbn; first [reflexivity|assumption]]).
  right. split; [reflexivity|]. injection Heqa as <- <-.
  match goal with X : nth_error _ _ = Some _ |- _ => apply negotiation_some in X end.
  rewrite Nat.add_1_r. constructor; cbn [ck_threads ck_app th_app th_lock app_to]; try reflexivity; [lia|].
  unfold app_pause. cbn [th_app app_to]. change (Nat.ltb (S k) 40) with (Nat.ltb k 39).
  assert (X : Nat.ltb k 40 = true) by (apply Nat.ltb_lt; lia). rewrite X in U4.
  destruct (Nat.ltb k 39) eqn:Y; [rewrite Nat2N.inj_succ; lia|].
  apply Nat.ltb_ge in Y. assert (k = 39%nat) by lia. subst k. cbn in U4 |- *. lia.
Qed.

Lemma moments_cons : forall k s a l, moments k ((s, a) :: l) = (if k a then [s] else []) ++ moments k l.
Proof. intros k s a l. unfold moments. cbn [filter snd]. destruct (k a); reflexivity. Qed.

Lemma gone_from : forall acts c c' os, timed_from c acts = Some (c', os) ->
  th_app (ck_threads c) = AppGone -> th_app (ck_threads c') = AppGone.
Proof.
  induction acts as [|[s a] acts IH]; intros c c' os H G.
  - injection H as <- <-. exact G.
  - cbn [timed_from] in H. destruct (timed_act c s a) as [[c1 o]|] eqn:E; [|discriminate].
    destruct (timed_from c1 acts) as [[c2 os2]|] eqn:E2; [|discriminate]. injection H as <- _.
    apply (IH c1 c2 os2 E2). apply timed_act_iff in E. destruct E as (_ & _ & t & os3 & E & -> & _).
    rewrite pause_threads. exact (gone_stays _ _ _ _ E G).
Qed.

Lemma under_way_from : forall n s mid k c c' os, locked (ck_threads c) -> under_way n s k c ->
  timed_from c mid = Some (c', os) -> (forall x, In x mid -> snd x <> AppReleases) ->
  th_app (ck_threads c') = AppGone \/
  (moments uses_state mid = [] /\ under_way n s (k + List.length (moments hands_over mid)) c').
Proof.
  intros n s. induction mid as [|[u a] mid IH]; intros k c c' os L U H N1.
  - injection H as <- <-. right. split; [reflexivity|]. cbn. rewrite Nat.add_0_r. exact U.
  - cbn [timed_from] in H. destruct (timed_act c u a) as [[c1 o]|] eqn:E; [|discriminate].
    destruct (timed_from c1 mid) as [[c2 os2]|] eqn:E2; [|discriminate]. injection H as <- _.
    destruct (under_way_step n s k c u a c1 o L U E) as [G|[Us U1]].
    + exact (N1 (u, a) (or_introl eq_refl)).
    + left. exact (gone_from _ _ _ _ E2 G).
    + destruct (IH _ c1 c2 os2 (timed_act_locked _ _ _ _ _ L E) U1 E2) as [G|[Us2 U2]].
      * intros x Hx. apply N1. right. exact Hx.
      * left. exact G.
      * right. rewrite !moments_cons, Us, Us2, app_length. split; [reflexivity|].
        replace (k + (List.length (if hands_over a then [u] else []) + List.length (moments hands_over mid)))%nat
          with (k + (if hands_over a then 1 else 0) + List.length (moments hands_over mid))%nat
          by (destruct (hands_over a); cbn [List.length]; lia).
        exact U2.
Qed.

Lemma handshake_takes : forall pre s mid s' post c os,
  timed (pre ++ (s, AppAcquires) :: mid ++ (s', AppReleases) :: post) = Some (c, os) ->
  (forall x, In x mid -> snd x <> AppReleases) ->
  s + 3950 <= s' /\ List.length (moments hands_over mid) = 40%nat /\ moments uses_state mid = [].
Proof.
  intros pre s mid s' post c os H N1.
  change ((s, AppAcquires) :: mid ++ (s', AppReleases) :: post)
    with ([(s, AppAcquires)] ++ mid ++ [(s', AppReleases)] ++ post) in H.
  apply timed_app_inv in H. destruct H as (c1 & os1 & osr & H1 & H & _).
  apply timed_from_app in H. destruct H as (c2 & os2 & osr2 & H2 & H & _).
  apply timed_from_app in H. destruct H as (c3 & os3 & osr3 & H3 & H & _).
  apply timed_from_app in H. destruct H as (c4 & os4 & osr4 & H4 & _ & _).
  apply timed_from_one in H2. apply timed_from_one in H4.
  assert (L1 := timed_locked _ _ _ H1). assert (L2 := timed_act_locked _ _ _ _ _ L1 H2).
  assert (G4 : th_app (ck_threads c3) <> AppGone).
  { intros G. apply timed_act_iff in H4. destruct H4 as (_ & _ & t & os5 & E & _).
    cbn [act] in E. unfold app_releases in E. rewrite G in E. discriminate. }
  assert (U : exists n, under_way n s 0 c2).
  { assert (G2 : th_app (ck_threads c2) <> AppGone) by (intros G; apply G4; exact (gone_from _ _ _ _ H3 G)).
    destruct c1 as [t m u1 u2 u3]. timed_cases H2; clocks; try (exfalso; apply G2; reflexivity).
    exists n. constructor; cbn; [reflexivity|reflexivity|lia|lia]. }
  destruct U as [n U]. destruct (under_way_from n s mid 0 c2 c3 os3 L2 U H3 N1) as [G|[Us V]]; [contradiction|].
  cbn [Nat.add] in V. destruct V as [V1 V2 V3 V4].
  destruct c3 as [t m u1 u2 u3]. timed_cases H4; clocks.
  injection V1 as <- K0. rewrite K0 in Heqo. apply negotiation_none in Heqo.
  assert (K : List.length (moments hands_over mid) = 40%nat) by lia. rewrite K in V4. cbn in V4.
  split; [lia|]. split; [exact K|exact Us].
Qed.
