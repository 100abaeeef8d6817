(** Lemmas for C103: how long the keep-alive thread is kept from receiving. *)

From Verif Require Import Base Unicode MPackets MKeepalive MNetwork MServer MThreads MTime SNetwork SServer SThreads STime
  MSocket SSocket LBase LServer LServer2 LThreads LThreads2 LThreads3 LTime LTime2 LTime3 LTime4 LSocket.
From Verif Require LProcess.
From Coq Require Import ZArith Lia Arith.
Open Scope list_scope.
Open Scope N_scope.

(** ** One datagram *)

(** The keep-alive thread acts on a datagram it has, and if no handshake comes
    between will be done with it by [b + 128]. *)
Inductive held (b : N) (c : clocked) (since : thread -> N) : Prop :=
| h_free : forall pk pn ip, th_ka (ck_threads c) = KaWaits pk pn ip -> th_lock (ck_threads c) = None ->
    since KaThread <= b -> held b c since
| h_again : forall pk pn ip z, th_ka (ck_threads c) = KaWaits pk pn ip -> th_lock (ck_threads c) = None ->
    th_bc (ck_threads c) = BcIdle -> z <= b + 48 -> since KaThread <= z -> z + 500 <= ck_bc c -> held b c since
| h_locked : forall pk pn ip, th_ka (ck_threads c) = KaWaits pk pn ip -> th_lock (ck_threads c) = Some BcThread ->
    th_bc (ck_threads c) = BcLocked -> since BcThread <= b + 16 -> held b c since
| h_sent : forall pk pn ip, th_ka (ck_threads c) = KaWaits pk pn ip -> th_lock (ck_threads c) = Some BcThread ->
    th_bc (ck_threads c) = BcSent -> since BcThread <= b + 32 -> held b c since
| h_app : forall pk pn ip n k, th_ka (ck_threads c) = KaWaits pk pn ip -> th_lock (ck_threads c) = Some AppThread ->
    th_app (ck_threads c) = AppSends n k -> (k <= 40)%nat -> since AppThread <= b + 100 + 116 * N.of_nat k -> held b c since
| h_mine : ka_since (b + 64) c since -> held b c since.

(** Inside its turn the keep-alive thread does not sleep, and the pauses of the
    handshake are short. *)
Definition awake2 (c : clocked) : Prop :=
  (th_ka (ck_threads c) <> KaIdle -> ck_ka c <= ck_now c) /\
  (forall n k, th_app (ck_threads c) = AppSends n k -> ck_app c <= ck_now c + 100).

Lemma awake2_step : forall c s a c' o, awake2 c -> timed_act c s a = Some (c', o) -> awake2 c'.
Proof.
  intros [t m u1 u2 u3] s a c' o [A1 A2] E. unfold awake2. clocks.
  timed_cases E; clocks; unfold ka_pause, app_pause; clocks; split; intros; try discriminate; try congruence; try lia;
    try (specialize (A1 ltac:(assumption)); lia);
    try (match goal with X : th_app t = AppSends ?n ?k |- _ => specialize (A2 n k X) end; lia);
    try (match goal with X : AppSends _ _ = AppSends _ _ |- _ => injection X as <- <- end;
         try match goal with |- context [Nat.ltb ?a ?b] => destruct (Nat.ltb a b) end; lia).
Qed.

Lemma timed_awake2 : forall acts c os, timed acts = Some (c, os) -> awake2 c.
Proof.
  induction acts as [|[s a] acts IH] using rev_ind; intros c os H.
  - injection H as <- <-. split; intros; cbn; lia.
  - apply timed_snoc in H. destruct H as (c1 & os1 & o & H & E & ->). exact (awake2_step _ _ _ _ _ (IH _ _ H) E).
Qed.

Lemma held_step : forall b c since s a c' o, locked (ck_threads c) -> awake2 c ->
  (forall w, able_b (ck_threads c) w = true -> s <= since w + 16) -> th_poisoned (ck_threads c') = false ->
  held b c since -> timed_act c s a = Some (c', o) ->
  held b c' (since_after c since s a c') \/
  th_ka (ck_threads c') = KaIdle /\ ck_ka c' <= b + 378 \/
  (exists n k, th_app (ck_threads c) = AppSends n k) /\ th_app (ck_threads c') = AppIdle /\
    exists b', s <= b' <= b + 4756 /\ held b' c' (since_after c since s a c').
Proof.
  intros b [[ts tp tl tq tk tb ta] m u1 u2 u3] since s a c' o [L1 L2 L3 L4] [A1 A2] F Po W E.
  destruct W as [pk pn ip H1 H2 H3|pk pn ip z H1 H2 H3 H4 H5 H6|pk pn ip H1 H2 H3 H4|pk pn ip H1 H2 H3 H4|pk pn ip n k H1 H2 H3 H4 H5|H1];
    start_wait; try specialize (A1 ltac:(discriminate)).
  - assert (Fk := F KaThread eq_refl). clear F.
    opened E; try (left; eapply h_free; pieces; first [reflexivity|since_is; lia]).
    + left. apply h_mine. unfold ka_since. pieces. since_is. lia.
    + left. eapply h_locked; pieces; try reflexivity. since_is. lia.
    + left. eapply h_app; pieces; try reflexivity; [lia|]. since_is. lia.
  - assert (Fk := F KaThread eq_refl). clear F.
    opened E; try lia; try (left; eapply (h_again _ _ _ _ _ _ z); pieces; first [reflexivity|assumption|since_is; lia]).
    + left. apply h_mine. unfold ka_since. pieces. since_is. lia.
    + left. eapply h_app; pieces; try reflexivity; [lia|]. since_is. lia.
  - assert (Fb := F BcThread eq_refl). clear F.
    opened E; try (left; eapply h_locked; pieces; first [reflexivity|since_is; lia]).
    + left. eapply h_sent; pieces; try reflexivity. since_is. lia.
    + left. eapply (h_again _ _ _ _ _ _ s); pieces; try reflexivity; try (since_is; lia); lia.
  - assert (Fb := F BcThread eq_refl). clear F.
    opened E; try (left; eapply h_sent; pieces; first [reflexivity|since_is; lia]).
    left. eapply (h_again _ _ _ _ _ _ s); pieces; try reflexivity; try (since_is; lia); lia.
  - assert (Fa := F AppThread eq_refl). clear F.
    opened E; try (left; eapply h_app; pieces; first [reflexivity|eassumption|since_is; lia]).
    + injection Heqa as <- <-. apply negotiation_some in Heqo. left. eapply h_app; pieces; try reflexivity; [lia|].
      since_is. rewrite Nat2N.inj_succ. destruct (Nat.ltb k 39); lia.
    + injection Heqa as <- <-. apply negotiation_none in Heqo. assert (k = 40%nat) by lia. subst k. cbn in H5.
      right. right. split; [eauto|]. pieces. split; [reflexivity|]. exists s. split; [lia|].
      eapply h_free; pieces; try reflexivity. since_is. lia.
  - unfold ka_since in H1. cbn [ck_threads th_ka] in H1.
    assert (Fk : s <= since KaThread + 16) by (apply F; cbn; destruct tk; try contradiction; reflexivity).
    clear F. destruct tl as [[| |]|]; try (destruct tk; try contradiction; discriminate L1). clear L4.
    opened E; try contradiction.
    + left. apply h_mine. unfold ka_since. pieces. since_is. apply handled_events in Heqr. split; [exact Heqr|].
      destruct l as [|? [|? [|]]]; cbn [List.length] in *; lia.
    + left. apply h_mine. unfold ka_since. pieces. since_is. destruct H1 as [H1 H2]. cbn [List.length] in *. split; [lia|].
      rewrite Nat2N.inj_succ in H2. lia.
    + right. left. pieces. split; [reflexivity|]. unfold ka_pause. pieces. cbn [List.length] in H1. lia.
    + left. apply h_mine. unfold ka_since. pieces. destruct tk; try contradiction; since_is; exact H1.
    + left. apply h_mine. unfold ka_since. pieces. destruct tk; try contradiction; since_is; exact H1.
Qed.

(** What can be said of the time while it does. *)
Lemma held_bound : forall b c since s, (forall w, able_b (ck_threads c) w = true -> s <= since w + 16) ->
  held b c since -> s <= b + 4756.
Proof.
  intros b c since s F W.
  destruct W as [pk pn ip H1 H2 H3|pk pn ip z H1 H2 H3 H4 H5 H6|pk pn ip H1 H2 H3 H4|pk pn ip H1 H2 H3 H4|pk pn ip n k H1 H2 H3 H4 H5|H1].
  - specialize (F KaThread). unfold able_b, free in F. rewrite H1, H2 in F. specialize (F eq_refl). lia.
  - specialize (F KaThread). unfold able_b, free in F. rewrite H1, H2 in F. specialize (F eq_refl). lia.
  - specialize (F BcThread). unfold able_b in F. rewrite H3 in F. specialize (F eq_refl). lia.
  - specialize (F BcThread). unfold able_b in F. rewrite H3 in F. specialize (F eq_refl). lia.
  - specialize (F AppThread). unfold able_b in F. rewrite H3 in F. specialize (F eq_refl). lia.
  - assert (X := ka_bound _ _ _ _ F H1). lia.
Qed.

(** A handshake is the only thing that makes it longer. *)
Lemma held_bound_quiet : forall b c since s, (forall w, able_b (ck_threads c) w = true -> s <= since w + 16) ->
  (forall n k, th_app (ck_threads c) <> AppSends n k) ->
  held b c since -> s <= b + 128.
Proof.
  intros b c since s F Q W.
  destruct W as [pk pn ip H1 H2 H3|pk pn ip z H1 H2 H3 H4 H5 H6|pk pn ip H1 H2 H3 H4|pk pn ip H1 H2 H3 H4|pk pn ip n k H1 H2 H3 H4 H5|H1].
  - specialize (F KaThread). unfold able_b, free in F. rewrite H1, H2 in F. specialize (F eq_refl). lia.
  - specialize (F KaThread). unfold able_b, free in F. rewrite H1, H2 in F. specialize (F eq_refl). lia.
  - specialize (F BcThread). unfold able_b in F. rewrite H3 in F. specialize (F eq_refl). lia.
  - specialize (F BcThread). unfold able_b in F. rewrite H3 in F. specialize (F eq_refl). lia.
  - elim (Q _ _ H3).
  - assert (X := ka_bound _ _ _ _ F H1). lia.
Qed.

(** A datagram is received. *)
Lemma held_start : forall c since s d c' o, locked (ck_threads c) -> awake c -> awake2 c ->
  (forall w, able_b (ck_threads c) w = true -> since w <= N.max (ck_now c) (ck_until c w)) ->
  (forall n k, th_app (ck_threads c) = AppSends n k -> (k <= 40)%nat) ->
  timed_act c s (KaReceives d) = Some (c', o) ->
  (exists h, status_of d h) /\ held s c' (since_after c since s (KaReceives d) c') \/
  th_ka (ck_threads c') = KaIdle /\ ck_ka c' <= s + 250.
Proof.
  intros [[ts tp tl tq tk tb ta] m u1 u2 u3] since s d c' o [L1 L2 L3 L4] [A1 A2] [A3 A4] Be K E.
  apply timed_act_iff in E. destruct E as (E1 & E2 & t & os & E & -> & _).
  cbn [act] in E. unfold ka_receives in E. clocks. cbn [th_ka thread_of ck_until ck_ka ck_now] in *.
  destruct tk; try discriminate E. destruct (ka_receive d) as [pk| |] eqn:R.
  2:{ injection E as <- <-. right. split; [reflexivity|]. unfold pause. cbn [thread_of ck_ka]. unfold ka_pause. cbn [th_ka]. lia. }
  2:{ elim (ka_receive_not_panic d R). }
  destruct (event_status pk) as [[pn ip]|] eqn:Es.
  2:{ injection E as <- <-. right. split; [reflexivity|]. unfold pause. cbn [thread_of ck_ka]. unfold ka_pause. cbn [th_ka]. lia. }
  injection E as <- <-. left. split; [exists (mkHeard ip pn (ka_model pk)); apply status_of_iff; exists pk; auto|]. unfold pause. cbn [thread_of]. cbn [th_lock th_poisoned th_state th_queue] in *.
  destruct tl as [[| |]|].
  - discriminate L1.
  - destruct tb; try discriminate L2.
    + specialize (Be BcThread eq_refl). cbn [ck_until ck_bc ck_now] in Be. specialize (A1 eq_refl).
      eapply h_locked; pieces; try reflexivity. since_is. lia.
    + specialize (Be BcThread eq_refl). cbn [ck_until ck_bc ck_now] in Be. specialize (A1 eq_refl).
      eapply h_sent; pieces; try reflexivity. since_is. lia.
  - destruct ta as [| |n k|]; try discriminate L3.
    specialize (Be AppThread eq_refl). cbn [ck_until ck_app ck_now] in Be. specialize (A4 n k eq_refl).
    eapply h_app; pieces; try reflexivity; [exact (K n k eq_refl)|]. since_is. lia.
  - eapply h_free; pieces; try reflexivity. since_is. lia.
Qed.

(** ** One handshake *)

(** No handshake comes any more. *)
Definition over (c : clocked) : Prop :=
  st_linking (th_state (ck_threads c)) = true /\ links (pend (th_ka (ck_threads c))) = 0%nat /\
  (th_app (ck_threads c) = AppIdle /\ links (th_queue (ck_threads c)) = 0%nat \/ th_app (ck_threads c) = AppGone).

Lemma over_step : forall c s a c' o, over c -> timed_act c s a = Some (c', o) -> over c'.
Proof.
  intros [[ts tp tl tq tk tb ta] m u1 u2 u3] s a c' o (H1 & H2 & H3) E. unfold over in *. pieces.
  clocks. cbn [th_lock th_poisoned th_state th_queue] in *.
  destruct H3 as [[H3 H4]|H3]; subst; opened E; try (split; [more|]; split; [more|]; first [left; split; more|right; more]).
  - status_again. split; [more|]. split; [more|]. left. split; more.
  - queue_again. split; [more|]. split; [more|]. left. split; [more|]. pieces. rewrite links_app, H4. reflexivity.
  - status_again. split; [more|]. split; [more|]. right. more.
  - queue_again. split; [more|]. split; [more|]. right. more.
Qed.

Lemma over_quiet : forall c n k, over c -> th_app (ck_threads c) <> AppSends n k.
Proof. intros c n k (_ & _ & [[-> _]| ->]); discriminate. Qed.

(** When a handshake has ended there is none any more. *)
Lemma handshake_over : forall c since rel asked got s a c' o n k, phase c since rel asked got ->
  locked (ck_threads c) ->
  th_app (ck_threads c) = AppSends n k -> th_app (ck_threads c') = AppIdle -> timed_act c s a = Some (c', o) -> over c'.
Proof.
  intros [[ts tp tl tq tk tb ta] m u1 u2 u3] since rel asked got s a c' o n k Ph [L1 L2 L3 L4] H1 H2 E.
  assert (G : st_linking ts = true /\ links tq = 0%nat /\ links (pend tk) = 0%nat).
  { destruct Ph; cbn [ck_threads th_app th_state th_queue th_ka th_poisoned] in *; try congruence; auto.
    - exfalso. match goal with Y : _ \/ _ \/ _ |- _ => destruct Y as [(X & _)|[(X & _)|(X & _)]]; congruence end.
    - exfalso. match goal with X : late _ _ _ |- _ => destruct X; cbn [ck_threads th_app] in *; congruence end.
    - exfalso. cbn [th_app th_lock] in *. rewrite H1 in L3. cbn in L3. destruct tl as [[| |]|]; try discriminate L3.
      assert (X : tp = false) by (apply L4; discriminate). congruence. }
  destruct G as (G1 & G2 & G3). clocks. cbn [th_lock th_poisoned th_state th_queue] in *. subst ta.
  opened E. unfold over. split; [more|]. split; [more|]. left. split; more.
Qed.

Lemma handshake_short : forall c since rel asked got n k, phase c since rel asked got -> locked (ck_threads c) ->
  th_app (ck_threads c) = AppSends n k -> (k <= 40)%nat.
Proof.
  intros [[ts tp tl tq tk tb ta] m u1 u2 u3] since rel asked got n k Ph [L1 L2 L3 L4] H1.
  destruct Ph; cbn [ck_threads th_app th_state th_queue th_ka th_poisoned th_lock] in *; try congruence.
  - exfalso. match goal with Y : _ \/ _ \/ _ |- _ => destruct Y as [(X & _)|[(X & _)|(X & _)]]; congruence end.
  - exfalso. match goal with X : late _ _ _ |- _ => destruct X; cbn [ck_threads th_app] in *; congruence end.
  - exfalso. rewrite H1 in L3. cbn in L3. destruct tl as [[| |]|]; try discriminate L3.
    assert (X : tp = false) by (apply L4; discriminate). congruence.
Qed.

(** ** All datagrams *)

Lemma work_app : forall cost a b, work cost (a ++ b) = work cost a + work cost b.
Proof. intros cost a b. unfold work. induction a as [|x a IH]; cbn [app fold_right]; [lia|]. rewrite IH. lia. Qed.

Lemma work_split : forall cost t p q l,
  work cost (came_within t (p + q) l) = work cost (came_within t p l) + work cost (came_within (t + p) q l).
Proof.
  intros cost t p q l. induction l as [|a l IH]; [reflexivity|]. unfold came_within in *. cbn [filter].
  destruct (N.leb_spec t (ar_time a)), (N.ltb_spec (ar_time a) (t + (p + q))), (N.ltb_spec (ar_time a) (t + p)),
    (N.leb_spec (t + p) (ar_time a)), (N.ltb_spec (ar_time a) (t + p + q)); cbn [andb work fold_right]; fold (work cost); unfold work in IH; lia.
Qed.

Lemma work_windows : forall cost w p l k t, never_more cost w p l -> work cost (came_within t (p * N.of_nat k) l) <= w * N.of_nat k.
Proof.
  intros cost w p l k. induction k as [|k IH]; intros t H.
  - replace (p * N.of_nat 0) with 0 by lia. replace (came_within t 0 l) with (@nil arrival); [cbn; lia|].
    symmetry. clear H. induction l as [|a l IHl]; [reflexivity|]. unfold came_within in *. cbn [filter].
    destruct (N.leb_spec t (ar_time a)), (N.ltb_spec (ar_time a) (t + 0)); cbn [andb]; try lia; exact IHl.
  - replace (p * N.of_nat (S k)) with (p + p * N.of_nat k) by lia. rewrite work_split.
    specialize (IH (t + p) H). specialize (H t). lia.
Qed.

Lemma work_burst : forall cost w p l j a t, 0 < p -> w <= p -> never_more cost w p l -> spaced 0 (map ar_time l) ->
  nth_error l j = Some a -> (forall b, In b l -> ar_time b <= t) ->
  work cost (skipn j l) <= t - ar_time a + w.
Proof.
  intros cost w p l j a t P L M S J T.
  assert (B := work_windows cost w p l (N.to_nat ((t - ar_time a) / p + 1)) (ar_time a) M). rewrite N2Nat.id in B.
  assert (C : came_within (ar_time a) (p * ((t - ar_time a) / p + 1)) (skipn j l) = skipn j l).
  { apply came_all. intros b Hb. split.
    - apply In_nth_error in Hb. destruct Hb as [i Hi].
      assert (Lj : (j < List.length l)%nat) by (apply nth_error_Some; congruence).
      assert (Hk : nth_error l (j + i) = Some b).
      { rewrite <- (firstn_skipn j l), nth_error_app2; rewrite firstn_length_le; try lia.
        replace (j + i - j)%nat with i by lia. exact Hi. }
      assert (Q := spaced_nth 0 _ j (j + i) (ar_time a) (ar_time b) S ltac:(lia) (map_nth_error ar_time _ _ J) (map_nth_error ar_time _ _ Hk)).
      lia.
    - assert (b_in : In b l) by (rewrite <- (firstn_skipn j l); apply in_or_app; right; exact Hb).
      specialize (T b b_in). assert (D := N.div_mod (t - ar_time a) p ltac:(lia)).
      assert (R := N.mod_lt (t - ar_time a) p ltac:(lia)). lia. }
  rewrite <- (firstn_skipn j l), came_app, C, work_app in B.
  assert (D := div_bound w 1 p (t - ar_time a) P ltac:(lia)). lia.
Qed.

Lemma work_next : forall cost l k a, nth_error l k = Some a -> work cost (firstn (S k) l) = work cost (firstn k l) + cost a.
Proof.
  intros cost l. induction l as [|x l IH]; intros k a K; [destruct k; discriminate|]. destruct k as [|k].
  - cbn in K. injection K as ->. cbn. lia.
  - cbn [nth_error] in K. cbn [firstn work fold_right]. fold (work cost). specialize (IH k a K). unfold work in *. cbn [firstn fold_right] in IH. lia.
Qed.

Lemma work_mono : forall cost l j k, (j <= k)%nat -> work cost (firstn j l) <= work cost (firstn k l).
Proof.
  intros cost l. induction l as [|x l IH]; intros j k L; [rewrite !firstn_nil; lia|]. destruct j as [|j]; [cbn; lia|].
  destruct k as [|k]; [lia|]. specialize (IH j k ltac:(lia)). cbn [firstn work fold_right]. unfold work in IH. lia.
Qed.

Definition due (cost : arrival -> N) (x : N) (l : list arrival) (k : nat) (t : N) : Prop :=
  exists j a, (j <= k)%nat /\ nth_error l j = Some a /\
    t + work cost (firstn j l) <= ar_time a + work cost (firstn k l) + x.

Lemma due_more : forall cost x l m k t, (k <= List.length l)%nat -> due cost x l k t -> due cost x (l ++ m) k t.
Proof.
  intros cost x l m k t K (j & a & J & A & B). exists j, a. split; [exact J|]. split.
  - rewrite nth_error_app1; [exact A|]. apply nth_error_Some. congruence.
  - rewrite !firstn_app. replace (j - List.length l)%nat with 0%nat by lia. replace (k - List.length l)%nat with 0%nat by lia.
    cbn [firstn]. rewrite !app_nil_r. exact B.
Qed.

Lemma due_later : forall cost x y l k t u, due cost x l k t -> u + x <= t + y -> due cost y l k u.
Proof. intros cost x y l k t u (j & a & J & A & B) U. exists j, a. split; [exact J|]. split; [exact A|]. lia. Qed.

Lemma due_next : forall cost x y l k a t u, due cost x l k t -> nth_error l k = Some a -> u + x <= t + cost a + y -> due cost y l (S k) u.
Proof.
  intros cost x y l k a t u (j & b & J & A & B) K U. exists j, b. split; [lia|]. split; [exact A|].
  rewrite (work_next _ _ _ _ K). lia.
Qed.

Lemma due_mono : forall cost x l k m t, due cost x l k t -> (k <= m)%nat -> due cost x l m t.
Proof.
  intros cost x l k m t (j & b & J & A & B) K. exists j, b. split; [lia|]. split; [exact A|].
  assert (W := work_mono cost l k m K). lia.
Qed.

Lemma work_due : forall cost w p x l k a t, 0 < p -> w <= p -> never_more cost w p l -> spaced 0 (map ar_time l) ->
  nth_error l k = Some a -> due cost x l k t -> t + cost a <= ar_time a + w + x.
Proof.
  intros cost w p x l k a r P L M S0 A (j & c & J & C & D).
  assert (Lk : (k < List.length l)%nat) by (apply nth_error_Some; congruence).
  set (q := firstn (S k) l).
  assert (Fk : nth_error q j = Some c).
  { rewrite <- (firstn_skipn (S k) l), nth_error_app1 in C; [exact C|]. rewrite firstn_length_le; lia. }
  assert (Mk : never_more cost w p q).
  { intros t. specialize (M t). rewrite <- (firstn_skipn (S k) l), came_app, work_app in M. fold q in M. lia. }
  assert (Sk : spaced 0 (map ar_time q)).
  { rewrite <- (firstn_skipn (S k) l), map_app in S0. fold q in S0.
    revert S0. generalize (map ar_time q). intros u. induction u as [|y u IH]; intros S0; [exact Logic.I|].
    destruct S0 as [S1 S2]. split; [|exact (IH S2)]. intros z Hz. apply S1, in_or_app. left. exact Hz. }
  assert (Tk : forall b, In b q -> ar_time b <= ar_time a).
  { intros b Hb. apply In_nth_error in Hb. destruct Hb as [i Hi].
    assert (Li : (i < S k)%nat).
    { assert (X := proj1 (nth_error_Some q i)). rewrite Hi in X. specialize (X ltac:(discriminate)).
      unfold q in X. rewrite firstn_length_le in X; lia. }
    assert (Hi' : nth_error l i = Some b).
    { rewrite <- (firstn_skipn (S k) l), nth_error_app1; [exact Hi|]. rewrite firstn_length_le; lia. }
    assert (Q := spaced_nth 0 _ i k _ _ S0 ltac:(lia) (map_nth_error ar_time _ _ Hi') (map_nth_error ar_time _ _ A)). lia. }
  assert (Bu := work_burst cost w p q j c (ar_time a) P L Mk Sk Fk Tk).
  assert (Q : work cost q = work cost (firstn j l) + work cost (skipn j q)).
  { rewrite <- (firstn_skipn j q) at 1. rewrite work_app. unfold q at 1. rewrite firstn_firstn. replace (Nat.min j (S k)) with j by lia. reflexivity. }
  unfold q in Q at 1. rewrite (work_next _ _ _ _ A) in Q. assert (Tc := Tk c (nth_error_In _ _ Fk)). lia.
Qed.

Lemma work_room : forall cost w p x l k t, 0 < p -> w <= p -> never_more cost w p l -> spaced 0 (map ar_time l) ->
  (forall a, In a l -> ar_time a <= t) -> due cost x l k t -> work cost (skipn k l) <= w + x.
Proof.
  intros cost w p x l k t P L M S0 T (j & c & J & C & D).
  assert (Bu := work_burst cost w p l j c t P L M S0 C T).
  assert (Q1 := work_app cost (firstn j l) (skipn j l)). assert (Q2 := work_app cost (firstn k l) (skipn k l)).
  rewrite !firstn_skipn in *. assert (Tc := T c (nth_error_In _ _ C)). lia.
Qed.

Lemma work_least : forall cost m l, (forall a, m <= cost a) -> m * len l <= work cost l.
Proof.
  intros cost m l H. induction l as [|a l IH]; [cbn; lia|]. rewrite len_cons. cbn [work fold_right]. specialize (H a). unfold work in IH. lia.
Qed.

Lemma tracked_unique : forall d acts c since, tracked d acts c since -> forall c' since', tracked d acts c' since' ->
  c = c' /\ since = since'.
Proof.
  intros d acts c since H. induction H as [|acts c since s a c1 o H IH E F]; intros c' since' H'.
  - inversion H' as [X Y Z|acts0 c0 since0 s0 a0 c0' o0 H0 E0 F0 X]; [auto|]. destruct acts0; discriminate.
  - inversion H' as [X|acts0 c0 since0 s0 a0 c0' o0 H0 E0 F0 X]; [destruct acts; discriminate|]. subst.
    apply app_inj_tail in X. destruct X as [-> X]. injection X as -> ->. destruct (IH _ _ H0) as [<- <-].
    rewrite E in E0. injection E0 as <- _. auto.
Qed.

Lemma tracked_last : forall d acts s a c since, tracked d (acts ++ [(s, a)]) c since ->
  exists c0 since0 o, tracked d acts c0 since0 /\ timed_act c0 s a = Some (c, o) /\
    (forall w, able_b (ck_threads c0) w = true -> s <= since0 w + d) /\ since = since_after c0 since0 s a c.
Proof.
  intros d acts s a c since H. inversion H as [X|acts0 c0 since0 s0 a0 c0' o0 H0 E0 F0 X]; [destruct acts; discriminate|].
  subst. apply app_inj_tail in X. destruct X as [-> X]. injection X as -> ->. exists c0, since0, o0. auto.
Qed.

Lemma prompt_next : forall d acts c os since t a, timed acts = Some (c, os) -> tracked d acts c since ->
  prompt d (acts ++ [(t, a)]) -> forall w, able_b (ck_threads c) w = true -> t <= since w + d.
Proof.
  intros d acts c os since t a H T P w A.
  destruct (prompt_tracked d acts c os H (prompt_prefix _ _ _ P)) as (since' & T' & St).
  destruct (tracked_unique _ _ _ _ T _ _ T') as [_ <-]. destruct (St w A) as (pre & mid & c0 & os0 & -> & Hp & Hm & Hn & ->).
  apply (P pre mid t a [] w) with (os := os0); [rewrite <- app_assoc; reflexivity|exact Hm|exact Hn|exact Hp].
Qed.

Lemma idle_stays : forall c s a c' o, timed_act c s a = Some (c', o) -> (forall d, a <> KaReceives d) -> a <> KaFails ->
  th_ka (ck_threads c) = KaIdle -> th_ka (ck_threads c') = KaIdle /\ ck_ka c' = ck_ka c.
Proof.
  intros [[ts tp tl tq tk tb ta] m u1 u2 u3] s a c' o E N1 N2 H. clocks. subst.
  timed_cases E; clocks; cbn [th_lock th_poisoned th_state th_queue] in *; subst; try discriminate; auto.
  all: try (elim (N1 _ eq_refl)); try (elim (N2 eq_refl)).
Qed.

Lemma unpoisoned : forall c s a c' o, timed_act c s a = Some (c', o) -> th_poisoned (ck_threads c') = false ->
  th_poisoned (ck_threads c) = false.
Proof.
  intros c s a c' o E P. apply timed_act_iff in E. destruct E as (_ & _ & t & os & E & -> & _).
  destruct (th_poisoned (ck_threads c)) eqn:Q; [|reflexivity]. apply (LProcess.poisoned_stays _ _ _ _ E) in Q.
  unfold pause in P. destruct (thread_of a); cbn in P; congruence.
Qed.

Lemma served_prefix : forall room d a b, served room d (a ++ b) -> served room d a.
Proof.
  intros room d a b H pre t x post s os -> R. apply (H pre t x (post ++ b) s os); [|exact R].
  rewrite <- app_assoc. reflexivity.
Qed.

Definition place (cost : arrival -> N) (sofar : N) (l : list arrival) (s : socketed) (since : thread -> N) : Prop :=
  so_received s = [] /\ th_ka (ck_threads (so_clock s)) = KaIdle /\ ck_ka (so_clock s) = 0 \/
  exists k a b, List.length (so_received s) = S k /\ nth_error l k = Some a /\ due cost (16 + sofar) l k b /\
    (th_ka (ck_threads (so_clock s)) = KaIdle /\ ck_ka (so_clock s) + 16 <= b + cost a \/
     394 <= cost a /\ so_now s + sofar <= b + 4884 /\ held b (so_clock s) since).

Definition kept (cost : arrival -> N) (l : list arrival) (s : socketed) (since : thread -> N) : Prop :=
  exists sofar, sofar <= 4756 /\ (sofar = 0 \/ over (so_clock s)) /\
    (forall k r x, nth_error (so_received s) k = Some (r, x) -> due cost (16 + sofar) l k r) /\
    place cost sofar l s since.

Lemma head_due : forall cost l s since t a w sofar, l = map snd (so_received s) ++ so_waiting s ->
  so_waiting s = a :: w -> (forall v, able_b (ck_threads (so_clock s)) v = true -> t <= since v + 16) ->
  (th_ka (ck_threads (so_clock s)) = KaIdle -> t <= N.max (ar_time a) (ck_ka (so_clock s)) + 16) ->
  sofar <= 4756 -> (sofar = 0 \/ over (so_clock s)) -> place cost sofar l s since ->
  due cost (16 + 4756) l (List.length (so_received s)) t /\
  (th_ka (ck_threads (so_clock s)) = KaIdle -> due cost (16 + sofar) l (List.length (so_received s)) t).
Proof.
  intros cost l s since t a w sofar K W F I Sf Ov Pl.
  assert (A : nth_error l (List.length (so_received s)) = Some a).
  { rewrite K, nth_error_app2; rewrite map_length; [|lia]. rewrite Nat.sub_diag, W. reflexivity. }
  assert (OWN : forall x, t <= ar_time a + x -> due cost x l (List.length (so_received s)) t).
  { intros x X. exists (List.length (so_received s)), a. split; [lia|]. split; [exact A|]. lia. }
  assert (IDLE : th_ka (ck_threads (so_clock s)) = KaIdle -> due cost (16 + sofar) l (List.length (so_received s)) t).
  { intros Id. specialize (I Id). destruct Pl as [(R & _ & Zk)|(k & a0 & b & Lk & Ak & D & [[_ Hk]|(_ & _ & Hd)])].
    - apply OWN. rewrite Zk in I. lia.
    - destruct (N.max_spec (ar_time a) (ck_ka (so_clock s))) as [[_ M]|[_ M]]; rewrite M in I.
      + rewrite Lk. apply (due_next _ _ _ _ _ _ _ _ D Ak). lia.
      + apply OWN. lia.
    - exfalso. destruct Hd; try congruence. unfold ka_since in *. rewrite Id in *. contradiction. }
  split; [|exact IDLE].
  destruct Pl as [(R & Id & Zk)|(k & a0 & b & Lk & Ak & D & [[Id Hk]|(Hc & _ & Hd)])].
  - apply (due_later _ _ _ _ _ _ _ (IDLE Id)). lia.
  - apply (due_later _ _ _ _ _ _ _ (IDLE Id)). lia.
  - rewrite Lk. apply (due_next _ _ _ _ _ _ _ _ D Ak).
    destruct Ov as [->|Ov].
    + assert (X := held_bound _ _ _ _ F Hd). lia.
    + assert (X := held_bound_quiet _ _ _ _ F (fun n k => over_quiet _ n k Ov) Hd). lia.
Qed.

Lemma held_now : forall b c since t sofar, (forall w, able_b (ck_threads c) w = true -> t <= since w + 16) ->
  sofar <= 4756 -> sofar = 0 \/ over c -> held b c since -> t + sofar <= b + 4884.
Proof.
  intros b c since t sofar F Sf [->|Ov] Hd.
  - assert (X := held_bound _ _ _ _ F Hd). lia.
  - assert (X := held_bound_quiet _ _ _ _ F (fun n k => over_quiet _ n k Ov) Hd). lia.
Qed.

Lemma never_more_prefix : forall cost w p a b, never_more cost w p (a ++ b) -> never_more cost w p a.
Proof. intros cost w p a b H t. specialize (H t). rewrite came_app, work_app in H. lia. Qed.

Lemma kept_up : forall room cost w p xs s os since, so_run room xs = Some (s, os) -> served room 16 xs ->
  (forall t, ~ In (t, Acts KaFails) xs) -> th_poisoned (ck_threads (so_clock s)) = false ->
  (forall a, 266 <= cost a) -> (forall a h, status_of (ar_data a) h -> 394 <= cost a) ->
  0 < p -> never_more cost w p (arrivals xs) -> w <= p -> w + 4772 < 266 * (N.of_nat room + 1) ->
  tracked 16 (so_acts s) (so_clock s) since ->
  so_lost s = [] /\ (so_waiting s <> [] -> due cost (16 + 4756) (arrivals xs) (List.length (so_received s)) (so_now s)) /\
  kept cost (arrivals xs) s since.
Proof.
  intros room cost w p xs. induction xs as [|[t x] xs IH] using rev_ind; intros s os since H Sv Nf Po C1 C2 P M L R Tr.
  - injection H as <- <-. cbn. split; [reflexivity|]. split; [tauto|]. exists 0. split; [lia|]. split; [auto|]. split.
    + intros k r b K. destruct k; discriminate.
    + left. repeat split.
  - destruct (so_times _ _ _ _ H) as (_ & T & _ & S0).
    apply so_run_snoc in H. destruct H as (s0 & os1 & o & H & E & ->). rewrite arrivals_app in *.
    assert (Ti := so_erasure _ _ _ _ H).
    destruct (Sv xs t x [] s0 os1 eq_refl H) as [Sv1 Sv2].
    specialize (IH s0 os1). assert (Nf' : forall t, ~ In (t, Acts KaFails) xs) by (intros u U; apply (Nf u), in_or_app; left; exact U).
    assert (IHs : forall since0, th_poisoned (ck_threads (so_clock s0)) = false -> tracked 16 (so_acts s0) (so_clock s0) since0 ->
      so_lost s0 = [] /\ (so_waiting s0 <> [] -> due cost (16 + 4756) (arrivals xs) (List.length (so_received s0)) (so_now s0)) /\
      kept cost (arrivals xs) s0 since0).
    { intros since0 Po0 Tr0. exact (IH since0 H (served_prefix _ _ _ _ Sv) Nf' Po0 C1 C2 P (never_more_prefix _ _ _ _ _ M) L R Tr0). }
    clear IH.
    assert (KEPT : so_lost s0 = [] -> arrivals xs = map snd (so_received s0) ++ so_waiting s0).
    { intros Z. destruct (so_kept _ _ _ _ H) as [K _]. rewrite Z in K. apply made_all in K. exact K. }
    assert (LEN : so_lost s0 = [] -> List.length (arrivals xs) = (List.length (so_received s0) + List.length (so_waiting s0))%nat).
    { intros Z. rewrite (KEPT Z), app_length, map_length. reflexivity. }
    assert (HD : forall since0 a v, tracked 16 (so_acts s0) (so_clock s0) since0 -> so_lost s0 = [] -> so_waiting s0 = a :: v ->
      forall sofar, sofar <= 4756 -> (sofar = 0 \/ over (so_clock s0)) -> place cost sofar (arrivals xs) s0 since0 ->
      due cost (16 + 4756) (arrivals xs) (List.length (so_received s0)) t /\
      (th_ka (ck_threads (so_clock s0)) = KaIdle -> due cost (16 + sofar) (arrivals xs) (List.length (so_received s0)) t)).
    { intros since0 a v Tr0 Z W sofar Sf Ov Pl. apply (head_due cost _ _ since0 t a v sofar); try assumption.
      - exact (KEPT Z).
      - exact (prompt_next 16 _ _ _ since0 t KaFails Ti Tr0 (Sv1 KaFails)).
      - exact (Sv2 a v W). }
    apply so_step_cases in E. destruct E as (Nw & Nt & E). rewrite Nt.
    destruct E as [(f & d & -> & _ & Cl & Re & Ac & W)|[(a & -> & W & Re & Q & Ac & E)|(a & -> & Na & W & Re & Q & Ac & E)]].
    + rewrite Cl in *. rewrite Ac in Tr. destruct (IHs since Po Tr) as (Z & Dw & (sofar & Sf & Ov & B & Pl)).
      specialize (KEPT Z). specialize (LEN Z).
      rewrite Re. split; [|split].
      * destruct W as [(_ & _ & ->)|(Ge & _ & _)]; [exact Z|]. exfalso.
        destruct (so_waiting s0) as [|a v] eqn:Wt.
        { assert (room = 0%nat) by (cbn in Ge; lia). subst room. lia. }
        destruct (HD since a v Tr Z eq_refl sofar Sf Ov Pl) as [D _].
        apply (due_more _ _ _ [mkArrival t f d]) in D; [|lia].
        assert (G := work_room cost w p (16 + 4756) _ _ t P L M S0 ltac:(intros b Hb; specialize (T b Hb); lia) D).
        assert (G2 := work_least cost 266 (skipn (List.length (so_received s0)) (arrivals xs ++ [mkArrival t f d])) C1).
        rewrite len_skipn, len_app in G2. change (len [mkArrival t f d]) with 1 in G2. unfold len in G2. rewrite LEN in G2. cbn [arrivals] in G. lia.
      * intros _. destruct (so_waiting s0) as [|a v] eqn:Wt.
        -- rewrite app_nil_r in KEPT.
           exists (List.length (so_received s0)), (mkArrival t f d). split; [lia|]. split; [|cbn [ar_time]; lia].
           rewrite nth_error_app2; rewrite KEPT, map_length; [|lia]. rewrite Nat.sub_diag. reflexivity.
        -- apply due_more; [lia|]. exact (proj1 (HD since a v Tr Z eq_refl sofar Sf Ov Pl)).
      * exists sofar. rewrite Cl, Re. split; [exact Sf|]. split; [exact Ov|]. split.
        -- intros k r b K. apply due_more; [|exact (B k r b K)].
           assert (X : (k < List.length (so_received s0))%nat) by (apply nth_error_Some; congruence). lia.
        -- unfold place in *. rewrite Cl, Re. destruct Pl as [Pl|(k & a & b & Lk & Ak & D & Pl)]; [left; exact Pl|].
           right. exists k, a, b. split; [exact Lk|]. split; [|split; [apply due_more; [lia|exact D]|]].
           { rewrite nth_error_app1; [exact Ak|]. apply nth_error_Some. congruence. }
           destruct Pl as [Pl|(Hc & _ & Hd)]; [left; exact Pl|]. right. split; [exact Hc|]. split; [|exact Hd]. rewrite Nt.
           exact (held_now _ _ _ _ _ (prompt_next 16 _ _ _ since t KaFails Ti Tr (Sv1 KaFails)) Sf Ov Hd).
    + cbn [arrivals] in *. rewrite app_nil_r in *. rewrite Ac in Tr. apply tracked_last in Tr.
      destruct Tr as (c0 & since0 & o' & Tr & E' & F & ->).
      destruct (tracked_timed _ _ _ _ Tr) as [os2 Ti2]. rewrite Ti in Ti2. injection Ti2 as <- _.
      rewrite E in E'. injection E' as <-.
      assert (Po0 := unpoisoned _ _ _ _ _ E Po).
      destruct (IHs since0 Po0 Tr) as (Z & Dw & (sofar & Sf & Ov & B & Pl)).
      assert (Id : th_ka (ck_threads (so_clock s0)) = KaIdle).
      { apply timed_act_iff in E. destruct E as (_ & _ & t1 & o1 & E & _). cbn [act] in E. unfold ka_receives in E.
        destruct (th_ka (ck_threads (so_clock s0))); try discriminate E. reflexivity. }
      destruct (HD since0 a (so_waiting s) Tr Z W sofar Sf Ov Pl) as [D1 D2]. specialize (D2 Id).
      rewrite Q, Re, app_length. cbn [List.length]. split; [exact Z|]. split.
      * intros _. apply (due_mono _ _ _ _ _ _ D1). lia.
      * exists sofar. split; [exact Sf|]. split; [destruct Ov as [Ov|Ov]; [left; exact Ov|right; exact (over_step _ _ _ _ _ Ov E)]|].
        rewrite Re. split.
        -- intros k r b K.
           destruct (Nat.lt_ge_cases k (List.length (so_received s0))) as [Lt|Ge].
           ++ rewrite nth_error_app1 in K by exact Lt. exact (B k r b K).
           ++ rewrite nth_error_app2 in K by exact Ge. destruct (k - List.length (so_received s0))%nat as [|i] eqn:Ei; [|destruct i; discriminate].
              replace k with (List.length (so_received s0)) by lia. cbn in K. injection K as <- <-. exact D2.
        -- unfold place. right. exists (List.length (so_received s0)), a, t. rewrite Re, app_length. cbn [List.length].
           split; [lia|]. split.
           { rewrite (KEPT Z), nth_error_app2; rewrite map_length; [|lia]. rewrite Nat.sub_diag, W. reflexivity. }
           split; [exact D2|].
           assert (Lo := timed_locked _ _ _ Ti). assert (Ph := tracked_phase _ _ _ Tr _ Ti).
           destruct (held_start _ since0 _ _ _ _ Lo (timed_awake _ _ _ Ti) (timed_awake2 _ _ _ Ti) (tracked_below _ _ _ _ Tr)
             (fun n k => handshake_short _ _ _ _ _ n k Ph Lo) E) as [[[h G1] G2]|[G1 G2]].
           ++ right. split; [exact (C2 a h G1)|]. split; [rewrite Nt; lia|exact G2].
           ++ left. split; [exact G1|]. specialize (C1 a). lia.
    + cbn [arrivals] in *. rewrite app_nil_r in *. rewrite Ac in Tr. apply tracked_last in Tr.
      destruct Tr as (c0 & since0 & o' & Tr & E' & F & ->).
      destruct (tracked_timed _ _ _ _ Tr) as [os2 Ti2]. rewrite Ti in Ti2. injection Ti2 as <- _.
      rewrite E in E'. injection E' as <-.
      assert (Po0 := unpoisoned _ _ _ _ _ E Po).
      destruct (IHs since0 Po0 Tr) as (Z & Dw & (sofar & Sf & Ov & B & Pl)).
      assert (Nk : a <> KaFails) by (intros ->; apply (Nf t), in_or_app; right; left; reflexivity).
      rewrite Q, Re, W. split; [exact Z|]. split.
      { intros Wn. destruct (so_waiting s0) as [|b v] eqn:Wt; [contradiction|].
        exact (proj1 (HD since0 b v Tr Z eq_refl sofar Sf Ov Pl)). }
      assert (Ov' : sofar = 0 \/ over (so_clock s)) by (destruct Ov as [Ov|Ov]; [left; exact Ov|right; exact (over_step _ _ _ _ _ Ov E)]).
      destruct Pl as [(R0 & Id & Zk)|(k & a0 & b & Lk & Ak & D & [[Id Hk]|(Hc & _ & Hd)])].
      * destruct (idle_stays _ _ _ _ _ E Na Nk Id) as [G1 G2]. exists sofar. rewrite Re. split; [exact Sf|]. split; [exact Ov'|].
        split; [exact B|]. left. rewrite Re, G1, G2. auto.
      * destruct (idle_stays _ _ _ _ _ E Na Nk Id) as [G1 G2]. exists sofar. rewrite Re. split; [exact Sf|]. split; [exact Ov'|].
        split; [exact B|]. right. exists k, a0, b. rewrite Re, G1, G2. auto 6.
      * assert (Lo := timed_locked _ _ _ Ti).
        destruct (held_step _ _ _ _ _ _ _ Lo (timed_awake2 _ _ _ Ti) F Po Hd E) as [G|[[G1 G2]|((n0 & k0 & G1) & G2 & b' & G3 & G4)]].
        -- exists sofar. rewrite Re. split; [exact Sf|]. split; [exact Ov'|]. split; [exact B|]. right. exists k, a0, b. rewrite Re.
           split; [exact Lk|]. split; [exact Ak|]. split; [exact D|]. right. split; [exact Hc|]. split; [|exact G]. rewrite Nt.
           exact (held_now _ _ _ _ _ F Sf Ov Hd).
        -- exists sofar. rewrite Re. split; [exact Sf|]. split; [exact Ov'|]. split; [exact B|]. right. exists k, a0, b. rewrite Re.
           split; [exact Lk|]. split; [exact Ak|]. split; [exact D|]. left. split; [exact G1|lia].
        -- destruct Ov as [->|Ov]; [|elim (over_quiet _ _ _ Ov G1)].
           exists 4756. rewrite Re. split; [lia|]. split; [right; exact (handshake_over _ _ _ _ _ _ _ _ _ _ _ (tracked_phase _ _ _ Tr _ Ti) Lo G1 G2 E)|].
           split.
           ++ intros i r y K. apply (due_later _ _ _ _ _ _ _ (B i r y K)). lia.
           ++ right. exists k, a0, b'. rewrite Re. split; [exact Lk|]. split; [exact Ak|]. split; [apply (due_later _ _ _ _ _ _ _ D); lia|].
              right. split; [exact Hc|]. split; [rewrite Nt; lia|exact G4].
Qed.

(** ** What has been received is noted *)

Lemma known_more : forall l new x, In x (map pl_address l) -> In x (map pl_address (add_or_update l new)).
Proof.
  induction l as [|p l IH]; intros new x H; [destruct H|]. cbn [add_or_update]. destruct (N.eqb_spec (pl_address p) (pl_address new)) as [E|E].
  - destruct H as [<-|H]; [left; reflexivity|right; exact H].
  - destruct H as [<-|H]; [left; reflexivity|right; exact (IH new x H)].
Qed.

Lemma known_new : forall l new, In (pl_address new) (map pl_address (add_or_update l new)).
Proof.
  induction l as [|p l IH]; intros new; [left; reflexivity|]. cbn [add_or_update]. destruct (N.eqb_spec (pl_address p) (pl_address new)) as [E|E].
  - left. exact E.
  - right. exact (IH new).
Qed.

(** The keep-alive thread is about to note [ip]. *)
Definition notes_next (t : threads) (ip : ipv4) : Prop :=
  exists pk pn, th_ka t = KaWaits pk pn ip \/ th_ka t = KaLocked pk pn ip.

Lemma notes_step : forall c s a c' o ip, timed_act c s a = Some (c', o) -> th_poisoned (ck_threads c') = false ->
  (In ip (map pl_address (st_players (th_state (ck_threads c)))) -> In ip (map pl_address (st_players (th_state (ck_threads c'))))) /\
  (notes_next (ck_threads c) ip -> notes_next (ck_threads c') ip \/ In ip (map pl_address (st_players (th_state (ck_threads c'))))).
Proof.
  intros [[ts tp tl tq tk tb ta] m u1 u2 u3] s a c' o ip E P. unfold notes_next.
  timed_cases E; clocks; cbn [th_lock th_poisoned th_state th_queue] in *; subst; try discriminate P;
    try (split; [auto|]; intros (pk & pn & [X|X]); try discriminate X; left; exists pk, pn; auto; fail).
  - split; [auto|]. intros (pk & pn & [X|X]); try discriminate X. injection X as -> -> ->. left. exists pk, pn. auto.
  - unfold handle_keepalive_status in Heqr. destruct (find_interface _ _) as [x| |]; try discriminate Heqr.
    cbn [rbind] in Heqr. injection Heqr as <- _. cbn [set_players set_address st_players].
    split; [apply known_more|]. intros (pk & pn & [X|X]); try discriminate X. injection X as -> -> ->. right.
    exact (known_new _ (player_new (ka_model pk) pn ip)).
Qed.

Lemma all_noted : forall room xs s os, so_run room xs = Some (s, os) -> th_poisoned (ck_threads (so_clock s)) = false ->
  forall r a h, In (r, a) (so_received s) -> status_of (ar_data a) h ->
  In (h_ip h) (map pl_address (st_players (th_state (ck_threads (so_clock s))))) \/
  (exists pre, so_received s = pre ++ [(r, a)]) /\ notes_next (ck_threads (so_clock s)) (h_ip h).
Proof.
  intros room xs. induction xs as [|[t x] xs IH] using rev_ind; intros s os H Po r a h I St.
  - injection H as <- <-. destruct I.
  - apply so_run_snoc in H. destruct H as (s0 & os1 & o & H & E & ->). specialize (IH s0 os1 H).
    apply so_step_cases in E. destruct E as (_ & _ & [(f & d & -> & _ & Cl & Re & _)|[(b & -> & W & Re & _ & _ & E)|(b & -> & Na & W & Re & _ & _ & E)]]).
    + rewrite Cl, Re in *. exact (IH Po r a h I St).
    + assert (Po0 := unpoisoned _ _ _ _ _ E Po). specialize (IH Po0). rewrite Re in I |- *. apply in_app_or in I. destruct I as [I|[I|[]]].
      * left. destruct (IH r a h I St) as [G|[_ (pk & pn & G)]]; [exact (proj1 (notes_step _ _ _ _ _ (h_ip h) E Po) G)|].
        exfalso. apply timed_act_iff in E. destruct E as (_ & _ & t1 & o1 & E & _). cbn [act] in E. unfold ka_receives in E.
        destruct G as [G|G]; rewrite G in E; discriminate E.
      * injection I as <- <-. right. split; [eauto|]. apply status_of_iff in St. destruct St as (pk & R1 & R2 & _).
        apply timed_act_iff in E. destruct E as (_ & _ & t1 & o1 & E & -> & _). cbn [act] in E. unfold ka_receives in E.
        destruct (th_ka (ck_threads (so_clock s0))); try discriminate E. rewrite R1, R2 in E. injection E as <- _.
        exists pk, (h_number h). left. reflexivity.
    + assert (Po0 := unpoisoned _ _ _ _ _ E Po). specialize (IH Po0). rewrite Re in I |- *.
      destruct (notes_step _ _ _ _ _ (h_ip h) E Po) as [N1 N2].
      destruct (IH r a h I St) as [G|[G1 G2]]; [left; exact (N1 G)|]. destruct (N2 G2) as [G|G]; [right|left]; auto.
Qed.

(** ** A check that can be computed *)

Lemma tracked_prompt_next : forall d acts c since t a, tracked d acts c since ->
  (forall w, able_b (ck_threads c) w = true -> t <= since w + d) -> prompt d (acts ++ [(t, a)]).
Proof.
  intros d acts c since t a H F pre mid u b post w Ea Hm Hn c0 os0 H0.
  destruct post as [|y post] using rev_ind.
  - rewrite app_assoc in Ea. apply app_inj_tail in Ea. destruct Ea as [-> Eb]. injection Eb as <- <-.
    enough (G : forall cc sn, tracked d (pre ++ mid) cc sn -> able_b (ck_threads cc) w = true /\ sn w <= N.max (ck_now c0) (ck_until c0 w)).
    { destruct (G c since H) as [A L]. specialize (F w A). lia. }
    clear H F. induction mid as [|[v x] mid IHm] using rev_ind; intros cc sn T.
    + rewrite app_nil_r in T. destruct (Hm [] [] eq_refl) as (c1 & os1 & T1 & A1). rewrite app_nil_r in T1.
      destruct (tracked_timed _ _ _ _ T) as [os2 T2].
      assert (cc = c0) by congruence. assert (c1 = c0) by congruence. subst cc c1.
      apply able_iff in A1. split; [exact A1|]. exact (tracked_below _ _ _ _ T w A1).
    + destruct (Hm (mid ++ [(v, x)]) []) as (c1 & os1 & T1 & A1); [rewrite app_nil_r; reflexivity|].
      destruct (tracked_timed _ _ _ _ T) as [os2 T2]. assert (c1 = cc) by congruence. subst c1.
      split; [apply able_iff, A1|]. rewrite app_assoc in T. apply tracked_last in T. destruct T as (c2 & since2 & o2 & T3 & E3 & F3 & ->).
      destruct (IHm) with (cc := c2) (sn := since2) as [A2 L2].
      * intros m1 m2 ->. apply (Hm m1 (m2 ++ [(v, x)])). rewrite app_assoc. reflexivity.
      * intros z Hz. apply Hn, in_or_app. left. exact Hz.
      * exact T3.
      * unfold since_after. rewrite A2. cbn [andb].
        assert (D : same_thread w (thread_of x) = false).
        { destruct (same_thread w (thread_of x)) eqn:D; [|reflexivity]. apply same_thread_iff in D.
          exfalso. apply (Hn (v, x)); [apply in_or_app; right; left; reflexivity|]. symmetry. exact D. }
        rewrite D. exact L2.
  - clear IHpost. rewrite app_comm_cons, !app_assoc in Ea. apply app_inj_tail in Ea. destruct Ea as [-> _].
    apply (tracked_prompt _ _ _ _ H pre mid u b post w) with (os := os0); try assumption. rewrite <- app_assoc. reflexivity.
Qed.

Definition since_happening (s : socketed) (since : thread -> N) (t : N) (x : happening) (s' : socketed) : thread -> N :=
  match x with
  | Arrives _ _ => since
  | Receives => match so_waiting s with
      | a :: _ => since_after (so_clock s) since t (KaReceives (ar_data a)) (so_clock s')
      | [] => since end
  | Acts a => since_after (so_clock s) since t a (so_clock s')
  end.

Fixpoint served_b (room : nat) (d : N) (s : socketed) (since : thread -> N) (xs : list (N * happening)) : bool :=
  match xs with
  | [] => true
  | (t, x) :: xs =>
      match so_step room s t x with
      | Some (s', _) =>
          (forallb (fun w => implb (able_b (ck_threads (so_clock s)) w) (t <=? since w + d)) [KaThread; BcThread; AppThread]
           && match so_waiting s, th_ka (ck_threads (so_clock s)) with
              | a :: _, KaIdle => t <=? N.max (ar_time a) (ck_ka (so_clock s)) + d
              | _, _ => true
              end
           && served_b room d s' (since_happening s since t x s') xs)%bool
      | None => false
      end
  end.

Lemma served_b_ok : forall room d xs pre s os since, so_run room pre = Some (s, os) ->
  tracked d (so_acts s) (so_clock s) since -> served room d pre -> served_b room d s since xs = true -> served room d (pre ++ xs).
Proof.
  intros room d. induction xs as [|[t x] xs IH]; intros pre s os since H T S B; [rewrite app_nil_r; exact S|].
  cbn [served_b] in B. destruct (so_step room s t x) as [[s' o]|] eqn:E; [|discriminate].
  apply andb_prop in B. destruct B as [B B3]. apply andb_prop in B. destruct B as [B1 B2].
  assert (F : forall w, able_b (ck_threads (so_clock s)) w = true -> t <= since w + d).
  { intros w A. rewrite forallb_forall in B1.
    assert (X : implb (able_b (ck_threads (so_clock s)) w) (t <=? since w + d) = true) by (apply B1; destruct w; cbn; auto).
    rewrite A in X. apply N.leb_le. exact X. }
  change ((t, x) :: xs) with ([(t, x)] ++ xs). rewrite app_assoc.
  apply (IH (pre ++ [(t, x)]) s' (os ++ o) (since_happening s since t x s')); [| | |exact B3].
  - apply so_run_snoc. exists s, os, o. auto.
  - assert (E' := E). apply so_step_cases in E'. destruct E' as (_ & _ & [(f & dd & -> & _ & Cl & _ & Ac & _)|[(a & -> & W & _ & _ & Ac & Ta)|(a & -> & _ & _ & _ & _ & Ac & Ta)]]);
      rewrite Ac; unfold since_happening.
    + rewrite Cl. exact T.
    + rewrite W. econstructor; [exact T|exact Ta|exact F].
    + econstructor; [exact T|exact Ta|exact F].
  - intros p u y post s1 os1 Eq R. destruct post as [|z post] using rev_ind.
    + apply app_inj_tail in Eq. destruct Eq as [<- Eq]. injection Eq as <- <-. rewrite H in R. injection R as <- <-.
      split; [intros a; exact (tracked_prompt_next _ _ _ _ _ _ T F)|]. intros a w W Id. rewrite W, Id in B2. apply N.leb_le, B2.
    + clear IHpost. rewrite app_comm_cons, app_assoc in Eq. apply app_inj_tail in Eq. destruct Eq as [-> _].
      exact (S p u y post s1 os1 eq_refl R).
Qed.

Lemma served_computed : forall room d xs, served_b room d socketed_start (fun _ => 0) xs = true -> served room d xs.
Proof.
  intros room d xs H. apply (served_b_ok room d xs [] socketed_start [] (fun _ => 0)); try assumption; [reflexivity|constructor|].
  intros pre t x post s os E. destruct pre; discriminate.
Qed.
