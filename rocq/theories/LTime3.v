(** If no thread is left waiting, there is one link request. *)

From Verif Require Import Base Unicode MPackets MKeepalive MNetwork MServer MThreads MTime SNetwork SServer SThreads STime
  LBase LServer LServer2 LThreads LThreads2 LThreads3 LTime LTime2.
From Coq Require Import Lia Arith.
Open Scope list_scope.
Open Scope N_scope.

Definition releases (a : action) : bool := match a with KaReleases => true | _ => false end.

(** ** Facts about single threads *)

(** Inside its turn no thread sleeps, but for the pauses of the handshake. *)
Definition awake (c : clocked) : Prop :=
  (bc_has (th_bc (ck_threads c)) = true -> ck_bc c <= ck_now c) /\
  (th_app (ck_threads c) = AppWaits -> ck_app c <= ck_now c).

Lemma awake_step : forall c s a c' o, awake c -> timed_act c s a = Some (c', o) -> awake c'.
Proof.
  intros [t m u1 u2 u3] s a c' o [A1 A2] E. unfold awake. clocks.
  timed_cases E; clocks; unfold bc_pause, app_pause; clocks; split; intros X; try discriminate X; try lia;
    try (specialize (A1 X); lia); try (specialize (A2 X); lia); try (rewrite X; lia);
    try (match goal with Y : th_bc t = _ |- _ => rewrite Y in X; discriminate X end).
Qed.

Lemma timed_awake : forall acts c os, timed acts = Some (c, os) -> awake c.
Proof.
  induction acts as [|[s a] acts IH] using rev_ind; intros c os H.
  - injection H as <- <-. split; intros _; cbn; lia.
  - apply timed_snoc in H. destruct H as (c1 & os1 & o & H & E & ->). exact (awake_step _ _ _ _ _ (IH _ _ H) E).
Qed.

Lemma first_status : forall ifaces p x ip s s' es,
  handle_keepalive_status ifaces p x ip s = Ok (s', es) -> st_players s = [] -> st_linking s = false ->
  es = [DeviceChange; InitiateLink] /\ st_linking s' = false.
Proof.
  intros ifaces p x ip [lk ds ld ad pl] s' es H P L. cbn [st_players st_linking] in *. subst. unfold handle_keepalive_status in H.
  destruct (find_interface ifaces ip) as [n| |]; try discriminate. cbn in H. injection H as <- <-.
  split; reflexivity.
Qed.

Lemma later_status : forall ifaces p x ip s s' es,
  handle_keepalive_status ifaces p x ip s = Ok (s', es) -> st_linking s = true ->
  links es = 0%nat /\ st_linking s' = true.
Proof.
  intros ifaces p x ip [lk ds ld ad pl] s' es H L. cbn [st_linking] in *. subst. unfold handle_keepalive_status in H.
  destruct (find_interface ifaces ip) as [n| |]; try discriminate. cbn [rbind] in H. injection H as <- <-.
  split; [|reflexivity]. unfold is_linking_possible. cbn [set_players set_address st_players st_linking].
  destruct (_ =? _), (0 <? _); reflexivity.
Qed.

(** ** The phases *)

(** What is still to be done by the main thread, [r] ms after the start having
    been the end of the first status. *)
Inductive late (r : N) (c : clocked) (since : thread -> N) : Prop :=
| late_both : th_app (ck_threads c) = AppIdle -> th_queue (ck_threads c) = [DeviceChange; InitiateLink] ->
    ck_app c = 0 -> since AppThread <= r -> late r c since
| late_link : th_app (ck_threads c) = AppIdle -> th_queue (ck_threads c) = [InitiateLink] ->
    ck_app c <= r + 166 -> since AppThread <= r + 166 -> late r c since
| late_free : th_app (ck_threads c) = AppWaits -> th_queue (ck_threads c) = [] ->
    th_lock (ck_threads c) = None -> since AppThread <= r + 182 -> late r c since
| late_locked : th_app (ck_threads c) = AppWaits -> th_queue (ck_threads c) = [] ->
    th_lock (ck_threads c) = Some BcThread -> th_bc (ck_threads c) = BcLocked -> since BcThread <= r + 198 -> late r c since
| late_sent : th_app (ck_threads c) = AppWaits -> th_queue (ck_threads c) = [] ->
    th_lock (ck_threads c) = Some BcThread -> th_bc (ck_threads c) = BcSent -> since BcThread <= r + 214 -> late r c since
| late_again : th_app (ck_threads c) = AppWaits -> th_queue (ck_threads c) = [] ->
    th_lock (ck_threads c) = None -> r + 500 <= ck_bc c -> since AppThread <= r + 230 -> late r c since.

Inductive phase (c : clocked) (since : thread -> N) (rel : list N) (asked got : nat) : Prop :=
| ph_quiet : st_players (th_state (ck_threads c)) = [] -> st_linking (th_state (ck_threads c)) = false ->
    th_queue (ck_threads c) = [] -> th_app (ck_threads c) = AppIdle -> ck_app c = 0 ->
    (forall es, th_ka (ck_threads c) <> KaPosts es) -> rel = [] -> asked = 0%nat -> got = 0%nat ->
    phase c since rel asked got
| ph_two : th_ka (ck_threads c) = KaPosts [DeviceChange; InitiateLink] -> st_linking (th_state (ck_threads c)) = false ->
    th_queue (ck_threads c) = [] -> th_app (ck_threads c) = AppIdle -> ck_app c = 0 ->
    rel = [] -> asked = 0%nat -> got = 0%nat ->
    phase c since rel asked got
| ph_one : th_ka (ck_threads c) = KaPosts [InitiateLink] -> st_linking (th_state (ck_threads c)) = false ->
    th_app (ck_threads c) = AppIdle ->
    (th_queue (ck_threads c) = [DeviceChange] /\ ck_app c = 0 \/
     th_queue (ck_threads c) = [] /\ ck_app c <= ck_now c + 150) ->
    rel = [] -> asked = 0%nat -> got = 0%nat ->
    phase c since rel asked got
| ph_none : th_ka (ck_threads c) = KaPosts [] -> st_linking (th_state (ck_threads c)) = false ->
    (th_app (ck_threads c) = AppIdle /\ th_queue (ck_threads c) = [DeviceChange; InitiateLink] /\ ck_app c = 0 /\ got = 0%nat \/
     th_app (ck_threads c) = AppIdle /\ th_queue (ck_threads c) = [InitiateLink] /\ ck_app c <= ck_now c + 150 /\ got = 0%nat \/
     th_app (ck_threads c) = AppWaits /\ th_queue (ck_threads c) = [] /\ got = 1%nat) ->
    rel = [] -> asked = 1%nat ->
    phase c since rel asked got
| ph_late : forall r, th_ka (ck_threads c) = KaIdle -> r + 250 <= ck_ka c -> r <= ck_now c ->
    ck_now c <= r + 246 -> th_poisoned (ck_threads c) = false -> st_linking (th_state (ck_threads c)) = false ->
    late r c since -> (forall x, In x rel -> r <= x) -> asked = 1%nat ->
    got = match th_app (ck_threads c) with AppWaits => 1%nat | _ => 0%nat end ->
    phase c since rel asked got
| ph_sends : forall r n k, th_app (ck_threads c) = AppSends n k -> st_linking (th_state (ck_threads c)) = true ->
    links (th_queue (ck_threads c)) = 0%nat -> links (pend (th_ka (ck_threads c))) = 0%nat ->
    ((k < 40)%nat -> since AppThread <= r + 246 + 116 * N.of_nat k /\ ck_now c <= r + 262 + 116 * N.of_nat k) -> (k <= 40)%nat ->
    (forall x, In x rel -> r <= x) -> asked = 1%nat -> got = 1%nat ->
    phase c since rel asked got
| ph_done : th_app (ck_threads c) = AppIdle -> st_linking (th_state (ck_threads c)) = true ->
    links (th_queue (ck_threads c)) = 0%nat -> links (pend (th_ka (ck_threads c))) = 0%nat ->
    asked = 1%nat -> got = 1%nat ->
    phase c since rel asked got
| ph_gone : th_app (ck_threads c) = AppGone -> st_linking (th_state (ck_threads c)) = true ->
    links (pend (th_ka (ck_threads c))) = 0%nat -> (asked <= 1)%nat ->
    phase c since rel asked got
| ph_poisoned : th_poisoned (ck_threads c) = true -> ka_has (th_ka (ck_threads c)) = false -> (asked <= 1)%nat ->
    phase c since rel asked got.

Definition asks (o : list (N * output)) : nat := links (posted [map snd o]).
Definition gets (o : list (N * output)) : nat := links (taken [map snd o]).
Definition freed (s : N) (a : action) : list N := if releases a then [s] else [].

Lemma sent_shape : forall n ok p o, send_broadcast_payload n ok p = Ok o ->
  exists a b d, o = Sent a b 50000 d.
Proof.
  intros n ok p o H. unfold send_broadcast_payload in H. destruct ok; [|discriminate].
  destruct (ka_encode p); try discriminate H. injection H as <-. eauto.
Qed.

Ltac opened E :=
  timed_cases E;
  try match goal with X : send_broadcast_payload _ _ _ = Ok _ |- _ => destruct (sent_shape _ _ _ _ X) as (? & ? & ? & ->) end;
  clocks; cbn [th_lock th_poisoned th_state th_queue] in *; subst;
  cbn [ka_has bc_has app_has] in *; try discriminate; try congruence;
  cbn [freed releases map snd asks gets posted taken links filter is_link flat_map List.concat app List.length] in *;
  rewrite ?Nat.add_0_r, ?app_nil_r in *.

Ltac fields := cbn; first [reflexivity|assumption|discriminate|congruence|lia].

Lemma step_quiet : forall c since rel s a c' o,
  st_players (th_state (ck_threads c)) = [] -> st_linking (th_state (ck_threads c)) = false ->
  th_queue (ck_threads c) = [] -> th_app (ck_threads c) = AppIdle -> ck_app c = 0 ->
  (forall es, th_ka (ck_threads c) <> KaPosts es) -> rel = [] ->
  timed_act c s a = Some (c', o) ->
  phase c' (since_after c since s a c') (rel ++ freed s a) (asks o) (gets o).
Proof.
  intros [[ts tp tl tq tk tb ta] m u1 u2 u3] since rel s a c' o H1 H2 H3 H4 H5 H6 H7 E. clocks.
  cbn [th_lock th_poisoned th_state th_queue] in *. subst. unfold asks, gets, freed.
  opened E;
    try (apply ph_quiet; fields);
    try (exfalso; eapply H6; reflexivity).
  destruct (first_status _ _ _ _ _ _ _ Heqr H1 H2) as [-> L].
  apply ph_two; fields.
Qed.

Lemma step_two : forall c since rel s a c' o, locked (ck_threads c) ->
  th_ka (ck_threads c) = KaPosts [DeviceChange; InitiateLink] -> st_linking (th_state (ck_threads c)) = false ->
  th_queue (ck_threads c) = [] -> th_app (ck_threads c) = AppIdle -> ck_app c = 0 -> rel = [] ->
  timed_act c s a = Some (c', o) ->
  phase c' (since_after c since s a c') (rel ++ freed s a) (asks o) (gets o).
Proof.
  intros [[ts tp tl tq tk tb ta] m u1 u2 u3] since rel s a c' o [L1 L2 L3 L4] H1 H2 H3 H4 H5 H6 E. clocks.
  cbn [th_lock th_poisoned th_state th_queue] in *. subst. unfold asks, gets, freed.
  cbn [ka_has] in L1. destruct tl as [[| |]|]; try discriminate L1.
  opened E. injection Heqk as <- <-.
  apply ph_one; cbn; first [reflexivity|assumption|auto].
Qed.

Lemma step_one : forall c since rel s a c' o, locked (ck_threads c) ->
  th_ka (ck_threads c) = KaPosts [InitiateLink] -> st_linking (th_state (ck_threads c)) = false ->
  th_app (ck_threads c) = AppIdle ->
  (th_queue (ck_threads c) = [DeviceChange] /\ ck_app c = 0 \/
   th_queue (ck_threads c) = [] /\ ck_app c <= ck_now c + 150) -> rel = [] ->
  timed_act c s a = Some (c', o) ->
  phase c' (since_after c since s a c') (rel ++ freed s a) (asks o) (gets o).
Proof.
  intros [[ts tp tl tq tk tb ta] m u1 u2 u3] since rel s a c' o [L1 L2 L3 L4] H1 H2 H3 H4 H5 E. clocks.
  cbn [th_lock th_poisoned th_state th_queue] in *. subst. unfold asks, gets, freed.
  cbn [ka_has] in L1. destruct tl as [[| |]|]; try discriminate L1.
  opened E.
  - injection Heqk as <- <-. apply ph_none; cbn; try first [reflexivity|assumption].
    destruct H4 as [[-> ->]|[-> H4]]; [left|right; left]; repeat split; lia.
  - destruct H4 as [[H4 _]|[H4 _]]; discriminate H4.
  - destruct H4 as [[H4 _]|[H4 _]]; [injection H4 as ->|discriminate H4].
    apply ph_one; cbn; try first [reflexivity|assumption]. right. split; [reflexivity|lia].
Qed.

Lemma step_none : forall c since rel got s a c' o, locked (ck_threads c) -> awake c ->
  (forall w, able_b (ck_threads c) w = true -> since w <= N.max (ck_now c) (ck_until c w)) ->
  th_ka (ck_threads c) = KaPosts [] -> st_linking (th_state (ck_threads c)) = false ->
  (th_app (ck_threads c) = AppIdle /\ th_queue (ck_threads c) = [DeviceChange; InitiateLink] /\ ck_app c = 0 /\ got = 0%nat \/
   th_app (ck_threads c) = AppIdle /\ th_queue (ck_threads c) = [InitiateLink] /\ ck_app c <= ck_now c + 150 /\ got = 0%nat \/
   th_app (ck_threads c) = AppWaits /\ th_queue (ck_threads c) = [] /\ got = 1%nat) ->
  rel = [] ->
  timed_act c s a = Some (c', o) ->
  phase c' (since_after c since s a c') (rel ++ freed s a) (1 + asks o) (got + gets o).
Proof.
  intros [[ts tp tl tq tk tb ta] m u1 u2 u3] since rel got s a c' o [L1 L2 L3 L4] [W1 W2] B H1 H2 H3 H4 E. clocks.
  cbn [th_lock th_poisoned th_state th_queue] in *. subst. unfold asks, gets, freed.
  cbn [ka_has] in L1. destruct tl as [[| |]|]; try discriminate L1.
  assert (Bk := B AppThread). clear B. cbn [able_b th_app th_queue free th_lock ck_until ck_app] in Bk.
  opened E.
  - apply (ph_late _ _ _ _ _ s); cbn; try first [reflexivity|assumption|lia|discriminate].
    + apply L4. discriminate.
    + destruct H3 as [(-> & -> & -> & ->)|[(-> & -> & H3 & ->)|(-> & -> & ->)]].
      * apply late_both; cbn; try reflexivity. specialize (Bk eq_refl). unfold since_after. cbn. lia.
      * apply late_link; cbn; try reflexivity; [lia|]. specialize (Bk eq_refl). unfold since_after. cbn. lia.
      * apply late_free; cbn; try reflexivity. unfold since_after. cbn. specialize (W2 eq_refl). lia.
    + destruct H3 as [(-> & -> & -> & ->)|[(-> & -> & H3 & ->)|(-> & -> & ->)]]; reflexivity.
  - destruct H3 as [(_ & H3 & _)|[(_ & H3 & H3' & ->)|(H3 & _)]]; try discriminate. injection H3 as ->.
    apply ph_none; cbn; try reflexivity; [assumption|]. right. right. auto.
  - destruct H3 as [(_ & H3 & H3' & ->)|[(_ & H3 & _)|(H3 & _)]]; try discriminate. injection H3 as ->.
    apply ph_none; cbn; try reflexivity; [assumption|]. right. left. repeat split; lia.
Qed.

Ltac since_ := unfold since_after; cbn; lia.
Ltac late_goal r :=
  apply (ph_late _ _ _ _ _ r); cbn; try first [reflexivity|assumption|lia|discriminate].

Lemma step_late_idle : forall r q c since rel s a c' o, locked (ck_threads c) -> awake c ->
  (forall w, able_b (ck_threads c) w = true -> since w <= N.max (ck_now c) (ck_until c w)) ->
  (forall w, able_b (ck_threads c) w = true -> s <= since w + 16) ->
  th_ka (ck_threads c) = KaIdle -> r + 250 <= ck_ka c -> r <= ck_now c -> ck_now c <= r + 246 ->
  th_poisoned (ck_threads c) = false -> st_linking (th_state (ck_threads c)) = false ->
  th_app (ck_threads c) = AppIdle -> th_queue (ck_threads c) = q ->
  (q = [DeviceChange; InitiateLink] /\ ck_app c = 0 /\ since AppThread <= r \/
   q = [InitiateLink] /\ ck_app c <= r + 166 /\ since AppThread <= r + 166) ->
  (forall x, In x rel -> r <= x) ->
  timed_act c s a = Some (c', o) ->
  phase c' (since_after c since s a c') (rel ++ freed s a) (1 + asks o) (gets o).
Proof.
  intros r q [[ts tp tl tq tk tb ta] m u1 u2 u3] since rel s a c' o [L1 L2 L3 L4] [W1 W2] B F H1 H2 H3 H4 H5 H6 H7 H8 H9 H10 E.
  clocks. cbn [th_lock th_poisoned th_state th_queue] in *. subst. unfold asks, gets, freed.
  assert (Fa : s <= since AppThread + 16).
  { apply F. destruct H9 as [[-> _]|[-> _]]; reflexivity. }
  assert (La : since AppThread <= r + 166) by (destruct H9 as [(_ & _ & X)|(_ & _ & X)]; lia).
  assert (Bb := B BcThread). clear B F. cbn [able_b th_bc ck_until ck_bc] in Bb.
  assert (K : forall c' since', th_app (ck_threads c') = AppIdle -> th_queue (ck_threads c') = q -> ck_app c' = u3 ->
    since' AppThread = since AppThread -> late r c' since').
  { clear E; clear c'; intros c' since' X1 X2 X3 X4. destruct H9 as [(-> & Y & Z)|(-> & Y & Z)].
    - apply late_both; congruence.
    - apply late_link; congruence. }
  assert (Ks : forall t' cc, same_thread AppThread (thread_of t') = false ->
    since_after {| ck_threads := {| th_state := ts; th_poisoned := false; th_lock := tl; th_queue := q;
      th_ka := KaIdle; th_bc := tb; th_app := AppIdle |}; ck_now := m; ck_ka := u1; ck_bc := u2; ck_app := u3 |} since s t' cc AppThread = since AppThread).
  { intros t' cc X. unfold since_after. rewrite X. destruct H9 as [[-> _]|[-> _]]; reflexivity. }
  opened E; try lia.
  - late_goal r. apply K; try reflexivity. apply Ks. reflexivity.
  - late_goal r. apply K; try reflexivity. apply Ks. reflexivity.
  - apply ph_poisoned; fields.
  - apply ph_poisoned; fields.
  - late_goal r. apply K; try reflexivity. apply Ks. reflexivity.
  - late_goal r. apply K; try reflexivity. apply Ks. reflexivity.
  - destruct H9 as [(H9 & _)|(H9 & Y & Z)]; [discriminate|]. injection H9 as ->.
    late_goal r. destruct tl as [[| |]|]; try discriminate.
    + destruct tb; try discriminate L2.
      * apply late_locked; try reflexivity. unfold since_after. cbn. specialize (Bb eq_refl). specialize (W1 eq_refl). lia.
      * apply late_sent; try reflexivity. unfold since_after. cbn. specialize (Bb eq_refl). specialize (W1 eq_refl). lia.
    + apply late_free; try reflexivity. since_.
  - destruct H9 as [(H9 & Y & Z)|(H9 & _)]; [|discriminate]. injection H9 as ->.
    late_goal r. apply late_link; try reflexivity; [cbn; lia|since_].
Qed.

Lemma step_late_waits : forall r c since rel s a c' o, locked (ck_threads c) -> awake c ->
  (forall w, able_b (ck_threads c) w = true -> s <= since w + 16) ->
  th_ka (ck_threads c) = KaIdle -> r + 250 <= ck_ka c -> r <= ck_now c -> ck_now c <= r + 246 ->
  th_poisoned (ck_threads c) = false -> st_linking (th_state (ck_threads c)) = false ->
  th_app (ck_threads c) = AppWaits -> late r c since ->
  (forall x, In x rel -> r <= x) ->
  timed_act c s a = Some (c', o) ->
  phase c' (since_after c since s a c') (rel ++ freed s a) (1 + asks o) (1 + gets o).
Proof.
  intros r [[ts tp tl tq tk tb ta] m u1 u2 u3] since rel s a c' o [L1 L2 L3 L4] [W1 W2] F H1 H2 H3 H4 H5 H6 H7 H9 H10 E.
  clocks. cbn [th_lock th_poisoned th_state th_queue] in *. subst. unfold asks, gets, freed.
  specialize (W2 eq_refl).
  destruct H9 as [H9 G1 G2 G3|H9 G1 G2 G3|H9 G1 G2 G3|H9 G1 G2 G3 G4|H9 G1 G2 G3 G4|H9 G1 G2 G3 G4]; try discriminate H9;
    clocks; cbn [th_lock th_queue] in *; subst; clear H9.
  - assert (Fa := F AppThread eq_refl). clear F.
    opened E; try lia.
    + late_goal r. apply late_locked; try reflexivity. since_.
    + apply (ph_sends _ _ _ _ _ r n 0); cbn; first [reflexivity|assumption|lia|unfold since_after; cbn; lia].
    + apply ph_gone; fields.
  - assert (Fa := F BcThread eq_refl). clear F.
    opened E; try lia.
    + late_goal r. apply late_sent; try reflexivity. since_.
    + apply ph_poisoned; fields.
    + apply ph_poisoned; fields.
    + late_goal r. apply late_again; try reflexivity; [cbn; lia|since_].
  - assert (Fa := F BcThread eq_refl). clear F.
    opened E; try lia.
    late_goal r. apply late_again; try reflexivity; [cbn; lia|since_].
  - assert (Fa := F AppThread eq_refl). clear F.
    opened E; try lia.
    + apply (ph_sends _ _ _ _ _ r n 0); cbn; first [reflexivity|assumption|lia|unfold since_after; cbn; lia].
    + apply ph_gone; fields.
Qed.

Lemma links_cons : forall e es, links (e :: es) = ((if is_link e then 1 else 0) + links es)%nat.
Proof. intros e es. unfold links. cbn [filter]. destruct (is_link e); reflexivity. Qed.

Lemma posted_is : forall s e, asks (map (pair s) [Posted e]) = links [e].
Proof. reflexivity. Qed.

Ltac more := cbn; first [reflexivity|assumption|discriminate|congruence|lia].

Lemma later_ok : forall ifaces p x ip s s' es,
  handle_keepalive_status ifaces p x ip s = Ok (s', es) -> st_linking s = true ->
  links es = 0%nat /\ st_linking s' = true.
Proof. exact later_status. Qed.

Ltac status_again :=
  match goal with X : handle_keepalive_status _ _ _ _ ?s = Ok (?s', ?es), L : st_linking ?s = true |- _ =>
    destruct (later_status _ _ _ _ _ _ _ X L) as [? ?] end.
Ltac queue_again :=
  match goal with L : links (pend (KaPosts (?e :: ?es))) = 0%nat |- _ =>
    cbn [pend] in L; rewrite links_cons in L; destruct e; [discriminate L|]; cbn [is_link Nat.add] in L end.

Lemma step_sends : forall r n k c since rel s a c' o, locked (ck_threads c) ->
  (forall w, able_b (ck_threads c) w = true -> s <= since w + 16) ->
  th_app (ck_threads c) = AppSends n k -> st_linking (th_state (ck_threads c)) = true ->
  links (th_queue (ck_threads c)) = 0%nat -> links (pend (th_ka (ck_threads c))) = 0%nat ->
  ((k < 40)%nat -> since AppThread <= r + 246 + 116 * N.of_nat k /\ ck_now c <= r + 262 + 116 * N.of_nat k) -> (k <= 40)%nat ->
  (forall x, In x rel -> r <= x) ->
  timed_act c s a = Some (c', o) ->
  phase c' (since_after c since s a c') (rel ++ freed s a) (1 + asks o) (1 + gets o).
Proof.
  intros r n k [[ts tp tl tq tk tb ta] m u1 u2 u3] since rel s a c' o [L1 L2 L3 L4] F H1 H2 H3 H4 H5 H6 H7 E.
  clocks. cbn [th_lock th_poisoned th_state th_queue] in *. subst. unfold asks, gets, freed.
  assert (Fa := F AppThread eq_refl). clear F.
  cbn [app_has] in L3. destruct tl as [[| |]|]; try discriminate L3.
  opened E; try (apply (ph_sends _ _ _ _ _ r n k);
    cbn [ck_threads ck_now ka_to bc_to app_to queue_to lock_to state_to poison th_ka th_app th_queue th_state pend];
    first [reflexivity|assumption|lia|intros X; specialize (H5 X); unfold since_after;
           cbn [ck_threads able_b th_app thread_of same_thread andb negb]; lia]).
  - injection Heqa as <- <-. apply negotiation_some in Heqo. specialize (H5 Heqo).
    apply (ph_sends _ _ _ _ _ r n (S k));
      cbn [ck_threads ck_now ka_to bc_to app_to queue_to lock_to state_to poison th_ka th_app th_queue th_state pend];
      try first [reflexivity|assumption].
    intros X. unfold since_after, app_pause.
    cbn [ck_threads able_b th_app app_to thread_of same_thread andb negb ck_until ck_app].
    assert (Y : Nat.ltb k 39 = true) by (apply Nat.ltb_lt; lia). rewrite Y, Nat2N.inj_succ. lia.
  - apply ph_poisoned; more.
  - apply ph_poisoned; more.
  - apply ph_done; more.
Qed.

Lemma step_done : forall c since rel s a c' o,
  th_app (ck_threads c) = AppIdle -> st_linking (th_state (ck_threads c)) = true ->
  links (th_queue (ck_threads c)) = 0%nat -> links (pend (th_ka (ck_threads c))) = 0%nat ->
  timed_act c s a = Some (c', o) ->
  phase c' (since_after c since s a c') (rel ++ freed s a) (1 + asks o) (1 + gets o).
Proof.
  intros [[ts tp tl tq tk tb ta] m u1 u2 u3] since rel s a c' o H1 H2 H3 H4 E.
  clocks. cbn [th_lock th_poisoned th_state th_queue] in *. subst. unfold asks, gets, freed.
  opened E; try (apply ph_done; more).
  - status_again. apply ph_done; more.
  - queue_again. cbn [Nat.add is_link]. apply ph_done;
    cbn [ck_threads ka_to queue_to th_ka th_app th_queue th_state pend List.length]; try first [reflexivity|assumption]. rewrite links_app, H3. reflexivity.
Qed.

Lemma step_gone : forall c since rel asked got s a c' o,
  th_app (ck_threads c) = AppGone -> st_linking (th_state (ck_threads c)) = true ->
  links (pend (th_ka (ck_threads c))) = 0%nat -> (asked <= 1)%nat ->
  timed_act c s a = Some (c', o) ->
  phase c' (since_after c since s a c') (rel ++ freed s a) (asked + asks o) got.
Proof.
  intros [[ts tp tl tq tk tb ta] m u1 u2 u3] since rel asked got s a c' o H1 H2 H3 H4 E.
  clocks. cbn [th_lock th_poisoned th_state th_queue] in *. subst. unfold asks, gets, freed.
  opened E; try (apply ph_gone; more).
  - status_again. apply ph_gone; more.
  - queue_again. apply ph_gone; cbn; try first [reflexivity|assumption|lia].
Qed.

Lemma step_poisoned : forall c since rel asked got s a c' o, locked (ck_threads c) ->
  th_poisoned (ck_threads c) = true -> ka_has (th_ka (ck_threads c)) = false -> (asked <= 1)%nat ->
  timed_act c s a = Some (c', o) ->
  phase c' (since_after c since s a c') (rel ++ freed s a) (asked + asks o) got.
Proof.
  intros [[ts tp tl tq tk tb ta] m u1 u2 u3] since rel asked got s a c' o [L1 L2 L3 L4] H1 H2 H3 E.
  clocks. cbn [th_lock th_poisoned th_state th_queue] in *. subst. unfold asks, gets, freed.
  opened E; apply ph_poisoned; more.
Qed.

Lemma phase_step : forall c since rel asked got s a c' o, locked (ck_threads c) -> awake c ->
  (forall w, able_b (ck_threads c) w = true -> since w <= N.max (ck_now c) (ck_until c w)) ->
  (forall w, able_b (ck_threads c) w = true -> s <= since w + 16) ->
  phase c since rel asked got -> timed_act c s a = Some (c', o) ->
  phase c' (since_after c since s a c') (rel ++ freed s a) (asked + asks o) (got + gets o).
Proof.
  intros c since rel asked got s a c' o L W B F P E. destruct P.
  - subst asked got. apply step_quiet; assumption.
  - subst asked got. apply step_two; assumption.
  - subst asked got. apply step_one; assumption.
  - subst asked. apply step_none; assumption.
  - subst asked. destruct (th_app (ck_threads c)) eqn:A.
    + subst got. apply (step_late_idle r (th_queue (ck_threads c))); try assumption; [reflexivity|].
      destruct H5; try congruence; [left|right]; auto.
    + subst got. apply (step_late_waits r); assumption.
    + destruct H5; congruence.
    + destruct H5; congruence.
  - subst asked got. apply (step_sends r n k); assumption.
  - subst asked got. apply step_done; assumption.
  - apply step_gone; assumption.
  - apply step_poisoned; assumption.
Qed.

Lemma moments_releases : forall acts s a, moments releases (acts ++ [(s, a)]) = moments releases acts ++ freed s a.
Proof. intros. apply moments_snoc. Qed.

Lemma tracked_phase : forall acts c since, tracked 16 acts c since -> forall os, timed acts = Some (c, os) ->
  phase c since (moments releases acts) (asks os) (gets os).
Proof.
  intros acts c since H. induction H as [|acts c since s a c' o H IH E F]; intros os Ht.
  - injection Ht as <-. apply ph_quiet; cbn; first [reflexivity|discriminate].
  - apply timed_snoc in Ht. destruct Ht as (c1 & os1 & o1 & Ht & E1 & ->).
    destruct (tracked_timed _ _ _ _ H) as [os2 Ht2]. assert (c1 = c) by congruence. subst c1.
    assert (o1 = o) by congruence. subst o1.
    rewrite moments_releases. unfold asks, gets. rewrite map_app, posted_cat, taken_cat, !links_app.
    apply (phase_step c since); try assumption.
    + exact (timed_locked _ _ _ Ht).
    + exact (timed_awake _ _ _ Ht).
    + exact (tracked_below _ _ _ _ H).
    + exact (IH os1 Ht).
Qed.

(** What is taken was asked for. *)
Lemma queue_step : forall t a t' o, act t a = Some (t', o) ->
  (links (taken [o]) + links (th_queue t') = links (th_queue t) + links (posted [o]))%nat.
Proof.
  intros [s p l q k b ap] a t' o H.
  destruct a; cbn [act] in H;
    unfold ka_receives, ka_fails, ka_acquires, ka_looks_up, ka_queues, ka_releases, bc_acquires, bc_sends,
      bc_releases, app_takes, app_acquires, app_sends_next, app_releases in H;
    cbn [th_ka th_bc th_app th_lock th_poisoned th_state th_queue] in H; act_cases H; subst;
    try match goal with X : send_broadcast_payload _ _ _ = Ok _ |- _ => destruct (sent_shape _ _ _ _ X) as (? & ? & ? & ->) end;
    cbn [th_queue ka_to bc_to app_to queue_to lock_to state_to poison]; cbn [posted taken List.concat flat_map app];
    rewrite ?links_app; try (cbn; lia);
    rewrite !links_cons; cbn; lia.
Qed.

Lemma schedule_queue : forall acts t os, schedule acts = Some (t, os) ->
  (links (taken [os]) + links (th_queue t) = links (posted [os]))%nat.
Proof.
  induction acts as [|a acts IH] using rev_ind; intros t os H.
  - injection H as <- <-. reflexivity.
  - apply schedule_snoc in H. destruct H as (t1 & os1 & o & H & E & ->). specialize (IH t1 os1 H).
    apply queue_step in E. rewrite taken_cat, posted_cat, !links_app. lia.
Qed.
