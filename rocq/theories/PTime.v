(** Property theorems C73-C76: the pauses of the threads, and what follows if no
    thread is left waiting. *)

From Verif Require Import Base Unicode MPackets MKeepalive MNetwork MServer MThreads MTime SUdp SNetwork SServer SThreads STime
  LServer LServer2 LThreads LThreads2 LThreads3 LTime LTime2 LTime3 LTime4 LTime5 PServer PThreads.
From Coq Require Import Lia Arith String.
Open Scope list_scope.
Open Scope N_scope.

(** ** C73 *)

(** Datagrams are received at least 250 ms apart, periodic announcements sent at
    least 500 ms apart, events taken at least 150 ms apart, and the datagrams of
    handshakes sent at least 100 ms apart. *)
Theorem C73_pauses : forall acts c os, timed acts = Some (c, os) ->
  apart 250 (moments receives acts) /\ apart 500 (moments announces acts) /\
  apart 150 (moments takes acts) /\ apart 100 (moments hands_over acts).
Proof.
  intros acts c os H. split; [exact (receives_apart _ _ _ H)|]. split; [exact (announces_apart _ _ _ H)|].
  split; [exact (takes_apart _ _ _ H)|exact (hands_over_apart _ _ _ H)].
Qed.
Print Assumptions C73_pauses.

(** So in any [d] ms no more than [d/100 + d/500 + 2] datagrams are sent. *)
Theorem C73_rate : forall acts c os s d, timed acts = Some (c, os) ->
  N.of_nat (sent_within s d os) <= d / 100 + d / 500 + 2.
Proof. intros acts c os s d H. exact (rate s d acts c os H). Qed.
Print Assumptions C73_rate.

(** A handshake that comes to its end takes at least 3.95 s, in which no other
    thread gets at the shared state: no announcement is sent and no status noted. *)
Theorem C73_handshake_takes : forall pre s mid s' post c os,
  timed (pre ++ (s, AppAcquires) :: mid ++ (s', AppReleases) :: post) = Some (c, os) ->
  (forall x, In x mid -> snd x <> AppReleases) ->
  s + 3950 <= s' /\ List.length (moments hands_over mid) = 40%nat /\ moments uses_state mid = [].
Proof. exact handshake_takes. Qed.
Print Assumptions C73_handshake_takes.

(** The pauses exclude none of the schedules of C68-C70. *)
Theorem C73_all_schedules : forall acts t os, schedule acts = Some (t, os) <->
  exists tacts c tos, timed tacts = Some (c, tos) /\ map snd tacts = acts /\ ck_threads c = t /\ map snd tos = os.
Proof.
  intros acts t os. split; [apply schedule_timed|].
  intros (tacts & c & tos & H & <- & <- & <-). exact (timed_schedule _ _ _ H).
Qed.
Print Assumptions C73_all_schedules.

(** And nothing else delays a thread: the possible times are exactly those in
    order that leave each thread its rests, from the very start. *)
Theorem C73_possible_times : forall acts,
  (exists c os, timed acts = Some (c, os)) <->
  (exists t os, schedule (map snd acts) = Some (t, os)) /\ apart 0 (map fst acts) /\ rested acts.
Proof. exact possible_times. Qed.
Print Assumptions C73_possible_times.

(** The first status at 10 ms, with every thread going on as soon as it can; a
    second status comes during the handshake. *)
Definition at_ (s : N) (l : list action) : list (N * action) := map (pair s) l.
Definition example_timed : list (N * action) :=
  at_ 0 [BcAcquires; BcReleases]
  ++ at_ 10 [KaReceives (status_datagram "XDJ-700" 3 192 168 10 52); KaAcquires; KaLooksUp one_iface; KaQueues;
             AppTakes; KaQueues; KaReleases]
  ++ at_ 160 [AppTakes; AppAcquires; AppSendsNext true]
  ++ at_ 260 [KaReceives (status_datagram "CDJ-850" 4 192 168 10 53); AppSendsNext true]
  ++ map (fun k => (100 * N.of_nat k + 60, AppSendsNext true)) (seq 3 38)
  ++ at_ 4110 [AppReleases; KaAcquires; KaLooksUp one_iface; KaQueues; KaReleases; BcAcquires; BcSends true; BcReleases]
  ++ at_ 4260 [AppTakes] ++ flat_map (fun s => at_ s [BcAcquires; BcSends true; BcReleases]) [4610; 5110].

Lemma example_timed_typed : acts_typed (map snd example_timed).
Proof.
  intros fs H.
  assert (E : forall l, Forall (fun a => match a with KaLooksUp fs => fs = one_iface | _ => True end) l -> In (KaLooksUp fs) l -> fs = one_iface).
  { intros l F I. rewrite Forall_forall in F. exact (F _ I). }
  assert (F : Forall (fun a => match a with KaLooksUp fs => fs = one_iface | _ => True end) (map snd example_timed))
    by (vm_compute; repeat constructor).
  rewrite (E _ F H). apply one_iface_typed.
Qed.

Example C73_case :
  exists c os, timed example_timed = Some (c, os) /\ List.length (datagrams (map snd os)) = 43%nat /\
    sent_within 160 4000 os = 41%nat /\ List.length (moments receives example_timed) = 2%nat /\
    moments announces example_timed = [4110; 4610; 5110].
Proof. eexists _, _. split; [vm_compute; reflexivity|]. vm_compute. auto. Qed.

(** ** C74 *)

(** If no thread is left waiting for longer than 16 ms, the handshake is asked for
    at most once, and made at most once. *)
Theorem C74_once : forall acts c os, timed acts = Some (c, os) -> prompt 16 acts ->
  (links (posted [map snd os]) <= 1)%nat /\ (links (taken [map snd os]) <= 1)%nat.
Proof.
  intros acts c os H P. destruct (prompt_tracked _ _ _ _ H P) as (since & T & _).
  assert (Ph := tracked_phase _ _ _ T os H).
  assert (Q := schedule_queue _ _ _ (timed_schedule _ _ _ H)).
  assert (A : (asks os <= 1)%nat) by (destruct Ph; lia). unfold asks in A. lia.
Qed.
Print Assumptions C74_once.

(** A millisecond more is too much: then it can be asked for twice. *)
Definition late_timed : list (N * action) :=
  at_ 0 [BcAcquires; BcReleases]
  ++ at_ 300 [KaReceives (status_datagram "XDJ-700" 3 192 168 10 52); KaAcquires; KaLooksUp one_iface; KaQueues;
              KaQueues; KaReleases]
  ++ at_ 317 [AppTakes] ++ at_ 484 [AppTakes] ++ at_ 501 [BcAcquires] ++ at_ 518 [BcSends true] ++ at_ 535 [BcReleases]
  ++ at_ 550 [KaReceives (status_datagram "XDJ-700" 3 192 168 10 52); KaAcquires; KaLooksUp one_iface; KaQueues].

(** With a delay of 17 ms it can be made twice. *)
Theorem C74_bound_is_sharp : exists acts c os, timed acts = Some (c, os) /\ prompt 17 acts /\
  links (posted [map snd os]) = 2%nat.
Proof.
  exists late_timed. eexists _, _. split; [vm_compute; reflexivity|].
  split; [apply prompt_computed; vm_compute; reflexivity|]. vm_compute. reflexivity.
Qed.
Print Assumptions C74_bound_is_sharp.

Example C74_case : exists c os, timed example_timed = Some (c, os) /\ prompt 16 example_timed /\
  links (posted [map snd os]) = 1%nat /\ links (taken [map snd os]) = 1%nat /\
  map pl_number (st_players (th_state (ck_threads c))) = [3; 4].
Proof.
  eexists _, _. split; [vm_compute; reflexivity|].
  split; [apply prompt_computed; vm_compute; reflexivity|]. vm_compute. auto.
Qed.

(** ** C75 *)

(** And the whole handshake has been sent, exactly once, at most 4.786 s after a
    status has been handled, unless the main thread has panicked or a thread has
    panicked with the shared state. *)
Theorem C75_linked_in_time : forall acts c os r, acts_typed (map snd acts) -> timed acts = Some (c, os) -> prompt 16 acts ->
  In (r, KaReleases) acts -> r + 4786 < ck_now c ->
  traffic (datagrams (map snd os)) 1 \/
  th_app (ck_threads c) = AppGone \/ th_poisoned (ck_threads c) = true.
Proof.
  intros acts c os r Ht H P Hr Hn. destruct (prompt_tracked _ _ _ _ H P) as (since & T & _).
  assert (Ph := tracked_phase _ _ _ T os H).
  assert (Sh := schedule_shape _ _ _ Ht (timed_schedule _ _ _ H)).
  assert (In_ : In r (moments releases acts)).
  { unfold moments. apply in_map_iff. exists (r, KaReleases). split; [reflexivity|]. apply filter_In. split; [exact Hr|reflexivity]. }
  unfold gets in Ph. destruct Sh as (whole & h & Tr & Sh).
  destruct Ph as [? ? ? ? ? ? E|? ? ? ? ? E|? ? ? ? E|? ? ? E|r0 ? ? ? ? ? ? ? R|r0 n k A ? ? ? K1 K2 R ? G|A ? ? ? ? G|A|A].
  - rewrite E in In_. destruct In_.
  - rewrite E in In_. destruct In_.
  - rewrite E in In_. destruct In_.
  - rewrite E in In_. destruct In_.
  - specialize (R r In_). lia.
  - specialize (R r In_). rewrite A in Sh. destruct Sh as [-> Lh]. rewrite Lh in G. injection G as ->. left.
    assert (k = 40%nat) by (destruct (Nat.lt_ge_cases k 40) as [X|X]; [specialize (K1 X); lia|lia]). subst k.
    rewrite firstn_all2 by (rewrite handshake_bytes_length; lia). exact (traffic_handshake _ _ n Tr).
  - rewrite A in Sh. destruct Sh as [-> Lh]. rewrite Lh in G. subst h. left. exact Tr.
  - right. left. exact A.
  - right. right. exact A.
Qed.
Print Assumptions C75_linked_in_time.

Example C75_case : exists c os, acts_typed (map snd example_timed) /\ timed example_timed = Some (c, os) /\ prompt 16 example_timed /\
  In (10, KaReleases) example_timed /\ 10 + 4786 < ck_now c /\
  th_app (ck_threads c) <> AppGone /\ th_poisoned (ck_threads c) = false.
Proof.
  eexists _, _. split; [apply example_timed_typed|]. split; [vm_compute; reflexivity|].
  split; [apply prompt_computed; vm_compute; reflexivity|].
  split; [unfold example_timed, at_; cbn [map app In]; tauto|]. vm_compute. repeat split; discriminate.
Qed.

(** ** C76 *)

(** If no thread is left waiting for longer than 16 ms, then after an announcement
    the next one is sent within 5.38 s, handshakes and statuses notwithstanding, as
    long as the program knows its network and no thread has panicked with the
    shared state. *)
Theorem C76_announces_again : forall pre s ok mid s' a post c os,
  let acts := pre ++ (s, BcSends ok) :: mid ++ (s', a) :: post in
  timed acts = Some (c, os) -> prompt 16 acts ->
  (forall m1 m2 c os, mid = m1 ++ m2 -> timed (pre ++ (s, BcSends ok) :: m1) = Some (c, os) -> in_order c) ->
  s + 5380 < s' ->
  exists x, In x mid /\ announces (snd x) = true /\ fst x <= s + 5380.
Proof.
  intros pre s ok mid s' a post c os acts H P Hw Hs. unfold acts in *. clear acts.
  assert (D : (forall x, In x mid -> announces (snd x) = false) \/
    exists m1 x m2, mid = m1 ++ x :: m2 /\ announces (snd x) = true /\ forall y, In y m1 -> announces (snd y) = false).
  { clear. induction mid as [|x mid IH]; [left; intros x []|].
    destruct (announces (snd x)) eqn:X.
    - right. exists [], x, mid. split; [reflexivity|]. split; [exact X|]. intros y [].
    - destruct IH as [IH|(m1 & y & m2 & -> & Y & IH)].
      + left. intros y [<-|I]; [exact X|exact (IH y I)].
      + right. exists (x :: m1), y, m2. split; [reflexivity|]. split; [exact Y|].
        intros z [<-|I]; [exact X|exact (IH z I)]. }
  destruct D as [D|(m1 & [u b] & m2 & -> & Y & D)].
  - exfalso.
    change (mid ++ (s', a) :: post) with (mid ++ [(s', a)] ++ post) in H, P.
    rewrite (app_assoc mid), app_comm_cons, app_assoc in H, P.
    apply prompt_prefix in P. apply timed_app_inv in H. destruct H as (c1 & os1 & _ & H & _).
    assert (X := next_by pre s ok mid s' a c1 os1 H P D Hw). lia.
  - exists (u, b). split; [apply in_or_app; right; left; reflexivity|]. split; [exact Y|]. cbn [fst].
    replace ((m1 ++ (u, b) :: m2) ++ (s', a) :: post) with ((m1 ++ [(u, b)]) ++ m2 ++ (s', a) :: post) in H, P
      by (rewrite <- !app_assoc; reflexivity).
    rewrite app_comm_cons, app_assoc in H, P.
    apply prompt_prefix in P. apply timed_app_inv in H. destruct H as (c1 & os1 & _ & H & _).
    apply (next_by pre s ok m1 u b c1 os1 H P D).
    intros n1 n2 c2 os2 ->. apply (Hw n1 (n2 ++ (u, b) :: m2)). rewrite <- app_assoc. reflexivity.
Qed.
Print Assumptions C76_announces_again.

(** An announcement just before the handshake begins; the next follows its end. *)
Definition waiting_timed : list (N * action) :=
  at_ 0 [KaReceives (status_datagram "XDJ-700" 3 192 168 10 52); KaAcquires; KaLooksUp one_iface; KaQueues; AppTakes;
         KaQueues; KaReleases]
  ++ at_ 10 [BcAcquires; BcSends true; BcReleases]
  ++ at_ 150 [AppTakes; AppAcquires; AppSendsNext true]
  ++ map (fun k => (100 * N.of_nat k + 50, AppSendsNext true)) (seq 2 39)
  ++ at_ 4100 [AppReleases; BcAcquires; BcSends true; BcReleases]
  ++ flat_map (fun s => at_ s [BcAcquires; BcSends true; BcReleases]) [4600; 5100; 5600].

Lemma in_order_along : forall pre mid,
  forallb (fun k => match timed (pre ++ firstn k mid) with
                    | Some (c, _) => match st_address (th_state (ck_threads c)) with
                                     | Some _ => negb (th_poisoned (ck_threads c))
                                     | None => false
                                     end
                    | None => true
                    end) (seq 0 (S (List.length mid))) = true ->
  forall m1 m2 c os, mid = m1 ++ m2 -> timed (pre ++ m1) = Some (c, os) -> in_order c.
Proof.
  intros pre mid H m1 m2 c os E T. rewrite forallb_forall in H.
  specialize (H (List.length m1)). rewrite E, firstn_app, firstn_all, Nat.sub_diag in H. cbn [firstn] in H.
  rewrite app_nil_r, T in H.
  assert (X : In (List.length m1) (seq 0 (S (List.length (m1 ++ m2))))) by (apply in_seq; rewrite app_length; lia).
  specialize (H X). unfold in_order. destruct (st_address _); [|discriminate].
  split; [discriminate|]. destruct (th_poisoned _); [discriminate H|reflexivity].
Qed.

Example C76_case : exists pre s mid s' a post c os,
  let acts := pre ++ (s, BcSends true) :: mid ++ (s', a) :: post in
  timed acts = Some (c, os) /\ prompt 16 acts /\ s + 5380 < s' /\
  (forall m1 m2 c os, mid = m1 ++ m2 -> timed (pre ++ (s, BcSends true) :: m1) = Some (c, os) -> in_order c) /\
  moments announces mid = [4100; 4600; 5100] /\ List.length (moments hands_over mid) = 40%nat.
Proof.
  exists (firstn 8 waiting_timed), 10, (firstn 53 (skipn 9 waiting_timed)), 5600, BcAcquires, (skipn 63 waiting_timed).
  eexists _, _. cbv zeta. split; [vm_compute; reflexivity|].
  split; [apply prompt_computed; vm_compute; reflexivity|]. split; [reflexivity|].
  split; [|vm_compute; auto].
  intros m1 m2 c os E T.
  apply (in_order_along (firstn 9 waiting_timed) (firstn 53 (skipn 9 waiting_timed))) with (m1 := m1) (m2 := m2) (os := os).
  - vm_compute. reflexivity.
  - exact E.
  - rewrite <- T. reflexivity.
Qed.
