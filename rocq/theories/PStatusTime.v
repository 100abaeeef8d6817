(** Property theorems C83: the pace of the status service. *)

From Verif Require Import Base Unicode MPackets MServer MThreads MTime STime MStatus MStatusTime SUdp SStatusTime
  LBase LTime PUdp.
From Coq Require Import ZArith Lia Arith String.
Open Scope list_scope.
Open Scope N_scope.

(** ** The loop *)

Lemma timed_status_cons : forall c s i ts c' os, status_timed_from c ((s, i) :: ts) = Some (c', os) ->
  exists c1 o1 os', status_timed_turn c s i = Some (c1, o1) /\ status_timed_from c1 ts = Some (c', os') /\ os = o1 ++ os'.
Proof.
  intros c s i ts c' os H. cbn [status_timed_from] in H.
  destruct (status_timed_turn c s i) as [[c1 o1]|]; [|discriminate].
  destruct (status_timed_from c1 ts) as [[c2 os']|] eqn:E; [|discriminate]. injection H as <- <-.
  exists c1, o1, os'. auto.
Qed.

Lemma timed_turn_cases : forall c s i c1 o, status_timed_turn c s i = Some (c1, o) ->
  sc_alive c = true /\ sc_until c <= s /\
  ((exists out, status_turn i = Ok out /\ c1 = mkStClock true (s + 150) /\ o = map (pair s) out) \/
   (forall out, status_turn i <> Ok out) /\ c1 = mkStClock false s /\ o = []).
Proof.
  intros c s i c1 o H. unfold status_timed_turn in H. destruct (sc_alive c); [|discriminate]. cbn [andb] in H.
  destruct (N.leb_spec (sc_until c) s) as [L|L]; [|discriminate]. split; [reflexivity|]. split; [assumption|].
  destruct (status_turn i) as [out| |] eqn:E; injection H as <- <-.
  - left. exists out. auto.
  - right. split; [intros out X; discriminate|auto].
  - right. split; [intros out X; discriminate|auto].
Qed.

Lemma timed_dead : forall ts c c' os, sc_alive c = false -> status_timed_from c ts = Some (c', os) -> ts = [] /\ c' = c /\ os = [].
Proof.
  intros [|[s i] ts] c c' os A H.
  - injection H as <- <-. auto.
  - destruct (timed_status_cons _ _ _ _ _ _ H) as (c1 & o1 & os' & T & _).
    apply timed_turn_cases in T. destruct T as [X _]. congruence.
Qed.

Lemma timed_status_run : forall ts c c' os, sc_alive c = true -> status_timed_from c ts = Some (c', os) ->
  status_run (map snd ts) = (sc_alive c', map snd os).
Proof.
  induction ts as [|[s i] ts IH]; intros c c' os A H.
  - injection H as <- <-. cbn. rewrite A. reflexivity.
  - destruct (timed_status_cons _ _ _ _ _ _ H) as (c1 & o1 & os' & T & F & ->).
    apply timed_turn_cases in T. destruct T as (_ & _ & [(out & E & -> & ->)|(E & -> & ->)]); cbn [map snd status_run].
    + rewrite E. rewrite (IH (mkStClock true (s + 150)) _ _ eq_refl F), map_app, map_map. cbn [snd]. rewrite map_id. reflexivity.
    + apply timed_dead in F; [|reflexivity]. destruct F as (-> & -> & ->). cbn.
      destruct (status_turn i) as [out| |]; [elim (E out eq_refl)|reflexivity|reflexivity].
Qed.

Lemma timed_pauses : forall ts c c' os, status_timed_from c ts = Some (c', os) ->
  (forall x, In x (map fst ts) -> sc_until c <= x) /\ spaced 150 (map fst ts).
Proof.
  induction ts as [|[s i] ts IH]; intros c c' os H; [split; [intros x []|exact I]|].
  destruct (timed_status_cons _ _ _ _ _ _ H) as (c1 & o1 & os' & T & F & ->).
  apply timed_turn_cases in T. destruct T as (_ & U & K).
  destruct (IH _ _ _ F) as [B S]. cbn [map fst].
  destruct K as [(out & _ & -> & _)|(_ & -> & _)]; cbn [sc_until] in B.
  - split; [|split; [exact B|exact S]]. intros x [<-|X]; [assumption|]. specialize (B x X). lia.
  - apply timed_dead in F; [|reflexivity]. destruct F as (-> & _). cbn [map]. split; [intros x [<-|[]]; assumption|].
    split; [intros y []|exact I].
Qed.

Lemma turn_one : forall i out, status_turn i = Ok out -> out = [] \/ exists o, out = [o].
Proof.
  intros i out H. unfold status_turn in H. destruct (status_recv_from i) as [[pk ip]| |]; try discriminate.
  2:{ injection H as <-. left. reflexivity. }
  destruct (process_packet pk); [|injection H as <-; left; reflexivity].
  destruct (status_packet_encode s) as [b| |]; try discriminate. injection H as <-. right. eexists. reflexivity.
Qed.

(** Replies go out at times of receipt, one for each at most. *)
Lemma replies_at_receipts : forall ts c c' os s d, status_timed_from c ts = Some (c', os) ->
  len (replies_within s d os) <= len (filter (window s d) (map fst ts)).
Proof.
  intros ts c c' os s d. unfold len. revert c c' os. induction ts as [|[s0 i] ts IH]; intros c c' os H.
  - injection H as <- <-. cbn. lia.
  - destruct (timed_status_cons _ _ _ _ _ _ H) as (c1 & o1 & os' & T & F & ->). specialize (IH _ _ _ F).
    apply timed_turn_cases in T. destruct T as (_ & _ & K). unfold replies_within in *. rewrite filter_app, app_length.
    cbn [map fst filter]. change (window s d s0) with ((s <=? s0) && (s0 <=? s + d))%bool.
    destruct K as [(out & E & _ & ->)|(_ & _ & ->)].
    + destruct (turn_one i out E) as [->|[o ->]]; cbn [map filter fst];
        destruct ((s <=? s0) && (s0 <=? s + d))%bool; cbn [List.length]; lia.
    + cbn [filter List.length]. destruct ((s <=? s0) && (s0 <=? s + d))%bool; cbn [List.length]; lia.
Qed.

(** ** C83 *)

(** The service receives no two datagrams within less than 150 ms of each other,
    and so replies at most [d/150 + 1] times in [d] ms, however many ask. *)
Theorem C83_rate : forall ts c os, status_timed ts = Some (c, os) ->
  apart 150 (map fst ts) /\ forall s d, len (replies_within s d os) <= d / 150 + 1.
Proof.
  intros ts c os H. destruct (timed_pauses _ _ _ _ H) as [_ S]. split.
  - clear H. induction (map fst ts) as [|x l IH]; [apply apart_nil|]. destruct S as [S1 S2]. specialize (IH S2).
    intros b s m s' q E. destruct b as [|y b]; cbn [app] in E; injection E as -> ->.
    + apply S1, in_or_app. right. left. reflexivity.
    + apply (IH b s m s' q). reflexivity.
  - intros s d. etransitivity; [exact (replies_at_receipts _ _ _ _ s d H)|].
    apply (spaced_count 150 _ s d); [reflexivity|apply spaced_filter, S|].
    intros x Hx. apply filter_In in Hx. destruct Hx as [_ W]. unfold window in W.
    apply andb_prop in W. destruct W as [W1 W2]. apply N.leb_le in W1. apply N.leb_le in W2. lia.
Qed.
Print Assumptions C83_rate.

(** The pauses change neither what is answered nor what ends the service. *)
Theorem C83_same_answers : forall ts c os, status_timed ts = Some (c, os) ->
  status_run (map snd ts) = (sc_alive c, map snd os).
Proof. intros ts c os H. exact (timed_status_run ts status_clock_start c os eq_refl H). Qed.
Print Assumptions C83_same_answers.

Lemma consecutive : forall ts c os k s i s' i', status_timed ts = Some (c, os) ->
  nth_error ts k = Some (s, i) -> nth_error ts (S k) = Some (s', i') -> s + 150 <= s'.
Proof.
  intros ts c os k s i s' i' H A B. destruct (C83_rate ts c os H) as [P _].
  apply nth_error_split in A. destruct A as (l1 & l2 & -> & L). rewrite nth_error_app2 in B by lia.
  replace (S k - List.length l1)%nat with 1%nat in B by lia. cbn [nth_error] in B. destruct l2 as [|y l2]; [discriminate|].
  injection B as ->. rewrite map_app in P. cbn [map fst] in P. apply (P (map fst l1) s [] s' (map fst l2)). reflexivity.
Qed.

(** A datagram waits for those before it: 150 ms for each, and hardly longer. *)
Theorem C83_waiting : forall ts c os arrivals d, status_timed ts = Some (c, os) ->
  List.length arrivals = List.length ts -> after_arrival arrivals ts -> received_promptly d arrivals ts ->
  forall k s i, nth_error ts k = Some (s, i) ->
  (forall j a, (j <= k)%nat -> nth_error arrivals j = Some a -> a + 150 * N.of_nat (k - j) <= s) /\
  exists j a, (j <= k)%nat /\ nth_error arrivals j = Some a /\ s <= a + (150 + d) * N.of_nat (k - j) + d.
Proof.
  intros ts c os arrivals d H L A P. induction k as [|k IH]; intros s i E.
  - destruct (nth_error arrivals 0) as [a|] eqn:Ea.
    2:{ apply nth_error_None in Ea. assert (X : nth_error ts 0 = None) by (apply nth_error_None; lia). congruence. }
    split.
    + intros j b J Eb. replace j with 0%nat in * by lia. assert (b = a) as -> by congruence. specialize (A 0%nat a s i Ea E). cbn. lia.
    + exists 0%nat, a. split; [lia|]. split; [assumption|]. specialize (P 0%nat a s i Ea E). cbn in *. lia.
  - destruct (nth_error arrivals (S k)) as [a|] eqn:Ea.
    2:{ apply nth_error_None in Ea. assert (X : nth_error ts (S k) = None) by (apply nth_error_None; lia). congruence. }
    destruct (nth_error ts k) as [[s' i']|] eqn:E'.
    2:{ apply nth_error_None in E'. assert (X : nth_error ts (S k) = None) by (apply nth_error_None; lia). congruence. }
    destruct (IH s' i' eq_refl) as [Lo (j & b & J & Eb & Hi)].
    pose proof (consecutive ts c os k s' i' s i H E' E) as C. split.
    + intros j' b' J' Eb'. destruct (Nat.eq_dec j' (S k)) as [->|X].
      * rewrite Nat.sub_diag. assert (b' = a) as -> by congruence. specialize (A (S k) a s i Ea E). cbn. lia.
      * specialize (Lo j' b' ltac:(lia) Eb'). replace (S k - j')%nat with (S (k - j'))%nat by lia. lia.
    + pose proof (P (S k) a s i Ea E s' i' E') as Q. destruct (N.max_spec a (s' + 150)) as [[_ M]|[_ M]]; rewrite M in Q.
      * exists j, b. split; [lia|]. split; [assumption|]. replace (S k - j)%nat with (S (k - j))%nat by lia. lia.
      * exists (S k), a. split; [lia|]. split; [assumption|]. rewrite Nat.sub_diag. cbn. lia.
Qed.
Print Assumptions C83_waiting.

(** Datagrams that come slowly enough are answered at once. *)
Theorem C83_at_once : forall ts c os arrivals d, status_timed ts = Some (c, os) ->
  List.length arrivals = List.length ts -> after_arrival arrivals ts -> received_promptly d arrivals ts ->
  apart (150 + d) arrivals ->
  forall k a s i, nth_error arrivals k = Some a -> nth_error ts k = Some (s, i) -> a <= s <= a + d.
Proof.
  intros ts c os arrivals d H L A P G k a s i Ea E. split; [exact (A k a s i Ea E)|].
  revert a s i Ea E. induction k as [|k IH]; intros a s i Ea E; [exact (P 0%nat a s i Ea E)|].
  destruct (nth_error ts k) as [[s' i']|] eqn:E'.
  2:{ apply nth_error_None in E'. assert (X : nth_error ts (S k) = None) by (apply nth_error_None; lia). congruence. }
  destruct (nth_error arrivals k) as [b|] eqn:Eb.
  2:{ apply nth_error_None in Eb. assert (X : nth_error arrivals (S k) = None) by (apply nth_error_None; lia). congruence. }
  specialize (IH b s' i' eq_refl eq_refl). pose proof (P (S k) a s i Ea E s' i' E') as Q.
  assert (X : b + (150 + d) <= a).
  { apply nth_error_split in Eb. destruct Eb as (l1 & l2 & -> & K). rewrite nth_error_app2 in Ea by lia.
    replace (S k - List.length l1)%nat with 1%nat in Ea by lia. destruct l2 as [|y l2]; [discriminate|].
    injection Ea as ->. exact (G l1 b [] a l2 eq_refl). }
  lia.
Qed.
Print Assumptions C83_at_once.

Lemma run_alive_cons : forall i es, fst (status_run (i :: es)) = true <->
  (exists out, status_turn i = Ok out) /\ fst (status_run es) = true.
Proof.
  intros i es. cbn [status_run]. destruct (status_turn i) as [out| |].
  - destruct (status_run es) as [b o]. cbn [fst]. split; [intros ->; split; [exists out|]; reflexivity|intros [_ X]; exact X].
  - split; [discriminate|intros [[out X] _]; discriminate].
  - split; [discriminate|intros [[out X] _]; discriminate].
Qed.

Lemma served_from : forall ts c, sc_alive c = true ->
  (forall x, In x (map fst ts) -> sc_until c <= x) -> spaced 150 (map fst ts) ->
  fst (status_run (removelast (map snd ts))) = true ->
  exists c' os, status_timed_from c ts = Some (c', os).
Proof.
  induction ts as [|[s i] ts IH]; intros c A U S R; [exists c, []; reflexivity|].
  cbn [map fst] in U, S. destruct S as [S1 S2]. cbn [status_timed_from]. unfold status_timed_turn. rewrite A.
  replace (sc_until c <=? s) with true by (symmetry; apply N.leb_le, U; left; reflexivity). cbn [andb].
  destruct ts as [|[s2 i2] ts].
  - destruct (status_turn i); eexists; eexists; reflexivity.
  - assert (E : removelast (map snd ((s, i) :: (s2, i2) :: ts)) = i :: removelast (map snd ((s2, i2) :: ts))) by reflexivity.
    rewrite E in R. apply run_alive_cons in R. destruct R as [[out O] R]. rewrite O.
    destruct (IH (mkStClock true (s + 150)) eq_refl S1 S2 R) as (c' & os & F). rewrite F. eexists. eexists. reflexivity.
Qed.

Lemma died_last : forall ts c c' os, sc_alive c = true -> status_timed_from c ts = Some (c', os) ->
  fst (status_run (removelast (map snd ts))) = true.
Proof.
  induction ts as [|[s i] ts IH]; intros c c' os A H; [reflexivity|].
  destruct (timed_status_cons _ _ _ _ _ _ H) as (c1 & o1 & os' & T & F & ->).
  destruct ts as [|[s2 i2] ts]; [reflexivity|].
  assert (E : removelast (map snd ((s, i) :: (s2, i2) :: ts)) = i :: removelast (map snd ((s2, i2) :: ts))) by reflexivity.
  rewrite E. apply run_alive_cons. apply timed_turn_cases in T.
  destruct T as (_ & _ & [(out & O & -> & _)|(_ & -> & _)]).
  - split; [exists out; exact O|]. exact (IH (mkStClock true (s + 150)) _ _ eq_refl F).
  - apply timed_dead in F; [|reflexivity]. destruct F as (X & _). discriminate.
Qed.

(** Nothing else delays it: any times of receipt that far apart are possible, from
    the very start, as long as no datagram but the last ends the service. *)
Theorem C83_schedules : forall ts,
  (exists c os, status_timed ts = Some (c, os)) <->
  apart 150 (map fst ts) /\ fst (status_run (removelast (map snd ts))) = true.
Proof.
  intros ts. split.
  - intros (c & os & H). split; [exact (proj1 (C83_rate ts c os H))|exact (died_last ts status_clock_start _ _ eq_refl H)].
  - intros [P R]. apply served_from; [reflexivity| |apply apart_spaced, P|exact R].
    intros x _. apply N.le_0_l.
Qed.
Print Assumptions C83_schedules.

(** Every history of datagrams can be served at some times. *)
Theorem C83_all_histories : forall es, exists ts c os, status_timed ts = Some (c, os) /\
  (map snd ts = es \/ exists later, es = map snd ts ++ later /\ sc_alive c = false).
Proof.
  intros es. unfold status_timed. assert (A : sc_alive status_clock_start = true) by reflexivity.
  revert A. generalize status_clock_start. induction es as [|i es IH]; intros c A.
  - exists [], c, []. split; [reflexivity|]. left. reflexivity.
  - destruct (status_turn i) as [out| |] eqn:E.
    + destruct (IH (mkStClock true (sc_until c + 150)) eq_refl) as (ts & c' & os & T & K).
      exists ((sc_until c, i) :: ts), c', (map (pair (sc_until c)) out ++ os). split.
      * cbn [status_timed_from]. unfold status_timed_turn. rewrite A, N.leb_refl, E. cbn [andb]. rewrite T. reflexivity.
      * destruct K as [K|(later & K & D)]; [left; cbn [map snd]; congruence|].
        right. exists later. cbn [map snd app]. split; [congruence|assumption].
    + exists [(sc_until c, i)], (mkStClock false (sc_until c)), []. split.
      * cbn [status_timed_from]. unfold status_timed_turn. rewrite A, N.leb_refl, E. reflexivity.
      * right. exists es. split; reflexivity.
    + exists [(sc_until c, i)], (mkStClock false (sc_until c)), []. split.
      * cbn [status_timed_from]. unfold status_timed_turn. rewrite A, N.leb_refl, E. reflexivity.
      * right. exists es. split; reflexivity.
Qed.
Print Assumptions C83_all_histories.

Example C83_case :
  let hello := StatusDatagram 9 50002 (lit "Qspt1WmJOL" ++ [0x10] ++ lit "CDJ" ++ repeat 0 17 ++ [1; 0; 2]) in
  let ts := [(1000, hello); (1150, hello); (1301, StatusRecvError); (1452, hello)] in
  option_map (fun x => map fst (snd x)) (status_timed ts) = Some [1000; 1150; 1452] /\
  status_timed [(1000, hello); (1149, hello)] = None /\
  after_arrival [1000; 1001; 1002; 1003] ts /\ received_promptly 1 [1000; 1001; 1002; 1003] ts.
Proof.
  cbv zeta. split; [vm_compute; reflexivity|]. split; [vm_compute; reflexivity|]. split.
  - intros [|[|[|[|k]]]] a s i A B; cbn in A, B; try (injection A as <-; injection B as <- _; lia).
    destruct k; discriminate.
  - intros [|[|[|[|k]]]] a s i A B; cbn in A, B; try (injection A as <-; injection B as <- _).
    + lia.
    + intros s' i' C. injection C as <- _. lia.
    + intros s' i' C. injection C as <- _. lia.
    + intros s' i' C. injection C as <- _. lia.
    + destruct k; discriminate.
Qed.

(** Two datagrams, 160 ms apart: they come slowly enough for a loop that is woken
    within 5 ms. *)
Example C83_case_slow :
  let hello := StatusDatagram 9 50002 (lit "Qspt1WmJOL" ++ [0x10] ++ lit "CDJ" ++ repeat 0 17 ++ [1; 0; 2]) in
  let ts := [(1004, hello); (1160, hello)] in
  option_map (fun x => map fst (snd x)) (status_timed ts) = Some [1004; 1160] /\
  after_arrival [1000; 1160] ts /\ received_promptly 5 [1000; 1160] ts /\ apart (150 + 5) [1000; 1160].
Proof.
  cbv zeta. split; [vm_compute; reflexivity|]. split; [|split].
  - intros [|[|k]] a s i A B; cbn in A, B; try (injection A as <-; injection B as <- _; lia). destruct k; discriminate.
  - intros [|[|k]] a s i A B; cbn in A, B; try (injection A as <-; injection B as <- _).
    + lia.
    + intros s' i' C. injection C as <- _. lia.
    + destruct k; discriminate.
  - intros [|x [|y [|z l]]] s between s' after E; cbn [app] in E.
    + injection E as <- E. destruct between as [|b [|b' l]]; cbn [app] in E; [|discriminate E..]. injection E as <- _. lia.
    + injection E as _ _ E. destruct between; discriminate E.
    + discriminate E.
    + discriminate E.
Qed.
