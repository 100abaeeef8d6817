(** Lemmas for C103. *)

From Verif Require Import Base MPackets MKeepalive MNetwork MServer MThreads MTime STime MSocket SSocket LBase LTime.
From Coq Require Import ZArith Lia Arith.
Open Scope list_scope.
Open Scope N_scope.

(** ** Runs *)

Lemma so_run_from_app : forall room a b s s2 os,
  so_run_from room s (a ++ b) = Some (s2, os) <->
  exists s1 os1 os2, so_run_from room s a = Some (s1, os1) /\ so_run_from room s1 b = Some (s2, os2) /\ os = os1 ++ os2.
Proof.
  intros room. induction a as [|[t x] a IH]; intros b s s2 os; cbn [app so_run_from].
  - split.
    + intros H. exists s, [], os. auto.
    + intros (s1 & os1 & os2 & H & E & ->). injection H as <- <-. exact E.
  - destruct (so_step room s t x) as [[s1 o]|].
    + split.
      * intros H. destruct (so_run_from room s1 (a ++ b)) as [[s3 os3]|] eqn:E; [|discriminate].
        injection H as <- <-. apply IH in E. destruct E as (s4 & os4 & os5 & E4 & E5 & ->).
        rewrite E4. exists s4, (o ++ os4), os5. rewrite app_assoc. auto.
      * intros (s4 & os4 & os5 & E4 & E5 & ->).
        destruct (so_run_from room s1 a) as [[s6 os6]|] eqn:E6; [|discriminate]. injection E4 as <- <-.
        rewrite (proj2 (IH b s1 s2 (os6 ++ os5))); [rewrite app_assoc; reflexivity|].
        exists s6, os6, os5. auto.
    + split; [discriminate|]. intros (s4 & os4 & os5 & E4 & _). discriminate.
Qed.

Lemma so_run_snoc : forall room xs t x s' os,
  so_run room (xs ++ [(t, x)]) = Some (s', os) <->
  exists s os1 o, so_run room xs = Some (s, os1) /\ so_step room s t x = Some (s', o) /\ os = os1 ++ o.
Proof.
  intros room xs t x s' os. unfold so_run. rewrite so_run_from_app. cbn [so_run_from]. split.
  - intros (s1 & os1 & os2 & H & E & ->). destruct (so_step room s1 t x) as [[s2 o]|] eqn:Z; [|discriminate].
    injection E as <- <-. exists s1, os1, o. rewrite app_nil_r. auto.
  - intros (s1 & os1 & o & H & E & ->). exists s1, os1, o. rewrite E, app_nil_r. auto.
Qed.

Lemma so_run_prefix : forall room a b s os, so_run room (a ++ b) = Some (s, os) -> exists s1 os1, so_run room a = Some (s1, os1).
Proof. intros room a b s os H. apply so_run_from_app in H. destruct H as (s1 & os1 & _ & H & _). exists s1, os1. exact H. Qed.

Lemma arrivals_app : forall a b, arrivals (a ++ b) = arrivals a ++ arrivals b.
Proof.
  induction a as [|[t x] a IH]; intros b; [reflexivity|]. cbn [app arrivals]. destruct x; rewrite IH; reflexivity.
Qed.

(** What a step can be. *)
Lemma so_step_cases : forall room s t x s' o, so_step room s t x = Some (s', o) ->
  so_now s <= t /\ so_now s' = t /\
  ((exists from d, x = Arrives from d /\ o = [] /\ so_clock s' = so_clock s /\ so_received s' = so_received s /\
      so_acts s' = so_acts s /\
      ((List.length (so_waiting s) < room)%nat /\ so_waiting s' = so_waiting s ++ [mkArrival t from d] /\ so_lost s' = so_lost s \/
       (room <= List.length (so_waiting s))%nat /\ so_waiting s' = so_waiting s /\ so_lost s' = so_lost s ++ [mkArrival t from d])) \/
   (exists a, x = Receives /\ so_waiting s = a :: so_waiting s' /\ so_received s' = so_received s ++ [(t, a)] /\
      so_lost s' = so_lost s /\ so_acts s' = so_acts s ++ [(t, KaReceives (ar_data a))] /\
      timed_act (so_clock s) t (KaReceives (ar_data a)) = Some (so_clock s', o)) \/
   (exists a, x = Acts a /\ (forall d, a <> KaReceives d) /\ so_waiting s' = so_waiting s /\
      so_received s' = so_received s /\ so_lost s' = so_lost s /\ so_acts s' = so_acts s ++ [(t, a)] /\
      timed_act (so_clock s) t a = Some (so_clock s', o))).
Proof.
  intros room s t x s' o H. unfold so_step in H. destruct (N.leb_spec (so_now s) t) as [L|L]; [|discriminate].
  split; [exact L|]. destruct x as [from d| |a].
  - destruct (Nat.ltb_spec (List.length (so_waiting s)) room) as [R|R]; injection H as <- <-; cbn; (split; [reflexivity|]); left;
      exists from, d; repeat (split; [reflexivity|]); [left|right]; auto.
  - destruct (so_waiting s) as [|a w] eqn:W; [discriminate|]. unfold so_act in H.
    destruct (timed_act (so_clock s) t (KaReceives (ar_data a))) as [[c os]|] eqn:E; [|discriminate].
    injection H as <- <-. cbn. split; [reflexivity|]. right. left. exists a. auto 10.
  - assert (K : (forall d, a <> KaReceives d) /\ so_act s t a (so_waiting s) (so_received s) = Some (s', o)).
    { destruct a; try discriminate H; (split; [intros d0 X; discriminate X|exact H]). }
    destruct K as [K1 K2]. unfold so_act in K2. destruct (timed_act (so_clock s) t a) as [[c os]|] eqn:E; [|discriminate].
    injection K2 as <- <-. cbn. split; [reflexivity|]. right. right. exists a. auto 10.
Qed.

(** ** Invariants *)

Lemma so_erasure : forall room xs s os, so_run room xs = Some (s, os) -> timed (so_acts s) = Some (so_clock s, os).
Proof.
  intros room xs. induction xs as [|[t x] xs IH] using rev_ind; intros s os H.
  - injection H as <- <-. reflexivity.
  - apply so_run_snoc in H. destruct H as (s0 & os1 & o & H & E & ->). specialize (IH _ _ H).
    apply so_step_cases in E. destruct E as (_ & _ & [(f & d & _ & -> & C & _ & A & _)|[(a & _ & _ & _ & _ & A & T)|(a & _ & _ & _ & _ & _ & A & T)]]);
      rewrite A.
    + rewrite C, app_nil_r. exact IH.
    + apply timed_snoc. exists (so_clock s0), os1, o. auto.
    + apply timed_snoc. exists (so_clock s0), os1, o. auto.
Qed.

Definition is_receipt (a : action) : bool := match a with KaReceives _ => true | _ => false end.

Lemma so_receipts : forall room xs s os, so_run room xs = Some (s, os) ->
  map (fun p => (fst p, KaReceives (ar_data (snd p)))) (so_received s) = filter (fun p => is_receipt (snd p)) (so_acts s).
Proof.
  intros room xs. induction xs as [|[t x] xs IH] using rev_ind; intros s os H.
  - injection H as <- <-. reflexivity.
  - apply so_run_snoc in H. destruct H as (s0 & os1 & o & H & E & ->). specialize (IH _ _ H).
    apply so_step_cases in E. destruct E as (_ & _ & [(f & d & _ & -> & C & R & A & _)|[(a & _ & _ & R & _ & A & T)|(a & _ & K & _ & R & _ & A & T)]]);
      rewrite A, R.
    + exact IH.
    + rewrite map_app, filter_app, IH. reflexivity.
    + rewrite filter_app, IH. cbn [filter snd]. destruct a; try (rewrite app_nil_r; reflexivity). elim (K d eq_refl).
Qed.

Lemma spaced_pairs : forall A d (f : N * A -> bool) l, spaced d (map fst l) -> spaced d (map fst (filter f l)).
Proof.
  intros A d f l. induction l as [|x r IH]; intros H; [exact Logic.I|]. destruct H as [H1 H2]. cbn [filter].
  destruct (f x); [|exact (IH H2)]. split; [|exact (IH H2)]. intros y Hy. apply H1. apply in_map_iff in Hy.
  destruct Hy as (z & <- & Hz). apply filter_In in Hz. apply in_map, Hz.
Qed.

Lemma so_spaced : forall room xs s os, so_run room xs = Some (s, os) -> spaced 250 (map fst (so_received s)).
Proof.
  intros room xs s os H. assert (E := so_receipts _ _ _ _ H).
  assert (M : map fst (so_received s) = map fst (filter (fun p => is_receipt (snd p)) (so_acts s))).
  { rewrite <- E, map_map. reflexivity. }
  rewrite M. clear E M.
  assert (S : spaced 250 (moments receives (so_acts s))) by (apply apart_spaced, (receives_apart _ _ _ (so_erasure _ _ _ _ H))).
  unfold moments in S. apply (spaced_pairs _ _ (fun p => is_receipt (snd p))) in S.
  replace (filter (fun p => is_receipt (snd p)) (so_acts s))
    with (filter (fun p => is_receipt (snd p)) (filter (fun x => receives (snd x)) (so_acts s))); [exact S|].
  clear. induction (so_acts s) as [|[t a] l IH]; [reflexivity|]. cbn [filter snd].
  destruct a; cbn [receives is_receipt]; cbn [filter snd is_receipt]; rewrite ?IH; reflexivity.
Qed.

(** Times are in order, and none is later than now. *)
Lemma so_times : forall room xs s os, so_run room xs = Some (s, os) ->
  (forall p, In p (so_received s) -> fst p <= so_now s /\ ar_time (snd p) <= fst p) /\
  (forall a, In a (arrivals xs) -> ar_time a <= so_now s) /\
  (forall a, In a (so_waiting s) -> ar_time a <= so_now s) /\
  spaced 0 (map ar_time (arrivals xs)).
Proof.
  intros room xs. induction xs as [|[t x] xs IH] using rev_ind; intros s os H.
  - injection H as <- <-. cbn. repeat split; intros; contradiction.
  - apply so_run_snoc in H. destruct H as (s0 & os1 & o & H & E & ->). destruct (IH _ _ H) as (I1 & I2 & I3 & I4). clear IH.
    apply so_step_cases in E. destruct E as (L & N1 & E). rewrite arrivals_app.
    assert (OLD : (forall p, In p (so_received s0) -> fst p <= so_now s /\ ar_time (snd p) <= fst p) /\
       (forall a, In a (arrivals xs) -> ar_time a <= so_now s) /\ (forall a, In a (so_waiting s0) -> ar_time a <= so_now s)).
    { rewrite N1. split; [intros p P; specialize (I1 p P); lia|]. split; intros a A; [specialize (I2 a A)|specialize (I3 a A)]; lia. }
    destruct OLD as (O1 & O2 & O3).
    destruct E as [(f & d & -> & _ & _ & R & _ & W)|[(a & -> & W & R & _)|(a & -> & _ & W & R & _)]]; cbn [arrivals]; rewrite ?app_nil_r, R.
    + split; [exact O1|]. split.
      { intros a A. apply in_app_or in A. destruct A as [A|[<-|[]]]; [exact (O2 a A)|]. cbn. lia. }
      split.
      { destruct W as [(_ & -> & _)|(_ & -> & _)]; [|exact O3].
        intros a A. apply in_app_or in A. destruct A as [A|[<-|[]]]; [exact (O3 a A)|]. cbn. lia. }
      rewrite map_app. cbn [map ar_time]. clear - I2 I4 L. induction (arrivals xs) as [|y l IHl]; [split; [intros z []|exact I]|].
      destruct I4 as [J1 J2]. cbn [map app]. split; [|apply IHl; [intros a A; apply I2; right; exact A|exact J2]].
      intros z Z. apply in_app_or in Z. destruct Z as [Z|[<-|[]]]; [exact (J1 z Z)|]. specialize (I2 y (or_introl eq_refl)). lia.
    + split; [|split; [exact O2|]; split; [|exact I4]].
      * intros p P. apply in_app_or in P. destruct P as [P|[<-|[]]]; [exact (O1 p P)|]. cbn.
        rewrite W in I3. specialize (I3 a (or_introl eq_refl)). lia.
      * rewrite W in O3. intros b B. apply O3. right. exact B.
    + rewrite W. auto.
Qed.

(** ** What is kept and what is lost *)

Lemma made_snoc_left : forall A (x : A) a b l, made_of a b l -> made_of (a ++ [x]) b (l ++ [x]).
Proof. intros A x a b l H. induction H; cbn [app]; repeat constructor; assumption. Qed.

Lemma made_snoc_right : forall A (x : A) a b l, made_of a b l -> made_of a (b ++ [x]) (l ++ [x]).
Proof. intros A x a b l H. induction H; cbn [app]; repeat constructor; assumption. Qed.

Lemma made_length : forall A (a b l : list A), made_of a b l -> List.length l = (List.length a + List.length b)%nat.
Proof. intros A a b l H. induction H; cbn [List.length]; lia. Qed.

Lemma made_all : forall A (a l : list A), made_of a [] l -> l = a.
Proof. intros A a l H. remember [] as b eqn:E. induction H; [reflexivity|rewrite (IHmade_of E); reflexivity|discriminate]. Qed.

Lemma so_kept : forall room xs s os, so_run room xs = Some (s, os) ->
  made_of (map snd (so_received s) ++ so_waiting s) (so_lost s) (arrivals xs) /\ (List.length (so_waiting s) <= room)%nat.
Proof.
  intros room xs. induction xs as [|[t x] xs IH] using rev_ind; intros s os H.
  - injection H as <- <-. cbn. split; [constructor|lia].
  - apply so_run_snoc in H. destruct H as (s0 & os1 & o & H & E & ->). destruct (IH _ _ H) as [I1 I2]. clear IH.
    apply so_step_cases in E. destruct E as (_ & _ & E). rewrite arrivals_app.
    destruct E as [(f & d & -> & _ & _ & R & _ & W)|[(a & -> & W & R & Q & _)|(a & -> & _ & W & R & Q & _)]]; cbn [arrivals]; rewrite ?app_nil_r, R.
    + destruct W as [(Lt & -> & ->)|(Ge & -> & ->)].
      * rewrite app_assoc. split; [apply made_snoc_left, I1|]. rewrite app_length. cbn [List.length]. lia.
      * split; [apply made_snoc_right, I1|exact I2].
    + rewrite Q. rewrite W in I1, I2. rewrite map_app, <- app_assoc. cbn [map snd app]. split; [exact I1|]. cbn [List.length] in I2. lia.
    + rewrite W, Q. auto.
Qed.

Lemma so_lost_iff : forall room xs s os, so_run room xs = Some (s, os) ->
  forall a, In a (so_lost s) <->
    exists pre post s1 os1, xs = pre ++ (ar_time a, Arrives (ar_from a) (ar_data a)) :: post /\
      so_run room pre = Some (s1, os1) /\ List.length (so_waiting s1) = room.
Proof.
  intros room xs. induction xs as [|[t x] xs IH] using rev_ind; intros s os H a.
  - injection H as <- <-. cbn. split; [contradiction|]. intros (pre & post & _ & _ & E & _). destruct pre; discriminate.
  - apply so_run_snoc in H. destruct H as (s0 & os1 & o & H & E & ->). specialize (IH _ _ H a).
    assert (OLD : In a (so_lost s0) -> exists pre post s1 os1, xs ++ [(t, x)] = pre ++ (ar_time a, Arrives (ar_from a) (ar_data a)) :: post /\
        so_run room pre = Some (s1, os1) /\ List.length (so_waiting s1) = room).
    { intros P. apply IH in P. destruct P as (pre & post & s1 & o1 & -> & R & W). exists pre, (post ++ [(t, x)]), s1, o1.
      rewrite <- app_assoc. auto. }
    assert (BACK : forall pre post s1 o1, xs ++ [(t, x)] = pre ++ (ar_time a, Arrives (ar_from a) (ar_data a)) :: post ->
        so_run room pre = Some (s1, o1) -> List.length (so_waiting s1) = room ->
        In a (so_lost s0) \/ s1 = s0 /\ t = ar_time a /\ x = Arrives (ar_from a) (ar_data a)).
    { intros pre post s1 o1 E1 R W. destruct post as [|y post] using rev_ind.
      - apply app_inj_tail in E1. destruct E1 as [<- E1]. injection E1 as -> ->. right. rewrite H in R. injection R as -> _. auto.
      - clear IHpost. rewrite app_comm_cons, app_assoc in E1. apply app_inj_tail in E1. destruct E1 as [-> _]. left. apply IH. exists pre, post, s1, o1. auto. }
    destruct (so_kept _ _ _ _ H) as [_ Wr].
    apply so_step_cases in E. destruct E as (_ & _ & E).
    destruct E as [(f & d & -> & _ & _ & R & _ & W)|[(b & -> & W & R & Q & _)|(b & -> & _ & W & R & Q & _)]].
    + destruct W as [(Lt & _ & ->)|(Ge & _ & ->)].
      * split; [exact OLD|]. intros (pre & post & s1 & o1 & E1 & R1 & W1). destruct (BACK _ _ _ _ E1 R1 W1) as [P|(-> & _)]; [exact P|lia].
      * split.
        -- intros P. apply in_app_or in P. destruct P as [P|[<-|[]]]; [exact (OLD P)|]. exists xs, [], s0, os1.
           split; [reflexivity|]. split; [exact H|]. lia.
        -- intros (pre & post & s1 & o1 & E1 & R1 & W1). apply in_or_app.
           destruct (BACK _ _ _ _ E1 R1 W1) as [P|(-> & -> & X)]; [left; exact P|right]. injection X as -> ->. left. destruct a; reflexivity.
    + rewrite Q. split; [exact OLD|]. intros (pre & post & s1 & o1 & E1 & R1 & W1).
      destruct (BACK _ _ _ _ E1 R1 W1) as [P|(_ & _ & X)]; [exact P|discriminate].
    + rewrite Q. split; [exact OLD|]. intros (pre & post & s1 & o1 & E1 & R1 & W1).
      destruct (BACK _ _ _ _ E1 R1 W1) as [P|(_ & _ & X)]; [exact P|discriminate].
Qed.

(** ** Counting *)

Lemma spaced_nth : forall d l i j x y, spaced d l -> (i <= j)%nat -> nth_error l i = Some x -> nth_error l j = Some y ->
  x + d * N.of_nat (j - i) <= y.
Proof.
  intros d l. induction l as [|z l IH]; intros i j x y S L X Y; [destruct i; discriminate|]. destruct S as [S1 S2].
  destruct j as [|j]; [replace i with 0%nat in * by lia; rewrite X in Y; injection Y as ->; cbn; lia|].
  destruct i as [|i].
  - cbn in X. injection X as ->. cbn [nth_error] in Y. destruct j as [|j].
    + specialize (S1 y (nth_error_In _ _ Y)). cbn. lia.
    + destruct l as [|w l]; [discriminate|]. specialize (S1 w (or_introl eq_refl)).
      specialize (IH 0%nat (S j) w y S2 ltac:(lia) eq_refl Y). replace (S (S j) - 0)%nat with (S (S j)) by lia.
      replace (S j - 0)%nat with (S j) in IH by lia. lia.
  - cbn [nth_error] in X, Y. exact (IH i j x y S2 ltac:(lia) X Y).
Qed.

Lemma came_app : forall t p a b, came_within t p (a ++ b) = came_within t p a ++ came_within t p b.
Proof. intros. apply filter_app. Qed.

Lemma came_split : forall t p q l, len (came_within t (p + q) l) = len (came_within t p l) + len (came_within (t + p) q l).
Proof.
  intros t p q l. induction l as [|a l IH]; [reflexivity|]. unfold came_within in *. cbn [filter].
  destruct (N.leb_spec t (ar_time a)), (N.ltb_spec (ar_time a) (t + (p + q))), (N.ltb_spec (ar_time a) (t + p)),
    (N.leb_spec (t + p) (ar_time a)), (N.ltb_spec (ar_time a) (t + p + q)); cbn [andb]; rewrite ?len_cons; lia.
Qed.

Lemma at_most_windows : forall n p l k t, at_most n p l -> len (came_within t (p * N.of_nat k) l) <= n * N.of_nat k.
Proof.
  intros n p l k. induction k as [|k IH]; intros t H.
  - replace (p * N.of_nat 0) with 0 by lia. replace (came_within t 0 l) with (@nil arrival); [cbn; lia|].
    symmetry. induction l as [|a l IHl]; [reflexivity|]. unfold came_within in *. cbn [filter].
    destruct (N.leb_spec t (ar_time a)), (N.ltb_spec (ar_time a) (t + 0)); cbn [andb]; try lia; apply IHl; intros u;
      specialize (H u); unfold at_most, came_within in H; cbn [filter] in H;
      destruct ((u <=? ar_time a) && (ar_time a <? u + p))%bool; rewrite ?len_cons in H; unfold came_within; lia.
  - replace (p * N.of_nat (S k)) with (p + p * N.of_nat k) by lia. rewrite came_split.
    specialize (IH (t + p) H). specialize (H t). lia.
Qed.

Lemma at_least_windows : forall n p until l k t, at_least n p until l -> t + p * N.of_nat k <= until ->
  n * N.of_nat k <= len (came_within t (p * N.of_nat k) l).
Proof.
  intros n p until l k. induction k as [|k IH]; intros t H L; [lia|].
  replace (p * N.of_nat (S k)) with (p + p * N.of_nat k) by lia. rewrite came_split.
  specialize (IH (t + p) H ltac:(lia)). specialize (H t ltac:(lia)). lia.
Qed.

Lemma came_length : forall t p l, len (came_within t p l) <= len l.
Proof.
  intros t p l. induction l as [|a l IH]; [cbn; lia|]. unfold came_within in *. cbn [filter].
  destruct ((t <=? ar_time a) && (ar_time a <? t + p))%bool; rewrite ?len_cons; lia.
Qed.

Lemma came_all : forall t p l, (forall a, In a l -> t <= ar_time a < t + p) -> came_within t p l = l.
Proof.
  intros t p l. induction l as [|a l IH]; intros H; [reflexivity|]. unfold came_within in *. cbn [filter].
  destruct (H a (or_introl eq_refl)) as [A B]. apply N.leb_le in A. apply N.ltb_lt in B. rewrite A, B. cbn [andb].
  rewrite IH; [reflexivity|]. intros b Hb. apply H. right. exact Hb.
Qed.

(** All that came from the one at [j] on, up to [t]. *)
Lemma burst : forall n p l j a t, 0 < p -> at_most n p l -> spaced 0 (map ar_time l) -> nth_error l j = Some a ->
  (forall b, In b l -> ar_time b <= t) ->
  len l - N.of_nat j <= n * ((t - ar_time a) / p + 1).
Proof.
  intros n p l j a t P M S J T.
  assert (B := at_most_windows n p l (N.to_nat ((t - ar_time a) / p + 1)) (ar_time a) M).
  rewrite N2Nat.id in B. etransitivity; [|exact B]. clear B.
  assert (C : came_within (ar_time a) (p * ((t - ar_time a) / p + 1)) (skipn j l) = skipn j l).
  { apply came_all. intros b Hb. split.
    - apply In_nth_error in Hb. destruct Hb as [i Hi].
      assert (Hk : nth_error l (j + i) = Some b).
      { rewrite <- (firstn_skipn j l), nth_error_app2; rewrite firstn_length_le; try lia.
        - replace (j + i - j)%nat with i by lia. exact Hi.
        - assert (X := proj1 (nth_error_Some l j)). rewrite J in X. specialize (X ltac:(discriminate)). lia.
        - assert (X := proj1 (nth_error_Some l j)). rewrite J in X. specialize (X ltac:(discriminate)). lia. }
      assert (Q := spaced_nth 0 _ j (j + i) (ar_time a) (ar_time b) S ltac:(lia) (map_nth_error ar_time _ _ J) (map_nth_error ar_time _ _ Hk)).
      lia.
    - assert (b_in : In b l) by (rewrite <- (firstn_skipn j l); apply in_or_app; right; exact Hb).
      specialize (T b b_in). assert (D := N.div_mod (t - ar_time a) p ltac:(lia)).
      assert (R := N.mod_lt (t - ar_time a) p ltac:(lia)). lia. }
  rewrite <- (firstn_skipn j l) at 2. rewrite came_app, C, len_app, <- len_skipn. lia.
Qed.

Lemma at_most_prefix : forall n p a b, at_most n p (a ++ b) -> at_most n p a.
Proof. intros n p a b H t. specialize (H t). rewrite came_app, len_app in H. lia. Qed.

Lemma attentive_prefix : forall room e extra a b, attentive room e extra (a ++ b) -> attentive room e extra a.
Proof.
  intros room e extra a b H pre t x post s os y w -> R W. apply (H pre t x (post ++ b) s os y w); [|exact R|exact W].
  rewrite <- app_assoc. reflexivity.
Qed.

(** Each datagram is received no later than the ones it queues behind make necessary. *)
Definition by_then (e : N) (extra : nat -> N) (l : list arrival) (k : nat) (t : N) : Prop :=
  exists j a, (j <= k)%nat /\ nth_error l j = Some a /\
    t <= ar_time a + (250 + e) * N.of_nat (k - j) + e + total extra (S k).

Lemma total_mono : forall f a b, (a <= b)%nat -> total f a <= total f b.
Proof. intros f a b L. induction L; [lia|]. cbn [total]. lia. Qed.

Lemma head_by_then : forall room e extra xs t x post s os a w,
  attentive room e extra (xs ++ (t, x) :: post) -> so_run room xs = Some (s, os) -> so_lost s = [] ->
  (forall k r b, nth_error (so_received s) k = Some (r, b) -> by_then e extra (arrivals xs) k r) ->
  so_waiting s = a :: w -> by_then e extra (arrivals xs) (List.length (so_received s)) t.
Proof.
  intros room e extra xs t x post s os a w At H Z I W. specialize (At xs t x post s os a w eq_refl H W).
  destruct (so_kept _ _ _ _ H) as [K _]. rewrite Z, W in K. apply made_all in K.
  assert (A : nth_error (arrivals xs) (List.length (so_received s)) = Some a).
  { rewrite K, nth_error_app2; rewrite map_length; [|lia]. rewrite Nat.sub_diag. reflexivity. }
  unfold could_receive in At. destruct (rev (so_received s)) as [|[r b] rr] eqn:E.
  - apply (f_equal (@rev _)) in E. rewrite rev_involutive in E. cbn in E. rewrite E in *. cbn [List.length] in *.
    exists 0%nat, a. split; [lia|]. split; [exact A|]. cbn [total]. cbn in At |- *. lia.
  - apply (f_equal (@rev _)) in E. rewrite rev_involutive in E. cbn [rev] in E. rewrite E in *.
    rewrite app_length in *. cbn [List.length] in *. rewrite rev_length in *. replace (List.length rr + 1)%nat with (S (List.length rr)) in * by lia.
    assert (Y : nth_error (rev rr ++ [(r, b)]) (List.length rr) = Some (r, b)).
    { rewrite nth_error_app2; rewrite rev_length; [|lia]. rewrite Nat.sub_diag. reflexivity. }
    destruct (I _ _ _ Y) as (j & c & J & C & B).
    destruct (N.max_spec (ar_time a) (r + 250)) as [[_ M]|[_ M]]; rewrite M in At.
    + exists j, c. split; [lia|]. split; [exact C|]. replace (S (List.length rr) - j)%nat with (S (List.length rr - j))%nat by lia.
      change (total extra (S (S (List.length rr)))) with (total extra (S (List.length rr)) + extra (S (List.length rr))). lia.
    + exists (S (List.length rr)), a. split; [lia|]. split; [exact A|]. rewrite Nat.sub_diag.
      change (total extra (S (S (List.length rr)))) with (total extra (S (List.length rr)) + extra (S (List.length rr))). lia.
Qed.

Lemma by_then_more : forall e extra l m k t, by_then e extra l k t -> by_then e extra (l ++ m) k t.
Proof.
  intros e extra l m k t (j & a & J & A & B). exists j, a. split; [exact J|]. split; [|exact B].
  rewrite nth_error_app1; [exact A|]. apply nth_error_Some. congruence.
Qed.

Lemma div_bound : forall n c p x, 0 < p -> c * n <= p -> c * (n * (x / p + 1)) <= x + c * n.
Proof.
  intros n c p x P L. assert (D := N.div_mod x p ltac:(lia)).
  assert (Q : c * n * (x / p) <= p * (x / p)) by (apply N.mul_le_mono_r; exact L). nia.
Qed.

(** What is due by [t] at a pace of [c] per datagram is due soon after it came. *)
Lemma due_bound : forall n p c x l k a t j b, 0 < p -> at_most n p l -> c * n <= p -> spaced 0 (map ar_time l) ->
  nth_error l k = Some a -> (j <= k)%nat -> nth_error l j = Some b -> t <= ar_time b + c * N.of_nat (k - j) + x ->
  t + c <= ar_time a + c * n + x.
Proof.
  intros n p cc x l k a r j c P M L S0 A J C D.
  assert (Lk : (k < List.length l)%nat) by (apply nth_error_Some; congruence).
  assert (Fk : nth_error (firstn (S k) l) j = Some c).
  { rewrite <- (firstn_skipn (S k) l), nth_error_app1 in C; [exact C|]. rewrite firstn_length_le; lia. }
  assert (Bu := burst n p (firstn (S k) l) j c (ar_time a) P).
  assert (Mk : at_most n p (firstn (S k) l)).
  { apply (at_most_prefix n p _ (skipn (S k) l)). rewrite firstn_skipn. exact M. }
  assert (Sk : spaced 0 (map ar_time (firstn (S k) l))).
  { rewrite <- (firstn_skipn (S k) l), map_app in S0.
    revert S0. generalize (map ar_time (firstn (S k) l)). intros q. induction q as [|y q IH]; intros S0; [exact Logic.I|].
    destruct S0 as [S1 S2]. split; [|exact (IH S2)]. intros z Hz. apply S1, in_or_app. left. exact Hz. }
  assert (Tk : forall b, In b (firstn (S k) l) -> ar_time b <= ar_time a).
  { intros b Hb. apply In_nth_error in Hb. destruct Hb as [i Hi].
    assert (Li : (i < S k)%nat).
    { assert (X := proj1 (nth_error_Some (firstn (S k) l) i)). rewrite Hi in X. specialize (X ltac:(discriminate)).
      rewrite firstn_length_le in X; lia. }
    assert (Hi' : nth_error l i = Some b).
    { rewrite <- (firstn_skipn (S k) l), nth_error_app1; [exact Hi|]. rewrite firstn_length_le; lia. }
    assert (Q := spaced_nth 0 _ i k _ _ S0 ltac:(lia) (map_nth_error ar_time _ _ Hi') (map_nth_error ar_time _ _ A)). lia. }
  specialize (Bu Mk Sk Fk Tk). rewrite len_firstn in Bu.
  assert (Lj : N.min (N.of_nat (S k)) (len l) = N.of_nat (S k)) by (unfold len; lia). rewrite Lj in Bu.
  assert (Y := div_bound n cc p (ar_time a - ar_time c) P L). assert (Tc := Tk c (nth_error_In _ _ Fk)).
  assert (G : cc * (N.of_nat (k - j) + 1) <= ar_time a - ar_time c + cc * n).
  { etransitivity; [|exact Y]. apply N.mul_le_mono_l. lia. }
  lia.
Qed.

(** What waits when something is due is no more than may come in that time. *)
Lemma due_no_room : forall n p c x l k t j b, 0 < p -> at_most n p l -> c * n <= p -> spaced 0 (map ar_time l) ->
  (forall a, In a l -> ar_time a <= t) -> (j <= k)%nat -> nth_error l j = Some b -> t <= ar_time b + c * N.of_nat (k - j) + x ->
  c * (len l - N.of_nat k) <= c * n + x.
Proof.
  intros n p cc x l k t j c P M L S0 T J C D.
  destruct (N.le_gt_cases (len l) (N.of_nat k)) as [X|X]; [replace (len l - N.of_nat k) with 0 by lia; lia|].
  assert (Bu := burst n p l j c t P M S0 C T). assert (Y := div_bound n cc p (t - ar_time c) P L).
  assert (G : cc * (N.of_nat (k - j) + (len l - N.of_nat k)) <= t - ar_time c + cc * n).
  { etransitivity; [|exact Y]. apply N.mul_le_mono_l. lia. }
  rewrite N.mul_add_distr_l in G. set (u := cc * N.of_nat (k - j)) in *. set (v := cc * (len l - N.of_nat k)) in *.
  clearbody u v. lia.
Qed.

Lemma by_then_next : forall e extra l k m t, by_then e extra l k t -> (k <= m)%nat -> by_then e extra l m t.
Proof.
  intros e extra l k m t (j & a & J & A & B) K. exists j, a. split; [lia|]. split; [exact A|].
  assert (T := total_mono extra (S k) (S m) ltac:(lia)).
  assert (Q : (250 + e) * N.of_nat (k - j) <= (250 + e) * N.of_nat (m - j)) by (apply N.mul_le_mono_l; lia). lia.
Qed.

Lemma few_enough : forall room n p e extra stall xs s os, so_run room xs = Some (s, os) ->
  attentive room e extra xs -> (forall k, total extra k <= stall) ->
  0 < p -> at_most n p (arrivals xs) -> (250 + e) * n <= p -> (250 + e) * n + stall < (250 + e) * N.of_nat room + 250 ->
  so_lost s = [] /\ (forall k r b, nth_error (so_received s) k = Some (r, b) -> by_then e extra (arrivals xs) k r) /\
  (so_waiting s <> [] -> by_then e extra (arrivals xs) (List.length (so_received s)) (so_now s)).
Proof.
  intros room n p e extra stall xs. induction xs as [|[t x] xs IH] using rev_ind; intros s os H At St P M L R.
  - injection H as <- <-. cbn. split; [reflexivity|]. split; [|tauto]. intros k r b K. destruct k; discriminate.
  - destruct (so_times _ _ _ _ H) as (_ & T & _ & S0).
    apply so_run_snoc in H. destruct H as (s0 & os1 & o & H & E & ->). rewrite arrivals_app in *.
    destruct (IH s0 os1 H (attentive_prefix _ _ _ _ _ At) St P (at_most_prefix _ _ _ _ M) L R) as (Z & B & _). clear IH.
    apply so_step_cases in E. destruct E as (Nw & Nt & E). rewrite Nt.
    destruct E as [(f & d & -> & _ & _ & Re & _ & W)|[(a & -> & W & Re & Q & _)|(a & -> & _ & W & Re & Q & _)]]; rewrite Re.
    + split; [|split; [intros k r b K; apply by_then_more, (B k r b K)|]].
      2:{ intros _. destruct (so_waiting s0) as [|a w] eqn:Wt.
          - destruct (so_kept _ _ _ _ H) as [K _]. rewrite Z, Wt, app_nil_r in K. apply made_all in K.
            exists (List.length (so_received s0)), (mkArrival t f d). split; [lia|]. split; [|cbn [ar_time]; lia].
            rewrite nth_error_app2; rewrite K, map_length; [|lia]. rewrite Nat.sub_diag. reflexivity.
          - apply by_then_more. exact (head_by_then room e extra xs t (Arrives f d) [] s0 os1 a w At H Z B Wt). }
      destruct W as [(_ & _ & ->)|(Ge & _ & _)]; [exact Z|]. exfalso.
      destruct (so_waiting s0) as [|a w] eqn:Wt.
      { assert (room = 0%nat) by (cbn in Ge; lia). subst room. cbn [arrivals] in M. destruct n as [|n]; [|lia]. specialize (M t).
        rewrite came_app, len_app in M. unfold came_within in M at 2. cbn [filter ar_time] in M.
        rewrite N.leb_refl in M. replace (t <? t + p) with true in M by (symmetry; apply N.ltb_lt; lia). cbn in M. lia. }
      destruct (head_by_then room e extra xs t (Arrives f d) [] s0 os1 a w At H Z B Wt) as (j & c & J & C & D).
      destruct (so_kept _ _ _ _ H) as [K _]. rewrite Z in K. apply made_all in K.
      assert (Lx : len (arrivals xs) = N.of_nat (List.length (so_received s0)) + N.of_nat (List.length (so_waiting s0))).
      { rewrite K. rewrite len_app, len_map. reflexivity. }
      assert (M' := St (S (List.length (so_received s0)))).
      assert (G := due_no_room n p (250 + e) (e + total extra (S (List.length (so_received s0)))) (arrivals xs ++ [mkArrival t f d])
        (List.length (so_received s0)) t j c P M L S0 ltac:(intros b Hb; specialize (T b Hb); lia) J).
      rewrite nth_error_app1 in G by (apply nth_error_Some; congruence).
      specialize (G C ltac:(lia)). rewrite len_app, Lx, Wt in G. change (len [mkArrival t f d]) with 1 in G.
      assert (X' : (250 + e) * (N.of_nat room + 1) <= (250 + e) * (N.of_nat (List.length (so_received s0)) + N.of_nat (List.length (a :: w)) + 1 - N.of_nat (List.length (so_received s0))))
        by (apply N.mul_le_mono_l; lia).
      lia.
    + rewrite Q. cbn [arrivals]. rewrite app_nil_r in *.
      assert (Hd := head_by_then room e extra xs t Receives [] s0 os1 a (so_waiting s) At H Z B W).
      split; [exact Z|]. split.
      * intros k r b K.
        destruct (Nat.lt_ge_cases k (List.length (so_received s0))) as [Lt|Ge].
        -- rewrite nth_error_app1 in K by exact Lt. exact (B k r b K).
        -- rewrite nth_error_app2 in K by exact Ge. destruct (k - List.length (so_received s0))%nat as [|i] eqn:Ei; [|destruct i; discriminate].
           replace k with (List.length (so_received s0)) by lia. cbn in K. injection K as <- <-. exact Hd.
      * intros _. rewrite app_length. cbn [List.length]. apply (by_then_next _ _ _ _ _ _ Hd). lia.
    + rewrite Q. split; [exact Z|]. cbn [arrivals]. rewrite app_nil_r. split; [exact B|].
      intros Wn. rewrite W in Wn. destruct (so_waiting s0) as [|b w] eqn:Wt; [contradiction|].
      exact (head_by_then room e extra xs t (Acts a) [] s0 os1 b w At H Z B Wt).
Qed.
