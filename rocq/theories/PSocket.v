(** Property theorems C103: how many devices can be heard. *)

From Verif Require Import Base Unicode MPackets MKeepalive MNetwork MServer MThreads MTime SServer STime MSocket SSocket
  LBase LThreads LThreads2 LTime LTime2 LTime3 LSocket LSocket2 PServer.
From Verif Require SThreads SUdp.
From Coq Require Import ZArith Lia Arith String.
Open Scope list_scope.
Open Scope N_scope.

(** ** The program is the one of C73 *)

(** Whatever comes at the socket, what the threads do and send is a schedule as in C73. *)
Theorem C103_same_program : forall room xs s os, so_run room xs = Some (s, os) ->
  timed (so_acts s) = Some (so_clock s, os).
Proof. exact so_erasure. Qed.
Print Assumptions C103_same_program.

Lemma so_now_clock : forall room xs s os, so_run room xs = Some (s, os) -> ck_now (so_clock s) <= so_now s.
Proof.
  intros room xs. induction xs as [|[t x] xs IH] using rev_ind; intros s os H.
  - injection H as <- <-. cbn. lia.
  - apply so_run_snoc in H. destruct H as (s0 & os1 & o & H & E & ->). specialize (IH _ _ H).
    apply so_step_cases in E. destruct E as (L & N1 & [(f & d & _ & _ & C & _)|[(a & _ & _ & _ & _ & _ & T)|(a & _ & _ & _ & _ & _ & _ & T)]]).
    + rewrite C. lia.
    + apply timed_act_iff in T. destruct T as (_ & _ & t0 & o0 & _ & -> & _). rewrite pause_now. lia.
    + apply timed_act_iff in T. destruct T as (_ & _ & t0 & o0 & _ & -> & _). rewrite pause_now. lia.
Qed.

(** And every schedule of C73 comes about: by datagrams each of which comes when it
    is received. *)
Theorem C103_any_schedule : forall room acts c os, (0 < room)%nat -> timed acts = Some (c, os) ->
  exists xs s, so_run room xs = Some (s, os) /\ so_acts s = acts /\ so_clock s = c /\
    so_waiting s = [] /\ so_lost s = [].
Proof.
  intros room acts c os R. revert c os.
  assert (G : forall c os, timed acts = Some (c, os) -> exists xs s, so_run room xs = Some (s, os) /\ so_acts s = acts /\ so_clock s = c /\
    so_waiting s = [] /\ so_lost s = [] /\ so_now s = ck_now c).
  2:{ intros c os H. destruct (G c os H) as (xs & s & H1 & H2 & H3 & H4 & H5 & _). exists xs, s. auto. }
  induction acts as [|[t a] acts IH] using rev_ind; intros c os H.
  - injection H as <- <-. exists [], socketed_start. repeat split.
  - apply timed_snoc in H. destruct H as (c0 & os1 & o & H & E & ->).
    destruct (IH c0 os1 H) as (xs & s & H1 & H2 & H3 & H4 & H5 & H6).
    assert (T := proj1 (timed_act_iff _ _ _ _ _) E). destruct T as (T1 & _ & t0 & o0 & _ & Ec & _).
    assert (Nc : ck_now c = t) by (rewrite Ec; apply pause_now).
    assert (D : (exists d, a = KaReceives d) \/ (forall d, a <> KaReceives d)).
    { destruct a; try (right; intros d0 X; discriminate X). left. exists d. reflexivity. }
    assert (L : (so_now s <=? t) = true) by (apply N.leb_le; lia).
    destruct D as [[d ->]|K].
    + exists ((xs ++ [(t, Arrives 0 d)]) ++ [(t, Receives)]).
      assert (S1 : so_run room (xs ++ [(t, Arrives 0 d)]) =
        Some (mkSocketed c0 t [mkArrival t 0 d] (so_received s) [] (so_acts s), os1)).
      { apply so_run_snoc. exists s, os1, []. split; [exact H1|]. split; [|rewrite app_nil_r; reflexivity].
        unfold so_step. rewrite L, H4, H5, H3. cbn [List.length app]. destruct (Nat.ltb_spec 0 room); [reflexivity|lia]. }
      exists (mkSocketed c t [] (so_received s ++ [(t, mkArrival t 0 d)]) [] (acts ++ [(t, KaReceives d)])). split.
      * apply so_run_snoc. eexists. exists os1, o. split; [exact S1|]. split; [|reflexivity].
        unfold so_step. cbn [so_now so_waiting]. rewrite N.leb_refl. unfold so_act. cbn [so_clock ar_data so_lost so_acts so_received].
        rewrite E, H2. reflexivity.
      * cbn. auto.
    + exists (xs ++ [(t, Acts a)]).
      exists (mkSocketed c t [] (so_received s) [] (acts ++ [(t, a)])). split.
      * apply so_run_snoc. exists s, os1, o. split; [exact H1|]. split; [|reflexivity].
        unfold so_step. rewrite L. unfold so_act. rewrite H3, H4, H5, H2, E. destruct a; try reflexivity. elim (K d eq_refl).
      * cbn. auto.
Qed.
Print Assumptions C103_any_schedule.

(** ** In order, and lost only where there is no room *)

(** What comes is received in the order it came, each at the time and with the
    bytes of an action of the keep-alive thread, except for what is lost; and lost
    is exactly what comes while [room] datagrams wait. *)
Theorem C103_in_order : forall room xs s os, so_run room xs = Some (s, os) ->
  made_of (map snd (so_received s) ++ so_waiting s) (so_lost s) (arrivals xs) /\
  (forall t d, In (t, KaReceives d) (so_acts s) <-> exists a, In (t, a) (so_received s) /\ ar_data a = d) /\
  (List.length (so_waiting s) <= room)%nat /\
  (forall a, In a (so_lost s) <->
    exists pre post s1 os1, xs = pre ++ (ar_time a, Arrives (ar_from a) (ar_data a)) :: post /\
      so_run room pre = Some (s1, os1) /\ List.length (so_waiting s1) = room).
Proof.
  intros room xs s os H. destruct (so_kept _ _ _ _ H) as [K L]. split; [exact K|]. split; [|split; [exact L|exact (so_lost_iff _ _ _ _ H)]].
  intros t d. assert (E := so_receipts _ _ _ _ H). split.
  - intros I. assert (F : In (t, KaReceives d) (filter (fun p => is_receipt (snd p)) (so_acts s))) by (apply filter_In; auto).
    rewrite <- E in F. apply in_map_iff in F. destruct F as ([t' a] & F & G). cbn in F. injection F as -> <-. exists a. auto.
  - intros (a & I & <-). apply (in_map (fun p => (fst p, KaReceives (ar_data (snd p))))) in I. rewrite E in I.
    apply filter_In in I. exact (proj1 I).
Qed.
Print Assumptions C103_in_order.

Lemma so_grows : forall room xs s s' os, so_run_from room s xs = Some (s', os) ->
  so_now s <= so_now s' /\
  exists more rmore, map snd (so_received s') ++ so_waiting s' = (map snd (so_received s) ++ so_waiting s) ++ more /\
    so_received s' = so_received s ++ rmore /\ forall p, In p rmore -> so_now s <= fst p.
Proof.
  intros room. induction xs as [|[t x] xs IH]; intros s s' os H; cbn [so_run_from] in H.
  - injection H as <- <-. split; [lia|]. exists [], []. rewrite !app_nil_r. repeat split. intros p [].
  - destruct (so_step room s t x) as [[s1 o]|] eqn:E; [|discriminate].
    destruct (so_run_from room s1 xs) as [[s2 o2]|] eqn:F; [|discriminate]. injection H as <- _.
    destruct (IH _ _ _ F) as (N2 & more & rmore & M & R & P). apply so_step_cases in E. destruct E as (L & N1 & E).
    split; [lia|].
    destruct E as [(f & d & -> & _ & _ & Re & _ & W)|[(a & -> & W & Re & _)|(a & -> & _ & W & Re & _)]]; rewrite Re in *.
    + destruct W as [(_ & W & _)|(_ & W & _)]; rewrite W in M.
      * exists ([mkArrival t f d] ++ more), rmore. split; [rewrite M, <- !app_assoc; reflexivity|]. split; [exact R|].
        intros p Hp. specialize (P p Hp). lia.
      * exists more, rmore. split; [exact M|]. split; [exact R|]. intros p Hp. specialize (P p Hp). lia.
    + exists more, ([(t, a)] ++ rmore). split; [|split; [rewrite R, <- app_assoc; reflexivity|]].
      * rewrite M, map_app, W, <- !app_assoc. reflexivity.
      * intros p [<-|Hp]; [exact L|]. specialize (P p Hp). lia.
    + rewrite W in M. exists more, rmore. split; [exact M|]. split; [exact R|]. intros p Hp. specialize (P p Hp). lia.
Qed.

(** A datagram that comes while [q] others wait is received no sooner than
    [250 * q] ms later, whatever happens then. *)
Theorem C103_waits_behind : forall room pre t from d post s1 os1 s os,
  so_run room pre = Some (s1, os1) -> (List.length (so_waiting s1) < room)%nat ->
  so_run room (pre ++ (t, Arrives from d) :: post) = Some (s, os) ->
  forall r a, nth_error (so_received s) (List.length (so_received s1) + List.length (so_waiting s1)) = Some (r, a) ->
  a = mkArrival t from d /\ t + 250 * len (so_waiting s1) <= r.
Proof.
  intros room pre t from d post s1 os1 s os H L R r a E.
  change ((t, Arrives from d) :: post) with ([(t, Arrives from d)] ++ post) in R. rewrite app_assoc in R. assert (R0 := R).
  apply so_run_from_app in R. destruct R as (s2 & os2 & os3 & R2 & R3 & _).
  assert (R2' := R2). apply so_run_snoc in R2. destruct R2 as (s1' & os1' & o & H' & St & _). rewrite H in H'. injection H' as <- <-.
  apply so_step_cases in St. destruct St as (_ & N2 & [(f & d' & X & _ & _ & Re & _ & W)|[(b & X & _)|(b & X & _)]]); try discriminate X.
  injection X as <- <-. destruct W as [(_ & W & _)|(Ge & _)]; [|lia].
  destruct (so_grows _ _ _ _ _ R3) as (_ & more & rmore & M & Rm & P). rewrite N2 in P. split.
  - apply (map_nth_error snd) in E. cbn [snd] in E.
    assert (Q : nth_error (map snd (so_received s) ++ so_waiting s) (List.length (so_received s1) + List.length (so_waiting s1)) = Some a).
    { rewrite nth_error_app1; [exact E|]. apply nth_error_Some. rewrite E. discriminate. }
    rewrite M, Re, W, app_assoc, <- (app_assoc _ [_] more) in Q.
    rewrite nth_error_app2 in Q; rewrite app_length, map_length in *; [|lia]. rewrite Nat.sub_diag in Q. cbn in Q. congruence.
  - rewrite Rm, Re in E. rewrite nth_error_app2 in E by lia.
    replace (List.length (so_received s1) + List.length (so_waiting s1) - List.length (so_received s1))%nat with (List.length (so_waiting s1)) in E by lia.
    assert (S := so_spaced _ _ _ _ R0). rewrite Rm, map_app in S.
    destruct rmore as [|[r0 a0] rmore]; [destruct (List.length (so_waiting s1)); discriminate|].
    assert (S' : spaced 250 (map fst ((r0, a0) :: rmore))).
    { clear - S. induction (map fst (so_received s2)) as [|y l IH]; [exact S|]. apply IH. exact (proj2 S). }
    apply (map_nth_error fst) in E.
    assert (Q := spaced_nth 250 _ 0 _ r0 r S' (Nat.le_0_l _) eq_refl E). specialize (P (r0, a0) (or_introl eq_refl)). cbn in P.
    rewrite Nat.sub_0_r in Q. unfold len. lia.
Qed.
Print Assumptions C103_waits_behind.

(** ** Too many *)

Lemma so_rate : forall room xs s os, so_run room xs = Some (s, os) -> len (so_received s) <= so_now s / 250 + 1.
Proof.
  intros room xs s os H. rewrite <- (len_map _ _ fst). apply (spaced_count 250 _ 0 (so_now s)); [lia|exact (so_spaced _ _ _ _ H)|].
  intros x X. apply in_map_iff in X. destruct X as (p & <- & X). destruct (so_times _ _ _ _ H) as (T & _). specialize (T p X). lia.
Qed.

(** No more than four datagrams are received in a second: where at least [n] come in
    any [p] ms, and [250 * n] is more than [p], what waits or is lost grows without
    end, by [n/p - 1/250] per millisecond. *)
Theorem C103_too_many : forall room xs s os n p, so_run room xs = Some (s, os) -> 0 < p ->
  at_least n p (so_now s) (arrivals xs) ->
  so_now s * (250 * n - p) <= 250 * p * (len (so_waiting s) + len (so_lost s) + n + 1).
Proof.
  intros room xs s os n p H P A. destruct (so_kept _ _ _ _ H) as [K _]. apply made_length in K. rewrite app_length, map_length in K.
  assert (R := so_rate _ _ _ _ H). set (T := so_now s) in *.
  assert (B := at_least_windows n p T _ (N.to_nat (T / p)) 0 A). rewrite N2Nat.id in B.
  assert (D := N.div_mod T p ltac:(lia)). assert (M := N.mod_lt T p ltac:(lia)). specialize (B ltac:(lia)).
  assert (C := came_length 0 (p * (T / p)) (arrivals xs)).
  assert (D2 := N.div_mod T 250 ltac:(lia)). assert (Lx : len (arrivals xs) = len (so_received s) + len (so_waiting s) + len (so_lost s)) by (unfold len; lia).
  set (b := len (so_waiting s) + len (so_lost s)) in *. set (k := T / p) in *. set (q := T / 250) in *.
  assert (X : n * k <= q + 1 + b) by lia.
  assert (Y : 250 * p * (n * k) <= 250 * p * (q + 1 + b)) by (apply N.mul_le_mono_l; exact X).
  assert (Z : 250 * q <= T) by lia.
  assert (W : p * (250 * q) <= p * T) by (apply N.mul_le_mono_l; exact Z).
  assert (V : 250 * n * T <= 250 * n * (p * k + p)) by (apply N.mul_le_mono_l; lia).
  rewrite N.mul_sub_distr_l. nia.
Qed.
Print Assumptions C103_too_many.

(** So, whatever room there is, datagrams are lost from some time on. *)
Theorem C103_overflows : forall room xs s os n p, so_run room xs = Some (s, os) -> 0 < p -> p < 250 * n ->
  at_least n p (so_now s) (arrivals xs) -> 250 * p * (N.of_nat room + n + 1) < so_now s -> so_lost s <> [].
Proof.
  intros room xs s os n p H P L A T Z. assert (Q := C103_too_many room xs s os n p H P A). rewrite Z in Q.
  destruct (so_kept _ _ _ _ H) as [_ W]. change (len (@nil arrival)) with 0 in Q.
  assert (B : 250 * p * (len (so_waiting s) + 0 + n + 1) <= 250 * p * (N.of_nat room + n + 1)) by (apply N.mul_le_mono_l; unfold len; lia).
  assert (C : so_now s * 1 <= so_now s * (250 * n - p)) by (apply N.mul_le_mono_l; lia). lia.
Qed.
Print Assumptions C103_overflows.

(** ** Few enough *)

(** Where no more than [n] datagrams come in any [p] ms, and the thread could
    receive [n] in that time, nothing is lost and each datagram is received within
    the time [n] of them take, and whatever held the thread up; one that still
    waits came no longer ago than that. *)
Theorem C103_few_enough : forall room n p e extra stall xs s os, so_run room xs = Some (s, os) ->
  attentive room e extra xs -> (forall k, total extra k <= stall) ->
  0 < p -> at_most n p (arrivals xs) -> (250 + e) * n <= p ->
  (250 + e) * n + stall < (250 + e) * N.of_nat room + 250 ->
  arrivals xs = map snd (so_received s) ++ so_waiting s /\
  (forall r a, In (r, a) (so_received s) -> ar_time a <= r /\ r + 250 <= ar_time a + (250 + e) * n + stall) /\
  (forall a, In a (so_waiting s) -> so_now s + 250 <= ar_time a + (250 + e) * n + stall).
Proof.
  intros room n p e extra stall xs s os H At St P M L R.
  destruct (few_enough room n p e extra stall xs s os H At St P M L R) as (Z & B & Bw).
  destruct (so_kept _ _ _ _ H) as [K _]. rewrite Z in K. apply made_all in K. split; [exact K|].
  destruct (so_times _ _ _ _ H) as (T & _ & _ & S0). split.
  - intros r a I. split; [exact (proj2 (T _ I))|].
    apply In_nth_error in I. destruct I as [k I]. destruct (B k r a I) as (j & c & J & C & D).
    assert (A : nth_error (arrivals xs) k = Some a).
    { apply (map_nth_error snd) in I. rewrite K, nth_error_app1; [exact I|]. apply nth_error_Some. rewrite I. discriminate. }
    specialize (St (S k)).
    assert (G := due_bound n p (250 + e) (e + stall) (arrivals xs) k a r j c P M L S0 A J C ltac:(lia)). lia.
  - intros a I. apply In_nth_error in I. destruct I as [i I].
    assert (A : nth_error (arrivals xs) (List.length (so_received s) + i) = Some a).
    { rewrite K, nth_error_app2; rewrite map_length; [|lia]. replace (_ + i - _)%nat with i by lia. exact I. }
    assert (Bk : by_then e extra (arrivals xs) (List.length (so_received s) + i) (so_now s)).
    { apply (by_then_next _ _ _ (List.length (so_received s))); [|lia]. apply Bw. intros X. rewrite X in I. destruct i; discriminate. }
    destruct Bk as (j & c & J & C & D). specialize (St (S (List.length (so_received s) + i))).
    assert (G := due_bound n p (250 + e) (e + stall) (arrivals xs) _ a (so_now s) j c P M L S0 A J C ltac:(lia)). lia.
Qed.
Print Assumptions C103_few_enough.

(** ** In time *)

Lemma served_prompt : forall room d xs s os, so_run room xs = Some (s, os) -> served room d xs -> prompt d (so_acts s).
Proof.
  intros room d xs. induction xs as [|[t x] xs IH] using rev_ind; intros s os H S.
  - injection H as <- <-. intros pre mid u a post w E. destruct pre; [destruct mid|]; discriminate.
  - apply so_run_snoc in H. destruct H as (s0 & os1 & o & H & E & _).
    destruct (S xs t x [] s0 os1 eq_refl H) as [P _].
    apply so_step_cases in E. destruct E as (_ & _ & [(f & dd & _ & _ & _ & _ & Ac & _)|[(a & _ & _ & _ & _ & Ac & _)|(a & _ & _ & _ & _ & _ & Ac & _)]]); rewrite Ac.
    + exact (prompt_prefix _ _ _ (P KaFails)).
    + apply P.
    + apply P.
Qed.

(** Let the operating system leave no thread waiting for longer than 16 ms, and set
    aside 266 ms for each datagram and 394 ms for each that announces a device other
    than rekordbox.  If no more than [w] ms are set aside for what comes in any [p]
    ms, and [w <= p], then nothing is lost and each datagram is received within
    [w + 4.772] s of its coming, less what is set aside for itself; one that still
    waits came no longer ago than that.  The 4.772 s are for the one handshake. *)
Theorem C103_in_time : forall room cost w p xs s os, so_run room xs = Some (s, os) -> served room 16 xs ->
  (forall t, ~ In (t, Acts KaFails) xs) -> th_poisoned (ck_threads (so_clock s)) = false ->
  (forall a, 266 <= cost a) -> (forall a h, status_of (ar_data a) h -> 394 <= cost a) ->
  0 < p -> never_more cost w p (arrivals xs) -> w <= p -> w + 4772 < 266 * (N.of_nat room + 1) ->
  arrivals xs = map snd (so_received s) ++ so_waiting s /\
  (forall r a, In (r, a) (so_received s) -> ar_time a <= r /\ r + cost a <= ar_time a + w + 4772) /\
  (forall a, In a (so_waiting s) -> so_now s + cost a <= ar_time a + w + 4772).
Proof.
  intros room cost w p xs s os H Sv Nf Po C1 C2 P M L R.
  destruct (prompt_tracked 16 _ _ _ (so_erasure _ _ _ _ H) (served_prompt _ _ _ _ _ H Sv)) as (since & Tr & _).
  destruct (kept_up room cost w p xs s os since H Sv Nf Po C1 C2 P M L R Tr) as (Z & Dw & (sofar & Sf & _ & B & _)).
  destruct (so_kept _ _ _ _ H) as [K _]. rewrite Z in K. apply made_all in K. split; [exact K|].
  destruct (so_times _ _ _ _ H) as (T & _ & _ & S0). split.
  - intros r a I. split; [exact (proj2 (T _ I))|]. apply In_nth_error in I. destruct I as [k I].
    assert (A : nth_error (arrivals xs) k = Some a).
    { apply (map_nth_error snd) in I. rewrite K, nth_error_app1; [exact I|]. apply nth_error_Some. rewrite I. discriminate. }
    assert (G := work_due cost w p (16 + sofar) _ k a r P L M S0 A (B k r a I)). lia.
  - intros a I. apply In_nth_error in I. destruct I as [i I].
    assert (A : nth_error (arrivals xs) (List.length (so_received s) + i) = Some a).
    { rewrite K, nth_error_app2; rewrite map_length; [|lia]. replace (_ + i - _)%nat with i by lia. exact I. }
    assert (D : due cost (16 + 4756) (arrivals xs) (List.length (so_received s) + i) (so_now s)).
    { apply (due_mono _ _ _ (List.length (so_received s))); [|lia]. apply Dw. intros X. rewrite X in I. destruct i; discriminate. }
    assert (G := work_due cost w p (16 + 4756) _ _ a (so_now s) P L M S0 A D). lia.
Qed.
Print Assumptions C103_in_time.

Lemma work_classes : forall (heeded : arrival -> bool) x y l,
  work (fun a => if heeded a then x else y) l = x * len (filter heeded l) + y * len (filter (fun a => negb (heeded a)) l).
Proof.
  intros heeded x y l. induction l as [|a l IH]; [cbn; lia|]. cbn [work fold_right filter]. unfold work in IH. rewrite IH.
  destruct (heeded a); cbn [negb]; rewrite len_cons; lia.
Qed.

Lemma came_filter : forall t p f l, came_within t p (filter f l) = filter f (came_within t p l).
Proof.
  intros t p f l. induction l as [|a l IH]; [reflexivity|]. unfold came_within in *. cbn [filter].
  destruct (f a) eqn:X, ((t <=? ar_time a) && (ar_time a <? t + p))%bool eqn:Y; cbn [filter]; rewrite ?X, ?Y, IH; reflexivity.
Qed.

(** So, where in any [p] ms no more than [n] announcements of devices come, and no
    more than [m] other datagrams, and [394 * n + 266 * m <= p], every announcement
    of every device is received. *)
Theorem C103_devices : forall room (heeded : arrival -> bool) n m p xs s os, so_run room xs = Some (s, os) ->
  served room 16 xs -> (forall t, ~ In (t, Acts KaFails) xs) -> th_poisoned (ck_threads (so_clock s)) = false ->
  (forall a h, status_of (ar_data a) h -> heeded a = true) ->
  0 < p -> at_most n p (filter heeded (arrivals xs)) -> at_most m p (filter (fun a => negb (heeded a)) (arrivals xs)) ->
  394 * n + 266 * m <= p -> 394 * n + 266 * m + 4506 < 266 * N.of_nat room ->
  so_lost s = [] /\
  (forall a, In a (arrivals xs) -> ar_time a + 394 * n + 266 * m + 4506 < so_now s ->
     exists r, In (r, a) (so_received s) /\ ar_time a <= r <= ar_time a + 394 * n + 266 * m + 4506).
Proof.
  intros room heeded n m p xs s os H Sv Nf Po C P An Am L R.
  destruct (C103_in_time room (fun a => if heeded a then 394 else 266) (394 * n + 266 * m) p xs s os H Sv Nf Po) as (A & B & W).
  - intros a. destruct (heeded a); lia.
  - intros a h X. rewrite (C a h X). lia.
  - exact P.
  - intros t. rewrite work_classes. specialize (An t). specialize (Am t). rewrite came_filter in An, Am. lia.
  - exact L.
  - lia.
  - split.
    + destruct (so_kept _ _ _ _ H) as [K _]. apply made_length in K. rewrite A in K at 1. rewrite !app_length in K.
      destruct (so_lost s); [reflexivity|]. cbn [List.length] in K. lia.
    + intros a I N. rewrite A in I. apply in_app_or in I. destruct I as [I|I].
      * apply in_map_iff in I. destruct I as ([r b] & E & I). cbn in E. subst b. exists r. split; [exact I|].
        destruct (B r a I) as [X Y]. destruct (heeded a); lia.
      * specialize (W a I). destruct (heeded a); lia.
Qed.
Print Assumptions C103_devices.

(** And every device that announced itself longer than [394 * n + 266 * m + 4506] ms
    ago is among the players the program knows. *)
Theorem C103_noted : forall room (heeded : arrival -> bool) n m p xs s os, so_run room xs = Some (s, os) ->
  served room 16 xs -> (forall t, ~ In (t, Acts KaFails) xs) -> th_poisoned (ck_threads (so_clock s)) = false ->
  (forall a h, status_of (ar_data a) h -> heeded a = true) ->
  0 < p -> at_most n p (filter heeded (arrivals xs)) -> at_most m p (filter (fun a => negb (heeded a)) (arrivals xs)) ->
  394 * n + 266 * m <= p -> 394 * n + 266 * m + 4506 < 266 * N.of_nat room ->
  forall a h, In a (arrivals xs) -> status_of (ar_data a) h -> ar_time a + 394 * n + 266 * m + 4506 < so_now s ->
  In (h_ip h) (map pl_address (st_players (th_state (ck_threads (so_clock s))))).
Proof.
  intros room heeded n m p xs s os H Sv Nf Po C P An Am L R a h I St N.
  destruct (C103_devices room heeded n m p xs s os H Sv Nf Po C P An Am L R) as [Z Rc].
  destruct (Rc a I N) as (r & Ir & _). clear Rc.
  destruct (all_noted _ _ _ _ H Po r a h Ir St) as [G|[[pre G1] G2]]; [exact G|]. exfalso.
  set (cost := fun a : arrival => if heeded a then 394 else 266).
  assert (M : never_more cost (394 * n + 266 * m) p (arrivals xs)).
  { intros t. unfold cost. rewrite work_classes. specialize (An t). specialize (Am t). rewrite came_filter in An, Am. lia. }
  destruct (prompt_tracked 16 _ _ _ (so_erasure _ _ _ _ H) (served_prompt _ _ _ _ _ H Sv)) as (since & Tr & _).
  destruct (kept_up room cost (394 * n + 266 * m) p xs s os since H Sv Nf Po) as (_ & _ & (sofar & Sf & Ov & _ & Pl)); try assumption.
  - intros b. unfold cost. destruct (heeded b); lia.
  - intros b g X. unfold cost. rewrite (C b g X). lia.
  - lia.
  - destruct (so_kept _ _ _ _ H) as [K _]. rewrite Z in K. apply made_all in K.
    destruct G2 as (pk & pn & G2).
    assert (Ni : th_ka (ck_threads (so_clock s)) <> KaIdle) by (destruct G2 as [G2|G2]; rewrite G2; discriminate).
    destruct Pl as [(_ & X & _)|(k & a0 & b & Lk & Ak & D & [[X _]|(Hc & Hn & _)])]; try contradiction.
    assert (Ea : a0 = a).
    { rewrite G1, app_length in Lk. cbn [List.length] in Lk. rewrite K, G1, map_app, <- app_assoc in Ak.
      rewrite nth_error_app2 in Ak; rewrite map_length in *; [|lia]. replace (k - List.length pre)%nat with 0%nat in Ak by lia.
      cbn in Ak. congruence. }
    subst a0. destruct (so_times _ _ _ _ H) as (_ & _ & _ & S0).
    assert (G := work_due cost _ p (16 + sofar) _ k a b P L M S0 Ak D). lia.
Qed.
Print Assumptions C103_noted.

(** ** Senders *)

Definition counted (l : list arrival) (senders : list (N * N)) (t p : N) : N :=
  fold_right N.add 0 (map (fun x => len (came_within t p (of_sender (fst x) l))) senders).

Lemma counted_cons : forall a l senders t p, NoDup (map fst senders) ->
  counted (a :: l) senders t p = counted l senders t p +
    (if ((t <=? ar_time a) && (ar_time a <? t + p))%bool then if in_dec N.eq_dec (ar_from a) (map fst senders) then 1 else 0 else 0).
Proof.
  intros a l senders t p. unfold counted. induction senders as [|[f m] senders IH]; intros ND.
  - cbn [map fold_right in_dec]. destruct ((t <=? ar_time a) && (ar_time a <? t + p))%bool; [|lia]. destruct (in_dec N.eq_dec (ar_from a) []) as [[]|]; lia.
  - cbn [map fst] in ND. inversion ND as [|? ? N1 N2]. subst. cbn [map fold_right fst]. rewrite (IH N2).
    unfold of_sender, came_within. cbn [filter]. destruct (N.eqb_spec (ar_from a) f) as [->|X]; cbn [filter].
    + destruct ((t <=? ar_time a) && (ar_time a <? t + p))%bool; [|lia]. rewrite len_cons.
      destruct (in_dec N.eq_dec f (map fst senders)); [contradiction|].
      destruct (in_dec N.eq_dec f (f :: map fst senders)) as [_|Y]; [lia|]. elim Y. left. reflexivity.
    + destruct ((t <=? ar_time a) && (ar_time a <? t + p))%bool; [|lia].
      destruct (in_dec N.eq_dec (ar_from a) (map fst senders)) as [Y|Y];
        destruct (in_dec N.eq_dec (ar_from a) (f :: map fst senders)) as [W|W]; try lia.
      * elim W. right. exact Y.
      * destruct W as [W|W]; [congruence|contradiction].
Qed.

Lemma counted_nil : forall senders t p, counted [] senders t p = 0.
Proof. unfold counted. induction senders; intros; cbn [map fold_right]; [reflexivity|]. rewrite IHsenders. reflexivity. Qed.

(** The pace of the whole is made of those of the senders: [m] each in any [p] ms. *)
Theorem C103_senders : forall (senders : list (N * N)) p l, NoDup (map fst senders) ->
  (forall until, (forall f m, In (f, m) senders -> at_least m p until (of_sender f l)) ->
     at_least (fold_right N.add 0 (map snd senders)) p until l) /\
  ((forall a, In a l -> In (ar_from a) (map fst senders)) ->
   (forall f m, In (f, m) senders -> at_most m p (of_sender f l)) ->
     at_most (fold_right N.add 0 (map snd senders)) p l) /\
  (forall f, apart p (map ar_time (of_sender f l)) -> at_most 1 p (of_sender f l)).
Proof.
  intros senders p l ND. split; [|split].
  - intros stop A t T. transitivity (counted l senders t p).
    + unfold counted. clear ND. induction senders as [|[f m] senders IH]; [cbn; lia|]. cbn [map fold_right fst snd].
      specialize (IH ltac:(intros f' m' I; apply A; right; exact I)). specialize (A f m (or_introl eq_refl) t T). lia.
    + clear A T. induction l as [|a l IH]; [rewrite counted_nil; lia|]. rewrite counted_cons by exact ND.
      unfold came_within in *. cbn [filter]. destruct ((t <=? ar_time a) && (ar_time a <? t + p))%bool; [|lia]. rewrite len_cons.
      destruct (in_dec N.eq_dec (ar_from a) (map fst senders)); lia.
  - intros Fr A t. transitivity (counted l senders t p).
    + clear A. induction l as [|a l IH]; [rewrite counted_nil; cbn; lia|]. rewrite counted_cons by exact ND.
      specialize (IH ltac:(intros b Hb; apply Fr; right; exact Hb)). specialize (Fr a (or_introl eq_refl)).
      unfold came_within in *. cbn [filter]. destruct ((t <=? ar_time a) && (ar_time a <? t + p))%bool; [|lia]. rewrite len_cons.
      destruct (in_dec N.eq_dec (ar_from a) (map fst senders)); [lia|contradiction].
    + unfold counted. clear ND Fr. induction senders as [|[f m] senders IH]; [cbn; lia|]. cbn [map fold_right fst snd].
      specialize (IH ltac:(intros f' m' I; apply A; right; exact I)). specialize (A f m (or_introl eq_refl) t). lia.
  - intros f A t. apply apart_spaced in A. generalize dependent (of_sender f l). clear. intros l A.
    induction l as [|a l IH]; [cbn; lia|]. destruct A as [A1 A2]. specialize (IH A2). unfold came_within in *. cbn [filter].
    destruct (N.leb_spec t (ar_time a)), (N.ltb_spec (ar_time a) (t + p)); cbn [andb]; try lia.
    rewrite len_cons. replace (filter _ l) with (@nil arrival); [cbn; lia|]. symmetry. clear IH A2.
    induction l as [|b l IH]; [reflexivity|]. cbn [filter]. pose proof (A1 (ar_time b) (or_introl eq_refl)).
    destruct (N.ltb_spec (ar_time b) (t + p)); [lia|]. rewrite Bool.andb_false_r. apply IH. intros y Y. apply A1. right. exact Y.
Qed.
Print Assumptions C103_senders.

(** ** Cases *)

(** A player announces itself twice, 1.5 s apart, and this machine's own
    announcement comes back; the thread receives each as soon as it can. *)
Definition example_socket : list (N * happening) :=
  let goes t l := map (fun a => (t, Acts a)) l in
  [(0, Arrives 1 (status_datagram "XDJ-700" 3 192 168 10 52)); (0, Arrives 2 [1; 2; 3]); (10, Receives)]
  ++ goes 10 [KaAcquires; KaLooksUp one_iface; KaQueues; KaQueues; KaReleases]
  ++ [(270, Receives); (1500, Arrives 1 (status_datagram "XDJ-700" 3 192 168 10 52)); (1600, Receives)].

Lemma attentive_check : forall room e extra xs,
  forallb (fun i => match so_run room (firstn i xs), nth_error xs i with
    | Some (s, _), Some (t, _) => match so_waiting s with
        | a :: _ => t <=? could_receive s a + e + extra (List.length (so_received s))
        | [] => true
        end
    | _, _ => true end) (seq 0 (List.length xs)) = true -> attentive room e extra xs.
Proof.
  intros room e extra xs H pre t x post s os a w -> R W. rewrite forallb_forall in H.
  specialize (H (List.length pre)). rewrite app_length in H. cbn [List.length] in H.
  specialize (H ltac:(apply in_seq; lia)). cbv beta in H.
  rewrite firstn_app, Nat.sub_diag, firstn_all in H. cbn [firstn] in H. rewrite app_nil_r, R in H.
  rewrite nth_error_app2 in H by lia. rewrite Nat.sub_diag in H. cbn [nth_error] in H. rewrite W in H. apply N.leb_le, H.
Qed.

(** It meets the hypotheses of C103_few_enough, with 350 ms for each datagram. *)
Example C103_case :
  (exists s os, so_run 2 example_socket = Some (s, os) /\
    map (fun p => (fst p, ar_time (snd p))) (so_received s) = [(10, 0); (270, 0); (1600, 1500)] /\
    so_waiting s = [] /\ so_lost s = []) /\
  attentive 2 100 (fun _ => 0) example_socket /\ at_most 2 1500 (arrivals example_socket) /\
  (250 + 100) * 2 + 0 < (250 + 100) * N.of_nat 2 + 250.
Proof.
  split.
  { destruct (so_run 2 example_socket) as [[s os]|] eqn:E; [|vm_compute in E; discriminate]. exists s, os.
    vm_compute in E. injection E as <- _. repeat split. }
  split; [apply attentive_check; vm_compute; reflexivity|]. split; [|reflexivity].
  intros t. unfold came_within, example_socket. cbn [arrivals app map filter ar_time].
  destruct (N.leb_spec t 0), (N.ltb_spec 0 (t + 1500)), (N.leb_spec t 1500), (N.ltb_spec 1500 (t + 1500)); cbn; lia.
Qed.

(** Eight datagrams come in a second, for four seconds, and there is room for ten;
    the thread receives one as often as it can.  Sixteen are received, ten wait and
    six are lost. *)
Definition example_flood : list (N * happening) :=
  flat_map (fun i => let t := 250 * N.of_nat i in
    [(t, Arrives 1 [7]); (t, Receives); (t + 125, Arrives 2 [8])]) (seq 0 16) ++ [(4000, Acts BcAcquires)].
Example C103_case_flood :
  (exists s os, so_run 10 example_flood = Some (s, os) /\ so_now s = 4000 /\
    len (so_received s) = 16 /\ len (so_waiting s) = 10 /\ len (so_lost s) = 6) /\
  at_least 8 1000 4000 (arrivals example_flood) /\
  250 * 1000 * (6 + 8 + 1) < 4000 * (250 * 8 - 1000).
Proof.
  split.
  { destruct (so_run 10 example_flood) as [[s os]|] eqn:E; [|vm_compute in E; discriminate]. exists s, os.
    vm_compute in E. injection E as <- _. repeat split. }
  split; [|reflexivity].
  intros t T.
  assert (F : forallb (fun i => 8 <=? len (came_within (N.of_nat i) 1000 (arrivals example_flood))) (seq 0 3001) = true) by (vm_compute; reflexivity).
  rewrite forallb_forall in F. specialize (F (N.to_nat t) ltac:(apply in_seq; lia)). cbv beta in F. rewrite N2Nat.id in F. apply N.leb_le, F.
Qed.

(** A player announces itself, the handshake is made, and meanwhile a second player
    and one of this machine's own datagrams come; no thread is left waiting.  It
    meets the hypotheses of C103_in_time, C103_devices and C103_noted. *)
Definition example_link : list (N * happening) :=
  let goes t l := map (fun a => (t, Acts a)) l in
  goes 0 [BcAcquires; BcReleases]
  ++ [(10, Arrives 1 (status_datagram "XDJ-700" 3 192 168 10 52)); (10, Receives)]
  ++ goes 10 [KaAcquires; KaLooksUp one_iface; KaQueues; AppTakes; KaQueues; KaReleases]
  ++ [(100, Arrives 2 (status_datagram "CDJ-850" 4 192 168 10 53))]
  ++ goes 160 [AppTakes; AppAcquires; AppSendsNext true]
  ++ [(200, Arrives 9 [1; 2; 3]); (260, Receives); (260, Acts (AppSendsNext true))]
  ++ map (fun k => (100 * N.of_nat k + 60, Acts (AppSendsNext true))) (seq 3 38)
  ++ goes 4110 [AppReleases; KaAcquires; KaLooksUp one_iface; KaQueues; KaReleases; BcAcquires; BcSends true; BcReleases]
  ++ goes 4260 [AppTakes] ++ [(4360, Receives)] ++ goes 4610 [BcAcquires; BcSends true; BcReleases]
  ++ [(4615, Arrives 1 (status_datagram "XDJ-700" 3 192 168 10 52)); (4620, Receives)]
  ++ goes 4620 [KaAcquires; KaLooksUp one_iface; KaReleases]
  ++ flat_map (fun t => goes t [BcAcquires; BcSends true; BcReleases]) [5110; 5610; 6110].

Definition longer_than_53 (a : arrival) : bool := 53 <? len (ar_data a).

Example C103_case_link :
  (exists s os, so_run 30 example_link = Some (s, os) /\ th_poisoned (ck_threads (so_clock s)) = false /\
    map (fun p => (fst p, ar_time (snd p))) (so_received s) = [(10, 10); (260, 100); (4360, 200); (4620, 4615)] /\
    len (SThreads.datagrams (map snd os)) = 45 /\ 100 + 394 * 3 + 266 * 1 + 4506 < so_now s /\
    map pl_address (st_players (th_state (ck_threads (so_clock s)))) = [3232238132; 3232238133]) /\
  served 30 16 example_link /\ (forall t, ~ In (t, Acts KaFails) example_link) /\
  (forall a h, status_of (ar_data a) h -> longer_than_53 a = true) /\
  at_most 3 1500 (filter longer_than_53 (arrivals example_link)) /\
  at_most 1 1500 (filter (fun a => negb (longer_than_53 a)) (arrivals example_link)) /\
  394 * 3 + 266 * 1 <= 1500 /\ 394 * 3 + 266 * 1 + 4506 < 266 * N.of_nat 30.
Proof.
  split.
  { destruct (so_run 30 example_link) as [[s os]|] eqn:E; [|vm_compute in E; discriminate]. exists s, os.
    vm_compute in E. injection E as <- <-. repeat split. }
  split; [apply served_computed; vm_compute; reflexivity|]. split.
  { intros t I. assert (F : forallb (fun x => match snd x with Acts KaFails => false | _ => true end) example_link = true) by (vm_compute; reflexivity).
    rewrite forallb_forall in F. specialize (F _ I). discriminate. }
  split; [|split; [|split; [|split; [|reflexivity]]]].
  - intros a h (X & _). apply N.ltb_lt. unfold SUdp.reaches in X. unfold len. lia.
  - intros t. etransitivity; [apply came_length|]. vm_compute. discriminate.
  - intros t. etransitivity; [apply came_length|]. vm_compute. discriminate.
  - vm_compute. discriminate.
Qed.
