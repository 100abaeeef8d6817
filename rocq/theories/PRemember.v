(** C107: what the program remembers of its past, no more and no less. *)

From Verif Require Import Base Unicode MPackets MKeepalive MNetwork MServer SUdp SNetwork SServer SRemember
  LBase LUnicode LUdp LNetwork LServer LServer2 LRemember PServer.
From Coq Require Import ZArith String Lia.
Open Scope list_scope.
Open Scope N_scope.

Definition always (k : nat) : bool := true.
Definition wide : list iface := [mkIface (Some [0; 1; 2; 3; 4; 5]) [V4 (mkNet 0 0)]].
Definition wide_net : network := mkNetwork (mkNet 0 0) [0; 1; 2; 3; 4; 5].

Lemma wide_typed : ifaces_typed wide.
Proof.
  intros i [<-|[]]. split.
  - intros m E. cbn in E. assert (X := f_equal (fun o => match o with Some v => v | None => [] end) E).
    cbn in X. rewrite <- X. split; [reflexivity|].
    apply Forall_forall. intros b Hb. cbn in Hb.
    destruct Hb as [<-|[<-|[<-|[<-|[<-|[<-|[]]]]]]]; reflexivity.
  - intros n [E|[]]. injection E as <-. cbn. lia.
Qed.

Lemma wide_chosen : forall ip, chosen wide ip (Some wide_net).
Proof.
  intros ip. exists [], []. split; [reflexivity|]. split; [intros n m []|]. intros i L. cbn in L. lia.
Qed.

(** ** Looking into the queue *)

Lemma taken_cons : forall o os, taken (o :: os) = taken [o] ++ taken os.
Proof. intros o os. change (o :: os) with ([o] ++ os). apply taken_app. Qed.

Lemma taken_outside : forall os, taken (outside os) = taken os.
Proof.
  induction os as [|o os IH]; [reflexivity|]. unfold outside in *. cbn [map]. rewrite taken_cons, (taken_cons o), IH. f_equal.
  unfold taken. cbn [List.concat]. rewrite !app_nil_r. clear. induction o as [|[| |] o IH]; cbn; rewrite ?IH; reflexivity.
Qed.

Lemma drain : forall k w n, attentive w -> good w -> st_address (w_state w) = Some n ->
  taken (snd (run_from w (repeat (AppTurn always) k))) = firstn k (w_queue w).
Proof.
  induction k as [|k IH]; intros w n A G E; [reflexivity|].
  assert (Ht : inputs_typed [AppTurn always]) by (intros x y [Z|[]]; discriminate).
  pose proof (good_step w (AppTurn always) Ht G) as G'. pose proof A as (R & Li & P).
  cbn [repeat]. rewrite run_from_cons. cbn [snd]. rewrite taken_cons.
  destruct (app_cases w always R (good_net w G)) as [[Eq Es]|[(q & Eq & Es)|(q & Eq & [(P' & _)|[(_ & Ad & _)|[(m & _ & Ad & _ & Es)|(m & j & _ & _ & _ & F & _)]]])]];
    try congruence; try discriminate; rewrite Es in *; cbn [fst snd] in *; rewrite Eq.
  - rewrite (IH w n A G E), Eq. destruct k; reflexivity.
  - rewrite (IH _ n); [reflexivity| |exact G'|exact E]. repeat split; assumption.
  - rewrite (IH _ n); [rewrite taken_took; reflexivity| |exact G'|exact E]. repeat split; assumption.
Qed.

Lemma drain_silent : forall k w, ~ attentive w -> good w ->
  taken (snd (run_from w (repeat (AppTurn always) k))) = firstn k (left_over w).
Proof.
  induction k as [|k IH]; intros w A G; [reflexivity|].
  assert (Ht : inputs_typed [AppTurn always]) by (intros x y [Z|[]]; discriminate).
  pose proof (good_step w (AppTurn always) Ht G) as G'.
  cbn [repeat]. rewrite run_from_cons. cbn [snd]. rewrite taken_cons.
  destruct (silent_step w (AppTurn always) Ht G A) as (A' & S1 & S2). rewrite (IH _ A' G'), S2.
  rewrite <- (taken_outside [snd (step w (AppTurn always))]). unfold outside. cbn [map]. fold (shown (snd (step w (AppTurn always)))).
  rewrite S1. destruct (left_over w) as [|x l]; [destruct k; reflexivity|reflexivity].
Qed.

Lemma typed_turns : forall k, inputs_typed (repeat (AppTurn always) k).
Proof. intros k d fs H. apply repeat_spec in H. discriminate. Qed.

Lemma typed_wide : forall d is, inputs_typed is -> inputs_typed (KaDatagram d wide :: is).
Proof. intros d is H d' fs [E|E]; [injection E as <- <-; exact wide_typed|exact (H d' fs E)]. Qed.

(** What one announcement, or two of the same kind, add to the queue. *)
Definition added (w : world) (h : heard) : list app_event :=
  (if known (h_ip h) (st_players (w_state w)) then [] else [DeviceChange])
  ++ (if st_linking (w_state w) then [] else [InitiateLink]).

Lemma drain_once : forall k w d h, attentive w -> good w -> status_of d h ->
  taken (snd (run_from w (KaDatagram d wide :: repeat (AppTurn always) k))) = firstn k (w_queue w ++ added w h).
Proof.
  intros k w d h A G Sd. rewrite run_from_cons. cbn [snd]. rewrite taken_cons.
  assert (Ht : inputs_typed [KaDatagram d wide]) by (apply typed_wide; intros x y []).
  pose proof (good_step w _ Ht G) as G'.
  rewrite (step_accept w d wide h (Some wide_net) A Sd wide_typed (wide_chosen _)) in *. cbn [accept fst snd] in *.
  rewrite taken_posted. cbn [app]. rewrite (drain k _ wide_net); [reflexivity| |exact G'|reflexivity]. repeat split.
Qed.

Lemma drain_twice : forall k w d h, attentive w -> good w -> status_of d h ->
  taken (snd (run_from w (KaDatagram d wide :: KaDatagram d wide :: repeat (AppTurn always) k))) =
  firstn k ((w_queue w ++ added w h) ++ (if st_linking (w_state w) then [] else [InitiateLink])).
Proof.
  intros k w d h A G Sd. rewrite run_from_cons. cbn [snd]. rewrite taken_cons.
  assert (Ht : inputs_typed [KaDatagram d wide]) by (apply typed_wide; intros x y []).
  pose proof (good_step w _ Ht G) as G'.
  rewrite (step_accept w d wide h (Some wide_net) A Sd wide_typed (wide_chosen _)) in *. cbn [accept fst snd] in *.
  rewrite taken_posted. cbn [app]. rewrite (drain_once k _ d h); [|repeat split|exact G'|exact Sd].
  unfold added. cbn [w_queue w_state st_players st_linking]. rewrite known_add. cbn [player_new pl_address]. rewrite N.eqb_refl. reflexivity.
Qed.

Lemma firstn_long : forall {A} (l l' : list A),
  (forall k, firstn k l = firstn k l') -> l = l'.
Proof.
  intros A l l' H. specialize (H (List.length l + List.length l')%nat). rewrite !firstn_all2 in H by lia. exact H.
Qed.

Definition hello : bytes := status_datagram "XDJ-700" 3 192 168 10 52.
Lemma hello_heard : exists h, status_of hello h.
Proof. eexists. apply status_computed_some. vm_compute. reflexivity. Qed.

Lemma broadcast_same : forall n1 n2, net_ok n1 -> net_ok n2 -> len (pn_mac n1) = 6 -> len (pn_mac n2) = 6 ->
  broadcast_on n1 (status_bytes (pn_ip n1) (pn_mac n1) 1) = broadcast_on n2 (status_bytes (pn_ip n2) (pn_mac n2) 1) ->
  same_network (Some n1) (Some n2).
Proof.
  intros n1 n2 _ _ L1 L2 E. unfold broadcast_on in E. injection E as E1 E2 E3. split; [exact E1|]. split; [exact E2|].
  unfold pn_ip in E3. rewrite E1 in E3. revert E3. generalize (be 4 (net_addr (pn_net n2)) ++ [1; 1; 0] ++ be 2 1 ++ [8]). intros r E3.
  exact (app_inv_tail _ _ _ E3).
Qed.

Lemma mixed_apart : forall w1 w2, attentive w1 -> ~ attentive w2 -> good w1 -> good w2 ->
  ~ forall is, inputs_typed is -> outside (snd (run_from w1 is)) = outside (snd (run_from w2 is)).
Proof.
  intros w1 w2 A N G1 G2 H. destruct hello_heard as [h Sd].
  assert (Hb : inputs_typed [BroadcastTurn true]) by (intros x y [Z|[]]; discriminate).
  specialize (H [KaDatagram hello wide; BroadcastTurn true] (typed_wide _ _ Hb)).
  assert (Ht : inputs_typed [KaDatagram hello wide]) by (apply typed_wide; intros x y []).
  pose proof (good_step w1 _ Ht G1) as G1'. pose proof (good_step w2 _ Ht G2) as G2'.
  rewrite !run_from_cons in H. cbn [snd outside map run_from] in H. injection H as _ H.
  destruct (silent_step w2 _ Ht G2 N) as [N' _]. destruct (silent_step _ _ Hb G2' N') as (_ & S2 & _). fold (shown (snd (step (fst (step w2 (KaDatagram hello wide))) (BroadcastTurn true)))) in H.
  rewrite S2 in H.
  rewrite (step_accept w1 hello wide h (Some wide_net) A Sd wide_typed (wide_chosen _)) in *. cbn [accept fst] in *.
  destruct (turn_cases _ true (good_net _ G1')) as [[[X|[X|[X|X]]] _]|(m & _ & _ & _ & _ & [[_ E]|[X _]])]; try discriminate.
  - cbn [w_broadcasting] in X. pose proof (proj1 G1 A). congruence.
  - rewrite E in H. discriminate.
Qed.

Lemma heard_known : forall is hs ip, inputs_typed is -> hears is hs -> attentive (fst (run is)) ->
  (known ip (st_players (w_state (fst (run is)))) = true <-> In ip (map h_ip hs)).
Proof.
  intros is hs ip Ht Hh A. destruct (players_heard is hs Ht Hh A) as [E _]. rewrite known_in, E. apply in_distinct.
Qed.

Lemma alike_related : forall w1 w2, good w1 -> good w2 ->
  (forall is, inputs_typed is -> outside (snd (run_from w1 is)) = outside (snd (run_from w2 is))) -> related w1 w2.
Proof.
  intros w1 w2 G1 G2 H. destruct (attentive_dec w1) as [A1|A1], (attentive_dec w2) as [A2|A2].
  - assert (T : forall is, inputs_typed is -> taken (snd (run_from w1 is)) = taken (snd (run_from w2 is))).
    { intros is Ht. rewrite <- taken_outside, (H is Ht). apply taken_outside. }
    assert (O : forall d h, status_of d h -> w_queue w1 ++ added w1 h = w_queue w2 ++ added w2 h).
    { intros d h Sd. apply firstn_long. intros k. rewrite <- (drain_once k w1 d h A1 G1 Sd), <- (drain_once k w2 d h A2 G2 Sd).
      apply T. apply typed_wide, typed_turns. }
    assert (L : st_linking (w_state w1) = st_linking (w_state w2)).
    { destruct hello_heard as [h Sd]. pose proof (O _ _ Sd) as O1.
      assert (O2 : (w_queue w1 ++ added w1 h) ++ (if st_linking (w_state w1) then [] else [InitiateLink]) =
                   (w_queue w2 ++ added w2 h) ++ (if st_linking (w_state w2) then [] else [InitiateLink])).
      { apply firstn_long. intros k. rewrite <- (drain_twice k w1 _ h A1 G1 Sd), <- (drain_twice k w2 _ h A2 G2 Sd).
        apply T. apply typed_wide, typed_wide, typed_turns. }
      rewrite O1 in O2. apply app_inv_head in O2. destruct (st_linking (w_state w1)), (st_linking (w_state w2)); try discriminate; reflexivity. }
    assert (O' : forall d h, status_of d h ->
      w_queue w1 ++ (if known (h_ip h) (st_players (w_state w1)) then [] else [DeviceChange]) =
      w_queue w2 ++ (if known (h_ip h) (st_players (w_state w2)) then [] else [DeviceChange])).
    { intros d h Sd. specialize (O d h Sd). unfold added in O. rewrite L, !app_assoc in O. apply app_inv_tail in O. exact O. }
    assert (Q : w_queue w1 = w_queue w2).
    { assert (F : forall w, st_players (w_state w) <> [] -> good w -> exists d h, status_of d h /\ known (h_ip h) (st_players (w_state w)) = true).
      { intros w Np G. destruct (st_players (w_state w)) as [|p ps] eqn:Ep; [contradiction|].
        destruct (proj2 (proj2 (proj2 (proj2 G))) (pl_address p)) as (d & h & Sd & Eh).
        { rewrite Ep. unfold known. cbn [existsb]. rewrite N.eqb_refl. reflexivity. }
        exists d, h. split; [exact Sd|]. unfold known. cbn [existsb]. rewrite Eh, N.eqb_refl. reflexivity. }
      assert (Em : forall v1 v2, good v1 -> good v2 -> attentive v1 -> attentive v2 -> st_players (w_state v1) = [] ->
        (forall is, inputs_typed is -> taken (snd (run_from v1 is)) = taken (snd (run_from v2 is))) -> w_queue v2 = []).
      { intros v1 v2 Gv1 Gv2 Av1 Av2 Ep Tv. pose proof (proj1 (proj2 (proj2 (proj2 Gv1))) Ep) as Eq.
        specialize (Tv _ (typed_turns 1)). cbn [repeat] in Tv. rewrite !run_from_cons in Tv. cbn [snd run_from] in Tv.
        assert (E1 : step v1 (AppTurn always) = (v1, [])).
        { unfold step, app_turn. rewrite Eq. destruct (w_running v1); reflexivity. }
        rewrite E1 in Tv. destruct (w_queue v2) as [|x q] eqn:Eq2; [reflexivity|exfalso].
        destruct (app_cases v2 always (proj1 Av2) (good_net v2 Gv2)) as [[Z _]|[(r & _ & E)|(r & _ & [(_ & E)|[(_ & _ & E)|[(m & _ & _ & _ & E)|(m & j & _ & _ & _ & _ & _ & E)]]])]];
          [congruence|..]; rewrite E in Tv; cbn [snd] in Tv; rewrite ?taken_took in Tv; discriminate Tv. }
      destruct (st_players (w_state w1)) as [|p1 ps1] eqn:E1.
      { rewrite (proj1 (proj2 (proj2 (proj2 G1))) E1). symmetry. apply (Em w1 w2); auto. }
      destruct (st_players (w_state w2)) as [|p2 ps2] eqn:E2.
      { rewrite (proj1 (proj2 (proj2 (proj2 G2))) E2). apply (Em w2 w1); auto. intros is Ht. symmetry. apply T. exact Ht. }
      rewrite <- E1 in *. rewrite <- E2 in *.
      destruct (F w1) as (d1 & h1 & S1 & K1); [congruence|exact G1|]. destruct (F w2) as (d2 & h2 & S2 & K2); [congruence|exact G2|].
      pose proof (O' _ _ S1) as X1. pose proof (O' _ _ S2) as X2. rewrite K1, app_nil_r in X1. rewrite K2, app_nil_r in X2.
      destruct (known (h_ip h1) (st_players (w_state w2))); [rewrite app_nil_r in X1; exact X1|].
      exfalso. apply (f_equal (@List.length _)) in X1, X2. rewrite app_length in X1, X2. cbn [List.length] in X1. lia. }
    left. split; [exact A1|]. split; [exact A2|]. split; [exact Q|]. split; [exact L|]. split.
    + assert (Hb : inputs_typed [BroadcastTurn true]) by (intros x y [Z|[]]; discriminate).
      specialize (H _ Hb). rewrite !run_from_cons in H. cbn [snd run_from outside map] in H.
      pose proof (proj1 G1 A1) as B1. pose proof (proj1 G2 A2) as B2. pose proof A1 as (R1 & _ & P1). pose proof A2 as (R2 & _ & P2).
      destruct (turn_cases w1 true (good_net w1 G1)) as [[[X|[X|[X|X]]] E1]|(m1 & _ & _ & _ & X1 & [[_ E1]|[X _]])]; try congruence;
      destruct (turn_cases w2 true (good_net w2 G2)) as [[[Y|[Y|[Y|Y]]] E2]|(m2 & _ & _ & _ & X2 & [[_ E2]|[Y _]])]; try congruence;
        rewrite E1, E2 in H; cbn [snd filter broadcast_on] in H; try discriminate.
      * rewrite X, Y. exact I.
      * rewrite X1, X2. destruct (proj1 (proj2 (proj2 G1)) _ X1) as [N1 M1], (proj1 (proj2 (proj2 G2)) _ X2) as [N2 M2].
        apply broadcast_same; try assumption.
        pose proof (f_equal (fun l => hd (Posted InitiateLink) (hd [] l)) H) as H'. cbn [hd] in H'. exact H'.
    + intros ip. destruct (known ip (st_players (w_state w1))) eqn:K1, (known ip (st_players (w_state w2))) eqn:K2; try reflexivity; exfalso.
      * destruct (proj2 (proj2 (proj2 (proj2 G1))) ip K1) as (d & h & Sd & Eh). specialize (O' d h Sd). rewrite Eh, K1, K2, Q in O'.
        apply app_inv_head in O'. discriminate.
      * destruct (proj2 (proj2 (proj2 (proj2 G2))) ip K2) as (d & h & Sd & Eh). specialize (O' d h Sd). rewrite Eh, K1, K2, Q in O'.
        apply app_inv_head in O'. discriminate.
  - exfalso. exact (mixed_apart w1 w2 A1 A2 G1 G2 H).
  - exfalso. apply (mixed_apart w2 w1 A2 A1 G2 G1). intros is Ht. symmetry. apply H. exact Ht.
  - right. split; [exact A1|]. split; [exact A2|]. apply firstn_long. intros k.
    rewrite <- (drain_silent k w1 A1 G1), <- (drain_silent k w2 A2 G2), <- taken_outside, (H _ (typed_turns k)). apply taken_outside.
Qed.

(** The discovery part remembers exactly this of its past: whether it still takes
    notice of announcements; if so the addresses it has heard from, the network in
    use, whether a link has been begun and the events waiting; if not the events
    left over.  Two histories are told apart by some future exactly if they differ
    in that. *)
Theorem C107_discovery : forall is1 is2, inputs_typed is1 -> inputs_typed is2 ->
  (discovery_alike is1 is2 <-> same_discovery is1 is2).
Proof.
  intros is1 is2 T1 T2. pose proof (good_reached is1 T1) as G1. pose proof (good_reached is2 T2) as G2. split.
  - intros H. destruct (alike_related _ _ G1 G2 H) as [(A1 & A2 & Q & L & Nn & K)|R]; [left|right; exact R].
    repeat (split; [assumption|]). intros hs1 hs2 H1 H2 ip.
    rewrite <- (heard_known is1 hs1 ip T1 H1 A1), <- (heard_known is2 hs2 ip T2 H2 A2), K. reflexivity.
  - intros [(A1 & A2 & Q & L & Nn & K)|R] is Ht; apply related_run; try assumption; [left|right; exact R].
    repeat (split; [assumption|]). destruct (hears_total is1) as [hs1 H1], (hears_total is2) as [hs2 H2].
    intros ip. apply Bool.eq_iff_eq_true. rewrite (heard_known is1 hs1 ip T1 H1 A1), (heard_known is2 hs2 ip T2 H2 A2). apply K; assumption.
Qed.
Print Assumptions C107_discovery.

(** The name and the number of a device are forgotten: two histories that differ in
    them leave the same memory.  A program that has heard nothing does not. *)
Definition past1 : list input :=
  [KaDatagram (status_datagram "XDJ-700" 3 192 168 10 52) one_iface; AppTurn always; AppTurn always].
Definition past2 : list input :=
  [KaDatagram (status_datagram "CDJ-2000" 2 192 168 10 52) one_iface; KaRecvError; AppTurn always; BroadcastTurn true; AppTurn always].
Example C107_case_discovery :
  inputs_typed past1 /\ inputs_typed past2 /\ same_discovery past1 past2 /\ discovery_alike past1 past2 /\
  st_players (w_state (fst (run past1))) <> st_players (w_state (fst (run past2))) /\ ~ discovery_alike [] past1.
Proof.
  assert (T1 : inputs_typed past1) by (intros d f [E|[E|[E|[]]]]; try discriminate; injection E as <- <-; exact one_iface_typed).
  assert (T2 : inputs_typed past2) by (intros d f [E|[E|[E|[E|[E|[]]]]]]; try discriminate; injection E as <- <-; exact one_iface_typed).
  assert (A1 : attentive (fst (run past1))) by (repeat split; vm_compute; reflexivity).
  assert (A2 : attentive (fst (run past2))) by (repeat split; vm_compute; reflexivity).
  assert (H1 : hears past1 [mkHeard 3232238132 3 (lit "XDJ-700")]) by (unfold past1; repeat hear).
  assert (H2 : hears past2 [mkHeard 3232238132 2 (lit "CDJ-2000")]) by (unfold past2; repeat hear).
  assert (S : same_discovery past1 past2).
  { left. split; [exact A1|]. split; [exact A2|]. split; [vm_compute; reflexivity|]. split; [vm_compute; reflexivity|].
    split; [vm_compute; auto|]. intros hs1 hs2 G1 G2 ip. rewrite (hears_functional _ _ _ G1 H1), (hears_functional _ _ _ G2 H2). reflexivity. }
  split; [exact T1|]. split; [exact T2|]. split; [exact S|]. split; [apply C107_discovery; assumption|].
  split; [vm_compute; discriminate|].
  assert (T0 : inputs_typed []) by (intros d f []).
  rewrite (C107_discovery [] past1 T0 T1). intros [(_ & _ & _ & L & _)|(N & _)]; [vm_compute in L; discriminate|]. contradiction.
Qed.
