(** Lemmas for C107: the memory of the discovery part. *)

From Verif Require Import Base Unicode MPackets MKeepalive MNetwork MServer SUdp SNetwork SServer SRemember
  LBase LUnicode LUdp LNetwork LServer LServer2.
From Coq Require Import ZArith String Lia.
Open Scope list_scope.
Open Scope N_scope.

Definition good (w : world) : Prop :=
  (attentive w -> w_broadcasting w = true) /\
  (w_running w = true -> ~ attentive w -> w_poisoned w = true) /\
  (forall n, st_address (w_state w) = Some n -> net_ok n /\ len (pn_mac n) = 6) /\
  (st_players (w_state w) = [] -> w_queue w = []) /\
  (forall ip, known ip (st_players (w_state w)) = true -> exists d h, status_of d h /\ h_ip h = ip).

Lemma good_net : forall w, good w -> forall n, st_address (w_state w) = Some n -> net_ok n.
Proof. intros w (_ & _ & G & _) n E. exact (proj1 (G n E)). Qed.

Lemma known_add : forall ip ps p, known ip (add_or_update ps p) = ((pl_address p =? ip) || known ip ps)%bool.
Proof.
  intros ip ps p. apply Bool.eq_iff_eq_true. rewrite Bool.orb_true_iff, !known_in, add_or_update_address, N.eqb_eq.
  destruct (known (pl_address p) ps) eqn:K.
  - rewrite known_in in K. split; [tauto|]. intros [<-|H]; assumption.
  - rewrite in_app_iff. cbn. tauto.
Qed.

Lemma good_step : forall w i, inputs_typed [i] -> good w -> good (fst (step w i)).
Proof.
  intros w i Ht G. pose proof (good_net w G) as Gn. pose proof G as G0. destruct G as (G1 & G2 & G3 & G4 & G5).
  destruct i as [d fs| |ok|ok].
  - apply inputs_typed_one in Ht.
    destruct (datagram_cases w d fs Ht) as [(h & o & A & Sd & C & _ & E)|[(h & A & Sd & _ & E)|[_ E]]]; rewrite E; cbn [fst accept].
    + unfold good, attentive. cbn [accept fst w_running w_listening w_poisoned w_broadcasting w_state w_queue st_address st_players].
      split; [intros _; apply G1; exact A|]. split; [intros _ N; exfalso; apply N; repeat split|].
      split. { intros n En. subst o. destruct (chosen_ok _ _ _ Ht C) as (X & Y & _). auto. }
      split.
      { intros En. exfalso. pose proof (add_or_update_nonempty (st_players (w_state w)) (player_new (h_model h) (h_number h) (h_ip h))) as X.
        rewrite En in X. discriminate. }
      intros ip K. rewrite known_add in K. cbn [player_new pl_address] in K. apply Bool.orb_true_iff in K. destruct K as [K|K].
      * apply N.eqb_eq in K. exists d, h. auto.
      * apply G5. exact K.
    + unfold good, attentive. cbn [w_running w_listening w_poisoned w_broadcasting w_state w_queue st_address st_players].
      split; [intros (_ & X & _); discriminate|]. split; [reflexivity|]. auto.
    + repeat (split; [assumption|]). assumption.
  - assert (E : step w KaRecvError = (w, [])) by (unfold step; destruct (w_running w); reflexivity). rewrite E.
    repeat (split; [assumption|]). assumption.
  - destruct (turn_cases w ok Gn) as [[_ E]|(n & R & B & P & A & [[_ E]|[_ E]])]; rewrite E; cbn [fst].
    + repeat (split; [assumption|]). assumption.
    + repeat (split; [assumption|]). assumption.
    + unfold good, attentive. cbn [w_running w_listening w_poisoned w_broadcasting w_state w_queue st_address st_players].
      split; [intros (_ & _ & X); discriminate|]. split; [reflexivity|]. auto.
  - destruct (w_running w) eqn:R.
    2: { unfold step. rewrite R. cbn [fst]. exact G0. }
    destruct (app_cases w ok R Gn) as [[_ E]|[(q & Eq & E)|(q & Eq & [(P & E)|[(P & A & E)|[(n & P & A & _ & E)|(n & k & P & A & _ & _ & _ & E)]]])]];
      rewrite E; cbn [fst]; try (exact G0);
      assert (Nq : st_players (w_state w) <> []) by (intros Z; apply G4 in Z; congruence);
      unfold good, attentive, with_queue; cbn [w_running w_listening w_poisoned w_broadcasting w_state w_queue st_address st_players linked_state set_linking];
      (split; [first [intros (X & _); discriminate | intros (X1 & X2 & X3); apply G1; repeat split; assumption]|];
       split; [first [discriminate | intros _ X; enough (Z : w_poisoned w = true) by congruence; apply G2; [reflexivity|]; intros (Y1 & Y2 & Y3); apply X; repeat split; assumption]|];
       split; [assumption|]; split; [contradiction|assumption]).
Qed.

Lemma good_run : forall is w, inputs_typed is -> good w -> good (fst (run_from w is)).
Proof.
  induction is as [|i is IH]; intros w Ht G; [exact G|].
  change (i :: is) with ([i] ++ is) in Ht. apply inputs_typed_app in Ht. destruct Ht as [Hi Ht].
  cbn [run_from]. pose proof (good_step w i Hi G) as G'. destruct (step w i) as [w' o]. cbn [fst] in G'.
  specialize (IH w' Ht G'). destruct (run_from w' is). exact IH.
Qed.

Lemma good_start : good world_start.
Proof.
  unfold good, attentive. cbn. split; [reflexivity|]. split; [intros _ N; exfalso; apply N; auto|].
  split; [discriminate|]. split; [reflexivity|discriminate].
Qed.

Lemma good_reached : forall is, inputs_typed is -> good (fst (run is)).
Proof. intros is Ht. apply good_run; [exact Ht|exact good_start]. Qed.

(** ** Same memory, same behaviour *)

Definition related (w1 w2 : world) : Prop :=
  (attentive w1 /\ attentive w2 /\ w_queue w1 = w_queue w2 /\
   st_linking (w_state w1) = st_linking (w_state w2) /\
   same_network (st_address (w_state w1)) (st_address (w_state w2)) /\
   forall ip, known ip (st_players (w_state w1)) = known ip (st_players (w_state w2))) \/
  (~ attentive w1 /\ ~ attentive w2 /\ left_over w1 = left_over w2).

Definition shown (os : list output) : list output :=
  filter (fun o => match o with Posted _ => false | _ => true end) os.

Lemma shown_posted : forall es, shown (map Posted es) = [].
Proof. induction es; [reflexivity|assumption]. Qed.

Lemma same_network_refl : forall o, same_network o o.
Proof. intros [n|]; cbn; auto. Qed.

Lemma broadcast_on_same : forall n m b, same_network (Some n) (Some m) -> broadcast_on n b = broadcast_on m b.
Proof.
  intros n m b (A & L & M). unfold broadcast_on. unfold last_address in L. rewrite L. rewrite A. reflexivity.
Qed.

Lemma handshake_same : forall n m, same_network (Some n) (Some m) -> handshake_bytes n = handshake_bytes m.
Proof. intros n m (A & L & M). unfold handshake_bytes, pn_ip. rewrite A, M. reflexivity. Qed.

Lemma map_broadcast_same : forall n m l, same_network (Some n) (Some m) -> map (broadcast_on n) l = map (broadcast_on m) l.
Proof. intros n m l H. apply map_ext. intros b. apply broadcast_on_same. exact H. Qed.

Lemma silent_step : forall w i, inputs_typed [i] -> good w -> ~ attentive w ->
  ~ attentive (fst (step w i)) /\
  match i with
  | AppTurn _ => shown (snd (step w i)) = map Took (firstn 1 (left_over w)) /\ left_over (fst (step w i)) = tl (left_over w)
  | _ => shown (snd (step w i)) = [] /\ left_over (fst (step w i)) = left_over w
  end.
Proof.
  intros w i Ht G N. split; [intros A; apply N; eapply step_attentive_back; exact A|].
  destruct (w_running w) eqn:R.
  2: { assert (E : step w i = (w, [])) by (unfold step; rewrite R; reflexivity). rewrite E.
       destruct i; unfold left_over; cbn [fst snd]; rewrite ?R; auto. }
  pose proof (proj1 (proj2 G) R N) as P. pose proof (good_net w G) as Gn.
  destruct i as [d fs| |ok|ok].
  - rewrite (step_inattentive w d fs N). auto.
  - unfold step. rewrite R. auto.
  - destruct (turn_cases w ok Gn) as [[_ E]|(n & _ & _ & P' & _)]; [rewrite E; auto|congruence].
  - destruct (app_cases w ok R Gn) as [[Eq E]|[(q & Eq & E)|(q & Eq & [(_ & E)|[(P' & _)|[(n & P' & _)|(n & k & P' & _)]]])]];
      try congruence; rewrite E; unfold left_over, with_queue; cbn [fst snd w_running w_queue]; rewrite R, Eq; auto.
Qed.

Lemma related_step : forall w1 w2 i, inputs_typed [i] -> good w1 -> good w2 -> related w1 w2 ->
  shown (snd (step w1 i)) = shown (snd (step w2 i)) /\ related (fst (step w1 i)) (fst (step w2 i)).
Proof.
  intros w1 w2 i Ht G1 G2 [(A1 & A2 & Q & L & Nn & K)|(N1 & N2 & E)].
  2: { destruct (silent_step w1 i Ht G1 N1) as [M1 S1], (silent_step w2 i Ht G2 N2) as [M2 S2].
       destruct i; destruct S1 as [-> S1], S2 as [-> S2]; rewrite E in *; (split; [reflexivity|]); right; (split; [assumption|]); (split; [assumption|]); congruence. }
  pose proof (good_net w1 G1) as Gn1. pose proof (good_net w2 G2) as Gn2.
  pose proof A1 as (R1 & _ & P1). pose proof A2 as (R2 & _ & P2).
  pose proof (proj1 G1 A1) as B1. pose proof (proj1 G2 A2) as B2.
  destruct i as [d fs| |ok|ok].
  - apply inputs_typed_one in Ht. destruct (status_of_dec d) as [[h Sd]|Sd].
    2: { rewrite !(step_noise _ d fs Sd). split; [reflexivity|]. left. auto 8. }
    destruct (find_chosen fs (h_ip h) Ht) as [(o & C & _ & F)|(F & _ & _)].
    + rewrite (step_accept w1 d fs h o A1 Sd Ht C), (step_accept w2 d fs h o A2 Sd Ht C). unfold accept. cbn [fst snd].
      rewrite !shown_posted. split; [reflexivity|]. left. unfold attentive.
      cbn [w_running w_listening w_poisoned w_queue w_state st_linking st_address st_players].
      split; [auto|]. split; [auto|]. split; [rewrite Q, L, K; reflexivity|]. split; [exact L|]. split; [apply same_network_refl|].
      intros ip. rewrite !known_add, K. reflexivity.
    + rewrite (step_lookup_fails w1 d fs h A1 Sd Ht F), (step_lookup_fails w2 d fs h A2 Sd Ht F). cbn [fst snd].
      split; [reflexivity|]. right. unfold attentive, left_over. cbn [w_running w_listening w_queue]. rewrite Q.
      split; [intros (_ & X & _); discriminate|]. split; [intros (_ & X & _); discriminate|reflexivity].
  - unfold step. rewrite R1, R2. cbn [fst snd]. split; [reflexivity|]. left. auto 8.
  - unfold same_network in Nn.
    destruct (st_address (w_state w1)) as [n1|] eqn:Ad1, (st_address (w_state w2)) as [n2|] eqn:Ad2; try contradiction.
    + destruct (turn_cases w1 ok (good_net w1 G1)) as [[[X|[X|[X|X]]] _]|(m1 & _ & _ & _ & X1 & D1)]; try congruence.
      destruct (turn_cases w2 ok (good_net w2 G2)) as [[[X|[X|[X|X]]] _]|(m2 & _ & _ & _ & X2 & D2)]; try congruence.
      rewrite Ad1 in X1. rewrite Ad2 in X2. injection X1 as <-. injection X2 as <-.
      assert (SN : same_network (Some n1) (Some n2)) by exact Nn.
      destruct D1 as [[O1 E1]|[O1 E1]], D2 as [[O2 E2]|[O2 E2]]; try congruence; rewrite E1, E2; cbn [fst snd].
      * rewrite (broadcast_on_same n1 n2 _ SN). unfold pn_ip. destruct Nn as (Y1 & Y2 & Y3). rewrite Y1, Y3.
        split; [reflexivity|]. left. rewrite Ad1, Ad2. auto 8.
      * split; [reflexivity|]. right. unfold attentive, left_over. cbn [w_running w_poisoned w_queue]. rewrite Q.
        split; [intros (_ & _ & X); discriminate|]. split; [intros (_ & _ & X); discriminate|reflexivity].
    + destruct (turn_cases w1 ok (good_net w1 G1)) as [[_ E1]|(m1 & _ & _ & _ & X1 & _)]; [|congruence].
      destruct (turn_cases w2 ok (good_net w2 G2)) as [[_ E2]|(m2 & _ & _ & _ & X2 & _)]; [|congruence].
      rewrite E1, E2. split; [reflexivity|]. left. cbn [fst]. rewrite Ad1, Ad2. auto 8.
  - destruct (app_cases w1 ok R1 Gn1) as [[Eq E1]|[(q & Eq & E1)|(q & Eq & [(P' & _)|[(_ & Ad1 & E1)|[(n1 & _ & Ad1 & F1 & E1)|(n1 & k1 & _ & Ad1 & K1 & F1 & H1 & E1)]]])]];
    try congruence;
    destruct (app_cases w2 ok R2 Gn2) as [[Eq2 E2]|[(q2 & Eq2 & E2)|(q2 & Eq2 & [(P' & _)|[(_ & Ad2 & E2)|[(n2 & _ & Ad2 & F2 & E2)|(n2 & k2 & _ & Ad2 & K2 & F2 & H2 & E2)]]])]];
    try congruence; rewrite E1, E2; cbn [fst snd].
    + split; [reflexivity|]. left. auto 8.
    + split; [reflexivity|]. left. unfold attentive, with_queue. cbn [w_running w_listening w_poisoned w_queue w_state].
      destruct A1 as (X1 & X2 & X3), A2 as (Y1 & Y2 & Y3). repeat (split; [auto; fail|]). split; [congruence|]. auto.
    + split; [reflexivity|]. right. unfold attentive, left_over. cbn [w_running].
      split; [intros (X & _); discriminate|]. split; [intros (X & _); discriminate|reflexivity].
    + rewrite Ad1, Ad2 in Nn. contradiction.
    + rewrite Ad1, Ad2 in Nn. contradiction.
    + rewrite Ad1, Ad2 in Nn. contradiction.
    + rewrite Ad1, Ad2 in Nn. rewrite (handshake_same _ _ Nn), (map_broadcast_same _ _ _ Nn).
      split; [reflexivity|]. left. unfold attentive, linked_state, set_linking. cbn [w_running w_listening w_poisoned w_queue w_state st_linking st_address st_players].
      rewrite Ad1, Ad2. destruct A1 as (X1 & X2 & X3), A2 as (Y1 & Y2 & Y3). repeat (split; [auto; fail|]). split; [congruence|]. auto.
    + rewrite (F1 k2 K2) in F2. discriminate.
    + rewrite Ad1, Ad2 in Nn. contradiction.
    + rewrite (F2 k1 K1) in F1. discriminate.
    + assert (k1 = k2).
      { destruct (Nat.lt_trichotomy k1 k2) as [Z|[Z|Z]]; [|exact Z|].
        - rewrite (H2 k1 Z) in F1. discriminate.
        - rewrite (H1 k2 Z) in F2. discriminate. }
      subst k2. rewrite Ad1, Ad2 in Nn. rewrite (handshake_same _ _ Nn), (map_broadcast_same _ _ _ Nn).
      split; [reflexivity|]. right. unfold attentive, left_over. cbn [w_running].
      split; [intros (X & _); discriminate|]. split; [intros (X & _); discriminate|reflexivity].
Qed.

Lemma run_from_cons : forall w i is, run_from w (i :: is) =
  (fst (run_from (fst (step w i)) is), snd (step w i) :: snd (run_from (fst (step w i)) is)).
Proof. intros w i is. cbn [run_from]. destruct (step w i) as [w' o]. cbn [fst snd]. destruct (run_from w' is). reflexivity. Qed.

Lemma related_run : forall is w1 w2, inputs_typed is -> good w1 -> good w2 -> related w1 w2 ->
  outside (snd (run_from w1 is)) = outside (snd (run_from w2 is)).
Proof.
  induction is as [|i is IH]; intros w1 w2 Ht G1 G2 H; [reflexivity|].
  change (i :: is) with ([i] ++ is) in Ht. apply inputs_typed_app in Ht. destruct Ht as [Hi Ht].
  destruct (related_step w1 w2 i Hi G1 G2 H) as [E F]. rewrite !run_from_cons. cbn [snd outside map].
  f_equal; [exact E|]. apply IH; [exact Ht| | |exact F]; apply good_step; assumption.
Qed.
