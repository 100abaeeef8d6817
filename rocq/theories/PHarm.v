(** Property theorems C106: what each harm takes with it, and what comes back. *)

From Verif Require Import Base Unicode MPackets MNetwork MServer MStatus MDb MDatabase MLib MRpc MRpcServer MNfs
  MSystem SUdp SNetwork SServer SRpc SRpcServer SNfs SDisk SSystem SUp SHarm LBase LServer LServer2 LStatus LRpc LRpc2 LRpcServer LNfs LNfs2
  LSystem PServer PRpcServer PDatabase PLib PNfs PSystem PDisk PMany PStranger PUp.
From Coq Require Import ZArith Lia Arith String.
Open Scope list_scope.
Open Scope N_scope.

(** ** The threads *)

Lemma ka_parts : forall w d fs, ifaces_typed fs ->
  let w' := fst (step w (KaDatagram d fs)) in
  let badly := attentive w /\ exists h, status_of d h /\ lookup_fails fs (h_ip h) in
  w_running w' = w_running w /\ w_broadcasting w' = w_broadcasting w /\
  (badly /\ w_listening w' = false /\ w_poisoned w' = true \/
   ~ badly /\ w_listening w' = w_listening w /\ w_poisoned w' = w_poisoned w).
Proof.
  intros w d fs T w' badly. unfold w', badly.
  destruct (datagram_cases w d fs T) as [(x & o & A & S & C & F & E)|[(x & A & S & F & E)|[N E]]]; rewrite E; cbn [fst].
  - pose proof A as (Ar & Al & Ap). unfold accept; cbn. repeat split; try congruence. right. repeat split; try congruence.
    intros (_ & x' & S' & F'). apply F. rewrite (status_of_functional _ _ _ S S'). exact F'.
  - pose proof A as (Ar & Al & Ap). cbn. repeat split; try congruence. left. repeat split; try assumption. exists x. auto.
  - repeat split. right. repeat split. intros (A & x' & S' & _). destruct N as [N|N]; [exact (N A)|exact (N _ S')].
Qed.
Lemma bc_parts : forall w ok, (forall n, st_address (w_state w) = Some n -> net_ok n) ->
  let w' := fst (step w (BroadcastTurn ok)) in
  let bad := w_running w = true /\ w_broadcasting w = true /\ w_poisoned w = false /\ st_address (w_state w) <> None /\ ok = false in
  w_running w' = w_running w /\ w_listening w' = w_listening w /\
  (bad /\ w_broadcasting w' = false /\ w_poisoned w' = true \/
   ~ bad /\ w_broadcasting w' = w_broadcasting w /\ w_poisoned w' = w_poisoned w).
Proof.
  intros w ok Hn w' bad. unfold w', bad.
  destruct (turn_cases w ok Hn) as [[C E]|(n & R & B & P & Ea & [[Y E]|[Y E]])]; rewrite E; cbn [fst w_running w_listening w_broadcasting w_poisoned].
  - repeat split. right. repeat split. intros (R & B & P & A & _). destruct C as [C|[C|[C|C]]]; congruence.
  - repeat split. right. repeat split. intros (_ & _ & _ & _ & Z). congruence.
  - repeat split; try congruence. left. repeat split; congruence.
Qed.
Lemma app_parts : forall w ok, w_running w = true -> (forall n, st_address (w_state w) = Some n -> net_ok n) ->
  let w' := fst (step w (AppTurn ok)) in
  let bad := (exists q, w_queue w = InitiateLink :: q) /\
    (w_poisoned w = true \/ st_address (w_state w) = None \/ exists k, (k < 40)%nat /\ ok k = false) in
  w_listening w' = w_listening w /\ w_broadcasting w' = w_broadcasting w /\
  (bad /\ w_running w' = false \/
   ~ bad /\ w_running w' = true /\ w_poisoned w' = w_poisoned w).
Proof.
  intros w ok R Hn w' bad. unfold w', bad.
  destruct (app_cases w ok R Hn) as
      [[Eq E]|[(q & Eq & E)|(q & Eq & [(X & E)|[(P & X & E)|[(n & P & Ea & Lk & E)|(n & k & P & Ea & Lk & X & _ & E)]]])]];
      rewrite E; cbn [fst w_running w_listening w_broadcasting w_poisoned with_queue]; (split; [reflexivity|]); (split; [reflexivity|]).
  - right. repeat split; [|exact R]. intros ((q & Z) & _). congruence.
  - right. repeat split; [|exact R]. intros ((q' & Z) & _). congruence.
  - left. repeat split; eauto.
  - left. repeat split; eauto.
  - right. repeat split; [|congruence]. intros (_ & [Z|[Z|(k & L & Z)]]); [congruence|congruence|]. rewrite (Lk k L) in Z. discriminate Z.
  - left. repeat split; [eauto|]. right. right. eauto.
Qed.

Lemma world_only : forall e p h d j s, w_running (sy_world s) = true ->
  fst (sys_step e p h d (SysWorld j) s) = with_world s (fst (step (sy_world s) j)).
Proof. intros e p h d j s R. pose proof (step_shape e p h d (SysWorld j) s R) as S. cbn beta iota in S. rewrite S. reflexivity. Qed.

Lemma not_link : forall s i, (forall ok, i <> SysWorld (AppTurn ok)) -> ~ link_hopeless s i /\ ~ link_fails s i.
Proof. intros s i N. split; [intros (ok & E & _)|intros (ok & k & E & _)]; exact (N ok E). Qed.

Section Parts.
Variables (e : endian) (p : profile) (h : hash_order) (d : database).
Notation sstep := (sys_step e p h d).

Ltac shape i s R Sh := pose proof (step_shape e p h d i s R) as Sh;
  destruct i as [j|x|j|q j|ws|c chunk [q|]|c|x]; cbn beta iota in Sh; [| | |destruct Sh as [Sh _]| | | | | ]; try rewrite Sh;
  [| | | | | | | |destruct x; rewrite Sh].
Ltac no_case := split; [intros _ Z; decompose [ex and] Z; discriminate|intros _; assumption].

Lemma other_world : forall i s, (forall j, i <> SysWorld j) -> sy_world (fst (sstep i s)) = sy_world s.
Proof.
  intros i s N. destruct (w_running (sy_world s)) eqn:R; [|unfold sys_step; rewrite R; reflexivity].
  shape i s R Sh; try reflexivity.
  - elim (N j eq_refl).
  - destruct (sy_status s); [destruct (status_turn x)|]; reflexivity.
  - destruct (sy_mapper s); reflexivity.
  - destruct (sy_joined s), (sy_mapper s); reflexivity.
  - destruct (sy_query s c); reflexivity.
  - destruct (sy_query s c); reflexivity.
Qed.
Lemma status_part : forall i s, w_running (sy_world s) = true -> sy_status s = true ->
  (sy_status (fst (sstep i s)) = true <-> ~ exists ip port d, i = SysStatus (StatusDatagram ip port d) /\ stops_status d).
Proof.
  intros i s R U. shape i s R Sh.
  - no_case.
  - rewrite U. destruct x as [ip port dg|].
    + split.
      * intros Z (ip' & port' & dg' & [= <- <- <-] & St). rewrite (status_turn_stop ip port dg St) in Z. discriminate Z.
      * intros N. destruct (status_turn_answer (StatusDatagram ip port dg)) as (out & E & _).
        { intros ip' port' d' [X|[]] St. injection X as -> -> ->. apply N. eauto 6. }
        rewrite E. exact U.
    + cbn. no_case.
  - destruct (sy_mapper s); no_case.
  - no_case.
  - destruct (sy_joined s), (sy_mapper s); no_case.
  - destruct (sy_query s c); no_case.
  - destruct (sy_query s c); no_case.
  - no_case.
  - no_case.
  - no_case.
  - no_case.
  - no_case.
Qed.
Lemma mapper_part : forall i s, input_ok i -> w_running (sy_world s) = true -> sy_mapper s = true ->
  (sy_mapper (fst (sstep i s)) = true <-> ~ exists j, i = SysMapper j /\ pm_stops j).
Proof.
  intros i s Fi R U. shape i s R Sh.
  - no_case.
  - destruct (sy_status s); [destruct (status_turn x)|]; no_case.
  - rewrite U. cbn [fst with_mapper sy_mapper]. destruct (pm_turn_cases j Fi) as [(A & N & _)|(A & N & _)]; rewrite A.
    + split; [|reflexivity]. intros _ (j' & [= <-] & Z). exact (N Z).
    + split; [discriminate|]. intros Z. elim Z. eauto.
  - no_case.
  - rewrite U. destruct (sy_joined s); no_case.
  - destruct (sy_query s c); no_case.
  - destruct (sy_query s c); no_case.
  - no_case.
  - no_case.
  - no_case.
  - no_case.
  - no_case.
Qed.
Lemma joined_part : forall i s, w_running (sy_world s) = true -> sy_joined s = true ->
  (sy_joined (fst (sstep i s)) = true <-> ~ exists ws, i = SysJoin ws /\ sy_mapper s = false).
Proof.
  intros i s R U. shape i s R Sh.
  - no_case.
  - destruct (sy_status s); [destruct (status_turn x)|]; no_case.
  - destruct (sy_mapper s); no_case.
  - no_case.
  - rewrite U. destruct (sy_mapper s); cbn [fst with_joined sy_joined].
    + split; [|reflexivity]. intros _ (_ & _ & Z). discriminate Z.
    + split; [discriminate|]. intros Z. elim Z. eauto.
  - destruct (sy_query s c); no_case.
  - destruct (sy_query s c); no_case.
  - no_case.
  - no_case.
  - no_case.
  - no_case.
  - no_case.
Qed.

Definition alive (v : udp_service) : Prop :=
  match v with NoService => True | NfsUdp v => sv_nfs v <> None | MountUdp running => running = true end.
Definition ends_at (w : world) (v : udp_service) (j : nfs_input) : Prop :=
  match v with
  | NoService => False
  | NfsUdp v => exists hs y, v = fst (served e hs) /\ history_ok (hs ++ [(j, y)]) /\ kills e hs (j, y)
  | MountUdp _ => ms_stops (mkMsIn (ni_datagram j) (ni_from j) (w_poisoned w) (st_address (w_state w)) (ni_send j))
  end.

Lemma turn_alive : forall w q j v, bytes_ok (ni_datagram j) ->
  (forall n, v = NfsUdp n -> exists hs, history_ok hs /\ n = fst (served e hs)) -> alive v ->
  (alive (fst (udp_turn e w q j v)) <-> ~ ends_at w v j).
Proof.
  intros w q j v B Fs A. unfold udp_turn. destruct v as [|v|r]; cbn [alive ends_at] in *.
  - tauto.
  - destruct (nfs_turn e j v) as [v' o] eqn:Ev. cbn [fst]. replace v' with (fst (nfs_turn e j v)) by (rewrite Ev; reflexivity). clear v' o Ev.
    assert (K : forall hs y, v = fst (served e hs) -> history_ok (hs ++ [(j, y)]) -> (sv_nfs (fst (nfs_turn e j v)) <> None <-> ~ kills e hs (j, y))).
    { intros hs y -> H. apply history_snoc in H. destruct H as (H & _ & Hy).
      destruct (served_state e hs H) as [[_ (n & En & I)]|[_ E]]; [|contradiction].
      destruct (fst (served e hs)) as [sn u]. cbn [sv_nfs] in *. subst sn.
      destruct (turn_step e hs n u (j, y) I B Hy) as [(n' & o & K & _ & _ & T)|(K & T)]; cbn [fst] in T; rewrite T; cbn [fst sv_nfs].
      - split; [auto|discriminate].
      - split; [congruence|contradiction]. }
    split.
    + intros Z (hs & y & E & H & Ki). exact (proj1 (K hs y E H) Z Ki).
    + intros N. destruct (Fs v eq_refl) as (hs & H & E). destruct (hears_total _ B) as (y & Hy).
      assert (H' : history_ok (hs ++ [(j, y)])) by (apply history_snoc; auto).
      apply (K hs y E H'). intros Ki. apply N. exists hs, y. auto.
  - subst r. set (mi := mkMsIn _ _ _ _ _). destruct (ms_turn_cases mi B) as [(A & N & _)|(A & N & _)];
      destruct (ms_turn mi) as [b o]; cbn [fst alive] in *; subst b; [tauto|split; [discriminate|contradiction]].
Qed.
Lemma port_part : forall i s q, input_ok i -> w_running (sy_world s) = true ->
  (forall n, sy_udp s q = NfsUdp n -> exists hs, history_ok hs /\ n = fst (served e hs)) -> alive (sy_udp s q) ->
  (alive (sy_udp (fst (sstep i s)) q) <-> ~ exists j, i = SysUdp q j /\ ends_at (sy_world s) (sy_udp s q) j).
Proof.
  intros i s q Fi R Fs U. pose proof (step_shape e p h d i s R) as S.
  destruct i as [j|x|j|q' j|ws|c chunk [o|]|c|x]; cbn beta iota in S.
  - rewrite S. no_case.
  - rewrite S. destruct (sy_status s); [destruct (status_turn x)|]; no_case.
  - rewrite S. destruct (sy_mapper s); [|no_case]. cbn [fst with_mapper sy_udp].
    assert (Al : alive (start_services (sy_udp s) (snd (pm_turn j)) q)).
    { destruct (started_fresh (snd (pm_turn j)) (sy_udp s) q) as [E|[E|E]]; rewrite E; [exact U|discriminate|reflexivity]. }
    no_case.
  - destruct S as [S _]. rewrite S. cbn [with_udp sy_udp]. unfold at_key. destruct (N.eqb_spec q q') as [<-|N].
    + rewrite (turn_alive (sy_world s) q j (sy_udp s q) Fi Fs U). split.
      * intros N (j' & [= <-] & Z). exact (N Z).
      * intros N Z. apply N. eauto.
    + split; [intros _ (j' & Z & _); injection Z; congruence|intros _; exact U].
  - rewrite S. destruct (sy_joined s), (sy_mapper s); no_case.
  - rewrite S. destruct (sy_query s c); no_case.
  - rewrite S. destruct (sy_query s c); no_case.
  - rewrite S. no_case.
  - destruct x; rewrite S; no_case.
Qed.
End Parts.

(** ** C106 *)

(** In a running process a part that works goes on working exactly unless something
    happens that takes it down, after any history and whatever of the rest is down. *)
Theorem C106_taken_exactly : forall e p h d is i x,
  let after is := fst (sys_run e p h d is (system_start true true true true)) in
  Forall input_ok (is ++ [i]) -> works (after is) x ->
  (works (after (is ++ [i])) x <-> ~ takes e (after is) i x).
Proof.
  intros e p h d is i x after F U. apply Forall_app in F. destruct F as [F Fi]. apply Forall_inv in Fi.
  unfold after in *. rewrite after_snoc.
  assert (Hn : forall n, st_address (w_state (sy_world (after is))) = Some n -> net_ok n).
  { unfold after. rewrite (start_runs e p h d true true). apply address_net_ok. apply world_typed. exact F. }
  pose proof (files_served e p h d is F) as Fs. unfold after in *.
  set (s := fst (sys_run e p h d is (system_start true true true true))) in *. clearbody s. clear after.
  pose proof (proj1 U) as R.
  assert (Wi : (exists j, i = SysWorld j) \/ forall j, i <> SysWorld j)
    by (destruct i; [left; eauto|..]; right; discriminate).
  destruct Wi as [(j & ->)|Ni].
  2:{ pose proof (other_world e p h d i s Ni) as Ew. destruct (not_link s i) as [N1 N2]; [intros ok; exact (Ni _)|].
      assert (N3 : ~ heard_badly s i) by (intros (? & ? & ? & Z & _); exact (Ni _ Z)).
      assert (N4 : ~ broadcast_fails s i) by (intros (Z & _); exact (Ni _ Z)).
      unfold takes. unfold works in U |- * at 1. rewrite Ew. destruct U as [_ U]. destruct x.
      - tauto.
      - tauto.
      - tauto.
      - tauto.
      - pose proof (status_part e p h d i s R U). tauto.
      - pose proof (mapper_part e p h d i s Fi R U). tauto.
      - pose proof (joined_part e p h d i s R U) as K. rewrite K. unfold works. split.
        + intros (_ & N) [Z|[Z|(ws & -> & Z)]]; [tauto|tauto|]. apply N. exists ws. split; [reflexivity|].
          destruct (sy_mapper s); [|reflexivity]. elim Z. auto.
        + intros N. split; [exact R|]. intros (ws & -> & Z). apply N. right. right. exists ws. split; [reflexivity|].
          intros (_ & Y). congruence.
      - pose proof (port_part e p h d i s port Fi R (Fs port) U) as K. unfold alive, ends_at in K. rewrite K. tauto. }
  rewrite world_only by exact R. destruct j as [dg fs| |ok|ok].
    + destruct (not_link s (SysWorld (KaDatagram dg fs))) as [N1 N2]; [discriminate|].
      destruct (ka_parts (sy_world s) dg fs Fi) as (K1 & K2 & K3). cbv zeta in *.
      assert (Bd : heard_badly s (SysWorld (KaDatagram dg fs)) <->
        attentive (sy_world s) /\ exists h0, status_of dg h0 /\ lookup_fails fs (h_ip h0)).
      { unfold heard_badly, works, attentive. split.
        - intros (d' & fs' & h0 & [= <- <-] & (_ & A) & (_ & B) & S & L). eauto 8.
        - intros ((_ & A & B) & h0 & S & L). exists dg, fs, h0. tauto. }
      destruct x; unfold works, takes in *; cbn [with_world sy_world sy_status sy_mapper sy_joined sy_udp]; rewrite K1; try rewrite K2.
      * tauto.
      * rewrite Bd. destruct K3 as [(K & -> & _)|(K & -> & _)]; [|tauto]. split; [intros (_ & Z); discriminate Z|tauto].
      * unfold broadcast_fails. split; [|tauto]. intros _ [Z|[Z|(Z & _)]]; [tauto|tauto|discriminate Z].
      * rewrite Bd. destruct K3 as [(K & _ & ->)|(K & _ & ->)]; [split; [intros (_ & Z); discriminate Z|tauto]|].
        split; [|tauto]. intros _ [Z|[Z|[Z|(Z & _)]]]; [tauto|tauto|tauto|discriminate Z].
      * split; [|tauto]. intros _ [Z|[Z|(? & ? & ? & Z & _)]]; [tauto|tauto|discriminate Z].
      * split; [|tauto]. intros _ [Z|[Z|(? & Z & _)]]; [tauto|tauto|discriminate Z].
      * split; [|tauto]. intros _ [Z|[Z|(? & Z & _)]]; [tauto|tauto|discriminate Z].
      * split; [|tauto]. intros _ [Z|[Z|(? & Z & _)]]; [tauto|tauto|discriminate Z].
    + destruct (not_link s (SysWorld KaRecvError)) as [N1 N2]; [discriminate|].
      assert (E : with_world s (fst (step (sy_world s) KaRecvError)) = s).
      { unfold step. rewrite R. destruct s; reflexivity. }
      rewrite E. split; [|auto]. intros _ [Z|[Z|Z]]; [tauto|tauto|]. unfold heard_badly, broadcast_fails in Z. destruct x.
      * exact Z.
      * destruct Z as (? & ? & ? & Z & _). discriminate Z.
      * destruct Z as (Z & _). discriminate Z.
      * destruct Z as [(? & ? & ? & Z & _)|(Z & _)]; discriminate Z.
      * destruct Z as (? & ? & ? & Z & _). discriminate Z.
      * destruct Z as (? & Z & _). discriminate Z.
      * destruct Z as (? & Z & _). discriminate Z.
      * destruct Z as (? & Z & _). discriminate Z.
    + destruct (not_link s (SysWorld (BroadcastTurn ok))) as [N1 N2]; [discriminate|].
      destruct (bc_parts (sy_world s) ok Hn) as (K1 & K2 & K3). cbv zeta in *.
      assert (Bd : broadcast_fails s (SysWorld (BroadcastTurn ok)) <->
        w_running (sy_world s) = true /\ w_broadcasting (sy_world s) = true /\ w_poisoned (sy_world s) = false /\
        st_address (w_state (sy_world s)) <> None /\ ok = false).
      { unfold broadcast_fails, works, network_known. split.
        - intros ([= ->] & (_ & A) & (_ & B) & C). auto.
        - intros (_ & A & B & C & ->). auto. }
      destruct x; unfold works, takes in *; cbn [with_world sy_world sy_status sy_mapper sy_joined sy_udp]; rewrite K1; try rewrite K2.
      * tauto.
      * unfold heard_badly. split; [|tauto]. intros _ [Z|[Z|(? & ? & ? & Z & _)]]; [tauto|tauto|discriminate Z].
      * rewrite Bd. destruct K3 as [(K & -> & _)|(K & -> & _)]; [|tauto]. split; [intros (_ & Z); discriminate Z|tauto].
      * rewrite Bd. destruct K3 as [(K & _ & ->)|(K & _ & ->)]; [split; [intros (_ & Z); discriminate Z|tauto]|].
        split; [|tauto]. intros _ [Z|[Z|[(? & ? & ? & Z & _)|Z]]]; [tauto|tauto|discriminate Z|tauto].
      * split; [|tauto]. intros _ [Z|[Z|(? & ? & ? & Z & _)]]; [tauto|tauto|discriminate Z].
      * split; [|tauto]. intros _ [Z|[Z|(? & Z & _)]]; [tauto|tauto|discriminate Z].
      * split; [|tauto]. intros _ [Z|[Z|(? & Z & _)]]; [tauto|tauto|discriminate Z].
      * split; [|tauto]. intros _ [Z|[Z|(? & Z & _)]]; [tauto|tauto|discriminate Z].
    + destruct (app_parts (sy_world s) ok R Hn) as (K1 & K2 & K3). cbv zeta in *.
      assert (Bd : link_hopeless s (SysWorld (AppTurn ok)) \/ link_fails s (SysWorld (AppTurn ok)) <->
        (exists q, w_queue (sy_world s) = InitiateLink :: q) /\
        (w_poisoned (sy_world s) = true \/ st_address (w_state (sy_world s)) = None \/ exists k, (k < 40)%nat /\ ok k = false)).
      { unfold link_hopeless, link_fails, works, network_known, links. split.
        - intros [(ok' & [= <-] & Q & [Z|Z])|(ok' & k & [= <-] & Q & _ & _ & L & Z)]; split; try exact Q; eauto.
          left. destruct (w_poisoned (sy_world s)); [reflexivity|]. elim Z. auto.
        - intros (Q & Z). destruct (w_poisoned (sy_world s)) eqn:P.
          { left. exists ok. repeat split; [exact Q|]. right. intros (_ & X). discriminate X. }
          destruct (st_address (w_state (sy_world s))) as [n|] eqn:A; [|left; exists ok; auto].
          destruct Z as [Z|[Z|(k & L & Z)]]; [discriminate Z|discriminate Z|]. right. exists ok, k. repeat split; auto. discriminate. }
      assert (Other : match x with
        | Process => False
        | Listening => heard_badly s (SysWorld (AppTurn ok))
        | Announcing => broadcast_fails s (SysWorld (AppTurn ok))
        | SharedState => heard_badly s (SysWorld (AppTurn ok)) \/ broadcast_fails s (SysWorld (AppTurn ok))
        | StatusService => exists ip port d, SysWorld (AppTurn ok) = SysStatus (StatusDatagram ip port d) /\ stops_status d
        | PortMapper => exists j, SysWorld (AppTurn ok) = SysMapper j /\ pm_stops j
        | DbListener => exists ws, SysWorld (AppTurn ok) = SysJoin ws /\ ~ works s PortMapper
        | Port q => exists j, SysWorld (AppTurn ok) = SysUdp q j /\
            match sy_udp s q with
            | NoService => False
            | NfsUdp v => exists hs y, v = fst (served e hs) /\ history_ok (hs ++ [(j, y)]) /\ kills e hs (j, y)
            | MountUdp _ => ms_stops (mkMsIn (ni_datagram j) (ni_from j) (w_poisoned (sy_world s)) (network_known s) (ni_send j))
            end
        end -> False).
      { unfold heard_badly, broadcast_fails. destruct x.
        - intros [].
        - intros (? & ? & ? & Z & _). discriminate Z.
        - intros (Z & _). discriminate Z.
        - intros [(? & ? & ? & Z & _)|(Z & _)]; discriminate Z.
        - intros (? & ? & ? & Z & _). discriminate Z.
        - intros (? & Z & _). discriminate Z.
        - intros (? & Z & _). discriminate Z.
        - intros (? & Z & _). discriminate Z. }
      unfold takes. destruct K3 as [(K & Kr)|(K & Kr & Kp)].
      * apply Bd in K. split; [|tauto]. intros (Z & _). cbn [with_world sy_world] in Z. congruence.
      * assert (N : ~ (link_hopeless s (SysWorld (AppTurn ok)) \/ link_fails s (SysWorld (AppTurn ok)))) by (rewrite Bd; exact K).
        split; [tauto|]. intros _. unfold works in *.
        destruct x; cbn [with_world sy_world sy_status sy_mapper sy_joined sy_udp]; rewrite Kr, ?K1, ?K2, ?Kp; tauto.
Qed.
Print Assumptions C106_taken_exactly.

(** ** What has ended *)

Lemma world_mono : forall w j,
  (w_running (fst (step w j)) = true -> w_running w = true) /\
  (w_listening (fst (step w j)) = true -> w_listening w = true) /\
  (w_broadcasting (fst (step w j)) = true -> w_broadcasting w = true) /\
  (w_poisoned (fst (step w j)) = false -> w_poisoned w = false).
Proof.
  intros w j. unfold step, keepalive_turn, broadcast_turn, app_turn, initiate_linking.
  repeat match goal with
  | |- context [match ?x with _ => _ end] => lazymatch x with context [match _ with _ => _ end] => fail | _ => destruct x eqn:? end
  | |- context [let '(_, _) := ?x in _] => destruct x eqn:?
  end; cbn in *; repeat split; auto; try discriminate; try congruence.
Qed.
Lemma step_mono : forall e p h d i s x, (forall q, x <> Port q) -> works (fst (sys_step e p h d i s)) x -> works s x.
Proof.
  intros e p h d i s x Nx. destruct (w_running (sy_world s)) eqn:R; [|unfold sys_step; rewrite R; auto].
  assert (Wi : (exists j, i = SysWorld j) \/ forall j, i <> SysWorld j) by (destruct i; [left; eauto|..]; right; discriminate).
  destruct Wi as [(j & ->)|Ni].
  - rewrite world_only by exact R. destruct (world_mono (sy_world s) j) as (M1 & M2 & M3 & M4).
    unfold works. cbn [with_world sy_world sy_status sy_mapper sy_joined]. destruct x as [| | | | | | |q0]; try tauto; elim (Nx q0 eq_refl).
  - unfold works. rewrite (other_world e p h d i s Ni), R.
    assert (M : (sy_status (fst (sys_step e p h d i s)) = true -> sy_status s = true) /\
                (sy_mapper (fst (sys_step e p h d i s)) = true -> sy_mapper s = true) /\
                (sy_joined (fst (sys_step e p h d i s)) = true -> sy_joined s = true)).
    { pose proof (step_shape e p h d i s R) as Sh.
      destruct i as [j|y|j|q j|ws|c chunk [q|]|c|y]; cbn beta iota in Sh; [| | |destruct Sh as [Sh _]| | | | | ]; try rewrite Sh.
      - elim (Ni j eq_refl).
      - destruct (sy_status s) eqn:E; [destruct (status_turn y)|]; cbn; rewrite ?E; auto.
      - destruct (sy_mapper s) eqn:E; cbn; rewrite ?E; auto.
      - cbn. auto.
      - destruct (sy_joined s) eqn:E1, (sy_mapper s) eqn:E2; cbn; rewrite ?E1, ?E2; auto.
      - destruct (sy_query s c); cbn; auto.
      - destruct (sy_query s c); cbn; auto.
      - cbn. auto.
      - destruct y; rewrite Sh; cbn; auto. }
    destruct M as (M1 & M2 & M3). destruct x as [| | | | | | |q0]; try tauto; elim (Nx q0 eq_refl).
Qed.

(** Whatever is down stays down, but for the services at the ports the port mapper
    has given out. *)
Theorem C106_for_good : forall e p h d is s x, (forall q, x <> Port q) -> ~ works s x ->
  ~ works (fst (sys_run e p h d is s)) x.
Proof.
  intros e p h d is. induction is as [|i is IH]; intros s x Nx N; [exact N|]. cbn [sys_run].
  destruct (sys_step e p h d i s) as [s' o] eqn:E. specialize (IH s' x Nx).
  destruct (sys_run e p h d is s') as [s'' os]. cbn [fst] in *. apply IH. intros W. apply N.
  apply (step_mono e p h d i s x Nx). rewrite E. exact W.
Qed.
Print Assumptions C106_for_good.

(** Such a service stays down too, until the port mapper starts one there again. *)
Theorem C106_port_for_good : forall e p h d is s q, ~ works s (Port q) ->
  (forall os v, In os (snd (sys_run e p h d is s)) -> ~ starts os v q) ->
  ~ works (fst (sys_run e p h d is s)) (Port q).
Proof.
  intros e p h d is. induction is as [|i is IH]; intros s q N St; [exact N|]. cbn [sys_run] in *.
  destruct (sys_step e p h d i s) as [s' o] eqn:E. specialize (IH s' q).
  destruct (sys_run e p h d is s') as [s'' os]. cbn [fst snd] in *.
  apply IH; [|intros os' v I; apply St; right; exact I].
  destruct (w_running (sy_world s)) eqn:R.
  2:{ unfold sys_step in E. rewrite R in E. injection E as <- <-. exact N. }
  intros W. apply N.
  assert (Ns : forall v, ~ starts (snd (sys_step e p h d i s)) v q) by (intros v; rewrite E; apply St; left; reflexivity).
  destruct (udp_step e p h d i s q R Ns) as [U _]. rewrite E in U. cbn [fst] in U.
  unfold works in *. split; [exact R|]. destruct W as [_ W]. rewrite U in W.
  destruct i as [j|y|j|q' j|ws|c chunk o'|c|y]; try exact W. destruct (q' =? q); [|exact W].
  unfold udp_turn in W. destruct (sy_udp s q) as [|v|[|]]; cbn [fst] in W; auto.
  unfold nfs_turn in W. destruct (sv_nfs v) eqn:Ev; [discriminate|]. cbn in W. rewrite Ev in W. exact W.
Qed.
Print Assumptions C106_port_for_good.

(** While the process runs and the port mapper works, a service is started at a
    port whenever the port mapper is called for one and can bind that port; the
    service is a fresh one and works, whatever was at that port before. *)
Theorem C106_anew : forall e p h d j s m c g port, works s PortMapper ->
  bytes_ok (pi_datagram j) -> call_says (pi_datagram j) m -> rpc_body m = Call c -> ca_procedure c = PortmapGetport g ->
  pi_port j = Some port ->
  let s' := fst (sys_step e p h d (SysMapper j) s) in
  sy_udp s' port = fresh (match gp_program g with Nfs => NfsService | _ => ProgramService end) /\ works s' (Port port).
Proof.
  intros e p h d j s m c g port (R & M) B C Bc Pc Po s'.
  assert (St : In (PmStart (match gp_program g with Nfs => NfsService | _ => ProgramService end) port) (snd (pm_turn j))).
  { destruct (codec_cases _ B) as [(m' & c' & E & C' & Bc')|[(_ & _ & N)|(_ & N & _)]]; [|elim (N m C)|elim (N m C)].
    assert (m' = m) by (exact (call_functional _ _ _ C' C)). subst m'. unfold pm_turn. rewrite E, Po, Bc, Pc.
    destruct (send_to _ _), (gp_program g); cbn; auto. }
  pose proof (step_shape e p h d (SysMapper j) s R) as Sh. cbn beta iota in Sh. rewrite M in Sh.
  assert (U : sy_udp s' port = fresh (match gp_program g with Nfs => NfsService | _ => ProgramService end)).
  { unfold s'. rewrite Sh. cbn [fst with_mapper sy_udp]. apply start_services_started. exact St. }
  split; [exact U|]. unfold works. rewrite U. split.
  - unfold s'. rewrite (other_world e p h d (SysMapper j) s) by discriminate. exact R.
  - destruct (gp_program g); cbn; auto; discriminate.
Qed.
Print Assumptions C106_anew.

(** A message of type 1 ends the file service at 4001 and nothing else; the port
    mapper is asked again and gives the same port, and there is a service. *)
Definition harm_last : sys_input := SysUdp 4001 (mkNfsIn [0; 0; 0; 0; 0; 0; 0; 1] 1 (os_on two_disk) true true).
Example C106_case :
  let after is := fst (sys_run Little Checked reverse_order example_db is (system_start true true true true)) in
  Forall input_ok (up_history ++ [harm_last]) /\ works (after up_history) (Port 4001) /\
  takes Little (after up_history) harm_last (Port 4001) /\ ~ works (after (up_history ++ [harm_last])) (Port 4001) /\
  (forall x, x <> Port 4001 -> ~ takes Little (after up_history) harm_last x) /\
  works (after (up_history ++ [harm_last])) PortMapper /\
  works (after (up_history ++ [harm_last; SysMapper strange_getport])) (Port 4001).
Proof.
  intros after. assert (F : Forall input_ok (up_history ++ [harm_last])).
  { repeat (apply Forall_cons; [apply demo_bytes; vm_compute; reflexivity|]). constructor. }
  pose proof (proj1 (proj1 (Forall_app _ _ _) F)) as Fu. split; [exact F|].
  split; [split; [vm_compute; reflexivity|vm_compute; discriminate]|].
  assert (N : ~ works (after (up_history ++ [harm_last])) (Port 4001)).
  { intros (_ & Z). vm_compute in Z. apply Z. reflexivity. }
  split.
  { right. right. eexists. split; [reflexivity|].
    destruct (sy_udp (after up_history) 4001) as [|v|b] eqn:E; [vm_compute in E; discriminate E| |vm_compute in E; discriminate E].
    destruct (files_served Little Checked reverse_order example_db up_history Fu 4001 v E) as (hs & H & ->).
    exists hs, Fatal. split; [reflexivity|]. split; [|exact Logic.I]. apply history_snoc. split; [exact H|].
    split; [apply demo_bytes; vm_compute; reflexivity|]. split; [unfold reaches; cbn; lia|vm_compute; reflexivity]. }
  split; [exact N|]. split.
  { intros x Nx. unfold takes, link_hopeless, link_fails, heard_badly, broadcast_fails, harm_last.
    intros [(? & Z & _)|[(? & ? & Z & _)|Z]]; [discriminate Z|discriminate Z|]. destruct x.
    - exact Z.
    - destruct Z as (? & ? & ? & Z & _). discriminate Z.
    - destruct Z as (Z & _). discriminate Z.
    - destruct Z as [(? & ? & ? & Z & _)|(Z & _)]; discriminate Z.
    - destruct Z as (? & ? & ? & Z & _). discriminate Z.
    - destruct Z as (? & Z & _). discriminate Z.
    - destruct Z as (? & Z & _). discriminate Z.
    - destruct Z as (? & Z & _). injection Z as Z _. apply Nx. rewrite Z. reflexivity. }
  split; [vm_compute; auto|]. split; [vm_compute; reflexivity|vm_compute; discriminate].
Qed.
