(** C107: what the whole process remembers is what its parts remember. *)

From Verif Require Import Base Unicode MPackets MKeepalive MNetwork MServer MStatus MDb MDatabase MLib MRpc MRpcServer MNfs MSystem
  SUdp SNetwork SServer SNfs SLib SRpc SRpcServer SRemember2 SRemember3 LBase LUnicode LDatabase PDatabase LLib LLib2 PLib LServer LServer2 PServer LRemember PRemember LRpcServer PRpcServer LNfs LNfs2 PNfs LRemember2 PRemember2 PSize PStranger.
From Coq Require Import ZArith String Lia.
Open Scope list_scope.
Open Scope N_scope.

Lemma known_same : forall s1 s2 : server_state,
  (forall ip, In ip (map pl_address (st_players s1)) <-> In ip (map pl_address (st_players s2))) ->
  forall ip, known ip (st_players s1) = known ip (st_players s2).
Proof. intros s1 s2 H ip. apply Bool.eq_iff_eq_true. rewrite !known_in. apply H. Qed.

Lemma players_change : forall ps p, (len ps =? len (add_or_update ps p)) = known (pl_address p) ps.
Proof.
  intros ps p. pose proof (f_equal (@List.length _) (add_or_update_address ps p)) as E.
  rewrite map_length in E. unfold len. rewrite E. destruct (known (pl_address p) ps).
  - rewrite map_length. apply N.eqb_refl.
  - rewrite app_length, map_length. cbn [List.length]. apply N.eqb_neq. lia.
Qed.

Ltac done_same := repeat (split; [first [assumption | congruence | reflexivity]|]); first [assumption | congruence].

Lemma world_same_step : forall w1 w2 i, same_world w1 w2 ->
  snd (step w1 i) = snd (step w2 i) /\ same_world (fst (step w1 i)) (fst (step w2 i)).
Proof.
  intros w1 w2 i H. pose proof H as H0. destruct H as (R & Li & B & P & Q & Lk & A & K).
  unfold step. rewrite <- R, <- Li, <- B. destruct (w_running w1) eqn:R1; [|split; [reflexivity|exact H0]].
  destruct i as [d fs| |ok|ok].
  - destruct (w_listening w1) eqn:Li1; [|split; [reflexivity|exact H0]]. unfold keepalive_turn.
    destruct (ka_receive d) as [packet| |]; [|split; [reflexivity|exact H0]|].
    2: { split; [reflexivity|]. unfold same_world. cbn [fst w_running w_listening w_broadcasting w_poisoned w_queue w_state]. done_same. }
    destruct (event_status packet) as [[num ip]|]; [|split; [reflexivity|exact H0]]. rewrite <- P.
    destruct (w_poisoned w1) eqn:P1; [split; [reflexivity|exact H0]|]. unfold handle_keepalive_status.
    destruct (find_interface fs ip) as [n| |]; cbn [rbind];
      try (split; [reflexivity|]; unfold same_world; cbn [fst w_running w_listening w_broadcasting w_poisoned w_queue w_state]; done_same).
    set (pl := player_new (ka_model packet) num ip).
    assert (E : forall st : server_state, is_linking_possible (set_players (set_address st n) (add_or_update (st_players (set_address st n)) pl)) = Bool.eqb (st_linking st) false).
    { intros st. unfold is_linking_possible. cbn [set_players set_address st_players st_linking]. 
      pose proof (add_or_update_nonempty (st_players st) pl) as Z. unfold N.ltb in *. rewrite Z. reflexivity. }
    rewrite !E. cbn [set_players set_address st_players st_linking]. rewrite !players_change, <- Lk, (known_same _ _ K).
    cbn [fst snd]. split; [reflexivity|]. unfold same_world.
    cbn [w_running w_listening w_broadcasting w_poisoned w_queue w_state st_linking st_address st_players].
    rewrite Q. do 7 (split; [first [reflexivity | assumption | congruence]|]).
    intros a. cbn [set_players set_address st_players]. rewrite !add_or_update_address, (known_same _ _ K). destruct (known _ _); [apply K|]. rewrite !in_app_iff, K. reflexivity.
  - split; [reflexivity|exact H0].
  - destruct (w_broadcasting w1) eqn:B1; [|split; [reflexivity|exact H0]]. unfold broadcast_turn. rewrite <- P, <- A.
    destruct (w_poisoned w1) eqn:P1; [split; [reflexivity|exact H0]|].
    destruct (st_address (w_state w1)) as [n|] eqn:A1; [|split; [reflexivity|exact H0]].
    destruct (send_broadcast_payload n ok _); [split; [reflexivity|exact H0]|..];
      (split; [reflexivity|]; unfold same_world; cbn [fst w_running w_listening w_broadcasting w_poisoned w_queue w_state]; rewrite A1; done_same).
  - unfold app_turn. rewrite <- Q. destruct (w_queue w1) as [|[|] q] eqn:Q1; [split; [reflexivity|exact H0]|..].
    all: try (split; [reflexivity|]; unfold same_world; cbn [fst w_running w_listening w_broadcasting w_poisoned w_queue w_state]; done_same; fail).
    unfold initiate_linking. cbn [w_poisoned w_state w_queue w_listening w_broadcasting set_linking st_address]. rewrite <- P, <- A.
    destruct (w_poisoned w1) eqn:P1.
    { split; [reflexivity|]; unfold same_world; cbn [fst w_running w_listening w_broadcasting w_poisoned w_queue w_state]; done_same. }
    destruct (st_address (w_state w1)) as [n|] eqn:A1.
    2: { split; [reflexivity|]; unfold same_world; cbn [fst w_running w_listening w_broadcasting w_poisoned w_queue w_state st_linking st_address st_players set_linking]; rewrite ?A1; done_same. }
    destruct (broadcast_messages n ok 0 (negotiation n)) as [os k].
    split; [reflexivity|]; unfold same_world; cbn [fst w_running w_listening w_broadcasting w_poisoned w_queue w_state st_linking st_address st_players set_linking]; rewrite ?A1; done_same.
Qed.

(** ** The services *)

Lemma service_alike_step : forall e v1 v2 i, service_alike e v1 v2 -> bytes_ok (ni_datagram i) ->
  snd (nfs_turn e i v1) = snd (nfs_turn e i v2) /\ service_alike e (fst (nfs_turn e i v1)) (fst (nfs_turn e i v2)).
Proof.
  intros e v1 v2 i A B.
  assert (C : forall v is, snd (nfs_run e (i :: is) v) = snd (nfs_turn e i v) :: snd (nfs_run e is (fst (nfs_turn e i v)))).
  { intros v is. cbn [nfs_run]. destruct (nfs_turn e i v) as [v' o]. cbn [fst snd]. destruct (nfs_run e is v'). reflexivity. }
  split.
  - specialize (A [i] ltac:(constructor; [exact B|constructor])). rewrite !C in A. injection A as A. exact A.
  - intros is F. specialize (A (i :: is) ltac:(constructor; [exact B|exact F])). rewrite !C in A. apply (f_equal (@tl _)) in A. exact A.
Qed.

Lemma udp_same_step : forall e w1 w2 port i v1 v2, same_world w1 w2 -> same_udp e v1 v2 -> bytes_ok (ni_datagram i) ->
  snd (udp_turn e w1 port i v1) = snd (udp_turn e w2 port i v2) /\
  same_udp e (fst (udp_turn e w1 port i v1)) (fst (udp_turn e w2 port i v2)).
Proof.
  intros e w1 w2 port i v1 v2 (_ & _ & _ & P & _ & _ & A & _) S B. unfold udp_turn.
  destruct v1 as [|v1|r1], v2 as [|v2|r2]; cbn [same_udp] in S; try contradiction.
  - split; [reflexivity|exact S].
  - destruct (service_alike_step e v1 v2 i S B) as [E F].
    destruct (nfs_turn e i v1) as [u1 o1], (nfs_turn e i v2) as [u2 o2]. cbn [fst snd] in *. rewrite E. split; [reflexivity|exact F].
  - subst r2. destruct r1; [|split; reflexivity]. rewrite P, A. destruct (ms_turn _). split; reflexivity.
Qed.

Lemma connection_step : forall p h d c1 c2 c, connection_alike p h d c1 c2 -> bytes_ok c ->
  match process p h d c1 c, process p h d c2 c with
  | Ok (a1, c1'), Ok (a2, c2') => a1 = a2 /\ connection_alike p h d c1' c2'
  | Ok _, _ | _, Ok _ => False
  | _, _ => True
  end.
Proof.
  intros p h d c1 c2 c A B. pose proof (A [c] (Forall_cons _ B (Forall_nil _))) as A0. cbn [serve] in A0.
  destruct (process p h d c1 c) as [[a1 c1']| |] eqn:E1, (process p h d c2 c) as [[a2 c2']| |] eqn:E2; try discriminate; try exact I.
  injection A0 as ->. split; [reflexivity|]. intros more F. specialize (A (c :: more) (Forall_cons _ B F)).
  cbn [serve] in A. rewrite E1, E2 in A. injection A as A. exact A.
Qed.

Lemma db_same_step : forall p h d b1 b2 x, (forall port, same_handler p h d (b1 port) (b2 port)) ->
  match x with Chunk _ c => bytes_ok c | _ => True end ->
  snd (db_step p h d b1 x) = snd (db_step p h d b2 x) /\
  forall port, same_handler p h d (fst (db_step p h d b1 x) port) (fst (db_step p h d b2 x) port).
Proof.
  intros p h d b1 b2 x H B.
  assert (Set_ : forall q v1 v2, same_handler p h d v1 v2 -> forall port, same_handler p h d (set_port b1 q v1 port) (set_port b2 q v2 port)).
  { intros q v1 v2 S port. unfold set_port. destruct (port =? q); [exact S|apply H]. }
  destruct x as [port c|port|port c|port]; cbn [db_step].
  - split; [reflexivity|]. apply Set_. exact I.
  - pose proof (H port) as Hp. destruct (b1 port), (b2 port); try contradiction; cbn [fst snd]; (split; [reflexivity|]); try exact H.
    apply Set_. intros more _. reflexivity.
  - pose proof (H port) as Hp. destruct (b1 port) as [| |c1|], (b2 port) as [| |c2|]; try contradiction; cbn [fst snd]; try (split; [reflexivity|exact H]).
    pose proof (connection_step p h d c1 c2 c Hp B) as S.
    destruct (process p h d c1 c) as [[a1 c1']| |], (process p h d c2 c) as [[a2 c2']| |]; try contradiction; cbn [fst snd].
    1: destruct S as [-> S]; split; [reflexivity|apply Set_; exact S].
    all: split; [reflexivity|apply Set_; exact I].
  - pose proof (H port) as Hp. destruct (b1 port), (b2 port); try contradiction; cbn [fst snd]; (split; [reflexivity|]); try exact H.
    apply Set_. exact I.
Qed.

Lemma fresh_same : forall e v, same_udp e (NfsUdp v) (NfsUdp v).
Proof. intros e v is _. reflexivity. Qed.

Lemma start_same : forall e outs u1 u2, (forall port, same_udp e (u1 port) (u2 port)) ->
  forall port, same_udp e (start_services u1 outs port) (start_services u2 outs port).
Proof.
  intros e. unfold start_services. induction outs as [|o outs IH]; intros u1 u2 H; [exact H|]. cbn [fold_left]. apply IH.
  destruct o as [[|] q|]; [| |exact H]; intros port; unfold at_key; destruct (port =? q);
    first [apply H | apply fresh_same | reflexivity].
Qed.

Lemma process_same_step : forall e p h d i s1 s2, of_bytes i -> same_process e p h d s1 s2 ->
  snd (sys_step e p h d i s1) = snd (sys_step e p h d i s2) /\
  same_process e p h d (fst (sys_step e p h d i s1)) (fst (sys_step e p h d i s2)).
Proof.
  intros e p h d i s1 s2 B H. pose proof H as H0. destruct H as (W & St & M & J & Q & D & U).
  unfold sys_step. rewrite <- (proj1 W). destruct (w_running (sy_world s1)); [|split; [reflexivity|exact H0]].
  assert (Parts : forall w1 w2 a b c q1 q2 b1 b2 u1 u2, same_world w1 w2 -> (forall x : N, q1 x = q2 x) ->
    (forall port, same_handler p h d (b1 port) (b2 port)) -> (forall port, same_udp e (u1 port) (u2 port)) ->
    same_process e p h d (mkSystem w1 a b c q1 b1 u1) (mkSystem w2 a b c q2 b2 u2)).
  { intros. unfold same_process. cbn. auto 10. }
  destruct i as [i|x|i|port i|waiting|c chunk port|c|x].
  - destruct (world_same_step _ _ i W) as [E F]. destruct (step (sy_world s1) i) as [w1 o1], (step (sy_world s2) i) as [w2 o2].
    cbn [fst snd] in *. subst o2. split; [reflexivity|]. unfold with_world. rewrite <- St, <- M, <- J. apply Parts; assumption.
  - rewrite <- St. destruct (sy_status s1); [|split; [reflexivity|exact H0]].
    destruct (status_turn x); cbn [fst snd]; (split; [reflexivity|]); try exact H0;
      unfold with_status; rewrite <- M, <- J; apply Parts; assumption.
  - rewrite <- M. destruct (sy_mapper s1); [|split; [reflexivity|exact H0]]. destruct (pm_turn i) as [r outs]. cbn [fst snd].
    split; [reflexivity|]. unfold with_mapper. rewrite <- St, <- J. apply Parts; try assumption. apply start_same. exact U.
  - destruct (udp_same_step e _ _ port i _ _ W (U port) B) as [E F].
    destruct (udp_turn e (sy_world s1) port i (sy_udp s1 port)) as [v1 o1], (udp_turn e (sy_world s2) port i (sy_udp s2 port)) as [v2 o2].
    cbn [fst snd] in *. split; [exact E|]. unfold with_udp. rewrite <- St, <- M, <- J. apply Parts; try assumption.
    intros k. unfold at_key. destruct (k =? port); [exact F|apply U].
  - rewrite <- J. destruct (sy_joined s1) eqn:J1; [|split; [reflexivity|exact H0]]. rewrite <- M.
    destruct (sy_mapper s1) eqn:M1; cbn [fst snd]; (split; [reflexivity|]); unfold with_joined; rewrite <- St, <- M, ?M1; apply Parts; try assumption.
    clear - Q. revert Q. generalize (sy_query s1) as q1, (sy_query s2) as q2. induction (accepted waiting) as [|c cs IH]; intros q1 q2 Q; [exact Q|].
    cbn [fold_left]. apply IH. intros x. unfold at_key. destruct (x =? c); [reflexivity|apply Q].
  - rewrite <- Q. destruct (sy_query s1 c); [|split; [reflexivity|exact H0]]. destruct port as [port|].
    + destruct (db_same_step p h d _ _ (Query port chunk) D I) as [E F].
      destruct (db_step p h d (sy_db s1) (Query port chunk)) as [b1 o1], (db_step p h d (sy_db s2) (Query port chunk)) as [b2 o2].
      cbn [fst snd] in *. subst o2. split; [reflexivity|]. unfold with_db. rewrite <- St, <- M, <- J. apply Parts; assumption.
    + cbn [fst snd]. split; [reflexivity|]. unfold with_query. rewrite <- St, <- M, <- J. apply Parts; try assumption.
      intros x. unfold at_key. destruct (x =? c); [reflexivity|apply Q].
  - cbn [fst snd]. split; [reflexivity|]. unfold with_query. rewrite <- St, <- M, <- J. apply Parts; try assumption.
    intros x. unfold at_key. destruct (x =? c); [reflexivity|apply Q].
  - assert (Bx : match x with Chunk _ c => bytes_ok c | _ => True end) by (destruct x; exact B || exact I).
    destruct (db_same_step p h d _ _ x D Bx) as [E F].
    assert (G : snd (let (db, outs) := db_step p h d (sy_db s1) x in (with_db s1 db, map OutDb outs)) =
      snd (let (db, outs) := db_step p h d (sy_db s2) x in (with_db s2 db, map OutDb outs)) /\
      same_process e p h d (fst (let (db, outs) := db_step p h d (sy_db s1) x in (with_db s1 db, map OutDb outs)))
        (fst (let (db, outs) := db_step p h d (sy_db s2) x in (with_db s2 db, map OutDb outs)))).
    { destruct (db_step p h d (sy_db s1) x) as [b1 o1], (db_step p h d (sy_db s2) x) as [b2 o2].
      cbn [fst snd] in *. subst o2. split; [reflexivity|]. unfold with_db. rewrite <- St, <- M, <- J. apply Parts; assumption. }
    destruct x; [split; [reflexivity|exact H0]|exact G|exact G|exact G].
Qed.

Lemma sys_run_cons : forall e p h d i is s, sys_run e p h d (i :: is) s =
  (fst (sys_run e p h d is (fst (sys_step e p h d i s))),
   snd (sys_step e p h d i s) :: snd (sys_run e p h d is (fst (sys_step e p h d i s)))).
Proof.
  intros. cbn [sys_run]. destruct (sys_step e p h d i s) as [s' o]. cbn [fst snd]. destruct (sys_run e p h d is s'). reflexivity.
Qed.

(** The whole process remembers no more than its parts: two processes whose parts
    have the same memory do alike for good, whatever happens and in whatever order;
    the names, numbers and order of the devices, and all that the services and
    connections have forgotten by themselves, are forgotten by the process. *)
Theorem C107_process : forall e p h d s1 s2, same_process e p h d s1 s2 -> process_alike e p h d s1 s2.
Proof.
  intros e p h d s1 s2 H is. revert s1 s2 H. induction is as [|i is IH]; intros s1 s2 H F; [reflexivity|].
  inversion F as [|? ? Bi Bs]; subst. rewrite !sys_run_cons. cbn [snd].
  destruct (process_same_step e p h d i s1 s2 Bi H) as [E G]. rewrite E. f_equal. apply IH; assumption.
Qed.
Print Assumptions C107_process.

(** And it forgets none of what its parts remember: if two running processes do alike
    for good, so do their discovery parts, the file services at each port, and the
    database connections at each port; and each still has the services that answer. *)
Theorem C107_parts : forall e p h d s1 s2, process_alike e p h d s1 s2 ->
  w_running (sy_world s1) = true -> w_running (sy_world s2) = true ->
  (forall is, snd (run_from (sy_world s1) is) = snd (run_from (sy_world s2) is)) /\
  (forall port v1 v2, sy_udp s1 port = NfsUdp v1 -> sy_udp s2 port = NfsUdp v2 -> service_alike e v1 v2) /\
  (forall port c1 c2, sy_db s1 port = Serving c1 -> sy_db s2 port = Serving c2 -> connection_alike p h d c1 c2) /\
  sy_mapper s1 = sy_mapper s2 /\ sy_status s1 = sy_status s2 /\
  (sy_mapper s1 = true -> sy_joined s1 = sy_joined s2) /\
  (forall c, sy_query s1 c = sy_query s2 c).
Proof.
  intros e p h d s1 s2 A R1 R2. split; [|split; [|split]].
  - intros is.
    assert (X : forall is s, snd (sys_run e p h d (map SysWorld is) s) = map (map OutWorld) (snd (run_from (sy_world s) is))).
    { clear. induction is as [|i is IH]; intros s; [reflexivity|]. cbn [map]. rewrite sys_run_cons. cbn [snd]. rewrite IH.
      cbn [run_from]. unfold sys_step. destruct (w_running (sy_world s)) eqn:R.
      - destruct (step (sy_world s) i) as [w o]. cbn [fst snd with_world sy_world]. destruct (run_from w is). reflexivity.
      - assert (E : step (sy_world s) i = (sy_world s, [])) by (unfold step; rewrite R; reflexivity). rewrite E. cbn [fst snd].
        destruct (run_from (sy_world s) is). reflexivity. }
    specialize (A (map SysWorld is)). rewrite !X in A.
    assert (F : Forall of_bytes (map SysWorld is)) by (apply Forall_forall; intros i Hi; apply in_map_iff in Hi; destruct Hi as (j & <- & _); exact I).
    specialize (A F). clear - A. revert A. generalize (snd (run_from (sy_world s1) is)) as a, (snd (run_from (sy_world s2) is)) as b.
    induction a as [|x a IH]; intros [|y b] H; try discriminate; [reflexivity|]. injection H as H1 H2. f_equal; [|apply IH; exact H2].
    clear - H1. revert y H1. induction x as [|u x IH]; intros [|v y] H; try discriminate; [reflexivity|]. injection H as -> H. f_equal. apply IH. exact H.
  - intros port v1 v2 E1 E2 is F.
    assert (X : forall is s v, w_running (sy_world s) = true -> sy_udp s port = NfsUdp v ->
      snd (sys_run e p h d (map (SysUdp port) is) s) = map (map (fun o => OutUdp port (fst o) (snd o))) (snd (nfs_run e is v))).
    { clear. induction is as [|i is IH]; intros s v R E; [reflexivity|]. cbn [map]. rewrite sys_run_cons. cbn [snd nfs_run].
      unfold sys_step. rewrite R. cbn [udp_turn]. rewrite E. cbn [udp_turn]. destruct (nfs_turn e i v) as [v' o] eqn:T. cbn [fst snd].
      rewrite (IH _ v'); [|exact R|unfold with_udp, at_key; cbn; rewrite N.eqb_refl; reflexivity].
      destruct (nfs_run e is v'). reflexivity. }
    assert (Fm : Forall of_bytes (map (SysUdp port) is)).
    { apply Forall_forall. intros i Hi. apply in_map_iff in Hi. destruct Hi as (j & <- & Hj). exact (proj1 (Forall_forall _ _) F j Hj). }
    specialize (A _ Fm). rewrite (X is s1 v1 R1 E1), (X is s2 v2 R2 E2) in A.
    clear - A. revert A. generalize (snd (nfs_run e is v1)) as a, (snd (nfs_run e is v2)) as b.
    induction a as [|x a IH]; intros [|y b] H; try discriminate; [reflexivity|]. injection H as H1 H2. f_equal; [|apply IH; exact H2].
    clear - H1. revert y H1. induction x as [|[u1 u2] x IH]; intros [|[v1 v2] y] H; try discriminate; [reflexivity|].
    cbn [map fst snd] in H. injection H as -> -> H. f_equal. apply IH. exact H.
  - intros port c1 c2 E1 E2 more F.
    assert (X : forall more s c, w_running (sy_world s) = true -> sy_db s port = Serving c ->
      List.concat (snd (sys_run e p h d (map (fun x => SysDb (Chunk port x)) more) s)) = map (fun a => OutDb (Answer port a)) (serve p h d c more)).
    { clear. assert (G : forall more s, sy_db s port = Gone -> List.concat (snd (sys_run e p h d (map (fun x => SysDb (Chunk port x)) more) s)) = []).
      { induction more as [|x more IH]; intros s E; [reflexivity|]. cbn [map]. rewrite sys_run_cons. cbn [snd List.concat].
        unfold sys_step. destruct (w_running (sy_world s)); cbn [db_step]; rewrite ?E; cbn [fst snd map app]; apply IH; exact E. }
      induction more as [|x more IH]; intros s c R E; [reflexivity|]. cbn [map]. rewrite sys_run_cons. cbn [snd List.concat serve].
      unfold sys_step. rewrite R. cbn [db_step]. rewrite E.
      assert (Z : forall q, sy_db (with_db s (set_port (sy_db s) port q)) port = q) by (intros q; unfold with_db, set_port; cbn; rewrite N.eqb_refl; reflexivity).
      destruct (process p h d c x) as [[a c']| |]; cbn [fst snd map app].
      - rewrite (IH _ c'); [reflexivity|exact R|apply Z].
      - apply G. apply Z.
      - apply G. apply Z. }
    assert (Fm : Forall of_bytes (map (fun x => SysDb (Chunk port x)) more)).
    { apply Forall_forall. intros i Hi. apply in_map_iff in Hi. destruct Hi as (j & <- & Hj). exact (proj1 (Forall_forall _ _) F j Hj). }
    specialize (A _ Fm). apply (f_equal (@List.concat _)) in A. rewrite (X more s1 c1 R1 E1), (X more s2 c2 R2 E2) in A.
    clear - A. revert A. generalize (serve p h d c1 more) as a, (serve p h d c2 more) as b.
    induction a as [|x a IH]; intros [|y b] H; try discriminate; [reflexivity|]. injection H as -> H. f_equal. apply IH. exact H.
  - assert (One : forall i, of_bytes i -> snd (sys_step e p h d i s1) = snd (sys_step e p h d i s2)).
    { intros i B. specialize (A [i] ltac:(constructor; [exact B|constructor])). rewrite !sys_run_cons in A. injection A as A. exact A. }
    assert (M : sy_mapper s1 = sy_mapper s2).
    { specialize (One (SysMapper (mkPmIn getport_nfs 1 (Some 4001) true)) I). unfold sys_step in One. rewrite R1, R2 in One.
      destruct (sy_mapper s1), (sy_mapper s2); try reflexivity; vm_compute in One; discriminate. }
    split; [exact M|]. split.
    { specialize (One (SysStatus (StatusDatagram 9 50002 short_greeting)) I). unfold sys_step in One. rewrite R1, R2 in One.
      destruct (sy_status s1), (sy_status s2); try reflexivity; vm_compute in One; discriminate. }
    split.
    { intros M1. rewrite M1 in M. specialize (One (SysJoin [Some 1]) I). unfold sys_step in One. rewrite R1, R2, M1, <- M in One.
      destruct (sy_joined s1), (sy_joined s2); try reflexivity; discriminate. }
    intros c. specialize (One (SysQuery c [1] (Some 4001)) I). unfold sys_step in One. rewrite R1, R2 in One.
    destruct (sy_query s1 c), (sy_query s2 c); try reflexivity; discriminate.
Qed.
Print Assumptions C107_parts.

(** ** An example *)

Lemma process_same_run : forall e p h d is s1 s2, Forall of_bytes is -> same_process e p h d s1 s2 ->
  same_process e p h d (fst (sys_run e p h d is s1)) (fst (sys_run e p h d is s2)).
Proof.
  intros e p h d. induction is as [|i is IH]; intros s1 s2 F H; [exact H|]. inversion F; subst. rewrite !sys_run_cons. cbn [fst].
  apply IH; [assumption|]. apply process_same_step; assumption.
Qed.

Lemma sys_run_app : forall e p h d a b s, fst (sys_run e p h d (a ++ b) s) = fst (sys_run e p h d b (fst (sys_run e p h d a s))).
Proof.
  intros e p h d. induction a as [|i a IH]; intros b s; [reflexivity|]. cbn [app]. rewrite !sys_run_cons. cbn [fst]. apply IH.
Qed.

(** Two processes with different pasts: one has heard a device under another name and
    number, has looked up a folder with a slash at its end, and has been asked on a
    connection for the albums of another artist. *)
Definition heard_as (name : string) (number : N) : list sys_input :=
  [SysWorld (KaDatagram (status_datagram name number 192 168 10 52) one_iface); SysWorld (AppTurn always); SysWorld (AppTurn always)].
Definition shared_past : list sys_input :=
  [SysMapper strange_getport; SysJoin [Some 1]; SysQuery 1 [1] (Some 4002); SysDb (Connect 4002)].
Definition own_past (folder : string) (tx artist : N) : list sys_input :=
  [SysUdp 4001 (fst (demo_lookup (only_path (fun _ => true)) 1 (lit folder) (repeat 0 32)));
   SysDb (Chunk 4002 (client_request tx 0x1102 [0; 0; artist]))].
Definition process1 : list sys_input := heard_as "XDJ-700" 3 ++ shared_past ++ own_past "a" 1 5.
Definition process2 : list sys_input := heard_as "CDJ-2000" 2 ++ shared_past ++ own_past "a/" 2 6.
Definition after (is : list sys_input) : system :=
  fst (sys_run Little Checked reverse_order example_db is (system_start true true true true)).

Lemma same_heard : same_process Little Checked reverse_order example_db (after (heard_as "XDJ-700" 3)) (after (heard_as "CDJ-2000" 2)).
Proof.
  split.
  { do 7 (split; [vm_compute; reflexivity|]). intros ip.
    assert (X : map pl_address (st_players (w_state (sy_world (after (heard_as "XDJ-700" 3))))) =
      map pl_address (st_players (w_state (sy_world (after (heard_as "CDJ-2000" 2)))))) by (vm_compute; reflexivity).
    rewrite X. reflexivity. }
  do 3 (split; [vm_compute; reflexivity|]).
  split; [intros c; vm_compute; reflexivity|]. split; intros port.
  - assert (E : forall is, (exists a b, is = heard_as a b) -> sy_db (after is) port = NoHandler).
    { intros is (a & b & ->). unfold after, heard_as. rewrite !sys_run_cons. cbn [fst sys_run]. unfold sys_step.
      repeat match goal with |- context [if ?c then _ else _] => destruct c | |- context [step ?w ?i] => destruct (step w i) end; reflexivity. }
    rewrite !E by (eexists; eexists; reflexivity). exact I.
  - assert (E : forall is, (exists a b, is = heard_as a b) -> sy_udp (after is) port = NoService).
    { intros is (a & b & ->). unfold after, heard_as. rewrite !sys_run_cons. cbn [fst sys_run]. unfold sys_step.
      repeat match goal with |- context [if ?c then _ else _] => destruct c | |- context [step ?w ?i] => destruct (step w i) end; reflexivity. }
    rewrite !E by (eexists; eexists; reflexivity). exact I.
Qed.

Lemma same_shared : same_process Little Checked reverse_order example_db
  (after (heard_as "XDJ-700" 3 ++ shared_past)) (after (heard_as "CDJ-2000" 2 ++ shared_past)).
Proof.
  unfold after. rewrite !sys_run_app. apply process_same_run; [|exact same_heard].
  repeat (apply Forall_cons; [exact I|]). apply Forall_nil.
Qed.

Lemma own_same : forall s1 s2, same_process Little Checked reverse_order example_db s1 s2 ->
  w_running (sy_world s1) = true -> w_running (sy_world s2) = true ->
  sy_udp s1 4001 = NfsUdp service_new -> sy_udp s2 4001 = NfsUdp service_new ->
  sy_db s1 4002 = Serving None -> sy_db s2 4002 = Serving None ->
  same_process Little Checked reverse_order example_db
    (fst (sys_run Little Checked reverse_order example_db (own_past "a" 1 5) s1))
    (fst (sys_run Little Checked reverse_order example_db (own_past "a/" 2 6) s2)).
Proof.
  intros s1 s2 (W & St & M & J & Q & D & U) R1 R2 U1 U2 D1 D2.
  set (i1 := fst (demo_lookup (only_path (fun _ => true)) 1 (lit "a") (repeat 0 32))).
  set (i2 := fst (demo_lookup (only_path (fun _ => true)) 1 (lit "a/") (repeat 0 32))).
  assert (Fa : service_alike Little (fst (nfs_turn Little i1 service_new)) (fst (nfs_turn Little i2 service_new))).
  { intros is B. apply run_same; [exact B|]. left. eexists. eexists. split; [vm_compute; reflexivity|]. split; [vm_compute; reflexivity|].
    split; [|vm_compute; reflexivity]. split; [discriminate|]. split; [discriminate|]. split; [vm_compute; reflexivity|]. reflexivity. }
  assert (P1 : exists a, process Checked reverse_order example_db None (client_request 1 0x1102 [0; 0; 5]) = Ok (a, Some (SAlbumByArtist 5))) by (eexists; vm_compute; reflexivity).
  assert (P2 : exists a, process Checked reverse_order example_db None (client_request 2 0x1102 [0; 0; 6]) = Ok (a, Some (SAlbumByArtist 6))) by (eexists; vm_compute; reflexivity).
  destruct P1 as [a1 P1], P2 as [a2 P2].
  unfold own_past. fold i1 i2. rewrite !sys_run_cons. cbn [fst sys_run]. unfold sys_step at 2 4. rewrite R1, R2, U1, U2. cbn [udp_turn].
  destruct (nfs_turn Little i1 service_new) as [v1 o1] eqn:T1, (nfs_turn Little i2 service_new) as [v2 o2] eqn:T2.
  cbn [fst] in *. unfold sys_step. cbn [with_udp sy_world]. rewrite R1, R2. cbn [db_step sy_db with_udp]. rewrite D1, D2, P1, P2. cbn [fst with_db with_udp sy_world sy_status sy_mapper sy_joined sy_query sy_udp].
  unfold same_process. cbn [with_db with_udp sy_world sy_status sy_mapper sy_joined sy_query sy_db sy_udp].
  split; [exact W|]. split; [exact St|]. split; [exact M|]. split; [exact J|]. split; [exact Q|]. split; intros port.
  - unfold set_port. destruct (port =? 4002); [|apply D]. cbn [same_handler]. intros more B. apply render_alike_run; [exact B|].
    intros r k tx fs Hr. cbn [serve]. rewrite !(process_render _ _ _ _ r k tx fs Hr). reflexivity.
  - unfold at_key. destruct (port =? 4001); [exact Fa|apply U].
Qed.

Example C107_case_process :
  same_process Little Checked reverse_order example_db (after process1) (after process2) /\
  process_alike Little Checked reverse_order example_db (after process1) (after process2) /\
  st_players (w_state (sy_world (after process1))) <> st_players (w_state (sy_world (after process2))) /\
  sy_udp (after process1) 4001 <> sy_udp (after process2) 4001 /\
  sy_db (after process1) 4002 <> sy_db (after process2) 4002 /\
  w_running (sy_world (after process1)) = true /\ w_running (sy_world (after [])) = true /\
  ~ process_alike Little Checked reverse_order example_db (after process1) (after []).
Proof.
  assert (S : same_process Little Checked reverse_order example_db (after process1) (after process2)).
  { assert (E1 : after process1 = fst (sys_run Little Checked reverse_order example_db (own_past "a" 1 5) (after (heard_as "XDJ-700" 3 ++ shared_past)))).
    { unfold process1. rewrite app_assoc. apply sys_run_app. }
    assert (E2 : after process2 = fst (sys_run Little Checked reverse_order example_db (own_past "a/" 2 6) (after (heard_as "CDJ-2000" 2 ++ shared_past)))).
    { unfold process2. rewrite app_assoc. apply sys_run_app. }
    rewrite E1, E2. apply own_same.
    { exact same_shared. }
    { vm_compute; reflexivity. }
    { vm_compute; reflexivity. }
    { vm_compute; reflexivity. }
    { vm_compute; reflexivity. }
    { vm_compute; reflexivity. }
    { vm_compute; reflexivity. } }
  split; [exact S|]. split; [apply C107_process; exact S|].
  split; [vm_compute; discriminate|]. split; [vm_compute; discriminate|]. split; [vm_compute; discriminate|].
  assert (R1 : w_running (sy_world (after process1)) = true) by (vm_compute; reflexivity).
  assert (R2 : w_running (sy_world (after [])) = true) by reflexivity.
  split; [exact R1|]. split; [exact R2|]. intros A.
  destruct (C107_parts _ _ _ _ _ _ A R1 R2) as (_ & _ & _ & _ & _ & _ & X). specialize (X 1). vm_compute in X. discriminate.
Qed.
