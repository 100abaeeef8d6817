(** C88: messages in another order. *)

From Verif Require Import Base Unicode SUdp MPackets MStatus MNetwork SNetwork LNetwork MKeepalive MDatabase MDb MLib LLib2 SLib PLib MRpc SRpc LRpc LRpc2
  MRpcServer SRpcServer LRpcServer PRpc PRpcServer MServer SServer LServer LServer2 PServer MNfs
  SNfs LNfs LNfs2 PNfs PDatabase SRepeat LRepeat PRepeat SOrder LOrder.
From Coq Require Import ZArith Lia Arith String Permutation.
Open Scope list_scope.
Open Scope N_scope.

(** ** The file service *)

(** After a history that went well, a block of calls without lookups, for example
    the reads of a file, can arrive in any order: every call of the block gets
    the same answer, and the answers to everything else are the same. *)
Theorem C88_calls_in_any_order : forall e before block block' after,
  goes_well e (before ++ block) -> Forall (fun x => ~ is_lookup (snd x)) block -> Permutation block block' ->
  let answers is := snd (nfs_run e is service_new) in
  exists first own own' rest,
    answers (map fst before ++ map fst block ++ after) = first ++ own ++ rest /\
    answers (map fst before ++ map fst block' ++ after) = first ++ own' ++ rest /\
    List.length first = List.length before /\
    List.length own = List.length block /\ List.length own' = List.length block' /\
    Permutation (combine block own) (combine block' own').
Proof.
  intros e before block block' after W Nl P answers.
  destruct (block_same e before block W Nl) as [_ F].
  assert (F' : Forall (fun x => fst (nfs_turn e (fst x) (fst (served e before))) = fst (served e before)) block').
  { apply Forall_forall. intros x Hx. apply (proj1 (Forall_forall _ _) F).
    apply (Permutation_in _ (Permutation_sym P)). exact Hx. }
  set (s := fst (served e before)) in *. set (f := fun x : nfs_input * heard => snd (nfs_turn e (fst x) s)).
  exists (answers (map fst before)), (map f block), (map f block'), (snd (nfs_run e after s)).
  assert (G : forall b, Forall (fun x => fst (nfs_turn e (fst x) s) = s) b ->
    answers (map fst before ++ map fst b ++ after) = answers (map fst before) ++ map f b ++ snd (nfs_run e after s)).
  { intros b Fb. subst answers. cbn beta. rewrite (run_app e (map fst before)). cbn [snd]. f_equal.
    change (fst (nfs_run e (map fst before) service_new)) with s. rewrite run_app. cbn [snd].
    rewrite (run_constant e b s Fb). reflexivity. }
  split; [exact (G _ F)|]. split; [exact (G _ F')|]. rewrite !map_length.
  split; [subst answers; cbn beta; rewrite run_length, map_length; reflexivity|].
  repeat (split; [reflexivity|]). apply combine_permutation. exact P.
Qed.
Print Assumptions C88_calls_in_any_order.

(** A call without a lookup can also change places with the lookup that comes
    after it, unless that lookup opens a file of the inode the call is about. *)
Theorem C88_call_and_lookup : forall e before x y after, goes_well e (before ++ [x; y]) ->
  ~ is_lookup (snd x) -> (forall ino f, is_about e (snd x) ino -> ~ opens before y ino f) ->
  let answers is := snd (nfs_run e is service_new) in
  let is := map fst before ++ fst x :: fst y :: after in
  answers (exchanged (List.length before) is) = exchanged (List.length before) (answers is).
Proof. intros e before x y after W Nl No. exact (nfs_exchanged e before x y after W Nl No). Qed.
Print Assumptions C88_call_and_lookup.

(** Two lookups cannot: the lookups of a folder and of a file in it, exchanged,
    look up the file in the root and leave the service in the folder.  Nor can a
    lookup and a read of the file it opens. *)
Theorem C88_lookups_in_any_order_refuted :
  (let a := fst (demo_lookup twin_os 1 (lit "a") (repeat 0 32)) in
   let x := fst (demo_lookup twin_os 2 (lit "x") (handle_for 5)) in
   PNfs.answered (snd (nfs_run Little [a; x] service_new)) = [true; true] /\
   PNfs.answered (snd (nfs_run Little [x; a] service_new)) = [false; true]) /\
  (let a := fst (demo_lookup twin_os 1 (lit "a") (repeat 0 32)) in
   let x := fst (demo_lookup twin_os 2 (lit "x") (handle_for 5)) in
   let r := fst (demo_read twin_os 3 (handle_for 7) 0 3) in
   PNfs.answered (snd (nfs_run Little [a; x; r] service_new)) = [true; true; true] /\
   PNfs.answered (snd (nfs_run Little [a; r; x] service_new)) = [true; false; true]).
Proof. split; split; vm_compute; reflexivity. Qed.
Print Assumptions C88_lookups_in_any_order_refuted.

(** ** The database *)

(** On a connection, a block of answered requests that ask for no menu, for
    example for the pages of one, can arrive in any order. *)
Theorem C88_requests_in_any_order : forall p h d before block block' after,
  List.length (serve p h d None (before ++ block)) = List.length (before ++ block) ->
  Forall bytes_ok block -> no_menu p block -> Permutation block block' ->
  exists first own own' rest,
    serve p h d None (before ++ block ++ after) = first ++ own ++ rest /\
    serve p h d None (before ++ block' ++ after) = first ++ own' ++ rest /\
    List.length first = List.length before /\
    List.length own = List.length block /\ List.length own' = List.length block' /\
    Permutation (combine block own) (combine block' own').
Proof.
  intros p h d before block block' after L B N P.
  destruct (serve_split p h d before block None L) as [st [first [Lf [Lb S]]]].
  pose proof (block_constant p h d block st B N Lb) as F.
  assert (F' : Forall (constant p h d st) block').
  { apply Forall_forall. intros x Hx. apply (proj1 (Forall_forall _ _) F).
    apply (Permutation_in _ (Permutation_sym P)). exact Hx. }
  exists first, (map (answer_of p h d st) block), (map (answer_of p h d st) block'), (serve p h d st after).
  split; [rewrite S, (serve_block p h d block st after F); reflexivity|].
  split; [rewrite S, (serve_block p h d block' st after F'); reflexivity|].
  rewrite !map_length. split; [exact Lf|]. repeat (split; [reflexivity|]). apply combine_permutation. exact P.
Qed.
Print Assumptions C88_requests_in_any_order.

(** ** The mount service, the port mapper and the status service *)

(** Datagrams that do not end the service can arrive in any order: each gets the
    answers it gets alone. *)
Theorem C88_mount_in_any_order : forall is is', fst (ms_run true is) = true -> Permutation is is' ->
  fst (ms_run true is') = true /\
  List.length (snd (ms_run true is)) = List.length is /\ List.length (snd (ms_run true is')) = List.length is' /\
  Permutation (combine is (snd (ms_run true is))) (combine is' (snd (ms_run true is'))).
Proof.
  assert (D : forall l, fst (ms_run false l) = false).
  { induction l as [|i l IH]; [reflexivity|]. cbn [ms_run]. destruct (ms_run false l). exact IH. }
  assert (A : forall is, fst (ms_run true is) = true -> Forall (fun i => fst (ms_turn i) = true) is).
  { induction is as [|i is IH]; intros R; [constructor|]. cbn [ms_run] in R.
    destruct (ms_turn i) as [[|] o] eqn:E.
    - constructor; [rewrite E; reflexivity|]. apply IH. destruct (ms_run true is). exact R.
    - specialize (D is). destruct (ms_run false is). cbn [fst] in *. congruence. }
  assert (B : forall is, Forall (fun i => fst (ms_turn i) = true) is ->
    ms_run true is = (true, map (fun i => snd (ms_turn i)) is)).
  { intros is F. induction F as [|i is Hi _ IH]; [reflexivity|]. cbn [ms_run map].
    destruct (ms_turn i) as [r o]. cbn [fst snd] in *. subst r. rewrite IH. reflexivity. }
  intros is is' R P. pose proof (A is R) as F.
  assert (F' : Forall (fun i => fst (ms_turn i) = true) is').
  { apply Forall_forall. intros x Hx. apply (proj1 (Forall_forall _ _) F).
    apply (Permutation_in _ (Permutation_sym P)). exact Hx. }
  rewrite (B is F), (B is' F'). cbn [fst snd]. rewrite !map_length.
  repeat (split; [reflexivity|]). apply combine_permutation. exact P.
Qed.
Print Assumptions C88_mount_in_any_order.

(** Calls to the port mapper, in any order, get the same answers each. *)
Theorem C88_portmap_in_any_order : forall is is', fst (pm_run true is) = true -> Permutation is is' ->
  fst (pm_run true is') = true /\
  List.length (snd (pm_run true is)) = List.length is /\ List.length (snd (pm_run true is')) = List.length is' /\
  Permutation (combine is (snd (pm_run true is))) (combine is' (snd (pm_run true is'))).
Proof.
  assert (D : forall l, fst (pm_run false l) = false).
  { induction l as [|i l IH]; [reflexivity|]. cbn [pm_run]. destruct (pm_run false l). exact IH. }
  assert (A : forall is, fst (pm_run true is) = true -> Forall (fun i => fst (pm_turn i) = true) is).
  { induction is as [|i is IH]; intros R; [constructor|]. cbn [pm_run] in R.
    destruct (pm_turn i) as [[|] o] eqn:E.
    - constructor; [rewrite E; reflexivity|]. apply IH. destruct (pm_run true is). exact R.
    - specialize (D is). destruct (pm_run false is). cbn [fst] in *. congruence. }
  assert (B : forall is, Forall (fun i => fst (pm_turn i) = true) is ->
    pm_run true is = (true, map (fun i => snd (pm_turn i)) is)).
  { intros is F. induction F as [|i is Hi _ IH]; [reflexivity|]. cbn [pm_run map].
    destruct (pm_turn i) as [r o]. cbn [fst snd] in *. subst r. rewrite IH. reflexivity. }
  intros is is' R P. pose proof (A is R) as F.
  assert (F' : Forall (fun i => fst (pm_turn i) = true) is').
  { apply Forall_forall. intros x Hx. apply (proj1 (Forall_forall _ _) F).
    apply (Permutation_in _ (Permutation_sym P)). exact Hx. }
  rewrite (B is F), (B is' F'). cbn [fst snd]. rewrite !map_length.
  repeat (split; [reflexivity|]). apply combine_permutation. exact P.
Qed.
Print Assumptions C88_portmap_in_any_order.

(** Datagrams at the status service, in any order, get the same answers each. *)
Theorem C88_status_in_any_order : forall is is', fst (status_run is) = true -> Permutation is is' ->
  fst (status_run is') = true /\
  Permutation (snd (status_run is)) (snd (status_run is')) /\
  snd (status_run is) = flat_map (fun i => snd (status_run [i])) is /\
  snd (status_run is') = flat_map (fun i => snd (status_run [i])) is'.
Proof.
  assert (A : forall is, fst (status_run is) = true -> Forall (fun i => fst (status_run [i]) = true) is).
  { induction is as [|i is IH]; intros R; [constructor|]. cbn [status_run] in *.
    destruct (status_turn i) as [out| |] eqn:E; [|discriminate R|discriminate R].
    constructor; [rewrite E; reflexivity|]. apply IH. destruct (status_run is). exact R. }
  assert (B : forall is, Forall (fun i => fst (status_run [i]) = true) is ->
    status_run is = (true, flat_map (fun i => snd (status_run [i])) is)).
  { intros is F. induction F as [|i is Hi _ IH]; [reflexivity|]. cbn [status_run flat_map] in *.
    destruct (status_turn i) as [out| |]; [|discriminate Hi|discriminate Hi].
    rewrite IH. cbn [fst snd]. rewrite app_nil_r. reflexivity. }
  intros is is' R P. pose proof (A is R) as F.
  assert (F' : Forall (fun i => fst (status_run [i]) = true) is').
  { apply Forall_forall. intros x Hx. apply (proj1 (Forall_forall _ _) F).
    apply (Permutation_in _ (Permutation_sym P)). exact Hx. }
  rewrite (B is F), (B is' F'). cbn [fst snd]. split; [reflexivity|].
  split; [apply Permutation_flat_map; exact P|]. split; reflexivity.
Qed.
Print Assumptions C88_status_in_any_order.

(** ** Discovery *)

(** Two keep-alive datagrams in a row, at most one of which is a status, or both
    of different devices on one network, can change places: the events of each
    are the same, the devices known are the same in another order, and so is the
    network. *)
Theorem C88_devices_exchanged : forall is d1 ifaces1 d2 ifaces2,
  let x := KaDatagram d1 ifaces1 in let y := KaDatagram d2 ifaces2 in
  inputs_typed (is ++ [x; y]) ->
  (forall h1 h2, status_of d1 h1 -> status_of d2 h2 -> h_ip h1 <> h_ip h2 /\
     exists o, chosen ifaces1 (h_ip h1) o /\ chosen ifaces2 (h_ip h2) o) ->
  let one := run (is ++ [x; y]) in let other := run (is ++ [y; x]) in
  snd other = exchanged (List.length is) (snd one) /\
  Permutation (st_players (w_state (fst one))) (st_players (w_state (fst other))) /\
  st_address (w_state (fst one)) = st_address (w_state (fst other)) /\
  Permutation (w_queue (fst one)) (w_queue (fst other)).
Proof.
  intros is d1 ifaces1 d2 ifaces2 x y Ty Ap one other.
  apply inputs_typed_app in Ty. destruct Ty as [_ Ty].
  assert (T1 : ifaces_typed ifaces1) by (apply (Ty d1); left; reflexivity).
  assert (T2 : ifaces_typed ifaces2) by (apply (Ty d2); right; left; reflexivity).
  destruct (steps_exchanged (fst (run is)) d1 ifaces1 d2 ifaces2 T1 T2 Ap (run_nodup is))
    as [O1 [O2 [qx [qy [Q1 [Q2 [Al _]]]]]]].
  fold x y in O1, O2, Q1, Q2, Al.
  assert (R : forall a b, run (is ++ [a; b]) =
    (fst (step (fst (step (fst (run is)) a)) b),
     snd (run is) ++ [snd (step (fst (run is)) a); snd (step (fst (step (fst (run is)) a)) b)])).
  { intros a b. unfold run. rewrite run_from_app. destruct (run_from world_start is) as [w os]. cbn [run_from fst snd].
    destruct (step w a) as [w1 o1]. cbn [fst snd]. destruct (step w1 b) as [w2 o2]. reflexivity. }
  subst one other. rewrite !R. cbn [fst snd]. split.
  - rewrite O1, O2.
    replace (List.length is) with (List.length (snd (run is))); [rewrite exchanged_app; reflexivity|].
    unfold run. generalize world_start. clear. induction is as [|i is IH]; intros w; [reflexivity|]. cbn [run_from].
    destruct (step w i) as [w1 o]. specialize (IH w1). destruct (run_from w1 is). cbn [snd List.length] in *. congruence.
  - destruct Al as (_ & _ & _ & Ad & P & _). cbn [with_queue w_state] in Ad, P.
    split; [exact P|]. split; [exact Ad|]. rewrite Q1, Q2. apply Permutation_app_head, Permutation_app_comm.
Qed.
Print Assumptions C88_devices_exchanged.

(** If moreover both devices were known before, or neither, the program goes on
    in the same way whatever comes after. *)
Theorem C88_devices_exchanged_for_good : forall is d1 ifaces1 d2 ifaces2 after,
  let x := KaDatagram d1 ifaces1 in let y := KaDatagram d2 ifaces2 in
  inputs_typed (is ++ [x; y]) ->
  (forall h1 h2, status_of d1 h1 -> status_of d2 h2 -> h_ip h1 <> h_ip h2 /\
     (exists o, chosen ifaces1 (h_ip h1) o /\ chosen ifaces2 (h_ip h2) o) /\
     forall hs, SServer.hears is hs -> (In (h_ip h1) (map h_ip hs) <-> In (h_ip h2) (map h_ip hs))) ->
  let one := run (is ++ x :: y :: after) in let other := run (is ++ y :: x :: after) in
  snd other = exchanged (List.length is) (snd one) /\
  Permutation (st_players (w_state (fst one))) (st_players (w_state (fst other))).
Proof.
  intros is d1 ifaces1 d2 ifaces2 after x y Ty Ap one other. pose proof Ty as Ty0.
  apply inputs_typed_app in Ty. destruct Ty as [Ti Ty].
  assert (T1 : ifaces_typed ifaces1) by (apply (Ty d1); left; reflexivity).
  assert (T2 : ifaces_typed ifaces2) by (apply (Ty d2); right; left; reflexivity).
  assert (Ap' : apart d1 ifaces1 d2 ifaces2).
  { intros h1 h2 S1 S2. destruct (Ap h1 h2 S1 S2) as [Ne [C _]]. split; assumption. }
  destruct (steps_exchanged (fst (run is)) d1 ifaces1 d2 ifaces2 T1 T2 Ap' (run_nodup is))
    as [O1 [O2 [qx [qy [Q1 [Q2 [Al Ev]]]]]]].
  fold x y in O1, O2, Q1, Q2, Al.
  assert (Eq : qx ++ qy = qy ++ qx).
  { destruct Ev as [->|[->|[h1 [h2 [At [S1 [S2 [-> ->]]]]]]]]; [rewrite app_nil_r; reflexivity|rewrite app_nil_r; reflexivity|].
    destruct (Ap h1 h2 S1 S2) as [_ [_ K]]. destruct (hears_total is) as [hs Hs]. specialize (K hs Hs).
    destruct (players_heard is hs Ti Hs At) as [Pa _].
    assert (Kn : forall ip, known ip (st_players (w_state (fst (run is)))) = true <-> In ip (map h_ip hs)).
    { intros ip. rewrite known_in, Pa, in_distinct. reflexivity. }
    rewrite <- !Kn in K. unfold events_of.
    destruct (known (h_ip h1) _) eqn:E1, (known (h_ip h2) _) eqn:E2; try reflexivity; exfalso;
      [destruct K as [K _]; specialize (K eq_refl); discriminate K|destruct K as [_ K]; specialize (K eq_refl); discriminate K]. }
  assert (Al' : alike (fst (step (fst (step (fst (run is)) x)) y)) (fst (step (fst (step (fst (run is)) y)) x))).
  { replace (fst (step (fst (step (fst (run is)) y)) x)) with
      (with_queue (fst (step (fst (step (fst (run is)) y)) x)) (w_queue (fst (step (fst (step (fst (run is)) x)) y)))); [exact Al|].
    rewrite Q1, Eq, <- Q2. destruct (fst (step (fst (step (fst (run is)) y)) x)). reflexivity. }
  assert (R : forall a b, run (is ++ a :: b :: after) =
    (fst (run_from (fst (step (fst (step (fst (run is)) a)) b)) after),
     snd (run is) ++ snd (step (fst (run is)) a) :: snd (step (fst (step (fst (run is)) a)) b)
       :: snd (run_from (fst (step (fst (step (fst (run is)) a)) b)) after))).
  { intros a b. unfold run. rewrite run_from_app. destruct (run_from world_start is) as [w os]. cbn [run_from fst snd].
    destruct (step w a) as [w1 o1]. cbn [fst snd]. destruct (step w1 b) as [w2 o2]. cbn [fst snd].
    destruct (run_from w2 after). reflexivity. }
  destruct (run_alike after _ _ Al') as [(_ & _ & _ & _ & P & _) O].
  subst one other. rewrite !R. cbn [fst snd]. split; [|exact P].
  rewrite O1, O2, O.
  replace (List.length is) with (List.length (snd (run is))); [rewrite exchanged_app; reflexivity|].
  unfold run. generalize world_start. clear. induction is as [|i is IH]; intros w; [reflexivity|]. cbn [run_from].
  destruct (step w i) as [w1 o]. specialize (IH w1). destruct (run_from w1 is). cbn [snd List.length] in *. congruence.
Qed.
Print Assumptions C88_devices_exchanged_for_good.

(** Without this condition it may not: with a status of a known and one of a new
    device exchanged, the application takes another event at its third turn, and
    sends another handshake or does not.  And two statuses of one device leave
    its number as the last of them says. *)
Theorem C88_devices_in_any_order_refuted :
  (let a := KaDatagram (status_datagram "XDJ-700" 3 192 168 10 52) one_iface in
   let b := KaDatagram (status_datagram "XDJ-700" 2 192 168 10 53) one_iface in
   let turn := AppTurn (fun _ => true) in
   let sizes is := map (@List.length _) (snd (run is)) in
   sizes [a; a; b; turn; turn; turn] = [2; 1; 2; 1; 41; 41]%nat /\
   sizes [a; b; a; turn; turn; turn] = [2; 2; 1; 1; 41; 1]%nat) /\
  (let a := KaDatagram (status_datagram "XDJ-700" 3 192 168 10 52) one_iface in
   let b := KaDatagram (status_datagram "XDJ-700" 2 192 168 10 52) one_iface in
   map pl_number (st_players (w_state (fst (run [a; b])))) = [2] /\
   map pl_number (st_players (w_state (fst (run [b; a])))) = [3]).
Proof. split; split; vm_compute; reflexivity. Qed.
Print Assumptions C88_devices_in_any_order_refuted.

(** ** Cases *)

(** Two reads of an open file, exchanged. *)
Definition read_one : nfs_input * heard := demo_read demo 5 (handle_for 7) 0 3.
Definition read_two : nfs_input * heard := demo_read demo 6 (handle_for 7) 1 2.
Lemma read_one_opens : forall hs ino f, ~ opens hs read_one ino f.
Proof. intros hs ino f [xid [l [m [F _]]]]. discriminate F. Qed.
Example C88_case_reads :
  goes_well Little ([open_a] ++ [read_one; read_two]) /\ Forall (fun x => ~ is_lookup (snd x)) [read_one; read_two] /\
  Permutation [read_one; read_two] [read_two; read_one] /\
  PNfs.answered (snd (nfs_run Little (map fst ([open_a] ++ [read_one; read_two])) service_new)) = [true; true; true] /\
  nth 1 (snd (nfs_run Little (map fst ([open_a] ++ [read_one; read_two])) service_new)) [] <>
  nth 2 (snd (nfs_run Little (map fst ([open_a] ++ [read_one; read_two])) service_new)) [].
Proof.
  split; [|split; [|split; [|split]]].
  - assert (H := demo_read_heard demo 6 (handle_for 7) 1 2 eq_refl eq_refl eq_refl eq_refl ltac:(vm_compute; reflexivity)).
    refine (proj1 (read_answered Little ([open_a] ++ [read_one]) read_two 6 (handle_for 7) 1 2 0 70 [1; 2; 3]
      (demo_meta false 7 3) C51_case (proj1 H) (proj2 H) eq_refl eq_refl _ eq_refl eq_refl
      (demo_times _ _ _) ltac:(discriminate))).
    exists 7. split; [split; reflexivity|]. apply latest_snoc. right.
    split; [intros f; apply read_one_opens|exact open_a_opened].
  - repeat constructor; intros [xid [l F]]; discriminate F.
  - apply perm_swap.
  - vm_compute. reflexivity.
  - vm_compute. discriminate.
Qed.

(** The read of a file and the lookup of another one, exchanged. *)
Example C88_case_lookup :
  goes_well Little ([open_a] ++ [read_one; open_b]) /\ ~ is_lookup (snd read_one) /\
  (forall ino f, is_about Little (snd read_one) ino -> ~ opens [open_a] open_b ino f) /\
  is_about Little (snd read_one) 7 /\ opens [open_a] open_b 8 80.
Proof.
  split; [|split; [|split; [|split]]].
  - destruct open_b_heard as [B H].
    exact (proj1 (lookup_answered Little ([open_a] ++ [read_one]) open_b 2 (mkLookup (lit "/b/x") (repeat 0 32)) (demo_meta false 8 4) 80
      C51_case B H eq_refl eq_refl eq_refl eq_refl (demo_times _ _ _))).
  - intros [xid [l F]]. discriminate F.
  - intros ino f [xid [[fh [F _]]|[r [F Ni]]]]; [discriminate F|]. injection F as _ <-. cbn [rd_fhandle] in Ni.
    assert (E : ino = 7) by (apply (names_functional Little (handle_for 7)); [exact Ni|split; reflexivity]). subst ino.
    intros [xid' [l [m [Hx [St [_ [_ I]]]]]]]. injection Hx as _ <-. vm_compute in St. injection St as <-. discriminate I.
  - exists 5. right. eexists. split; [reflexivity|]. split; reflexivity.
  - exists 2, (mkLookup (lit "/b/x") (repeat 0 32)), (demo_meta false 8 4). repeat split; vm_compute; reflexivity.
Qed.

(** Two pages of a menu, exchanged; two datagrams to the mount service and to the
    port mapper; two new devices. *)
Example C88_case_others :
  (let menu := client_request 1 0x1002 [] in
   let block := [client_request 2 0x3000 []; client_request 3 0x3000 []] in
   let answers := serve Checked reverse_order example_db None ([menu] ++ block) in
   List.length answers = 3%nat /\ Forall bytes_ok block /\ nth 1 answers [] <> nth 2 answers []) /\
  (let is := [mkMsIn [9] 1 false None true; mkMsIn export_call 1 false (Some case_network) true] in
   fst (ms_run true is) = true /\
   map (@List.length _) (snd (ms_run true is)) = [0; 1]%nat /\
   map (@List.length _) (snd (ms_run true (exchanged 0 is))) = [1; 0]%nat) /\
  fst (pm_run true (map (fun port => mkPmIn getport_nfs 2 (Some port) true) [4000; 4001])) = true /\
  (let a := KaDatagram (status_datagram "XDJ-700" 3 192 168 10 52) one_iface in
   let b := KaDatagram (status_datagram "XDJ-700" 2 192 168 10 53) one_iface in
   let turn := AppTurn (fun _ => true) in
   map (fun p => (pl_address p, pl_number p)) (st_players (w_state (fst (run [a; b; turn; turn])))) = [(0xc0a80a34, 3); (0xc0a80a35, 2)] /\
   map (fun p => (pl_address p, pl_number p)) (st_players (w_state (fst (run [b; a; turn; turn])))) = [(0xc0a80a35, 2); (0xc0a80a34, 3)] /\
   snd (run [b; a; turn; turn]) = exchanged 0 (snd (run [a; b; turn; turn]))).
Proof.
  split; [|split; [|split]].
  - split; [vm_compute; reflexivity|]. split; [repeat constructor; vm_compute; reflexivity|vm_compute; discriminate].
  - split; [|split]; vm_compute; reflexivity.
  - vm_compute. reflexivity.
  - split; [|split]; vm_compute; reflexivity.
Qed.

(** The hypotheses hold of two new devices on one network. *)
Example C88_case_devices :
  let d1 := status_datagram "XDJ-700" 3 192 168 10 52 in let d2 := status_datagram "XDJ-700" 2 192 168 10 53 in
  inputs_typed ([] ++ [KaDatagram d1 one_iface; KaDatagram d2 one_iface]) /\
  (exists h1 h2, status_of d1 h1 /\ status_of d2 h2) /\
  forall h1 h2, status_of d1 h1 -> status_of d2 h2 -> h_ip h1 <> h_ip h2 /\
    (exists o, chosen one_iface (h_ip h1) o /\ chosen one_iface (h_ip h2) o) /\
    forall hs, SServer.hears [] hs -> (In (h_ip h1) (map h_ip hs) <-> In (h_ip h2) (map h_ip hs)).
Proof.
  cbv zeta.
  assert (S1 : status_of (status_datagram "XDJ-700" 3 192 168 10 52) (mkHeard 0xc0a80a34 3 (lit "XDJ-700"))).
  { apply status_of_iff. eexists. split; [vm_compute; reflexivity|]. split; reflexivity. }
  assert (S2 : status_of (status_datagram "XDJ-700" 2 192 168 10 53) (mkHeard 0xc0a80a35 2 (lit "XDJ-700"))).
  { apply status_of_iff. eexists. split; [vm_compute; reflexivity|]. split; reflexivity. }
  split; [|split].
  - intros d fs [F|[F|[]]]; injection F as _ <-; exact one_iface_typed.
  - eexists. eexists. split; [exact S1|exact S2].
  - intros h1 h2 H1 H2. rewrite (status_of_functional _ _ _ H1 S1), (status_of_functional _ _ _ H2 S2). cbn [h_ip].
    split; [discriminate|]. split.
    + exists (Some (mkNetwork (mkNet 3232238130 24) [0; 0x45; 0xcb; 0x9a; 0xa5; 0x0b])).
      split; (apply find_some_iff; [exact one_iface_typed|vm_compute; reflexivity]).
    + intros hs Hs. inversion Hs. split; intros [].
Qed.
