(** C87: which messages may be repeated or lost. *)

From Verif Require Import Base Unicode SUdp MPackets MStatus MNetwork MKeepalive MDatabase MDb MLib LLib2 SLib PLib MRpc SRpc LRpc LRpc2
  MRpcServer SRpcServer LRpcServer PRpc PRpcServer MServer SServer LServer PServer MNfs
  SNfs LNfs LNfs2 PNfs PDatabase SRepeat LRepeat.
From Coq Require Import ZArith Lia Arith String.
Open Scope list_scope.
Open Scope N_scope.

(** ** The file service *)

(** After a history that went well, a call other than a lookup, for example a
    read, can be repeated and can be lost: the copy gets the same answer, and all
    other answers, before and after, are the same with two, one and no copies. *)
Theorem C87_calls_again : forall e before x after, goes_well e (before ++ [x]) -> ~ is_lookup (snd x) ->
  let answers is := snd (nfs_run e is service_new) in
  let is := map fst before ++ fst x :: after in
  answers (twice (List.length before) is) = twice (List.length before) (answers is) /\
  answers (without (List.length before) is) = without (List.length before) (answers is).
Proof. intros e before x after W Nl. exact (nfs_again e before x after W Nl). Qed.
Print Assumptions C87_calls_again.

(** A lookup cannot.  The copy of the lookup of a name is a lookup elsewhere: of
    the name inside the folder that was found, or, if a file was found, of the
    name in the root. *)
Theorem C87_lookup_again : forall e before x xid name h m f, component name ->
  goes_well e (before ++ [x; x]) -> snd x = Asked xid (NfsLookup (mkLookup name h)) ->
  let o := ni_os (fst x) in
  let found := resolve (position before) name in
  os_stat o found = Some m -> os_open o found = Some f ->
  let target := if m_file m then 47 :: name else found ++ 47 :: name in
  let copy := nth (List.length before + 1) (snd (served e (before ++ [x; x]))) [] in
  (os_stat o target = None -> copy = []) /\
  (os_stat o target <> None -> os_open o target = None -> copy = []) /\
  (os_stat o target <> None -> os_open o target <> None -> answered_with o target x copy).
Proof.
  intros e before x xid name h m f Cn W Hx o found St Op target copy.
  assert (Sp : before ++ [x; x] = (before ++ [x]) ++ [x]) by (rewrite <- app_assoc; reflexivity).
  assert (Pos : resolve (position (before ++ [x])) name = target).
  { rewrite position_snoc, Hx. cbn [lk_filename]. unfold walk_to. fold o found. rewrite St, Op. subst target.
    destruct Cn as [Ne Ns]. destruct name as [|b name]; [congruence|].
    assert (N47 : b <> 47) by (intros ->; apply Ns; left; reflexivity).
    assert (Rs : forall here, resolve here (b :: name) = if last here 0 =? 47 then here ++ b :: name else here ++ 47 :: b :: name).
    { intros here. unfold resolve. destruct b as [|b]; [reflexivity|].
      do 6 (destruct b as [b|b|]; try reflexivity). congruence. }
    destruct (m_file m); [rewrite Rs; reflexivity|]. rewrite Rs.
    replace (last found 0 =? 47) with false; [reflexivity|]. symmetry. apply N.eqb_neq.
    assert (Lst : last (b :: name) 0 <> 47).
    { intros E. apply Ns. rewrite <- E. destruct (exists_last (l := b :: name) Ne) as [l [z ->]].
      rewrite last_last. apply in_or_app. right. left. reflexivity. }
    assert (La : forall (u v : bytes), v <> [] -> last (u ++ v) 0 = last v 0).
    { intros u v Hv. destruct (exists_last Hv) as [l [z ->]]. rewrite app_assoc, !last_last. reflexivity. }
    subst found. rewrite Rs. destruct (_ =? _); [rewrite La by discriminate; exact Lst|].
    change (47 :: b :: name) with ([47] ++ (b :: name)). rewrite app_assoc, La by discriminate. exact Lst. }
  destruct (firstn_snoc_eq _ (before ++ [x]) x) as [F E].
  rewrite <- Sp in F, E. rewrite app_length in F, E. cbn [List.length] in F, E.
  destruct (C51_history e (before ++ [x; x]) _ x W E) as [d [R Out]].
  rewrite F in R. unfold replies in R. rewrite Hx in R. cbn [call_outcome lk_filename] in R.
  rewrite Pos in R. fold o in R. unfold lookup_outcome in R. fold copy in Out.
  split; [|split].
  - intros N. rewrite N in R. destruct R as [[r [C _]]|[_ ->]]; [discriminate C|exact Out].
  - intros S N. destruct (os_stat o target) as [m2|]; [|congruence]. rewrite N in R.
    destruct R as [[r [C _]]|[_ ->]]; [discriminate C|exact Out].
  - intros S N. destruct (os_stat o target) as [m2|] eqn:S2; [|congruence].
    destruct (os_open o target) as [f2|]; [|congruence].
    destruct R as [[r [[T [fattr [Fa ->]]] ->]]|[[] _]].
    exists xid, (mkLookup name h), m2, fattr. split; [exact Hx|]. split; [exact S2|]. split; [exact Fa|exact Out].
Qed.
Print Assumptions C87_lookup_again.

(** So a walk in which one lookup arrives twice does not reach its file; and it
    can reach another one without anyone noticing: with files "/a/x" and
    "/a/a/x", the lookup of "x" gives the handle of the second. *)
Definition twin_os : os :=
  let file p := if list_eq_dec N.eq_dec p (lit "/a/x") then Some (demo_meta false 7 3, 70)
           else if list_eq_dec N.eq_dec p (lit "/a/a/x") then Some (demo_meta false 8 4, 80)
           else if list_eq_dec N.eq_dec p (lit "/a") then Some (demo_meta true 5 4096, 50)
           else if list_eq_dec N.eq_dec p (lit "/a/a") then Some (demo_meta true 6 4096, 60)
           else None in
  mkOs (fun p => option_map fst (file p)) (fun p => option_map snd (file p))
       (fun f => if f =? 70 then Some [1; 2; 3] else if f =? 80 then Some [9; 8; 7; 6] else None)
       (fun f => if f =? 70 then Some (demo_meta false 7 3) else if f =? 80 then Some (demo_meta false 8 4) else None).
(** The claim that a lookup may be repeated without harm is false: the next one fails or
    finds another file. *)
Theorem C87_repeated_lookup_harmless_refuted :
  (let a := fst (demo_lookup demo 1 (lit "a") (repeat 0 32)) in
   let x := fst (demo_lookup demo 2 (lit "x") (handle_for 5)) in
   PNfs.answered (snd (nfs_run Little [a; x] service_new)) = [true; true] /\
   PNfs.answered (snd (nfs_run Little [a; a; x] service_new)) = [true; false; false]) /\
  (let a := fst (demo_lookup twin_os 1 (lit "a") (repeat 0 32)) in
   let x := fst (demo_lookup twin_os 2 (lit "x") (handle_for 5)) in
   let handles outs := map (fun out => map (fun d => firstn 32 (skipn 28 (snd d))) out) outs in
   handles (snd (nfs_run Little [a; x] service_new)) = [[handle_for 5]; [handle_for 7]] /\
   handles (snd (nfs_run Little [a; a; x] service_new)) = [[handle_for 5]; [handle_for 6]; [handle_for 8]]).
Proof. split; split; vm_compute; reflexivity. Qed.
Print Assumptions C87_repeated_lookup_harmless_refuted.

(** Starting over helps.  Wherever lost and repeated lookups have left the
    service, in a file system in which everything can be opened: a client that
    looks up the names of a file one by one gets an answer to each, or, having
    been left without an answer once, gets the right answer to each the second
    time. *)
Theorem C87_two_tries : forall e o before names try1 try2, goes_well e before ->
  settled o -> path_of_file o names -> walks names try1 -> walks names try2 ->
  Forall (fun x => ni_os (fst x) = o) (try1 ++ try2) ->
  (goes_well e (before ++ try1) /\
   forall j, (j < List.length names)%nat ->
     nth (List.length before + j) (snd (served e (before ++ try1))) [] <> []) \/
  exists k, (k < List.length names)%nat /\
    let hs := before ++ firstn (k + 1) try1 in
    (forall j, (j < k)%nat -> nth (List.length before + j) (snd (served e hs)) [] <> []) /\
    nth (List.length before + k) (snd (served e hs)) [] = [] /\
    goes_well e (hs ++ try2) /\
    forall j x, nth_error try2 j = Some x ->
      answered_with o (absolute (firstn (j + 1) names)) x
        (nth (List.length hs + j) (snd (served e (hs ++ try2))) []).
Proof.
  intros e o before names try1 try2 W Se [Ne [Cn Pf]] W1 W2 Os.
  apply Forall_app in Os. destruct Os as [Os1 Os2].
  assert (L1 := walks_length _ _ W1). assert (L2 := walks_length _ _ W2).
  assert (At1 : forall j x, nth_error try1 j = Some x ->
    bytes_ok (ni_datagram (fst x)) /\ hears (ni_datagram (fst x)) (snd x) /\ ni_send (fst x) = true /\ ni_os (fst x) = o /\
    exists xid l, snd x = Asked xid (NfsLookup l)).
  { intros j x Hx. assert (Io := proj1 (Forall_forall _ _) Os1 x (nth_error_In _ _ Hx)). cbn in Io.
    clear - W1 Hx Io. revert j Hx. induction W1 as [|n y ns ys Hy _ IH]; intros j Hx; [destruct j; discriminate Hx|].
    destruct j; [injection Hx as ->; destruct Hy as [A [B [C [xid [h D]]]]]; repeat (split; [assumption|]); eauto|exact (IH j Hx)]. }
  assert (G : forall A (l : list A) k a, nth_error l k = Some a -> firstn (k + 1) l = firstn k l ++ [a]).
  { clear. intros A l. induction l; intros k b H; [destruct k; discriminate H|].
    destruct k; [cbn in H; injection H as ->; reflexivity|]. cbn [firstn app Nat.add]. f_equal. apply IHl. exact H. }
  (* the first try, up to the first lookup without an answer *)
  assert (T1 : forall k, (k <= List.length names)%nat ->
    (goes_well e (before ++ firstn k try1) /\
     forall j, (j < k)%nat -> nth (List.length before + j) (snd (served e (before ++ firstn k try1))) [] <> []) \/
    exists k', (k' < k)%nat /\ goes_well e (before ++ firstn (k' + 1) try1) /\
      position (before ++ firstn (k' + 1) try1) = [47] /\
      (forall j, (j < k')%nat -> nth (List.length before + j) (snd (served e (before ++ firstn (k' + 1) try1))) [] <> []) /\
      nth (List.length before + k') (snd (served e (before ++ firstn (k' + 1) try1))) [] = []).
  { induction k as [|k IH]; intros Hk.
    - left. cbn [firstn]. rewrite app_nil_r. split; [exact W|]. intros; lia.
    - destruct (IH ltac:(lia)) as [[Wk Ak]|[k' [K' H]]]; [|right; exists k'; split; [lia|exact H]].
      destruct (nth_error try1 k) as [x|] eqn:Ex; [|apply nth_error_None in Ex; lia].
      destruct (At1 k x Ex) as [B [Hh [Sd [Oo [xid [l Hx]]]]]].
      assert (Sn := G _ try1 k x Ex). replace (S k) with (k + 1)%nat by lia.
      assert (Lb : List.length (before ++ firstn k try1) = (List.length before + k)%nat)
        by (rewrite app_length, firstn_length; lia).
      rewrite Sn, app_assoc.
      assert (Ak' : forall j, (j < k)%nat ->
        nth (List.length before + j) (snd (served e ((before ++ firstn k try1) ++ [x]))) [] <> []).
      { intros j Hj. rewrite served_prefix by lia. apply Ak. exact Hj. }
      destruct (os_stat o (resolve (position (before ++ firstn k try1)) (lk_filename l))) as [m|] eqn:St.
      + destruct (Se _ _ St) as [Tm On].
        destruct (os_open o (resolve (position (before ++ firstn k try1)) (lk_filename l))) as [f|] eqn:Op; [|congruence].
        rewrite <- Oo in St, Op.
        destruct (lookup_answered e _ x xid l m f Wk B Hh Hx Sd St Op Tm) as [Wn [fattr [_ Out]]].
        left. split; [exact Wn|]. intros j Hj. destruct (Nat.eq_dec j k) as [->|Nj].
        * rewrite <- Lb, Out. discriminate.
        * apply Ak'. lia.
      + rewrite <- Oo in St.
        destruct (well_unanswered e _ x xid l Wk B Hh Hx Sd St) as [Wn [Ps Out]].
        right. exists k. split; [lia|]. rewrite Sn, app_assoc. split; [exact Wn|]. split; [exact Ps|].
        split; [exact Ak'|]. rewrite <- Lb. exact Out. }
  destruct (T1 (List.length names) (le_n _)) as [[Wn An]|[k [Hk [Wk [Ps [Ak Uk]]]]]].
  - left. rewrite <- L1, firstn_all in Wn, An. split; [exact Wn|]. intros j Hj. apply An. lia.
  - right. exists k. split; [exact Hk|]. cbn zeta. split; [exact Ak|]. split; [exact Uk|].
    set (hs := before ++ firstn (k + 1) try1) in *.
    assert (Fs : forall j x, nth_error try2 j = Some x -> exists m f,
      os_stat (ni_os (fst x)) (absolute (firstn (j + 1) names)) = Some m /\
      os_open (ni_os (fst x)) (absolute (firstn (j + 1) names)) = Some f /\
      times_known m /\ m_file m = (j + 1 =? List.length names)%nat).
    { intros j x Hx. assert (Io := proj1 (Forall_forall _ _) Os2 x (nth_error_In _ _ Hx)). cbn in Io. rewrite Io.
      assert (Hj : (j < List.length try2)%nat) by (apply nth_error_Some; congruence).
      destruct (Pf (j + 1)%nat ltac:(lia)) as [m [St Fi]]. destruct (Se _ _ St) as [Tm On].
      destruct (os_open o (absolute (firstn (j + 1) names))) as [f|] eqn:Op; [|congruence].
      exists m, f. repeat (split; [first [assumption|reflexivity]|]). exact Fi. }
    destruct (C48_walk e hs names try2 Wk Ps Cn Ne W2 Fs) as [Wf [_ [Ans _]]].
    split; [exact Wf|]. intros j x Hx. destruct (Fs j x Hx) as [m [f [St [_ [_ _]]]]].
    assert (Io := proj1 (Forall_forall _ _) Os2 x (nth_error_In _ _ Hx)). cbn in Io.
    assert (Hl : exists xid l, snd x = Asked xid (NfsLookup l)).
    { clear - W2 Hx. revert j Hx. induction W2 as [|n y ns ys Hy _ IH]; intros j Hx; [destruct j; discriminate Hx|].
      destruct j; [injection Hx as ->; destruct Hy as [_ [_ [_ [xid [h D]]]]]; eauto|exact (IH j Hx)]. }
    destruct Hl as [xid [l Hl]]. destruct (Ans j x xid _ m Hx Hl St) as [fattr [Fa Out]].
    exists xid, l, m, fattr. rewrite Io in St. split; [exact Hl|]. split; [exact St|]. split; [exact Fa|exact Out].
Qed.
Print Assumptions C87_two_tries.

(** ** The mount service *)

(** A datagram that does not end the mount service can be repeated and lost. *)
Theorem C87_mount_again : forall is k i, nth_error is k = Some i ->
  fst (ms_run true (firstn (k + 1) is)) = true ->
  snd (ms_run true (twice k is)) = twice k (snd (ms_run true is)) /\
  snd (ms_run true (without k is)) = without k (snd (ms_run true is)).
Proof.
  intros is k i Hi. destruct (split_at _ _ _ _ Hi) as [a [b [-> <-]]]. clear Hi.
  rewrite twice_app, without_app. rewrite firstn_app, firstn_all2 by lia.
  replace (List.length a + 1 - List.length a)%nat with 1%nat by lia. cbn [firstn].
  induction a as [|j a IH]; intros R; cbn [app ms_run List.length] in *.
  - destruct (ms_turn i) as [r out] eqn:E. cbn [fst] in R. subst r.
    destruct (ms_run true b) as [r outs]. split; reflexivity.
  - destruct (ms_turn j) as [r out] eqn:E. destruct r.
    + specialize (IH ltac:(destruct (ms_run true (a ++ [i])); exact R)). destruct IH as [I1 I2].
      destruct (ms_run true (a ++ i :: i :: b)) as [r1 o1], (ms_run true (a ++ b)) as [r2 o2],
        (ms_run true (a ++ i :: b)) as [r3 o3]. cbn [snd] in *. subst o1 o2. split; reflexivity.
    + exfalso. assert (D : forall l, fst (ms_run false l) = false).
      { clear. induction l as [|i l IH]; [reflexivity|]. cbn [ms_run]. destruct (ms_run false l). exact IH. }
      specialize (D (a ++ [i])). destruct (ms_run false (a ++ [i])). cbn [fst] in *. congruence.
Qed.
Print Assumptions C87_mount_again.

(** ** The port mapper *)

(** Every copy of a request for a port starts one more service, on a port of its
    own: the claim that asking again changes nothing is false. *)
Theorem C87_getport_again : forall d from m c g ports, bytes_ok d -> call_says d m -> rpc_body m = Call c ->
  ca_procedure c = PortmapGetport g -> Forall (fun port => port < 65536) ports ->
  let kind := match gp_program g with Nfs => NfsService | _ => ProgramService end in
  pm_run true (map (fun port => mkPmIn d from (Some port) true) ports) =
  (true, map (fun port => [PmStart kind port; PmReply from (std_reply (rpc_xid m) (std_getport_result port))]) ports).
Proof.
  intros d from m c g ports B Cs Bc Pc Hp kind.
  destruct (codec_cases _ B) as [[m' [c' [E [Cs' Bc']]]]|[[_ [_ Nc]]|[_ [Nc _]]]]; [|elim (Nc m Cs)|elim (Nc m Cs)].
  pose proof (call_functional _ _ _ Cs Cs'). subst m'. rewrite Bc in Bc'. injection Bc' as <-.
  induction Hp as [|port ports Hport _ IH]; [reflexivity|]. cbn [map pm_run].
  assert (T : pm_turn (mkPmIn d from (Some port) true) =
    (true, [PmStart kind port; PmReply from (std_reply (rpc_xid m) (std_getport_result port))])).
  { unfold pm_turn. cbn [pi_datagram pi_port pi_send pi_from]. rewrite E, Bc, Pc.
    rewrite (proj1 (C41_standard_results (rpc_xid m))).
    unfold send_to. rewrite Bool.andb_true_r. subst kind.
    replace (len _ <=? max_datagram) with true; [destruct (gp_program g); reflexivity|].
    symmetry. apply N.leb_le. apply reply_fits. change (len (std_getport_result port)) with 4. lia. }
  rewrite T, IH. reflexivity.
Qed.
Print Assumptions C87_getport_again.

(** ** The database *)

(** A request that was answered can be made again: the answer is the same, and so
    are all other answers. *)
Theorem C87_request_again : forall p h d chunks k, (k < List.length (serve p h d None chunks))%nat ->
  serve p h d None (twice k chunks) = twice k (serve p h d None chunks).
Proof.
  intros p h d chunks k L. destruct (nth_error chunks k) as [c|] eqn:E; [exact (serve_again p h d chunks k None c E L)|].
  apply nth_error_None in E. exfalso.
  assert (X : forall st cs, (List.length (serve p h d st cs) <= List.length cs)%nat).
  { intros st cs. revert st. induction cs as [|c cs IH]; intros st; [cbn; lia|]. cbn [serve].
    destruct (process p h d st c) as [[a st']| |]; cbn [List.length]; [specialize (IH st'); lia|lia|lia]. }
  specialize (X None chunks). lia.
Qed.
Print Assumptions C87_request_again.

(** A request that asks for no menu can also be left out. *)
Theorem C87_request_lost : forall p h d chunks k c, (k < List.length (serve p h d None chunks))%nat ->
  nth_error chunks k = Some c -> bytes_ok c -> no_menu p [c] ->
  serve p h d None (without k chunks) = without k (serve p h d None chunks).
Proof.
  intros p h d chunks k c L Hc B N. apply (serve_lost p h d chunks k None c Hc B); [|exact L].
  intros m. apply N. left. reflexivity.
Qed.
Print Assumptions C87_request_lost.

(** ** Discovery *)

(** In any state, a keep-alive datagram that comes twice in a row changes what
    is known as if it had come once; the copy announces no new device, and asks
    for a link exactly if the first one did. *)
Theorem C87_heard_again : forall is d ifaces,
  let i := KaDatagram d ifaces in
  w_state (fst (run (is ++ [i; i]))) = w_state (fst (run (is ++ [i]))) /\
  snd (run (is ++ [i; i])) = snd (run (is ++ [i])) ++ [filter not_change (last (snd (run (is ++ [i]))) [])].
Proof.
  intros is d ifaces i.
  assert (A : forall w l j, run_from w (l ++ [j]) =
    (fst (step (fst (run_from w l)) j), snd (run_from w l) ++ [snd (step (fst (run_from w l)) j)])).
  { intros w l. revert w. induction l as [|y l IH]; intros w j; cbn [app run_from].
    - cbn [fst snd app]. destruct (step w j). reflexivity.
    - destruct (step w y) as [w1 o]. rewrite IH. destruct (run_from w1 l). reflexivity. }
  change [i; i] with ([i] ++ [i]). rewrite app_assoc. unfold run. rewrite !A. cbn [fst snd].
  destruct (step_again (fst (run_from world_start is)) d ifaces) as [S O].
  split; [exact S|]. rewrite last_last. f_equal. f_equal. exact O.
Qed.
Print Assumptions C87_heard_again.

(** ** The status service *)

(** A status datagram that does not end the service is answered each time it
    comes, and has no effect on the others. *)
Theorem C87_status_again : forall is k i, nth_error is k = Some i ->
  fst (status_run (firstn (k + 1) is)) = true ->
  exists before own after, snd (status_run [i]) = own /\
    snd (status_run is) = before ++ own ++ after /\
    snd (status_run (twice k is)) = before ++ own ++ own ++ after /\
    snd (status_run (without k is)) = before ++ after.
Proof.
  intros is k i Hi. destruct (split_at _ _ _ _ Hi) as [a [b [-> <-]]]. clear Hi.
  rewrite twice_app, without_app. rewrite firstn_app, firstn_all2 by lia.
  replace (List.length a + 1 - List.length a)%nat with 1%nat by lia. cbn [firstn].
  induction a as [|j a IH]; intros R; cbn [app status_run List.length] in *.
  - destruct (status_turn i) as [out| |] eqn:E; [|discriminate R|discriminate R].
    exists [], (out ++ []), (snd (status_run b)). rewrite !app_nil_r. destruct (status_run b). repeat split.
  - destruct (status_turn j) as [out| |] eqn:E; [|discriminate R|discriminate R].
    specialize (IH ltac:(destruct (status_run (a ++ [i])); exact R)).
    destruct IH as [x [own [y [I0 [I1 [I2 I3]]]]]]. exists (out ++ x), own, y. split; [exact I0|].
    destruct (status_run (a ++ i :: i :: b)), (status_run (a ++ b)), (status_run (a ++ i :: b)).
    cbn [snd] in *. subst. rewrite <- !app_assoc. repeat split.
Qed.
Print Assumptions C87_status_again.

(** ** Cases *)

(** A read of an open file, repeated. *)
Example C87_case_read :
  let r := demo_read demo 5 (handle_for 7) 0 3 in
  (goes_well Little ([open_a] ++ [r]) /\ ~ is_lookup (snd r)) /\
  List.length (nth 1 (snd (nfs_run Little (twice 1 [fst open_a; fst r]) service_new)) []) = 1%nat /\
  nth 2 (snd (nfs_run Little (twice 1 [fst open_a; fst r]) service_new)) [] =
  nth 1 (snd (nfs_run Little (twice 1 [fst open_a; fst r]) service_new)) [].
Proof.
  cbv zeta. split; [split; [exact C51_case|intros [xid [l F]]; discriminate F]|].
  split; vm_compute; reflexivity.
Qed.

(** The lookup of "a" in the root, repeated: a lookup of "/a/a". *)
Definition twin_a : nfs_input * heard := demo_lookup twin_os 1 (lit "a") (repeat 0 32).
Definition twin_x : nfs_input * heard := demo_lookup twin_os 2 (lit "x") (handle_for 5).
Lemma twin_heard : (bytes_ok (ni_datagram (fst twin_a)) /\ hears (ni_datagram (fst twin_a)) (snd twin_a)) /\
  (bytes_ok (ni_datagram (fst twin_x)) /\ hears (ni_datagram (fst twin_x)) (snd twin_x)).
Proof.
  split; apply demo_lookup_heard; try reflexivity; repeat constructor; vm_compute; reflexivity.
Qed.
Lemma twin_well : goes_well Little [twin_a] /\ goes_well Little [twin_a; twin_a].
Proof.
  destruct twin_heard as [[B H] _].
  assert (W1 : goes_well Little ([] ++ [twin_a])).
  { apply (lookup_answered Little [] twin_a 1 (mkLookup (lit "a") (repeat 0 32)) (demo_meta true 5 4096) 50
      (demo_well_nil _) B H eq_refl eq_refl); [vm_compute; reflexivity|vm_compute; reflexivity|apply demo_times]. }
  split; [exact W1|].
  apply (lookup_answered Little [twin_a] twin_a 1 (mkLookup (lit "a") (repeat 0 32)) (demo_meta true 6 4096) 60
    W1 B H eq_refl eq_refl); [vm_compute; reflexivity|vm_compute; reflexivity|apply demo_times].
Qed.
Example C87_case_lookup :
  answered_with twin_os (lit "/a/a") twin_a (nth 1 (snd (served Little ([] ++ [twin_a; twin_a]))) []).
Proof.
  refine (proj2 (proj2 (C87_lookup_again Little [] twin_a 1 (lit "a") (repeat 0 32) (demo_meta true 5 4096) 50 _
    (proj2 twin_well) eq_refl _ _)) _ _).
  - split; [discriminate|]. cbn. intros [F|[]]. discriminate F.
  - vm_compute. reflexivity.
  - vm_compute. reflexivity.
  - vm_compute. discriminate.
  - vm_compute. discriminate.
Qed.

(** The service stands in "/a/a"; a client that wants "/a/x" is left without an
    answer at its first name, and starts over. *)
Example C87_case_tries :
  let walk := [twin_a; twin_x] in
  settled twin_os /\ path_of_file twin_os [lit "a"; lit "x"] /\ walks [lit "a"; lit "x"] walk /\
  goes_well Little [twin_a; twin_a] /\
  PNfs.answered (snd (served Little ([twin_a; twin_a] ++ [twin_a] ++ walk))) = [true; true; false; true; true].
Proof.
  cbv zeta. split; [|split; [|split; [|split]]].
  - intros path m H. unfold twin_os in *. cbn [os_stat os_open] in *.
    repeat match type of H with option_map fst (if ?c then _ else _) = _ => destruct c; [injection H as <-; split; [apply demo_times|discriminate]|] end.
    discriminate H.
  - split; [discriminate|]. split; [repeat constructor; try discriminate; cbn; intros [F|[]]; discriminate F|].
    intros j [Lo Hi]. cbn [List.length] in Hi. destruct j as [|[|[|j]]]; [lia| | |lia].
    + exists (demo_meta true 5 4096). split; vm_compute; reflexivity.
    + exists (demo_meta false 7 3). split; vm_compute; reflexivity.
  - destruct twin_heard as [[B1 H1] [B2 H2]]. constructor; [|constructor; [|constructor]].
    + split; [exact B1|]. split; [exact H1|]. split; [reflexivity|]. exists 1, (repeat 0 32). reflexivity.
    + split; [exact B2|]. split; [exact H2|]. split; [reflexivity|]. exists 2, (handle_for 5). reflexivity.
  - exact (proj2 twin_well).
  - vm_compute. reflexivity.
Qed.

(** An export query that is repeated; a request for a port that comes three times;
    a page asked for twice; a device heard twice. *)
Example C87_case_others :
  (let is := [mkMsIn [9] 1 false None true; mkMsIn export_call 1 false (Some case_network) true] in
   fst (ms_run true is) = true /\
   map (@List.length _) (snd (ms_run true (twice 1 is))) = [0; 1; 1]%nat) /\
  pm_run true (map (fun port => mkPmIn getport_nfs 2 (Some port) true) [4000; 4001; 4002]) =
  (true, map (fun port => [PmStart NfsService port; PmReply 2 (std_reply 7 (word port))]) [4000; 4001; 4002]) /\
  (let chunks := [client_request 1 0x1002 []; client_request 2 0x3000 []] in
   let answers := serve Checked reverse_order example_db None (twice 1 chunks) in
   List.length (serve Checked reverse_order example_db None chunks) = 2%nat /\
   nth 1 answers [] = nth 2 answers [] /\ nth 1 answers [] <> []) /\
  (let i := KaDatagram (status_datagram "XDJ-700" 3 192 168 10 52) one_iface in
   snd (run [i; i]) = [[Posted DeviceChange; Posted InitiateLink]; [Posted InitiateLink]]).
Proof.
  split; [|split; [|split]].
  - split; vm_compute; reflexivity.
  - vm_compute. reflexivity.
  - split; [vm_compute; reflexivity|]. split; [vm_compute; reflexivity|vm_compute; discriminate].
  - vm_compute. reflexivity.
Qed.
