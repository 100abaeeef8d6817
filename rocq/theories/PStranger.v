(** Property theorems C61: what anybody can fetch from the machine. *)

From Verif Require Import Base Unicode MDatabase MRpc MRpcServer MNfs SUdp SRpc SRpcServer SNfs SDisk SMany
  MPath MDb MLib MNetwork MPackets MServer MStatus MSystem SSystem LBase LUdp LDatabase LRpc LRpc2 LRpcServer LNfs LNfs2
  LLoad LSystem LSession LOrder PNfs PRpcServer PDatabase PLib PSystem PDisk PMany.
From Coq Require Import ZArith Lia Arith String.
Open Scope list_scope.
Open Scope N_scope.

(** ** C61 *)

(** A lookup of the absolute path of a readable regular file, wherever walks have
    gone before, and then reads of its pieces in any order with anything in between,
    give the whole file. *)
Theorem C61_whole_file : forall d0 before d x after xid rest h f cnt js content,
  on_disk Little service_new d0 (before ++ (d, x) :: after) -> Forall fair (before ++ (d, x) :: after) ->
  snd x = Asked xid (NfsLookup (mkLookup (47 :: rest) h)) ->
  dk_names d (47 :: rest) = Some f -> m_file (dk_info d f) = true ->
  cnt <= 65404 -> asks_pieces (handle_for (m_ino (dk_info d f))) cnt after js ->
  (forall k j d' r, nth_error js k = Some j -> nth_error after j = Some (d', r) -> dk_content d' f = content) ->
  len content <= cnt * len js ->
  let answers := snd (served Little (map snd (before ++ (d, x) :: after))) in
  finds d x (Some f) (nth (List.length before) answers []) /\
  exists datas, List.length datas = List.length js /\
    (forall k j data, nth_error js k = Some j -> nth_error datas k = Some data ->
       exists d' r, nth_error after j = Some (d', r) /\ gives r data (nth (List.length before + 1 + j) answers [])) /\
    firstn (N.to_nat (len content)) (List.concat datas) = content.
Proof.
  intros d0 before d x after xid rest h f cnt js content O F Hx Hn Hm Le As Ct Lc answers. split.
  - pose proof (lookup_on_disk Little d0 before d x after xid (47 :: rest) h O F Hx) as K.
    cbn [resolve] in K. rewrite Hn in K. exact K.
  - apply (pieces_given d0 before d x after xid f cnt js content O F); try assumption.
    exists (mkLookup (47 :: rest) h). split; [exact Hx|]. split; [exact Hn|exact Hm].
Qed.
Print Assumptions C61_whole_file.

(** So anybody who can reach the machine can fetch any file the program can read,
    with no password and without being known as a device: a call to the port mapper
    starts a file service and tells its port, and that service gives the file. *)
Theorem C61_stranger : forall p hs lib mp db start j m c g run_on d0 d x after xid rest h f cnt js content,
  let s := fst (sys_run Little p hs lib start (system_start true true mp db)) in
  let s' := fst (sys_step Little p hs lib (SysMapper j) s) in
  let outs := snd (sys_run Little p hs lib run_on s') in
  process_runs (start ++ SysMapper j :: run_on) -> sy_mapper s' = true ->
  bytes_ok (pi_datagram j) -> call_says (pi_datagram j) m -> rpc_body m = Call c ->
  ca_procedure c = PortmapGetport g -> gp_program g = Nfs ->
  exists port, 
    snd (sys_step Little p hs lib (SysMapper j) s) =
      [OutMapper (PmStart NfsService port);
       OutMapper (PmReply (pi_from j) (std_reply (rpc_xid m) (std_getport_result port)))] /\
    ((forall os v, In os outs -> ~ starts os v port) ->
     udp_inputs port run_on = map (fun y => fst (snd y)) ((d, x) :: after) ->
     on_disk Little service_new d0 ((d, x) :: after) -> Forall fair ((d, x) :: after) ->
     snd x = Asked xid (NfsLookup (mkLookup (47 :: rest) h)) ->
     dk_names d (47 :: rest) = Some f -> m_file (dk_info d f) = true ->
     cnt <= 65404 -> asks_pieces (handle_for (m_ino (dk_info d f))) cnt after js ->
     (forall k j d' r, nth_error js k = Some j -> nth_error after j = Some (d', r) -> dk_content d' f = content) ->
     len content <= cnt * len js ->
     exists datas, List.length datas = List.length js /\
       (forall k i data, nth_error js k = Some i -> nth_error datas k = Some data ->
          exists d' r out, nth_error after i = Some (d', r) /\ gives r data [out] /\
            In out (udp_outputs port (List.concat outs))) /\
       firstn (N.to_nat (len content)) (List.concat datas) = content).
Proof.
  intros p hs lib mp db start j m c g run_on d0 d x after xid rest h f cnt js content s s' outs R M B C Bo Pr Pg.
  assert (Rs : w_running (sy_world s) = true).
  { unfold process_runs in R. rewrite <- (start_runs Little p hs lib mp db) in R. exact (running_first _ _ _ _ _ _ _ R). }
  pose proof (step_shape Little p hs lib (SysMapper j) s Rs) as S. cbn beta iota in S.
  assert (Ms : sy_mapper s = true).
  { unfold s' in M. rewrite S in M. destruct (sy_mapper s) eqn:Ms; [reflexivity|cbn in M; congruence]. }
  rewrite Ms in S.
  destruct (pm_turn_cases j B) as [(_ & _ & A)|(Ff & _)]; [|unfold s' in M; rewrite S in M; cbn in M; congruence].
  destruct A as [(m' & c' & port & C' & Bo' & P & Out)|(N & _)]; [|destruct (N m C)].
  rewrite (call_functional _ _ _ C' C) in *. rewrite Bo in Bo'. injection Bo' as <-.
  unfold pm_starts in Out. rewrite Pr, Pg in Out. exists port. split; [rewrite S; cbn [snd]; rewrite Out; reflexivity|].
  intros Ns U O F Hx Hn Hm Le As Ct Lc.
  assert (St : starts (snd (sys_step Little p hs lib (SysMapper j) s)) NfsService port).
  { rewrite S. cbn [snd]. rewrite Out. left. reflexivity. }
  destruct (C61_whole_file d0 [] d x after xid rest h f cnt js content O F Hx Hn Hm Le As Ct Lc) as (_ & datas & Ld & G & J).
  exists datas. split; [exact Ld|]. split; [|exact J].
  intros k i data Hk Hd. destruct (G k i data Hk Hd) as (d' & r & Hj & (xr & q & fattr & Hr & Hl & Ou)).
  exists d', r, (ni_from (fst r), std_reply xr (std_read_result fattr data)). split; [exact Hj|].
  split; [exists xr, q, fattr; repeat split; assumption|].
  unfold outs, s', s. rewrite (C63_nfs_service_alone Little p hs lib mp db start j run_on port St R Ns), U.
  rewrite <- (map_map snd fst). fold (served Little (map snd ((d, x) :: after))).
  apply in_concat. exists [(ni_from (fst r), std_reply xr (std_read_result fattr data))]. split; [|left; reflexivity]. rewrite <- Ou. apply nth_In.
  unfold served. rewrite run_length, !map_length. cbn [app List.length].
  assert (i < List.length after)%nat by (apply nth_error_Some; rewrite Hj; discriminate). lia.
Qed.
Print Assumptions C61_stranger.

(** A stranger fetches "/a/x" in two pieces, the last piece first. *)
Definition strange_getport : pm_input := mkPmIn getport_nfs 1 (Some 4001) true.
Definition strange_after : list event := [two_read 4 7 2 2; two_read 5 7 0 2].
Definition strange_events : list event := two_lookup 3 (lit "/a/x") :: strange_after.
Definition strange_run : list sys_input := map (fun y => SysUdp 4001 (fst (snd y))) strange_events.

Lemma getport_nfs_says : exists m c g, call_says getport_nfs m /\ rpc_body m = Call c /\
  ca_procedure c = PortmapGetport g /\ gp_program g = Nfs.
Proof.
  assert (B : bytes_ok getport_nfs) by (apply demo_bytes; vm_compute; reflexivity).
  destruct (codec_cases getport_nfs B) as [[m [c [E [C Bc]]]]|[[E _]|[[E|E] _]]]; try (vm_compute in E; discriminate E).
  assert (X : match codec_decode getport_nfs with
              | Ok (Some m) => match rpc_body m with
                               | Call c => match ca_procedure c with PortmapGetport g => gp_program g | _ => Mount end
                               | _ => Mount end
              | _ => Mount end = Nfs) by (vm_compute; reflexivity).
  rewrite E, Bc in X. exists m, c. destruct (ca_procedure c) as [| | |g| | | | | | | | |] eqn:Ep; try discriminate X.
  exists g. auto.
Qed.

Example C61_case_stranger :
  let s := system_start true true true true in
  let s' := fst (sys_step Little Checked reverse_order example_db (SysMapper strange_getport) s) in
  process_runs (SysMapper strange_getport :: strange_run) /\ sy_mapper s' = true /\
  (exists m c g, call_says (pi_datagram strange_getport) m /\ rpc_body m = Call c /\
     ca_procedure c = PortmapGetport g /\ gp_program g = Nfs) /\
  (forall os v, In os (snd (sys_run Little Checked reverse_order example_db strange_run s')) -> ~ starts os v 4001) /\
  udp_inputs 4001 strange_run = map (fun y => fst (snd y)) strange_events /\
  on_disk Little service_new two_disk strange_events /\ Forall fair strange_events /\
  dk_names two_disk (lit "/a/x") = Some 70 /\ m_file (dk_info two_disk 70) = true /\
  asks_pieces (handle_for (m_ino (dk_info two_disk 70))) 2 strange_after [1; 0]%nat /\ dk_content two_disk 70 = [1; 2; 3].
Proof.
  intros s s'. split; [vm_compute; reflexivity|]. split; [vm_compute; reflexivity|].
  split; [exact getport_nfs_says|]. split; [apply no_start; vm_compute; reflexivity|]. split; [reflexivity|]. split.
  { assert (K : forall run s d, d = two_disk -> Forall (fun y => fst y = two_disk /\ ni_os (fst (snd y)) = os_on two_disk) run ->
      (forall k, In (open_files (fst (nfs_run Little (firstn k (map (fun y => fst (snd y)) run)) s))) [[]; [70]]) ->
      on_disk Little s d run).
    { intros run. induction run as [|[d' y] run IH]; intros s0 d -> Hf Hs; [constructor|].
      inversion Hf as [|? ? [E1 E2] Hf']; subst. cbn [fst snd] in *. subst d'. constructor; [|exact E2|].
      - specialize (Hs 0%nat). cbn [firstn nfs_run fst In] in Hs.
        destruct Hs as [<-|[<-|[]]]; good_change.
      - apply IH; [reflexivity|exact Hf'|]. intros k. specialize (Hs (S k)). cbn [map firstn] in Hs. rewrite run_step in Hs. exact Hs. }
    apply K; [reflexivity|repeat constructor|].
    intros k. do 3 (destruct k as [|k]; [vm_compute; tauto|]). destruct k; vm_compute; tauto. }
  split.
  { assert (Rd : forall xid ino off cnt, word_ok xid -> word_ok off -> word_ok cnt -> cnt <= 65404 ->
      forallb (fun b => b <? 256) (ni_datagram (fst (snd (two_read xid ino off cnt)))) = true -> fair (two_read xid ino off cnt)).
    { intros xid ino off cnt H1 H2 H3 H4 H5.
      destruct (demo_read_heard (os_on two_disk) xid (handle_for ino) off cnt H1 (handle_for_len ino) H2 H3 H5) as [A B].
      split; [exact A|]. split; [exact B|]. split; [reflexivity|exact H4]. }
    assert (Lk : fair (two_lookup 3 (lit "/a/x"))).
    { destruct (demo_lookup_heard (os_on two_disk) 3 (lit "/a/x") (repeat 0 32)) as [A B];
        [reflexivity|reflexivity|repeat constructor; vm_compute; reflexivity|reflexivity|vm_compute; reflexivity|].
      split; [exact A|]. split; [exact B|]. split; [reflexivity|exact I]. }
    apply Forall_cons; [exact Lk|].
    apply Forall_cons; [apply (Rd 4 7 2 2); [reflexivity|reflexivity|reflexivity|lia|vm_compute; reflexivity]|].
    apply Forall_cons; [apply (Rd 5 7 0 2); [reflexivity|reflexivity|reflexivity|lia|vm_compute; reflexivity]|].
    constructor. }
  split; [vm_compute; reflexivity|]. split; [vm_compute; reflexivity|]. split; [|reflexivity].
  intros [|[|k]] j Hk; try (destruct k; discriminate); injection Hk as <-; do 4 eexists; split; reflexivity.
Qed.
