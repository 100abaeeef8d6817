(** Property theorems C79 and C80: conversations and whole sessions in the running
    process. *)

From Verif Require Import Base Unicode MPath MDb MDatabase MScan MLib SDb SDatabase SLib SConn SScan SEnd
  SUdp MRpc SRpc MNetwork MRpcServer SRpcServer MNfs SNfs SLoad MPackets MServer MStatus MSystem SSystem SSession
  LBase LUnicode LScan LDatabase LEnd LNfs LLoad LSystem LSession PDatabase PLib PScan PNfs PEnd PRpcServer PSystem PLoad.
From Coq Require Import ZArith Arith Lia String.
Open Scope list_scope.
Open Scope N_scope.

(** ** C79 *)

(** At a port that was given out, the first client to connect is answered as if
    it were alone with the database: each chunk, in order, from the state its own
    earlier chunks have left. *)
Theorem C79_conversation : forall e p h d mp db is port chunks answers, process_runs is ->
  conversation (combine is (snd (sys_run e p h d is (system_start true true mp db)))) port chunks answers ->
  answers = serve p h d None chunks.
Proof.
  intros e p h d mp db is port chunks answers R C. eapply conversation_serve; [|exact C]. rewrite start_runs. exact R.
Qed.
Print Assumptions C79_conversation.

(** At a port that was not given out, nobody is answered. *)
Theorem C79_not_given_out : forall e p h d mp db is port, process_runs is ->
  (forall i, In i is -> ~ hands_out i port) ->
  db_answers port (List.concat (snd (sys_run e p h d is (system_start true true mp db)))) = [].
Proof.
  intros e p h d mp db is port R H. apply start_silent; [rewrite start_runs; exact R|exact H|reflexivity].
Qed.
Print Assumptions C79_not_given_out.

(** ** C80 *)

Section Session.
  Context (e : endian) (p : profile) (h : hash_order) (root rname : bytes) (tree : node) (l : list scanned) (d : database).
  Context (mp db : bool) (is : list sys_input).
  Let tr := combine is (snd (sys_run e p h d is (system_start true true mp db))).

  Lemma sees_artist_lists : process_runs is -> forall a n, sees_artist tr a n ->
    exists q, asking_ok p h d q /\ lists_artist p h d q a n.
  Proof.
    intros R a n (port & chunks & answers & k & tx & tx' & ms & C & B & Rd & I).
    rewrite (C79_conversation e p h d mp db is port chunks answers R C) in Rd.
    apply reads_asked in Rd; [|exact B]. destruct Rd as (Q & A & _).
    exists (mkAsking (firstn k chunks) tx tx'). split; [exact Q|]. exists ms. auto.
  Qed.
  Lemma sees_track_lists : process_runs is -> forall a t x, sees_track tr a t x ->
    exists q, asking_ok p h d q /\ lists_track p h d q a t x.
  Proof.
    intros R a t x (La & port & chunks & answers & k & tx & tx' & ms & C & B & Rd & I).
    rewrite (C79_conversation e p h d mp db is port chunks answers R C) in Rd.
    apply reads_asked in Rd; [|exact B]. destruct Rd as (Q & A & _).
    exists (mkAsking (firstn k chunks) tx tx'). split; [exact Q|]. split; [exact La|]. exists ms. auto.
  Qed.
  Lemma sees_path_gives : process_runs is -> forall t path size, sees_path tr t path size ->
    exists q, asking_ok p h d q /\ gives_path p h d q t path size.
  Proof.
    intros R t path size (Lt & port & chunks & answers & k & tx & tx' & ms & C & B & Rd & I).
    rewrite (C79_conversation e p h d mp db is port chunks answers R C) in Rd.
    apply reads_asked in Rd; [|exact B]. destruct Rd as (Q & A & _).
    exists (mkAsking (firstn k chunks) tx tx'). split; [exact Q|]. split; [exact Lt|]. exists ms. auto.
  Qed.

  Lemma always_asked : forall code args item, process_runs is ->
    (forall q, asking_ok p h d q -> exists ms, asked p h d q code args ms /\ In (item (ask_tx' q)) (items ms)) ->
    always_reads tr code args item.
  Proof.
    intros code args it R H port chunks answers k tx tx' C B A.
    rewrite (C79_conversation e p h d mp db is port chunks answers R C) in *.
    pose proof (asks_ok p h d chunks k tx tx' code args B A) as Q. destruct (H _ Q) as (ms & M & I).
    destruct A as (_ & _ & _ & C1 & C2).
    exists ms. split; [|exact I]. apply reads_asked; auto.
  Qed.
End Session.

(** What a player sees in the running process, going from the artists over the
    titles to the file on any connections, is music of the folder. *)
Theorem C80_only_music : forall e p h root rname tree l d mp db is a n t x path size,
  indexed_folder p h root rname tree l d -> short_page l ArtistMenu -> short_tracks l n ->
  str_ok n -> str_ok x -> str_ok path -> process_runs is ->
  let tr := combine is (snd (sys_run e p h d is (system_start true true mp db))) in
  sees_artist tr a n -> sees_track tr a t x -> sees_path tr t path size ->
  exists names s, music root rname tree names s /\
    s_artist s = n /\ s_title s = x /\ below root names = utf8_encode path /\ s_size s = size.
Proof.
  intros e p h root rname tree l d mp db is a n t x path size Ix Sh St Sn Sx Sp R tr H1 H2 H3.
  destruct (sees_artist_lists e p h d mp db is R a n H1) as (q1 & Q1 & L1).
  destruct (sees_track_lists e p h d mp db is R a t x H2) as (q2 & Q2 & L2).
  destruct (sees_path_gives e p h d mp db is R t path size H3) as (q3 & Q3 & L3).
  apply (C66_browsing p h root rname tree l d q1 q2 q3 n x path size Ix Sh St Q1 Q2 Q3 Sn Sx Sp).
  exists a, t. auto.
Qed.
Print Assumptions C80_only_music.

(** Every music file of the folder with a path in Unicode can be seen so: its
    artist, title and file have ids under which they are in every page a player
    asks for, whenever and on whatever connection it asks. *)
Theorem C80_all_music : forall e p h root rname tree l d mp db is names s path,
  indexed_folder p h root rname tree l d -> short_page l ArtistMenu -> short_tracks l (s_artist s) ->
  process_runs is ->
  let tr := combine is (snd (sys_run e p h d is (system_start true true mp db))) in
  music root rname tree names s -> str_ok path -> below root names = utf8_encode path ->
  exists a t, a < 2 ^ 32 /\ t < 2 ^ 32 /\
    always_reads tr 0x1002 [] (fun tx => row tx a (s_artist s) 7) /\
    always_reads tr 0x1202 [0; 0; a] (fun tx => row tx t (s_title s) 4) /\
    always_reads tr 0x2102 [0; t] (fun tx => item tx (s_size s) 5 path [] 0 0 0).
Proof.
  intros e p h root rname tree l d mp db is names s path Ix Sh St R tr Mu Sp Eb.
  pose proof Ix as (_ & Ht & _ & Hn & Hr & Hs & Hl & _).
  pose proof (scan_is_music p root rname tree l Ht Hn Hr Hs) as M.
  assert (Is : In s l) by (apply M; exists names; assumption).
  assert (Ep : s_path s = utf8_encode path).
  { destruct Mu as (f & _ & _ & _ & (z & _ & _ & P & _)). congruence. }
  pose proof (artist_text p h root rname tree l d Ix (s_artist s) (in_map _ _ _ Is)) as Sn.
  pose proof (title_text p h root rname tree l d Ix s Is) as Sx.
  assert (S1 : short_page l (TitlesOfArtist (artist_number l (s_artist s)))).
  { intros i s' Hin. unfold tracks_of_artist in Hin. apply filter_In in Hin. destruct Hin as [Hin E].
    apply N.eqb_eq in E. apply numbered_in in Hin. destruct Hin as (_ & _ & Hin). apply nth_error_In in Hin.
    assert (En : s_artist s' = s_artist s).
    { apply (artist_number_inj l); [apply firsts_in, in_map; assumption|apply firsts_in, in_map; assumption|assumption]. }
    exact (proj1 (St s' Hin En)). }
  destruct (proj1 (track_in l s) Is) as [t T].
  assert (S2 : short_page l (TrackMountInfo t)).
  { intros s' path' T' Sp' Ep'. assert (s' = s) by congruence. subst s'. exact (proj2 (St s Is eq_refl) path' Sp' Ep'). }
  assert (La : artist_number l (s_artist s) < 2 ^ 32) by (apply artist_small; [assumption|apply in_map; assumption]).
  exists (artist_number l (s_artist s)), t. split; [exact La|].
  split; [exact (track_small l t s Hl T)|]. split; [|split].
  - apply (always_asked e p h d mp db is 0x1002 [] (fun tx => row tx (artist_number l (s_artist s)) (s_artist s) 7) R).
    intros q Q. apply (lists_artist_iff p h root rname tree l d Ix Sh q _ _ Q Sn). split; [apply in_map; assumption|reflexivity].
  - apply (always_asked e p h d mp db is 0x1202 [0; 0; _] (fun tx => row tx t (s_title s) 4) R).
    intros q Q.
    assert (X : lists_track p h d q (artist_number l (s_artist s)) t (s_title s)).
    { apply (lists_track_iff p h root rname tree l d Ix q _ _ _ S1 Q Sx). split; [exact La|]. exists s. auto. }
    destruct X as [_ X]. exact X.
  - apply (always_asked e p h d mp db is 0x2102 [0; t] (fun tx => item tx (s_size s) 5 path [] 0 0 0) R).
    intros q Q.
    assert (X : gives_path p h d q t path (s_size s)).
    { apply (gives_path_iff p h root rname tree l d Ix q _ _ _ S2 Q Sp). exists s. auto. }
    destruct X as [_ X]. exact X.
Qed.
Print Assumptions C80_all_music.

(** A player that has picked an artist and a title from the pages it was shown,
    and loads the file it was given over an NFS service of the same process, gets
    the bytes of a file with that artist and that title. *)
Theorem C80_session : forall p h root rname tree l d a n t x path size rnames before walk reads ino f content cnt
    mp db start j run_on port,
  indexed_folder p h root rname tree l d -> short_page l ArtistMenu -> short_tracks l n ->
  str_ok n -> str_ok x -> str_ok path -> root = absolute rnames -> Forall component rnames ->
  let is := start ++ SysMapper j :: run_on in
  let tr := combine is (snd (sys_run Little p h d is (system_start true true mp db))) in
  process_runs is -> sees_artist tr a n -> sees_track tr a t x -> sees_path tr t path size ->
  goes_well Little before -> position before = [47] -> looks_up path walk ->
  let s := fst (sys_run Little p h d start (system_start true true mp db)) in
  let s' := fst (sys_step Little p h d (SysMapper j) s) in
  let outs := snd (sys_run Little p h d run_on s') in
  starts (snd (sys_step Little p h d (SysMapper j) s)) NfsService port ->
  (forall os v, In os outs -> ~ starts os v port) ->
  udp_inputs port run_on = map fst (before ++ walk ++ reads) ->
  exists names sc, music root rname tree names sc /\
    s_artist sc = n /\ s_title sc = x /\ s_size sc = size /\ below root names = utf8_encode path /\
  (on_disk (rnames ++ names) walk ino f ->
   reads_pieces (handle_for ino) cnt reads -> has_content f content reads ->
   cnt <= 65404 -> len content = size -> size <= cnt * len reads ->
   exists earlier got,
     udp_outputs port (List.concat outs) = earlier ++ map snd got /\
     Forall2 (fun x g => data_reply x (fst g) (snd g)) reads got /\
     firstn (N.to_nat size) (List.concat (map fst got)) = content).
Proof.
  intros p h root rname tree l d a n t x path size rnames before walk reads ino f content cnt mp db start j run_on port
    Ix Sh St Sn Sx Sp Er Cr is tr R H1 H2 H3 W P0 Lk s s' outs S Ns U.
  destruct (C80_only_music Little p h root rname tree l d mp db is a n t x path size Ix Sh St Sn Sx Sp R H1 H2 H3)
    as (names & sc & Mu & En & Ex & Eb & Ez).
  destruct (sees_artist_lists Little p h d mp db is R a n H1) as (q1 & Q1 & L1).
  destruct (sees_track_lists Little p h d mp db is R a t x H2) as (q2 & Q2 & L2).
  destruct (sees_path_gives Little p h d mp db is R t path size H3) as (q3 & Q3 & L3).
  exists names, sc. split; [exact Mu|]. split; [exact En|]. split; [exact Ex|]. split; [exact Ez|]. split; [exact Eb|].
  assert (S2 : short_page l (TrackMountInfo t)).
  { pose proof Ix as (_ & Ht & _ & Hn & Hr & Hs & Hl & _).
    apply (lists_artist_iff p h root rname tree l d Ix Sh q1 a n Q1 Sn) in L1. destruct L1 as [I Ea].
    assert (S1 : short_page l (TitlesOfArtist a)).
    { rewrite Ea. intros i s0 Hin. unfold tracks_of_artist in Hin. apply filter_In in Hin. destruct Hin as [Hin E].
      apply N.eqb_eq in E. apply numbered_in in Hin. destruct Hin as (_ & _ & Hin). apply nth_error_In in Hin.
      assert (E1 : s_artist s0 = n).
      { apply (artist_number_inj l); [apply firsts_in, in_map; assumption|apply firsts_in; assumption|assumption]. }
      exact (proj1 (St s0 Hin E1)). }
    apply (lists_track_iff p h root rname tree l d Ix q2 a t x S1 Q2 Sx) in L2. destruct L2 as (_ & s1 & T & Na & _).
    assert (I1 : In s1 l) by (apply track_in; exists t; assumption).
    assert (E1 : s_artist s1 = n).
    { apply (artist_number_inj l); [apply firsts_in, in_map; assumption|apply firsts_in; assumption|congruence]. }
    intros s0 path' T' Sp' Ep'. assert (s0 = s1) by congruence. subst s0. exact (proj2 (St s1 I1 E1) path' Sp' Ep'). }
  destruct (C67_load_in_process p h root rname tree l d q3 t path size rnames before walk reads ino f content cnt
    mp db start j run_on port Ix S2 Q3 Sp L3 Er Cr W P0 Lk S R Ns U) as (names' & sc' & Mu' & _ & Eb' & H).
  assert (names' = names).
  { destruct Ix as (_ & Ht & _). destruct Mu as (f1 & F1 & _), Mu' as (f2 & F2 & _).
    apply (below_inj root); [exact (files_names_ok tree Ht _ _ F2)|exact (files_names_ok tree Ht _ _ F1)|congruence]. }
  subst names'. exact H.
Qed.
Print Assumptions C80_session.

(** A session with the example folder: a player is given port 5000, reads the
    artists, the titles of one and the path of a title there, asks the port mapper
    for an NFS service, walks and reads; meanwhile others ask too. *)
Definition session_ask (code : N) (args : list N) (tx : N) : list sys_input :=
  [SysDb (Chunk 5000 (client_request tx code args)); SysDb (Chunk 5000 (client_request (tx + 1) 0x3000 []))].
Definition session_start : list sys_input :=
  [SysJoin [Some 1]; SysQuery 1 [0; 0; 0; 15] (Some 5000); SysDb (Connect 5000)] ++
  session_ask 0x1002 [] 1 ++ session_ask 0x1202 [0; 0; 3] 3.
Definition session_nfs : pm_input := mkPmIn getport_nfs 1 (Some 4001) true.
Definition session_rest : list sys_input :=
  [SysQuery 1 [0; 0; 0; 15] (Some 5001)] ++
  session_ask 0x2102 [0; 3] 5 ++
  map (fun x => SysUdp 4001 (fst x)) (example_walk ++ example_reads) ++ [SysDb (Connect 5000)].
Definition session_run : trace :=
  combine (session_start ++ SysMapper session_nfs :: session_rest)
    (snd (sys_run Little Checked reverse_order example_found_db (session_start ++ SysMapper session_nfs :: session_rest)
            (system_start true true true true))).

Lemma session_conversation : conversation session_run 5000
  (map (fun i => match i with SysDb (Chunk _ c) => c | _ => [] end)
     (session_ask 0x1002 [] 1 ++ session_ask 0x1202 [0; 0; 3] 3 ++ session_ask 0x2102 [0; 3] 5))
  (db_answers 5000 (List.concat (map snd session_run))).
Proof.
  exists (firstn 1 session_run), 1, [0; 0; 0; 15], [OutQuery 1 (be 2 5000)], (skipn 2 session_run), [].
  split; [vm_compute; reflexivity|]. split; [reflexivity|]. split.
  - intros i os I (c & chunk & ->). apply (in_map fst) in I. rewrite <- skipn_map in I.
    unfold session_run in I. rewrite record_inputs in I. vm_compute in I.
    repeat (destruct I as [I|I]; [discriminate I|]). destruct I.
  - split; vm_compute; reflexivity.
Qed.

Lemma session_bytes : Forall bytes_ok (map (fun i => match i with SysDb (Chunk _ c) => c | _ => [] end)
     (session_ask 0x1002 [] 1 ++ session_ask 0x1202 [0; 0; 3] 3 ++ session_ask 0x2102 [0; 3] 5)).
Proof. repeat constructor; apply demo_bytes; vm_compute; reflexivity. Qed.

Example C79_case :
  process_runs (session_start ++ SysMapper session_nfs :: session_rest) /\
  db_answers 5000 (List.concat (map snd session_run)) <> [] /\
  forall i, In i (session_start ++ SysMapper session_nfs :: session_rest) -> ~ hands_out i 5002.
Proof.
  split; [vm_compute; reflexivity|]. split; [vm_compute; discriminate|].
  intros i I (c & chunk & ->). vm_compute in I. repeat (destruct I as [I|I]; [discriminate I|]). destruct I.
Qed.

Example C80_case :
  sees_artist session_run 3 (lit "a") /\ sees_track session_run 3 3 (lit "t") /\
  sees_path session_run 3 (lit "/home/TermDJ/sub/five.old.mp3") 7 /\
  process_runs (session_start ++ SysMapper session_nfs :: session_rest) /\
  let s := fst (sys_run Little Checked reverse_order example_found_db session_start (system_start true true true true)) in
  let s' := fst (sys_step Little Checked reverse_order example_found_db (SysMapper session_nfs) s) in
  let outs := snd (sys_run Little Checked reverse_order example_found_db session_rest s') in
  starts (snd (sys_step Little Checked reverse_order example_found_db (SysMapper session_nfs) s)) NfsService 4001 /\
  (forall os v, In os outs -> ~ starts os v 4001) /\
  udp_inputs 4001 session_rest = map fst ([] ++ example_walk ++ example_reads) /\
  List.length (udp_outputs 4001 (List.concat outs)) = 6%nat.
Proof.
  split; [|split; [|split]].
  - do 2 eexists. exists (db_answers 5000 (List.concat (map snd session_run))). exists 0%nat, 1, 2. eexists.
    split; [exact session_conversation|]. split; [exact session_bytes|]. split.
    + split; [reflexivity|]. split; [reflexivity|]. split; [reflexivity|]. split; [reflexivity|].
      eexists. split; vm_compute; reflexivity.
    + vm_compute. auto.
  - split; [reflexivity|].
    do 2 eexists. exists (db_answers 5000 (List.concat (map snd session_run))). exists 2%nat, 3, 4. eexists.
    split; [exact session_conversation|]. split; [exact session_bytes|]. split.
    + split; [reflexivity|]. split; [reflexivity|]. split; [reflexivity|]. split; [reflexivity|].
      eexists. split; vm_compute; reflexivity.
    + vm_compute. auto.
  - split; [reflexivity|].
    do 2 eexists. exists (db_answers 5000 (List.concat (map snd session_run))). exists 4%nat, 5, 6. eexists.
    split; [exact session_conversation|]. split; [exact session_bytes|]. split.
    + split; [reflexivity|]. split; [reflexivity|]. split; [reflexivity|]. split; [reflexivity|].
      eexists. split; vm_compute; reflexivity.
    + vm_compute. auto 10.
  - split; [vm_compute; reflexivity|]. split; [vm_compute; auto|]. split; [apply no_start; vm_compute; reflexivity|].
    split; vm_compute; reflexivity.
Qed.
