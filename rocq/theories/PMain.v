(** Property theorems C86: the program from its start. *)

From Verif Require Import Base Unicode MPath MDb MDatabase MScan MLib SDb SDatabase SLib SConn SScan SEnd
  SUdp MRpc SRpc MNetwork MRpcServer SRpcServer MNfs SNfs SLoad MPackets MServer MStatus MSystem SSystem SSession
  MMain SMain
  LBase LUnicode LScan LDatabase LEnd LNfs LLoad LSystem LSession PDatabase PLib PScan PNfs PEnd PRpcServer PSystem PLoad
  PSession.
From Coq Require Import ZArith Arith Lia String Permutation.
Open Scope list_scope.
Open Scope N_scope.

Lemma rname_ok : name_ok (lit "TermDJ").
Proof. repeat split; try discriminate. cbn. unfold slash. intuition discriminate. Qed.
Lemma the_folder_ends : the_folder = lit "TermDJ" \/ exists parent, the_folder = parent ++ lit "/" ++ lit "TermDJ".
Proof. right. exists (lit "/home/jonas/Music"). reflexivity. Qed.
Lemma rname_visible : ~ dotted (lit "TermDJ").
Proof.
  intros (s & _ & E). assert (X : utf8_encode (lit "." ++ s) = 46 :: utf8_encode s) by reflexivity.
  rewrite X in E. discriminate.
Qed.
Lemma rname_no_mp3 : ~ mp3_name (lit "TermDJ").
Proof.
  intros (stem & _ & E). apply (f_equal (@rev _)) in E. rewrite rev_app_distr in E.
  cbv in E. discriminate.
Qed.

(** The scan of a place is that of its contents. *)
Lemma scan_contents : forall p pl, scan_place p music_path pl = scan_folder p the_folder (contents pl).
Proof.
  intros p [n|n]; [reflexivity|]. change music_path with the_folder. cbn [scan_place].
  unfold scan_link, scan_folder. f_equal. unfold mp3_files_link, mp3_files.
  assert (H : forall k, is_hidden (mkDent the_folder k) = false) by (intros [f| |]; reflexivity).
  destruct n as [f|[es|]| |]; cbn [contents walk_link walk]; rewrite ?H; try reflexivity.
Qed.

Lemma scan_length : forall p pl l, place_ok pl -> scan_folder p the_folder (contents pl) = Ok l ->
  len l < 2 ^ 32 - 1.
Proof.
  intros p pl l (Ht & _ & Hc) E.
  apply (C22_finds_exactly p the_folder _ _ l Ht rname_ok the_folder_ends) in E. destruct E as (files & T & R & _).
  assert (A : (List.length files <= List.length (all_files (contents pl)))%nat)
    by (clear -T; induction T; cbn [List.length]; lia).
  assert (B : (List.length l <= List.length files)%nat) by (clear -R; induction R; cbn [List.length]; lia).
  unfold len in *. lia.
Qed.

Lemma started : forall p h pl d, order_ok h -> place_ok pl -> app_new p h music_path pl = Ok d ->
  exists l, indexed_folder p h the_folder (lit "TermDJ") (contents pl) l d.
Proof.
  intros p h pl d Ho P E. unfold app_new in E. apply rbind_ok in E. destruct E as (l & E & D).
  rewrite scan_contents in E. pose proof P as (Ht & Hg & _). exists l.
  repeat (split; [first [assumption|apply rname_ok|apply the_folder_ends]|]).
  split; [eapply scan_length; eassumption|assumption].
Qed.

(** ** Start *)

(** The program starts, or it panics before it has bound a port; and it panics
    exactly if, in a checked build, a visible mp3 file in the folder has a tempo
    that does not fit. *)
Theorem C86_starts_or_panics : forall p h pl, order_ok h -> place_ok pl ->
  (app_new p h music_path pl = Panic <-> p = Checked /\ exists names, deadly pl names) /\
  (app_new p h music_path pl <> Panic -> exists d, app_new p h music_path pl = Ok d).
Proof.
  intros p h pl Ho P. pose proof P as (Ht & _). unfold app_new. rewrite scan_contents.
  destruct (C22_otherwise_panics p the_folder _ _ Ht rname_ok the_folder_ends) as [Hp Ne].
  assert (X : (scan_folder p the_folder (contents pl) = Panic <-> p = Checked /\ exists names, deadly pl names)).
  { rewrite Hp. split; intros [C H]; (split; [exact C|]).
    - destruct H as ((names & f) & I & V & M & T). exists names, f. cbn [fst snd] in *. split; [exact I|].
      split; [intros n In; apply V; right; exact In|]. split; [|exact T].
      destruct names as [|n names]; [elim (rname_no_mp3 M)|].
      clear -M. revert n M. induction names as [|m names IH]; intros n M; [exact M|]. exact (IH m M).
    - destruct H as (names & f & I & V & M & T). exists (names, f). cbn [fst snd]. split; [exact I|].
      split; [intros n [<-|In]; [apply rname_visible|apply V; exact In]|]. split; [|exact T].
      destruct names as [|n names]; [destruct M as (stem & Ns & M); destruct stem; discriminate|].
      clear -M. revert n M. induction names as [|m names IH]; intros n M; [exact M|]. exact (IH m M). }
  destruct (scan_folder p the_folder (contents pl)) as [l| |] eqn:E; [| |].
  - cbn [rbind]. destruct (db_new_indexed p h l Ho (scan_length p pl l P E)) as (d & D & _). rewrite D.
    split; [|intros _; exists d; reflexivity]. rewrite <- X. split; discriminate.
  - contradiction.
  - cbn [rbind]. split; [rewrite <- X; split; reflexivity|]. intros Z. elim Z. reflexivity.
Qed.
Print Assumptions C86_starts_or_panics.

(** If it panics, nothing is ever answered. *)
Theorem C86_not_started : forall e p h pl ka st mp db is,
  app_new p h music_path pl = Panic -> List.concat (program e p h pl ka st mp db is) = [].
Proof.
  intros e p h pl ka st mp db is E. unfold program. rewrite E.
  induction is as [|i is IH]; [reflexivity|exact IH].
Qed.
Print Assumptions C86_not_started.

(** A link to the folder is as good as the folder. *)
Theorem C86_link : forall e p h es ka st mp db is,
  program e p h (LinkTo (NDir es)) ka st mp db is = program e p h (Place (NDir es)) ka st mp db is.
Proof. intros. unfold program, app_new. rewrite !scan_contents. reflexivity. Qed.
Print Assumptions C86_link.

(** ** Music *)

Lemma full_path_utf8 : forall r, utf8_encode (full_path r) = the_folder ++ lit "/" ++ utf8_encode r.
Proof. reflexivity. Qed.
(** The built-in part of a path takes 25 of the 127 units a text can have. *)
Theorem C86_room_for_path : forall r, short (full_path r) <-> len (utf16_encode r) <= 102.
Proof.
  intros r. unfold short, full_path, utf16_encode. rewrite flat_map_app, len_app.
  change (len (flat_map utf16_char (lit "/home/jonas/Music/TermDJ/"))) with 25. lia.
Qed.
Print Assumptions C86_room_for_path.

Lemma below_start : forall names, names <> [] -> exists rest, below the_folder names = the_folder ++ lit "/" ++ rest.
Proof. intros [|n names] H; [contradiction|]. eexists. reflexivity. Qed.

Lemma music_names : forall tree names s, music the_folder (lit "TermDJ") tree names s -> names <> [].
Proof. intros tree names s (f & _ & _ & M & _) ->. exact (rname_no_mp3 M). Qed.
Lemma music_song : forall pl names s, music the_folder (lit "TermDJ") (contents pl) names s ->
  exists rest, song pl rest s /\ below the_folder names = the_folder ++ lit "/" ++ rest.
Proof.
  intros pl names s M. destruct (below_start names (music_names _ _ _ M)) as [rest E].
  exists rest. split; [exists names; auto|exact E].
Qed.

Lemma utf8_strip : forall path rest, str_ok path -> utf8_encode path = the_folder ++ lit "/" ++ rest ->
  exists r, str_ok r /\ path = full_path r /\ rest = utf8_encode r.
Proof.
  intros path rest Sp E.
  assert (G : forall (pre : str) q rest, str_ok q -> Forall (fun c => c < 128) pre -> utf8_encode q = pre ++ rest ->
    exists r, str_ok r /\ q = pre ++ r /\ rest = utf8_encode r).
  { clear. induction pre as [|c pre IH]; intros q rest Sq F E; [exists q; auto|].
    inversion F as [|? ? Hc F']; subst. destruct q as [|x q]; [discriminate|].
    inversion Sq as [|? ? Hx Sq']; subst.
    change (utf8_encode (x :: q)) with (utf8_char x ++ utf8_encode q) in E.
    destruct (utf8_char_high x) as [L|(b & bs & Eb & Lb & _)].
    - rewrite utf8_char_low in E by exact L. injection E as -> E. destruct (IH q rest Sq' F' E) as (r & R1 & -> & R2).
      exists r. auto.
    - rewrite Eb in E. cbn [app] in E. injection E as -> _. lia. }
  destruct (G (lit "/home/jonas/Music/TermDJ/") path rest Sp) as (r & R1 & R2 & R3);
    [repeat constructor|exact E|]. exists r. auto.
Qed.

Section Started.
  Context (p : profile) (h : hash_order) (pl : place) (d : database) (l : list scanned).
  Hypothesis Ix : indexed_folder p h the_folder (lit "TermDJ") (contents pl) l d.
  Hypothesis Pr : presentable pl.

  Lemma listed_song : forall s, In s l -> exists rest, song pl rest s /\ s_path s = the_folder ++ lit "/" ++ rest.
  Proof.
    intros s I. pose proof Ix as (_ & Ht & _ & Hn & Hr & Hs & _).
    apply (scan_is_music p the_folder _ _ l Ht Hn Hr Hs) in I. destruct I as [names M].
    destruct (music_song pl names s M) as (rest & S & E). exists rest. split; [exact S|].
    destruct M as (f & _ & _ & _ & (z & _ & _ & P & _)). congruence.
  Qed.
  Lemma artists_short : short_page l ArtistMenu.
  Proof.
    apply Forall_forall. intros s I. destruct (listed_song s I) as (rest & S & _). exact (proj1 (Pr rest s S)).
  Qed.
  Lemma tracks_short : forall n, short_tracks l n.
  Proof.
    intros n s I _. destruct (listed_song s I) as (rest & S & E). destruct (Pr rest s S) as (_ & T & R).
    split; [exact T|]. intros path Sp Ep. rewrite Ep in E. destruct (utf8_strip path rest Sp E) as (r & Sr & -> & Er).
    apply C86_room_for_path. exact (R r Sr Er).
  Qed.
End Started.

(** Whatever happens in the process, an artist, a title and a path that a player
    reads belong to a song of the folder; *)
Theorem C86_only_songs : forall e p h pl d mp db is a n t x path size, order_ok h -> place_ok pl -> presentable pl ->
  app_new p h music_path pl = Ok d -> process_runs is -> str_ok n -> str_ok x -> str_ok path ->
  let tr := combine is (program e p h pl true true mp db is) in
  sees_artist tr a n -> sees_track tr a t x -> sees_path tr t path size ->
  exists r s, path = full_path r /\ song pl (utf8_encode r) s /\ s_artist s = n /\ s_title s = x /\ s_size s = size.
Proof.
  intros e p h pl d mp db is a n t x path size Ho P Pr E R Sn Sx Sp tr H1 H2 H3.
  unfold tr, program in *. rewrite E in *. destruct (started p h pl d Ho P E) as (l & Ix).
  destruct (C80_only_music e p h the_folder _ _ l d mp db is a n t x path size Ix (artists_short _ _ _ _ _ Ix Pr)
    (tracks_short _ _ _ _ _ Ix Pr n) Sn Sx Sp R H1 H2 H3) as (names & s & M & En & Ex & Eb & Ez).
  destruct (music_song pl names s M) as (rest & S & Er). rewrite Er in Eb. symmetry in Eb.
  destruct (utf8_strip path rest Sp Eb) as (r & Sr & -> & ->). exists r, s. auto.
Qed.
Print Assumptions C86_only_songs.

(** and every song with a path in Unicode is shown wherever a player asks. *)
Theorem C86_all_songs : forall e p h pl d mp db is r s, order_ok h -> place_ok pl -> presentable pl ->
  app_new p h music_path pl = Ok d -> process_runs is -> str_ok r -> song pl (utf8_encode r) s ->
  let tr := combine is (program e p h pl true true mp db is) in
  exists a t, a < 2 ^ 32 /\ t < 2 ^ 32 /\
    always_reads tr 0x1002 [] (fun tx => row tx a (s_artist s) 7) /\
    always_reads tr 0x1202 [0; 0; a] (fun tx => row tx t (s_title s) 4) /\
    always_reads tr 0x2102 [0; t] (fun tx => item tx (s_size s) 5 (full_path r) [] 0 0 0).
Proof.
  intros e p h pl d mp db is r s Ho P Pr E R Sr (names & M & Eb) tr. unfold tr, program. rewrite E.
  destruct (started p h pl d Ho P E) as (l & Ix).
  apply (C80_all_music e p h the_folder _ _ l d mp db is names s (full_path r) Ix (artists_short _ _ _ _ _ Ix Pr)
    (tracks_short _ _ _ _ _ Ix Pr _) R M).
  - apply Forall_app. split; [|exact Sr]. repeat constructor.
  - rewrite Eb. reflexivity.
Qed.
Print Assumptions C86_all_songs.

(** If there is no song, not even a folder, the program runs all the same: every
    list of artists asked for is an empty page. *)
Theorem C86_no_songs : forall e p h pl mp db is, order_ok h -> place_ok pl ->
  (forall rest s, ~ song pl rest s) -> (forall names, ~ deadly pl names) -> process_runs is ->
  let tr := combine is (program e p h pl true true mp db is) in
  forall port chunks answers k tx tx', conversation tr port chunks answers -> Forall bytes_ok chunks ->
    asks_at chunks answers k tx tx' 0x1002 [] ->
    reads_at chunks answers k tx tx' 0x1002 [] [header tx'; footer tx'].
Proof.
  intros e p h pl mp db is Ho P No Nd R tr port chunks answers k tx tx' C B A.
  destruct (C86_starts_or_panics p h pl Ho P) as [Hp Hs].
  destruct Hs as [d E]. { rewrite Hp. intros [_ [names D]]. exact (Nd names D). }
  unfold tr, program in C. rewrite E in C. destruct (started p h pl d Ho P E) as (l & Ix).
  assert (L : l = []).
  { destruct l as [|s l]; [reflexivity|]. exfalso.
    destruct (listed_song p h pl d (s :: l) Ix s (or_introl eq_refl)) as (rest & S & _). exact (No rest s S). }
  rewrite (C79_conversation e p h d mp db is port chunks answers R C) in *.
  pose proof (asks_ok p h d chunks k tx tx' 0x1002 [] B A) as Q.
  assert (Sh : short_page l ArtistMenu) by (subst l; constructor).
  destruct (can_ask p h the_folder _ _ l d Ix _ ArtistMenu 0x1002 [] Sh Q (Forall_nil _) (Nat.le_0_l _) eq_refl (fun H => H))
    as (ms & M & G).
  destruct A as (_ & _ & _ & C1 & C2). apply reads_asked; [exact B|].
  subst l. cbn [page_ok] in G. destruct G as (rows & -> & G). apply Permutation_sym, Permutation_nil in G. subst rows.
  auto.
Qed.
Print Assumptions C86_no_songs.

Lemma absolute_folder : the_folder = absolute [lit "home"; lit "jonas"; lit "Music"; lit "TermDJ"].
Proof. reflexivity. Qed.
Lemma folder_components : Forall component [lit "home"; lit "jonas"; lit "Music"; lit "TermDJ"].
Proof. repeat constructor; try discriminate; cbn; unfold slash; intuition discriminate. Qed.

(** A player that has picked an artist and a title from the pages it was shown,
    walks along the path it was given and reads the file in pieces, gets the bytes
    of a song of the folder with that artist, title and size. *)
Theorem C86_session : forall p h pl d a n t x path size before walk reads ino f content cnt mp db start j run_on port
    o1 o2 outs,
  order_ok h -> place_ok pl -> presentable pl -> app_new p h music_path pl = Ok d ->
  str_ok n -> str_ok x -> str_ok path ->
  let is := start ++ SysMapper j :: run_on in
  program Little p h pl true true mp db is = o1 ++ o2 :: outs -> List.length o1 = List.length start ->
  let tr := combine is (o1 ++ o2 :: outs) in
  process_runs is -> sees_artist tr a n -> sees_track tr a t x -> sees_path tr t path size ->
  goes_well Little before -> position before = [47] -> looks_up path walk ->
  starts o2 NfsService port -> (forall os v, In os outs -> ~ starts os v port) ->
  udp_inputs port run_on = map fst (before ++ walk ++ reads) ->
  exists names s, music the_folder (lit "TermDJ") (contents pl) names s /\
    s_artist s = n /\ s_title s = x /\ s_size s = size /\ utf8_encode path = below the_folder names /\
  (on_disk ([lit "home"; lit "jonas"; lit "Music"; lit "TermDJ"] ++ names) walk ino f ->
   reads_pieces (handle_for ino) cnt reads -> has_content f content reads ->
   cnt <= 65404 -> len content = size -> size <= cnt * len reads ->
   exists earlier got,
     udp_outputs port (List.concat outs) = earlier ++ map snd got /\
     Forall2 (fun x g => data_reply x (fst g) (snd g)) reads got /\
     firstn (N.to_nat size) (List.concat (map fst got)) = content).
Proof.
  intros p h pl d a n t x path size before walk reads ino f content cnt mp db start j run_on port o1 o2 outs
    Ho P Pr E Sn Sx Sp is O Lo tr R H1 H2 H3 W P0 Lk S Ns U.
  destruct (started p h pl d Ho P E) as (l & Ix). unfold program in O. rewrite E in O.
  assert (O2 : o2 = snd (sys_step Little p h d (SysMapper j) (fst (sys_run Little p h d start (system_start true true mp db)))) /\
    outs = snd (sys_run Little p h d run_on (fst (sys_step Little p h d (SysMapper j)
             (fst (sys_run Little p h d start (system_start true true mp db))))))).
  { clear -O Lo. subst is. revert o1 Lo O. generalize (system_start true true mp db).
    induction start as [|i start IH]; intros s o1 Lo O; cbn [app sys_run fst] in *.
    - destruct o1; [|discriminate].
      destruct (sys_step Little p h d (SysMapper j) s) as [s1 o]. cbn [fst snd].
      destruct (sys_run Little p h d run_on s1) as [s2 os]. cbn [snd app] in O. injection O as <- <-. auto.
    - destruct o1 as [|x o1]; [discriminate|]. destruct (sys_step Little p h d i s) as [s1 o]. cbn [fst snd].
      specialize (IH s1 o1). destruct (sys_run Little p h d (start ++ SysMapper j :: run_on) s1) as [s2 os].
      destruct (sys_run Little p h d start s1) as [s3 os']. cbn [fst snd app] in *. injection O as -> O.
      apply IH; [injection Lo as Lo; exact Lo|exact O]. }
  destruct O2 as [-> ->].
  destruct (C80_session p h the_folder _ _ l d a n t x path size _ before walk reads ino f content cnt mp db start j run_on port
    Ix (artists_short _ _ _ _ _ Ix Pr) (tracks_short _ _ _ _ _ Ix Pr n) Sn Sx Sp absolute_folder folder_components R)
    as (names & s & M & En & Ex & Ez & Eb & G); try assumption.
  1-3: fold is; rewrite O; assumption.
  exists names, s. auto 6.
Qed.
Print Assumptions C86_session.

(** ** Cases *)

(** The example folder under the built-in path, given by a link. *)
Definition main_place : place := LinkTo example_tree.
Definition main_db : database :=
  match app_new Checked reverse_order music_path main_place with Ok d => d | _ => db_empty end.

Lemma main_started : app_new Checked reverse_order music_path main_place = Ok main_db.
Proof. vm_compute. reflexivity. Qed.
Lemma main_ok : place_ok main_place.
Proof.
  destruct example_indexed as (_ & Ht & Hg & _). split; [exact Ht|]. split; [exact Hg|reflexivity].
Qed.
Lemma main_presentable : presentable main_place.
Proof.
  intros rest s (names & M & Eb).
  assert (Es : s_path s = the_folder ++ lit "/" ++ rest).
  { destruct M as (f & _ & _ & _ & (z & _ & _ & P & _)). congruence. }
  assert (Hs : scan_folder Checked the_folder (contents main_place) =
    Ok [mkScanned (lit "Artist") [] (Some 12800) (lit "Album") (the_folder ++ lit "/one.mp3") 5;
        mkScanned (lit "a") (lit "t") None (lit "l") (the_folder ++ lit "/sub/five.old.mp3") 7])
    by (vm_compute; reflexivity).
  assert (I := proj2 (scan_is_music _ _ _ _ _ (proj1 main_ok) rname_ok the_folder_ends Hs s) (ex_intro _ names M)).
  assert (G : forall q, str_ok q -> rest = utf8_encode q -> len (utf16_encode q) <= 102 ->
    forall r, str_ok r -> rest = utf8_encode r -> len (utf16_encode r) <= 102).
  { intros q Sq Eq Lq r Sr Er. assert (r = q) by (apply utf8_encode_inj; congruence). subst r. exact Lq. }
  destruct I as [<-|[<-|[]]]; cbn [s_path s_artist s_title] in Es |- *; apply app_inv_head in Es; apply (f_equal (@tl N)) in Es;
    cbn [tl lit app] in Es.
  - split; [vm_compute; discriminate|]. split; [vm_compute; discriminate|].
    apply (G (lit "one.mp3")); [apply ascii_ok; reflexivity|symmetry; exact Es|vm_compute; discriminate].
  - split; [vm_compute; discriminate|]. split; [vm_compute; discriminate|].
    apply (G (lit "sub/five.old.mp3")); [apply ascii_ok; reflexivity|symmetry; exact Es|vm_compute; discriminate].
Qed.

Definition main_os : os :=
  let file p := if list_eq_dec N.eq_dec p (lit "/home") then Some (demo_meta true 2 4096, 20)
           else if list_eq_dec N.eq_dec p (lit "/home/jonas") then Some (demo_meta true 3 4096, 30)
           else if list_eq_dec N.eq_dec p (lit "/home/jonas/Music") then Some (demo_meta true 6 4096, 60)
           else if list_eq_dec N.eq_dec p (lit "/home/jonas/Music/TermDJ") then Some (demo_meta true 7 4096, 70)
           else if list_eq_dec N.eq_dec p (lit "/home/jonas/Music/TermDJ/sub") then Some (demo_meta true 4 4096, 40)
           else if list_eq_dec N.eq_dec p (lit "/home/jonas/Music/TermDJ/sub/five.old.mp3") then Some (demo_meta false 5 7, 50)
           else None in
  mkOs (fun p => option_map fst (file p)) (fun p => option_map snd (file p))
       (fun f => if f =? 50 then Some [1; 2; 3; 4; 5; 6; 7] else None)
       (fun f => if f =? 50 then Some (demo_meta false 5 7) else None).
Definition main_walk : history :=
  [demo_lookup main_os 1 (lit "home") (repeat 0 32); demo_lookup main_os 2 (lit "jonas") (repeat 0 32);
   demo_lookup main_os 3 (lit "Music") (repeat 0 32); demo_lookup main_os 4 (lit "TermDJ") (repeat 0 32);
   demo_lookup main_os 5 (lit "sub") (repeat 0 32); demo_lookup main_os 6 (lit "five.old.mp3") (repeat 0 32)].
Definition main_reads : history := [demo_read main_os 7 (handle_for 5) 0 4; demo_read main_os 8 (handle_for 5) 4 4].
Definition main_rest : list sys_input :=
  [SysQuery 1 [0; 0; 0; 15] (Some 5001)] ++
  session_ask 0x2102 [0; 3] 5 ++
  map (fun x => SysUdp 4001 (fst x)) (main_walk ++ main_reads) ++ [SysDb (Connect 5000)].
Definition main_inputs : list sys_input := session_start ++ SysMapper session_nfs :: main_rest.
Definition main_outputs : list (list sys_output) :=
  program Little Checked reverse_order main_place true true true true main_inputs.
Definition main_run : trace := combine main_inputs main_outputs.

Definition main_chunks : list bytes :=
  map (fun i => match i with SysDb (Chunk _ c) => c | _ => [] end)
     (session_ask 0x1002 [] 1 ++ session_ask 0x1202 [0; 0; 3] 3 ++ session_ask 0x2102 [0; 3] 5).
Lemma main_conversation : conversation main_run 5000 main_chunks (db_answers 5000 (List.concat (map snd main_run))).
Proof.
  exists (firstn 1 main_run), 1, [0; 0; 0; 15], [OutQuery 1 (be 2 5000)], (skipn 2 main_run), [].
  split; [vm_compute; reflexivity|]. split; [reflexivity|]. split.
  - intros i os I (c & chunk & ->). apply (in_map fst) in I. rewrite <- skipn_map in I.
    vm_compute in I. repeat (destruct I as [I|I]; [discriminate I|]). destruct I.
  - split; vm_compute; reflexivity.
Qed.

Example C86_case :
  order_ok reverse_order /\ place_ok main_place /\ presentable main_place /\
  app_new Checked reverse_order music_path main_place = Ok main_db /\ process_runs main_inputs /\
  sees_artist main_run 3 (lit "a") /\ sees_track main_run 3 3 (lit "t") /\
  sees_path main_run 3 (full_path (lit "sub/five.old.mp3")) 7 /\
  (exists o1 o2 outs, main_outputs = o1 ++ o2 :: outs /\ List.length o1 = List.length session_start /\
     starts o2 NfsService 4001 /\ (forall os v, In os outs -> ~ starts os v 4001)) /\
  udp_inputs 4001 main_rest = map fst ([] ++ main_walk ++ main_reads).
Proof.
  split; [exact reverse_order_ok|]. split; [exact main_ok|]. split; [exact main_presentable|].
  split; [exact main_started|]. split; [vm_compute; reflexivity|].
  split; [|split; [|split; [|split; [|vm_compute; reflexivity]]]].
  - do 2 eexists. exists (db_answers 5000 (List.concat (map snd main_run))). exists 0%nat, 1, 2. eexists.
    split; [exact main_conversation|]. split; [exact session_bytes|]. split.
    + split; [reflexivity|]. split; [reflexivity|]. split; [reflexivity|]. split; [reflexivity|].
      eexists. split; vm_compute; reflexivity.
    + vm_compute. auto.
  - split; [reflexivity|].
    do 2 eexists. exists (db_answers 5000 (List.concat (map snd main_run))). exists 2%nat, 3, 4. eexists.
    split; [exact main_conversation|]. split; [exact session_bytes|]. split.
    + split; [reflexivity|]. split; [reflexivity|]. split; [reflexivity|]. split; [reflexivity|].
      eexists. split; vm_compute; reflexivity.
    + vm_compute. auto.
  - split; [reflexivity|].
    do 2 eexists. exists (db_answers 5000 (List.concat (map snd main_run))). exists 4%nat, 5, 6. eexists.
    split; [exact main_conversation|]. split; [exact session_bytes|]. split.
    + split; [reflexivity|]. split; [reflexivity|]. split; [reflexivity|]. split; [reflexivity|].
      eexists. split; vm_compute; reflexivity.
    + vm_compute. auto 10.
  - exists (firstn (List.length session_start) main_outputs). eexists.
    exists (skipn (S (List.length session_start)) main_outputs). split; [vm_compute; reflexivity|].
    split; [vm_compute; reflexivity|]. split; [vm_compute; auto|]. apply no_start. vm_compute. reflexivity.
Qed.

Example C86_case_load :
  looks_up (full_path (lit "sub/five.old.mp3")) main_walk /\
  on_disk ([lit "home"; lit "jonas"; lit "Music"; lit "TermDJ"] ++ [lit "sub"; lit "five.old.mp3"]) main_walk 5 50 /\
  reads_pieces (handle_for 5) 4 main_reads /\ has_content 50 [1; 2; 3; 4; 5; 6; 7] main_reads.
Proof.
  split; [|split; [|split]].
  - exists [lit "home"; lit "jonas"; lit "Music"; lit "TermDJ"; lit "sub"; lit "five.old.mp3"]. split; [split; [reflexivity|]|].
    + repeat constructor; try discriminate; vm_compute; intuition discriminate.
    + repeat constructor; exists (repeat 0 32); apply demo_asks; try reflexivity; constructor; try reflexivity; apply ascii_ok; reflexivity.
  - split; [reflexivity|]. intros [|[|[|[|[|[|j]]]]]] x Hx; try (destruct j; discriminate); injection Hx as <-;
      do 2 eexists; (split; [vm_compute; reflexivity|]); (split; [vm_compute; reflexivity|]);
      (split; [repeat split; discriminate|]); split; try reflexivity; intros E; try discriminate E; split; reflexivity.
  - intros [|[|k]] x Hx; try (destruct k; discriminate); injection Hx as <-; exists 0; apply demo_asks; try reflexivity;
      constructor; reflexivity.
  - repeat constructor; exists (demo_meta false 5 7); repeat split; discriminate.
Qed.

(** A file with an excessive tempo keeps a checked build from starting; without a
    folder it starts and has no songs. *)
Example C86_case_start :
  let bad := Place (NDir (Some [(lit "x.mp3", NFile (example_v2 "42949673"))])) in
  app_new Checked reverse_order music_path bad = Panic /\
  app_new Wrapping reverse_order music_path bad <> Panic /\
  place_ok (Place NBad) /\ (forall rest s, ~ song (Place NBad) rest s) /\ (forall names, ~ deadly (Place NBad) names).
Proof.
  cbn zeta. split; [vm_compute; reflexivity|]. split; [vm_compute; discriminate|].
  split; [split; [constructor|split; [intros names f []|reflexivity]]|].
  split; [intros rest s (names & (f & [] & _) & _)|intros names (f & [] & _)].
Qed.
