(** Property theorems C66: from the music folder to the player. *)

From Verif Require Import Base Unicode MPath MDb MDatabase MScan MLib SDb SDatabase SLib SScan SEnd
  LBase LUnicode LScan LDatabase LLib3 LRpcServer LEnd PDatabase PLib PScan.
From Coq Require Import ZArith String.
Open Scope list_scope.
Open Scope N_scope.

(** ** C66 *)

(** Browsing from the artists over their titles to the file, with any questions
    asked before on any connections, shows exactly the music of the folder. *)
Theorem C66_browsing : forall p h root rname tree l d qa qt qp n x path size,
  indexed_folder p h root rname tree l d -> short_page l ArtistMenu -> short_tracks l n ->
  asking_ok p h d qa -> asking_ok p h d qt -> asking_ok p h d qp ->
  str_ok n -> str_ok x -> str_ok path ->
  ((exists a t, lists_artist p h d qa a n /\ lists_track p h d qt a t x /\ gives_path p h d qp t path size)
   <->
   (exists names s, music root rname tree names s /\
      s_artist s = n /\ s_title s = x /\ below root names = utf8_encode path /\ s_size s = size)).
Proof.
  intros p h root rname tree l d qa qt qp n x path size Ix Sh St Qa Qt Qp Sn Sx Sp.
  pose proof Ix as (_ & Ht & _ & Hn & Hr & Hs & Hl & _).
  pose proof (scan_is_music p root rname tree l Ht Hn Hr Hs) as M.
  assert (S1 : In n (map s_artist l) -> short_page l (TitlesOfArtist (artist_number l n))).
  { intros I i s Hin. unfold tracks_of_artist in Hin. apply filter_In in Hin. destruct Hin as [Hin E].
    apply N.eqb_eq in E. apply numbered_in in Hin. destruct Hin as (_ & _ & Hin). apply nth_error_In in Hin.
    assert (En : s_artist s = n).
    { apply (artist_number_inj l); [apply firsts_in, in_map; assumption|apply firsts_in; assumption|assumption]. }
    exact (proj1 (St s Hin En)). }
  assert (S2 : forall t s, track_with_id l t = Some s -> s_artist s = n -> short_page l (TrackMountInfo t)).
  { intros t s T E s' path' T' Sp' Ep'. assert (s' = s) by congruence. subst s'.
    assert (I : In s l) by (apply track_in; exists t; assumption).
    exact (proj2 (St s I E) path' Sp' Ep'). }
  split.
  - intros (a & t & H1 & H2 & H3).
    apply (lists_artist_iff p h root rname tree l d Ix Sh qa a n Qa Sn) in H1.
    destruct H1 as [I Ea].
    apply (lists_track_iff p h root rname tree l d Ix qt a t x) in H2; [|rewrite Ea; auto|assumption|assumption].
    destruct H2 as (_ & s & T & Na & Ex).
    assert (En : s_artist s = n).
    { apply (artist_number_inj l); [apply firsts_in, in_map, track_in; exists t; assumption|apply firsts_in; assumption|congruence]. }
    apply (gives_path_iff p h root rname tree l d Ix qp t path size (S2 t s T En) Qp Sp) in H3.
    destruct H3 as (s' & T' & Ep & Ez).
    rewrite T in T'. injection T' as <-.
    assert (Is : In s l) by (apply track_in; exists t; assumption).
    destruct (proj1 (M s) Is) as [names Mu]. exists names, s. split; [assumption|].
    split; [assumption|].
    split; [assumption|]. split; [|assumption].
    destruct Mu as (f & _ & _ & _ & (z & _ & _ & P & _)). congruence.
  - intros (names & s & Mu & <- & <- & Eb & <-).
    assert (Is : In s l) by (apply M; exists names; assumption).
    assert (Ep : s_path s = utf8_encode path).
    { destruct Mu as (f & _ & _ & _ & (z & _ & _ & P & _)). congruence. }
    destruct (proj1 (track_in l s) Is) as [t T].
    exists (artist_number l (s_artist s)), t. split; [|split].
    + apply (lists_artist_iff p h root rname tree l d Ix Sh qa _ _ Qa Sn). split; [apply in_map; assumption|reflexivity].
    + apply (lists_track_iff p h root rname tree l d Ix qt _ _ _ (S1 (in_map _ _ _ Is)) Qt Sx).
      split; [apply artist_small; [assumption|apply in_map; assumption]|]. exists s. auto.
    + apply (gives_path_iff p h root rname tree l d Ix qp _ _ _ (S2 t s T eq_refl) Qp Sp). exists s. auto.
Qed.
Print Assumptions C66_browsing.

(** The metadata page of a track is that of the file it is loaded from. *)
Theorem C66_metadata : forall p h root rname tree l d qp qm t x n b path size,
  indexed_folder p h root rname tree l d ->
  short_page l (TrackMountInfo t) -> short_page l (TrackMetadata t) -> distinct_files tree ->
  asking_ok p h d qp -> asking_ok p h d qm -> str_ok n -> str_ok x -> str_ok path ->
  gives_path p h d qp t path size ->
  (gives_metadata p h d qm t x n b <->
   exists names s, music root rname tree names s /\ below root names = utf8_encode path /\
     s_title s = x /\ s_artist s = n /\ match s_bpm s with Some v => v | None => 0 end = b).
Proof.
  intros p h root rname tree l d qp qm t x n b path size Ix Sh Sm D Qp Qm Sn Sx Sp H3.
  pose proof Ix as (_ & Ht & _ & Hn & Hr & Hs & Hl & _).
  pose proof (scan_is_music p root rname tree l Ht Hn Hr Hs) as M.
  apply (gives_path_iff p h root rname tree l d Ix qp t path size Sh Qp Sp) in H3.
  destruct H3 as (s & T & Ep & Ez).
  rewrite (gives_metadata_iff p h root rname tree l d Ix qm t x n b Sm Qm Sx Sn). split.
  - intros (s' & T' & E1 & E2 & E3). rewrite T in T'. injection T' as <-.
    assert (Is : In s l) by (apply track_in; exists t; assumption).
    destruct (proj1 (M s) Is) as [names Mu]. exists names, s. split; [assumption|].
    destruct Mu as (f & _ & _ & _ & (z & _ & _ & P & _)). repeat split; congruence.
  - intros (names & s' & Mu & Eb & E1 & E2 & E3).
    assert (Is : In s' l) by (apply M; exists names; assumption).
    destruct (proj1 (track_in l s') Is) as [t' T'].
    destruct Mu as (f & _ & _ & _ & (z & _ & _ & P & _)).
    destruct (track_path_unique l t t' s s' (folder_paths p h root rname tree l d Ix D) T T') as [_ <-]; [congruence|].
    exists s. auto.
Qed.
Print Assumptions C66_metadata.

(** A file is listed once: under one artist, with one id. *)
Theorem C66_listed_once : forall p h root rname tree l d q1 q2 q3 q4 a a' t t' x x' path size size',
  indexed_folder p h root rname tree l d -> short_scan l -> distinct_files tree ->
  asking_ok p h d q1 -> asking_ok p h d q2 -> asking_ok p h d q3 -> asking_ok p h d q4 ->
  str_ok x -> str_ok x' -> str_ok path ->
  lists_track p h d q1 a t x -> gives_path p h d q2 t path size ->
  lists_track p h d q3 a' t' x' -> gives_path p h d q4 t' path size' ->
  a' = a /\ t' = t /\ x' = x /\ size' = size.
Proof.
  intros p h root rname tree l d q1 q2 q3 q4 a a' t t' x x' path size size' Ix Sh D Q1 Q2 Q3 Q4 Sx Sx' Sp H1 H2 H3 H4.
  apply (lists_track_iff p h root rname tree l d Ix q1 a t x (short_scan_page l _ Sh) Q1 Sx) in H1.
  apply (gives_path_iff p h root rname tree l d Ix q2 t path size (short_scan_page l _ Sh) Q2 Sp) in H2.
  apply (lists_track_iff p h root rname tree l d Ix q3 a' t' x' (short_scan_page l _ Sh) Q3 Sx') in H3.
  apply (gives_path_iff p h root rname tree l d Ix q4 t' path size' (short_scan_page l _ Sh) Q4 Sp) in H4.
  destruct H1 as (_ & s1 & T1 & A1 & E1), H2 as (s2 & T2 & P2 & Z2), H3 as (_ & s3 & T3 & A3 & E3), H4 as (s4 & T4 & P4 & Z4).
  rewrite T1 in T2. injection T2 as <-. rewrite T3 in T4. injection T4 as <-.
  destruct (track_path_unique l t t' s1 s3 (folder_paths p h root rname tree l d Ix D) T1 T3) as [-> ->]; [congruence|].
  repeat split; congruence.
Qed.
Print Assumptions C66_listed_once.

(** The example folder, asked on fresh connections. *)
Definition example_found : list scanned :=
  [mkScanned (lit "Artist") [] (Some 12800) (lit "Album") (lit "/home/TermDJ/one.mp3") 5;
   mkScanned (lit "a") (lit "t") None (lit "l") (lit "/home/TermDJ/sub/five.old.mp3") 7].
Definition fresh_asking : asking := mkAsking [] 1 2.

Definition example_found_db : database :=
  match db_new Checked reverse_order example_found with Ok d => d | _ => db_empty end.

Lemma ascii_ok : forall s, forallb (fun c => c <? 128) s = true -> str_ok s.
Proof.
  intros s H. apply (ascii_utf8 s). apply Forall_forall. intros c I. rewrite forallb_forall in H.
  apply N.ltb_lt. exact (H c I).
Qed.

Lemma example_indexed : indexed_folder Checked reverse_order (lit "/home/TermDJ") (lit "TermDJ") example_tree
  example_found example_found_db.
Proof.
  split; [exact reverse_order_ok|]. destruct C22_case as (Ht & Hn & Hs).
  split; [exact Ht|]. split; [|split; [exact Hn|]].
  - intros names f I. vm_compute in I.
    repeat (destruct I as [I|I];
      [injection I as _ <-; split;
        [intros t x E [F|F]; cbn [fi_v2] in E; try discriminate; injection E as <-; cbn [v2_artist v2_title] in F;
           try discriminate; injection F as <-; apply ascii_ok; reflexivity
        |intros t E; cbn [fi_v1] in E; try discriminate; injection E as <-; split; apply ascii_ok; reflexivity]|]).
    destruct I.
  - split; [right; exists (lit "/home"); reflexivity|]. split; [exact Hs|]. split; [reflexivity|]. vm_compute. reflexivity.
Qed.

Lemma example_short : short_scan example_found.
Proof.
  repeat constructor; cbn [s_artist s_title s_path]; try (vm_compute; discriminate);
    intros path E; vm_compute in E; injection E as <-; vm_compute; discriminate.
Qed.

Lemma short_scan_tracks : forall l n, short_scan l -> short_tracks l n.
Proof.
  intros l n H s I _. unfold short_scan in H. rewrite Forall_forall in H. destruct (H s I) as (_ & A & B).
  split; [exact A|]. intros path So E. apply B. rewrite E. apply utf8_decode_encode. exact So.
Qed.

Example C66_case :
  distinct_files example_tree /\ asking_ok Checked reverse_order example_found_db fresh_asking /\
  exists a t, lists_artist Checked reverse_order example_found_db fresh_asking a (lit "a") /\
    lists_track Checked reverse_order example_found_db fresh_asking a t (lit "t") /\
    gives_path Checked reverse_order example_found_db fresh_asking t (lit "/home/TermDJ/sub/five.old.mp3") 7.
Proof.
  assert (Q : asking_ok Checked reverse_order example_found_db fresh_asking).
  { split; [constructor|]. split; [reflexivity|]. split; reflexivity. }
  split; [|split; [exact Q|]].
  - unfold distinct_files. apply (NoDup_count_occ' (list_eq_dec (list_eq_dec N.eq_dec))).
    intros x I. vm_compute in I. repeat (destruct I as [<-|I]; [vm_compute; reflexivity|]). destruct I.
  - apply (C66_browsing _ _ _ _ _ _ _ _ _ _ _ _ _ _ example_indexed
      (short_scan_page _ ArtistMenu example_short)
      (short_scan_tracks _ _ example_short) Q Q Q);
      try (apply ascii_ok; reflexivity).
    exists [lit "sub"; lit "five.old.mp3"], (nth 1 example_found (mkScanned [] [] None [] [] 0)).
    split; [|repeat split; vm_compute; reflexivity].
    exists example_v1. split; [vm_compute; auto 10|]. split; [|split].
    + intros n I (r & _ & E). cbn [In] in I. rewrite utf8_encode_app in E.
      destruct I as [<-|[<-|[<-|[]]]]; discriminate.
    + exists (lit "five.old"). split; [discriminate|reflexivity].
    + exists 7. repeat split. right. exists (mkV1 (lit "a") (lit "t") (lit "l")). repeat split.
Qed.
