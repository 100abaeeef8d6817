(** C96: the database service against the recorded dialogs of the original software. *)

From Verif Require Import Base Unicode MDb MDatabase MFixtures MLib SDb SDatabase SLib SRecorded
  LBase LUnicode LDb LRead LDatabase LLib LLib2 LLib3 LLib4 LStatus LRecorded PDatabase PLib.
From Coq Require Import ZArith Lia Arith String Permutation.
Open Scope N_scope.
Open Scope list_scope.

(** The writer and the reader of the specification fit together. *)
Theorem C96_read_what_was_written : forall ms, Forall plain_message ms ->
  read_stream (write_messages ms) = Some ms.
Proof. exact read_write_messages. Qed.
Print Assumptions C96_read_what_was_written.

(** Every answer but the one to a title request is, to the byte, what the protocol
    writes for the messages a client reads in it. *)
Theorem C96_answers_written : forall p h l d history chunk tx code fs a,
  order_ok h -> len l < 2 ^ 32 - 1 -> db_new p h l = Ok d ->
  answered p h d history ->
  is_request p chunk FU32 tx code fs -> code <> 0x1004 ->
  (forall c m, code = 0x3000 -> last_menu p history c m -> short_page l m) ->
  serve p h d None (history ++ [chunk]) = serve p h d None history ++ [a] ->
  exists ms, read_stream a = Some ms /\ a = write_messages ms.
Proof.
  intros p h l d hist chunk tx code fs a Ho Hl Hd Ha Hr Hc Hs H.
  destruct (C08_transaction_ids p h l d hist chunk tx code fs a Ho Hl Hd Ha Hr Hc Hs H) as (ms & Hread & _).
  exists ms. split; [assumption|]. destruct Ha as [Hb Hall].
  destruct (db_new_indexed p h l Ho Hl) as [d' [Hd' Hi]]. assert (d' = d) by congruence. subst d'.
  destruct (serve_all p h d hist None Hall) as [st [Hst Happ]].
  rewrite Happ in H. apply app_inv_head in H. cbn [serve] in H.
  destruct (process p h d st chunk) as [[a' st']| |] eqn:E; try discriminate H.
  assert (a' = a) by congruence. subst a'.
  eapply answer_written; try eassumption.
  intros s Hcode ->. destruct (history_menu p hist Hb) as [[c0 [m Hlm]]|Hn].
  - pose proof (state_after_last p h d hist c0 m None _ Hb Hlm Hst) as E2. injection E2 as ->.
    apply (short_page_state h l d m Ho Hi). apply (Hs c0 m Hcode Hlm).
  - pose proof (state_after_others p h d hist None (Some s) Hb Hn Hst). discriminate.
Qed.
Print Assumptions C96_answers_written.

(** A setup request, the request sent at loading a track and the request for a
    waveform are answered with the recorded bytes, but for the transaction. *)
Theorem C96_fixed_answers : forall p h d st c tx code fs rest recorded,
  is_request p c FU32 tx code fs ->
  (code, recorded) = (0x0000, recorded_setup_answer) \/
  (code, recorded) = (0x2b04, recorded_load_answer) \/
  (code, recorded) = (0x2004, recorded_preview_answer) ->
  serve p h d st (c :: rest) = for_transaction tx recorded :: serve p h d st rest.
Proof.
  intros p h d st c tx code fs rest recorded Hr Hc.
  destruct (request_parse _ _ _ _ _ _ Hr) as [_ [_ Htx]].
  pose proof (process_request p h d st c FU32 tx code fs Hr) as Hp. cbv zeta in Hp.
  cbn [serve]. rewrite Hp.
  assert (T : exists t0 t1 t2 t3, tx = [t0; t1; t2; t3]).
  { apply len_length in Htx. destruct tx as [|t0 [|t1 [|t2 [|t3 [|? ?]]]]]; try discriminate Htx. eauto. }
  destruct T as (t0 & t1 & t2 & t3 & ->).
  destruct Hc as [E|[E|E]]; injection E as -> ->.
  - reflexivity.
  - reflexivity.
  - change (request_type_new 0x2004) with PreviewWaveformRequest. cbn [controller m_request_type].
    unfold preview_waveform_controller. cbn [m_transaction_id].
    f_equal.
Qed.
Print Assumptions C96_fixed_answers.

(** The answer to the request for a menu, byte for byte. *)
Theorem C96_menu_answers : forall p h l d history c tx code fs m,
  order_ok h -> len l < 2 ^ 32 - 1 -> db_new p h l = Ok d -> answered p h d history ->
  is_request p c FU32 tx code fs -> names_menu code fs m -> m <> TitleMenu ->
  serve p h d None (history ++ [c])
  = serve p h d None history ++ [write_message (ack (number tx) [code; announced l m])].
Proof.
  intros p h l d hist c tx code fs m Ho Hl Hd [Hb Hall] Hr Hm Hnt.
  destruct (db_new_indexed p h l Ho Hl) as [d' [Hd' Hi]]. assert (d' = d) by congruence. subst d'.
  destruct (serve_all p h d hist None Hall) as [st [Hst Happ]].
  rewrite Happ. f_equal. cbn [serve].
  rewrite (menu_answer p h l d st c tx code fs m Ho Hl Hi Hr Hm Hnt). f_equal.
  destruct (request_parse _ _ _ _ _ _ Hr) as [_ [_ Htx]].
  assert (Lt : announced l m < 4294967296).
  { assert (T : forall id, len (tracks_of_artist l id) < 4294967296).
    { intro id. unfold tracks_of_artist.
      pose proof (filter_len _ (fun '(_, s) => artist_number l (s_artist s) =? id) (numbered 2 l)) as F.
      rewrite (numbered_len _ l 2) in F. lia. }
    destruct m; cbn [announced]; try reflexivity; try apply T.
    pose proof (firsts_len (map s_artist l)) as F. rewrite len_map in F. unfold artist_names. lia. }
  rewrite message_write.
  - unfold cview, ack. cbn [m_transaction_id m_request_type m_arguments f_value u32_tx map].
    rewrite cval_code, cval_u32 by assumption. f_equal. f_equal. f_equal. f_equal.
    destruct m; cbn [names_menu] in Hm; try congruence; try (subst code; reflexivity);
      destruct Hm as [-> _]; reflexivity.
  - apply plain_message_simple; [assumption|cbn; lia|].
    constructor; [apply request_code_field_ok|]. constructor; [apply u32_field_ok|constructor].
  - split; [exact (request_tx_bytes _ _ _ _ _ _ Hr)|].
    constructor; [destruct (request_type_new code); repeat constructor|].
    constructor; [apply u32_bytes|constructor].
Qed.
Print Assumptions C96_menu_answers.

(** The page that a Render delivers, byte for byte. *)
Theorem C96_pages_written : forall p h l d history c m r tx fs,
  order_ok h -> len l < 2 ^ 32 - 1 -> scan_ok l -> short_page l m -> db_new p h l = Ok d ->
  answered p h d history -> last_menu p history c m ->
  is_request p r FU32 tx 0x3000 fs -> ~ no_page l m ->
  exists ms,
    serve p h d None (history ++ [r]) = serve p h d None history ++ [write_messages ms] /\
    page_ok l (number tx) m ms.
Proof.
  intros p h l d hist c m r tx fs Ho Hl Hok Hs Hd Ha Hm Hr Hnp.
  destruct (C11_pages p h l d hist c m r tx fs Ho Hl Hok Hs Hd Ha Hm Hr Hnp) as (page & ms & E1 & E2 & E3).
  destruct (C96_answers_written p h l d hist r tx 0x3000 fs page Ho Hl Hd Ha Hr) as (ms' & F1 & F2).
  - discriminate.
  - intros c' m' _ Hm'. assert (m' = m); [|congruence].
    destruct Ha as [Hb Hall]. destruct (serve_all p h d hist None Hall) as [st [Hst _]].
    pose proof (state_after_last p h d hist c m None _ Hb Hm Hst) as S1.
    pose proof (state_after_last p h d hist c' m' None _ Hb Hm' Hst) as S2.
    assert (S : menu_state m' = menu_state m) by congruence.
    destruct m, m'; cbn [menu_state] in S; congruence.
  - assumption.
  - assert (ms' = ms) by congruence. subst ms'. exists ms. split; [|assumption]. congruence.
Qed.
Print Assumptions C96_pages_written.

(** The main menu and the albums of an artist are the recorded pages. *)
Theorem C96_root_page : forall p h l d history c r tx fs,
  order_ok h -> len l < 2 ^ 32 - 1 -> scan_ok l -> db_new p h l = Ok d ->
  answered p h d history -> last_menu p history c RootMenu ->
  is_request p r FU32 tx 0x3000 fs ->
  serve p h d None (history ++ [r])
  = serve p h d None history ++ [write_messages (recorded_root_page (number tx))].
Proof.
  intros p h l d hist c r tx fs Ho Hl Hok Hd Ha Hm Hr.
  destruct (C96_pages_written p h l d hist c RootMenu r tx fs Ho Hl Hok Logic.I Hd Ha Hm Hr) as (ms & E & P).
  - intros [].
  - rewrite E. cbn [page_ok] in P. subst ms. reflexivity.
Qed.
Print Assumptions C96_root_page.

(** The page of albums has the bytes of the recorded one. *)
Theorem C96_albums_page : forall p h l d history c a r tx fs,
  order_ok h -> len l < 2 ^ 32 - 1 -> scan_ok l -> db_new p h l = Ok d ->
  answered p h d history -> last_menu p history c (AlbumsOfArtist a) ->
  is_request p r FU32 tx 0x3000 fs ->
  serve p h d None (history ++ [r])
  = serve p h d None history ++ [write_messages (recorded_albums_page (number tx))].
Proof.
  intros p h l d hist c a r tx fs Ho Hl Hok Hd Ha Hm Hr.
  destruct (C96_pages_written p h l d hist c (AlbumsOfArtist a) r tx fs Ho Hl Hok Logic.I Hd Ha Hm Hr) as (ms & E & P).
  - intros [].
  - rewrite E. cbn [page_ok] in P. subst ms. reflexivity.
Qed.
Print Assumptions C96_albums_page.

(** The announced number of albums is the recorded one only for an artist with a
    single track; the recorded artist has two. *)
Theorem C96_albums_answer_refuted : forall p h l d history c a tx fs,
  order_ok h -> len l < 2 ^ 32 - 1 -> db_new p h l = Ok d -> answered p h d history ->
  is_request p c FU32 tx 0x1102 fs -> arg_is fs 2 a ->
  (serve p h d None (history ++ [c])
   = serve p h d None history ++ [write_message (recorded_albums_answer (number tx))]
   <-> len (tracks_of_artist l a) = 1).
Proof.
  intros p h l d hist c a tx fs Ho Hl Hd Ha Hr Harg.
  rewrite (C96_menu_answers p h l d hist c tx 0x1102 fs (AlbumsOfArtist a) Ho Hl Hd Ha Hr)
    by (first [split; [reflexivity|assumption]|discriminate]).
  cbn [announced].
  assert (Lt : len (tracks_of_artist l a) < 2 ^ 32).
  { unfold tracks_of_artist.
    pose proof (filter_len _ (fun '(_, s) => artist_number l (s_artist s) =? a) (numbered 2 l)) as F.
    rewrite (numbered_len _ l 2) in F. lia. }
  assert (Tx : number tx < 2 ^ 32).
  { destruct (request_parse _ _ _ _ _ _ Hr) as [_ [_ Htx]].
    rewrite <- (be_number 4 tx (request_tx_bytes _ _ _ _ _ _ Hr) (len_length _ _ _ Htx)).
    rewrite number_be4. apply N.mod_lt. discriminate. }
  split; intro H.
  - apply app_inv_head in H. apply (f_equal (hd [])) in H. cbn [hd] in H.
    assert (R : forall n, n < 2 ^ 32 -> read_message (write_message (ack (number tx) [0x1102; n]) ++ [])
                = Some (ack (number tx) [0x1102; n], [])).
    { intros n Hn. apply read_write_message. split; [exact Tx|]. split; [reflexivity|]. split; [cbn; lia|].
      repeat constructor. exact Hn. }
    pose proof (R _ Lt) as R1. pose proof (R 1 eq_refl) as R2. unfold recorded_albums_answer in H.
    change (mkCmsg (number tx) 0x4000 [CNum 4 0x1102; CNum 4 1]) with (ack (number tx) [0x1102; 1]) in H.
    rewrite H, R2 in R1. unfold ack in R1. cbn [map] in R1. congruence.
  - rewrite H. reflexivity.
Qed.
Print Assumptions C96_albums_answer_refuted.

(** The artists and the titles of an artist are rows of the recorded form, one for
    each, in some order. *)
Theorem C96_artists_page : forall p h l d history c r tx fs,
  order_ok h -> len l < 2 ^ 32 - 1 -> scan_ok l -> short_page l ArtistMenu -> db_new p h l = Ok d ->
  answered p h d history -> last_menu p history c ArtistMenu ->
  is_request p r FU32 tx 0x3000 fs ->
  exists rows,
    Permutation rows (map (fun '(i, n) => (i, byte_size n, n)) (numbered 2 (artist_names l))) /\
    serve p h d None (history ++ [r])
    = serve p h d None history ++ [write_messages (recorded_rows (number tx) 7 rows)].
Proof.
  intros p h l d hist c r tx fs Ho Hl Hok Hs Hd Ha Hm Hr.
  destruct (C96_pages_written p h l d hist c ArtistMenu r tx fs Ho Hl Hok Hs Hd Ha Hm Hr) as (ms & E & P).
  - intros [].
  - cbn [page_ok] in P. destruct P as [rows [-> P]].
    apply Permutation_map_inv in P. destruct P as [rows' [-> P]].
    exists (map (fun '(i, n) => (i, byte_size n, n)) rows'). split.
    + apply Permutation_map, Permutation_sym. exact P.
    + rewrite E. unfold recorded_rows. rewrite map_map. do 4 f_equal. f_equal.
      apply map_ext. intros [i n]. reflexivity.
Qed.
Print Assumptions C96_artists_page.

(** The page of an artist's titles has the bytes of a recorded one with these rows. *)
Theorem C96_titles_page : forall p h l d history c a r tx fs,
  order_ok h -> len l < 2 ^ 32 - 1 -> scan_ok l -> short_page l (TitlesOfArtist a) -> db_new p h l = Ok d ->
  answered p h d history -> last_menu p history c (TitlesOfArtist a) ->
  is_request p r FU32 tx 0x3000 fs ->
  exists rows,
    Permutation rows (map (fun '(i, s) => (i, byte_size (s_title s), s_title s)) (tracks_of_artist l a)) /\
    serve p h d None (history ++ [r])
    = serve p h d None history ++ [write_messages (recorded_rows (number tx) 4 rows)].
Proof.
  intros p h l d hist c a r tx fs Ho Hl Hok Hs Hd Ha Hm Hr.
  destruct (C96_pages_written p h l d hist c (TitlesOfArtist a) r tx fs Ho Hl Hok Hs Hd Ha Hm Hr) as (ms & E & P).
  - intros [].
  - cbn [page_ok] in P. destruct P as [rows [-> P]].
    apply Permutation_map_inv in P. destruct P as [rows' [-> P]].
    exists (map (fun '(i, s) => (i, byte_size (s_title s), s_title s)) rows'). split.
    + apply Permutation_map, Permutation_sym. exact P.
    + rewrite E. unfold recorded_rows. rewrite map_map. do 4 f_equal. f_equal.
      apply map_ext. intros [i s]. reflexivity.
Qed.
Print Assumptions C96_titles_page.

(** The pages about one track are the recorded ones for that track, except for what
    the program does not know: the duration is 195 seconds whatever the track, the
    metadata page has no comment, the mount info page always the recorded one, and
    the first item of the mount info page lacks the 256 of the recording. *)
Theorem C96_metadata_page : forall p h l d history c t s r tx fs,
  order_ok h -> len l < 2 ^ 32 - 1 -> scan_ok l -> short (s_title s) -> short (s_artist s) ->
  db_new p h l = Ok d ->
  answered p h d history -> last_menu p history c (TrackMetadata t) ->
  track_with_id l t = Some s -> is_request p r FU32 tx 0x3000 fs ->
  serve p h d None (history ++ [r])
  = serve p h d None history ++
    [write_messages (metadata_like (number tx) (s_title s) (s_artist s)
       (match s_bpm s with Some b => b | None => 0 end) 195 [])].
Proof.
  intros p h l d hist c t s r tx fs Ho Hl Hok S1 S2 Hd Ha Hm Ht Hr.
  assert (Hs : short_page l (TrackMetadata t)).
  { intros s' E. assert (s' = s) by congruence. subst s'. auto. }
  destruct (C96_pages_written p h l d hist c (TrackMetadata t) r tx fs Ho Hl Hok Hs Hd Ha Hm Hr) as (ms & E & P).
  - cbn. congruence.
  - destruct P as [s' [E3 ->]]. assert (s' = s) by congruence. subst s'. rewrite E. reflexivity.
Qed.
Print Assumptions C96_metadata_page.

(** The mount info has the bytes of a recorded one, apart from three items that are
    fixed here. *)
Theorem C96_mount_page : forall p h l d history c t s path r tx fs,
  order_ok h -> len l < 2 ^ 32 - 1 -> scan_ok l -> short path -> db_new p h l = Ok d ->
  answered p h d history -> last_menu p history c (TrackMountInfo t) ->
  track_with_id l t = Some s -> str_ok path -> s_path s = utf8_encode path ->
  is_request p r FU32 tx 0x3000 fs ->
  serve p h d None (history ++ [r])
  = serve p h d None history ++
    [write_messages (mount_like (number tx) (s_size s) path
       (match s_bpm s with Some b => b | None => 0 end) 195 (lit "Tracks by www.loopmasters.com") 0)].
Proof.
  intros p h l d hist c t s path r tx fs Ho Hl Hok S1 Hd Ha Hm Ht Hp Ep Hr.
  assert (Hs : short_page l (TrackMountInfo t)).
  { intros s' path' E Hp' Ep'. assert (s' = s) by congruence. subst s'.
    assert (path' = path) by (apply utf8_encode_inj; congruence). subst path'. assumption. }
  destruct (C96_pages_written p h l d hist c (TrackMountInfo t) r tx fs Ho Hl Hok Hs Hd Ha Hm Hr) as (ms & E & P).
  - cbn. rewrite Ht. intro H. exact (H path Hp Ep).
  - destruct P as (s' & path' & E3 & E4 & E5 & ->). assert (s' = s) by congruence. subst s'.
    assert (path' = path) by (apply utf8_encode_inj; congruence). subst path'. rewrite E. reflexivity.
Qed.
Print Assumptions C96_mount_page.

(** So no metadata page shows the duration or the comment of its track, and no mount
    info page the duration. *)
Theorem C96_metadata_refuted : forall p h l d history c t s r tx fs title artist tempo duration comment,
  order_ok h -> len l < 2 ^ 32 - 1 -> scan_ok l -> short (s_title s) -> short (s_artist s) ->
  db_new p h l = Ok d ->
  answered p h d history -> last_menu p history c (TrackMetadata t) ->
  track_with_id l t = Some s -> is_request p r FU32 tx 0x3000 fs ->
  Forall plain_message (metadata_like (number tx) title artist tempo duration comment) ->
  serve p h d None (history ++ [r])
  = serve p h d None history ++ [write_messages (metadata_like (number tx) title artist tempo duration comment)] ->
  duration = 195 /\ utf16_encode comment = [].
Proof.
  intros p h l d hist c t s r tx fs title artist tempo duration comment Ho Hl Hok S1 S2 Hd Ha Hm Ht Hr Hp H.
  destruct (C12_metadata p h l d hist c t s r tx fs Ho Hl Hok S1 S2 Hd Ha Hm Ht Hr) as (page & E1 & E2).
  rewrite E1 in H. apply app_inv_head in H. apply (f_equal (hd [])) in H. cbn [hd] in H.
  rewrite H, read_write_messages in E2 by assumption.
  apply (f_equal (fun o => match o with Some ms => map c_args ms | None => [] end)) in E2.
  cbn [metadata_like metadata_page map c_args item header footer] in E2.
  assert (E5 := f_equal (fun x => nth 1 (nth 4 x []) (CNum 0 0)) E2).
  assert (E7 := f_equal (fun x => nth 3 (nth 6 x []) (CNum 0 0)) E2).
  cbn [nth] in E5, E7. injection E5 as E5. injection E7 as E7. split; assumption.
Qed.
Print Assumptions C96_metadata_refuted.

(** It is a recorded one exactly only for a duration of 195 seconds and flags of zero. *)
Theorem C96_mount_refuted : forall p h l d history c t s path r tx fs size path' tempo duration comment flags,
  order_ok h -> len l < 2 ^ 32 - 1 -> scan_ok l -> short path -> db_new p h l = Ok d ->
  answered p h d history -> last_menu p history c (TrackMountInfo t) ->
  track_with_id l t = Some s -> str_ok path -> s_path s = utf8_encode path ->
  is_request p r FU32 tx 0x3000 fs ->
  Forall plain_message (mount_like (number tx) size path' tempo duration comment flags) ->
  serve p h d None (history ++ [r])
  = serve p h d None history ++ [write_messages (mount_like (number tx) size path' tempo duration comment flags)] ->
  duration = 195 /\ flags = 0.
Proof.
  intros p h l d hist c t s path r tx fs size path' tempo duration comment flags
    Ho Hl Hok S1 Hd Ha Hm Ht Hp Ep Hr Hpl H.
  destruct (C13_mount_info p h l d hist c t s path r tx fs Ho Hl Hok S1 Hd Ha Hm Ht Hp Ep Hr) as (page & E1 & E2).
  rewrite E1 in H. apply app_inv_head in H. apply (f_equal (hd [])) in H. cbn [hd] in H.
  rewrite H, read_write_messages in E2 by assumption.
  apply (f_equal (fun o => match o with Some ms => map c_args ms | None => [] end)) in E2.
  cbn [mount_like mount_page map c_args item header footer] in E2.
  assert (E5 := f_equal (fun x => nth 1 (nth 2 x []) (CNum 0 0)) E2).
  assert (E7 := f_equal (fun x => nth 10 (nth 1 x []) (CNum 0 0)) E2).
  cbn [nth] in E5, E7. injection E5 as E5. injection E7 as E7. split; assumption.
Qed.
Print Assumptions C96_mount_refuted.

(** The recorded artist has the id 1, which the program gives to none. *)
Theorem C96_artists_refuted : forall p h l d history c r tx fs,
  order_ok h -> len l < 2 ^ 32 - 1 -> scan_ok l -> short_page l ArtistMenu -> db_new p h l = Ok d ->
  answered p h d history -> last_menu p history c ArtistMenu ->
  is_request p r FU32 tx 0x3000 fs ->
  serve p h d None (history ++ [r])
  <> serve p h d None history ++ [write_messages (recorded_artists_page (number tx))].
Proof.
  intros p h l d hist c r tx fs Ho Hl Hok Hs Hd Ha Hm Hr H.
  destruct (C11_pages p h l d hist c ArtistMenu r tx fs Ho Hl Hok Hs Hd Ha Hm Hr) as (page & ms & E1 & E2 & P).
  - intros [].
  - rewrite E1 in H. apply app_inv_head in H. apply (f_equal (hd [])) in H. cbn [hd] in H.
    assert (Tx : number tx < 2 ^ 32).
    { destruct (request_parse _ _ _ _ _ _ Hr) as [_ [_ Htx]].
      rewrite <- (be_number 4 tx (request_tx_bytes _ _ _ _ _ _ Hr) (len_length _ _ _ Htx)).
      rewrite number_be4. apply N.mod_lt. discriminate. }
    rewrite H, read_write_messages in E2.
    + cbn [page_ok] in P. destruct P as [rows [-> P]].
      assert (E3 : recorded_artists_page (number tx) = header (number tx) :: rows ++ [footer (number tx)]) by congruence.
      unfold recorded_artists_page, recorded_rows in E3. cbn [map app] in E3.
      apply (f_equal (@tl cmsg)) in E3. cbn [tl] in E3.
      destruct rows as [|x rows]; [cbn [app] in E3; discriminate E3|].
      cbn [app] in E3. assert (Ex : x = row (number tx) 1 (lit "Loopmasters") 7) by (apply (f_equal (hd x)) in E3; cbn [hd] in E3; rewrite <- E3; reflexivity).
      assert (In x (map (fun '(i, n) => row (number tx) i n 7) (numbered 2 (artist_names l)))).
      { eapply Permutation_in; [exact P|]. constructor. reflexivity. }
      apply in_map_iff in H0. destruct H0 as [[i n] [E Hin]]. apply numbered_in in Hin.
      destruct Hin as [Hi _]. rewrite Ex in E. unfold row, item in E. injection E as Ei _ _. lia.
    + repeat (constructor; [split; [exact Tx|split; [reflexivity|split; [cbn; lia|]]]|]); [| | |constructor];
        cbn [c_args]; repeat constructor.
Qed.
Print Assumptions C96_artists_refuted.

(** ** The recordings themselves *)

(** What was recorded is what the spec writer writes. *)
Example C96_recordings :
  recorded_setup_answer = write_message (ack 0xfffffffe [0; 17]) /\
  recorded_load_answer = write_message (mkCmsg 0x05800021 0x4e02
    [CNum 4 0x2b04; CNum 4 1; CNum 4 0; CBlob []; CNum 4 0]) /\
  recorded_preview_answer = write_message (mkCmsg 0x0580001e 0x4402
    [CNum 4 0x2004; CNum 4 0; CNum 4 904; CBlob (skipn 52 recorded_preview_answer)]) /\
  recorded_metadata_page = write_messages (metadata_like 0x05800020 (lit "Demo Track 1")
    (lit "Loopmasters") 12800 172 (lit "Tracks by www.loopmasters.com")) /\
  recorded_mount_answer = write_message (ack 0x05800022 [0x2102; 6]) /\
  recorded_mount_page = write_messages (mount_like 0x05800023 6899624
    (lit "C:/Users/Snaajf/Music/PioneerDJ/Demo Tracks/Demo Track 1.mp3") 12800 172
    (lit "Tracks by www.loopmasters.com") 256) /\
  (forall tx, recorded_root_answer tx = ack tx [0x1000; 8]) /\
  (forall tx, recorded_titles_answer tx = ack tx [0x1202; 2]) /\
  (forall tx, recorded_metadata_answer tx = ack tx [0x2002; 10]).
Proof. repeat split; vm_compute; reflexivity. Qed.

(** The recorded library: the tracks 5 and 6 are by the artist "Loopmasters". *)
Definition recorded_scan : list scanned :=
  [ mkScanned (lit "A") (lit "a") None (lit "") (lit "/a") 1;
    mkScanned (lit "A") (lit "b") None (lit "") (lit "/b") 2;
    mkScanned (lit "A") (lit "c") None (lit "") (lit "/c") 3;
    mkScanned (lit "Loopmasters") (lit "Demo Track 1") (Some 12800) (lit "")
      (lit "C:/Users/Snaajf/Music/PioneerDJ/Demo Tracks/Demo Track 1.mp3") 6899624;
    mkScanned (lit "Loopmasters") (lit "Demo Track 2") (Some 12000) (lit "") (lit "/e") 5 ].
Definition recorded_db : database :=
  match db_new Checked reverse_order recorded_scan with Ok d => d | _ => db_empty end.

(** The recorded requests are requests, and their answers. *)
Example C96_case :
  recorded_load_request = client_request 0x05800021 0x2b04 [0x02080401; 5; 0] /\
  recorded_metadata_request = client_request 0x0580001f 0x2002 [0x02010401; 5] /\
  recorded_mount_request = client_request 0x05800022 0x2102 [0x02080401; 5] /\
  serve Checked reverse_order recorded_db None
    [ recorded_preview_request; recorded_metadata_request; recorded_metadata_render;
      recorded_load_request; recorded_mount_request; recorded_mount_render;
      client_request 0x05800014 0x1102 [0x02020401; 0; 3]; client_request 0x05800015 0x3000 [];
      client_request 0x05800016 0x1202 [0x02020401; 0; 3; 0]; client_request 0x05800017 0x3000 [] ]
  = [ recorded_preview_answer;
      write_message (recorded_metadata_answer 0x0580001f);
      write_messages (metadata_like 0x05800020 (lit "Demo Track 1") (lit "Loopmasters") 12800 195 []);
      recorded_load_answer;
      recorded_mount_answer;
      write_messages (mount_like 0x05800023 6899624
        (lit "C:/Users/Snaajf/Music/PioneerDJ/Demo Tracks/Demo Track 1.mp3") 12800 195
        (lit "Tracks by www.loopmasters.com") 0);
      write_message (ack 0x05800014 [0x1102; 2]);
      write_messages (recorded_albums_page 0x05800015);
      write_message (recorded_titles_answer 0x05800016);
      write_messages (recorded_rows 0x05800017 4
        [(6, 26, lit "Demo Track 2"); (5, 26, lit "Demo Track 1")]) ].
Proof. repeat split; vm_compute; reflexivity. Qed.
