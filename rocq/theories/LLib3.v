(** Pages of an indexed library, as a client reads them. *)

From Verif Require Import Base Unicode MDb MDatabase MFixtures MLib SDb SDatabase SLib
  LBase LUnicode LDb LRead LDatabase LLib LLib2.
From Coq Require Import ZArith String.
Open Scope N_scope.
Open Scope list_scope.

Lemma artist_name_in : forall l n, In n (artist_names l) -> exists s, In s l /\ s_artist s = n.
Proof.
  intros l n H. unfold artist_names in H. apply (proj1 (firsts_in _ _)) in H.
  apply in_map_iff in H. destruct H as [s [E H]]. eauto.
Qed.

Lemma artist_number_bound : forall l n, len l < 4294967295 -> In n (artist_names l) ->
  artist_number l n < 4294967296.
Proof.
  intros l n Hl H. apply position_lt in H. unfold artist_number.
  pose proof (firsts_len (map s_artist l)) as F. rewrite len_map in F.
  unfold artist_names in *. lia.
Qed.

Lemma get_track_with_id : forall l d id, indexed l d ->
  get_track d id = option_map (expected_track l id) (track_with_id l id).
Proof.
  intros l d id H. rewrite (indexed_get_track l d id H). unfold track_with_id.
  destruct (2 <=? id); reflexivity.
Qed.

Lemma track_with_id_in : forall l id s, track_with_id l id = Some s -> In s l.
Proof.
  intros l id s H. unfold track_with_id in H. destruct (2 <=? id); [|discriminate].
  eapply nth_error_In. eassumption.
Qed.

Lemma short_page_state : forall h l d m, order_ok h -> indexed l d -> short_page l m ->
  short_state h d (menu_state m).
Proof.
  intros h l d m Ho Hi H. destruct m as [| | |id|id|id|id]; unfold short_page in H; cbn [menu_state short_state page_texts] in *;
    try exact Logic.I.
  - intros a Ha. destruct (in_artists h d a Ho Ha) as [id Hid]. rewrite Hi in Hid. cbn [artist_rows] in Hid.
    apply expected_artists_number in Hid. destruct Hid as [_ H2].
    apply artist_name_in in H2. destruct H2 as [s [Hin <-]].
    rewrite Forall_forall in H. apply H. assumption.
  - intros t Ht. destruct (in_titles h d t id Ho Ht) as [i Hid].
    unfold title_by_artist in Ht. apply filter_In in Ht. destruct Ht as [_ Hf].
    rewrite Hi in Hid. cbn [track_rows] in Hid. unfold expected_tracks in Hid.
    apply in_map_iff in Hid. destruct Hid as [[i' s] [E Hin]]. inversion E; subst.
    cbn [t_title t_artist_id expected_track] in *. apply (H i s).
    unfold tracks_of_artist. apply filter_In. split; assumption.
  - intros t a Ht Ha. rewrite (get_track_with_id l d id Hi) in Ht.
    destruct (track_with_id l id) as [s|] eqn:E; [|discriminate].
    cbn [option_map] in Ht. assert (Et : t = expected_track l id s) by congruence. subst t.
    cbn [t_title t_artist_id expected_track] in *.
    apply (indexed_get_artist l d _ _ Hi) in Ha. destruct Ha as [_ [Hn En]].
    destruct (H s eq_refl) as [H1 H2]. split; [assumption|].
    assert (Eq : a_name a = s_artist s); [|congruence].
    symmetry. eapply artist_number_inj; eauto.
    unfold artist_names. apply firsts_in, in_map. eapply track_with_id_in. eassumption.
  - intros t path Ht Hp. rewrite (get_track_with_id l d id Hi) in Ht.
    destruct (track_with_id l id) as [s|] eqn:E; [|discriminate].
    cbn [option_map] in Ht. assert (Et : t = expected_track l id s) by congruence. subst t.
    cbn [t_path expected_track] in Hp. apply utf8_decode_some in Hp. destruct Hp as [E2 Hp].
    apply (H s path eq_refl Hp). congruence.
Qed.

Lemma short_scan_page : forall l m, short_scan l -> short_page l m.
Proof.
  intros l m H. unfold short_scan in H. rewrite Forall_forall in H.
  destruct m as [| | |id|id|id|id]; unfold short_page; cbn [page_texts]; try exact Logic.I.
  - apply Forall_forall. intros s Hs. apply H. assumption.
  - intros i s Hin. unfold tracks_of_artist in Hin. apply filter_In in Hin. destruct Hin as [Hin _].
    apply numbered_in in Hin. destruct Hin as [_ [_ Hin]]. apply nth_error_In in Hin.
    apply H. assumption.
  - intros s Hs. apply track_with_id_in in Hs. destruct (H s Hs) as (A & B & _). auto.
  - intros s path Hs Hp E. apply track_with_id_in in Hs. destruct (H s Hs) as (_ & _ & C).
    apply C. rewrite E. apply utf8_decode_encode. assumption.
Qed.

Lemma page_read : forall h d tx s ms, len tx = 4 -> short_state h d s ->
  page_of h d (u32_tx tx) s = Ok ms -> read_stream (messages_encode ms) = Some (map cview ms).
Proof.
  intros h d tx s ms H1 H2 H3. apply read_stream_simple.
  eapply page_simple; eassumption.
Qed.

Lemma get_artist_of : forall l d s, indexed l d -> In s l ->
  get_artist d (artist_number l (s_artist s))
  = Some (mkArtist (artist_number l (s_artist s)) (s_artist s)).
Proof.
  intros l d s H Hin. apply (indexed_get_artist l d _ _ H). cbn [a_name].
  split; [reflexivity|]. split; [|reflexivity]. apply firsts_in, in_map. assumption.
Qed.

Lemma str_ok_lit : forall s, str_ok (lit s).
Proof.
  induction s as [|c s IH]; cbn [lit]; constructor; [|assumption].
  assert (B : Ascii.N_of_ascii c < 256) by apply Ascii.N_ascii_bounded.
  apply scalar_iff. left. lia.
Qed.

Section Pages.
  Context (h : hash_order) (l : list scanned) (d : database) (tx : bytes).
  Context (Ho : order_ok h) (Hl : len l < 4294967295) (Hok : scan_ok l)
    (Hd : indexed l d) (Htx : len tx = 4).

  Lemma in_ok : forall s, In s l ->
    str_ok (s_artist s) /\ str_ok (s_title s) /\ s_size s < 4294967296 /\
    (match s_bpm s with Some b => b | None => 0 end) < 4294967296.
  Proof.
    intros s Hin. unfold scan_ok in *. rewrite Forall_forall in Hok.
    destruct (Hok s Hin) as (A & B & C & D).
    repeat split; try assumption. destruct (s_bpm s); [assumption|lia].
  Qed.

  Lemma artist_page_read : short_page l ArtistMenu -> exists ms rows,
    page_of h d (u32_tx tx) SArtist = Ok ms /\
    read_stream (messages_encode ms) = Some (header (number tx) :: rows ++ [footer (number tx)]) /\
    Permutation rows (map (fun n => row (number tx) (artist_number l n) n 7) (artist_names l)).
  Proof.
    intro Hs.
    exists (render_artist_page h d (u32_tx tx)), (map (fun a => row (number tx) (a_id a) (a_name a) 7) (artists h d)).
    split; [reflexivity|].
    pose proof (indexed_artists h l d Ho Hd) as P. split.
    - rewrite (page_read h d tx SArtist _ Htx (short_page_state h l d ArtistMenu Ho Hd Hs) eq_refl).
      f_equal. unfold render_artist_page. rewrite !map_app. cbn [map app].
      rewrite cview_header, cview_footer. f_equal. f_equal. rewrite map_map.
      apply map_ext_in. intros a Ha. apply (Permutation_in _ P) in Ha.
      apply in_map_iff in Ha. destruct Ha as [n [<- Hn]]. cbn [a_id a_name].
      pose proof (artist_number_bound l n Hl Hn).
      destruct (artist_name_in l n Hn) as [s [Hin <-]].
      destruct (in_ok s Hin) as (A & _). unfold short_page in Hs; cbn [page_texts] in Hs. rewrite Forall_forall in Hs.
      pose proof (Hs s Hin) as B.
      apply cview_row; try assumption. reflexivity.
    - rewrite (Permutation_map (fun a => row (number tx) (a_id a) (a_name a) 7) P), map_map.
      apply Permutation_refl.
  Qed.

  Lemma titles_page_read : forall name, In name (artist_names l) ->
    short_page l (TitlesOfArtist (artist_number l name)) -> exists ms rows,
    page_of h d (u32_tx tx) (STitleByArtistAlbum (artist_number l name)) = Ok ms /\
    read_stream (messages_encode ms) = Some (header (number tx) :: rows ++ [footer (number tx)]) /\
    Permutation rows (map (fun '(i, s) => row (number tx) i (s_title s) 4) (tracks_named l name)).
  Proof.
    intros name Hn Hs.
    exists (render_title_by_artist_album h d (u32_tx tx) (artist_number l name)),
      (map (fun t => row (number tx) (t_id t) (t_title t) 4) (title_by_artist h d (artist_number l name))).
    split; [reflexivity|].
    pose proof (indexed_titles h l d name Ho Hd Hn) as P. split.
    - rewrite (page_read h d tx (STitleByArtistAlbum (artist_number l name)) _ Htx
        (short_page_state h l d (TitlesOfArtist _) Ho Hd Hs) eq_refl).
      f_equal. unfold render_title_by_artist_album. rewrite !map_app. cbn [map app].
      rewrite cview_header, cview_footer. f_equal. f_equal. rewrite map_map.
      apply map_ext_in. intros t Ht. apply (Permutation_in _ P) in Ht.
      apply in_map_iff in Ht. destruct Ht as [[i s] [<- Hin]].
      assert (B : short (s_title s)).
      { apply (Hs i s). unfold tracks_named in Hin. apply filter_In in Hin. destruct Hin as [Hin Hf].
        unfold tracks_of_artist. apply filter_In. split; [assumption|].
        apply bytes_eqb_spec in Hf. subst name. apply N.eqb_refl. }
      unfold tracks_named in Hin. apply filter_In in Hin. destruct Hin as [Hin _].
      apply numbered_in in Hin. destruct Hin as [_ [Hi Hin]]. apply nth_error_In in Hin.
      cbn [t_id t_title expected_track].
      destruct (in_ok s Hin) as (_ & A & _).
      apply cview_row; try assumption; [lia|reflexivity].
    - rewrite (Permutation_map (fun t => row (number tx) (t_id t) (t_title t) 4) P), map_map.
      erewrite map_ext; [apply Permutation_refl|]. intros [i s]. reflexivity.
  Qed.

  Lemma titles_page_unknown : forall id, get_artist d id = None ->
    exists ms, page_of h d (u32_tx tx) (STitleByArtistAlbum id) = Ok ms /\
    read_stream (messages_encode ms) = Some [header (number tx); footer (number tx)].
  Proof.
    intros id H. eexists. split; [reflexivity|].
    rewrite (page_read h d tx (STitleByArtistAlbum id) _ Htx).
    - unfold render_title_by_artist_album. rewrite (indexed_titles_unknown h l d id Ho Hd H).
      reflexivity.
    - cbn [short_state]. rewrite (indexed_titles_unknown h l d id Ho Hd H). intros t [].
    - reflexivity.
  Qed.

  Lemma metadata_page_read : forall id s, track_with_id l id = Some s -> short_page l (TrackMetadata id) ->
    exists ms, page_of h d (u32_tx tx) (SMetadata id) = Ok ms /\
    read_stream (messages_encode ms) = Some (metadata_page (number tx) s).
  Proof.
    intros id s H Hs. pose proof (track_with_id_in l id s H) as Hin.
    destruct (in_ok s Hin) as (A1 & A2 & A3 & A4). destruct (Hs s H) as [A6 A5].
    assert (E : exists ms, page_of h d (u32_tx tx) (SMetadata id) = Ok ms /\
      map cview ms = metadata_page (number tx) s).
    { cbn [page_of]. rewrite render_metadata_eq.
      rewrite (get_track_with_id l d id Hd), H. cbn [option_map unwrap_opt rbind].
      cbn [t_artist_id expected_track]. rewrite (get_artist_of l d s Hd Hin).
      cbn [unwrap_opt rbind a_name t_title t_bpm]. eexists. split; [reflexivity|].
      cbn [map]. unfold metadata_page. cbv zeta.
      rewrite cview_header, cview_footer.
      rewrite !cview_item by (assumption || apply short_nil || constructor || reflexivity || lia).
      reflexivity. }
    destruct E as [ms [E1 E2]]. exists ms. split; [assumption|].
    rewrite (page_read h d tx (SMetadata id) ms Htx (short_page_state h l d (TrackMetadata id) Ho Hd Hs) E1). congruence.
  Qed.

  Lemma mount_page_read : forall id s path, track_with_id l id = Some s ->
    str_ok path -> s_path s = utf8_encode path -> short_page l (TrackMountInfo id) ->
    exists ms, page_of h d (u32_tx tx) (SMountInfo id) = Ok ms /\
    read_stream (messages_encode ms) = Some (mount_page (number tx) s path).
  Proof.
    intros id s path H Hp Ep Hs. pose proof (track_with_id_in l id s H) as Hin.
    destruct (in_ok s Hin) as (A1 & A2 & A3 & A4).
    assert (Dp : utf8_decode (s_path s) = Some path)
      by (rewrite Ep; apply utf8_decode_encode; assumption).
    assert (E : exists ms, page_of h d (u32_tx tx) (SMountInfo id) = Ok ms /\
      map cview ms = mount_page (number tx) s path).
    { cbn [page_of]. rewrite render_mount_info_eq.
      rewrite (get_track_with_id l d id Hd), H. cbn [option_map].
      unfold track_path. cbn [t_path expected_track]. rewrite Dp.
      cbn [unwrap_opt rbind t_size t_bpm]. eexists. split; [reflexivity|].
      cbn [map]. unfold mount_page. cbv zeta.
      rewrite cview_header, cview_footer.
      assert (S1 : short path) by exact (Hs s path H Hp Ep).
      assert (S2 : short (lit "Tracks by www.loopmasters.com")) by (apply short_lit; cbn; lia).
      assert (S3 : str_ok (lit "Tracks by www.loopmasters.com"))
        by apply str_ok_lit.
      rewrite !cview_item by (assumption || apply short_nil || constructor || reflexivity || lia).
      reflexivity. }
    destruct E as [ms [E1 E2]]. exists ms. split; [assumption|].
    rewrite (page_read h d tx (SMountInfo id) ms Htx (short_page_state h l d (TrackMountInfo id) Ho Hd Hs) E1). congruence.
  Qed.
End Pages.

(** Panics of pages. *)
Lemma page_panics : forall h l d tx m, indexed l d ->
  ((forall ms, page_of h d tx (menu_state m) <> Ok ms) <-> no_page l m) /\
  page_of h d tx (menu_state m) <> Err.
Proof.
  intros h l d tx m Hd. destruct m; cbn [menu_state page_of no_page].
  1-5: (split; [split; [intro H; exact (H _ eq_refl)|tauto]|discriminate]).
  - rewrite render_metadata_eq. rewrite (get_track_with_id l d track_id Hd).
    destruct (track_with_id l track_id) as [s|] eqn:E; cbn [option_map unwrap_opt rbind].
    + cbn [t_artist_id expected_track].
      rewrite (get_artist_of l d s Hd (track_with_id_in _ _ _ E)). cbn [unwrap_opt rbind].
      split; [|discriminate]. split; [intro H; exfalso; exact (H _ eq_refl)|discriminate].
    + split; [|discriminate]. split; [reflexivity|discriminate].
  - rewrite render_mount_info_eq. rewrite (get_track_with_id l d track_id Hd).
    destruct (track_with_id l track_id) as [s|] eqn:E; cbn [option_map].
    + unfold track_path. cbn [t_path expected_track].
      destruct (utf8_decode (s_path s)) as [path|] eqn:Ep; cbn [unwrap_opt rbind].
      * split; [|discriminate]. split; [intro H; exfalso; exact (H _ eq_refl)|].
        intro H. exfalso. apply utf8_decode_some in Ep. destruct Ep as [E1 E2].
        apply (H path E2). symmetry. assumption.
      * split; [|discriminate]. split; [|discriminate]. intros _ path Hp Heq.
        rewrite Heq, utf8_decode_encode in Ep by assumption. discriminate.
    + split; [|discriminate]. split; [trivial|discriminate].
Qed.

(** When a chunk is not answered. *)
Lemma malformed_iff : forall p b, bytes_ok b -> (malformed p b <-> parse_message p b = Panic).
Proof.
  intros p b Hb. unfold malformed. split.
  - intros [H1 H2]. destruct (parse_message p b) as [[rest m]| |] eqn:E; [| |reflexivity].
    + destruct (parse_request p b rest m Hb E) as (k & tx & code & fs & Hr & _).
      exfalso. eapply H2. eassumption.
    + exfalso. apply H1. apply (proj1 (parse_err_iff p b)). assumption.
  - intro E. split.
    + intro H. apply (proj2 (parse_err_iff p b)) in H. congruence.
    + intros k tx code fs H. apply request_parse in H. destruct H as [H _]. congruence.
Qed.

Lemma arg_cases : forall m i,
  Forall (fun f => f_kind f = FU32 -> len (f_value f) = 4) (m_arguments m) ->
  (exists v, arg_is (m_arguments m) i v /\
     (do a <- argument_at m i; dbfield_to_u32 a) = Ok v) \/
  ((forall v, ~ arg_is (m_arguments m) i v) /\
     (do a <- argument_at m i; dbfield_to_u32 a) = Panic).
Proof.
  intros m i Hf. destruct (do a <- argument_at m i; dbfield_to_u32 a) as [v| |] eqn:E.
  - left. exists v. split; [|reflexivity]. apply argument_u32_inv; assumption.
  - exfalso. unfold argument_at in E. destruct (nth_error _ _) as [[[] v]|]; cbn in E; try discriminate.
    destruct (len v <? 4); discriminate.
  - right. split; [|reflexivity]. intros v H. apply argument_u32 in H. congruence.
Qed.

(** The exact condition for one chunk, in a state that comes from a history. *)
Lemma process_panics : forall p h l d c st, bytes_ok c -> indexed l d ->
  (process p h d st c = Panic <->
   malformed p c \/
   (exists kind tx code fs, is_request p c kind tx code fs /\ lacks_argument code fs) \/
   (exists kind tx fs s, is_request p c kind tx 0x3000 fs /\ st = Some s /\
      forall ms, page_of h d (mkField kind tx) s <> Ok ms)).
Proof.
  intros p h l d c st Hb Hd. split.
  - intro H. unfold process in H. destruct (N.eqb_spec (len c) 5) as [E5|E5]; [discriminate|].
    destruct (parse_message p c) as [[rest m]| |] eqn:E; [|discriminate|].
    2:{ left. apply malformed_iff; assumption. }
    right. destruct (parse_request p c rest m Hb E) as (k & tx & code & fs & Hr & ->).
    assert (Hargs := request_u32 _ _ _ _ _ _ Hr).
    cbn [m_request_type] in H.
    destruct (request_type_new code) eqn:Et;
      cbn [controller m_request_type handle_sequence_requests] in H; try discriminate H.
    + left. exists k, tx, code, fs. split; [assumption|]. left.
      unfold album_by_artist_controller in H. rewrite two_step in H.
      destruct (arg_cases (mkMessage (mkField k tx) AlbumByArtistRequest fs) 2 Hargs) as [[v [_ E2]]|[N E2]]; rewrite E2 in H; [discriminate|].
      split; [left; eapply type_code; [eassumption|reflexivity]|exact N].
    + left. exists k, tx, code, fs. split; [assumption|]. right.
      unfold metadata_controller in H. rewrite two_step in H.
      destruct (arg_cases (mkMessage (mkField k tx) MetadataRequest fs) 1 Hargs) as [[v [_ E2]]|[N E2]]; rewrite E2 in H; [discriminate|].
      split; [left; eapply type_code; [eassumption|reflexivity]|exact N].
    + left. exists k, tx, code, fs. split; [assumption|]. right.
      unfold mount_info_controller in H. rewrite two_step in H.
      destruct (arg_cases (mkMessage (mkField k tx) MountInfoRequest fs) 1 Hargs) as [[v [_ E2]]|[N E2]]; rewrite E2 in H; [discriminate|].
      split; [right; eapply type_code; [eassumption|reflexivity]|exact N].
    + right. rewrite render_page_of in H. cbn [m_transaction_id] in H.
      destruct st as [s|]; [|discriminate]. exists k, tx, fs, s.
      replace 0x3000 with code by (eapply type_code; [eassumption|reflexivity]).
      split; [assumption|]. split; [reflexivity|].
      intros ms Hms. rewrite Hms in H. discriminate.
    + left. exists k, tx, code, fs. split; [assumption|]. left.
      unfold title_by_artist_album_controller in H. rewrite two_step in H.
      destruct (arg_cases (mkMessage (mkField k tx) TitleByArtistAlbumRequest fs) 2 Hargs) as [[v [_ E2]]|[N E2]]; rewrite E2 in H; [discriminate|].
      split; [right; eapply type_code; [eassumption|reflexivity]|exact N].
  - intros [H|[H|H]].
    + assert (E := proj1 (malformed_iff p c Hb) H). unfold process.
      destruct (N.eqb_spec (len c) 5) as [E5|E5]; [|rewrite E; reflexivity].
      exfalso. destruct H as [H _]. apply H. right. left. lia.
    + destruct H as (k & tx & code & fs & Hr & Hl).
      rewrite (process_request p h d st c k tx code fs Hr). cbv zeta.
      assert (Hargs := request_u32 _ _ _ _ _ _ Hr).
      destruct Hl as [[[->| ->] N]|[[->| ->] N]].
      * change (request_type_new 0x1102) with AlbumByArtistRequest.
        cbn [controller m_request_type]. unfold album_by_artist_controller. rewrite two_step.
        destruct (arg_cases (mkMessage (mkField k tx) AlbumByArtistRequest fs) 2 Hargs) as [[v [E1 _]]|[_ E2]];
          [exfalso; eapply N; exact E1|]. rewrite E2. reflexivity.
      * change (request_type_new 0x1202) with TitleByArtistAlbumRequest.
        cbn [controller m_request_type]. unfold title_by_artist_album_controller. rewrite two_step.
        destruct (arg_cases (mkMessage (mkField k tx) TitleByArtistAlbumRequest fs) 2 Hargs) as [[v [E1 _]]|[_ E2]];
          [exfalso; eapply N; exact E1|]. rewrite E2. reflexivity.
      * change (request_type_new 0x2002) with MetadataRequest.
        cbn [controller m_request_type]. unfold metadata_controller. rewrite two_step.
        destruct (arg_cases (mkMessage (mkField k tx) MetadataRequest fs) 1 Hargs) as [[v [E1 _]]|[_ E2]];
          [exfalso; eapply N; exact E1|]. rewrite E2. reflexivity.
      * change (request_type_new 0x2102) with MountInfoRequest.
        cbn [controller m_request_type]. unfold mount_info_controller. rewrite two_step.
        destruct (arg_cases (mkMessage (mkField k tx) MountInfoRequest fs) 1 Hargs) as [[v [E1 _]]|[_ E2]];
          [exfalso; eapply N; exact E1|]. rewrite E2. reflexivity.
    + destruct H as (k & tx & fs & s & Hr & -> & Hp).
      rewrite (process_render p h d (Some s) c k tx fs Hr).
      assert (NE : page_of h d (mkField k tx) s <> Err).
      { assert (Hm : exists m, menu_state m = s)
          by (destruct s; [exists RootMenu|exists ArtistMenu|exists TitleMenu
            |exists (AlbumsOfArtist artist_id)|exists (TitlesOfArtist artist_id)
            |exists (TrackMetadata track_id)|exists (TrackMountInfo track_id)]; reflexivity).
        destruct Hm as [m <-]. eapply page_panics. eassumption. }
      destruct (page_of h d (mkField k tx) s) as [ms| |]; [exfalso; eapply Hp; reflexivity|congruence|reflexivity].
Qed.

Lemma process_not_err : forall p h l d c st, bytes_ok c -> indexed l d -> process p h d st c <> Err.
Proof.
  intros p h l d c st Hb Hd H. unfold process in H.
  destruct (len c =? 5); [discriminate|].
  destruct (parse_message p c) as [[rest m]| |] eqn:E; [|discriminate|discriminate].
  destruct (parse_request p c rest m Hb E) as (k & tx & code & fs & Hr & ->).
  assert (Hargs := request_u32 _ _ _ _ _ _ Hr).
  cbn [m_request_type] in H.
  destruct (request_type_new code) eqn:Et;
    cbn [controller m_request_type handle_sequence_requests] in H; try discriminate H.
  - unfold album_by_artist_controller in H. rewrite two_step in H.
    destruct (arg_cases (mkMessage (mkField k tx) AlbumByArtistRequest fs) 2 Hargs) as [[v [_ E2]]|[N E2]]; rewrite E2 in H; discriminate.
  - unfold metadata_controller in H. rewrite two_step in H.
    destruct (arg_cases (mkMessage (mkField k tx) MetadataRequest fs) 1 Hargs) as [[v [_ E2]]|[N E2]]; rewrite E2 in H; discriminate.
  - unfold mount_info_controller in H. rewrite two_step in H.
    destruct (arg_cases (mkMessage (mkField k tx) MountInfoRequest fs) 1 Hargs) as [[v [_ E2]]|[N E2]]; rewrite E2 in H; discriminate.
  - rewrite render_page_of in H. destruct st as [s|]; [|discriminate].
    cbn [m_transaction_id] in H.
    assert (Hm : exists m, menu_state m = s)
          by (destruct s; [exists RootMenu|exists ArtistMenu|exists TitleMenu
            |exists (AlbumsOfArtist artist_id)|exists (TitlesOfArtist artist_id)
            |exists (TrackMetadata track_id)|exists (TrackMountInfo track_id)]; reflexivity).
    destruct Hm as [m <-].
    destruct (page_of h d (mkField k tx) (menu_state m)) eqn:E2; try discriminate.
    eapply page_panics; eassumption.
  - unfold title_by_artist_album_controller in H. rewrite two_step in H.
    destruct (arg_cases (mkMessage (mkField k tx) TitleByArtistAlbumRequest fs) 2 Hargs) as [[v [_ E2]]|[N E2]]; rewrite E2 in H; discriminate.
Qed.

(** Either some chunk of a history is the last menu request, or there is none. *)
Lemma history_menu : forall p hist, Forall bytes_ok hist ->
  (exists c m, last_menu p hist c m) \/ no_menu p hist.
Proof.
  intros p hist. induction hist as [|c hist IH] using rev_ind; intro Hb.
  - right. intros c m H. destruct H.
  - apply Forall_app in Hb. destruct Hb as [Hb1 Hb2]. inversion Hb2; subst.
    assert (D : (exists m, menu_request p c m) \/ forall m, ~ menu_request p c m).
    { destruct (parse_message p c) as [[rest mm]| |] eqn:E.
      - destruct (parse_request p c rest mm H1 E) as (k & tx & code & fs & Hr & ->).
        assert (Hargs := request_u32 _ _ _ _ _ _ Hr).
        assert (Uniq : forall m, menu_request p c m -> match m with
            | RootMenu => code = 0x1000 | ArtistMenu => code = 0x1002 | TitleMenu => code = 0x1004
            | AlbumsOfArtist a => code = 0x1102 /\ arg_is fs 2 a
            | TitlesOfArtist a => code = 0x1202 /\ arg_is fs 2 a
            | TrackMetadata t => code = 0x2002 /\ arg_is fs 1 t
            | TrackMountInfo t => code = 0x2102 /\ arg_is fs 1 t end).
        { intros m (k' & tx' & code' & fs' & Hr' & Hm).
          destruct (request_unique _ _ _ _ _ _ _ _ _ _ Hr Hr') as (_ & _ & -> & ->). exact Hm. }
        pose proof (arg_cases (mkMessage (mkField k tx) Setup fs) 1 Hargs) as A1.
        pose proof (arg_cases (mkMessage (mkField k tx) Setup fs) 2 Hargs) as A2.
        cbn [m_arguments] in A1, A2.
        destruct (N.eq_dec code 0x1000) as [->|N1];
          [left; exists RootMenu, k, tx, 0x1000, fs; auto|].
        destruct (N.eq_dec code 0x1002) as [->|N2];
          [left; exists ArtistMenu, k, tx, 0x1002, fs; auto|].
        destruct (N.eq_dec code 0x1004) as [->|N3];
          [left; exists TitleMenu, k, tx, 0x1004, fs; auto|].
        destruct (N.eq_dec code 0x1102) as [->|N4].
        { destruct A2 as [[v [A2 _]]|[A2 _]];
            [left; exists (AlbumsOfArtist v), k, tx, 0x1102, fs; auto|].
          right. intros m Hm. apply Uniq in Hm.
          destruct m; try discriminate Hm; destruct Hm as [Hm1 Hm2]; try discriminate Hm1.
          eapply A2; eassumption. }
        destruct (N.eq_dec code 0x1202) as [->|N5].
        { destruct A2 as [[v [A2 _]]|[A2 _]];
            [left; exists (TitlesOfArtist v), k, tx, 0x1202, fs; auto|].
          right. intros m Hm. apply Uniq in Hm.
          destruct m; try discriminate Hm; destruct Hm as [Hm1 Hm2]; try discriminate Hm1.
          eapply A2; eassumption. }
        destruct (N.eq_dec code 0x2002) as [->|N6].
        { destruct A1 as [[v [A1 _]]|[A1 _]];
            [left; exists (TrackMetadata v), k, tx, 0x2002, fs; auto|].
          right. intros m Hm. apply Uniq in Hm.
          destruct m; try discriminate Hm; destruct Hm as [Hm1 Hm2]; try discriminate Hm1.
          eapply A1; eassumption. }
        destruct (N.eq_dec code 0x2102) as [->|N7].
        { destruct A1 as [[v [A1 _]]|[A1 _]];
            [left; exists (TrackMountInfo v), k, tx, 0x2102, fs; auto|].
          right. intros m Hm. apply Uniq in Hm.
          destruct m; try discriminate Hm; destruct Hm as [Hm1 Hm2]; try discriminate Hm1.
          eapply A1; eassumption. }
        right. intros m Hm. apply Uniq in Hm. destruct m; tauto.
      - right. intros m (k & tx & code & fs & Hr & _). apply request_parse in Hr.
        destruct Hr as [Hr _]. congruence.
      - right. intros m (k & tx & code & fs & Hr & _). apply request_parse in Hr.
        destruct Hr as [Hr _]. congruence. }
    destruct D as [[m Hm]|D].
    + left. exists c, m, hist, []. split; [reflexivity|]. split; [assumption|]. intros c' m' [].
    + destruct (IH Hb1) as [[c0 [m0 Hl]]|Hn].
      * left. exists c0, m0. destruct Hl as (a & b & -> & Hm0 & Hno).
        exists a, (b ++ [c]). split; [rewrite <- app_assoc; reflexivity|]. split; [assumption|].
        intros c' m' Hin. apply in_app_iff in Hin. destruct Hin as [Hin|[<-|[]]]; auto.
      * right. intros c' m' Hin. apply in_app_iff in Hin. destruct Hin as [Hin|[<-|[]]]; auto.
Qed.

(** ** The exact condition for a history *)

Lemma fatal_iff : forall p h l d hist c, Forall bytes_ok hist -> bytes_ok c -> indexed l d ->
  List.length (serve p h d None hist) = List.length hist ->
  (serve p h d None (hist ++ [c]) = serve p h d None hist <-> fatal p l hist c).
Proof.
  intros p h l d hist c Hb Hc Hd Hl.
  destruct (serve_all p h d hist None Hl) as [st [Hst Happ]]. rewrite Happ.
  assert (A : serve p h d None hist ++ serve p h d st [c] = serve p h d None hist
              <-> process p h d st c = Panic).
  { cbn [serve]. pose proof (process_not_err p h l d c st Hc Hd) as NE.
    destruct (process p h d st c) as [[a st']| |]; [|congruence|].
    - split; intro H; [|discriminate]. exfalso.
      apply (f_equal (@List.length _)) in H. rewrite app_length in H. cbn in H. lia.
    - rewrite app_nil_r. tauto. }
  rewrite A, (process_panics p h l d c st Hc Hd). unfold fatal.
  assert (B : (exists kind tx fs s, is_request p c kind tx 0x3000 fs /\ st = Some s /\
                 forall ms, page_of h d (mkField kind tx) s <> Ok ms) <->
              (exists kind tx fs c0 m, is_request p c kind tx 0x3000 fs /\
                 last_menu p hist c0 m /\ no_page l m)).
  { split.
    - intros (k & tx & fs & s & Hr & -> & Hp).
      destruct (history_menu p hist Hb) as [[c0 [m Hm]]|Hn].
      + exists k, tx, fs, c0, m. split; [assumption|]. split; [assumption|].
        pose proof (state_after_last p h d hist c0 m None _ Hb Hm Hst) as E.
        injection E as ->. eapply page_panics; eassumption.
      + exfalso. pose proof (state_after_others p h d hist None _ Hb Hn Hst). discriminate.
    - intros (k & tx & fs & c0 & m & Hr & Hm & Hp).
      exists k, tx, fs, (menu_state m). split; [assumption|].
      split; [eapply state_after_last; eassumption|].
      eapply page_panics; eassumption. }
  tauto.
Qed.

Lemma conforming_all : forall p h l d hist, Forall bytes_ok hist -> indexed l d ->
  Forall (conforming p l) hist ->
  List.length (serve p h d None hist) = List.length hist.
Proof.
  intros p h l d hist Hb Hd. induction hist as [|c hist IH] using rev_ind; intro Hc; [reflexivity|].
  apply Forall_app in Hb. destruct Hb as [Hb1 Hb2]. inversion Hb2; subst.
  apply Forall_app in Hc. destruct Hc as [Hc1 Hc2]. inversion Hc2; subst.
  specialize (IH Hb1 Hc1).
  assert (NF : ~ fatal p l hist c).
  { intros [F|[F|F]].
    - destruct F as [F1 F2]. destruct H3 as [C|[C|C]].
      + apply F1. right. left. lia.
      + tauto.
      + destruct C as (k & tx & code & fs & Hr & _). eapply F2. eassumption.
    - destruct F as (k & tx & code & fs & Hr & F).
      assert (Hr0 := Hr). apply request_parse in Hr. destruct Hr as [E [E32 _]].
      destruct H3 as [C|[C|C]]; [lia| |].
      + apply (proj2 (parse_err_iff p c)) in C. congruence.
      + destruct C as (k' & tx' & code' & fs' & Hr' & C1 & C2 & C3).
        destruct (request_unique _ _ _ _ _ _ _ _ _ _ Hr0 Hr') as (_ & _ & -> & ->).
        destruct F as [[F N]|[[F|F] N]].
        * destruct (C1 F) as [a Ha]. eapply N; eassumption.
        * destruct (C2 F) as (t & s & Ha & _). eapply N; eassumption.
        * destruct (C3 F) as (t & s & path & Ha & _). eapply N; eassumption.
    - destruct F as (k & tx & fs & c0 & m & Hr & Hm & Hn).
      destruct Hm as (a & b & -> & Hm & _).
      apply Forall_app in Hc1. destruct Hc1 as [_ Hc1]. pose proof (Forall_inv Hc1) as Cc.
      destruct Hm as (k' & tx' & code' & fs' & Hr' & Hm).
      assert (Hr0 := Hr'). apply request_parse in Hr'. destruct Hr' as [E [E32 _]].
      destruct Cc as [C|[C|C]]; [lia| |].
      + apply (proj2 (parse_err_iff p c0)) in C. congruence.
      + destruct C as (k2 & tx2 & code2 & fs2 & Hr2 & C1 & C2 & C3).
        destruct (request_unique _ _ _ _ _ _ _ _ _ _ Hr0 Hr2) as (_ & _ & -> & ->).
        destruct m; cbn [no_page] in Hn; try contradiction.
        * destruct Hm as [Hm Ha]. destruct (C2 Hm) as (t & s & Ha' & Ht).
          destruct Ha as [x [X1 [X2 X3]]], Ha' as [y [Y1 [Y2 Y3]]].
          assert (track_id = t) by congruence. subst t. congruence.
        * destruct Hm as [Hm Ha]. destruct (C3 Hm) as (t & s & path & Ha' & Ht & Hp & Ep).
          destruct Ha as [x [X1 [X2 X3]]], Ha' as [y [Y1 [Y2 Y3]]].
          assert (E9 : track_id = t) by congruence. rewrite E9, Ht in Hn.
          exact (Hn path Hp Ep). }
  destruct (serve_all p h d hist None IH) as [st [Hst Happ]].
  rewrite (app_length hist). cbn [List.length].
  destruct (fatal_iff p h l d hist c Hb1 H1 Hd IH) as [F _].
  rewrite Happ in *. cbn [serve] in *.
  pose proof (process_not_err p h l d c st H1 Hd).
  destruct (process p h d st c) as [[x st']| |].
  - rewrite app_length. cbn. lia.
  - congruence.
  - exfalso. apply NF, F. rewrite app_nil_r. reflexivity.
Qed.
