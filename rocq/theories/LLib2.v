(** Histories of requests on one connection. *)

From Verif Require Import Base Unicode MDb MDatabase MFixtures MLib SDb SDatabase SLib
  LBase LUnicode LDb LRead LDatabase LLib.
From Coq Require Import ZArith String.
Open Scope N_scope.
Open Scope list_scope.

Lemma as_u32_lt : forall x, as_u32 x < 4294967296.
Proof. intros. unfold as_u32, u32_max1. lia. Qed.

Lemma type_code : forall code c t, request_type_new code = t -> request_type_new c = t -> code = c.
Proof. intros code c t H1 H2. apply request_type_new_inj. congruence. Qed.

(** ** Every message carries the transaction id *)

Lemma answer_transaction : forall p h d st chunk tx code fs a st',
  (forall s, code = 0x3000 -> st = Some s -> short_state h d s) ->
  is_request p chunk FU32 tx code fs -> code <> 0x1004 ->
  process p h d st chunk = Ok (a, st') ->
  exists ms, read_stream a = Some ms /\ Forall (fun m => c_tx m = number tx) ms /\
    (ms = [] -> code = 0x3000).
Proof.
  intros p h d st chunk tx code fs a st' Hs Hr Hc H.
  rewrite (process_request p h d st chunk FU32 tx code fs Hr) in H. cbv zeta in H.
  destruct (request_parse _ _ _ _ _ _ Hr) as [_ [_ Htx]].
  change (mkField FU32 tx) with (u32_tx tx) in H.
  assert (One : forall t n, a = message_encode (mkMessage (u32_tx tx) Success
             [request_code_field t; field_of_u32 (as_u32 n)]) ->
    exists ms, read_stream a = Some ms /\ Forall (fun m => c_tx m = number tx) ms /\
      (ms = [] -> code = 0x3000)).
  { intros t n ->. rewrite ack2_read by (assumption || apply as_u32_lt).
    eexists. split; [reflexivity|]. split; [repeat constructor|discriminate]. }
  destruct (request_type_new code) eqn:Et; cbn [controller m_request_type] in H;
    try (assert (Ha : a = message_encode (mkMessage (u32_tx tx) Success [])) by congruence;
         rewrite Ha, message_simple_read
           by (apply plain_message_simple; [assumption|cbn; lia|constructor]);
         eexists; split; [reflexivity|]; split; [repeat constructor|discriminate]).
  - unfold album_by_artist_controller in H.
    apply rbind_ok in H. destruct H as [f [_ H]]. apply rbind_ok in H. destruct H as [i [_ H]].
    apply (One AlbumByArtistRequest (len (title_by_artist h d i))). cbn [m_transaction_id m_request_type] in H.
    rewrite response_encode in H. unfold number_of_tracks_by_artist in H. congruence.
  - apply (One ArtistRequest (len (artists h d))). unfold artist_controller in H.
    cbn [m_transaction_id m_request_type] in H.
    rewrite response_encode in H. unfold number_of_artists in H. congruence.
  - unfold metadata_controller in H.
    apply rbind_ok in H. destruct H as [f [_ H]]. apply rbind_ok in H. destruct H as [i [_ H]].
    apply (One MetadataRequest 10). cbn [m_transaction_id m_request_type] in H.
    change (as_u32 10) with 10. congruence.
  - unfold mount_info_controller in H.
    apply rbind_ok in H. destruct H as [f [_ H]]. apply rbind_ok in H. destruct H as [i [_ H]].
    apply (One MountInfoRequest 6). cbn [m_transaction_id m_request_type] in H.
    change (as_u32 6) with 6. congruence.
  - assert (Ha : a = load_track_controller (mkMessage (u32_tx tx) LoadTrackRequest fs)) by congruence.
    rewrite Ha, load_track_read by assumption.
    eexists; split; [reflexivity|]; split; [repeat constructor|discriminate].
  - assert (Ha : a = preview_waveform_controller (mkMessage (u32_tx tx) PreviewWaveformRequest fs))
      by congruence.
    rewrite Ha, preview_read by assumption.
    eexists; split; [reflexivity|]; split; [repeat constructor|discriminate].
  - rewrite render_page_of in H. cbn [handle_sequence_requests m_transaction_id] in H.
    assert (Ecode : code = 0x3000) by (eapply type_code; [eassumption|reflexivity]).
    destruct st as [s|].
    + destruct (page_of h d (u32_tx tx) s) as [ms| |] eqn:Ep; try discriminate H.
      assert (Ha : a = messages_encode ms) by (cbn in H; congruence). rewrite Ha.
      destruct (page_simple h d tx s ms Htx (Hs s Ecode eq_refl) Ep) as [P1 [P2 P3]].
      rewrite read_stream_simple by assumption. eexists. split; [reflexivity|].
      split; [|auto]. clear - P3. induction P3; cbn; constructor; assumption.
    + assert (Ha : a = []) by (cbn in H; congruence). rewrite Ha.
      exists []. split; [reflexivity|]. split; [constructor|auto].
  - assert (Ha : a = root_menu_controller (mkMessage (u32_tx tx) RootMenuRequest fs)) by congruence.
    rewrite Ha. unfold root_menu_controller. cbn [m_transaction_id]. rewrite response_encode.
    rewrite message_simple_read
      by (apply plain_message_simple; [assumption|cbn; lia|repeat constructor]).
    eexists; split; [reflexivity|]; split; [repeat constructor|discriminate].
  - assert (Ha : a = setup_controller (mkMessage (u32_tx tx) Setup fs)) by congruence.
    rewrite Ha. unfold setup_controller. cbn [m_transaction_id]. rewrite response_encode.
    rewrite message_simple_read
      by (apply plain_message_simple; [assumption|cbn; lia|repeat constructor]).
    eexists; split; [reflexivity|]; split; [repeat constructor|discriminate].
  - unfold title_by_artist_album_controller in H.
    apply rbind_ok in H. destruct H as [f [_ H]]. apply rbind_ok in H. destruct H as [i [_ H]].
    apply (One TitleByArtistAlbumRequest (len (title_by_artist h d i))). cbn [m_transaction_id m_request_type] in H.
    unfold number_of_tracks_by_artist in H. congruence.
  - exfalso. apply Hc. eapply type_code; [eassumption|reflexivity].
Qed.

Lemma title_answer : forall p h d st chunk tx fs,
  is_request p chunk FU32 tx 0x1004 fs ->
  exists st', process p h d st chunk
    = Ok ([0x11; 0x87; 0x23; 0x49; 0xae; 0x11] ++ tx, st').
Proof.
  intros p h d st chunk tx fs Hr.
  rewrite (process_request p h d st chunk FU32 tx 0x1004 fs Hr). eexists. reflexivity.
Qed.

Lemma title_answer_unreadable : forall tx, len tx = 4 ->
  read_stream ([0x11; 0x87; 0x23; 0x49; 0xae; 0x11] ++ tx) = None.
Proof.
  intros tx H. destruct tx as [|a [|b [|c [|e [|? ?]]]]]; try discriminate H;
    [|rewrite !len_cons in H; lia].
  vm_compute. reflexivity.
Qed.

(** ** Connection state *)

Definition menu_state (m : menu) : stateful :=
  match m with
  | RootMenu => SRootMenu
  | ArtistMenu => SArtist
  | TitleMenu => STitle
  | AlbumsOfArtist a => SAlbumByArtist a
  | TitlesOfArtist a => STitleByArtistAlbum a
  | TrackMetadata t => SMetadata t
  | TrackMountInfo t => SMountInfo t
  end.

Lemma argument_u32 : forall m i v, arg_is (m_arguments m) i v ->
  (do a <- argument_at m i; dbfield_to_u32 a) = Ok v.
Proof.
  intros m i v [dd [H1 [H2 H3]]]. unfold argument_at. rewrite H1. cbn [unwrap_opt rbind].
  unfold dbfield_to_u32. cbn [f_kind f_value]. rewrite H2. change (4 <? 4) with false. cbv iota.
  rewrite firstn_all2 by (unfold len in H2; lia).
  subst v. reflexivity.
Qed.

Lemma layout_u32 : forall p cs b fs, args_layout p cs b fs ->
  Forall (fun f => f_kind f = FU32 -> len (f_value f) = 4) fs.
Proof. intros p cs b fs H. induction H; [constructor|..]; (apply Forall_cons; [|assumption]);
    cbn [f_kind f_value]; intro E; first [assumption|discriminate E].
Qed.

Lemma request_u32 : forall p chunk k tx code fs, is_request p chunk k tx code fs ->
  Forall (fun f => f_kind f = FU32 -> len (f_value f) = 4) fs.
Proof.
  intros p chunk k tx code fs [_ H].
  destruct H as (code2 & n & types & args & j1 & j2 & j3 & j5 & H).
  eapply layout_u32. apply H.
Qed.

Lemma argument_u32_inv : forall m i v,
  Forall (fun f => f_kind f = FU32 -> len (f_value f) = 4) (m_arguments m) ->
  (do a <- argument_at m i; dbfield_to_u32 a) = Ok v -> arg_is (m_arguments m) i v.
Proof.
  intros m i v Hf H. apply rbind_ok in H. destruct H as [f [H1 H2]].
  unfold argument_at in H1. destruct (nth_error (m_arguments m) i) as [f'|] eqn:E; [|discriminate].
  inversion H1; subst f'. unfold dbfield_to_u32 in H2.
  destruct f as [[] v']; try discriminate H2. cbn [f_kind f_value] in H2.
  assert (L : len v' = 4).
  { rewrite Forall_forall in Hf. apply nth_error_In in E. apply Hf in E. apply E. reflexivity. }
  rewrite L in H2. change (4 <? 4) with false in H2. cbv iota in H2.
  exists v'. split; [assumption|]. split; [assumption|].
  rewrite firstn_all2 in H2 by (unfold len in L; lia). rewrite number_of_be. congruence.
Qed.

Lemma two_step : forall A (m : message) i (f : N -> res A),
  (do a <- argument_at m i; do x <- dbfield_to_u32 a; f x)
  = (do x <- (do a <- argument_at m i; dbfield_to_u32 a); f x).
Proof. intros. destruct (argument_at m i); reflexivity. Qed.

(** A menu request sets the state, whatever it was. *)
Lemma process_menu : forall p h d c m, menu_request p c m ->
  exists a, forall st, process p h d st c = Ok (a, Some (menu_state m)).
Proof.
  intros p h d c m (k & tx & code & fs & Hr & Hm).
  destruct m as [| | |x|x|x|x]; cbn [menu_state];
    [subst code|subst code|subst code|destruct Hm as [-> Harg]|destruct Hm as [-> Harg]
    |destruct Hm as [-> Harg]|destruct Hm as [-> Harg]];
    (eexists; intro st; rewrite (process_request p h d st c k tx _ fs Hr); cbv zeta).
  - reflexivity.
  - reflexivity.
  - reflexivity.
  - change (request_type_new 0x1102) with AlbumByArtistRequest.
    cbn [controller m_request_type]. unfold album_by_artist_controller. rewrite two_step.
    rewrite (argument_u32 (mkMessage (mkField k tx) AlbumByArtistRequest fs) 2 x Harg).
    reflexivity.
  - change (request_type_new 0x1202) with TitleByArtistAlbumRequest.
    cbn [controller m_request_type]. unfold title_by_artist_album_controller. rewrite two_step.
    rewrite (argument_u32 (mkMessage (mkField k tx) TitleByArtistAlbumRequest fs) 2 x Harg).
    reflexivity.
  - change (request_type_new 0x2002) with MetadataRequest.
    cbn [controller m_request_type]. unfold metadata_controller. rewrite two_step.
    rewrite (argument_u32 (mkMessage (mkField k tx) MetadataRequest fs) 1 x Harg).
    reflexivity.
  - change (request_type_new 0x2102) with MountInfoRequest.
    cbn [controller m_request_type]. unfold mount_info_controller. rewrite two_step.
    rewrite (argument_u32 (mkMessage (mkField k tx) MountInfoRequest fs) 1 x Harg).
    reflexivity.
Qed.

(** Anything else that is answered leaves it unchanged. *)
Lemma process_other : forall p h d c st a st', bytes_ok c ->
  (forall m, ~ menu_request p c m) ->
  process p h d st c = Ok (a, st') -> st' = st.
Proof.
  intros p h d c st a st' Hb Hn H. pose proof H as H0.
  unfold process in H. destruct (N.eqb_spec (len c) 5); [congruence|].
  destruct (parse_message p c) as [[rest m]| |] eqn:E; [|congruence|discriminate].
  destruct (parse_request p c rest m Hb E) as (k & tx & code & fs & Hr & ->).
  clear H. rewrite (process_request p h d st c k tx code fs Hr) in H0. cbv zeta in H0.
  assert (Hargs := request_u32 _ _ _ _ _ _ Hr).
  destruct (request_type_new code) eqn:Et;
    cbn [controller m_request_type handle_sequence_requests] in H0; try congruence.
  - exfalso. unfold album_by_artist_controller in H0. rewrite two_step in H0.
    apply rbind_ok in H0. destruct H0 as [x [Hx _]].
    apply argument_u32_inv in Hx; [|exact Hargs].
    apply (Hn (AlbumsOfArtist x)). exists k, tx, code, fs. split; [assumption|].
    split; [eapply type_code; [eassumption|reflexivity]|assumption].
  - exfalso. apply (Hn ArtistMenu). exists k, tx, code, fs. split; [assumption|].
    eapply type_code; [eassumption|reflexivity].
  - exfalso. unfold metadata_controller in H0. rewrite two_step in H0.
    apply rbind_ok in H0. destruct H0 as [x [Hx _]].
    apply argument_u32_inv in Hx; [|exact Hargs].
    apply (Hn (TrackMetadata x)). exists k, tx, code, fs. split; [assumption|].
    split; [eapply type_code; [eassumption|reflexivity]|assumption].
  - exfalso. unfold mount_info_controller in H0. rewrite two_step in H0.
    apply rbind_ok in H0. destruct H0 as [x [Hx _]].
    apply argument_u32_inv in Hx; [|exact Hargs].
    apply (Hn (TrackMountInfo x)). exists k, tx, code, fs. split; [assumption|].
    split; [eapply type_code; [eassumption|reflexivity]|assumption].
  - destruct (render_controller h d _ st) as [b| |]; cbn in H0; congruence.
  - exfalso. apply (Hn RootMenu). exists k, tx, code, fs. split; [assumption|].
    eapply type_code; [eassumption|reflexivity].
  - exfalso. unfold title_by_artist_album_controller in H0. rewrite two_step in H0.
    apply rbind_ok in H0. destruct H0 as [x [Hx _]].
    apply argument_u32_inv in Hx; [|exact Hargs].
    apply (Hn (TitlesOfArtist x)). exists k, tx, code, fs. split; [assumption|].
    split; [eapply type_code; [eassumption|reflexivity]|assumption].
  - exfalso. apply (Hn TitleMenu). exists k, tx, code, fs. split; [assumption|].
    eapply type_code; [eassumption|reflexivity].
Qed.

(** ** Histories *)

(** State after a history, if every chunk was answered. *)
Fixpoint state_after (p : profile) (h : hash_order) (d : database) (st : client_state)
  (l : list bytes) : option client_state :=
  match l with
  | [] => Some st
  | c :: r =>
      match process p h d st c with
      | Ok (_, st') => state_after p h d st' r
      | _ => None
      end
  end.

Lemma serve_all : forall p h d l st,
  List.length (serve p h d st l) = List.length l ->
  exists st', state_after p h d st l = Some st' /\
    forall r, serve p h d st (l ++ r) = serve p h d st l ++ serve p h d st' r.
Proof.
  intros p h d l. induction l as [|c l IH]; intros st H.
  - exists st. split; [reflexivity|]. reflexivity.
  - cbn [serve state_after app] in *.
    destruct (process p h d st c) as [[a st1]| |]; [|discriminate H|discriminate H].
    cbn in H. injection H as H. destruct (IH st1 H) as [st' [H1 H2]].
    exists st'. split; [assumption|]. intro r. cbn. rewrite H2. reflexivity.
Qed.

Lemma state_after_app : forall p h d a b st,
  state_after p h d st (a ++ b) =
  match state_after p h d st a with Some st' => state_after p h d st' b | None => None end.
Proof.
  intros p h d a b. induction a as [|c a IH]; intro st; cbn; [reflexivity|].
  destruct (process p h d st c) as [[x st']| |]; [apply IH|reflexivity|reflexivity].
Qed.

Lemma state_after_others : forall p h d l st st', Forall bytes_ok l ->
  (forall c m, In c l -> ~ menu_request p c m) ->
  state_after p h d st l = Some st' -> st' = st.
Proof.
  intros p h d l. induction l as [|c l IH]; intros st st' Hb Hn H; cbn in H; [congruence|].
  inversion Hb; subst. destruct (process p h d st c) as [[a st1]| |] eqn:E; try discriminate.
  apply process_other in E; [|assumption|intros m; apply Hn; left; reflexivity]. subst st1.
  eapply IH; try eassumption. intros c' m Hc. apply Hn. right. assumption.
Qed.

Lemma state_after_last : forall p h d hist c m st st', Forall bytes_ok hist ->
  last_menu p hist c m -> state_after p h d st hist = Some st' -> st' = Some (menu_state m).
Proof.
  intros p h d hist c m st st' Hb (before & after & -> & Hm & Hn) H.
  rewrite state_after_app in H. destruct (state_after p h d st before) as [st1|]; [|discriminate].
  cbn [state_after] in H. destruct (process_menu p h d c m Hm) as [a Ha].
  rewrite Ha in H. eapply state_after_others; [|exact Hn|exact H].
  apply Forall_app in Hb. destruct Hb as [_ Hb]. inversion Hb; assumption.
Qed.

(** Answers after a history with last menu [m] are those after that request alone. *)
Lemma serve_last_menu : forall p h d hist c m r, Forall bytes_ok hist ->
  List.length (serve p h d None hist) = List.length hist ->
  last_menu p hist c m ->
  serve p h d None (hist ++ r) = serve p h d None hist ++ serve p h d (Some (menu_state m)) r.
Proof.
  intros p h d hist c m r Hb Hl Hm. destruct (serve_all p h d hist None Hl) as [st' [H1 H2]].
  rewrite H2. erewrite (state_after_last p h d hist c m None st'); eauto.
Qed.

Lemma serve_no_menu : forall p h d hist r, Forall bytes_ok hist ->
  List.length (serve p h d None hist) = List.length hist ->
  no_menu p hist ->
  serve p h d None (hist ++ r) = serve p h d None hist ++ serve p h d None r.
Proof.
  intros p h d hist r Hb Hl Hm. destruct (serve_all p h d hist None Hl) as [st' [H1 H2]].
  rewrite H2. erewrite (state_after_others p h d hist None st'); eauto.
Qed.

Lemma process_render : forall p h d st r k tx fs, is_request p r k tx 0x3000 fs ->
  process p h d st r =
  match st with
  | Some s => rmap (fun ms => (messages_encode ms, st)) (page_of h d (mkField k tx) s)
  | None => Ok ([], st)
  end.
Proof.
  intros p h d st r k tx fs Hr. rewrite (process_request p h d st r k tx _ fs Hr). cbv zeta.
  cbn [request_type_new controller m_request_type handle_sequence_requests].
  change (request_type_new 12288) with RenderRequest. cbn [handle_sequence_requests controller m_request_type].
  rewrite render_page_of. destruct st as [s|]; [|reflexivity].
  cbn [m_transaction_id]. destruct (page_of h d _ s); reflexivity.
Qed.
