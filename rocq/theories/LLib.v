(** Proofs about the remote-DB service. *)

From Verif Require Import Base Unicode MDb MDatabase MFixtures MLib SDb SDatabase SLib
  LBase LUnicode LDb LRead LDatabase.
From Coq Require Import ZArith String.
Open Scope N_scope.
Open Scope list_scope.

(** ** Requests *)

Lemma request_parse : forall p chunk k tx code fs,
  is_request p chunk k tx code fs ->
  parse_message p chunk = Ok ([], mkMessage (mkField k tx) (request_type_new code) fs) /\
  32 <= len chunk /\ len tx = 4.
Proof.
  intros p chunk k tx code fs [Hb (code2 & n & types & args & j1 & j2 & j3 & j5 &
    E & L1 & L2 & L3 & L4 & Hn & Hc & Hlay)].
  split; [|split; [|assumption]].
  - apply parse_ok_iff; [assumption|]. split; [reflexivity|].
    exists k, tx, code2, n, types, args, j1, j2, j3, j5, fs. rewrite Hc. auto 10.
  - rewrite E. unfold request_bytes.
    rewrite !len_app, L1, L2, L3, L4, !len_cons, !len_nil. lia.
Qed.

Lemma parse_request : forall p chunk rest m, bytes_ok chunk ->
  parse_message p chunk = Ok (rest, m) ->
  exists k tx code fs, is_request p chunk k tx code fs /\
    m = mkMessage (mkField k tx) (request_type_new code) fs.
Proof.
  intros p chunk rest m Hb H. apply parse_ok_iff in H; [|assumption].
  destruct H as (_ & k & tx & code2 & n & types & args & j1 & j2 & j3 & j5 & fs &
    E & L1 & L2 & L3 & L4 & Hn & Hlay & ->).
  exists k, tx, (number code2), fs. split; [|reflexivity].
  split; [assumption|]. exists code2, n, types, args, j1, j2, j3, j5. auto 10.
Qed.

(** A request determines its parts. *)
Lemma request_unique : forall p chunk k tx code fs k' tx' code' fs',
  is_request p chunk k tx code fs -> is_request p chunk k' tx' code' fs' ->
  k = k' /\ tx = tx' /\ code = code' /\ fs = fs'.
Proof.
  intros p chunk k tx code fs k' tx' code' fs' H1 H2.
  apply request_parse in H1. apply request_parse in H2.
  destruct H1 as [H1 _], H2 as [H2 _]. rewrite H1 in H2.
  assert (E : mkMessage (mkField k tx) (request_type_new code) fs
            = mkMessage (mkField k' tx') (request_type_new code') fs') by congruence.
  injection E as -> -> E ->. apply request_type_new_inj in E. auto.
Qed.

Lemma process_request : forall p h d st chunk k tx code fs,
  is_request p chunk k tx code fs ->
  process p h d st chunk =
  let m := mkMessage (mkField k tx) (request_type_new code) fs in
  match controller h d m (handle_sequence_requests (request_type_new code) st) with
  | Some r => r
  | None => Ok (message_encode (mkMessage (mkField k tx) Success []), st)
  end.
Proof.
  intros p h d st chunk k tx code fs H. apply request_parse in H.
  destruct H as [H [Hl _]]. unfold process.
  destruct (N.eqb_spec (len chunk) 5); [lia|]. rewrite H. reflexivity.
Qed.

Lemma process_greeting : forall p h d st chunk, len chunk = 5 ->
  process p h d st chunk = Ok (chunk, st).
Proof. intros. unfold process. rewrite H. reflexivity. Qed.

Lemma process_undecodable : forall p h d st chunk, len chunk <> 5 -> undecodable chunk ->
  process p h d st chunk = Ok (lit "panic", st).
Proof.
  intros p h d st chunk Hl Hu. unfold process.
  destruct (N.eqb_spec (len chunk) 5); [lia|].
  assert (E : parse_message p chunk = Err) by (apply parse_err_iff; exact Hu).
  rewrite E. reflexivity.
Qed.

(** ** What clients read *)

Lemma number_be4 : forall x, number (be 4 x) = x mod 4294967296.
Proof. intros. rewrite number_of_be, of_be_be. reflexivity. Qed.

Lemma number_be4_small : forall x, x < 4294967296 -> number (be 4 x) = x.
Proof. intros. rewrite number_be4. apply N.mod_small. assumption. Qed.

Lemma cval_u32 : forall x, x < 4294967296 -> cval (field_of_u32 x) = CNum 4 x.
Proof. intros. unfold cval, field_of_u32. cbn [f_kind f_value]. now rewrite number_be4_small. Qed.

Lemma cval_4 : forall x, x < 4294967296 -> cval (field_of_4 (be 4 x)) = CNum 4 x.
Proof. exact cval_u32. Qed.

Lemma cval_str : forall s, str_ok s -> cval (field_of_str s) = CText (utf16_encode s).
Proof.
  intros. unfold cval, field_of_str. cbn [f_kind f_value]. now rewrite units_of_utf16.
Qed.

Lemma simple_u32 : forall x, simple_arg (field_of_u32 x).
Proof. intros. unfold simple_arg, field_of_u32. cbn [f_kind f_value]. apply be_len. Qed.
Lemma simple_4 : forall l, len l = 4 -> simple_arg (field_of_4 l).
Proof. intros. exact H. Qed.
Lemma simple_str : forall s, simple_arg (field_of_str s).
Proof. intros. unfold simple_arg, field_of_str. cbn [f_kind f_value]. apply utf16_be_even. Qed.
Lemma short_num : forall f, f_kind f = FU32 -> short_text f.
Proof. intros f H. unfold short_text. congruence. Qed.
Lemma short_str : forall s, short s -> short_text (field_of_str s).
Proof.
  intros s H _. unfold field_of_str. cbn [f_value]. rewrite utf16_be_len. unfold short in H. lia.
Qed.

Lemma short_nil : short [].
Proof. unfold short. cbn. lia. Qed.
#[export] Hint Resolve short_nil : lib.

Lemma item_fields_simple : forall a, Forall simple_arg (item_fields a).
Proof.
  intros a. unfold item_fields.
  repeat (constructor; [first [apply simple_u32|apply simple_str|apply simple_4; apply be_len]|]).
  constructor.
Qed.

Lemma item_fields_short : forall a, short (value1 a) -> short (value2 a) ->
  Forall short_text (item_fields a).
Proof.
  intros a H1 H2. unfold item_fields.
  repeat (constructor; [first [now apply short_str|apply short_num; reflexivity]|]).
  constructor.
Qed.

Definition u32_tx (tx : bytes) : field := mkField FU32 tx.

Lemma item_message_simple : forall tx a, len tx = 4 -> short (value1 a) -> short (value2 a) ->
  simple_message (item_message (u32_tx tx) a).
Proof.
  intros tx a Htx H1 H2. unfold simple_message, item_message, u32_tx.
  cbn [m_transaction_id m_arguments f_kind f_value].
  split; [reflexivity|]. split; [assumption|]. split; [cbn; lia|].
  split; [apply item_fields_simple|now apply item_fields_short].
Qed.

Lemma plain_message_simple : forall tx t fs, len tx = 4 -> (List.length fs <= 12)%nat ->
  Forall (fun f => f_kind f = FU32 /\ len (f_value f) = 4) fs ->
  simple_message (mkMessage (u32_tx tx) t fs).
Proof.
  intros tx t fs Htx Hl H. unfold simple_message, u32_tx.
  cbn [m_transaction_id m_arguments f_kind f_value].
  split; [reflexivity|]. split; [assumption|]. split; [assumption|].
  split; (eapply Forall_impl; [|exact H]); cbn; intros [k v] [Hk Hv]; cbn in *; subst.
  - exact Hv.
  - apply short_num. reflexivity.
Qed.

Lemma header_simple : forall tx, len tx = 4 -> simple_message (build_message_header (u32_tx tx)).
Proof. intros. apply plain_message_simple; [assumption|cbn; lia|repeat constructor]. Qed.
Lemma footer_simple : forall tx, len tx = 4 -> simple_message (empty_footer (u32_tx tx)).
Proof. intros. apply plain_message_simple; [assumption|cbn; lia|repeat constructor]. Qed.
Lemma root_footer_simple : forall tx, len tx = 4 -> simple_message (build_message_footer (u32_tx tx)).
Proof. intros. apply plain_message_simple; [assumption|cbn; lia|repeat constructor]. Qed.

Lemma cview_header : forall tx, cview (build_message_header (u32_tx tx)) = header (number tx).
Proof. reflexivity. Qed.
Lemma cview_footer : forall tx, cview (empty_footer (u32_tx tx)) = footer (number tx).
Proof. reflexivity. Qed.
Lemma cview_root_footer : forall tx, cview (build_message_footer (u32_tx tx)) = root_footer (number tx).
Proof. reflexivity. Qed.

(** ** The items with their default fields filled in *)

Lemma build_message_item_eq : forall tx v1 entry_type id2, build_message_item tx v1 entry_type id2 =
  item_message tx (mkItem 0 id2 0 0 v1 [] entry_type).
Proof. reflexivity. Qed.

Lemma render_metadata_eq : forall d tx track_id, render_metadata d tx track_id =
  do t <- unwrap_opt (get_track d track_id);
  do a <- unwrap_opt (get_artist d (t_artist_id t));
  Ok [ build_message_header tx;
       item_message tx (mkItem 1 5 0 256 (t_title t) [] TITLE);
       item_message tx (mkItem 1 1 0 0 (a_name a) [] ARTIST);
       item_message tx (mkItem 1 0 0 0 [] [] ALBUM);
       item_message tx (mkItem 0 195 0 0 [] [] DURATION);
       item_message tx (mkItem 0 (match t_bpm t with Some b => b | None => 0 end)
                          0 0 [] [] BPM);
       item_message tx (mkItem 0 5 0 0 [] [] COMMENT);
       item_message tx (mkItem 1 0 0 0 [] [] KEY);
       item_message tx (mkItem 0 0 0 0 [] [] RATING);
       item_message tx (mkItem 0 0 0 0 [] [] COLOR_NONE);
       item_message tx (mkItem 0 0 0 0 [] [] GENRE);
       empty_footer tx ].
Proof. reflexivity. Qed.

Lemma render_mount_info_eq : forall d tx track_id, render_mount_info d tx track_id =
  match get_track d track_id with
  | Some t =>
      do path <- track_path t;
      Ok [ build_message_header tx;
           item_message tx (mkItem 0 1 0 0 [] [] TITLE);
           item_message tx (mkItem 0 195 0 0 [] [] DURATION);
           item_message tx (mkItem 0 (match t_bpm t with Some b => b | None => 0 end)
                              0 0 [] [] BPM);
           item_message tx (mkItem 0 0 0 0 (lit "Tracks by www.loopmasters.com") [] COMMENT);
           item_message tx (mkItem (t_size t) 5 0 0 path [] MOUNT_PATH);
           item_message tx (mkItem 0 1 0 0 [] [] UNKNOWN1);
           empty_footer tx ]
  | None => Panic
  end.
Proof. reflexivity. Qed.

Lemma byte_size_u32 : forall s, short s -> as_u32 (len (utf16_encode s) * 2 + 2) = byte_size s.
Proof. intros s H. unfold short in H. unfold as_u32, u32_max1, byte_size. lia. Qed.

Lemma cview_item : forall tx id1 id2 id3 id4 v1 v2 ty,
  str_ok v1 -> str_ok v2 -> short v1 -> short v2 ->
  id1 < 4294967296 -> id2 < 4294967296 -> id3 < 4294967296 -> id4 < 4294967296 ->
  ty < 4294967296 ->
  cview (item_message (u32_tx tx) (mkItem id1 id2 id3 id4 v1 v2 ty))
  = item (number tx) id1 id2 v1 v2 ty id3 id4.
Proof.
  intros. unfold cview, item_message, item.
  cbn [m_transaction_id m_request_type m_arguments f_value u32_tx request_type_value].
  unfold item_fields. cbn [map entry_id1 entry_id2 entry_id3 entry_id4 value1 value2 item_type].
  rewrite !byte_size_u32 by assumption.
  assert (B : forall s, short s -> byte_size s < 4294967296)
    by (intros s Hs; unfold short in Hs; unfold byte_size; lia).
  rewrite !cval_4, !cval_u32, !cval_str by (assumption || (apply B; assumption) || lia).
  reflexivity.
Qed.

Lemma cview_row : forall tx id t ty,
  str_ok t -> short t -> id < 4294967296 -> ty < 4294967296 ->
  cview (build_message_item (u32_tx tx) t ty id) = row (number tx) id t ty.
Proof.
  intros. rewrite build_message_item_eq; unfold row. apply cview_item; try assumption; try lia.
  - constructor.
  - apply short_nil.
Qed.

Lemma row_simple : forall tx id t ty, len tx = 4 -> short t ->
  simple_message (build_message_item (u32_tx tx) t ty id).
Proof. intros. apply item_message_simple; [assumption|assumption|apply short_nil]. Qed.

(** ** One-message answers *)

Lemma response_encode : forall tx fs,
  message_to_response tx ++ ok_request ++ arguments_encode fs = message_encode (mkMessage tx Success fs).
Proof. reflexivity. Qed.

Lemma message_simple_read : forall m, simple_message m ->
  read_stream (message_encode m) = Some [cview m].
Proof.
  intros m H. pose proof (read_stream_simple [m]) as R. unfold messages_encode in R.
  cbn [flat_map map] in R. rewrite app_nil_r in R. apply R. constructor; [assumption|constructor].
Qed.

Lemma request_code_field_ok : forall t,
  f_kind (request_code_field t) = FU32 /\ len (f_value (request_code_field t)) = 4.
Proof. intros. split; reflexivity. Qed.

Lemma cval_code : forall t, cval (request_code_field t) = CNum 4 (number (request_type_value t)).
Proof. intros []; reflexivity. Qed.

Lemma u32_field_ok : forall x, f_kind (field_of_u32 x) = FU32 /\ len (f_value (field_of_u32 x)) = 4.
Proof. intros. split; [reflexivity|apply (be_len 4)]. Qed.

Lemma ack2_read : forall tx t n, len tx = 4 -> n < 4294967296 ->
  read_stream (message_encode (mkMessage (u32_tx tx) Success [request_code_field t; field_of_u32 n]))
  = Some [ack (number tx) [number (request_type_value t); n]].
Proof.
  intros tx t n Htx Hn. rewrite message_simple_read.
  - unfold cview, ack. cbn [m_transaction_id m_request_type m_arguments f_value u32_tx map].
    rewrite cval_code, cval_u32 by assumption. reflexivity.
  - apply plain_message_simple; [assumption|cbn; lia|].
    constructor; [apply request_code_field_ok|]. constructor; [apply u32_field_ok|constructor].
Qed.

Lemma preview_len : len preview_waveform_response = 904.
Proof. vm_compute. reflexivity. Qed.

Lemma preview_field : field_as_bytes (mkField FBinary preview_waveform_response)
  = 0x14 :: [0; 0; 3; 0x88] ++ preview_waveform_response.
Proof. vm_compute. reflexivity. Qed.

Lemma preview_read : forall tx rt fs, len tx = 4 ->
  read_stream (preview_waveform_controller (mkMessage (u32_tx tx) rt fs))
  = Some [mkCmsg (number tx) 0x4402
            [CNum 4 0x2004; CNum 4 0; CNum 4 904; CBlob preview_waveform_response]].
Proof.
  intros tx rt fs Htx.
  assert (Hex : exists v, v = preview_waveform_response /\ len v = 904 /\
     field_as_bytes (mkField FBinary v) = 0x14 :: [0; 0; 3; 0x88] ++ v).
  { exists preview_waveform_response. split; [reflexivity|].
    split; [exact preview_len|exact preview_field]. }
  unfold preview_waveform_controller. destruct Hex as [v [<- [Hv Hf]]].
  apply read_stream_one; [discriminate|]. intro r.
  rewrite <- !app_assoc. cbn [m_transaction_id].
  change (field_as_bytes (field_of_2 [68; 2])) with [0x10; 0x44; 0x02].
  unfold u32_tx. rewrite (read_message_gen tx 0x44 0x02 _
    [CNum 4 0x2004; CNum 4 0; CNum 4 904; CBlob v]); [reflexivity|assumption|cbn; lia|].
  cbn [flat_map codes map f_kind field_of_4 field_of_u32 argument_type_value].
  rewrite <- !app_assoc, Hf.
  eapply (read_args_cons _ _ _ (CNum 4 0x2004));
    [reflexivity|apply (read_value_num4 [0; 0; 32; 4]); reflexivity|reflexivity|].
  eapply (read_args_cons _ _ _ (CNum 4 0));
    [reflexivity|apply (read_value_num4 [0; 0; 0; 0]); reflexivity|reflexivity|].
  eapply (read_args_cons _ _ _ (CNum 4 904));
    [reflexivity|apply (read_value_num4 [0; 0; 3; 136]); reflexivity|reflexivity|].
  eapply (read_args_cons _ _ _ (CBlob v)); [reflexivity| |reflexivity|reflexivity].
  apply (read_value_blob [0; 0; 3; 0x88]); [reflexivity|]. rewrite Hv. reflexivity.
Qed.

Lemma read_args_omitted : forall cs w l vs l',
  read_args cs (CBlob []) l = Some (vs, l') ->
  read_args (3 :: cs) (CNum w 0) l = Some (CBlob [] :: vs, l').
Proof. intros cs w l vs l' H. cbn. rewrite H. reflexivity. Qed.

Lemma load_track_read : forall tx fs, len tx = 4 ->
  read_stream (load_track_controller (mkMessage (u32_tx tx) LoadTrackRequest fs))
  = Some [mkCmsg (number tx) 0x4e02
            [CNum 4 0x2b04; CNum 4 1; CNum 4 0; CBlob []; CNum 4 0]].
Proof.
  intros tx fs Htx. unfold load_track_controller, message_encode.
  cbn [m_transaction_id m_request_type m_arguments request_type_value].
  apply read_stream_one; [discriminate|]. intro r.
  rewrite <- !app_assoc. unfold u32_tx.
  apply (read_message_gen tx 0x4e 0x02 _
    [CNum 4 0x2b04; CNum 4 1; CNum 4 0; CBlob []; CNum 4 0]); [assumption|cbn; lia|].
  eapply (read_args_cons _ _ _ (CNum 4 0x2b04));
    [reflexivity|apply (read_value_num4 [0; 0; 0x2b; 4]); reflexivity|reflexivity|].
  eapply (read_args_cons _ _ _ (CNum 4 1));
    [reflexivity|apply (read_value_num4 [0; 0; 0; 1]); reflexivity|reflexivity|].
  eapply (read_args_cons _ _ _ (CNum 4 0));
    [reflexivity|apply (read_value_num4 [0; 0; 0; 0]); reflexivity|reflexivity|].
  apply read_args_omitted.
  eapply (read_args_cons _ _ _ (CNum 4 0));
    [reflexivity|apply (read_value_num4 [0; 0; 0; 0]); reflexivity|reflexivity|reflexivity].
Qed.

(** ** Pages *)

Lemma in_artists : forall h d a, order_ok h -> In a (artists h d) ->
  exists id, In (id, a) (artist_rows d).
Proof.
  intros h d a [Ho _] H. unfold artists in H. apply in_map_iff in H.
  destruct H as [[id a'] [E H]]. cbn in E. subst. exists id.
  eapply Permutation_in; [apply Ho|assumption].
Qed.

Lemma in_titles : forall h d t id, order_ok h -> In t (title_by_artist h d id) ->
  exists i, In (i, t) (track_rows d).
Proof.
  intros h d t id [_ Ho] H. unfold title_by_artist in H. apply filter_In in H.
  destruct H as [H _]. apply in_map_iff in H.
  destruct H as [[i t'] [E H]]. cbn in E. subst. exists i.
  eapply Permutation_in; [apply Ho|assumption].
Qed.

Lemma Forall_map_in : forall A B (f : A -> B) (P : B -> Prop) l,
  (forall x, In x l -> P (f x)) -> Forall P (map f l).
Proof.
  intros A B f P l H. apply Forall_forall. intros y Hy. apply in_map_iff in Hy.
  destruct Hy as [x [<- Hx]]. auto.
Qed.

Definition page_of (h : hash_order) (d : database) (tx : field) (s : stateful) : res (list message) :=
  match s with
  | SRootMenu => Ok (render_root_menu tx)
  | SArtist => Ok (render_artist_page h d tx)
  | STitle => Ok (render_title_page tx)
  | SAlbumByArtist _ => Ok (render_album_by_artist tx)
  | STitleByArtistAlbum a => Ok (render_title_by_artist_album h d tx a)
  | SMetadata t => render_metadata d tx t
  | SMountInfo t => render_mount_info d tx t
  end.

Lemma render_page_of : forall h d m st,
  render_controller h d m st =
  match st with
  | Some s => rmap messages_encode (page_of h d (m_transaction_id m) s)
  | None => Ok []
  end.
Proof. intros h d m [[]|]; reflexivity. Qed.

Lemma short_lit : forall s, (String.length s <= 40)%nat -> short (lit s).
Proof.
  intros s H. unfold short.
  assert (E : forall s, len (utf16_encode (lit s)) = N.of_nat (String.length s)).
  { induction s0 as [|c s0 IH]; [reflexivity|]. cbn [lit String.length].
    change (utf16_encode (Ascii.N_of_ascii c :: lit s0))
      with (utf16_char (Ascii.N_of_ascii c) ++ utf16_encode (lit s0)).
    rewrite len_app, IH.
    assert (B : Ascii.N_of_ascii c < 256) by (apply Ascii.N_ascii_bounded).
    unfold utf16_char. destruct (N.ltb_spec (Ascii.N_of_ascii c) 0x10000); [|lia].
    change (len [Ascii.N_of_ascii c]) with 1. lia. }
  rewrite E. lia.
Qed.

(** The texts of a page are short. *)
Definition short_state (h : hash_order) (d : database) (s : stateful) : Prop :=
  match s with
  | SArtist => forall a, In a (artists h d) -> short (a_name a)
  | STitleByArtistAlbum id => forall t, In t (title_by_artist h d id) -> short (t_title t)
  | SMetadata id => forall t a, get_track d id = Some t -> get_artist d (t_artist_id t) = Some a ->
      short (t_title t) /\ short (a_name a)
  | SMountInfo id => forall t path, get_track d id = Some t -> utf8_decode (t_path t) = Some path ->
      short path
  | _ => True
  end.

Lemma page_simple : forall h d tx s ms, len tx = 4 -> short_state h d s ->
  page_of h d (u32_tx tx) s = Ok ms ->
  Forall simple_message ms /\ ms <> [] /\
  Forall (fun m => c_tx (cview m) = number tx) ms.
Proof.
  intros h d tx s ms Htx Sh H.
  assert (Hh := header_simple tx Htx). assert (Hf := footer_simple tx Htx).
  assert (Hrf := root_footer_simple tx Htx).
  destruct s; cbn [page_of] in H.
  - inversion H; subst; clear H. split; [|split; [discriminate|]].
    + unfold render_root_menu. constructor; [assumption|]. apply Forall_app.
      split; [|constructor; [assumption|constructor]]. apply Forall_map_in.
      intros [[n t] i] Hin. apply row_simple; [assumption|].
      cbn [In root_menu_items] in Hin.
      repeat (destruct Hin as [E|Hin]; [inversion E; subst; vm_compute; discriminate|]).
      destruct Hin.
    + repeat constructor.
  - inversion H; subst; clear H. unfold render_artist_page.
    split; [|split; [discriminate|]].
    + constructor; [assumption|]. apply Forall_app.
      split; [|constructor; [assumption|constructor]]. apply Forall_map_in.
      intros a Ha. apply row_simple; [assumption|].
      apply Sh. assumption.
    + constructor; [reflexivity|]. apply Forall_app. split; [|repeat constructor].
      apply Forall_map_in. reflexivity.
  - inversion H; subst; clear H. split; [|split; [discriminate|repeat constructor]].
    apply Forall_cons; [assumption|]. apply Forall_cons; [|constructor; [assumption|constructor]].
    apply row_simple; [assumption|]. apply short_lit. cbn. lia.
  - inversion H; subst; clear H. split; [|split; [discriminate|repeat constructor]].
    apply Forall_cons; [assumption|]. apply Forall_cons; [|constructor; [assumption|constructor]].
    apply row_simple; [assumption|]. apply short_lit. cbn. lia.
  - inversion H; subst; clear H. unfold render_title_by_artist_album.
    split; [|split; [discriminate|]].
    + constructor; [assumption|]. apply Forall_app.
      split; [|constructor; [assumption|constructor]]. apply Forall_map_in.
      intros t Ht. apply row_simple; [assumption|].
      apply Sh. assumption.
    + constructor; [reflexivity|]. apply Forall_app. split; [|repeat constructor].
      apply Forall_map_in. reflexivity.
  - rewrite render_metadata_eq in H.
    apply rbind_ok in H. destruct H as [t [Ht H]].
    apply rbind_ok in H. destruct H as [a [Ha H]].
    destruct (get_track d track_id) as [t'|] eqn:E; [|discriminate].
    inversion Ht; subst t'.
    destruct (get_artist d (t_artist_id t)) as [a'|] eqn:E2; [|discriminate].
    inversion Ha; subst a'.
    destruct (Sh t a E E2) as [S1 S2].
    assert (Hms : ms = _) by (symmetry; apply (f_equal (fun r => match r with Ok x => x | _ => [] end)) in H; exact H).
    clear H. subst ms. cbn beta iota.
    split; [|split; [discriminate|repeat constructor]].
    repeat (apply Forall_cons; [first [assumption|apply item_message_simple;
      [assumption|try assumption; apply short_nil|apply short_nil]]|]). constructor.
  - rewrite render_mount_info_eq in H.
    destruct (get_track d track_id) as [t|] eqn:E; [|discriminate].
    apply rbind_ok in H. destruct H as [path [Hp H]].
    assert (Hms : ms = _) by (symmetry; apply (f_equal (fun r => match r with Ok x => x | _ => [] end)) in H; exact H).
    clear H. subst ms. cbn beta iota.
    assert (S1 : short path).
    { apply (Sh t path E). unfold track_path in Hp.
      destruct (utf8_decode (t_path t)); inversion Hp; reflexivity. }
    split; [|split; [discriminate|repeat constructor]].
    repeat (apply Forall_cons; [first [assumption|apply item_message_simple;
      [assumption|try assumption; first [apply short_nil|apply short_lit; cbn; lia]|apply short_nil]]|]).
    constructor.
Qed.
