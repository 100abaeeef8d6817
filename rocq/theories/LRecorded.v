(** The server's encodings against the spec writer of [SRecorded]. *)

From Verif Require Import Base Unicode MDb MDatabase MFixtures MLib SDb SDatabase SLib SRecorded
  LBase LUnicode LDb LRead LDatabase LLib LLib2 LLib3 LLib4 LStatus.
From Coq Require Import ZArith Lia Arith String.
Open Scope N_scope.
Open Scope list_scope.

Definition field_bytes (f : field) : Prop := bytes_ok (f_value f).
Definition message_bytes (m : message) : Prop :=
  field_bytes (m_transaction_id m) /\ Forall field_bytes (m_arguments m).

Lemma be_number : forall n v, bytes_ok v -> List.length v = n -> be n (number v) = v.
Proof. intros n v H <-. rewrite number_of_be. apply be_of_be. assumption. Qed.

Lemma len_length : forall A (v : list A) n, len v = n -> List.length v = N.to_nat n.
Proof. intros A v n H. unfold len in H. lia. Qed.

Lemma field_write : forall f, simple_arg f -> short_text f -> field_bytes f ->
  field_as_bytes f = write_value (cval f) /\ argument_type_value (f_kind f) = type_entry (cval f).
Proof.
  intros [k v] Hs Ht Hb. unfold field_bytes in Hb. unfold simple_arg in Hs. unfold short_text in Ht.
  cbn [f_kind f_value] in *.
  destruct k; unfold cval; cbn [f_kind f_value]; cbn [write_value type_entry];
    (split; [|reflexivity]); unfold field_as_bytes; cbn [f_kind f_value].
  all: try (apply len_length in Hs; cbn [app]; rewrite be_number by assumption; reflexivity).
  all: try contradiction.
  - specialize (Ht eq_refl).
    assert (E : len v = 2 * (len v / 2)) by lia.
    rewrite (units_of_length (len v / 2) v E), (be_units_of (len v / 2) v E Hb).
    cbn [app]. unfold field_type_value. f_equal.
    replace (be 4 (len v / 2 + 1)) with [0; 0; 0; as_u8 (len v) / 2 + 1]; [reflexivity|].
    set (n := len v / 2) in *.
    assert (Hn : n <= 127) by exact Ht.
    assert (Ha : as_u8 (len v) = len v) by (unfold as_u8, u8_max1; lia).
    rewrite Ha. fold n.
    change (be 4 (n + 1)) with
      [(n + 1) / 256 / 256 / 256 mod 256; (n + 1) / 256 / 256 mod 256; (n + 1) / 256 mod 256; (n + 1) mod 256].
    rewrite (N.div_small (n + 1) 256) by lia. rewrite (N.mod_small (n + 1)) by lia. reflexivity.
Qed.

Lemma fields_write : forall fs, Forall simple_arg fs -> Forall short_text fs -> Forall field_bytes fs ->
  flat_map field_as_bytes fs = flat_map write_value (map cval fs) /\
  map (fun f => argument_type_value (f_kind f)) fs = map type_entry (map cval fs).
Proof.
  induction fs as [|f fs IH]; intros H1 H2 H3; [split; reflexivity|].
  apply Forall_cons_iff in H1, H2, H3. destruct H1 as [A1 B1], H2 as [A2 B2], H3 as [A3 B3].
  destruct (IH B1 B2 B3) as [E1 E2]. destruct (field_write f A1 A2 A3) as [F1 F2].
  cbn [flat_map map]. rewrite E1, E2, F1, F2. split; reflexivity.
Qed.

Lemma fill_zero : forall n, fill n 0 = repeat 0 n.
Proof. induction n; cbn; congruence. Qed.

(** A message around arguments written as the spec says. *)
Lemma message_shape : forall tx hi lo fs vs, bytes_ok tx -> len tx = 4 -> hi < 256 -> lo < 256 ->
  (List.length fs <= 12)%nat ->
  flat_map field_as_bytes fs = flat_map write_value vs ->
  map (fun f => argument_type_value (f_kind f)) fs = map type_entry vs ->
  message_to_response (u32_tx tx) ++ [0x10; hi; lo] ++ arguments_encode fs
  = write_message (mkCmsg (number tx) (hi * 256 + lo) vs).
Proof.
  intros tx hi lo fs vs Hb Htx Hh Hl Hn E1 E2.
  assert (Hv : List.length vs = List.length fs).
  { apply (f_equal (@List.length N)) in E2. rewrite !map_length in E2. congruence. }
  unfold write_message, message_to_response, arguments_encode. cbn [c_tx c_code c_args].
  rewrite E1, E2.
  assert (Ha : as_u8 (len fs) = len fs) by (unfold as_u8, u8_max1, len; lia).
  rewrite Ha.
  assert (Ef : (if len fs <? 12 then fill (12 - N.to_nat (len fs)) 0 else []) = repeat 0 (12 - List.length vs)).
  { rewrite Hv. unfold len. rewrite Nat2N.id. destruct (N.ltb_spec (N.of_nat (List.length fs)) 12).
    - apply fill_zero.
    - replace (12 - List.length fs)%nat with 0%nat by lia. reflexivity. }
  rewrite Ef.
  assert (Et : exists x t, map type_entry vs ++ repeat 0 (12 - List.length vs) = x :: t).
  { destruct vs as [|v vs]; cbn [map app repeat]; [exists 0, (repeat 0 11); reflexivity|eauto]. }
  assert (El : len (map type_entry vs ++ repeat 0 (12 - List.length vs)) = 12).
  { rewrite len_app, len_map, len_repeat. unfold len. lia. }
  assert (Eb : write_value (CBlob (map type_entry vs ++ repeat 0 (12 - List.length vs)))
               = [0x14; 0; 0; 0; 12] ++ map type_entry vs ++ repeat 0 (12 - List.length vs)).
  { destruct Et as (x & t & Et). rewrite Et in *. cbn [write_value]. rewrite El. reflexivity. }
  rewrite Eb. cbn [write_value]. unfold u32_tx, field_as_bytes. cbn [f_kind f_value].
  rewrite be_number by (assumption || (apply len_length in Htx; exact Htx)).
  assert (Ec : be 2 (hi * 256 + lo) = [hi; lo]).
  { change (be 2 (hi * 256 + lo)) with [(hi * 256 + lo) / 256 mod 256; (hi * 256 + lo) mod 256].
    f_equal; [|f_equal]; lia. }
  assert (En : be 1 (len vs) = [len fs]).
  { change (be 1 (len vs)) with [len vs mod 256]. unfold len. rewrite Hv. f_equal. lia. }
  rewrite Ec, En. change (be 4 0x872349ae) with db_magic.
  repeat (rewrite <- ?app_assoc; cbn [app]). reflexivity.
Qed.

Lemma request_type_value_bytes : forall t, exists hi lo,
  request_type_value t = [hi; lo] /\ hi < 256 /\ lo < 256.
Proof. intros []; do 2 eexists; (split; [reflexivity|split; reflexivity]). Qed.

Lemma message_write : forall m, simple_message m -> message_bytes m ->
  message_encode m = write_message (cview m).
Proof.
  intros [[k tx] t fs] (Hk & Htx & Hl & Hs & Ht) [Hb1 Hb2].
  cbn [m_transaction_id m_request_type m_arguments f_kind f_value] in *. subst k.
  unfold message_encode, cview. cbn [m_transaction_id m_request_type m_arguments f_value].
  destruct (request_type_value_bytes t) as (hi & lo & E & Hh & Hlo).
  rewrite E. change ([0x10] ++ [hi; lo] ++ arguments_encode fs) with ([0x10; hi; lo] ++ arguments_encode fs).
  destruct (fields_write fs Hs Ht Hb2) as [E1 E2].
  replace (number [hi; lo]) with (hi * 256 + lo) by (unfold number; cbn [fold_left]; lia).
  apply message_shape; auto.
Qed.

Lemma messages_write : forall ms, Forall simple_message ms -> Forall message_bytes ms ->
  messages_encode ms = write_messages (map cview ms).
Proof.
  induction ms as [|m ms IH]; intros H1 H2; [reflexivity|].
  apply Forall_cons_iff in H1, H2. destruct H1, H2.
  unfold messages_encode, write_messages in *. cbn [flat_map map].
  rewrite message_write by assumption. f_equal. apply IH; assumption.
Qed.

(** ** Everything the server puts into a message is a byte *)

Lemma u32_bytes : forall x, field_bytes (field_of_u32 x).
Proof. intros. apply be_ok. Qed.
Lemma four_bytes : forall x, field_bytes (field_of_4 (be 4 x)).
Proof. intros. apply be_ok. Qed.
Lemma str_bytes : forall s, field_bytes (field_of_str s).
Proof. intros. apply utf16_be_ok. Qed.

Lemma item_fields_bytes : forall a, Forall field_bytes (item_fields a).
Proof.
  intros a. unfold item_fields.
  repeat (apply Forall_cons; [first [apply four_bytes|apply u32_bytes|apply str_bytes]|]). constructor.
Qed.

Lemma item_made : forall tx a, bytes_ok tx -> message_bytes (item_message (u32_tx tx) a).
Proof. intros tx a H. split; [exact H|apply item_fields_bytes]. Qed.
Lemma row_made : forall tx t ty id, bytes_ok tx -> message_bytes (build_message_item (u32_tx tx) t ty id).
Proof. intros. rewrite build_message_item_eq. apply item_made. assumption. Qed.
Lemma header_made : forall tx, bytes_ok tx -> message_bytes (build_message_header (u32_tx tx)).
Proof. intros tx H. split; [exact H|repeat constructor]. Qed.
Lemma footer_made : forall tx, bytes_ok tx -> message_bytes (empty_footer (u32_tx tx)).
Proof. intros tx H. split; [exact H|repeat constructor]. Qed.
Lemma root_footer_made : forall tx, bytes_ok tx -> message_bytes (build_message_footer (u32_tx tx)).
Proof. intros tx H. split; [exact H|repeat constructor]. Qed.

Lemma page_made : forall h d tx s ms, bytes_ok tx ->
  page_of h d (u32_tx tx) s = Ok ms -> Forall message_bytes ms.
Proof.
  intros h d tx s ms Hb H.
  assert (Hh := header_made tx Hb). assert (Hf := footer_made tx Hb).
  assert (Hrf := root_footer_made tx Hb).
  destruct s; cbn [page_of] in H.
  - inversion H; subst; clear H. unfold render_root_menu. constructor; [assumption|]. apply Forall_app.
    split; [|constructor; [assumption|constructor]]. apply Forall_map_in.
    intros [[n t] i] _. apply row_made; assumption.
  - inversion H; subst; clear H. unfold render_artist_page. constructor; [assumption|]. apply Forall_app.
    split; [|constructor; [assumption|constructor]]. apply Forall_map_in.
    intros a _. apply row_made; assumption.
  - inversion H; subst; clear H. apply Forall_cons; [assumption|].
    apply Forall_cons; [apply row_made; assumption|constructor; [assumption|constructor]].
  - inversion H; subst; clear H. apply Forall_cons; [assumption|].
    apply Forall_cons; [apply row_made; assumption|constructor; [assumption|constructor]].
  - inversion H; subst; clear H. unfold render_title_by_artist_album. constructor; [assumption|].
    apply Forall_app. split; [|constructor; [assumption|constructor]]. apply Forall_map_in.
    intros a _. apply row_made; assumption.
  - rewrite render_metadata_eq in H.
    apply rbind_ok in H. destruct H as [t [Ht H]].
    apply rbind_ok in H. destruct H as [a [Ha H]].
    assert (Hms : ms = _) by (symmetry; apply (f_equal (fun r => match r with Ok x => x | _ => [] end)) in H; exact H).
    clear H. subst ms. cbn beta iota.
    repeat (apply Forall_cons; [first [assumption|apply item_made; assumption]|]). constructor.
  - rewrite render_mount_info_eq in H.
    destruct (get_track d track_id) as [t|] eqn:E; [|discriminate].
    apply rbind_ok in H. destruct H as [path [Hp H]].
    assert (Hms : ms = _) by (symmetry; apply (f_equal (fun r => match r with Ok x => x | _ => [] end)) in H; exact H).
    clear H. subst ms. cbn beta iota.
    repeat (apply Forall_cons; [first [assumption|apply item_made; assumption]|]). constructor.
Qed.

Lemma page_write : forall h d tx s ms, bytes_ok tx -> len tx = 4 -> short_state h d s ->
  page_of h d (u32_tx tx) s = Ok ms -> messages_encode ms = write_messages (map cview ms).
Proof.
  intros h d tx s ms Hb Htx Hs H.
  destruct (page_simple h d tx s ms Htx Hs H) as (P & _ & _).
  pose proof (page_made h d tx s ms Hb H) as M.
  apply messages_write; assumption.
Qed.

(** The transaction of a request is made of bytes. *)
Lemma request_tx_bytes : forall p c k tx code fs, is_request p c k tx code fs -> bytes_ok tx.
Proof.
  intros p c k tx code fs (Hb & code2 & n & types & args & j1 & j2 & j3 & j5 & E & _).
  subst c. unfold request_bytes in Hb. unfold bytes_ok in *.
  apply Forall_forall. intros x Hx. rewrite Forall_forall in Hb. apply Hb.
  rewrite !in_app_iff. auto 8.
Qed.

(** ** Whatever a client can read was written as the spec says *)

Lemma simple_written : forall m ms, simple_message m -> message_bytes m ->
  read_stream (message_encode m) = Some ms -> message_encode m = write_messages ms.
Proof.
  intros m ms H1 H2 H3. rewrite message_simple_read in H3 by assumption.
  assert (ms = [cview m]) by congruence. subst ms. unfold write_messages. cbn [flat_map].
  rewrite app_nil_r. apply message_write; assumption.
Qed.

Lemma plain_written : forall tx t fs ms, bytes_ok tx -> len tx = 4 -> (List.length fs <= 12)%nat ->
  Forall (fun f => f_kind f = FU32 /\ len (f_value f) = 4) fs -> Forall field_bytes fs ->
  read_stream (message_encode (mkMessage (u32_tx tx) t fs)) = Some ms ->
  message_encode (mkMessage (u32_tx tx) t fs) = write_messages ms.
Proof.
  intros tx t fs ms Hb Htx Hl H1 H2. apply simple_written.
  - apply plain_message_simple; assumption.
  - split; assumption.
Qed.

Lemma load_written : forall tx fs, bytes_ok tx -> len tx = 4 ->
  load_track_controller (mkMessage (u32_tx tx) LoadTrackRequest fs)
  = write_message (mkCmsg (number tx) 0x4e02 [CNum 4 0x2b04; CNum 4 1; CNum 4 0; CBlob []; CNum 4 0]).
Proof.
  intros tx fs Hb Htx. unfold load_track_controller, message_encode.
  cbn [m_transaction_id m_request_type m_arguments request_type_value].
  change ([0x10] ++ [0x4e; 0x02] ++ ?x) with ([0x10; 0x4e; 0x02] ++ x).
  apply (message_shape tx 0x4e 0x02); try assumption; try reflexivity. cbn. lia.
Qed.

Lemma preview_written : forall tx rt fs, bytes_ok tx -> len tx = 4 ->
  preview_waveform_controller (mkMessage (u32_tx tx) rt fs)
  = write_message (mkCmsg (number tx) 0x4402
      [CNum 4 0x2004; CNum 4 0; CNum 4 904; CBlob preview_waveform_response]).
Proof.
  intros tx rt fs Hb Htx. unfold preview_waveform_controller. cbn [m_transaction_id].
  change (field_as_bytes (field_of_2 [0x44; 0x02])) with [0x10; 0x44; 0x02].
  apply (message_shape tx 0x44 0x02); try assumption; try reflexivity. cbn. lia.
Qed.

Lemma answer_written : forall p h d st chunk tx code fs a st' ms,
  (forall s, code = 0x3000 -> st = Some s -> short_state h d s) ->
  is_request p chunk FU32 tx code fs -> code <> 0x1004 ->
  process p h d st chunk = Ok (a, st') ->
  read_stream a = Some ms -> a = write_messages ms.
Proof.
  intros p h d st chunk tx code fs a st' ms Hs Hr Hc H Hread.
  rewrite (process_request p h d st chunk FU32 tx code fs Hr) in H. cbv zeta in H.
  pose proof (request_tx_bytes _ _ _ _ _ _ Hr) as Hb.
  destruct (request_parse _ _ _ _ _ _ Hr) as [_ [_ Htx]].
  change (mkField FU32 tx) with (u32_tx tx) in H.
  assert (One : forall t n, a = message_encode (mkMessage (u32_tx tx) Success
             [request_code_field t; field_of_u32 (as_u32 n)]) -> a = write_messages ms).
  { intros t n ->. apply plain_written; try assumption; [cbn; lia| |].
    - constructor; [apply request_code_field_ok|]. constructor; [apply u32_field_ok|constructor].
    - constructor; [|constructor; [apply u32_bytes|constructor]].
      destruct t; repeat constructor. }
  destruct (request_type_new code) eqn:Et; cbn [controller m_request_type] in H;
    try (assert (Ha : a = message_encode (mkMessage (u32_tx tx) Success [])) by congruence;
         rewrite Ha in *; apply plain_written; try assumption; [cbn; lia|constructor|constructor]).
  - unfold album_by_artist_controller in H.
    apply rbind_ok in H. destruct H as [f [_ H]]. apply rbind_ok in H. destruct H as [i [_ H]].
    apply (One AlbumByArtistRequest (len (title_by_artist h d i))). cbn [m_transaction_id m_request_type] in H.
    rewrite response_encode in H. unfold number_of_tracks_by_artist in H. congruence.
  - apply (One ArtistRequest (len (artists h d))). unfold artist_controller in H.
    cbn [m_transaction_id m_request_type] in H.
    rewrite response_encode in H. unfold number_of_artists in H. congruence.
  - unfold metadata_controller in H.
    apply rbind_ok in H. destruct H as [f [_ H]]. apply rbind_ok in H. destruct H as [i [_ H]].
    apply (One MetadataRequest 10). cbn [m_transaction_id m_request_type] in H.
    change (as_u32 10) with 10. congruence.
  - unfold mount_info_controller in H.
    apply rbind_ok in H. destruct H as [f [_ H]]. apply rbind_ok in H. destruct H as [i [_ H]].
    apply (One MountInfoRequest 6). cbn [m_transaction_id m_request_type] in H.
    change (as_u32 6) with 6. congruence.
  - assert (Ha : a = load_track_controller (mkMessage (u32_tx tx) LoadTrackRequest fs)) by congruence.
    rewrite Ha in Hread. rewrite load_track_read in Hread by assumption.
    rewrite Ha, load_written by assumption. injection Hread as <-.
    unfold write_messages. cbn [flat_map]. rewrite app_nil_r. reflexivity.
  - assert (Ha : a = preview_waveform_controller (mkMessage (u32_tx tx) PreviewWaveformRequest fs))
      by congruence.
    rewrite Ha in Hread. rewrite preview_read in Hread by assumption.
    assert (E : ms = [mkCmsg (number tx) 0x4402
      [CNum 4 0x2004; CNum 4 0; CNum 4 904; CBlob preview_waveform_response]]) by congruence.
    rewrite Ha, preview_written, E by assumption.
    unfold write_messages. cbn [flat_map]. rewrite app_nil_r. reflexivity.
  - rewrite render_page_of in H. cbn [handle_sequence_requests m_transaction_id] in H.
    assert (Ecode : code = 0x3000) by (eapply LLib2.type_code; [eassumption|reflexivity]).
    destruct st as [s|].
    + destruct (page_of h d (u32_tx tx) s) as [pg| |] eqn:Ep; try discriminate H.
      assert (Ha : a = messages_encode pg) by (cbn in H; congruence). rewrite Ha in *.
      destruct (page_simple h d tx s pg Htx (Hs s Ecode eq_refl) Ep) as [P1 [P2 P3]].
      rewrite read_stream_simple in Hread by assumption.
      assert (ms = map cview pg) by congruence. subst ms.
      eapply page_write; eauto.
    + assert (Ha : a = []) by (cbn in H; congruence). rewrite Ha in *.
      assert (ms = []) by (cbn in Hread; congruence). subst ms. reflexivity.
  - assert (Ha : a = root_menu_controller (mkMessage (u32_tx tx) RootMenuRequest fs)) by congruence.
    rewrite Ha in *. unfold root_menu_controller in *. cbn [m_transaction_id] in *.
    rewrite response_encode in *. apply plain_written; try assumption; [cbn; lia|repeat constructor|repeat constructor].
  - assert (Ha : a = setup_controller (mkMessage (u32_tx tx) Setup fs)) by congruence.
    rewrite Ha in *. unfold setup_controller in *. cbn [m_transaction_id] in *.
    rewrite response_encode in *. apply plain_written; try assumption; [cbn; lia|repeat constructor|repeat constructor].
  - unfold title_by_artist_album_controller in H.
    apply rbind_ok in H. destruct H as [f [_ H]]. apply rbind_ok in H. destruct H as [i [_ H]].
    apply (One TitleByArtistAlbumRequest (len (title_by_artist h d i))). cbn [m_transaction_id m_request_type] in H.
    unfold number_of_tracks_by_artist in H. congruence.
  - exfalso. apply Hc. eapply LLib2.type_code; [eassumption|reflexivity].
Qed.

(** ** Reading what was written *)

Lemma number_be : forall n x, x < 256 ^ N.of_nat n -> number (be n x) = x.
Proof. intros n x H. rewrite number_of_be, of_be_be. apply N.mod_small. exact H. Qed.

Lemma len_be : forall n x, len (be n x) = N.of_nat n.
Proof. intros. unfold len. rewrite be_length. reflexivity. Qed.

Lemma len_units : forall u, len (flat_map (be 2) u) = 2 * len u.
Proof.
  induction u as [|x u IH]; [reflexivity|]. cbn [flat_map]. rewrite len_app, len_be, IH, len_cons. lia.
Qed.

Lemma read_write_value : forall v r, plain_value v -> read_value (write_value v ++ r) = Some (v, r).
Proof.
  intros [w n|u|b] r H; cbn [plain_value] in H; [| |contradiction].
  - destruct H as [-> H]. cbn [write_value].
    change (0x11 :: be 4 n) with ([0x11] ++ be 4 n). rewrite <- app_assoc. cbn [app].
    rewrite read_value_num4 by apply len_be. rewrite number_be by exact H. reflexivity.
  - destruct H as [Hu Hl]. cbn [write_value].
    replace ((0x26 :: be 4 (len u + 1) ++ flat_map (be 2) u ++ [0; 0]) ++ r)
      with (0x26 :: be 4 (len u + 1) ++ flat_map (be 2) u ++ [0; 0] ++ r)
      by (cbn [app]; rewrite <- !app_assoc; reflexivity).
    assert (E : number (be 4 (len u + 1)) = len u + 1) by (apply number_be; change (256 ^ N.of_nat 4) with 4294967296; lia).
    rewrite read_value_text; [rewrite units_of_be by assumption; reflexivity|apply len_be| |]; rewrite E.
    + lia.
    + rewrite len_units. lia.
Qed.

Lemma read_write_args : forall vs prev r, Forall plain_value vs ->
  read_args (map type_entry vs) prev (flat_map write_value vs ++ r) = Some (vs, r).
Proof.
  induction vs as [|v vs IH]; intros prev r H; [reflexivity|].
  apply Forall_cons_iff in H. destruct H as [Hv Hvs]. cbn [map flat_map read_args].
  assert (E3 : (type_entry v =? 3) = false).
  { destruct v as [w n|u|b]; cbn [plain_value] in Hv; [destruct Hv as [-> _]; reflexivity|reflexivity|contradiction]. }
  rewrite E3. cbn [andb]. rewrite <- app_assoc, read_write_value by assumption.
  assert (Ec : has_code (type_entry v) v = true).
  { destruct v as [w n|u|b]; cbn [plain_value] in Hv; [destruct Hv as [-> _]; reflexivity|reflexivity|contradiction]. }
  rewrite Ec, IH by assumption. reflexivity.
Qed.

Lemma read_write_message : forall m r, plain_message m ->
  read_message (write_message m ++ r) = Some (m, r).
Proof.
  intros [tx code vs] r (Ht & Hc & Hl & Hv). cbn [c_tx c_code c_args] in *.
  unfold write_message. cbn [c_tx c_code c_args].
  assert (Et : exists x t, map type_entry vs ++ repeat 0 (12 - List.length vs) = x :: t).
  { destruct vs as [|v vs]; cbn [map app repeat]; [exists 0, (repeat 0 11); reflexivity|eauto]. }
  assert (El : len (map type_entry vs ++ repeat 0 (12 - List.length vs)) = 12).
  { rewrite len_app, len_map, len_repeat. unfold len. lia. }
  rewrite <- !app_assoc. unfold read_message.
  rewrite read_write_value by (split; reflexivity). cbn beta iota.
  rewrite read_write_value by (split; [reflexivity|exact Ht]).
  assert (R2 : forall r', read_value (write_value (CNum 2 code) ++ r') = Some (CNum 2 code, r')).
  { intro r'. cbn [write_value]. change ((0x10 :: be 2 code) ++ r') with (0x10 :: be 2 code ++ r').
    rewrite read_value_num2 by apply len_be. rewrite number_be by exact Hc. reflexivity. }
  assert (R1 : forall r', read_value (write_value (CNum 1 (len vs)) ++ r') = Some (CNum 1 (len vs), r')).
  { intro r'. cbn [write_value]. change ((0x0f :: be 1 (len vs)) ++ r') with (0x0f :: be 1 (len vs) ++ r').
    rewrite read_value_num1 by apply len_be. rewrite number_be; [reflexivity|].
    change (256 ^ N.of_nat 1) with 256. unfold len. lia. }
  rewrite R2, R1.
  set (tab := map type_entry vs ++ repeat 0 (12 - List.length vs)) in *.
  assert (Rb : forall r', read_value (write_value (CBlob tab) ++ r') = Some (CBlob tab, r')).
  { intro r'. destruct Et as (x & t & Et). rewrite Et. cbn [write_value]. rewrite <- Et, El.
    change ((0x14 :: be 4 12 ++ tab) ++ r') with (0x14 :: be 4 12 ++ tab ++ r').
    apply read_value_blob; [reflexivity|]. rewrite El. reflexivity. }
  rewrite Rb, El. change (12 =? 12) with true. cbn [andb].
  destruct (N.leb_spec (len vs) 12) as [_|K]; [|unfold len in K; lia].
  replace (firstn (N.to_nat (len vs)) tab) with (map type_entry vs).
  - rewrite read_write_args by assumption. reflexivity.
  - unfold tab, len. rewrite Nat2N.id, firstn_app, map_length, Nat.sub_diag.
    cbn [firstn]. rewrite app_nil_r. rewrite firstn_all2 by (rewrite map_length; lia). reflexivity.
Qed.

Lemma read_write_messages : forall ms, Forall plain_message ms ->
  read_stream (write_messages ms) = Some ms.
Proof.
  intros ms H. unfold write_messages. rewrite flat_map_concat_map. apply read_stream_msgs.
  induction H as [|m ms Hm _ IH]; cbn [map]; constructor; [|assumption].
  split; [discriminate|]. intro r. apply read_write_message. assumption.
Qed.

(** ** What the answer to a menu request announces *)

Lemma menu_answer : forall p h l d st c tx code fs m,
  order_ok h -> len l < 4294967295 -> indexed l d ->
  is_request p c FU32 tx code fs -> names_menu code fs m -> m <> TitleMenu ->
  process p h d st c =
    Ok (message_encode (mkMessage (u32_tx tx) Success
          [request_code_field (request_type_new code); field_of_u32 (announced l m)]),
        Some (menu_state m)).
Proof.
  intros p h l d st c tx code fs m Ho Hl Hi Hc Hm Hnt.
  assert (Sm : forall n, n < 4294967296 -> as_u32 n = n)
    by (intros n Hn; unfold as_u32, u32_max1; apply N.mod_small; assumption).
  assert (Lt : forall id, len (tracks_of_artist l id) < 4294967296).
  { intro id. unfold tracks_of_artist.
    pose proof (filter_len _ (fun '(_, s) => artist_number l (s_artist s) =? id) (numbered 2 l)) as F.
    rewrite (numbered_len _ l 2) in F. lia. }
  assert (Hmr : menu_request p c m) by (exists FU32, tx, code, fs; split; assumption).
  destruct (process_menu p h d c m Hmr) as [a Ha]. rewrite (Ha st).
  pose proof (Ha st) as Hp. rewrite (process_request p h d st c FU32 tx code fs Hc) in Hp. cbv zeta in Hp.
  change (mkField FU32 tx) with (u32_tx tx) in Hp. f_equal. f_equal.
  destruct m as [| | |id|id|id|id]; cbn [names_menu announced] in *.
  - subst code. change (request_type_new 0x1000) with RootMenuRequest in *. cbn [controller m_request_type] in Hp.
    assert (Hp' : a = root_menu_controller (mkMessage (u32_tx tx) RootMenuRequest fs)) by congruence.
    rewrite Hp'. reflexivity.
  - subst code.
    assert (Hn : len (artists h d) = len (artist_names l)).
    { unfold len. rewrite (Permutation.Permutation_length (indexed_artists h l d Ho Hi)), map_length. reflexivity. }
    pose proof (firsts_len (map s_artist l)) as F. rewrite len_map in F.
    assert (Hlt : len (artist_names l) < 4294967296) by (unfold artist_names; lia).
    change (request_type_new 0x1002) with ArtistRequest in *. cbn [controller m_request_type] in Hp.
    assert (Hp' : a = artist_controller h d (mkMessage (u32_tx tx) ArtistRequest fs)) by congruence.
    rewrite Hp'. unfold artist_controller, number_of_artists. rewrite Hn, Sm by assumption. reflexivity.
  - congruence.
  - destruct Hm as [-> Harg].
    change (request_type_new 0x1102) with AlbumByArtistRequest in *. cbn [controller m_request_type] in Hp.
    unfold album_by_artist_controller in Hp. rewrite two_step in Hp.
    rewrite (argument_u32 (mkMessage (u32_tx tx) AlbumByArtistRequest fs) 2 id Harg) in Hp.
    cbn [rbind m_transaction_id m_request_type] in Hp.
    unfold number_of_tracks_by_artist in Hp. rewrite (title_by_artist_count h l d id Ho Hi), Sm in Hp by apply Lt.
    rewrite response_encode in Hp. congruence.
  - destruct Hm as [-> Harg].
    change (request_type_new 0x1202) with TitleByArtistAlbumRequest in *. cbn [controller m_request_type] in Hp.
    unfold title_by_artist_album_controller in Hp. rewrite two_step in Hp.
    rewrite (argument_u32 (mkMessage (u32_tx tx) TitleByArtistAlbumRequest fs) 2 id Harg) in Hp.
    cbn [rbind m_transaction_id m_request_type] in Hp.
    unfold number_of_tracks_by_artist in Hp. rewrite (title_by_artist_count h l d id Ho Hi), Sm in Hp by apply Lt.
    congruence.
  - destruct Hm as [-> Harg].
    change (request_type_new 0x2002) with MetadataRequest in *. cbn [controller m_request_type] in Hp.
    unfold metadata_controller in Hp. rewrite two_step in Hp.
    rewrite (argument_u32 (mkMessage (u32_tx tx) MetadataRequest fs) 1 id Harg) in Hp.
    cbn [rbind m_transaction_id m_request_type] in Hp. congruence.
  - destruct Hm as [-> Harg].
    change (request_type_new 0x2102) with MountInfoRequest in *. cbn [controller m_request_type] in Hp.
    unfold mount_info_controller in Hp. rewrite two_step in Hp.
    rewrite (argument_u32 (mkMessage (u32_tx tx) MountInfoRequest fs) 1 id Harg) in Hp.
    cbn [rbind m_transaction_id m_request_type] in Hp. congruence.
Qed.
