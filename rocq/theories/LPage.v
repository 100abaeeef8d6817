(** Pages with texts that are too long. *)

From Verif Require Import Base Unicode MDb MDatabase MFixtures MLib SDb SDatabase SLib
  LBase LUnicode LDb LRead LDatabase LLib LLib2 LLib3 LLib4.
From Coq Require Import ZArith String.
Open Scope N_scope.
Open Scope list_scope.

(** The size in front of the first text of a message is the size of that text. *)
Definition consistent (c : cmsg) : Prop :=
  forall n u, nth_error (c_args c) 2 = Some (CNum 4 n) -> nth_error (c_args c) 3 = Some (CText u) ->
    n = 2 * len u + 2.

Lemma read_message_args : forall tx c1 c2 fs r,
  len tx = 4 -> (List.length fs <= 12)%nat ->
  read_message (message_to_response (mkField FU32 tx) ++ [0x10; c1; c2]
                ++ arguments_encode fs ++ r)
  = match read_args (codes fs) (CNum 0 1) (flat_map field_as_bytes fs ++ r) with
    | Some (args, l) => Some (mkCmsg (number tx) (number [c1; c2]) args, l)
    | None => None
    end.
Proof.
  intros tx c1 c2 fs r Htx Hl.
  rewrite arguments_encode_12 by assumption.
  unfold message_to_response, read_message.
  cbn [field_as_bytes f_kind f_value field_type_value].
  rewrite <- !app_assoc.
  change ([17] ++ db_magic ++ ?x) with (17 :: db_magic ++ x).
  rewrite read_value_num4 by reflexivity.
  change (number db_magic) with 0x872349ae. cbv iota beta.
  change ([17] ++ tx ++ ?x) with (17 :: tx ++ x).
  rewrite read_value_num4 by assumption. cbv iota beta.
  change ([16; c1; c2] ++ ?x) with (16 :: [c1; c2] ++ x).
  rewrite read_value_num2 by reflexivity. cbv iota beta.
  change ([15; len fs] ++ ?x) with (15 :: [len fs] ++ x).
  rewrite read_value_num1 by reflexivity. cbv iota beta.
  change ([20; 0; 0; 0; 12] ++ ?x) with (20 :: [0; 0; 0; 12] ++ x).
  rewrite (app_assoc (codes fs)).
  assert (Htl : len (codes fs ++ repeat 0 (12 - List.length fs)) = 12)
    by (rewrite len_app, codes_len, len_repeat; unfold len; lia).
  rewrite read_value_blob by (try reflexivity; exact Htl). cbv iota beta.
  rewrite Htl. change (12 =? 12) with true.
  assert (En : number [len fs] = len fs) by (unfold number; cbn [fold_left]; lia).
  rewrite En. destruct (N.leb_spec (len fs) 12); [|unfold len in *; lia].
  cbn [andb]. rewrite firstn_codes. reflexivity.
Qed.

Lemma read_args_step : forall c cs prev l vs l'',
  (c =? 3) = false -> read_args (c :: cs) prev l = Some (vs, l'') ->
  exists v l' vs', read_value l = Some (v, l') /\ read_args cs v l' = Some (vs', l'') /\ vs = v :: vs'.
Proof.
  intros c cs prev l vs l'' Hc H. cbn [read_args] in H. rewrite Hc in H. cbn [andb] in H.
  destruct (read_value l) as [[v l']|]; [|discriminate].
  destruct (has_code c v); [|discriminate].
  destruct (read_args cs v l') as [[vs' l2]|] eqn:E; [|discriminate].
  exists v, l', vs'. split; [reflexivity|]. split; [|congruence].
  rewrite E. congruence.
Qed.

(** The text read has as many units as its length byte says. *)
Lemma text_read_units : forall s r v l, read_value (field_as_bytes (field_of_str s) ++ r) = Some (v, l) ->
  exists u, v = CText u /\ len u = len (utf16_encode s) mod 128.
Proof.
  intros s r v l H. rewrite text_field_bytes in H. cbn [app read_value] in H.
  change (0 :: 0 :: 0 :: ?x :: ?y) with ([0; 0; 0; x] ++ y) in H.
  rewrite cut_app in H by reflexivity.
  destruct (cut _ _) as [[d rest]|] eqn:E; [|discriminate].
  apply cut_some in E. destruct E as [_ E].
  assert (En : number [0; 0; 0; len (utf16_encode s) mod 128 + 1]
               = len (utf16_encode s) mod 128 + 1)
    by (unfold number; cbn [fold_left]; lia).
  rewrite En in *.
  destruct rest as [|x [|y rest]]; try discriminate;
    destruct x; try discriminate; destruct y; try discriminate.
  destruct (0 <? _); [|discriminate].
  exists (units_of d). split; [congruence|]. apply units_of_length. lia.
Qed.

Lemma read_args_u32 : forall cs prev n r vs l,
  read_args (6 :: cs) prev (field_as_bytes (field_of_u32 n) ++ r) = Some (vs, l) ->
  exists vs', vs = CNum 4 (n mod 4294967296) :: vs' /\
    read_args cs (CNum 4 (n mod 4294967296)) r = Some (vs', l).
Proof.
  intros cs prev n r vs l H. apply read_args_step in H; [|reflexivity].
  destruct H as (v & l' & vs' & E & H & ->).
  rewrite read_value_simple in E by (apply simple_u32 || (apply short_num; reflexivity)).
  unfold cval, field_of_u32 in E. cbn [f_kind f_value] in E. rewrite number_be4 in E.
  injection E as <- <-. eauto.
Qed.

Lemma item_read_short : forall tx a r c r', len tx = 4 ->
  len (utf16_encode (value1 a)) < 2 ^ 31 - 1 ->
  read_message (message_encode (item_message (u32_tx tx) a) ++ r) = Some (c, r') ->
  consistent c -> short (value1 a).
Proof.
  intros tx a r c r' Htx Hb H Hc.
  unfold message_encode, item_message in H. cbn [m_transaction_id m_request_type m_arguments] in H.
  rewrite <- !app_assoc in H. cbn [request_type_value] in H.
  change ([16] ++ [65; 1] ++ ?x) with ([0x10; 65; 1] ++ x) in H.
  unfold u32_tx in H.
  rewrite read_message_args in H by (try assumption; cbn; lia).
  destruct (read_args _ _ _) as [[vs l]|] eqn:E; [|discriminate].
  assert (Ev : c_args c = vs) by (injection H as <- <-; reflexivity).
  unfold item_fields in E. cbn [codes map flat_map] in E.
  change (f_kind (field_of_4 _)) with FU32 in E.
  change (f_kind (field_of_u32 _)) with FU32 in E.
  change (f_kind (field_of_str _)) with FString in E.
  change (field_of_4 (be 4 ?x)) with (field_of_u32 x) in E.
  cbn [argument_type_value] in E. rewrite <- !app_assoc in E.
  apply read_args_u32 in E. destruct E as (vs0 & -> & E).
  apply read_args_u32 in E. destruct E as (vs1 & -> & E).
  apply read_args_u32 in E. destruct E as (vs2 & -> & E).
  apply read_args_step in E; [|reflexivity]. destruct E as (v3 & l3 & vs3 & E3 & E & ->).
  apply text_read_units in E3. destruct E3 as [u [-> Eu]].
  specialize (Hc (as_u32 (len (utf16_encode (value1 a)) * 2 + 2) mod 4294967296) u).
  rewrite Ev in Hc. cbn [nth_error] in Hc.
  specialize (Hc eq_refl eq_refl). unfold as_u32, u32_max1 in Hc. unfold short.
  change (2 ^ 31 - 1) with 2147483647 in Hb. lia.
Qed.

(** A message of a page. *)
Definition page_message (tx : bytes) (m : message) : Prop :=
  simple_message m \/
  exists a, m = item_message (u32_tx tx) a /\ short (value2 a) /\
    len (utf16_encode (value1 a)) < 2 ^ 31 - 1.

Lemma stream_simple : forall tx ms cs k, len tx = 4 -> Forall (page_message tx) ms ->
  read_stream_fuel k (messages_encode ms) = Some cs -> Forall consistent cs ->
  Forall simple_message ms.
Proof.
  intros tx ms cs k Htx H. revert cs k. induction H as [|m ms Hm H IH]; intros cs k E Hc; [constructor|].
  unfold messages_encode in E. cbn [flat_map] in E. fold (messages_encode ms) in E.
  destruct (message_encode m ++ messages_encode ms) as [|x y] eqn:Eb.
  { apply app_eq_nil in Eb. destruct Eb as [Eb _]. apply message_encode_ne in Eb. destruct Eb. }
  destruct k as [|k]; [discriminate|]. cbn [read_stream_fuel] in E. rewrite <- Eb in E.
  destruct (read_message _) as [[c r]|] eqn:Er; [|discriminate].
  destruct (read_stream_fuel k r) as [cs'|] eqn:Es; [|discriminate].
  assert (Ec : cs = c :: cs') by congruence. subst cs. inversion Hc as [|c0 cs0 Hc1 Hc2]; subst.
  assert (Sm : simple_message m).
  { destruct Hm as [Hm|(a & -> & H2 & H1)]; [assumption|].
    apply item_message_simple; [assumption| |assumption].
    eapply item_read_short; eassumption. }
  constructor; [assumption|].
  destruct m as [[k' tx'] t fs]. destruct Sm as [Hk [Htx' [Hl [Hs Ht]]]].
  cbn in Hk, Htx', Hl, Hs, Ht. subst k'.
  rewrite read_message_simple in Er by assumption.
  assert (X : r = messages_encode ms) by congruence. subst r.
  eapply IH; eassumption.
Qed.

Lemma simple_item_short : forall tx a, simple_message (item_message (u32_tx tx) a) -> short (value1 a).
Proof.
  intros tx a (_ & _ & _ & _ & H). unfold item_message in H. cbn [m_arguments] in H.
  unfold item_fields in H. rewrite Forall_forall in H.
  specialize (H (field_of_str (value1 a))). unfold short_text in H.
  change (f_value (field_of_str (value1 a))) with (utf16_be (value1 a)) in H.
  rewrite utf16_be_len in H. unfold short.
  assert (2 * len (utf16_encode (value1 a)) / 2 <= 127).
  { apply H; [|reflexivity]. do 3 right. left. reflexivity. }
  lia.
Qed.

Lemma consistent_item : forall tx id1 id2 t1 t2 ty id3 id4,
  consistent (item tx id1 id2 t1 t2 ty id3 id4).
Proof.
  intros tx id1 id2 t1 t2 ty id3 id4 n u H1 H2. cbn [c_args item nth_error] in *.
  assert (n = byte_size t1) by congruence. assert (u = utf16_encode t1) by congruence.
  subst. reflexivity.
Qed.

Lemma consistent_other : forall c, (List.length (c_args c) <= 2)%nat -> consistent c.
Proof.
  intros c H n u H1 H2. assert (X : nth_error (c_args c) 2 = None) by (apply nth_error_None; assumption).
  congruence.
Qed.

Lemma page_consistent : forall l tx m cs, page_ok l tx m cs -> Forall consistent cs.
Proof.
  assert (Hh : forall tx, consistent (header tx)) by (intro; apply consistent_other; cbn; lia).
  assert (Hf : forall tx, consistent (footer tx)) by (intro; apply consistent_other; cbn; lia).
  assert (Hr : forall tx, consistent (root_footer tx)) by (intro; apply consistent_other; cbn; lia).
  intros l tx m cs H. destruct m; cbn [page_ok] in H.
  - subst cs. repeat (constructor; [apply Hh || apply Hr || apply consistent_item|]). constructor.
  - destruct H as [rows [-> P]]. constructor; [apply Hh|]. apply Forall_app.
    split; [|repeat constructor; apply Hf].
    eapply Permutation_Forall; [apply Permutation_sym; exact P|].
    apply Forall_map_in. intros [i n] _. apply consistent_item.
  - subst cs. repeat (constructor; [apply Hh || apply Hf || apply consistent_item|]). constructor.
  - subst cs. repeat (constructor; [apply Hh || apply Hf || apply consistent_item|]). constructor.
  - destruct H as [rows [-> P]]. constructor; [apply Hh|]. apply Forall_app.
    split; [|repeat constructor; apply Hf].
    eapply Permutation_Forall; [apply Permutation_sym; exact P|].
    apply Forall_map_in. intros [i n] _. apply consistent_item.
  - destruct H as [s [_ ->]]. unfold metadata_page. cbv zeta.
    repeat (constructor; [apply Hh || apply Hf || apply consistent_item|]). constructor.
  - destruct H as (s & path & _ & _ & _ & ->). unfold mount_page. cbv zeta.
    repeat (constructor; [apply Hh || apply Hf || apply consistent_item|]). constructor.
Qed.

(** Every text of the page, of any length that 32 bits can announce. *)
Lemma page_only_short : forall h l d tx m ms cs, order_ok h ->
  indexed l d -> len tx = 4 -> moderate_page l m ->
  page_of h d (u32_tx tx) (menu_state m) = Ok ms ->
  read_stream (messages_encode ms) = Some cs -> page_ok l (number tx) m cs ->
  short_page l m.
Proof.
  intros h l d tx m ms cs Ho Hi Htx Hm Hp Hr Hok.
  apply page_consistent in Hok.
  assert (Hh := header_simple tx Htx). assert (Hf := footer_simple tx Htx).
  assert (Key : Forall (page_message tx) ms -> Forall simple_message ms).
  { intro H. unfold read_stream in Hr. eapply stream_simple; eassumption. }
  clear Hr Hok.
  unfold short_page, moderate_page in *.
  destruct m as [| | |id|id|id|id]; cbn [menu_state page_of page_texts] in *; try exact Logic.I.
  - assert (E : ms = render_artist_page h d (u32_tx tx)) by congruence. subst ms. clear Hp.
    pose proof (indexed_artists h l d Ho Hi) as P. unfold render_artist_page in Key.
    assert (K : Forall simple_message (map (fun a => build_message_item (u32_tx tx) (a_name a) ARTIST (a_id a)) (artists h d))).
    { assert (X : Forall (page_message tx) ([build_message_header (u32_tx tx)] ++
         map (fun a => build_message_item (u32_tx tx) (a_name a) ARTIST (a_id a)) (artists h d) ++
         [empty_footer (u32_tx tx)])).
      { constructor; [left; assumption|]. apply Forall_app. split; [|constructor; [left; assumption|constructor]].
        apply Forall_map_in. intros a Ha. right. eexists. split; [reflexivity|].
        split; [apply short_nil|]. cbn [value1].
        apply (Permutation_in _ P) in Ha. apply in_map_iff in Ha. destruct Ha as [n [<- Hn]].
        cbn [a_name]. destruct (artist_name_in l n Hn) as [s [Hin <-]].
        rewrite Forall_forall in Hm. apply Hm. assumption. }
      apply Key in X. inversion X as [|x y _ X']; subst. apply Forall_app in X'. apply X'. }
    apply Forall_forall. intros s Hs.
    rewrite Forall_forall in K.
    set (n := s_artist s).
    assert (Hn : In n (artist_names l)) by (apply firsts_in, in_map; assumption).
    assert (Ha : In (mkArtist (artist_number l n) n) (artists h d)).
    { apply (Permutation_in _ (Permutation_sym P)). apply in_map_iff. exists n. auto. }
    specialize (K _ (in_map (fun a => build_message_item (u32_tx tx) (a_name a) ARTIST (a_id a)) _ _ Ha)).
    apply simple_item_short in K. exact K.
  - assert (E : ms = render_title_by_artist_album h d (u32_tx tx) id) by congruence. subst ms. clear Hp.
    unfold render_title_by_artist_album in Key.
    assert (K : Forall simple_message (map (fun t => build_message_item (u32_tx tx) (t_title t) TITLE (t_id t))
         (title_by_artist h d id))).
    { assert (X : Forall (page_message tx) ([build_message_header (u32_tx tx)] ++
         map (fun t => build_message_item (u32_tx tx) (t_title t) TITLE (t_id t)) (title_by_artist h d id) ++
         [empty_footer (u32_tx tx)])).
      { constructor; [left; assumption|]. apply Forall_app. split; [|constructor; [left; assumption|constructor]].
        apply Forall_map_in. intros t Ht. right. eexists. split; [reflexivity|].
        split; [apply short_nil|]. cbn [value1].
        destruct (in_titles h d t id Ho Ht) as [i Hid].
        unfold title_by_artist in Ht. apply filter_In in Ht. destruct Ht as [_ Hf'].
        rewrite Hi in Hid. cbn [track_rows] in Hid. unfold expected_tracks in Hid.
        apply in_map_iff in Hid. destruct Hid as [[i' s] [E Hin]]. inversion E; subst.
        cbn [t_title t_artist_id expected_track] in *. apply (Hm i s).
        unfold tracks_of_artist. apply filter_In. split; assumption. }
      apply Key in X. inversion X as [|x y _ X']; subst. apply Forall_app in X'. apply X'. }
    intros i s Hin.
    unfold tracks_of_artist in Hin. apply filter_In in Hin. destruct Hin as [Hin Hf'].
    assert (Ht : In (expected_track l i s) (title_by_artist h d id)).
    { unfold title_by_artist. apply filter_In. split; [|exact Hf'].
      apply in_map_iff. exists (i, expected_track l i s). split; [reflexivity|].
      destruct Ho as [_ Ho]. eapply Permutation_in; [apply Permutation_sym, Ho|].
      rewrite Hi. cbn [track_rows]. unfold expected_tracks. apply in_map_iff.
      exists (i, s). auto. }
    rewrite Forall_forall in K.
    specialize (K _ (in_map (fun t => build_message_item (u32_tx tx) (t_title t) TITLE (t_id t)) _ _ Ht)).
    apply simple_item_short in K. exact K.
  - intros s Hs. pose proof (track_with_id_in l id s Hs) as Hin.
    rewrite render_metadata_eq in Hp. rewrite (get_track_with_id l d id Hi), Hs in Hp.
    cbn [option_map unwrap_opt rbind t_artist_id expected_track] in Hp.
    rewrite (get_artist_of l d s Hi Hin) in Hp. cbn [unwrap_opt rbind a_name t_title t_bpm] in Hp.
    destruct (Hm s Hs) as [H1 H2].
    assert (Hms : ms = _) by (symmetry; apply (f_equal (fun r => match r with Ok x => x | _ => [] end)) in Hp; exact Hp).
    clear Hp. subst ms. cbn beta iota in *.
    assert (K := fun X => Key X). clear Key.
    match type of K with Forall _ ?ms -> _ => assert (X : Forall (page_message tx) ms) end.
    { repeat (apply Forall_cons; [first [left; assumption|right; eexists; split; [reflexivity|];
        split; [apply short_nil|]; cbn [value1]; first [assumption|reflexivity]]|]). constructor. }
    apply K in X. inversion X as [|x0 y0 _ X0]; subst. inversion X0 as [|x1 y1 T X1]; subst.
    inversion X1 as [|x2 y2 A _]; subst.
    split; [exact (simple_item_short _ _ T)|exact (simple_item_short _ _ A)].
  - intros s path Hs Hpath Ep.
    rewrite render_mount_info_eq in Hp. rewrite (get_track_with_id l d id Hi), Hs in Hp.
    cbn [option_map] in Hp. unfold track_path in Hp. cbn [t_path expected_track] in Hp.
    rewrite Ep, utf8_decode_encode in Hp by assumption.
    cbn [unwrap_opt rbind t_size t_bpm] in Hp.
    pose proof (Hm s path Hs Hpath Ep) as H1.
    assert (Hms : ms = _) by (symmetry; apply (f_equal (fun r => match r with Ok x => x | _ => [] end)) in Hp; exact Hp).
    clear Hp. subst ms. cbn beta iota in *.
    match type of Key with Forall _ ?ms -> _ => assert (X : Forall (page_message tx) ms) end.
    { repeat (apply Forall_cons; [first [left; assumption|right; eexists; split; [reflexivity|];
        split; [apply short_nil|]; cbn [value1]; first [assumption|reflexivity]]|]). constructor. }
    apply Key in X.
    repeat match goal with H : Forall simple_message (_ :: _) |- _ => inversion H; clear H; subst end.
    match goal with H : simple_message (item_message _ (mkItem _ 5 _ _ _ _ _)) |- _ =>
      exact (simple_item_short _ _ H) end.
Qed.
