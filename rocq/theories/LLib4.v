(** All pages together; interleavings of connections. *)

From Verif Require Import Base Unicode MDb MDatabase MFixtures MLib SDb SDatabase SLib SConn
  LBase LUnicode LDb LRead LDatabase LLib LLib2 LLib3.
From Coq Require Import ZArith String.
Open Scope N_scope.
Open Scope list_scope.

Lemma numbered_artist : forall l i n, In (i, n) (numbered 2 (artist_names l)) -> i = artist_number l n.
Proof.
  intros l i n H. apply numbered_in in H. destruct H as [H1 [H2 H3]].
  unfold artist_number.
  rewrite (position_of_nth (artist_names l) (N.to_nat (i - 2)) n (firsts_nodup _) H3). lia.
Qed.

Lemma artist_rows_spec : forall A (f : N -> str -> A) l,
  map (fun n => f (artist_number l n) n) (artist_names l)
  = map (fun '(i, n) => f i n) (numbered 2 (artist_names l)).
Proof.
  intros A f l. rewrite <- (numbered_map_snd _ (artist_names l) 2) at 1. rewrite map_map.
  apply map_ext_in. intros [i n] H. cbn [snd]. apply numbered_artist in H. subst. reflexivity.
Qed.

Lemma tracks_of_named : forall l name, In name (artist_names l) ->
  tracks_named l name = tracks_of_artist l (artist_number l name).
Proof.
  intros l name Hn. unfold tracks_named, tracks_of_artist. apply filter_ext_in.
  intros [i s] Hin. apply numbered_in in Hin. destruct Hin as [_ [_ Hin]]. apply nth_error_In in Hin.
  assert (Hs : In (s_artist s) (artist_names l)) by (apply firsts_in, in_map; assumption).
  destruct (N.eqb_spec (artist_number l (s_artist s)) (artist_number l name)) as [E|E].
  - apply artist_number_inj in E; [|assumption|assumption]. apply bytes_eqb_spec. assumption.
  - destruct (bytes_eqb (s_artist s) name) eqn:E2; [|reflexivity].
    apply bytes_eqb_spec in E2. congruence.
Qed.

Lemma tracks_of_unknown : forall l d id, indexed l d -> get_artist d id = None ->
  tracks_of_artist l id = [].
Proof.
  intros l d id Hd Hn. unfold tracks_of_artist.
  assert (G : forall x, In x (numbered 2 l) ->
     (let '(_, s) := x in artist_number l (s_artist s) =? id) = false).
  { intros [i s] Hin. apply numbered_in in Hin. destruct Hin as [_ [_ Hin]]. apply nth_error_In in Hin.
    destruct (N.eqb_spec (artist_number l (s_artist s)) id) as [E|E]; [|reflexivity].
    pose proof (get_artist_of l d s Hd Hin). congruence. }
  revert G. induction (numbered 2 l) as [|x xs IH]; intro G; [reflexivity|]. cbn [filter].
  rewrite (G x) by (left; reflexivity). apply IH. intros y Hy. apply G. right. assumption.
Qed.

Lemma filter_len : forall A (f : A -> bool) l, len (filter f l) <= len l.
Proof.
  induction l as [|x l IH]; cbn [filter]; [lia|]. destruct (f x); rewrite ?len_cons in *; lia.
Qed.

Lemma title_by_artist_count : forall h l d id, order_ok h -> indexed l d ->
  len (title_by_artist h d id) = len (tracks_of_artist l id).
Proof.
  intros h l d id Ho Hd. destruct (get_artist d id) as [a|] eqn:E.
  - apply (indexed_get_artist l d id a Hd) in E. destruct E as [_ [Hin ->]].
    rewrite <- tracks_of_named by assumption. unfold len.
    rewrite (Permutation_length (indexed_titles h l d (a_name a) Ho Hd Hin)), map_length. reflexivity.
  - rewrite (tracks_of_unknown l d id Hd E), (indexed_titles_unknown h l d id Ho Hd E). reflexivity.
Qed.

Lemma menu_name_ok : forall s, str_ok (menu_name s).
Proof.
  intro s. unfold menu_name. apply Forall_app. split; [repeat constructor|].
  apply Forall_app. split; [apply str_ok_lit|repeat constructor].
Qed.

Lemma menu_name_short : forall s, (String.length s <= 40)%nat -> short (menu_name s).
Proof.
  intros s H. pose proof (short_lit s H) as S. unfold short, menu_name in *.
  unfold utf16_encode in *. rewrite !flat_map_app, !len_app.
  assert (E : len (flat_map utf16_char (lit s)) <= 40).
  { clear S. assert (G : forall s, len (flat_map utf16_char (lit s)) = N.of_nat (String.length s)).
    { induction s0 as [|c s0 IH]; [reflexivity|]. cbn [lit String.length flat_map].
      rewrite len_app, IH.
      assert (B : Ascii.N_of_ascii c < 256) by (apply Ascii.N_ascii_bounded).
      unfold utf16_char. destruct (N.ltb_spec (Ascii.N_of_ascii c) 0x10000); [|lia].
      change (len [Ascii.N_of_ascii c]) with 1. lia. }
    rewrite G. lia. }
  change (len (flat_map utf16_char [65530])) with 1.
  change (len (flat_map utf16_char [65531])) with 1. lia.
Qed.

Lemma all_pages : forall h l d tx m, order_ok h -> len l < 4294967295 -> scan_ok l -> short_page l m ->
  indexed l d -> len tx = 4 -> ~ no_page l m ->
  exists ms cs, page_of h d (u32_tx tx) (menu_state m) = Ok ms /\
    read_stream (messages_encode ms) = Some cs /\ page_ok l (number tx) m cs.
Proof.
  intros h l d tx m Ho Hl Hok Hs Hd Htx Hn.
  assert (Sd := short_page_state h l d m Ho Hd Hs).
  destruct m; cbn [menu_state page_ok].
  - eexists _, _. split; [reflexivity|]. split; [exact (page_read h d tx SRootMenu _ Htx Sd eq_refl)|].
    unfold render_root_menu. rewrite !map_app. cbn [map app root_menu_items].
    rewrite cview_header, cview_root_footer.
    rewrite !cview_row by (first [apply menu_name_ok|apply menu_name_short; cbn; lia|reflexivity]).
    reflexivity.
  - destruct (artist_page_read h l d tx Ho Hl Hok Hd Htx Hs) as (ms & rows & E1 & E2 & E3).
    exists ms, (header (number tx) :: rows ++ [footer (number tx)]).
    split; [assumption|]. split; [assumption|]. exists rows. split; [reflexivity|].
    rewrite E3. rewrite (artist_rows_spec _ (fun i n => row (number tx) i n 7)). apply Permutation_refl.
  - eexists _, _. split; [reflexivity|]. split; [exact (page_read h d tx STitle _ Htx Sd eq_refl)|].
    unfold render_title_page. cbn [map]. rewrite cview_header, cview_footer.
    rewrite cview_row by (first [apply str_ok_lit|apply short_lit; cbn; lia|reflexivity]). reflexivity.
  - eexists _, _. split; [reflexivity|].
    split; [exact (page_read h d tx (SAlbumByArtist artist_id) _ Htx Sd eq_refl)|].
    unfold render_album_by_artist. cbn [map]. rewrite cview_header, cview_footer.
    rewrite cview_row by (first [apply str_ok_lit|apply short_lit; cbn; lia|reflexivity]). reflexivity.
  - destruct (get_artist d artist_id) as [a|] eqn:E.
    + apply (indexed_get_artist l d artist_id a Hd) in E. destruct E as [_ [Hin ->]].
      destruct (titles_page_read h l d tx Ho Hl Hok Hd Htx (a_name a) Hin Hs) as (ms & rows & E1 & E2 & E3).
      exists ms, (header (number tx) :: rows ++ [footer (number tx)]).
      split; [assumption|]. split; [assumption|]. exists rows. split; [reflexivity|].
      rewrite <- tracks_of_named by assumption. assumption.
    + destruct (titles_page_unknown h l d tx Ho Hd Htx artist_id E) as (ms & E1 & E2).
      exists ms, [header (number tx); footer (number tx)].
      split; [assumption|]. split; [assumption|]. exists []. split; [reflexivity|].
      rewrite (tracks_of_unknown l d artist_id Hd E). constructor.
  - destruct (track_with_id l track_id) as [s|] eqn:E; [|exfalso; apply Hn; exact E].
    destruct (metadata_page_read h l d tx Ho Hl Hok Hd Htx track_id s E Hs) as (ms & E1 & E2).
    exists ms, (metadata_page (number tx) s). split; [assumption|]. split; [assumption|].
    exists s. auto.
  - destruct (track_with_id l track_id) as [s|] eqn:E; [|exfalso; apply Hn; cbn; rewrite E; trivial].
    cbn [no_page] in Hn. rewrite E in Hn.
    destruct (utf8_decode (s_path s)) as [path|] eqn:Ep.
    2:{ exfalso. apply Hn. intros path Hp Heq.
        rewrite Heq, utf8_decode_encode in Ep by assumption. discriminate. }
    apply utf8_decode_some in Ep. destruct Ep as [Ep Hp].
    destruct (mount_page_read h l d tx Ho Hl Hok Hd Htx track_id s path E Hp (eq_sym Ep) Hs) as (ms & E1 & E2).
    exists ms, (mount_page (number tx) s path). split; [assumption|]. split; [assumption|].
    exists s, path. auto.
Qed.

(** ** Interleavings *)

Lemma answers_on_app : forall q a b, answers_on q (a ++ b) = answers_on q a ++ answers_on q b.
Proof. intros. apply flat_map_app. Qed.

Lemma step_other : forall p h d s e q, about q e = false ->
  fst (db_step p h d s e) q = s q /\ answers_on q (snd (db_step p h d s e)) = [].
Proof.
  intros p h d s e q H. destruct e as [port c|port|port c|port]; cbn [about] in H; cbn [db_step];
    repeat match goal with
    | |- context [match ?x with _ => _ end] => destruct x
    end; cbn [fst snd answers_on flat_map]; unfold set_port;
    try (rewrite N.eqb_sym, H); rewrite ?H; auto.
Qed.

Lemma step_same : forall p h d s s' e q, about q e = true -> s q = s' q ->
  fst (db_step p h d s e) q = fst (db_step p h d s' e) q /\
  answers_on q (snd (db_step p h d s e)) = answers_on q (snd (db_step p h d s' e)).
Proof.
  intros p h d s s' e q H E. destruct e as [port c|port|port c|port]; cbn [about] in H;
    apply N.eqb_eq in H; subst port; cbn [db_step].
  - cbn [fst snd]. unfold set_port. rewrite !N.eqb_refl. auto.
  - rewrite <- E. destruct (s q) eqn:Es; cbn [fst snd]; unfold set_port; rewrite ?N.eqb_refl;
      split; congruence.
  - rewrite <- E. destruct (s q) as [| |st|] eqn:Es; cbn [fst snd]; try (split; congruence).
    destruct (process p h d st c) as [[a st']| |]; cbn [fst snd]; unfold set_port;
      rewrite ?N.eqb_refl; auto.
  - rewrite <- E. destruct (s q) eqn:Es; cbn [fst snd]; unfold set_port; rewrite ?N.eqb_refl;
      split; congruence.
Qed.

Lemma run_cons : forall p h d s e es,
  db_run p h d s (e :: es) =
  (fst (db_run p h d (fst (db_step p h d s e)) es),
   snd (db_step p h d s e) ++ snd (db_run p h d (fst (db_step p h d s e)) es)).
Proof.
  intros. cbn [db_run]. destruct (db_step p h d s e) as [s' o]. cbn [fst snd].
  destruct (db_run p h d s' es). reflexivity.
Qed.

Lemma run_filter : forall p h d q es s s', s q = s' q ->
  fst (db_run p h d s es) q = fst (db_run p h d s' (filter (about q) es)) q /\
  answers_on q (snd (db_run p h d s es)) = answers_on q (snd (db_run p h d s' (filter (about q) es))).
Proof.
  intros p h d q es. induction es as [|e es IH]; intros s s' E.
  - cbn. auto.
  - cbn [filter]. destruct (about q e) eqn:Ea.
    + rewrite !run_cons. cbn [fst snd]. rewrite !answers_on_app.
      destruct (step_same p h d s s' e q Ea E) as [H1 H2].
      destruct (IH _ _ H1) as [H3 H4]. rewrite H2, H4. auto.
    + rewrite run_cons. cbn [fst snd]. rewrite answers_on_app.
      destruct (step_other p h d s e q Ea) as [H1 H2]. rewrite H2. cbn [app].
      apply IH. congruence.
Qed.

Lemma gone_silent : forall p h d q chunks s, s q = Gone ->
  answers_on q (snd (db_run p h d s (map (Chunk q) chunks))) = [].
Proof.
  intros p h d q chunks. induction chunks as [|c chunks IH]; intros s H; [reflexivity|].
  cbn [map]. rewrite run_cons. cbn [snd db_step]. rewrite H. cbn [fst snd]. apply IH. assumption.
Qed.

Lemma serving_alone : forall p h d q chunks s st, s q = Serving st ->
  answers_on q (snd (db_run p h d s (map (Chunk q) chunks))) = serve p h d st chunks.
Proof.
  intros p h d q chunks. induction chunks as [|c chunks IH]; intros s st H; [reflexivity|].
  cbn [map serve]. rewrite run_cons. cbn [snd db_step]. rewrite H.
  destruct (process p h d st c) as [[a st']| |]; cbn [fst snd].
  - rewrite answers_on_app. cbn [answers_on flat_map]. rewrite N.eqb_refl. cbn [app].
    f_equal. apply IH. unfold set_port. rewrite N.eqb_refl. reflexivity.
  - apply gone_silent. unfold set_port. rewrite N.eqb_refl. reflexivity.
  - apply gone_silent. unfold set_port. rewrite N.eqb_refl. reflexivity.
Qed.

(** Events of one port after it was handed out. *)
Definition after_query (q : N) (es : list db_event) : Prop :=
  Forall (fun e => about q e = true /\ forall port c, e <> Query port c) es.

Lemma gone_forever : forall p h d q es s, after_query q es -> s q = Gone ->
  answers_on q (snd (db_run p h d s es)) = [].
Proof.
  intros p h d q es. induction es as [|e es IH]; intros s F H; [reflexivity|].
  inversion F as [|? ? [Ha Hq] F']; subst. rewrite run_cons. cbn [snd]. rewrite answers_on_app.
  destruct e as [port c|port|port c|port]; [exfalso; exact (Hq port c eq_refl)| | |];
    cbn [about] in Ha; apply N.eqb_eq in Ha; subst port; cbn [db_step]; rewrite H; cbn [fst snd];
    apply IH; assumption.
Qed.

Lemma served_once : forall p h d q es s st, after_query q es -> s q = Serving st ->
  answers_on q (snd (db_run p h d s es)) = serve p h d st (chunks_served es).
Proof.
  intros p h d q es. induction es as [|e es IH]; intros s st F H; [reflexivity|].
  inversion F as [|? ? [Ha Hq] F']; subst. rewrite run_cons. cbn [snd]. rewrite answers_on_app.
  destruct e as [port c|port|port c|port]; [exfalso; exact (Hq port c eq_refl)| | |];
    cbn [about] in Ha; apply N.eqb_eq in Ha; subst port; cbn [db_step chunks_served]; rewrite H.
  - cbn [fst snd]. apply (IH s st F' H).
  - cbn [serve]. destruct (process p h d st c) as [[a st']| |]; cbn [fst snd].
    + cbn [answers_on flat_map]. rewrite N.eqb_refl. cbn [app]. f_equal. apply IH; [assumption|].
      unfold set_port. rewrite N.eqb_refl. reflexivity.
    + apply gone_forever; [assumption|]. unfold set_port. rewrite N.eqb_refl. reflexivity.
    + apply gone_forever; [assumption|]. unfold set_port. rewrite N.eqb_refl. reflexivity.
  - cbn [fst snd serve]. apply gone_forever; [assumption|]. unfold set_port. rewrite N.eqb_refl. reflexivity.
Qed.

Lemma connected_once : forall p h d q es s, after_query q es -> s q = Listening ->
  answers_on q (snd (db_run p h d s es)) = serve p h d None (chunks_connected es).
Proof.
  intros p h d q es. induction es as [|e es IH]; intros s F H; [reflexivity|].
  inversion F as [|? ? [Ha Hq] F']; subst. rewrite run_cons. cbn [snd]. rewrite answers_on_app.
  destruct e as [port c|port|port c|port]; [exfalso; exact (Hq port c eq_refl)| | |];
    cbn [about] in Ha; apply N.eqb_eq in Ha; subst port; cbn [db_step chunks_connected]; rewrite H; cbn [fst snd].
  - apply served_once; [assumption|]. unfold set_port. rewrite N.eqb_refl. reflexivity.
  - apply IH; assumption.
  - apply IH; assumption.
Qed.

(** ** Trailing bytes *)

Lemma layout_suffix : forall p cs b fs sfx, args_layout p cs b fs ->
  Forall (fun f => f_kind f <> FBinary) fs -> args_layout p cs (b ++ sfx) fs.
Proof.
  intros p cs b fs sfx H. induction H; intro Hf.
  - constructor.
  - inversion Hf; subst. cbn [app]. rewrite <- app_assoc. apply lay_u8; auto.
  - inversion Hf; subst. cbn [app]. rewrite <- app_assoc. apply lay_u16; auto.
  - inversion Hf; subst. cbn [app]. rewrite <- app_assoc. apply lay_u32; auto.
  - inversion Hf; subst. cbn [app]. rewrite <- !app_assoc. apply lay_text; auto.
  - inversion Hf; subst. exfalso. apply H4. reflexivity.
  - inversion Hf; subst. exfalso. apply H3. reflexivity.
Qed.

Lemma request_suffix : forall p c k tx code fs sfx, is_request p c k tx code fs ->
  Forall (fun f => f_kind f <> FBinary) fs -> bytes_ok sfx ->
  is_request p (c ++ sfx) k tx code fs.
Proof.
  intros p c k tx code fs sfx [Hb H] Hf Hs. split; [apply Forall_app; auto|].
  destruct H as (code2 & n & types & args & j1 & j2 & j3 & j5 & E & H).
  exists code2, n, types, (args ++ sfx), j1, j2, j3, j5. split.
  - rewrite E. unfold request_bytes. rewrite <- !app_assoc. reflexivity.
  - intuition. apply layout_suffix; assumption.
Qed.
