(** Property theorems C07-C17, C56, C57, C71 (the remote-DB service). *)

From Verif Require Import Base Unicode MDb MDatabase MFixtures MLib SDb SDatabase SLib SConn
  LBase LUnicode LDb LRead LDatabase LLib LLib2 LLib3 LLib4 LPage PDatabase.
From Coq Require Import ZArith String.
Open Scope N_scope.
Open Scope list_scope.

(** Every chunk of the history was answered. *)
Definition answered (p : profile) (h : hash_order) (d : database) (history : list bytes) : Prop :=
  Forall bytes_ok history /\ List.length (serve p h d None history) = List.length history.

(** The database of the examples, and the requests a client sends. *)
Definition example_db : database :=
  match db_new Checked reverse_order example_scan with Ok d => d | _ => db_empty end.
Lemma example_db_ok : db_new Checked reverse_order example_scan = Ok example_db.
Proof. vm_compute. reflexivity. Qed.

Lemma client_layout : forall p args r, Forall (fun a => a < 2 ^ 32) args ->
  args_layout p (repeat 6 (List.length args)) (flat_map (fun a => 0x11 :: be 4 a) args ++ r)
    (map field_of_u32 args).
Proof.
  intros p args r H. induction H as [|a args Ha H IH]; [constructor|].
  cbn [flat_map List.length repeat map app]. rewrite <- app_assoc.
  apply lay_u32; [apply be_len|assumption].
Qed.

(** A request sent by a client in the usual form is a request. *)
Theorem client_request_ok : forall p tx code args,
  tx < 2 ^ 32 -> code < 2 ^ 16 -> Forall (fun a => a < 2 ^ 32) args -> (List.length args <= 12)%nat ->
  is_request p (client_request tx code args) FU32 (be 4 tx) code (map field_of_u32 args).
Proof.
  intros p tx code args Htx Hc Ha Hl. unfold client_request. split.
  - assert (B1 : Forall is_byte [0x0f; len args]).
    { repeat constructor; unfold is_byte, len; lia. }
    assert (B2 : forall n x, x < 256 -> Forall is_byte (repeat x n)).
    { intros n x Hx. apply Forall_forall. intros y Hy. apply repeat_spec in Hy. subst. assumption. }
    assert (B3 : Forall is_byte (flat_map (fun a => 0x11 :: be 4 a) args)).
    { clear. induction args as [|a args IH]; [constructor|]. cbn [flat_map app].
      constructor; [unfold is_byte; lia|]. apply Forall_app. split; [apply be_ok|assumption]. }
    unfold request_bytes, bytes_ok.
    repeat (apply Forall_app; split); try apply be_ok; try assumption; try (apply B2; lia);
      repeat constructor; unfold is_byte; lia.
  - exists (be 2 code), (len args),
      (repeat 6 (List.length args) ++ repeat 0 (12 - List.length args)),
      (flat_map (fun a => 0x11 :: be 4 a) args), 0x11, 0x10, 0x0f, [0x14; 0; 0; 0; 12].
    split; [reflexivity|]. split; [apply be_len|]. split; [apply be_len|].
    split; [rewrite len_app, !len_repeat; lia|]. split; [reflexivity|].
    split; [unfold len; lia|].
    split; [rewrite number_of_be, of_be_be; apply N.mod_small; assumption|].
    replace (N.to_nat (len args)) with (List.length args) by (unfold len; lia).
    rewrite firstn_app, firstn_all2 by (rewrite repeat_length; lia).
    rewrite repeat_length, Nat.sub_diag. cbn [firstn]. rewrite app_nil_r.
    rewrite <- (app_nil_r (flat_map _ args)). apply client_layout. assumption.
Qed.

(** ** C07 *)

(** The greeting is echoed and changes nothing; it is the length that counts. *)
Theorem C07_greeting_echoed : forall p h d st chunk rest, len chunk = 5 ->
  serve p h d st (chunk :: rest) = chunk :: serve p h d st rest.
Proof. intros. cbn [serve]. rewrite process_greeting by assumption. reflexivity. Qed.
Print Assumptions C07_greeting_echoed.

(** Every other chunk that is not a request is answered with the text "panic",
    and changes nothing. *)
Theorem C07_undecodable : forall p h d st chunk rest, len chunk <> 5 -> undecodable chunk ->
  serve p h d st (chunk :: rest) = lit "panic" :: serve p h d st rest.
Proof. intros. cbn [serve]. rewrite process_undecodable by assumption. reflexivity. Qed.
Print Assumptions C07_undecodable.

Example C07_case : serve Checked reverse_order example_db None
  [[0x11; 0; 0; 0; 1]; [1; 2; 3]; [9; 9; 9; 9; 9]]
  = [[0x11; 0; 0; 0; 1]; lit "panic"; [9; 9; 9; 9; 9]].
Proof. vm_compute. reflexivity. Qed.

(** ** C08 *)

(** In any conversation, all messages a client reads from the answer to a request carry
    the request's transaction id; only a render without a menu gets none. *)
Theorem C08_transaction_ids : forall p h l d history chunk tx code fs a,
  order_ok h -> len l < 2 ^ 32 - 1 -> db_new p h l = Ok d ->
  answered p h d history ->
  is_request p chunk FU32 tx code fs -> code <> 0x1004 ->
  (forall c m, code = 0x3000 -> last_menu p history c m -> short_page l m) ->
  serve p h d None (history ++ [chunk]) = serve p h d None history ++ [a] ->
  exists ms, read_stream a = Some ms /\ Forall (fun m => c_tx m = number tx) ms /\
    (ms = [] -> code = 0x3000 /\ no_menu p history).
Proof.
  intros p h l d hist chunk tx code fs a Ho Hl Hd [Hb Hall] Hr Hc Hs H.
  destruct (db_new_indexed p h l Ho Hl) as [d' [Hd' Hi]]. assert (d' = d) by congruence. subst d'.
  destruct (serve_all p h d hist None Hall) as [st [Hst Happ]].
  rewrite Happ in H. apply app_inv_head in H. cbn [serve] in H.
  destruct (process p h d st chunk) as [[a' st']| |] eqn:E; try discriminate H.
  assert (a' = a) by congruence. subst a'.
  assert (Sh : forall s, code = 0x3000 -> st = Some s -> short_state h d s).
  { intros s Hcode ->. destruct (history_menu p hist Hb) as [[c0 [m Hlm]]|Hn].
    - pose proof (state_after_last p h d hist c0 m None _ Hb Hlm Hst) as E2. injection E2 as ->.
      apply (short_page_state h l d m Ho Hi). apply (Hs c0 m Hcode Hlm).
    - pose proof (state_after_others p h d hist None (Some s) Hb Hn Hst). discriminate. }
  destruct (answer_transaction p h d st chunk tx code fs a st' Sh Hr Hc E)
    as [ms [H1 [H2 H3]]].
  exists ms. split; [assumption|]. split; [assumption|]. intro Hm.
  pose proof (H3 Hm) as Hcode. split; [assumption|]. subst code ms.
  destruct (history_menu p hist Hb) as [[c0 [m Hlm]]|Hn]; [|assumption].
  exfalso. pose proof (state_after_last p h d hist c0 m None st Hb Hlm Hst) as E2. subst st.
  rewrite (process_render p h d _ chunk FU32 tx fs Hr) in E.
  destruct (request_parse _ _ _ _ _ _ Hr) as [_ [_ Htx]].
  destruct (page_of h d (mkField FU32 tx) (menu_state m)) as [ms| |] eqn:Ep; try discriminate E.
  destruct (page_simple h d tx _ ms Htx (Sh _ eq_refl eq_refl) Ep) as [P1 [P2 P3]].
  assert (Ea : a = messages_encode ms) by (cbn in E; congruence).
  rewrite Ea, read_stream_simple in H1 by assumption. destruct ms; [congruence|discriminate].
Qed.
Print Assumptions C08_transaction_ids.

(** The exception: the title request is answered with a bare header, which is no
    message. *)
Theorem C08_title_exception : forall p h d st chunk tx fs,
  is_request p chunk FU32 tx 0x1004 fs ->
  serve p h d st [chunk] = [[0x11; 0x87; 0x23; 0x49; 0xae; 0x11] ++ tx] /\
  read_stream ([0x11; 0x87; 0x23; 0x49; 0xae; 0x11] ++ tx) = None.
Proof.
  intros p h d st chunk tx fs Hr. split.
  - destruct (title_answer p h d st chunk tx fs Hr) as [st' E]. cbn [serve]. rewrite E. reflexivity.
  - apply title_answer_unreadable. eapply request_parse. eassumption.
Qed.
Print Assumptions C08_title_exception.

Example C08_case :
  map (fun a => option_map (map c_tx) (read_stream a))
    (serve Checked reverse_order example_db None
       [client_request 7 0x1002 []; client_request 8 0x3000 []; client_request 9 0x2204 [1]])
  = [Some [7]; Some [8; 8; 8; 8]; Some [9]].
Proof. vm_compute. reflexivity. Qed.

(** ** C09 *)

(** After any answered history with the last menu request [c], the answer to
    Render is the one a new connection gives to Render after [c] alone. *)
Theorem C09_last_menu : forall p h d history c m r kind tx fs,
  answered p h d history -> last_menu p history c m ->
  is_request p r kind tx 0x3000 fs ->
  List.length (serve p h d None [c]) = 1%nat /\
  serve p h d None (history ++ [r]) = serve p h d None history ++ tl (serve p h d None [c; r]).
Proof.
  intros p h d hist c m r k tx fs [Hb Hall] Hm Hr.
  rewrite (serve_last_menu p h d hist c m [r] Hb Hall Hm).
  destruct Hm as (a & b & _ & Hm & _). destruct (process_menu p h d c m Hm) as [x Hx].
  cbn [serve]. rewrite (Hx None). cbn [tl List.length]. auto.
Qed.
Print Assumptions C09_last_menu.

(** Without a menu request the answer is empty. *)
Theorem C09_no_menu : forall p h d history r kind tx fs,
  answered p h d history -> no_menu p history -> is_request p r kind tx 0x3000 fs ->
  serve p h d None (history ++ [r]) = serve p h d None history ++ [[]].
Proof.
  intros p h d hist r k tx fs [Hb Hall] Hn Hr.
  rewrite (serve_no_menu p h d hist [r] Hb Hall Hn). cbn [serve].
  rewrite (process_render p h d None r k tx fs Hr). reflexivity.
Qed.
Print Assumptions C09_no_menu.

(** One of the two cases always applies. *)
Theorem C09_cases : forall p history, Forall bytes_ok history ->
  (exists c m, last_menu p history c m) \/ no_menu p history.
Proof. exact history_menu. Qed.
Print Assumptions C09_cases.

Example C09_case :
  let b := nth 4 (serve Checked reverse_order example_db None
      [client_request 1 0x1002 []; client_request 2 0x2002 [0; 3]; [1; 2; 3; 4; 5];
       client_request 3 0x2204 []; client_request 4 0x3000 []]) [] in
  b = nth 1 (serve Checked reverse_order example_db None
         [client_request 9 0x2002 [7; 3]; client_request 4 0x3000 []]) [] /\
  option_map (@List.length _) (read_stream b) = Some 12%nat.
Proof. vm_compute. split; reflexivity. Qed.

(** ** C10 *)

Lemma items_page : forall tx rows f, Forall (fun m => is_item m = true) rows ->
  is_item f = false -> items (header tx :: rows ++ [f]) = rows.
Proof.
  intros tx rows f H Hf. unfold items. cbn [filter]. change (is_item (header tx)) with false. cbv iota.
  rewrite filter_app. cbn [filter]. rewrite Hf, app_nil_r.
  induction H; [reflexivity|]. cbn [filter]. rewrite H, IHForall. reflexivity.
Qed.

Lemma rows_are_items : forall A (f : A -> cmsg) l rows,
  (forall x, is_item (f x) = true) -> Permutation rows (map f l) ->
  Forall (fun m => is_item m = true) rows.
Proof.
  intros A f l rows Hf HP. eapply Permutation_Forall; [apply Permutation_sym; eassumption|].
  apply Forall_map_in. auto.
Qed.

(** The number announced in the answer to the menu request against the number of
    items of the page that a Render then delivers. *)
Theorem C10_announced_rows : forall p h l d c r tx tx' code fs fs' m,
  order_ok h -> len l < 2 ^ 32 - 1 -> scan_ok l -> short_page l m -> db_new p h l = Ok d ->
  is_request p c FU32 tx code fs -> names_menu code fs m ->
  is_request p r FU32 tx' 0x3000 fs' ->
  m <> TitleMenu -> ~ no_page l m ->
  exists a b announced ms,
    serve p h d None [c; r] = [a; b] /\
    read_stream a = Some [ack (number tx) [code; announced]] /\
    read_stream b = Some ms /\
    match m with
    | RootMenu => announced = 8 /\ len (items ms) = 7
    | AlbumsOfArtist id => announced = len (tracks_of_artist l id) /\ len (items ms) = 1
    | _ => announced = len (items ms)
    end.
Proof.
  intros p h l d c r tx tx' code fs fs' m Ho Hl Hok Hs Hd Hc Hm Hr Hnt Hnp.
  destruct (db_new_indexed p h l Ho Hl) as [d' [Hd' Hi]]. assert (d' = d) by congruence. subst d'.
  destruct (request_parse _ _ _ _ _ _ Hc) as [_ [_ Htx]].
  destruct (request_parse _ _ _ _ _ _ Hr) as [_ [_ Htx']].
  destruct (all_pages h l d tx' m Ho Hl Hok Hs Hi Htx' Hnp) as (pg & cs & E1 & E2 & E3).
  assert (Hmr : menu_request p c m) by (exists FU32, tx, code, fs; split; assumption).
  destruct (process_menu p h d c m Hmr) as [a Ha].
  assert (Hb : process p h d (Some (menu_state m)) r = Ok (messages_encode pg, Some (menu_state m))).
  { rewrite (process_render p h d _ r FU32 tx' fs' Hr).
    change (mkField FU32 tx') with (u32_tx tx'). rewrite E1. reflexivity. }
  assert (Aa : forall n, a = message_encode (mkMessage (u32_tx tx) Success
                   [request_code_field (request_type_new code); field_of_u32 n]) -> n < 2 ^ 32 ->
             number (request_type_value (request_type_new code)) = code ->
             read_stream a = Some [ack (number tx) [code; n]]).
  { intros n -> Hn Hcode. rewrite ack2_read by assumption. rewrite Hcode. reflexivity. }
  pose proof (process_request p h d None c FU32 tx code fs Hc) as Hp. rewrite Ha in Hp. cbv zeta in Hp.
  change (mkField FU32 tx) with (u32_tx tx) in Hp.
  assert (Sm : forall n, n < 4294967296 -> as_u32 n = n)
    by (intros n Hn; unfold as_u32, u32_max1; apply N.mod_small; assumption).
  assert (Lt : forall id, len (tracks_of_artist l id) < 4294967296).
  { intro id. unfold tracks_of_artist. 
    pose proof (filter_len _ (fun '(_, s) => artist_number l (s_artist s) =? id) (numbered 2 l)) as F.
    rewrite (numbered_len _ l 2) in F. lia. }
  exists a, (messages_encode pg).
  destruct m as [| | |id|id|id|id]; cbn [names_menu page_ok menu_state] in *.
  - subst code. exists 8, cs. split; [cbn [serve]; rewrite Ha, Hb; reflexivity|].
    split. { apply (Aa 8); [|reflexivity|reflexivity].
      cbn [request_type_new controller] in Hp.
      change (request_type_new 0x1000) with RootMenuRequest in *. cbn [controller m_request_type] in Hp.
      assert (Hp' : a = root_menu_controller (mkMessage (u32_tx tx) RootMenuRequest fs)) by congruence.
      rewrite Hp'. reflexivity. }
    split; [assumption|]. subst cs. split; reflexivity.
  - subst code. destruct E3 as [rows [-> P]]. exists (len (artist_names l)), (header (number tx') :: rows ++ [footer (number tx')]).
    split; [cbn [serve]; rewrite Ha, Hb; reflexivity|].
    assert (Hn : len (artists h d) = len (artist_names l)).
    { unfold len. rewrite (Permutation_length (indexed_artists h l d Ho Hi)), map_length. reflexivity. }
    pose proof (firsts_len (map s_artist l)) as F. rewrite len_map in F.
    assert (Hlt : len (artist_names l) < 4294967296) by (unfold artist_names; lia).
    split. { apply (Aa (len (artist_names l))); [|assumption|reflexivity].
      change (request_type_new 0x1002) with ArtistRequest in *. cbn [controller m_request_type] in Hp.
      assert (Hp' : a = artist_controller h d (mkMessage (u32_tx tx) ArtistRequest fs)) by congruence.
      rewrite Hp'. unfold artist_controller, number_of_artists. rewrite Hn, Sm by assumption. reflexivity. }
    split; [assumption|]. rewrite items_page; [|eapply rows_are_items; [|exact P]; intros [i n]; reflexivity|reflexivity].
    unfold len at 2. rewrite (Permutation_length P), map_length.
    change (N.of_nat (List.length (numbered 2 (artist_names l)))) with (len (numbered 2 (artist_names l))).
    rewrite numbered_len. reflexivity.
  - congruence.
  - destruct Hm as [-> Harg]. exists (len (tracks_of_artist l id)), cs.
    split; [cbn [serve]; rewrite Ha, Hb; reflexivity|].
    split. { apply Aa; [|apply Lt|reflexivity].
      change (request_type_new 0x1102) with AlbumByArtistRequest in *. cbn [controller m_request_type] in Hp.
      unfold album_by_artist_controller in Hp. rewrite two_step in Hp.
      rewrite (argument_u32 (mkMessage (u32_tx tx) AlbumByArtistRequest fs) 2 id Harg) in Hp.
      cbn [rbind m_transaction_id m_request_type] in Hp.
      unfold number_of_tracks_by_artist in Hp. rewrite (title_by_artist_count h l d id Ho Hi), Sm in Hp by apply Lt.
      rewrite response_encode in Hp. congruence. }
    split; [assumption|]. subst cs. split; reflexivity.
  - destruct Hm as [-> Harg]. destruct E3 as [rows [-> P]].
    exists (len (tracks_of_artist l id)), (header (number tx') :: rows ++ [footer (number tx')]).
    split; [cbn [serve]; rewrite Ha, Hb; reflexivity|].
    split. { apply Aa; [|apply Lt|reflexivity].
      change (request_type_new 0x1202) with TitleByArtistAlbumRequest in *. cbn [controller m_request_type] in Hp.
      unfold title_by_artist_album_controller in Hp. rewrite two_step in Hp.
      rewrite (argument_u32 (mkMessage (u32_tx tx) TitleByArtistAlbumRequest fs) 2 id Harg) in Hp.
      cbn [rbind m_transaction_id m_request_type] in Hp.
      unfold number_of_tracks_by_artist in Hp. rewrite (title_by_artist_count h l d id Ho Hi), Sm in Hp by apply Lt.
      congruence. }
    split; [assumption|]. rewrite items_page; [|eapply rows_are_items; [|exact P]; intros [i s]; reflexivity|reflexivity].
    unfold len. rewrite (Permutation_length P), map_length. reflexivity.
  - destruct Hm as [-> Harg]. destruct E3 as [s [_ ->]]. exists 10, (metadata_page (number tx') s).
    split; [cbn [serve]; rewrite Ha, Hb; reflexivity|].
    split. { apply Aa; [|reflexivity|reflexivity].
      change (request_type_new 0x2002) with MetadataRequest in *. cbn [controller m_request_type] in Hp.
      unfold metadata_controller in Hp. rewrite two_step in Hp.
      rewrite (argument_u32 (mkMessage (u32_tx tx) MetadataRequest fs) 1 id Harg) in Hp.
      cbn [rbind m_transaction_id m_request_type] in Hp. congruence. }
    split; [assumption|]. reflexivity.
  - destruct Hm as [-> Harg]. destruct E3 as (s & path & _ & _ & _ & ->). exists 6, (mount_page (number tx') s path).
    split; [cbn [serve]; rewrite Ha, Hb; reflexivity|].
    split. { apply Aa; [|reflexivity|reflexivity].
      change (request_type_new 0x2102) with MountInfoRequest in *. cbn [controller m_request_type] in Hp.
      unfold mount_info_controller in Hp. rewrite two_step in Hp.
      rewrite (argument_u32 (mkMessage (u32_tx tx) MountInfoRequest fs) 1 id Harg) in Hp.
      cbn [rbind m_transaction_id m_request_type] in Hp. congruence. }
    split; [assumption|]. reflexivity.
Qed.
Print Assumptions C10_announced_rows.

(** What the examples need. *)
Lemma example_short : short_scan example_scan /\ scan_ok example_scan /\ len example_scan < 2 ^ 32 - 1.
Proof.
  split; [|split; [|reflexivity]].
  - unfold short_scan, example_scan. repeat (apply Forall_cons || apply Forall_nil);
      (split; [apply short_lit; cbn; lia|split; [apply short_lit; cbn; lia|]]);
      intros path E; vm_compute in E; injection E as <-; unfold short; vm_compute; discriminate.
  - unfold scan_ok, example_scan. repeat (apply Forall_cons || apply Forall_nil);
      (split; [apply str_ok_lit|split; [apply str_ok_lit|split; [reflexivity|]]]);
      cbn; try reflexivity; trivial.
Qed.

Example C10_case : map (fun a => option_map (fun ms => (map c_args (firstn 1 ms), len (items ms))) (read_stream a))
    (serve Checked reverse_order example_db None
       [client_request 1 0x1202 [0; 0; 2]; client_request 2 0x3000 [];
        client_request 3 0x1102 [0; 0; 2]; client_request 4 0x3000 []])
  = [ Some ([[CNum 4 0x1202; CNum 4 2]], 0); Some ([[CNum 4 1; CNum 4 0]], 2);
      Some ([[CNum 4 0x1102; CNum 4 2]], 0); Some ([[CNum 4 1; CNum 4 0]], 1) ].
Proof. vm_compute. reflexivity. Qed.

(** ** C11 *)

(** The page delivered after any answered history, read by the client's reader
    to its last byte. *)
Theorem C11_pages : forall p h l d history c m r tx fs,
  order_ok h -> len l < 2 ^ 32 - 1 -> scan_ok l -> short_page l m -> db_new p h l = Ok d ->
  answered p h d history -> last_menu p history c m ->
  is_request p r FU32 tx 0x3000 fs -> ~ no_page l m ->
  exists page ms,
    serve p h d None (history ++ [r]) = serve p h d None history ++ [page] /\
    read_stream page = Some ms /\ page_ok l (number tx) m ms.
Proof.
  intros p h l d hist c m r tx fs Ho Hl Hok Hs Hd [Hb Hall] Hm Hr Hnp.
  destruct (db_new_indexed p h l Ho Hl) as [d' [Hd' Hi]]. assert (d' = d) by congruence. subst d'.
  destruct (request_parse _ _ _ _ _ _ Hr) as [_ [_ Htx]].
  destruct (all_pages h l d tx m Ho Hl Hok Hs Hi Htx Hnp) as (pg & cs & E1 & E2 & E3).
  exists (messages_encode pg), cs. split; [|auto].
  rewrite (serve_last_menu p h d hist c m [r] Hb Hall Hm). cbn [serve].
  rewrite (process_render p h d _ r FU32 tx fs Hr).
  change (mkField FU32 tx) with (u32_tx tx). rewrite E1. reflexivity.
Qed.
Print Assumptions C11_pages.

(** Exactly: the client reads the page if and only if every text on it has at
    most 127 UTF-16 units (texts of 4 GiB and more aside).  One long title spoils
    the whole page it is on, and no other page. *)
Theorem C11_pages_exactly : forall p h l d history c m r tx fs,
  order_ok h -> len l < 2 ^ 32 - 1 -> scan_ok l -> moderate_page l m -> db_new p h l = Ok d ->
  answered p h d history -> last_menu p history c m ->
  is_request p r FU32 tx 0x3000 fs -> ~ no_page l m ->
  ((exists page ms,
     serve p h d None (history ++ [r]) = serve p h d None history ++ [page] /\
     read_stream page = Some ms /\ page_ok l (number tx) m ms)
   <-> short_page l m).
Proof.
  intros p h l d hist c m r tx fs Ho Hl Hok Hmod Hd Ha Hm Hr Hnp. split.
  - intros (page & ms & E1 & E2 & E3). destruct Ha as [Hb Hall].
    destruct (db_new_indexed p h l Ho Hl) as [d' [Hd' Hi]]. assert (d' = d) by congruence. subst d'.
    destruct (request_parse _ _ _ _ _ _ Hr) as [_ [_ Htx]].
    rewrite (serve_last_menu p h d hist c m [r] Hb Hall Hm) in E1. apply app_inv_head in E1.
    cbn [serve] in E1. rewrite (process_render p h d _ r FU32 tx fs Hr) in E1.
    change (mkField FU32 tx) with (u32_tx tx) in E1.
    destruct (page_of h d (u32_tx tx) (menu_state m)) as [pg| |] eqn:Ep; try discriminate E1.
    cbn [rmap rbind] in E1. assert (page = messages_encode pg) by congruence. subst page.
    eapply page_only_short; eassumption.
  - intro Hs. eapply C11_pages; eassumption.
Qed.
Print Assumptions C11_pages_exactly.

Example C11_case : nth_error (map read_stream
    (serve Checked reverse_order example_db None [client_request 1 0x1002 []; client_request 2 0x3000 []])) 1
  = Some (Some [header 2; row 2 3 (lit "Ace") 7; row 2 2 (lit "Bass") 7; footer 2]).
Proof. vm_compute. reflexivity. Qed.

(** A title of 128 units makes the titles of its artist unreadable, and nothing else. *)
Example C11_long_case :
  let l := example_scan ++ [mkScanned (lit "Long") (repeat 65 128) None (lit "Z") (lit "/m/4.mp3") 7] in
  let d := match db_new Checked reverse_order l with Ok d => d | _ => db_empty end in
  moderate_page l (TitlesOfArtist 4) /\ ~ short_page l (TitlesOfArtist 4) /\
  map (fun a => option_map (@List.length _) (read_stream a)) (serve Checked reverse_order d None
    [client_request 1 0x1002 []; client_request 2 0x3000 [];
     client_request 3 0x1202 [0; 0; 4]; client_request 4 0x3000 [];
     client_request 5 0x1202 [0; 0; 2]; client_request 6 0x3000 [];
     client_request 7 0x2102 [0; 5]; client_request 8 0x3000 []])
  = [Some 1%nat; Some 5%nat; Some 1%nat; None; Some 1%nat; Some 4%nat; Some 1%nat; Some 8%nat].
Proof.
  cbv zeta. split; [|split].
  - intros i s I. vm_compute in I. destruct I as [I|[]]. injection I as _ <-. vm_compute. reflexivity.
  - intro H. specialize (H 5 (mkScanned (lit "Long") (repeat 65 128) None (lit "Z") (lit "/m/4.mp3") 7)).
    assert (I : short (repeat 65 128)) by (apply H; vm_compute; auto).
    vm_compute in I. congruence.
  - vm_compute. reflexivity.
Qed.

(** ** C12 *)

(** After asking for a track's metadata, render shows this track. *)
Theorem C12_metadata : forall p h l d history c t s r tx fs,
  order_ok h -> len l < 2 ^ 32 - 1 -> scan_ok l -> short (s_title s) -> short (s_artist s) ->
  db_new p h l = Ok d ->
  answered p h d history -> last_menu p history c (TrackMetadata t) ->
  track_with_id l t = Some s -> is_request p r FU32 tx 0x3000 fs ->
  exists page,
    serve p h d None (history ++ [r]) = serve p h d None history ++ [page] /\
    read_stream page = Some (metadata_page (number tx) s).
Proof.
  intros p h l d hist c t s r tx fs Ho Hl Hok S1 S2 Hd Ha Hm Ht Hr.
  assert (Hs : short_page l (TrackMetadata t)).
  { intros s' E. assert (s' = s) by congruence. subst s'. auto. }
  destruct (C11_pages p h l d hist c (TrackMetadata t) r tx fs Ho Hl Hok Hs Hd Ha Hm Hr) as (pg & ms & E1 & E2 & E3).
  - cbn. congruence.
  - destruct E3 as [s' [E3 ->]]. assert (s' = s) by congruence. subst s'. eauto.
Qed.
Print Assumptions C12_metadata.

(** An unknown track ends the connection: no answer to the Render or to anything
    after it. *)
Theorem C12_unknown_track : forall p h l d history c t r kind tx fs rest,
  order_ok h -> len l < 2 ^ 32 - 1 -> db_new p h l = Ok d ->
  answered p h d history -> last_menu p history c (TrackMetadata t) ->
  track_with_id l t = None -> is_request p r kind tx 0x3000 fs ->
  serve p h d None (history ++ r :: rest) = serve p h d None history.
Proof.
  intros p h l d hist c t r k tx fs rest Ho Hl Hd [Hb Hall] Hm Ht Hr.
  destruct (db_new_indexed p h l Ho Hl) as [d' [Hd' Hi]]. assert (d' = d) by congruence. subst d'.
  rewrite (serve_last_menu p h d hist c _ (r :: rest) Hb Hall Hm). cbn [serve].
  rewrite (process_render p h d _ r k tx fs Hr). cbn [menu_state page_of].
  rewrite render_metadata_eq. rewrite (get_track_with_id l d t Hi), Ht. cbn. rewrite app_nil_r. reflexivity.
Qed.
Print Assumptions C12_unknown_track.

(** The ids inside the items do not name the track: for no track but the one with
    id 5 does the title item carry the id that was asked for. *)
Theorem C12_item_id_refuted : forall tx s id1 id2 t1 t2 id3 id4,
  In (item tx id1 id2 t1 t2 4 id3 id4) (metadata_page tx s) -> id2 = 5.
Proof.
  intros tx s id1 id2 t1 t2 id3 id4 H. unfold metadata_page in H.
  repeat (destruct H as [E|H]; [unfold item, header, footer in E; injection E; intros; congruence|]).
  destruct H.
Qed.
Print Assumptions C12_item_id_refuted.

Example C12_case :
  map read_stream (serve Checked reverse_order example_db None
    [client_request 1 0x2002 [0; 4]; client_request 2 0x3000 []; client_request 3 0x2002 [0; 5];
     client_request 4 0x3000 []; client_request 5 0x1000 []])
  = [ Some [ack 1 [0x2002; 10]];
      Some (metadata_page 2 (mkScanned (lit "Bass") (lit "Three") (Some 9000) (lit "B") (lit "/m/3.mp3") 30));
      Some [ack 3 [0x2002; 10]] ].
Proof. vm_compute. reflexivity. Qed.

(** ** C13 *)

(** After asking for a track's mount info, render shows its path and size. *)
Theorem C13_mount_info : forall p h l d history c t s path r tx fs,
  order_ok h -> len l < 2 ^ 32 - 1 -> scan_ok l -> short path -> db_new p h l = Ok d ->
  answered p h d history -> last_menu p history c (TrackMountInfo t) ->
  track_with_id l t = Some s -> str_ok path -> s_path s = utf8_encode path ->
  is_request p r FU32 tx 0x3000 fs ->
  exists page,
    serve p h d None (history ++ [r]) = serve p h d None history ++ [page] /\
    read_stream page = Some (mount_page (number tx) s path).
Proof.
  intros p h l d hist c t s path r tx fs Ho Hl Hok S1 Hd Ha Hm Ht Hp Ep Hr.
  assert (Hs : short_page l (TrackMountInfo t)).
  { intros s' path' E Hp' Ep'. assert (s' = s) by congruence. subst s'.
    assert (path' = path) by (apply utf8_encode_inj; congruence). subst path'. assumption. }
  destruct (C11_pages p h l d hist c (TrackMountInfo t) r tx fs Ho Hl Hok Hs Hd Ha Hm Hr) as (pg & ms & E1 & E2 & E3).
  - cbn. rewrite Ht. intro H. exact (H path Hp Ep).
  - destruct E3 as (s' & path' & E3 & E4 & E5 & ->). assert (s' = s) by congruence. subst s'.
    assert (path' = path) by (apply utf8_encode_inj; congruence). subst path'. eauto.
Qed.
Print Assumptions C13_mount_info.

(** A path that is not text, or an unknown track, ends the connection. *)
Theorem C13_no_path : forall p h l d history c t r kind tx fs rest,
  order_ok h -> len l < 2 ^ 32 - 1 -> db_new p h l = Ok d ->
  answered p h d history -> last_menu p history c (TrackMountInfo t) ->
  no_page l (TrackMountInfo t) -> is_request p r kind tx 0x3000 fs ->
  serve p h d None (history ++ r :: rest) = serve p h d None history.
Proof.
  intros p h l d hist c t r k tx fs rest Ho Hl Hd [Hb Hall] Hm Ht Hr.
  destruct (db_new_indexed p h l Ho Hl) as [d' [Hd' Hi]]. assert (d' = d) by congruence. subst d'.
  rewrite (serve_last_menu p h d hist c _ (r :: rest) Hb Hall Hm). cbn [serve].
  rewrite (process_render p h d _ r k tx fs Hr).
  destruct (page_panics h l d (mkField k tx) (TrackMountInfo t) Hi) as [[_ P] NE].
  specialize (P Ht). destruct (page_of h d (mkField k tx) (menu_state (TrackMountInfo t))) as [ms| |].
  - exfalso. exact (P ms eq_refl).
  - congruence.
  - cbn. apply app_nil_r.
Qed.
Print Assumptions C13_no_path.

Example C13_case :
  let l := example_scan ++ [mkScanned (lit "X") (lit "Y") None (lit "Z") [0x2f; 0xff] 7] in
  let d := match db_new Checked reverse_order l with Ok d => d | _ => db_empty end in
  map read_stream (serve Checked reverse_order d None
    [client_request 1 0x2102 [0; 3]; client_request 2 0x3000 []; client_request 3 0x2102 [0; 5];
     client_request 4 0x3000 []; client_request 5 0x1000 []])
  = [ Some [ack 1 [0x2102; 6]];
      Some (mount_page 2 (mkScanned (lit "Ace") (lit "Two") None (lit "A") (lit "/m/2.mp3") 20) (lit "/m/2.mp3"));
      Some [ack 3 [0x2102; 6]] ].
Proof. vm_compute. reflexivity. Qed.

(** ** C14 *)

(** A client that keeps to the protocol gets an answer to each of its chunks. *)
Theorem C14_conforming_answered : forall p h l d history,
  order_ok h -> len l < 2 ^ 32 - 1 -> db_new p h l = Ok d ->
  Forall bytes_ok history -> Forall (conforming p l) history ->
  List.length (serve p h d None history) = List.length history.
Proof.
  intros p h l d hist Ho Hl Hd Hb Hc.
  destruct (db_new_indexed p h l Ho Hl) as [d' [Hd' Hi]]. assert (d' = d) by congruence. subst d'.
  eapply conforming_all; eassumption.
Qed.
Print Assumptions C14_conforming_answered.

(** The exact condition: which chunk, after which history, ends a connection. *)
Theorem C14_fatal_exactly : forall p h l d history chunk,
  order_ok h -> len l < 2 ^ 32 - 1 -> db_new p h l = Ok d ->
  answered p h d history -> bytes_ok chunk ->
  (serve p h d None (history ++ [chunk]) = serve p h d None history <-> fatal p l history chunk).
Proof.
  intros p h l d hist c Ho Hl Hd [Hb Hall] Hc.
  destruct (db_new_indexed p h l Ho Hl) as [d' [Hd' Hi]]. assert (d' = d) by congruence. subst d'.
  apply fatal_iff; assumption.
Qed.
Print Assumptions C14_fatal_exactly.

Lemma conforming_client : forall p l tx code args,
  tx < 2 ^ 32 -> code < 2 ^ 16 -> Forall (fun a => a < 2 ^ 32) args -> (List.length args <= 12)%nat ->
  code <> 0x1102 -> code <> 0x1202 -> code <> 0x2002 -> code <> 0x2102 ->
  conforming p l (client_request tx code args).
Proof.
  intros p l tx code args H1 H2 H3 H4 N1 N2 N3 N4. right. right.
  exists FU32, (be 4 tx), code, (map field_of_u32 args).
  split; [apply client_request_ok; assumption|]. repeat split; intros; exfalso; intuition.
Qed.

Example C14_case : Forall (conforming Checked example_scan)
  [ [1; 2; 3; 4; 5]; lit "GET / HTTP/1.1"; client_request 1 0x1000 []; client_request 2 0x3000 [] ].
Proof.
  apply Forall_cons; [left; reflexivity|].
  apply Forall_cons; [right; left; left; intros t r E; vm_compute in E; discriminate|].
  apply Forall_cons; [apply conforming_client; try discriminate; repeat constructor|].
  apply Forall_cons; [apply conforming_client; try discriminate; repeat constructor|].
  constructor.
Qed.
Example C14_case_fatal : fatal Checked example_scan [] (client_request 1 0x2002 [0]).
Proof.
  right. left. exists FU32, (be 4 1), 0x2002, (map field_of_u32 [0]).
  split; [apply client_request_ok; repeat constructor|]. right. split; [left; reflexivity|].
  intros v [x [E _]]. discriminate.
Qed.

(** ** C15 *)

(** With any interleaving of events, what one connection receives depends on the
    events on its own port only. *)
Theorem C15_connections_independent : forall p h d s s' es q,
  s q = s' q ->
  answers_on q (snd (db_run p h d s es)) = answers_on q (snd (db_run p h d s' (filter (about q) es))).
Proof. intros p h d s s' es q H. apply (proj2 (run_filter p h d q es s s' H)). Qed.
Print Assumptions C15_connections_independent.

(** In particular: if the events on port [q] are its allocation, one connection
    and some chunks, the answers are those of the chunks on a connection served
    alone - whatever the others do, including ending by a panic. *)
Theorem C15_served_as_alone : forall p h d s es q query chunks,
  filter (about q) es = Query q query :: Connect q :: map (Chunk q) chunks ->
  answers_on q (snd (db_run p h d s es)) = serve p h d None chunks.
Proof.
  intros p h d s es q query chunks H.
  rewrite (C15_connections_independent p h d s s es q eq_refl), H.
  rewrite run_cons. cbn [fst snd db_step]. rewrite answers_on_app.
  change (answers_on q [PortAnswer (be 2 q)]) with (@nil bytes). cbn [app].
  rewrite run_cons. cbn [fst snd db_step].
  assert (E : set_port s q Listening q = Listening) by (unfold set_port; rewrite N.eqb_refl; reflexivity).
  rewrite E. cbn [fst snd app].
  apply serving_alone. unfold set_port. rewrite N.eqb_refl. reflexivity.
Qed.
Print Assumptions C15_served_as_alone.

(** Each port handed out serves one connection: whatever else happens on the port,
    the answers are those of the chunks from the first connection to its end; a
    second connection neither takes over nor gets answers of its own. *)
Theorem C15_one_connection_per_port : forall p h d s es q query rest,
  filter (about q) es = Query q query :: rest ->
  (forall port c, ~ In (Query port c) rest) ->
  answers_on q (snd (db_run p h d s es)) = serve p h d None (chunks_connected rest).
Proof.
  intros p h d s es q query rest H Hq.
  rewrite (C15_connections_independent p h d s s es q eq_refl), H.
  rewrite run_cons. cbn [fst snd db_step]. rewrite answers_on_app.
  change (answers_on q [PortAnswer (be 2 q)]) with (@nil bytes). cbn [app].
  apply connected_once; [|unfold set_port; rewrite N.eqb_refl; reflexivity].
  apply Forall_forall. intros e He. split.
  - assert (I : In e (filter (about q) es)) by (rewrite H; right; exact He).
    apply filter_In in I. apply I.
  - intros port c ->. exact (Hq port c He).
Qed.
Print Assumptions C15_one_connection_per_port.

Example C15_second_connection : let es :=
    [ Query 5000 [1]; Connect 5000; Chunk 5000 (client_request 1 0x1002 []); Connect 5000;
      Chunk 5000 (client_request 2 0x3000 []); Close 5000; Connect 5000; Chunk 5000 [1] ] in
  map (fun b => len b) (answers_on 5000 (snd (db_run Checked reverse_order example_db (fun _ => NoHandler) es)))
  = [42; 280].
Proof. vm_compute. reflexivity. Qed.

Example C15_case : let es :=
    [ Query 5000 [1]; Query 5001 [1]; Connect 5001; Connect 5000;
      Chunk 5000 (client_request 1 0x1002 []); Chunk 5001 (client_request 1 0x2002 []);
      Chunk 5000 (client_request 2 0x3000 []); Chunk 5001 (client_request 2 0x1000 []) ] in
  map (fun b => len b) (answers_on 5000 (snd (db_run Checked reverse_order example_db (fun _ => NoHandler) es)))
  = [42; 280] /\
  answers_on 5001 (snd (db_run Checked reverse_order example_db (fun _ => NoHandler) es)) = [].
Proof. vm_compute. split; reflexivity. Qed.

(** ** C16 *)

(** The claim that the answers depend on the byte stream only is false: the same
    five bytes in one chunk or in two give different answers. *)
Theorem C16_segmentation_refuted : forall p h d,
  exists chunks chunks', List.concat chunks = List.concat chunks' /\
    List.concat (serve p h d None chunks) <> List.concat (serve p h d None chunks').
Proof.
  intros p h d. exists [[0x11; 0; 0; 0; 1]], [[0x11; 0]; [0; 0; 1]].
  split; [reflexivity|]. cbn [serve].
  rewrite process_greeting by reflexivity.
  rewrite !process_undecodable by (discriminate || (right; left; reflexivity)).
  discriminate.
Qed.
Print Assumptions C16_segmentation_refuted.

(** Chunk by chunk, only the message counts: two sequences of requests with the
    same contents get the same answers. *)
Theorem C16_same_messages : forall p h d st chunks chunks',
  Forall2 (fun c c' => exists k tx code fs,
             is_request p c k tx code fs /\ is_request p c' k tx code fs) chunks chunks' ->
  serve p h d st chunks = serve p h d st chunks'.
Proof.
  intros p h d st chunks chunks' H. revert st.
  induction H as [|c c' cs cs' (k & tx & code & fs & H1 & H2) H IH]; intro st; [reflexivity|].
  cbn [serve]. rewrite (process_request p h d st c k tx code fs H1).
  rewrite (process_request p h d st c' k tx code fs H2). cbv zeta.
  destruct (controller _ _ _ _) as [[[a st']| |]|]; try reflexivity; rewrite IH; reflexivity.
Qed.
Print Assumptions C16_same_messages.

(** Bytes behind a request in the same chunk - a second request, say - are
    ignored. *)
Theorem C16_tail_ignored : forall p h d st c tail k tx code fs rest,
  is_request p c k tx code fs -> Forall (fun f => f_kind f <> FBinary) fs -> bytes_ok tail ->
  serve p h d st ((c ++ tail) :: rest) = serve p h d st (c :: rest).
Proof.
  intros p h d st c tail k tx code fs rest Hr Hf Ht.
  cbn [serve]. rewrite (process_request p h d st c k tx code fs Hr).
  rewrite (process_request p h d st (c ++ tail) k tx code fs (request_suffix p c k tx code fs tail Hr Hf Ht)).
  reflexivity.
Qed.
Print Assumptions C16_tail_ignored.

Example C16_case :
  serve Checked reverse_order example_db None [client_request 1 0x1002 [] ++ client_request 2 0x3000 []]
  = serve Checked reverse_order example_db None [client_request 1 0x1002 []].
Proof. vm_compute. reflexivity. Qed.

(** ** C17 *)

(** An unsupported request is acknowledged and does not change what follows. *)
Theorem C17_unsupported : forall p h d st c tx code fs rest,
  is_request p c FU32 tx code fs -> ~ In code supported_codes ->
  exists a, serve p h d st (c :: rest) = a :: serve p h d st rest /\
            read_stream a = Some [ack (number tx) []].
Proof.
  intros p h d st c tx code fs rest Hr Hn.
  destruct (request_parse _ _ _ _ _ _ Hr) as [_ [_ Htx]].
  exists (message_encode (mkMessage (u32_tx tx) Success [])). split.
  - cbn [serve]. rewrite (process_request p h d st c FU32 tx code fs Hr). cbv zeta.
    destruct (request_type_new code) eqn:Et;
      cbn [controller m_request_type handle_sequence_requests]; try reflexivity;
      (exfalso; apply Hn;
       match goal with
       | E : request_type_new code = ?t |- _ =>
         first [ replace code with 0x0000 by (symmetry; eapply type_code; [eassumption|reflexivity])
               | replace code with 0x1000 by (symmetry; eapply type_code; [eassumption|reflexivity])
               | replace code with 0x1002 by (symmetry; eapply type_code; [eassumption|reflexivity])
               | replace code with 0x1004 by (symmetry; eapply type_code; [eassumption|reflexivity])
               | replace code with 0x1102 by (symmetry; eapply type_code; [eassumption|reflexivity])
               | replace code with 0x1202 by (symmetry; eapply type_code; [eassumption|reflexivity])
               | replace code with 0x2002 by (symmetry; eapply type_code; [eassumption|reflexivity])
               | replace code with 0x2004 by (symmetry; eapply type_code; [eassumption|reflexivity])
               | replace code with 0x2102 by (symmetry; eapply type_code; [eassumption|reflexivity])
               | replace code with 0x2b04 by (symmetry; eapply type_code; [eassumption|reflexivity])
               | replace code with 0x3000 by (symmetry; eapply type_code; [eassumption|reflexivity]) ]
       end; cbn; tauto).
  - rewrite message_simple_read; [reflexivity|].
    apply plain_message_simple; [assumption|cbn; lia|constructor].
Qed.
Print Assumptions C17_unsupported.

Example C17_case : is_request Checked (client_request 3 0x2204 [1; 2]) FU32 (be 4 3) 0x2204
    (map field_of_u32 [1; 2]) /\ ~ In 0x2204 supported_codes.
Proof.
  split; [apply client_request_ok; repeat constructor|]. cbn. intuition discriminate.
Qed.

(** ** C56 *)

(** The answer to Render does not depend on its arguments. *)
Theorem C56_window_ignored : forall p h d st r r' kind tx fs fs' rest,
  is_request p r kind tx 0x3000 fs -> is_request p r' kind tx 0x3000 fs' ->
  serve p h d st (r :: rest) = serve p h d st (r' :: rest).
Proof.
  intros p h d st r r' k tx fs fs' rest H1 H2. cbn [serve].
  rewrite (process_render p h d st r k tx fs H1), (process_render p h d st r' k tx fs' H2). reflexivity.
Qed.
Print Assumptions C56_window_ignored.

(** The claim that a Render for a window of [limit] rows (third argument) gets at
    most that many is false. *)
Theorem C56_limit_refuted : exists l d offset limit page ms,
  db_new Checked reverse_order l = Ok d /\
  serve Checked reverse_order d None
    [client_request 1 0x1002 []; client_request 2 0x3000 [0x02010301; offset; limit; 0; 2; 0]]
  = [page; ms] /\
  exists cs, read_stream ms = Some cs /\ limit < len (items cs).
Proof.
  exists example_scan, example_db, 0, 1. eexists _, _. split; [exact example_db_ok|].
  split; [vm_compute; reflexivity|]. eexists. split; [vm_compute; reflexivity|]. reflexivity.
Qed.
Print Assumptions C56_limit_refuted.

Example C56_case : serve Checked reverse_order example_db (Some SArtist) [client_request 2 0x3000 [1; 0; 1]]
  = serve Checked reverse_order example_db (Some SArtist) [client_request 2 0x3000 []].
Proof. vm_compute. reflexivity. Qed.

(** ** C57 *)

(** Every chunk on the query port is answered, in order, with the two bytes of the
    port handed out for it. *)
Theorem C57_ports_announced : forall p h d s es,
  announced_ports (snd (db_run p h d s es)) = map (be 2) (handed_out es).
Proof.
  intros p h d s es. revert s. induction es as [|e es IH]; intro s; [reflexivity|].
  rewrite run_cons. cbn [snd]. unfold announced_ports, handed_out in *.
  rewrite flat_map_app, IH. cbn [flat_map]. rewrite map_app. f_equal.
  destruct e as [port c|port|port c|port]; cbn [db_step]; try reflexivity.
  - destruct (s port); reflexivity.
  - destruct (s port) as [| |st|]; try reflexivity.
    destruct (process p h d st c) as [[a st']| |]; reflexivity.
  - destruct (s port); reflexivity.
Qed.
Print Assumptions C57_ports_announced.

(** The announced bytes name the port, and behind it a connection starts afresh,
    whatever happened before. *)
Theorem C57_fresh_handler : forall p h d s before port query chunks,
  port < 2 ^ 16 ->
  number (be 2 port) = port /\
  answers_on port (snd (db_run p h d (fst (db_run p h d s before))
                          (Query port query :: Connect port :: map (Chunk port) chunks)))
  = serve p h d None chunks.
Proof.
  intros p h d s before port query chunks Hp. split.
  - rewrite number_of_be, of_be_be. apply N.mod_small. assumption.
  - apply (C15_served_as_alone p h d _ _ port query chunks).
    cbn [filter about]. rewrite !N.eqb_refl. f_equal. f_equal.
    clear. induction chunks as [|c chunks IH]; [reflexivity|].
    cbn [map filter about]. rewrite N.eqb_refl, IH. reflexivity.
Qed.
Print Assumptions C57_fresh_handler.

Example C57_case : snd (db_run Checked reverse_order example_db (fun _ => NoHandler)
    [Query 50123 [0; 0; 0; 15]; Connect 50123; Chunk 50123 [1; 2; 3; 4; 5]; Close 50123])
  = [PortAnswer [195; 203]; Answer 50123 [1; 2; 3; 4; 5]].
Proof. vm_compute. reflexivity. Qed.

(** ** C71 *)

(** The setup request is answered with the two numbers 0 and 17 (0x11, rekordbox's
    place among the player numbers). *)
Theorem C71_setup : forall p h d st c tx fs rest, is_request p c FU32 tx 0x0000 fs ->
  exists a, serve p h d st (c :: rest) = a :: serve p h d st rest /\
            read_stream a = Some [ack (number tx) [0; 17]].
Proof.
  intros p h d st c tx fs rest Hr. destruct (request_parse _ _ _ _ _ _ Hr) as [_ [_ Htx]].
  exists (setup_controller (mkMessage (u32_tx tx) Setup fs)). split.
  - cbn [serve]. rewrite (process_request p h d st c FU32 tx 0x0000 fs Hr). reflexivity.
  - unfold setup_controller. cbn [m_transaction_id]. rewrite response_encode.
    rewrite message_simple_read
      by (apply plain_message_simple; [assumption|cbn; lia|repeat constructor]).
    reflexivity.
Qed.
Print Assumptions C71_setup.

(** The preview of a waveform is the same for every track and every request: one
    blob of 904 bytes, announced with its size. *)
Theorem C71_preview_waveform : exists blob, len blob = 904 /\
  forall p h d st c tx fs rest, is_request p c FU32 tx 0x2004 fs ->
  exists a, serve p h d st (c :: rest) = a :: serve p h d st rest /\
            read_stream a = Some [mkCmsg (number tx) 0x4402
              [CNum 4 0x2004; CNum 4 0; CNum 4 904; CBlob blob]].
Proof.
  exists preview_waveform_response. split; [apply preview_len|].
  intros p h d st c tx fs rest Hr. destruct (request_parse _ _ _ _ _ _ Hr) as [_ [_ Htx]].
  exists (preview_waveform_controller (mkMessage (u32_tx tx) PreviewWaveformRequest fs)). split.
  - cbn [serve]. rewrite (process_request p h d st c FU32 tx 0x2004 fs Hr). reflexivity.
  - apply preview_read. exact Htx.
Qed.
Print Assumptions C71_preview_waveform.

(** The request sent when a track is loaded is answered with an empty blob. *)
Theorem C71_load_track : forall p h d st c tx fs rest, is_request p c FU32 tx 0x2b04 fs ->
  exists a, serve p h d st (c :: rest) = a :: serve p h d st rest /\
            read_stream a = Some [mkCmsg (number tx) 0x4e02
              [CNum 4 0x2b04; CNum 4 1; CNum 4 0; CBlob []; CNum 4 0]].
Proof.
  intros p h d st c tx fs rest Hr. destruct (request_parse _ _ _ _ _ _ Hr) as [_ [_ Htx]].
  exists (load_track_controller (mkMessage (u32_tx tx) LoadTrackRequest fs)). split.
  - cbn [serve]. rewrite (process_request p h d st c FU32 tx 0x2b04 fs Hr). reflexivity.
  - apply load_track_read. exact Htx.
Qed.
Print Assumptions C71_load_track.

Example C71_case :
  is_request Checked (client_request 5 0x0000 [2]) FU32 (be 4 5) 0x0000 (map field_of_u32 [2]) /\
  is_request Checked (client_request 6 0x2004 [1; 2; 3]) FU32 (be 4 6) 0x2004 (map field_of_u32 [1; 2; 3]) /\
  is_request Checked (client_request 7 0x2b04 [1; 2]) FU32 (be 4 7) 0x2b04 (map field_of_u32 [1; 2]).
Proof. repeat split; apply client_request_ok; repeat constructor. Qed.
