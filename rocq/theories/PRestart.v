(** Property theorems C85: what a player remembers of an earlier run. *)

From Verif Require Import Base Unicode MDb MDatabase MFixtures MLib SDb SDatabase SLib SRestart
  LBase LUnicode LDb LRead LDatabase LLib LLib2 PDatabase PLib.
From Coq Require Import ZArith String Lia Permutation.
Open Scope N_scope.
Open Scope list_scope.

(** ** The same folder again *)

(** The index does not depend on the order in which hash maps are walked. *)
Lemma same_index : forall p h h' l d d', order_ok h -> order_ok h' -> len l < 2 ^ 32 - 1 ->
  db_new p h l = Ok d -> db_new p h' l = Ok d' -> d' = d.
Proof.
  intros p h h' l d d' Ho Ho' Hl E E'.
  destruct (db_new_indexed p h l Ho Hl) as (x & X1 & X2).
  destruct (db_new_indexed p h' l Ho' Hl) as (y & Y1 & Y2).
  unfold indexed in *. congruence.
Qed.

(** After a restart every id names the same track and the same artist, and the
    lists have the same rows. *)
Theorem C85_same_ids : forall p h h' l d d', order_ok h -> order_ok h' -> len l < 2 ^ 32 - 1 ->
  db_new p h l = Ok d -> db_new p h' l = Ok d' ->
  (forall id, get_track d' id = get_track d id) /\
  (forall id, get_artist d' id = get_artist d id) /\
  Permutation (artists h' d') (artists h d) /\
  (forall id, Permutation (title_by_artist h' d' id) (title_by_artist h d id)).
Proof.
  intros p h h' l d d' Ho Ho' Hl E E'. rewrite (same_index p h h' l d d' Ho Ho' Hl E E') in *.
  split; [reflexivity|]. split; [reflexivity|].
  destruct Ho as [A T], Ho' as [A' T']. split.
  - unfold artists. apply Permutation_map. rewrite A, A'. reflexivity.
  - intros id. unfold title_by_artist. apply filter_perm, Permutation_map. rewrite T, T'. reflexivity.
Qed.
Print Assumptions C85_same_ids.

Lemma same_counts : forall h h' d, order_ok h -> order_ok h' ->
  number_of_artists h d = number_of_artists h' d /\
  forall id, number_of_tracks_by_artist h d id = number_of_tracks_by_artist h' d id.
Proof.
  intros h h' d [A T] [A' T']. unfold number_of_artists, number_of_tracks_by_artist, artists, title_by_artist, len.
  split.
  - do 2 f_equal. rewrite !map_length. apply Permutation_length. rewrite A, A'. reflexivity.
  - intros id. do 2 f_equal. apply Permutation_length, filter_perm, Permutation_map. rewrite T, T'. reflexivity.
Qed.

(** Two outcomes of one request: the same panic, or answers that are the same
    but for the order of rows, and the same state. *)
Definition alike (r r' : res (bytes * client_state)) : Prop :=
  match r, r' with
  | Ok (a, st), Ok (b, st') => same_but_for_order a b /\ st = st'
  | Err, Err => True
  | Panic, Panic => True
  | _, _ => False
  end.
Lemma alike_refl : forall r, alike r r.
Proof. intros [[a st]| |]; cbn; auto. split; [left|]; reflexivity. Qed.

(** The state in which a Render walks a hash map. *)
Definition listing_state (st : client_state) : Prop :=
  match st with Some SArtist | Some (STitleByArtistAlbum _) => True | _ => False end.

Lemma process_alike : forall p h h' d st c, order_ok h -> order_ok h' ->
  alike (process p h d st c) (process p h' d st c) /\
  (~ listing_state st -> process p h d st c = process p h' d st c).
Proof.
  intros p h h' d st c Ho Ho'. destruct (same_counts h h' d Ho Ho') as [CA CT].
  unfold process. destruct (len c =? 5); [split; [apply alike_refl|reflexivity]|].
  destruct (parse_message p c) as [[r m]| |]; [|split; [apply alike_refl|reflexivity]..].
  unfold controller, album_by_artist_controller, artist_controller, title_by_artist_album_controller.
  destruct (m_request_type m) eqn:Et; cbn [handle_sequence_requests];
    try (split; [apply alike_refl|reflexivity]).
  - destruct (argument_at m 2) as [f| |]; cbn [rbind]; try (split; [apply alike_refl|reflexivity]).
    destruct (dbfield_to_u32 f) as [id| |]; cbn [rbind]; try (split; [apply alike_refl|reflexivity]).
    rewrite CT. split; [apply alike_refl|reflexivity].
  - rewrite CA. split; [apply alike_refl|reflexivity].
  - destruct Ho as [A T], Ho' as [A' T'].
    unfold render_controller. destruct st as [[| | |id|id|id|id]|]; cbn [rmap];
      try (split; [apply alike_refl|reflexivity]).
    + split; [|intros X; exfalso; apply X; exact I]. cbn [alike]. split; [|reflexivity]. right.
      unfold render_artist_page. do 4 eexists. split; [|split; reflexivity].
      apply Permutation_map. unfold artists. apply Permutation_map. rewrite A, A'. reflexivity.
    + split; [|intros X; exfalso; apply X; exact I]. cbn [alike]. split; [|reflexivity]. right.
      unfold render_title_by_artist_album. do 4 eexists. split; [|split; reflexivity].
      apply Permutation_map. unfold title_by_artist. apply filter_perm, Permutation_map. rewrite T, T'. reflexivity.
  - destruct (argument_at m 2) as [f| |]; cbn [rbind]; try (split; [apply alike_refl|reflexivity]).
    destruct (dbfield_to_u32 f) as [id| |]; cbn [rbind]; try (split; [apply alike_refl|reflexivity]).
    rewrite CT. split; [apply alike_refl|reflexivity].
Qed.

Lemma serve_alike : forall p h h' d chunks st, order_ok h -> order_ok h' ->
  Forall2 same_but_for_order (serve p h d st chunks) (serve p h' d st chunks).
Proof.
  intros p h h' d chunks. induction chunks as [|c chunks IH]; intros st Ho Ho'; cbn [serve]; [constructor|].
  destruct (process_alike p h h' d st c Ho Ho') as [A _].
  destruct (process p h d st c) as [[a st1]| |], (process p h' d st c) as [[b st2]| |]; cbn [alike] in A;
    try contradiction; try constructor; [apply A|]. destruct A as [_ <-]. apply IH; assumption.
Qed.

(** Any conversation with the program, repeated after a restart, goes the same
    way: as many answers, each the same but for the order of rows. *)
Theorem C85_same_answers : forall p h h' l d d' chunks, order_ok h -> order_ok h' -> len l < 2 ^ 32 - 1 ->
  db_new p h l = Ok d -> db_new p h' l = Ok d' ->
  Forall2 same_but_for_order (serve p h d None chunks) (serve p h' d' None chunks).
Proof.
  intros p h h' l d d' chunks Ho Ho' Hl E E'. rewrite (same_index p h h' l d d' Ho Ho' Hl E E').
  apply serve_alike; assumption.
Qed.
Print Assumptions C85_same_answers.

Lemma state_not_listing : forall p h d st c a st', bytes_ok c -> ~ asks_for_list p c -> ~ listing_state st ->
  process p h d st c = Ok (a, st') -> ~ listing_state st'.
Proof.
  intros p h d st c a st' B N L. unfold process.
  destruct (len c =? 5); [intros E; injection E as <- <-; exact L|].
  destruct (parse_message p c) as [[r m]| |] eqn:P; try discriminate;
    [|intros E; injection E as <- <-; exact L].
  destruct (parse_request p c r m B P) as (k & tx & code & fs & R & ->).
  cbn [m_request_type]. unfold controller. cbn [m_request_type].
  destruct (request_type_new code) eqn:Et; cbn [handle_sequence_requests]; intros E;
    try (injection E as <- <-; exact L); try (injection E as <- <-; intros []).
  - unfold album_by_artist_controller in E. apply rbind_ok in E. destruct E as (f & _ & E).
    apply rbind_ok in E. destruct E as (id & _ & E). injection E as <- <-. intros [].
  - exfalso. apply N. exists k, tx, fs. left.
    assert (code = 0x1002) as <- by (apply (request_type_new_inj code 0x1002); rewrite Et; reflexivity). exact R.
  - unfold metadata_controller in E. apply rbind_ok in E. destruct E as (f & _ & E).
    apply rbind_ok in E. destruct E as (id & _ & E). injection E as <- <-. intros [].
  - unfold mount_info_controller in E. apply rbind_ok in E. destruct E as (f & _ & E).
    apply rbind_ok in E. destruct E as (id & _ & E). injection E as <- <-. intros [].
  - destruct (render_controller _ _ _ _) as [b| |]; cbn [rmap] in E; try discriminate. injection E as <- <-. exact L.
  - exfalso. apply N. exists k, tx, fs. right.
    assert (code = 0x1202) as <- by (apply (request_type_new_inj code 0x1202); rewrite Et; reflexivity). exact R.
Qed.

(** If it never asks for one of the two lists, the answers are the same to the
    byte. *)
Theorem C85_same_bytes : forall p h h' l d d' chunks, order_ok h -> order_ok h' -> len l < 2 ^ 32 - 1 ->
  db_new p h l = Ok d -> db_new p h' l = Ok d' ->
  (forall c, In c chunks -> bytes_ok c /\ ~ asks_for_list p c) ->
  serve p h d None chunks = serve p h' d' None chunks.
Proof.
  intros p h h' l d d' chunks Ho Ho' Hl E E' N. rewrite (same_index p h h' l d d' Ho Ho' Hl E E').
  assert (G : forall st, ~ listing_state st -> serve p h d st chunks = serve p h' d st chunks).
  { clear E E'. induction chunks as [|c chunks IH]; intros st L; cbn [serve]; [reflexivity|].
    destruct (process_alike p h h' d st c Ho Ho') as [_ A]. rewrite <- (A L).
    destruct (process p h d st c) as [[a st1]| |] eqn:P; try reflexivity. f_equal.
    apply IH; [intros x Hx; apply N; right; assumption|].
    destruct (N c (or_introl eq_refl)) as [B Nc]. eapply state_not_listing; eassumption. }
  apply G. intros [].
Qed.
Print Assumptions C85_same_bytes.

(** ** One file more *)

Lemma nth_shift : forall A (l1 l2 : list A) s i,
  nth_error (l1 ++ s :: l2) (if (i <? List.length l1)%nat then i else S i) = nth_error (l1 ++ l2) i.
Proof.
  intros A l1 l2 s i. destruct (Nat.ltb_spec i (List.length l1)) as [H|H].
  - rewrite !nth_error_app1 by lia. reflexivity.
  - rewrite !nth_error_app2 by lia. replace (S i - List.length l1)%nat with (S (i - List.length l1)) by lia. reflexivity.
Qed.

(** A file that is new in the folder, at any place of the scan, takes the id of
    the one that was there; that one and all behind it move up by one id, those
    before it keep theirs, and all keep title, path, size, tempo and artist. *)
Theorem C85_one_file_more : forall p h h' l1 s l2 d d', order_ok h -> order_ok h' ->
  len (l1 ++ s :: l2) < 2 ^ 32 - 1 ->
  db_new p h (l1 ++ l2) = Ok d -> db_new p h' (l1 ++ s :: l2) = Ok d' ->
  (exists t, get_track d' (len l1 + 2) = Some t /\
     t_title t = s_title s /\ t_path t = s_path s /\ t_size t = s_size s /\ t_bpm t = s_bpm s) /\
  (forall id t, get_track d id = Some t ->
     exists t' a a', get_track d' (if id <? len l1 + 2 then id else id + 1) = Some t' /\
       t_title t' = t_title t /\ t_path t' = t_path t /\ t_size t' = t_size t /\ t_bpm t' = t_bpm t /\
       get_artist d (t_artist_id t) = Some a /\ get_artist d' (t_artist_id t') = Some a' /\
       a_name a' = a_name a).
Proof.
  intros p h h' l1 s l2 d d' Ho Ho' Hl E E'.
  assert (Hl' : len (l1 ++ l2) < 2 ^ 32 - 1) by (rewrite !len_app, len_cons in *; lia).
  destruct (db_new_indexed p h _ Ho Hl') as (x & X1 & X2). rewrite E in X1. injection X1 as <-.
  destruct (db_new_indexed p h' _ Ho' Hl) as (y & Y1 & Y2). rewrite E' in Y1. injection Y1 as <-.
  split.
  - rewrite (indexed_get_track _ _ _ Y2).
    destruct (N.leb_spec 2 (len l1 + 2)) as [_|?]; [|lia].
    replace (N.to_nat (len l1 + 2 - 2)) with (List.length l1) by (unfold len; lia).
    rewrite nth_error_app2 by lia. rewrite Nat.sub_diag. cbn [nth_error option_map].
    eexists. split; [reflexivity|]. repeat split.
  - intros id t G. rewrite (indexed_get_track _ _ _ X2) in G.
    destruct (N.leb_spec 2 id) as [H2|?]; [|discriminate].
    destruct (nth_error (l1 ++ l2) (N.to_nat (id - 2))) as [x|] eqn:Nx; [|discriminate].
    cbn [option_map] in G. injection G as <-.
    set (id' := if id <? len l1 + 2 then id else id + 1).
    assert (Nx' : nth_error (l1 ++ s :: l2) (N.to_nat (id' - 2)) = Some x).
    { rewrite <- Nx, <- (nth_shift _ l1 l2 s). f_equal. subst id'. unfold len.
      destruct (N.ltb_spec id (N.of_nat (List.length l1) + 2)), (Nat.ltb_spec (N.to_nat (id - 2)) (List.length l1)); lia. }
    assert (H2' : 2 <= id') by (subst id'; destruct (id <? len l1 + 2); lia).
    exists (expected_track (l1 ++ s :: l2) id' x),
      (mkArtist (artist_number (l1 ++ l2) (s_artist x)) (s_artist x)),
      (mkArtist (artist_number (l1 ++ s :: l2) (s_artist x)) (s_artist x)).
    split.
    { rewrite (indexed_get_track _ _ _ Y2). apply N.leb_le in H2'. rewrite H2', Nx'. reflexivity. }
    do 4 (split; [reflexivity|]). cbn [t_artist_id expected_track].
    split; [|split; [|reflexivity]].
    + apply (indexed_get_artist _ _ _ _ X2). cbn [a_name]. split; [reflexivity|]. split; [|reflexivity].
      apply firsts_in, in_map. eapply nth_error_In. eassumption.
    + apply (indexed_get_artist _ _ _ _ Y2). cbn [a_name]. split; [reflexivity|]. split; [|reflexivity].
      apply firsts_in, in_map. eapply nth_error_In. eassumption.
Qed.
Print Assumptions C85_one_file_more.

(** The claim "an id names the same file after the next start" is false as soon
    as a file was added before it: the id then leads to another file. *)
Theorem C85_ids_last_refuted : forall p h h' l1 s x l2 d d', order_ok h -> order_ok h' ->
  len (l1 ++ s :: x :: l2) < 2 ^ 32 - 1 -> s_path s <> s_path x ->
  db_new p h (l1 ++ x :: l2) = Ok d -> db_new p h' (l1 ++ s :: x :: l2) = Ok d' ->
  exists id t t', get_track d id = Some t /\ get_track d' id = Some t' /\
    t_path t = s_path x /\ t_path t' = s_path s /\ t_path t <> t_path t'.
Proof.
  intros p h h' l1 s x l2 d d' Ho Ho' Hl Np E E'.
  destruct (C85_one_file_more p h h' l1 s (x :: l2) d d' Ho Ho' Hl E E') as [(t' & G' & _ & P' & _) _].
  assert (Hl' : len (l1 ++ x :: l2) < 2 ^ 32 - 1) by (rewrite !len_app, !len_cons in *; lia).
  destruct (C18_tracks_retrievable p h _ Ho Hl') as (y & Y1 & Y2 & _). rewrite E in Y1. injection Y1 as <-.
  destruct (Y2 (List.length l1) x) as (aid & G); [rewrite nth_error_app2, Nat.sub_diag by lia; reflexivity|].
  exists (len l1 + 2). do 2 eexists. split; [exact G|]. split; [exact G'|]. cbn [t_path].
  split; [reflexivity|]. split; [exact P'|]. rewrite P'. congruence.
Qed.
Print Assumptions C85_ids_last_refuted.

Definition plain_order : hash_order := mkOrder (fun l => l) (fun l => l).
Lemma plain_order_ok : order_ok plain_order.
Proof. split; intros l; apply Permutation_refl. Qed.

Example C85_case :
  order_ok plain_order /\ order_ok reverse_order /\
  exists d d', db_new Checked plain_order example_scan = Ok d /\ db_new Checked reverse_order example_scan = Ok d' /\
  map (fun a => option_map (map c_args) (read_stream a))
    (serve Checked plain_order d None [client_request 1 0x1002 []; client_request 2 0x3000 []]) <>
  map (fun a => option_map (map c_args) (read_stream a))
    (serve Checked reverse_order d' None [client_request 1 0x1002 []; client_request 2 0x3000 []]) /\
  serve Checked plain_order d None [client_request 1 0x2002 [0; 3]; client_request 2 0x3000 []] =
  serve Checked reverse_order d' None [client_request 1 0x2002 [0; 3]; client_request 2 0x3000 []].
Proof.
  split; [exact plain_order_ok|]. split; [exact reverse_order_ok|].
  do 2 eexists. split; [vm_compute; reflexivity|]. split; [vm_compute; reflexivity|].
  split; vm_compute; [discriminate|reflexivity].
Qed.

(** A request for the details of a track is no request for a list. *)
Example C85_case_bytes : bytes_ok (client_request 1 0x2002 [0; 3]) /\
  ~ asks_for_list Checked (client_request 1 0x2002 [0; 3]).
Proof.
  assert (R : is_request Checked (client_request 1 0x2002 [0; 3]) FU32 (be 4 1) 0x2002 (map field_of_u32 [0; 3]))
    by (apply client_request_ok; [lia|lia|repeat constructor|cbn; lia]).
  split; [exact (proj1 R)|].
  intros (k & tx & fs & [Q|Q]); destruct (request_unique _ _ _ _ _ _ _ _ _ _ R Q) as (_ & _ & ? & _); discriminate.
Qed.

(** A new first file moves the three others up; the old id 2 leads to it. *)
Example C85_case_more :
  let s := mkScanned (lit "Cab") (lit "New") None (lit "A") (lit "/m/0.mp3") 5 in
  len ([] ++ s :: example_scan) < 2 ^ 32 - 1 /\
  exists d d', db_new Checked plain_order ([] ++ example_scan) = Ok d /\
    db_new Checked reverse_order ([] ++ s :: example_scan) = Ok d' /\
    option_map t_path (get_track d 2) = Some (lit "/m/1.mp3") /\
    option_map t_path (get_track d' 2) = Some (lit "/m/0.mp3") /\
    option_map t_path (get_track d' 3) = Some (lit "/m/1.mp3").
Proof.
  cbn zeta. split; [vm_compute; reflexivity|]. do 2 eexists.
  split; [vm_compute; reflexivity|]. split; [vm_compute; reflexivity|].
  repeat split; vm_compute; reflexivity.
Qed.
