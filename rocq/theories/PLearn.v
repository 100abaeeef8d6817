(** C98: what a client can tell of a library, and what not. *)

From Verif Require Import Base Unicode MPath MDb MDatabase MScan MLib SDb SDatabase SLib SScan SEnd SLearn
  SUdp MRpc SRpc MNetwork MRpcServer MNfs MPackets MServer MStatus MSystem
  LBase LUnicode LDatabase LLib3 LEnd PDatabase PLib PEnd.
From Coq Require Import ZArith Lia Arith String Permutation.
Open Scope list_scope.
Open Scope N_scope.

(** ** Databases that look the same *)

Definition alike_track (t t' : track) : Prop :=
  t_id t = t_id t' /\ t_artist_id t = t_artist_id t' /\ t_title t = t_title t' /\
  match t_bpm t with Some b => b | None => 0 end = match t_bpm t' with Some b => b | None => 0 end /\
  (t_path t = t_path t' /\ t_size t = t_size t' \/ utf8_decode (t_path t) = None /\ utf8_decode (t_path t') = None).
Definition alike_row (x x' : N * track) : Prop := fst x = fst x' /\ alike_track (snd x) (snd x').
Definition alike_db (d d' : database) : Prop :=
  artist_rows d = artist_rows d' /\ artist_seq d = artist_seq d' /\ track_seq d = track_seq d' /\
  Forall2 alike_row (track_rows d) (track_rows d') /\ NoDup (map fst (track_rows d)).

Lemma not_text_decode : forall b, not_text b <-> utf8_decode b = None.
Proof.
  intros b. split.
  - intros H. destruct (utf8_decode b) as [s|] eqn:E; [|reflexivity]. destruct (utf8_decode_some _ _ E) as [E' S].
    elim (H s S (eq_sym E')).
  - intros E path S ->. rewrite utf8_decode_encode in E by exact S. discriminate.
Qed.

Lemma hm_insert_keys : forall A k (v : A) m, NoDup (map fst m) -> NoDup (map fst (hm_insert k v m)) /\
  forall x, In x (map fst (hm_insert k v m)) -> x = k \/ In x (map fst m).
Proof.
  intros A k v m. induction m as [|[k' v'] m IH]; intros D.
  - split; [constructor; [intros []|constructor]|]. intros x [<-|[]]. left. reflexivity.
  - cbn [hm_insert]. cbn [map fst] in D. apply NoDup_cons_iff in D. destruct D as [D1 D2]. destruct (N.eqb_spec k k') as [->|Ne].
    + split; [constructor; assumption|]. intros x I. right. exact I.
    + destruct (IH D2) as [I1 I2]. split.
      * cbn [map fst]. constructor; [|exact I1]. intros I. destruct (I2 _ I) as [->|I']; [congruence|contradiction].
      * intros x [<-|I]; [right; left; reflexivity|]. destruct (I2 _ I) as [->|I']; [left; reflexivity|right; right; exact I'].
Qed.
Lemma hm_insert_alike : forall k v v' m m', alike_track v v' -> Forall2 alike_row m m' ->
  Forall2 alike_row (hm_insert k v m) (hm_insert k v' m').
Proof.
  intros k v v' m m' V F. induction F as [|[k1 v1] [k2 v2] m m' [K R] F IH]; [apply Forall2_cons; [split; [reflexivity|exact V]|apply Forall2_nil]|].
  cbn [fst snd] in K, R. subst k2. cbn [hm_insert]. destruct (k =? k1).
  - constructor; [split; [reflexivity|exact V]|exact F].
  - constructor; [split; [reflexivity|exact R]|exact IH].
Qed.
Lemma hm_get_alike : forall k m m', Forall2 alike_row m m' ->
  match hm_get k m, hm_get k m' with Some t, Some t' => alike_track t t' | None, None => True | _, _ => False end.
Proof.
  intros k m m' F. induction F as [|[k1 v1] [k2 v2] m m' [K R] F IH]; [exact I|].
  cbn [fst snd] in K, R. subst k2. cbn [hm_get]. destruct (k =? k1); [exact R|exact IH].
Qed.

Lemma alike_index : forall p h s s' d d', looks_same s s' -> alike_db d d' ->
  match db_index p h d s, db_index p h d' s' with
  | Ok d1, Ok d2 => alike_db d1 d2
  | Err, Err | Panic, Panic => True
  | _, _ => False
  end.
Proof.
  intros p h s s' d d' (L1 & L2 & L3 & L4) (A1 & A2 & A3 & A4 & A5).
  unfold db_index, artist_insert. rewrite L1, A1, A2.
  assert (T : forall id e f, alike_db e f ->
    match track_insert p id s e, track_insert p id s' f with
    | Ok d1, Ok d2 => alike_db d1 d2 | Err, Err | Panic, Panic => True | _, _ => False end).
  { intros id e f (B1 & B2 & B3 & B4 & B5). unfold track_insert. rewrite B3.
    destruct (sequence_increment p (track_seq f)) as [n| |]; cbn [rbind]; try exact I.
    split; [exact B1|]. split; [exact B2|]. split; [reflexivity|]. cbn [track_rows]. split.
    - apply hm_insert_alike; [|exact B4]. split; [reflexivity|]. split; [reflexivity|]. split; [exact L2|]. split; [exact L3|].
      cbn [t_path t_size]. rewrite <- !not_text_decode. exact L4.
    - apply hm_insert_keys. exact B5. }
  destruct (find _ _) as [[id a]|]; cbn [rbind].
  - apply T. repeat split; assumption.
  - destruct (sequence_increment p (artist_seq d')) as [n| |]; cbn [rbind]; try exact I. apply T. repeat split; assumption.
Qed.
Lemma alike_index_all : forall p h l l' d d' e e', Forall2 looks_same l l' -> alike_db d d' ->
  db_index_all p h d l = Ok e -> db_index_all p h d' l' = Ok e' -> alike_db e e'.
Proof.
  intros p h l l' d d' e e' F. revert d d'. induction F as [|s s' l l' R F IH]; intros d d' A E E'.
  - injection E as <-. injection E' as <-. exact A.
  - cbn [db_index_all] in E, E'. pose proof (alike_index p h s s' d d' R A) as X.
    destruct (db_index p h d s) as [d1| |], (db_index p h d' s') as [d2| |]; cbn [rbind] in E, E'; try discriminate; try contradiction.
    exact (IH d1 d2 X E E').
Qed.
Lemma alike_new : forall p h l l' d d', Forall2 looks_same l l' -> db_new p h l = Ok d -> db_new p h l' = Ok d' -> alike_db d d'.
Proof.
  intros p h l l' d d' F. apply alike_index_all; [exact F|]. repeat split; constructor.
Qed.

Lemma forall2_keys : forall (o o' : table track), map fst o = map fst o' ->
  (forall k v v', In (k, v) o -> In (k, v') o' -> alike_track v v') -> Forall2 alike_row o o'.
Proof.
  intros o. induction o as [|[k v] o IH]; intros [|[k' v'] o'] E H; try discriminate; constructor.
  - cbn [map fst] in E. injection E as -> _. split; [reflexivity|]. apply (H k'); left; reflexivity.
  - apply IH; [cbn [map] in E; congruence|]. intros x y z I I'. apply (H x); right; assumption.
Qed.
Lemma alike_keys : forall m m', Forall2 alike_row m m' -> map fst m = map fst m'.
Proof. intros m m' F. induction F as [|x y m m' [K _] F IH]; [reflexivity|]. cbn [map]. congruence. Qed.
Lemma alike_ordered : forall h m m', order_ok h -> order_by_id h -> Forall2 alike_row m m' -> NoDup (map fst m) ->
  Forall2 alike_row (ord_tracks h m) (ord_tracks h m').
Proof.
  intros h m m' [_ O] K F D. pose proof (alike_keys m m' F) as E. apply forall2_keys; [exact (K m m' E)|].
  intros k v v' I I'. apply (Permutation_in _ (O m)) in I. apply (Permutation_in _ (O m')) in I'.
  apply in_hm_get in I; [|exact D]. apply in_hm_get in I'; [|rewrite <- E; exact D].
  pose proof (hm_get_alike k m m' F) as G. rewrite I, I' in G. exact G.
Qed.
Lemma alike_titles : forall h d d' a, order_ok h -> order_by_id h -> alike_db d d' ->
  Forall2 alike_track (title_by_artist h d a) (title_by_artist h d' a).
Proof.
  intros h d d' a O K (_ & _ & _ & F & D). pose proof (alike_ordered h _ _ O K F D) as G. unfold title_by_artist.
  induction G as [|[k t] [k' t'] m m' [_ R] G IH]; [constructor|]. cbn [map snd filter]. cbn [snd] in R.
  pose proof R as (_ & Ea & _). rewrite Ea. destruct (t_artist_id t' =? a); [constructor; assumption|exact IH].
Qed.

Lemma alike_process : forall p h d d', order_ok h -> order_by_id h -> alike_db d d' ->
  forall st chunk, process p h d st chunk = process p h d' st chunk.
Proof.
  intros p h d d' O K A st chunk. unfold process. destruct (len chunk =? 5); [reflexivity|].
  destruct (parse_message p chunk) as [[r m]| |]; [|reflexivity|reflexivity].
  assert (Ar : forall tx, render_artist_page h d tx = render_artist_page h d' tx /\ number_of_artists h d = number_of_artists h d').
  { intros tx. unfold render_artist_page, number_of_artists, artists. destruct A as (-> & _). split; reflexivity. }
  assert (Nt : forall a, number_of_tracks_by_artist h d a = number_of_tracks_by_artist h d' a).
  { intros a. unfold number_of_tracks_by_artist, len. f_equal. f_equal.
    pose proof (alike_titles h d d' a O K A) as F. induction F; cbn [List.length]; congruence. }
  assert (Ti : forall tx a, render_title_by_artist_album h d tx a = render_title_by_artist_album h d' tx a).
  { intros tx a. unfold render_title_by_artist_album. f_equal. f_equal.
    pose proof (alike_titles h d d' a O K A) as F. induction F as [|t t' l l' R F IH]; [reflexivity|].
    cbn [map]. rewrite IH. destruct R as (-> & _ & -> & _). reflexivity. }
  assert (Me : forall tx t, render_metadata d tx t = render_metadata d' tx t).
  { intros tx t. unfold render_metadata, get_track, get_artist. destruct A as (-> & _ & _ & F & _).
    pose proof (hm_get_alike t _ _ F) as G. destruct (hm_get t (track_rows d)) as [x|], (hm_get t (track_rows d')) as [y|];
      try contradiction; [|reflexivity]. destruct G as (_ & Ga & Gt & Gb & _). cbn [unwrap_opt rbind]. rewrite Ga, Gt, Gb. reflexivity. }
  assert (Mo : forall tx t, render_mount_info d tx t = render_mount_info d' tx t).
  { intros tx t. unfold render_mount_info, get_track, track_path. destruct A as (_ & _ & _ & F & _).
    pose proof (hm_get_alike t _ _ F) as G. destruct (hm_get t (track_rows d)) as [x|], (hm_get t (track_rows d')) as [y|];
      try contradiction; [|reflexivity]. destruct G as (_ & _ & _ & Gb & Gp). rewrite Gb.
    destruct Gp as [[-> ->]|[-> ->]]; reflexivity. }
  assert (Re : forall s, render_controller h d m s = render_controller h d' m s).
  { intros s. unfold render_controller. destruct s as [s|]; [|reflexivity]. destruct s; try reflexivity;
      rewrite ?Ti, ?Me, ?Mo; try reflexivity. rewrite (proj1 (Ar _)). reflexivity. }
  unfold controller, album_by_artist_controller, artist_controller, title_by_artist_album_controller.
  rewrite (proj2 (Ar (m_transaction_id m))).
  destruct (m_request_type m); try reflexivity; rewrite ?Re; try reflexivity.
  - destruct (argument_at m 2); [|reflexivity|reflexivity]. cbn [rbind]. destruct (dbfield_to_u32 _); [|reflexivity|reflexivity].
    cbn [rbind]. rewrite Nt. reflexivity.
  - destruct (argument_at m 2); [|reflexivity|reflexivity]. cbn [rbind]. destruct (dbfield_to_u32 _); [|reflexivity|reflexivity].
    cbn [rbind]. rewrite Nt. reflexivity.
Qed.

Lemma same_serve : forall p h h' d d', (forall st chunk, process p h d st chunk = process p h' d' st chunk) ->
  forall chunks st, serve p h d st chunks = serve p h' d' st chunks.
Proof.
  intros p h h' d d' E chunks. induction chunks as [|c chunks IH]; intros st; [reflexivity|]. cbn [serve]. rewrite E.
  destruct (process p h' d' st c) as [[a s]| |]; [|reflexivity|reflexivity]. rewrite IH. reflexivity.
Qed.
Lemma same_system : forall e p h d d', (forall st chunk, process p h d st chunk = process p h d' st chunk) ->
  forall is s, sys_run e p h d is s = sys_run e p h d' is s.
Proof.
  intros e p h d d' E.
  assert (D : forall s x, db_step p h d s x = db_step p h d' s x).
  { intros s [q c|q|q c|q]; try reflexivity. unfold db_step. destruct (s q); try reflexivity. rewrite E. reflexivity. }
  assert (S : forall i s, sys_step e p h d i s = sys_step e p h d' i s).
  { intros i s. unfold sys_step. destruct (w_running (sy_world s)); [|reflexivity]. destruct i as [j|x|j|port j|ws|c chunk [port|]|c|x]; try reflexivity.
    destruct x; try reflexivity; rewrite D; reflexivity. }
  intros is. induction is as [|i is IH]; intros s; [reflexivity|]. cbn [sys_run]. rewrite S.
  destruct (sys_step e p h d' i s) as [s' o]. rewrite IH. reflexivity.
Qed.

(** ** Theorems *)

(** With libraries that look the same, the whole program does the same. *)
Theorem C98_looks_same : forall e p h l l' d d', order_ok h -> order_by_id h ->
  Forall2 looks_same l l' -> db_new p h l = Ok d -> db_new p h l' = Ok d' ->
  forall is s, sys_run e p h d is s = sys_run e p h d' is s.
Proof.
  intros e p h l l' d d' O K F E E'. apply same_system. apply alike_process; [exact O|exact K|].
  exact (alike_new p h l l' d d' F E E').
Qed.
Print Assumptions C98_looks_same.

(** The albums of the files never leave the program, whatever the order of rows. *)
Theorem C98_albums_stay : forall e p h l l' d, Forall2 same_but_album l l' -> db_new p h l = Ok d ->
  exists d', db_new p h l' = Ok d' /\ forall is s, sys_run e p h d is s = sys_run e p h d' is s.
Proof.
  intros e p h l l' d F E. exists d. split; [|reflexivity]. rewrite <- E. clear E. unfold db_new. generalize db_empty.
  induction F as [|s s' l l' R F IH]; intros x; [reflexivity|]. cbn [db_index_all]. rewrite R.
  unfold db_index. cbn [s_artist]. destruct (artist_insert p h (s_artist s) x) as [[id y]| |]; [|reflexivity|reflexivity]. cbn [rbind].
  unfold track_insert. cbn [s_title s_path s_size s_bpm]. destruct (sequence_increment p (track_seq y)); [|reflexivity|reflexivity].
  cbn [rbind]. apply IH.
Qed.
Print Assumptions C98_albums_stay.

(** Everything else is told: libraries no client can tell apart look the same. *)
Theorem C98_told : forall p h h' l l' d d', order_ok h -> order_ok h' ->
  len l < 2 ^ 32 - 1 -> len l' < 2 ^ 32 - 1 -> scan_ok l -> scan_ok l' -> short_scan l -> short_scan l' ->
  db_new p h l = Ok d -> db_new p h' l' = Ok d' ->
  indistinguishable p h d h' d' -> Forall2 looks_same l l'.
Proof.
  intros p h h' l l' d d' O O' L L' S S' Sh Sh' E E' I.
  assert (A : forall h d, answered p h d []) by (intros; split; [constructor|reflexivity]).
  assert (X : forall code args ms, shows p h d [] 1 2 code args ms <-> shows p h' d' [] 1 2 code args ms).
  { intros code args ms. unfold shows. rewrite (I []), I. reflexivity. }
  assert (Lt : forall (k : list scanned) t s, len k < 2 ^ 32 - 1 -> track_with_id k t = Some s -> Forall (fun a => a < 2 ^ 32) [0; t]).
  { intros k t s Lk T. apply small2. exact (track_small k t s Lk T). }
  assert (Sok : forall (k : list scanned) t s, scan_ok k -> track_with_id k t = Some s -> str_ok (s_artist s) /\ str_ok (s_title s)).
  { intros k t s Sk T. unfold track_with_id in T. destruct (2 <=? t); [|discriminate]. apply nth_error_In in T.
    unfold scan_ok in Sk. rewrite Forall_forall in Sk. split; apply (Sk s T). }
  (* the metadata of each track *)
  assert (M : forall t s, track_with_id l t = Some s -> exists s', track_with_id l' t = Some s' /\
     s_artist s = s_artist s' /\ s_title s = s_title s' /\ shown_tempo s = shown_tempo s').
  { intros t s T.
    destruct (shown p h l d [] 1 2 (TrackMetadata t) 0x2002 [0; t] O L S (short_scan_page _ _ Sh) E (A _ _) eq_refl eq_refl
                (Lt l t s L T)) as (ms & Q & P); [cbn; lia|split; reflexivity|cbn [no_page]; congruence|].
    destruct P as (s0 & T0 & Em). rewrite T in T0. injection T0 as <-. apply X in Q.
    destruct (shows_page p h' l' d' [] 1 2 (TrackMetadata t) 0x2002 [0; t] ms O' L' S' (short_scan_page _ _ Sh') E' (A _ _) eq_refl eq_refl
                (Lt l t s L T)) as [(s' & T' & Em') _]; [cbn; lia|split; reflexivity|exact Q|].
    exists s'. split; [exact T'|]. rewrite Em in Em'.
    destruct (Sok l t s S T) as [So1 So2]. destruct (Sok l' t s' S' T') as [So1' So2'].
    pose proof (f_equal (fun k => nth 1 k (footer 2)) Em') as H1. cbn [metadata_page nth] in H1.
    pose proof (f_equal (fun k => nth 2 k (footer 2)) Em') as H2. cbn [metadata_page nth] in H2.
    pose proof (f_equal (fun k => nth 5 k (footer 2)) Em') as H3. cbn [metadata_page nth] in H3.
    apply item_inj in H1; [|assumption|assumption]. apply item_inj in H2; [|assumption|assumption].
    apply item_inj in H3; [|constructor|constructor]. destruct H1 as (_ & _ & H1 & _), H2 as (_ & _ & H2 & _), H3 as (_ & H3 & _).
    auto. }
  assert (M' : forall t s', track_with_id l' t = Some s' -> exists s, track_with_id l t = Some s).
  { intros t s' T.
    destruct (shown p h' l' d' [] 1 2 (TrackMetadata t) 0x2002 [0; t] O' L' S' (short_scan_page _ _ Sh') E' (A _ _) eq_refl eq_refl
                (Lt l' t s' L' T)) as (ms & Q & _); [cbn; lia|split; reflexivity|cbn [no_page]; congruence|].
    apply X in Q.
    destruct (shows_page p h l d [] 1 2 (TrackMetadata t) 0x2002 [0; t] ms O L S (short_scan_page _ _ Sh) E (A _ _) eq_refl eq_refl
                (Lt l' t s' L' T)) as [(s & T' & _) _]; [cbn; lia|split; reflexivity|exact Q|].
    exists s. exact T'. }
  (* the path of each track *)
  assert (W : forall p h h' l l' d d', order_ok h -> order_ok h' ->
     len l < 2 ^ 32 - 1 -> len l' < 2 ^ 32 - 1 -> scan_ok l -> scan_ok l' -> short_scan l -> short_scan l' ->
     db_new p h l = Ok d -> db_new p h' l' = Ok d' ->
     (forall code args ms, shows p h d [] 1 2 code args ms -> shows p h' d' [] 1 2 code args ms) ->
     (answered p h d []) -> (answered p h' d' []) ->
     forall t s path s', track_with_id l t = Some s -> str_ok path -> s_path s = utf8_encode path -> track_with_id l' t = Some s' ->
     s_path s = s_path s' /\ s_size s = s_size s').
  { clear - Lt. intros p h h' l l' d d' O O' L L' S S' Sh Sh' E E' X A A' t s path s' T So Ep T'.
    destruct (shown p h l d [] 1 2 (TrackMountInfo t) 0x2102 [0; t] O L S (short_scan_page _ _ Sh) E A eq_refl eq_refl
                (Lt l t s L T)) as (ms & Q & P); [cbn; lia|split; reflexivity|cbn [no_page]; rewrite T; intros G; exact (G path So Ep)|].
    destruct P as (s0 & path0 & T0 & So0 & Ep0 & Em). rewrite T in T0. injection T0 as <-. apply X in Q.
    destruct (shows_page p h' l' d' [] 1 2 (TrackMountInfo t) 0x2102 [0; t] ms O' L' S' (short_scan_page _ _ Sh') E' A' eq_refl eq_refl
                (Lt l t s L T)) as [(s1 & path1 & T1 & So1 & Ep1 & Em') _]; [cbn; lia|split; reflexivity|exact Q|].
    rewrite T' in T1. injection T1 as <-. rewrite Em in Em'.
    pose proof (f_equal (fun k => nth 5 k (footer 2)) Em') as H. cbn [mount_page nth] in H.
    apply item_inj in H; [|assumption|assumption]. destruct H as (H1 & _ & H2 & _). rewrite Ep0, Ep1, H2. auto. }
  assert (R : forall t s, track_with_id l t = Some s -> exists s', track_with_id l' t = Some s' /\ looks_same s s').
  { intros t s T. destruct (M t s T) as (s' & T' & R1 & R2 & R3). exists s'. split; [exact T'|].
    split; [exact R1|]. split; [exact R2|]. split; [exact R3|].
    destruct (utf8_decode (s_path s)) as [path|] eqn:U.
    - destruct (utf8_decode_some _ _ U) as [Ep So]. left.
      exact (W p h h' l l' d d' O O' L L' S S' Sh Sh' E E' (fun c a ms => proj1 (X c a ms)) (A _ _) (A _ _) t s path s' T So (eq_sym Ep) T').
    - destruct (utf8_decode (s_path s')) as [path|] eqn:U'.
      + destruct (utf8_decode_some _ _ U') as [Ep So]. left.
        destruct (W p h' h l' l d' d O' O L' L S' S Sh' Sh E' E (fun c a ms => proj2 (X c a ms)) (A _ _) (A _ _) t s' path s T' So (eq_sym Ep) T)
          as [-> ->]. auto.
      + right. rewrite !not_text_decode. auto. }
  assert (Tk : forall (k : list scanned) i, track_with_id k (N.of_nat i + 2) = nth_error k i).
  { intros k i. unfold track_with_id. destruct (N.leb_spec 2 (N.of_nat i + 2)); [|lia]. f_equal. lia. }
  assert (R1 : forall i s, nth_error l i = Some s -> exists s', nth_error l' i = Some s' /\ looks_same s s').
  { intros i s T. rewrite <- Tk in T. destruct (R _ _ T) as (s' & T' & Q). rewrite Tk in T'. eauto. }
  assert (R2 : forall i s', nth_error l' i = Some s' -> nth_error l i <> None).
  { intros i s' T. rewrite <- Tk in T. destruct (M' _ _ T) as (s & T'). rewrite Tk in T'. congruence. }
  clear - R1 R2. revert l' R1 R2. induction l as [|s l IH]; intros l' R1 R2.
  - destruct l' as [|s' l']; [constructor|]. elim (R2 0%nat s' eq_refl eq_refl).
  - destruct (R1 0%nat s eq_refl) as (s' & T & Q). destruct l' as [|s0 l']; [discriminate|]. injection T as ->.
    constructor; [exact Q|]. apply IH; [intros i; exact (R1 (S i))|intros i; exact (R2 (S i))].
Qed.
Print Assumptions C98_told.

(** So a client can tell two libraries apart exactly if they do not look the same. *)
Theorem C98_exactly : forall p h l l' d d', order_ok h -> order_by_id h ->
  len l < 2 ^ 32 - 1 -> len l' < 2 ^ 32 - 1 -> scan_ok l -> scan_ok l' -> short_scan l -> short_scan l' ->
  db_new p h l = Ok d -> db_new p h l' = Ok d' ->
  (indistinguishable p h d h d' <-> Forall2 looks_same l l').
Proof.
  intros p h l l' d d' O K L L' S S' Sh Sh' E E'. split.
  - exact (C98_told p h h l l' d d' O O L L' S S' Sh Sh' E E').
  - intros F chunks. apply same_serve. apply alike_process; [exact O|exact K|]. exact (alike_new p h l l' d d' F E E').
Qed.
Print Assumptions C98_exactly.

Lemma reverse_by_id : order_by_id reverse_order.
Proof. intros m m' E. cbn [reverse_order ord_tracks]. rewrite !map_rev, E. reflexivity. Qed.

(** Two folders a client cannot tell apart, and one it can. *)
Definition learn_one : list scanned :=
  [mkScanned (lit "Bass") (lit "One") (Some 12000) (lit "A") (lit "/m/1.mp3") 10;
   mkScanned (lit "Ace") (lit "Two") None (lit "A") (lit "/m/2.mp3") 20;
   mkScanned (lit "Ace") (lit "Three") None (lit "B") [0x2f; 0xff] 30].
Definition learn_two : list scanned :=
  [mkScanned (lit "Bass") (lit "One") (Some 12000) (lit "Greatest Hits") (lit "/m/1.mp3") 10;
   mkScanned (lit "Ace") (lit "Two") (Some 0) [] (lit "/m/2.mp3") 20;
   mkScanned (lit "Ace") (lit "Three") None (lit "B") [0x2f; 0xfe] 31].
Definition learn_three : list scanned :=
  [mkScanned (lit "Bass") (lit "One") (Some 12000) (lit "A") (lit "/m/1.mp3") 10;
   mkScanned (lit "Ace") (lit "Two") None (lit "A") (lit "/m/2.mp3") 21;
   mkScanned (lit "Ace") (lit "Three") None (lit "B") [0x2f; 0xff] 30].

Example C98_case :
  (exists d d', db_new Checked reverse_order learn_one = Ok d /\ db_new Checked reverse_order learn_two = Ok d' /\ d <> d' /\
     indistinguishable Checked reverse_order d reverse_order d') /\
  (exists d d', db_new Checked reverse_order learn_one = Ok d /\ db_new Checked reverse_order learn_three = Ok d' /\
     let chunks := [client_request 1 0x2102 [0; 3]; client_request 2 0x3000 []] in
     serve Checked reverse_order d None chunks <> serve Checked reverse_order d' None chunks) /\
  scan_ok learn_one /\ short_scan learn_one.
Proof.
  assert (N1 : forall b, b = 0xff \/ b = 0xfe -> not_text [0x2f; b]).
  { intros b [->| ->]; apply not_text_decode; vm_compute; reflexivity. }
  assert (Ok1 : forall l, forallb (fun s => forallb (fun c => c <? 128) (s_artist s) && forallb (fun c => c <? 128) (s_title s) &&
      (s_size s <? 2 ^ 32) && match s_bpm s with Some b => b <? 2 ^ 32 | None => true end)%bool l = true -> scan_ok l).
  { intros l H. rewrite forallb_forall in H. apply Forall_forall. intros s I. specialize (H s I).
    rewrite !Bool.andb_true_iff in H. destruct H as [[[H1 H2] H3] H4]. split; [apply ascii_ok; exact H1|].
    split; [apply ascii_ok; exact H2|]. split; [apply N.ltb_lt; exact H3|]. destruct (s_bpm s); [apply N.ltb_lt; exact H4|constructor]. }
  assert (Sh1 : forall l, forallb (fun s => (len (utf16_encode (s_artist s)) <=? 127) && (len (utf16_encode (s_title s)) <=? 127) &&
      match utf8_decode (s_path s) with Some x => len (utf16_encode x) <=? 127 | None => true end)%bool l = true -> short_scan l).
  { intros l H. rewrite forallb_forall in H. apply Forall_forall. intros s I. specialize (H s I).
    rewrite !Bool.andb_true_iff in H. destruct H as [[H1 H2] H3]. split; [apply N.leb_le; exact H1|].
    split; [apply N.leb_le; exact H2|]. intros path E. rewrite E in H3. apply N.leb_le. exact H3. }
  split; [|split; [|split; [apply Ok1; vm_compute; reflexivity|apply Sh1; vm_compute; reflexivity]]].
  - assert (I : forall d d', db_new Checked reverse_order learn_one = Ok d -> db_new Checked reverse_order learn_two = Ok d' ->
      indistinguishable Checked reverse_order d reverse_order d').
    { intros d d' E E'.
      apply (proj2 (C98_exactly Checked reverse_order learn_one learn_two d d' reverse_order_ok reverse_by_id
              ltac:(vm_compute; reflexivity) ltac:(vm_compute; reflexivity)
              (Ok1 learn_one ltac:(vm_compute; reflexivity)) (Ok1 learn_two ltac:(vm_compute; reflexivity))
              (Sh1 learn_one ltac:(vm_compute; reflexivity)) (Sh1 learn_two ltac:(vm_compute; reflexivity)) E E')).
      repeat apply Forall2_cons; try apply Forall2_nil; (split; [reflexivity|]); (split; [reflexivity|]); (split; [reflexivity|]);
        try (left; split; reflexivity). right. split; apply N1; auto. }
    destruct (db_new Checked reverse_order learn_one) as [d| |] eqn:E1; [|vm_compute in E1; discriminate E1..].
    destruct (db_new Checked reverse_order learn_two) as [d'| |] eqn:E2; [|vm_compute in E2; discriminate E2..].
    exists d, d'. split; [reflexivity|]. split; [reflexivity|]. split; [|apply I; reflexivity].
    intros ->. rewrite <- E2 in E1. vm_compute in E1. discriminate E1.
  - eexists. eexists. split; [vm_compute; reflexivity|]. split; [vm_compute; reflexivity|].
    intros chunks E. apply (f_equal (fun k => nth 1 k [])) in E. vm_compute in E. discriminate E.
Qed.
