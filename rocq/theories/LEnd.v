(** Lemmas for the composed properties. *)

From Verif Require Import Base Unicode MPath MDb MDatabase MScan MLib SDb SDatabase SLib SScan SEnd LDb
  LBase LUnicode LRead LScan LDatabase LLib LLib2 LLib3 LLib4 PDatabase PLib PScan.
From Coq Require Import ZArith String Permutation.
Open Scope list_scope.
Open Scope N_scope.

Lemma records_in : forall root files l, records root files l ->
  forall s, In s l <-> exists names f, In (names, f) files /\ recorded f (below root names) s.
Proof.
  intros root files l R. induction R as [|names f s l r Hs R IH|names f l r Hs R IH]; intros x.
  - split; [intros []|]. intros (? & ? & [] & _).
  - cbn [In]. rewrite IH. split.
    + intros [<-|(n & g & I & H)]; [exists names, f; auto|exists n, g; auto].
    + intros (n & g & [E|I] & H).
      * injection E as <- <-. left. eapply recorded_functional; eassumption.
      * right. exists n, g. auto.
  - rewrite IH. split.
    + intros (n & g & I & H). exists n, g. split; [right|]; assumption.
    + intros (n & g & [E|I] & H); [|exists n, g; auto]. injection E as <- <-. elim (Hs x H).
Qed.

(** The scanned tracks are the music of the folder. *)
Lemma scan_is_music : forall p root rname tree l, tree_ok tree -> name_ok rname ->
  (root = rname \/ exists parent, root = parent ++ lit "/" ++ rname) ->
  scan_folder p root tree = Ok l ->
  forall s, In s l <-> exists names, music root rname tree names s.
Proof.
  intros p root rname tree l Ht Hn Hr E s.
  apply (C22_finds_exactly p root rname tree l Ht Hn Hr) in E. destruct E as (files & T & R & _).
  rewrite (records_in _ _ _ R s). pose proof (those_in _ _ _ _ T) as I. unfold music. split.
  - intros (names & f & H1 & H2). apply I in H1. cbn [fst] in H1. destruct H1 as (H1 & H3 & H4).
    exists names, f. auto.
  - intros (names & f & H1 & H2 & H3 & H4). exists names, f. split; [|assumption]. apply I. auto.
Qed.

Lemma recorded_ok : forall f path s, recorded f path s ->
  (forall t x, fi_v2 f = Some t -> v2_artist t = Some x \/ v2_title t = Some x -> str_ok x) ->
  (forall t, fi_v1 f = Some t -> str_ok (v1_artist t) /\ str_ok (v1_title t)) ->
  str_ok (s_artist s) /\ str_ok (s_title s) /\ s_size s < 2 ^ 32 /\
  match s_bpm s with Some b => b < 2 ^ 32 | None => True end.
Proof.
  intros f path s (size & _ & Z & _ & R) T2 T1.
  assert (Sz : s_size s < 2 ^ 32) by (rewrite Z; apply N.mod_lt; discriminate).
  destruct R as [(t & E & A & B & _ & M)|(t & _ & _ & E & A & B & _ & M)].
  - split; [rewrite A; destruct (v2_artist t) eqn:X; [apply (T2 t); auto|constructor]|].
    split; [rewrite B; destruct (v2_title t) eqn:X; [apply (T2 t); auto|constructor]|].
    split; [assumption|]. destruct M as [(x & v & _ & _ & ->)|[_ ->]]; [apply N.mod_lt; discriminate|trivial].
  - destruct (T1 t E). rewrite A, B, M. auto.
Qed.

Lemma folder_scan_ok : forall p h root rname tree l d, indexed_folder p h root rname tree l d -> scan_ok l.
Proof.
  intros p h root rname tree l d (_ & Ht & Tg & Hn & Hr & Hs & _). apply Forall_forall. intros s I.
  apply (scan_is_music p root rname tree l Ht Hn Hr Hs) in I. destruct I as (names & f & I & _ & _ & R).
  destruct (Tg names f I) as [T2 T1]. exact (recorded_ok f _ s R T2 T1).
Qed.

(** ** Asking for a menu and rendering it *)

Definition menu_call (m : menu) (code : N) (args : list N) : Prop :=
  match m with
  | RootMenu => code = 0x1000
  | ArtistMenu => code = 0x1002
  | TitleMenu => code = 0x1004
  | AlbumsOfArtist a => code = 0x1102 /\ nth_error args 2 = Some a
  | TitlesOfArtist a => code = 0x1202 /\ nth_error args 2 = Some a
  | TrackMetadata t => code = 0x2002 /\ nth_error args 1 = Some t
  | TrackMountInfo t => code = 0x2102 /\ nth_error args 1 = Some t
  end.

Lemma arg_is_number : forall args i v, Forall (fun a => a < 2 ^ 32) args -> nth_error args i = Some v ->
  arg_is (map field_of_u32 args) i v.
Proof.
  intros args i v F E. exists (be 4 v). split; [|split].
  - rewrite nth_error_map, E. reflexivity.
  - apply be_len.
  - rewrite number_of_be, of_be_be. apply N.mod_small. rewrite Forall_forall in F.
    apply (F v). exact (nth_error_In _ _ E).
Qed.

Lemma menu_call_names : forall m code args, Forall (fun a => a < 2 ^ 32) args -> menu_call m code args ->
  names_menu code (map field_of_u32 args) m.
Proof.
  intros m code args F H. destruct m; cbn [menu_call names_menu] in *; try assumption;
    destruct H as [-> H]; (split; [reflexivity|apply arg_is_number; assumption]).
Qed.

Lemma menu_call_code : forall m code args, menu_call m code args -> code < 2 ^ 16.
Proof. intros m code args H. destruct m; cbn [menu_call] in H; try (subst code; reflexivity); destruct H as [-> _]; reflexivity. Qed.

Lemma menu_is_request : forall p tx m code args, tx < 2 ^ 32 -> Forall (fun a => a < 2 ^ 32) args ->
  (List.length args <= 12)%nat -> menu_call m code args ->
  menu_request p (client_request tx code args) m.
Proof.
  intros p tx m code args Ht F L H.
  exists FU32, (be 4 tx), code, (map field_of_u32 args).
  split; [apply client_request_ok; try assumption; eapply menu_call_code; eassumption|].
  apply (menu_call_names m code args F) in H. exact H.
Qed.

Lemma shown : forall p h l d history tx tx' m code args,
  order_ok h -> len l < 2 ^ 32 - 1 -> scan_ok l -> short_page l m -> db_new p h l = Ok d ->
  answered p h d history -> tx < 2 ^ 32 -> tx' < 2 ^ 32 ->
  Forall (fun a => a < 2 ^ 32) args -> (List.length args <= 12)%nat -> menu_call m code args ->
  ~ no_page l m ->
  exists ms, shows p h d history tx tx' code args ms /\ page_ok l tx' m ms.
Proof.
  intros p h l d hist tx tx' m code args Ho Hl Hok Hs Hd Ha Ht Ht' F L Hm Hnp.
  pose proof (menu_is_request p tx m code args Ht F L Hm) as Mr.
  set (c := client_request tx code args) in *.
  assert (Rr : is_request p (client_request tx' 0x3000 []) FU32 (be 4 tx') 0x3000 (map field_of_u32 [])).
  { apply client_request_ok; [assumption|reflexivity|constructor|cbn; lia]. }
  destruct (process_menu p h d c m Mr) as [x Hx].
  assert (Hcb : bytes_ok c) by (destruct Mr as (k & tx0 & code0 & fs & [B _] & _); exact B).
  destruct Ha as [Hb Hall].
  destruct (serve_all p h d hist None Hall) as [st [Hst Happ]].
  assert (E1 : serve p h d None (hist ++ [c]) = serve p h d None hist ++ [x]).
  { rewrite Happ. cbn [serve]. rewrite (Hx st). reflexivity. }
  assert (Ha' : answered p h d (hist ++ [c])).
  { split; [apply Forall_app; split; [assumption|constructor; [assumption|constructor]]|].
    rewrite E1, !app_length, Hall. reflexivity. }
  assert (Lm : last_menu p (hist ++ [c]) c m).
  { exists hist, []. split; [reflexivity|]. split; [assumption|]. intros c' m' []. }
  destruct (C11_pages p h l d (hist ++ [c]) c m _ (be 4 tx') _ Ho Hl Hok Hs Hd Ha' Lm Rr Hnp)
    as (page & ms & P1 & P2 & P3).
  exists ms. split.
  - exists x, page. split; [|assumption]. fold c.
    change [c; client_request tx' 12288 []] with ([c] ++ [client_request tx' 12288 []]).
    rewrite app_assoc, P1, E1, <- app_assoc. reflexivity.
  - rewrite number_of_be, of_be_be, N.mod_small in P3 by assumption. exact P3.
Qed.

Lemma shows_functional : forall p h d history tx tx' code args ms ms',
  shows p h d history tx tx' code args ms -> shows p h d history tx tx' code args ms' -> ms = ms'.
Proof.
  intros p h d hist tx tx' code args ms ms' (a & b & E & R) (a' & b' & E' & R').
  rewrite E in E'. apply app_inv_head in E'. congruence.
Qed.

Lemma no_page_dec : forall l m, no_page l m \/ ~ no_page l m.
Proof.
  intros l m. destruct m; cbn [no_page]; try (right; tauto).
  - destruct (track_with_id l track_id); [right; discriminate|left; reflexivity].
  - destruct (track_with_id l track_id) as [s|]; [|left; trivial].
    destruct (utf8_decode (s_path s)) as [path|] eqn:U.
    + destruct (utf8_decode_some _ _ U) as [E S]. right. intros H. exact (H path S (eq_sym E)).
    + left. intros path S E. rewrite E, utf8_decode_encode in U by assumption. discriminate.
Qed.

(** Whatever is read is the page. *)
Lemma shows_page : forall p h l d history tx tx' m code args ms,
  order_ok h -> len l < 2 ^ 32 - 1 -> scan_ok l -> short_page l m -> db_new p h l = Ok d ->
  answered p h d history -> tx < 2 ^ 32 -> tx' < 2 ^ 32 ->
  Forall (fun a => a < 2 ^ 32) args -> (List.length args <= 12)%nat -> menu_call m code args ->
  shows p h d history tx tx' code args ms -> page_ok l tx' m ms /\ ~ no_page l m.
Proof.
  intros p h l d hist tx tx' m code args ms Ho Hl Hok Hs Hd Ha Ht Ht' F L Hm Sh.
  destruct (no_page_dec l m) as [Np|Np].
  - exfalso. destruct Sh as (a & b & E & _).
    pose proof (menu_is_request p tx m code args Ht F L Hm) as Mr.
    set (c := client_request tx code args) in *.
    assert (Rr : is_request p (client_request tx' 0x3000 []) FU32 (be 4 tx') 0x3000 (map field_of_u32 [])).
    { apply client_request_ok; [assumption|reflexivity|constructor|cbn; lia]. }
    destruct (process_menu p h d c m Mr) as [x Hx].
    assert (Hcb : bytes_ok c) by (destruct Mr as (k & tx0 & code0 & fs & [B _] & _); exact B).
    destruct Ha as [Hb Hall].
    destruct (serve_all p h d hist None Hall) as [st [Hst Happ]].
    assert (E1 : serve p h d None (hist ++ [c]) = serve p h d None hist ++ [x]).
    { rewrite Happ. cbn [serve]. rewrite (Hx st). reflexivity. }
    assert (Ha' : answered p h d (hist ++ [c])).
    { split; [apply Forall_app; split; [assumption|constructor; [assumption|constructor]]|].
      rewrite E1, !app_length, Hall. reflexivity. }
    assert (Lm : last_menu p (hist ++ [c]) c m).
    { exists hist, []. split; [reflexivity|]. split; [assumption|]. intros c' m' []. }
    change [c; client_request tx' 12288 []] with ([c] ++ [client_request tx' 12288 []]) in E.
    rewrite app_assoc in E.
    assert (E2 : serve p h d None ((hist ++ [c]) ++ [client_request tx' 12288 []]) = serve p h d None (hist ++ [c])).
    { destruct m; cbn [no_page] in Np; try contradiction.
      - eapply C12_unknown_track; eassumption.
      - eapply C13_no_path; eassumption. }
    rewrite E2, E1 in E. apply app_inv_head in E. discriminate.
  - destruct (shown p h l d hist tx tx' m code args Ho Hl Hok Hs Hd Ha Ht Ht' F L Hm Np) as (ms' & S' & P).
    rewrite (shows_functional _ _ _ _ _ _ _ _ _ _ Sh S'). auto.
Qed.

(** ** Rows *)

Lemma row_inj : forall tx id t ty id' t' ty', str_ok t -> str_ok t' ->
  row tx id t ty = row tx id' t' ty' -> id = id' /\ t = t'.
Proof.
  intros tx id t ty id' t' ty' S S' E. unfold row, item in E.
  assert (E1 : CNum 4 id = CNum 4 id' /\ CText (utf16_encode t) = CText (utf16_encode t')) by (injection E; intros; split; congruence).
  destruct E1 as [E1 E2]. split; [congruence|]. apply utf16_encode_inj; congruence.
Qed.

Lemma numbered_track : forall (l : list scanned) t s, In (t, s) (numbered 2 l) <-> track_with_id l t = Some s.
Proof.
  intros l t s. unfold track_with_id. split.
  - intros I. apply numbered_in in I. destruct I as (G & _ & I). destruct (N.leb_spec 2 t); [assumption|lia].
  - destruct (N.leb_spec 2 t) as [G|]; [|discriminate]. intros I.
    apply (numbered_nth _ _ 2) in I. replace (2 + N.of_nat (N.to_nat (t - 2))) with t in I by lia. exact I.
Qed.

Lemma track_small : forall l t s, len l < 2 ^ 32 - 1 -> track_with_id l t = Some s -> t < 2 ^ 32.
Proof.
  intros l t s L H. unfold track_with_id in H. destruct (N.leb_spec 2 t) as [G|]; [|discriminate].
  assert (N.to_nat (t - 2) < List.length l)%nat by (apply nth_error_Some; congruence). unfold len in L. lia.
Qed.

Lemma artist_small : forall l n, len l < 2 ^ 32 - 1 -> In n (map s_artist l) -> artist_number l n < 2 ^ 32.
Proof.
  intros l n L I. unfold artist_number.
  assert (P : SDatabase.position n (artist_names l) < len (artist_names l)).
  { apply firsts_in in I. unfold artist_names. revert I. generalize (firsts (map s_artist l)). clear.
    intros k. induction k as [|y k IH]; intros I; [destruct I|]. cbn [SDatabase.position].
    rewrite len_cons. destruct (bytes_eqb n y) eqn:E; [lia|].
    destruct I as [->|I]; [rewrite (proj2 (bytes_eqb_iff n n) eq_refl) in E; discriminate|]. specialize (IH I). lia. }
  pose proof (firsts_len (map s_artist l)) as F. rewrite len_map in F. unfold artist_names in *. lia.
Qed.

Lemma small3 : forall a, a < 2 ^ 32 -> Forall (fun a => a < 2 ^ 32) [0; 0; a].
Proof. intros a H. constructor; [reflexivity|]. constructor; [reflexivity|]. constructor; [exact H|constructor]. Qed.
Lemma small2 : forall a, a < 2 ^ 32 -> Forall (fun a => a < 2 ^ 32) [0; a].
Proof. intros a H. constructor; [reflexivity|]. constructor; [exact H|constructor]. Qed.

Section Asking.
  Context (p : profile) (h : hash_order) (root rname : bytes) (tree : node) (l : list scanned) (d : database).
  Hypothesis Ix : indexed_folder p h root rname tree l d.

  Lemma asked_page : forall q m code args ms, short_page l m -> asking_ok p h d q ->
    Forall (fun a => a < 2 ^ 32) args -> (List.length args <= 12)%nat -> menu_call m code args ->
    asked p h d q code args ms -> page_ok l (ask_tx' q) m ms /\ ~ no_page l m.
  Proof.
    intros q m code args ms Sh (B & Al & T & T') F L M A. pose proof (folder_scan_ok _ _ _ _ _ _ _ Ix) as So.
    destruct Ix as (Ho & _ & _ & _ & _ & _ & Hl & Hd).
    apply (shows_page p h l d (ask_history q) (ask_tx q) (ask_tx' q) m code args ms); try assumption.
    split; assumption.
  Qed.

  Lemma can_ask : forall q m code args, short_page l m -> asking_ok p h d q ->
    Forall (fun a => a < 2 ^ 32) args -> (List.length args <= 12)%nat -> menu_call m code args ->
    ~ no_page l m -> exists ms, asked p h d q code args ms /\ page_ok l (ask_tx' q) m ms.
  Proof.
    intros q m code args Sh (B & Al & T & T') F L M A. pose proof (folder_scan_ok _ _ _ _ _ _ _ Ix) as So.
    destruct Ix as (Ho & _ & _ & _ & _ & _ & Hl & Hd).
    apply (shown p h l d (ask_history q) (ask_tx q) (ask_tx' q) m code args); try assumption.
    split; assumption.
  Qed.

  Lemma artist_text : forall n, In n (map s_artist l) -> str_ok n.
  Proof.
    intros n I. apply in_map_iff in I. destruct I as (s & <- & I).
    pose proof (folder_scan_ok _ _ _ _ _ _ _ Ix) as So. unfold scan_ok in So. rewrite Forall_forall in So.
    apply (So s I).
  Qed.
  Lemma title_text : forall s, In s l -> str_ok (s_title s).
  Proof.
    intros s I. pose proof (folder_scan_ok _ _ _ _ _ _ _ Ix) as So. unfold scan_ok in So. rewrite Forall_forall in So.
    apply (So s I).
  Qed.
  Lemma small_list : len l < 2 ^ 32 - 1.
  Proof. destruct Ix as (_ & _ & _ & _ & _ & _ & Hl & _). exact Hl. Qed.

  Lemma lists_artist_iff : short_page l ArtistMenu -> forall q a n, asking_ok p h d q -> str_ok n ->
    (lists_artist p h d q a n <-> In n (map s_artist l) /\ a = artist_number l n).
  Proof.
    intros Sh q a n Q So. assert (F : Forall (fun a => a < 2 ^ 32) []) by constructor. split.
    - intros (ms & A & I).
      destruct (asked_page q ArtistMenu 0x1002 [] ms Sh Q F (Nat.le_0_l _) eq_refl A) as [P _]. cbn [page_ok] in P.
      destruct P as (rows & -> & P).
      rewrite items_page in I; [|eapply rows_are_items; [|exact P]; intros [i m]; reflexivity|reflexivity].
      apply (Permutation_in _ P) in I. apply in_map_iff in I. destruct I as ([i m] & E & I).
      pose proof (numbered_artist l i m I) as Ei.
      assert (Im : In m (artist_names l)).
      { apply numbered_in in I. destruct I as (_ & _ & I). exact (nth_error_In _ _ I). }
      unfold artist_names in Im. apply (proj1 (firsts_in _ _)) in Im. apply row_inj in E; [|apply artist_text; assumption|assumption].
      destruct E as [-> <-]. auto.
    - intros [I ->].
      destruct (can_ask q ArtistMenu 0x1002 [] Sh Q F (Nat.le_0_l _) eq_refl (fun H => H)) as (ms & A & P).
      cbn [page_ok] in P. destruct P as (rows & -> & P). exists (header (ask_tx' q) :: rows ++ [footer (ask_tx' q)]).
      split; [assumption|].
      rewrite items_page; [|eapply rows_are_items; [|exact P]; intros [i m]; reflexivity|reflexivity].
      apply (Permutation_in _ (Permutation_sym P)). apply in_map_iff.
      apply firsts_in in I. fold (artist_names l) in I. destruct (In_nth_error _ _ I) as [k Hk].
      pose proof (numbered_nth _ _ 2 _ _ Hk) as J. pose proof (numbered_artist l _ _ J) as Ei.
      exists (2 + N.of_nat k, n). rewrite Ei in *. split; [reflexivity|exact J].
  Qed.

  Lemma lists_track_iff : forall q a t x, short_page l (TitlesOfArtist a) -> asking_ok p h d q -> str_ok x ->
    (lists_track p h d q a t x <->
     a < 2 ^ 32 /\ exists s, track_with_id l t = Some s /\ artist_number l (s_artist s) = a /\ s_title s = x).
  Proof.
    intros q a t x Sh Q So. split.
    - intros (La & ms & A & I). split; [assumption|].
      assert (F : Forall (fun a => a < 2 ^ 32) [0; 0; a]) by (apply small3; assumption).
      destruct (asked_page q (TitlesOfArtist a) 0x1202 [0; 0; a] ms Sh Q F) as [P _]; [cbn; lia|split; reflexivity|assumption|].
      cbn [page_ok] in P. destruct P as (rows & -> & P).
      rewrite items_page in I; [|eapply rows_are_items; [|exact P]; intros [i m]; reflexivity|reflexivity].
      apply (Permutation_in _ P) in I. apply in_map_iff in I. destruct I as ([i s] & E & I).
      apply filter_In in I. destruct I as [I En]. apply N.eqb_eq in En. apply numbered_track in I.
      assert (Is : In s l).
      { unfold track_with_id in I. destruct (2 <=? i); [exact (nth_error_In _ _ I)|discriminate]. }
      apply row_inj in E; [|apply title_text; assumption|assumption]. destruct E as [<- <-]. exists s. auto.
    - intros (La & s & T & Na & Ex). split; [assumption|].
      assert (F : Forall (fun a => a < 2 ^ 32) [0; 0; a]) by (apply small3; assumption).
      destruct (can_ask q (TitlesOfArtist a) 0x1202 [0; 0; a] Sh Q F) as (ms & A & P); [cbn; lia|split; reflexivity|exact (fun H => H)|].
      cbn [page_ok] in P. destruct P as (rows & -> & P).
      exists (header (ask_tx' q) :: rows ++ [footer (ask_tx' q)]). split; [assumption|].
      rewrite items_page; [|eapply rows_are_items; [|exact P]; intros [i m]; reflexivity|reflexivity].
      apply (Permutation_in _ (Permutation_sym P)). apply in_map_iff. exists (t, s). rewrite Ex. split; [reflexivity|].
      apply filter_In. split; [apply numbered_track; assumption|apply N.eqb_eq; assumption].
  Qed.

  Lemma item_inj : forall tx a b x y c e f a' b' x' y' c' e' f',
    str_ok x -> str_ok x' -> item tx a b x y c e f = item tx a' b' x' y' c' e' f' -> a = a' /\ b = b' /\ x = x' /\ c = c'.
  Proof.
    intros tx a b x y c e f a' b' x' y' c' e' f' S S' E. unfold item in E.
    assert (E1 : a = a' /\ b = b' /\ utf16_encode x = utf16_encode x' /\ c = c') by (injection E; intros; repeat split; congruence).
    destruct E1 as (-> & -> & E1 & ->). repeat split. apply utf16_encode_inj; assumption.
  Qed.

  Lemma gives_path_iff : forall q t path size, short_page l (TrackMountInfo t) -> asking_ok p h d q -> str_ok path ->
    (gives_path p h d q t path size <->
     exists s, track_with_id l t = Some s /\ s_path s = utf8_encode path /\ s_size s = size).
  Proof.
    intros q t path size Sh Q So. split.
    - intros (Lt & ms & A & I).
      assert (F : Forall (fun a => a < 2 ^ 32) [0; t]) by (apply small2; assumption).
      destruct (asked_page q (TrackMountInfo t) 0x2102 [0; t] ms Sh Q F) as [P _]; [cbn; lia|split; reflexivity|assumption|].
      cbn [page_ok] in P. destruct P as (s & path' & T & So' & Ep & ->).
      exists s. split; [assumption|]. unfold mount_page in I.
      assert (J : In (item (ask_tx' q) size 5 path [] 0 0 0)
                [item (ask_tx' q) (s_size s) 5 path' [] 0 0 0]).
      { cbv [items filter is_item header item footer c_code N.eqb Pos.eqb] in I.
        repeat (destruct I as [E|I]; [try (exfalso; injection E; intros; discriminate)|]); [|destruct I].
        left. exact E. }
      destruct J as [E|[]]. apply item_inj in E; [|assumption|assumption]. destruct E as (-> & _ & -> & _). auto.
    - intros (s & T & Ep & <-). split; [exact (track_small l t s small_list T)|].
      assert (F : Forall (fun a => a < 2 ^ 32) [0; t]).
      { apply small2. exact (track_small l t s small_list T). }
      destruct (can_ask q (TrackMountInfo t) 0x2102 [0; t] Sh Q F) as (ms & A & P); [cbn; lia|split; reflexivity| |].
      + cbn [no_page]. rewrite T. intros H. exact (H path So Ep).
      + exists ms. split; [assumption|]. cbn [page_ok] in P. destruct P as (s' & path' & T' & So' & Ep' & ->).
        rewrite T in T'. injection T' as <-.
        assert (path' = path) by (apply utf8_encode_inj; congruence). subst path'.
        unfold mount_page. apply filter_In. split; [|reflexivity]. cbn [In]. tauto.
  Qed.

  Lemma gives_metadata_iff : forall q t x n b, short_page l (TrackMetadata t) -> asking_ok p h d q -> str_ok x -> str_ok n ->
    (gives_metadata p h d q t x n b <->
     exists s, track_with_id l t = Some s /\ s_title s = x /\ s_artist s = n /\
       match s_bpm s with Some v => v | None => 0 end = b).
  Proof.
    intros q t x n b Sh Q Sx Sn. split.
    - intros (Lt & ms & A & I1 & I2 & I3).
      assert (F : Forall (fun a => a < 2 ^ 32) [0; t]) by (apply small2; assumption).
      destruct (asked_page q (TrackMetadata t) 0x2002 [0; t] ms Sh Q F) as [P _]; [cbn; lia|split; reflexivity|assumption|].
      cbn [page_ok] in P. destruct P as (s & T & ->). exists s. split; [assumption|].
      assert (Is : In s l).
      { unfold track_with_id in T. destruct (2 <=? t); [exact (nth_error_In _ _ T)|discriminate]. }
      assert (So1 : str_ok (s_artist s)) by (apply artist_text, in_map; assumption).
      pose proof (title_text s Is) as So2. unfold metadata_page in I1, I2, I3.
      cbv [items filter is_item header item footer c_code N.eqb Pos.eqb] in I1, I2, I3.
      split; [|split].
      + destruct I1 as [E|I1]; [apply item_inj in E; tauto|].
        repeat (destruct I1 as [E|I1]; [exfalso; injection E; intros; discriminate|]). destruct I1.
      + destruct I2 as [E|I2]; [exfalso; injection E; intros; discriminate|].
        destruct I2 as [E|I2]; [apply item_inj in E; tauto|].
        repeat (destruct I2 as [E|I2]; [exfalso; injection E; intros; discriminate|]). destruct I2.
      + repeat (destruct I3 as [E|I3]; [try (exfalso; injection E; intros; discriminate)|]); [|destruct I3].
        apply (item_inj (ask_tx' q) 0 _ [] [] 13 0 0) in E; [tauto|constructor|constructor].
    - intros (s & T & <- & <- & <-). split; [exact (track_small l t s small_list T)|].
      assert (F : Forall (fun a => a < 2 ^ 32) [0; t]).
      { apply small2. exact (track_small l t s small_list T). }
      destruct (can_ask q (TrackMetadata t) 0x2002 [0; t] Sh Q F) as (ms & A & P); [cbn; lia|split; reflexivity| |].
      + cbn [no_page]. congruence.
      + exists ms. split; [assumption|]. cbn [page_ok] in P. destruct P as (s' & T' & ->).
        rewrite T in T'. injection T' as <-.
        unfold metadata_page. split; [|split]; (apply filter_In; split; [|reflexivity]); cbn [In]; tauto.
  Qed.
End Asking.

(** ** Distinct files have distinct paths *)

Lemma below_inj : forall root a b, Forall name_ok a -> Forall name_ok b -> below root a = below root b -> a = b.
Proof.
  intros root a b Ha Hb E. unfold below in E. apply app_inv_head in E. revert b Hb E.
  induction Ha as [|n a Hn Ha IH]; intros b Hb E.
  - destruct Hb; [reflexivity|discriminate].
  - destruct Hb as [|m b Hm Hb]; [discriminate|]. cbn [flat_map app] in E. injection E as E.
    assert (G : forall x y u v, ~ In slash x -> ~ In slash y ->
      (u = [] \/ exists u', u = slash :: u') -> (v = [] \/ exists v', v = slash :: v') ->
      x ++ u = y ++ v -> x = y /\ u = v).
    { clear. induction x as [|c x IH]; intros y u v Hx Hy Hu Hv E.
      - destruct y as [|c' y]; [auto|]. cbn in E. destruct Hu as [->|[u' ->]]; [discriminate|].
        injection E as <- _. elim Hy. left. reflexivity.
      - destruct y as [|c' y].
        + cbn in E. destruct Hv as [->|[v' ->]]; [discriminate|]. injection E as -> _. elim Hx. left. reflexivity.
        + cbn in E. injection E as -> E. destruct (IH y u v) as [-> ->]; try assumption; [|auto|auto].
          * intros I. apply Hx. right. exact I.
          * intros I. apply Hy. right. exact I. }
    assert (H : forall k, flat_map (fun n : bytes => slash :: n) k = [] \/ exists u', flat_map (fun n : bytes => slash :: n) k = slash :: u').
    { intros [|k r]; [left; reflexivity|right; eexists; reflexivity]. }
    destruct Hn as (_ & Hn & _), Hm as (_ & Hm & _).
    destruct (G n m _ _ Hn Hm (H a) (H b) E) as [-> E2]. f_equal. apply IH; [assumption|exact E2].
Qed.

Lemma files_names_ok : forall tree, tree_ok tree -> forall names f, In (names, f) (all_files tree) -> Forall name_ok names.
Proof.
  induction tree as [g|es IH| | |] using node_ind'; intros Ht names f I; cbn [all_files] in I; try (destruct I; fail).
  - destruct I as [E|[]]. injection E as <- _. constructor.
  - inversion Ht as [|es' Hes| | |]. subst es'. apply in_flat_map in I. destruct I as ([n t] & I1 & I2).
    cbn [fst snd] in I2. apply in_map_iff in I2. destruct I2 as ([ns g] & E & I2). cbn [fst snd] in E.
    injection E as <- <-. destruct (Hes n t I1) as [Hn Htt]. constructor; [assumption|]. exact (IH n t I1 Htt ns g I2).
Qed.

Lemma records_paths : forall root files l, records root files l -> NoDup (map fst files) ->
  Forall (fun x => Forall name_ok (fst x)) files -> NoDup (map s_path l).
Proof.
  intros root files l R. induction R as [|names f s l r Hs R IH|names f l r Hs R IH]; intros D O.
  - constructor.
  - cbn [map] in *. inversion D as [|? ? D1 D2]. subst. inversion O as [|? ? O1 O2]. subst. constructor; [|apply IH; assumption].
    intros I. apply in_map_iff in I. destruct I as (s' & E & I). apply (records_in _ _ _ R) in I.
    destruct I as (names' & f' & I & (z & _ & _ & P' & _)). destruct Hs as (z0 & _ & _ & P & _).
    apply D1. rewrite Forall_forall in O2. pose proof (O2 _ I) as O3. cbn [fst] in *.
    assert (names = names') by (apply (below_inj root); [assumption|assumption|congruence]). subst names'.
    apply in_map_iff. exists (names, f'). auto.
  - cbn [map] in D. inversion D. inversion O. apply IH; assumption.
Qed.

Lemma those_nodup : forall A B (g : A -> B) (P : A -> Prop) l r, those P l r -> NoDup (map g l) -> NoDup (map g r).
Proof.
  intros A B g P l r T. induction T as [|a l r Pa T IH|a l r Pa T IH]; intros D; [constructor| |].
  - cbn [map] in *. inversion D as [|? ? D1 D2]. subst. constructor; [|apply IH; assumption].
    intros I. apply D1. apply in_map_iff in I. destruct I as (x & E & I). apply in_map_iff. exists x.
    split; [assumption|]. apply (those_in _ _ _ _ T). assumption.
  - inversion D. apply IH. assumption.
Qed.

Lemma folder_paths : forall p h root rname tree l d, indexed_folder p h root rname tree l d ->
  distinct_files tree -> NoDup (map s_path l).
Proof.
  intros p h root rname tree l d (_ & Ht & _ & Hn & Hr & Hs & _) D.
  apply (C22_finds_exactly p root rname tree l Ht Hn Hr) in Hs. destruct Hs as (files & T & R & _).
  apply (records_paths root files l R); [exact (those_nodup _ _ fst _ _ _ T D)|].
  apply Forall_forall. intros [names f] I. apply (those_in _ _ _ _ T) in I. destruct I as [I _].
  exact (files_names_ok tree Ht names f I).
Qed.

Lemma track_in : forall l s, In s l <-> exists t, track_with_id l t = Some s.
Proof.
  intros l s. split.
  - intros I. destruct (In_nth_error _ _ I) as [k Hk]. exists (2 + N.of_nat k). unfold track_with_id.
    destruct (N.leb_spec 2 (2 + N.of_nat k)); [|lia]. replace (N.to_nat (2 + N.of_nat k - 2)) with k by lia. exact Hk.
  - intros [t T]. unfold track_with_id in T. destruct (2 <=? t); [exact (nth_error_In _ _ T)|discriminate].
Qed.

Lemma track_path_unique : forall l t t' s s', NoDup (map s_path l) ->
  track_with_id l t = Some s -> track_with_id l t' = Some s' -> s_path s = s_path s' -> t = t' /\ s = s'.
Proof.
  intros l t t' s s' D T T' E. unfold track_with_id in T, T'.
  destruct (N.leb_spec 2 t), (N.leb_spec 2 t'); try discriminate.
  assert (K : N.to_nat (t - 2) = N.to_nat (t' - 2)).
  { apply (proj1 (NoDup_nth_error (map s_path l)) D).
    - apply nth_error_Some. rewrite nth_error_map, T. discriminate.
    - rewrite !nth_error_map, T, T'. cbn. congruence. }
  split; [lia|]. rewrite K in T. congruence.
Qed.
