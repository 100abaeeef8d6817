(** Property theorems C18-C21 (indexing the scanned tracks). *)

From Verif Require Import Base Unicode MDatabase SDatabase LBase LDatabase.
From Coq Require Import ZArith String.
Open Scope N_scope.
Open Scope list_scope.

(** A scan result and an iteration order for the examples. *)
Definition example_scan : list scanned :=
  [ mkScanned (lit "Bass") (lit "One") (Some 12800) (lit "A") (lit "/m/1.mp3") 10;
    mkScanned (lit "Ace") (lit "Two") None (lit "A") (lit "/m/2.mp3") 20;
    mkScanned (lit "Bass") (lit "Three") (Some 9000) (lit "B") (lit "/m/3.mp3") 30 ].
Definition reverse_order : hash_order := mkOrder (@rev _) (@rev _).
Lemma reverse_order_ok : order_ok reverse_order.
Proof. split; intro l; apply Permutation_sym, Permutation_rev. Qed.

(** ** C18 *)

(** The track scanned at place i has the id i + 2 and keeps title, path, size and tempo;
    no other id has a track. *)
Theorem C18_tracks_retrievable : forall p h l, order_ok h -> len l < 2 ^ 32 - 1 ->
  exists d, db_new p h l = Ok d /\
  (forall i s, nth_error l i = Some s ->
     exists artist_id,
       get_track d (N.of_nat i + 2)
       = Some (mkTrack (N.of_nat i + 2) artist_id (s_title s) (s_path s) (s_size s) (s_bpm s))) /\
  (forall id, get_track d id <> None -> 2 <= id /\ id < len l + 2).
Proof.
  intros p h l Ho Hl. destruct (db_new_indexed p h l Ho Hl) as [d [H1 H2]].
  exists d. split; [assumption|]. split.
  - intros i s Hi. exists (artist_number l (s_artist s)).
    rewrite (indexed_get_track l d _ H2).
    destruct (N.leb_spec 2 (N.of_nat i + 2)); [|lia].
    replace (N.to_nat (N.of_nat i + 2 - 2)) with i by lia. rewrite Hi. reflexivity.
  - intros id H. rewrite (indexed_get_track l d _ H2) in H.
    destruct (N.leb_spec 2 id); [|congruence].
    destruct (nth_error l (N.to_nat (id - 2))) eqn:E; [|cbn in H; congruence].
    assert (N.to_nat (id - 2) < List.length l)%nat by (apply nth_error_Some; congruence).
    unfold len. lia.
Qed.
Print Assumptions C18_tracks_retrievable.

Example C18_case : exists d, db_new Checked reverse_order example_scan = Ok d /\
  get_track d 4 = Some (mkTrack 4 2 (lit "Three") (lit "/m/3.mp3") 30 (Some 9000)) /\
  get_track d 5 = None.
Proof. eexists. split; [vm_compute; reflexivity|split; vm_compute; reflexivity]. Qed.

(** ** C19 *)

(** The artists are the distinct names, each once and under one id, and the artist of
    every track resolves. *)
Theorem C19_artists_deduplicated : forall p h l, order_ok h -> len l < 2 ^ 32 - 1 ->
  exists d, db_new p h l = Ok d /\
  (* exactly the distinct artist names, each once *)
  NoDup (map a_name (artists h d)) /\
  (forall n, In n (map a_name (artists h d)) <-> In n (map s_artist l)) /\
  (* each under one id, by which it is found *)
  NoDup (map a_id (artists h d)) /\
  (forall id a, get_artist d id = Some a <-> In a (artists h d) /\ a_id a = id) /\
  (* every track's artist reference resolves to the name it was scanned with *)
  (forall i s, nth_error l i = Some s ->
     exists t a, get_track d (N.of_nat i + 2) = Some t /\
                 get_artist d (t_artist_id t) = Some a /\ a_name a = s_artist s).
Proof.
  intros p h l Ho Hl. destruct (db_new_indexed p h l Ho Hl) as [d [H1 H2]].
  exists d. split; [assumption|].
  pose proof (indexed_artists h l d Ho H2) as P.
  assert (Pn : Permutation (map a_name (artists h d)) (artist_names l)).
  { rewrite (Permutation_map a_name P), map_map. cbn [a_name]. rewrite map_id.
    apply Permutation_refl. }
  split. { eapply Permutation_NoDup; [apply Permutation_sym, Pn|apply firsts_nodup]. }
  split. { intro n. split; intro H.
    - apply (Permutation_in _ Pn) in H. apply (proj1 (firsts_in _ _)) in H. assumption.
    - apply (Permutation_in _ (Permutation_sym Pn)). apply firsts_in. assumption. }
  split. { eapply Permutation_NoDup; [apply Permutation_sym, (Permutation_map a_id P)|].
    rewrite map_map. cbn [a_id].
    assert (G : forall xs, NoDup xs -> (forall x, In x xs -> In x (artist_names l)) ->
              NoDup (map (artist_number l) xs)).
    { induction xs as [|x xs IH]; intros Hd Hs; cbn; constructor.
      - intro Hin. apply in_map_iff in Hin. destruct Hin as [y [E Hy]].
        apply artist_number_inj in E; [|apply Hs; right; assumption|apply Hs; left; reflexivity].
        subst. inversion Hd; contradiction.
      - inversion Hd; subst. apply IH; [assumption|]. intros. apply Hs. right. assumption. }
    apply G; [apply firsts_nodup|auto]. }
  split. { intros id a. rewrite (indexed_get_artist l d id a H2). split.
    - intros [E [Hin En]]. split; [|rewrite E; reflexivity].
      apply (Permutation_in _ (Permutation_sym P)). apply in_map_iff.
      exists (a_name a). split; [|assumption]. rewrite <- En. symmetry. exact E.
    - intros [Hin Eid]. apply (Permutation_in _ P) in Hin. apply in_map_iff in Hin.
      destruct Hin as [n [E Hn]]. subst. cbn. auto. }
  intros i s Hi. eexists _, _.
  rewrite (indexed_get_track l d _ H2).
  destruct (N.leb_spec 2 (N.of_nat i + 2)); [|lia].
  replace (N.to_nat (N.of_nat i + 2 - 2)) with i by lia. rewrite Hi. cbn [option_map].
  split; [reflexivity|]. cbn [t_artist_id expected_track].
  rewrite (indexed_get_artist l d _ (mkArtist (artist_number l (s_artist s)) (s_artist s)) H2).
  cbn [a_name]. split; [|reflexivity]. split; [reflexivity|]. split; [|reflexivity].
  apply firsts_in, in_map. eapply nth_error_In. eassumption.
Qed.
Print Assumptions C19_artists_deduplicated.

Example C19_case : exists d, db_new Checked reverse_order example_scan = Ok d /\
  artists reverse_order d = [mkArtist 3 (lit "Ace"); mkArtist 2 (lit "Bass")].
Proof. eexists. split; vm_compute; reflexivity. Qed.

(** ** C20 *)

(** The numbers and titles listed for an artist are, as a multiset, those of the
    scanned tracks with that artist's name; unknown artists have none. *)
Theorem C20_titles_of_artist : forall p h l, order_ok h -> len l < 2 ^ 32 - 1 ->
  exists d, db_new p h l = Ok d /\
  (forall id a, get_artist d id = Some a ->
     Permutation (map (fun t => (t_id t, t_title t)) (title_by_artist h d id))
                 (map (fun '(i, s) => (i, s_title s)) (tracks_named l (a_name a)))) /\
  (forall id, get_artist d id = None -> title_by_artist h d id = []).
Proof.
  intros p h l Ho Hl. destruct (db_new_indexed p h l Ho Hl) as [d [H1 H2]].
  exists d. split; [assumption|]. split.
  - intros id a Ha. apply (indexed_get_artist l d id a H2) in Ha. destruct Ha as [_ [Hin ->]].
    rewrite (Permutation_map _ (indexed_titles h l d (a_name a) Ho H2 Hin)).
    rewrite map_map. erewrite map_ext; [apply Permutation_refl|]. intros [i s]. reflexivity.
  - intros id Hn. eapply indexed_titles_unknown; eassumption.
Qed.
Print Assumptions C20_titles_of_artist.

(** Every track is listed under exactly one artist. *)
Theorem C20_exactly_one_artist : forall p h l, order_ok h -> len l < 2 ^ 32 - 1 ->
  exists d, db_new p h l = Ok d /\
  forall i s, nth_error l i = Some s ->
    exists id a, get_artist d id = Some a /\ a_name a = s_artist s /\
      forall id', In (N.of_nat i + 2) (map t_id (title_by_artist h d id')) <-> id' = id.
Proof.
  intros p h l Ho Hl. destruct (db_new_indexed p h l Ho Hl) as [d [H1 H2]].
  exists d. split; [assumption|]. intros i s Hi.
  assert (Hin : In (s_artist s) (artist_names l)).
  { apply firsts_in, in_map. eapply nth_error_In. eassumption. }
  set (id := artist_number l (s_artist s)).
  exists id, (mkArtist id (s_artist s)).
  assert (Ga : get_artist d id = Some (mkArtist id (s_artist s))).
  { apply (indexed_get_artist l d); [assumption|]. cbn [a_name]. auto. }
  split; [assumption|]. split; [reflexivity|]. intro id'.
  assert (Hlist : forall name, In name (artist_names l) ->
    (In (N.of_nat i + 2) (map t_id (title_by_artist h d (artist_number l name)))
     <-> s_artist s = name)).
  { intros name Hn.
    pose proof (Permutation_map t_id (indexed_titles h l d name Ho H2 Hn)) as P.
    rewrite map_map in P.
    split; intro H.
    - apply (Permutation_in _ P) in H. apply in_map_iff in H.
      destruct H as [[j x] [E H]]. cbn [t_id expected_track] in E. subst j.
      unfold tracks_named in H. apply filter_In in H. destruct H as [H E].
      apply numbered_in in H. destruct H as [_ [_ H]].
      replace (N.to_nat (N.of_nat i + 2 - 2)) with i in H by lia.
      assert (x = s) by congruence. subst x. apply bytes_eqb_spec in E. assumption.
    - apply (Permutation_in _ (Permutation_sym P)). apply in_map_iff.
      exists (N.of_nat i + 2, s). split; [reflexivity|]. unfold tracks_named.
      apply filter_In. split; [|apply bytes_eqb_spec; assumption].
      apply (numbered_nth _ _ 2) in Hi. rewrite N.add_comm. assumption. }
  destruct (get_artist d id') as [a'|] eqn:Ga'.
  - pose proof (proj1 (indexed_get_artist l d id' a' H2) Ga') as [E1 [Hin' Eid]].
    rewrite Eid, Hlist by assumption. unfold id. split.
    + intros <-. reflexivity.
    + intro E. apply artist_number_inj in E; auto.
  - rewrite (indexed_titles_unknown h l d id' Ho H2 Ga'). cbn [map In]. split; [tauto|].
    intro E. rewrite E in Ga'. congruence.
Qed.
Print Assumptions C20_exactly_one_artist.

Example C20_case : exists d, db_new Checked reverse_order example_scan = Ok d /\
  map t_title (title_by_artist reverse_order d 2) = [lit "Three"; lit "One"] /\
  map t_title (title_by_artist reverse_order d 3) = [lit "Two"] /\
  title_by_artist reverse_order d 9 = [].
Proof. eexists. split; [vm_compute; reflexivity|]. repeat split; vm_compute; reflexivity. Qed.

(** ** C21 *)

(** No reuse below the limit: ids are the pairwise different numbers of C18; the
    id of track [i] does not depend on what is indexed after it. *)
Theorem C21_ids_stable : forall p h l r, order_ok h -> len (l ++ r) < 2 ^ 32 - 1 ->
  exists d d', db_new p h l = Ok d /\ db_new p h (l ++ r) = Ok d' /\
  forall id, get_track d id <> None -> get_track d' id = get_track d id.
Proof.
  intros p h l r Ho Hl.
  destruct (db_new_indexed p h l Ho) as [d [H1 H2]]; [rewrite len_app in Hl; lia|].
  destruct (db_new_indexed p h (l ++ r) Ho Hl) as [d' [H3 H4]].
  exists d, d'. split; [assumption|]. split; [assumption|]. intros id Hid.
  rewrite (indexed_get_track l d id H2) in *. rewrite (indexed_get_track (l ++ r) d' id H4).
  destruct (N.leb_spec 2 id); [|congruence].
  destruct (nth_error l (N.to_nat (id - 2))) as [s|] eqn:E; [|cbn in Hid; congruence].
  rewrite nth_error_app1 by (apply nth_error_Some; congruence). rewrite E. cbn [option_map].
  unfold expected_track. do 2 f_equal. 
  assert (Hin : In (s_artist s) (map s_artist l)) by (apply in_map; eapply nth_error_In; eassumption).
  clear - Hin. induction r as [|x r IH] using rev_ind; [rewrite app_nil_r; reflexivity|].
  rewrite app_assoc, artist_number_snoc; [assumption|]. rewrite map_app, in_app_iff. tauto.
Qed.
Print Assumptions C21_ids_stable.

(** With overflow checks the track that would exceed the ids is a panic. *)
Theorem C21_exhausted_checked : forall h l s r, order_ok h -> len l = 2 ^ 32 - 2 ->
  db_new Checked h (l ++ s :: r) = Panic.
Proof. exact db_new_full_checked. Qed.
Print Assumptions C21_exhausted_checked.

(** Without them it gets the id 0 and changes nothing else. *)
Theorem C21_exhausted_wrapping : forall h l s, order_ok h -> len l = 2 ^ 32 - 2 ->
  exists d d' artist_id, db_new Wrapping h l = Ok d /\ db_new Wrapping h (l ++ [s]) = Ok d' /\
  forall id, get_track d' id =
    if id =? 0 then Some (mkTrack 0 artist_id (s_title s) (s_path s) (s_size s) (s_bpm s))
    else get_track d id.
Proof. exact db_new_full_wrapping. Qed.
Print Assumptions C21_exhausted_wrapping.

(** Two insertions later the first track is replaced. *)
Theorem C21_wrapping_overwrites_first : forall h l a b c, order_ok h -> len l = 2 ^ 32 - 2 ->
  exists d artist_id, db_new Wrapping h (l ++ [a; b; c]) = Ok d /\
  get_track d 2 = Some (mkTrack 2 artist_id (s_title c) (s_path c) (s_size c) (s_bpm c)).
Proof. exact db_new_overwrites. Qed.
Print Assumptions C21_wrapping_overwrites_first.

Example C21_case : exists l : list scanned, len l = 2 ^ 32 - 2.
Proof.
  exists (repeat (mkScanned [] [] None [] [] 0) (N.to_nat (2 ^ 32 - 2))).
  rewrite len_repeat. apply N2Nat.id.
Qed.
