(** Proofs about indexing (C18-C21). *)

From Verif Require Import Base Unicode MDatabase SDatabase LBase.
From Coq Require Import ZArith.
Open Scope N_scope.

(** ** Maps *)

Lemma hm_get_none : forall A k (m : table A),
  hm_get k m = None <-> ~ In k (map fst m).
Proof.
  induction m as [|[k' v] m IH]; cbn; [tauto|].
  destruct (N.eqb_spec k k'); [subst; split; [discriminate|tauto]|].
  rewrite IH. intuition congruence.
Qed.

Lemma hm_get_in : forall A k v (m : table A), hm_get k m = Some v -> In (k, v) m.
Proof.
  induction m as [|[k' v'] m IH]; cbn; [discriminate|].
  destruct (N.eqb_spec k k'); [intro E; inversion E; subst; tauto|tauto].
Qed.

Lemma in_hm_get : forall A k v (m : table A), NoDup (map fst m) -> In (k, v) m ->
  hm_get k m = Some v.
Proof.
  induction m as [|[k' v'] m IH]; cbn; [tauto|]. intros Hd [E|Hin].
  - inversion E; subst. now rewrite N.eqb_refl.
  - inversion Hd; subst. destruct (N.eqb_spec k k'); [|now apply IH].
    subst. exfalso. apply H1. apply (in_map fst) in Hin. exact Hin.
Qed.

Lemma hm_insert_fresh : forall A k v (m : table A), ~ In k (map fst m) ->
  hm_insert k v m = m ++ [(k, v)].
Proof.
  induction m as [|[k' v'] m IH]; cbn; [reflexivity|]. intro H.
  destruct (N.eqb_spec k k'); [subst; tauto|]. rewrite IH by tauto. reflexivity.
Qed.

Lemma hm_get_insert : forall A k k' v (m : table A),
  hm_get k (hm_insert k' v m) = if k =? k' then Some v else hm_get k m.
Proof.
  induction m as [|[k1 v1] m IH]; cbn; [reflexivity|].
  destruct (N.eqb_spec k' k1).
  - cbn. subst. destruct (k =? k1); reflexivity.
  - cbn. destruct (N.eqb_spec k k1).
    + subst. destruct (N.eqb_spec k1 k'); [congruence|reflexivity].
    + exact IH.
Qed.

(** ** Numbered lists *)

Lemma numbered_app : forall A (a b : list A) k,
  numbered k (a ++ b) = numbered k a ++ numbered (k + len a) b.
Proof.
  induction a as [|x a IH]; intros b k; cbn [app numbered].
  - rewrite len_nil, N.add_0_r. reflexivity.
  - rewrite IH, len_cons. do 3 f_equal. lia.
Qed.

Lemma numbered_len : forall A (l : list A) k, len (numbered k l) = len l.
Proof. induction l as [|x l IH]; intro k; cbn [numbered]; rewrite ?len_cons, ?IH; reflexivity. Qed.

Lemma numbered_in : forall A (l : list A) k i x, In (i, x) (numbered k l) ->
  k <= i /\ i < k + len l /\ nth_error l (N.to_nat (i - k)) = Some x.
Proof.
  induction l as [|y l IH]; intros k i x H; cbn [numbered In] in H; [tauto|].
  rewrite len_cons. destruct H as [E|H].
  - inversion E; subst. rewrite N.sub_diag. split; [lia|]. split; [lia|reflexivity].
  - apply IH in H. destruct H as [H1 [H2 H3]]. split; [lia|]. split; [lia|].
    replace (N.to_nat (i - k)) with (S (N.to_nat (i - (k + 1)))) by lia. exact H3.
Qed.

Lemma numbered_nth : forall A (l : list A) k n x, nth_error l n = Some x ->
  In (k + N.of_nat n, x) (numbered k l).
Proof.
  induction l as [|y l IH]; intros k n x H; [destruct n; discriminate|].
  destruct n as [|n]; cbn [numbered In].
  - left. inversion H; subst. f_equal. lia.
  - right. apply (IH (k + 1)) in H. replace (k + N.of_nat (S n)) with (k + 1 + N.of_nat n) by lia.
    exact H.
Qed.

Lemma numbered_fst_nodup : forall A (l : list A) k, NoDup (map fst (numbered k l)).
Proof.
  induction l as [|x l IH]; intro k; cbn [numbered map fst]; constructor; [|apply IH].
  intro H. apply in_map_iff in H. destruct H as [[i y] [E H]]. cbn [fst] in E. subst i.
  apply numbered_in in H. lia.
Qed.

Lemma numbered_map_snd : forall A (l : list A) k, map snd (numbered k l) = l.
Proof. induction l as [|x l IH]; intro k; cbn; [reflexivity|]. now rewrite IH. Qed.

Lemma map_fst_keyed : forall A B (f : N -> A -> B) (l : list (N * A)),
  map fst (map (fun '(i, s) => (i, f i s)) l) = map fst l.
Proof. induction l as [|[i s] l IH]; cbn; [reflexivity|]. now rewrite IH. Qed.

(** ** Distinct names *)

Lemma firsts_snoc : forall l x,
  firsts (l ++ [x]) =
  if in_dec (list_eq_dec N.eq_dec) x l then firsts l else firsts l ++ [x].
Proof.
  intros l x. unfold firsts. rewrite rev_app_distr. cbn [rev app nodup].
  destruct (in_dec (list_eq_dec N.eq_dec) x (rev l)) as [H|H]; destruct (in_dec (list_eq_dec N.eq_dec) x l) as [G|G];
    try reflexivity; exfalso.
  - apply G. now apply in_rev.
  - apply H. now apply -> in_rev.
Qed.

Lemma firsts_in : forall l x, In x (firsts l) <-> In x l.
Proof.
  intros l x. unfold firsts. rewrite <- in_rev, nodup_In, <- in_rev. reflexivity.
Qed.

Lemma firsts_nodup : forall l, NoDup (firsts l).
Proof.
  intros l. unfold firsts. apply NoDup_rev. apply NoDup_nodup.
Qed.

Lemma firsts_len : forall l, len (firsts l) <= len l.
Proof.
  induction l as [|x l IH] using rev_ind; [cbn; lia|].
  rewrite firsts_snoc. rewrite len_app, len_cons, len_nil.
  destruct (in_dec (list_eq_dec N.eq_dec) x l); [lia|]. rewrite len_app, len_cons, len_nil. lia.
Qed.

Lemma position_app : forall x a b, In x a -> position x (a ++ b) = position x a.
Proof.
  induction a as [|y a IH]; intros b H; [destruct H|]. cbn [app position].
  destruct (bytes_eqb x y) eqn:E; [reflexivity|].
  destruct H as [->|H]; [rewrite bytes_eqb_refl in E; discriminate|].
  rewrite IH by assumption. reflexivity.
Qed.

Lemma position_last : forall x a, ~ In x a -> position x (a ++ [x]) = len a.
Proof.
  induction a as [|y a IH]; intro H; cbn [app position].
  - rewrite bytes_eqb_refl. reflexivity.
  - destruct (bytes_eqb x y) eqn:E.
    + apply bytes_eqb_spec in E. subst. exfalso. apply H. left. reflexivity.
    + rewrite IH by (intro; apply H; right; assumption). rewrite len_cons. reflexivity.
Qed.

Lemma position_nth : forall x l, In x l -> nth_error l (N.to_nat (position x l)) = Some x.
Proof.
  induction l as [|y l IH]; intro H; [destruct H|]. cbn [position].
  destruct (bytes_eqb x y) eqn:E.
  - apply bytes_eqb_spec in E. subst. reflexivity.
  - destruct H as [->|H]; [rewrite bytes_eqb_refl in E; discriminate|].
    replace (N.to_nat (1 + position x l)) with (S (N.to_nat (position x l))) by lia.
    cbn. now apply IH.
Qed.

Lemma position_lt : forall x l, In x l -> position x l < len l.
Proof.
  intros x l H. apply position_nth in H.
  assert (N.to_nat (position x l) < length l)%nat by (apply nth_error_Some; congruence).
  unfold len. lia.
Qed.

Lemma position_of_nth : forall l i x, NoDup l -> nth_error l i = Some x ->
  position x l = N.of_nat i.
Proof.
  intros l i x Hd H.
  assert (Hin : In x l) by (eapply nth_error_In; eassumption).
  pose proof (position_nth x l Hin) as Hp.
  assert (E : N.to_nat (position x l) = i).
  { eapply NoDup_nth_error; try eassumption; [|congruence].
    apply nth_error_Some. congruence. }
  lia.
Qed.

(** ** Indexing *)

Definition indexed (l : list scanned) (d : database) : Prop :=
  d = mkDb (expected_artists l) (1 + len (artist_names l)) (expected_tracks l) (1 + len l).

Lemma artist_names_snoc : forall l s,
  artist_names (l ++ [s]) =
  if in_dec (list_eq_dec N.eq_dec) (s_artist s) (map s_artist l)
  then artist_names l else artist_names l ++ [s_artist s].
Proof. intros. unfold artist_names. rewrite map_app. cbn [map]. apply firsts_snoc. Qed.

Lemma artist_number_snoc : forall l s x, In x (map s_artist l) ->
  artist_number (l ++ [s]) x = artist_number l x.
Proof.
  intros l s x H. unfold artist_number. rewrite artist_names_snoc.
  destruct (in_dec (list_eq_dec N.eq_dec) _ _); [reflexivity|]. rewrite position_app; [reflexivity|].
  apply firsts_in. assumption.
Qed.

Lemma expected_tracks_snoc : forall l s,
  expected_tracks (l ++ [s]) =
  expected_tracks l ++ [(2 + len l, expected_track (l ++ [s]) (2 + len l) s)].
Proof.
  intros l s. unfold expected_tracks. rewrite numbered_app, map_app. f_equal.
  apply map_ext_in. intros [i x] H. f_equal. unfold expected_track.
  rewrite artist_number_snoc; [reflexivity|]. apply in_map.
  apply numbered_in in H. destruct H as [_ [_ H]]. eapply nth_error_In. eassumption.
Qed.

Lemma expected_artists_fst : forall l, map fst (expected_artists l) = map fst (numbered 2 (artist_names l)).
Proof. intros. apply map_fst_keyed. Qed.

Lemma expected_tracks_fst : forall l, map fst (expected_tracks l) = map fst (numbered 2 l).
Proof. intros. apply (map_fst_keyed _ _ (expected_track l)). Qed.

Lemma fresh_key : forall A (l : list A), ~ In (2 + len l) (map fst (numbered 2 l)).
Proof.
  intros A l H. apply in_map_iff in H. destruct H as [[i x] [E H]]. cbn [fst] in E. subst i.
  apply numbered_in in H. lia.
Qed.

Lemma expected_artists_in : forall l i a, In (i, a) (expected_artists l) ->
  a = mkArtist i (a_name a) /\ In (i, a_name a) (numbered 2 (artist_names l)).
Proof.
  intros l i a H. unfold expected_artists in H. apply in_map_iff in H.
  destruct H as [[j n] [E H]]. inversion E; subst. cbn. auto.
Qed.

Lemma expected_artists_number : forall l i a, In (i, a) (expected_artists l) ->
  i = artist_number l (a_name a) /\ In (a_name a) (artist_names l).
Proof.
  intros l i a H. apply expected_artists_in in H. destruct H as [_ H].
  apply numbered_in in H. destruct H as [H1 [H2 H3]].
  split; [|eapply nth_error_In; eassumption].
  unfold artist_number. erewrite position_of_nth; [|apply firsts_nodup|eassumption]. lia.
Qed.

Lemma expected_artists_has : forall l n, In n (artist_names l) ->
  In (artist_number l n, mkArtist (artist_number l n) n) (expected_artists l).
Proof.
  intros l n H. unfold expected_artists. apply in_map_iff.
  exists (artist_number l n, n). split; [reflexivity|].
  unfold artist_number. apply position_nth in H.
  apply (numbered_nth _ _ 2) in H. rewrite N2Nat.id in H. exact H.
Qed.

Lemma find_artist : forall (h : hash_order) l n, order_ok h ->
  match find (fun e => bytes_eqb n (a_name (snd e))) (ord_artists h (expected_artists l)) with
  | Some (id, _) => In n (artist_names l) /\ id = artist_number l n
  | None => ~ In n (artist_names l)
  end.
Proof.
  intros h l n [Ho _].
  destruct (find _ _) as [[id a]|] eqn:E.
  - apply find_some in E. destruct E as [Hin E]. cbn in E. apply bytes_eqb_spec in E. subst n.
    assert (Hin' : In (id, a) (expected_artists l)).
    { eapply Permutation_in; [apply Ho|exact Hin]. }
    apply expected_artists_number in Hin'. tauto.
  - intro Hin. apply expected_artists_has in Hin.
    assert (Hin' : In (artist_number l n, mkArtist (artist_number l n) n)
                     (ord_artists h (expected_artists l))).
    { eapply Permutation_in; [apply Permutation_sym, Ho|exact Hin]. }
    apply (find_none _ _ E) in Hin'. cbn in Hin'. rewrite bytes_eqb_refl in Hin'. discriminate.
Qed.

Lemma u32_add_ok : forall p a b, a + b < 4294967296 -> u32_add p a b = Ok (a + b).
Proof. intros. unfold u32_add, u32_max1. destruct (N.ltb_spec (a + b) 4294967296); [reflexivity|lia]. Qed.

Lemma artist_insert_indexed : forall p h l s d, order_ok h -> indexed l d ->
  len (artist_names l) < 4294967294 ->
  artist_insert p h (s_artist s) d =
  Ok (artist_number (l ++ [s]) (s_artist s),
      mkDb (expected_artists (l ++ [s])) (1 + len (artist_names (l ++ [s])))
           (track_rows d) (track_seq d)).
Proof.
  intros p h l s d Ho -> Hlen. unfold artist_insert. cbn [artist_rows artist_seq track_rows track_seq].
  pose proof (find_artist h l (s_artist s) Ho) as Hf.
  assert (Hin_iff : In (s_artist s) (artist_names l) <-> In (s_artist s) (map s_artist l))
    by apply firsts_in.
  destruct (find _ _) as [[id a]|].
  - destruct Hf as [Hin ->].
    rewrite artist_number_snoc by tauto. unfold expected_artists. rewrite artist_names_snoc.
    destruct (in_dec (list_eq_dec N.eq_dec) _ _); [reflexivity|tauto].
  - unfold sequence_increment. rewrite u32_add_ok by lia. cbn [rbind].
    assert (En : artist_names (l ++ [s]) = artist_names l ++ [s_artist s]).
    { rewrite artist_names_snoc. destruct (in_dec (list_eq_dec N.eq_dec) _ _); [tauto|reflexivity]. }
    assert (Enum : artist_number (l ++ [s]) (s_artist s) = 1 + len (artist_names l) + 1).
    { unfold artist_number. rewrite En, position_last by assumption. lia. }
    rewrite Enum, En, hm_insert_fresh.
    2:{ rewrite expected_artists_fst.
        replace (1 + len (artist_names l) + 1) with (2 + len (artist_names l)) by lia.
        apply fresh_key. }
    unfold expected_artists. rewrite En, numbered_app, map_app. cbn [numbered map].
    rewrite len_app. replace (2 + len (artist_names l)) with (1 + len (artist_names l) + 1) by lia.
    replace (1 + len (artist_names l) + 1) with (1 + (len (artist_names l) + 1)) by lia.
    reflexivity.
Qed.

Lemma track_insert_indexed : forall p l s aid ar aseq,
  len l < 4294967294 ->
  aid = artist_number (l ++ [s]) (s_artist s) ->
  track_insert p aid s (mkDb ar aseq (expected_tracks l) (1 + len l)) =
  Ok (mkDb ar aseq (expected_tracks (l ++ [s])) (1 + len (l ++ [s]))).
Proof.
  intros p l s aid ar aseq Hlen ->. unfold track_insert. cbn [track_seq track_rows artist_rows artist_seq].
  unfold sequence_increment. rewrite u32_add_ok by lia. cbn [rbind].
  rewrite expected_tracks_snoc, len_app.
  replace (1 + len l + 1) with (2 + len l) by lia.
  rewrite hm_insert_fresh by (rewrite expected_tracks_fst; apply fresh_key).
  change (len [s]) with 1. do 2 f_equal. lia.
Qed.

Lemma db_index_all_app : forall p h a b d,
  db_index_all p h d (a ++ b) = (do d' <- db_index_all p h d a; db_index_all p h d' b).
Proof.
  intros p h a b. induction a as [|x a IH]; intro d; cbn [app db_index_all]; [reflexivity|].
  destruct (db_index p h d x); cbn [rbind]; [apply IH|reflexivity|reflexivity].
Qed.

Lemma db_index_indexed : forall p h l s d, order_ok h -> indexed l d -> len l < 4294967294 ->
  exists d', db_index p h d s = Ok d' /\ indexed (l ++ [s]) d'.
Proof.
  intros p h l s d Ho Hd Hl. unfold db_index.
  rewrite (artist_insert_indexed p h l s d Ho Hd).
  2:{ pose proof (firsts_len (map s_artist l)). rewrite len_map in H.
      unfold artist_names. lia. }
  cbn [rbind]. rewrite Hd. cbn [track_rows track_seq].
  rewrite track_insert_indexed by (assumption || reflexivity).
  eexists. split; reflexivity.
Qed.

Lemma db_new_indexed : forall p h l, order_ok h -> len l < 4294967295 ->
  exists d, db_new p h l = Ok d /\ indexed l d.
Proof.
  intros p h l Ho. unfold db_new.
  induction l as [|s l IH] using rev_ind; intro Hl.
  - exists db_empty. split; reflexivity.
  - rewrite len_app, len_cons, len_nil in Hl. destruct IH as [d [H1 H2]]; [lia|].
    rewrite db_index_all_app, H1. cbn [rbind db_index_all].
    destruct (db_index_indexed p h l s d Ho H2) as [d' [H3 H4]]; [lia|].
    rewrite H3. cbn [rbind]. eauto.
Qed.

(** ** Consequences *)

Lemma indexed_get_track : forall l d i, indexed l d ->
  get_track d i =
  if (2 <=? i) then option_map (expected_track l i) (nth_error l (N.to_nat (i - 2))) else None.
Proof.
  intros l d i ->. unfold get_track. cbn [track_rows].
  destruct (hm_get i (expected_tracks l)) as [t|] eqn:E.
  - apply hm_get_in in E. unfold expected_tracks in E. apply in_map_iff in E.
    destruct E as [[j s] [E H]]. inversion E; subst. apply numbered_in in H.
    destruct H as [H1 [_ H2]]. destruct (N.leb_spec 2 i); [|lia]. rewrite H2. reflexivity.
  - apply hm_get_none in E. rewrite expected_tracks_fst in E.
    destruct (N.leb_spec 2 i); [|reflexivity].
    destruct (nth_error l (N.to_nat (i - 2))) as [s|] eqn:G; [|reflexivity].
    exfalso. apply E. apply (numbered_nth _ _ 2) in G.
    apply (in_map fst) in G. cbn [fst] in G. replace (2 + N.of_nat (N.to_nat (i - 2))) with i in G by lia.
    exact G.
Qed.

Lemma indexed_get_artist : forall l d i a, indexed l d ->
  (get_artist d i = Some a <->
   a = mkArtist i (a_name a) /\ In (a_name a) (artist_names l) /\ i = artist_number l (a_name a)).
Proof.
  intros l d i a ->. unfold get_artist. cbn [artist_rows]. split.
  - intro H. apply hm_get_in in H. pose proof (expected_artists_in _ _ _ H).
    apply expected_artists_number in H. tauto.
  - intros [H1 [H2 H3]]. rewrite H1. apply in_hm_get.
    + rewrite expected_artists_fst. apply numbered_fst_nodup.
    + rewrite H3. apply expected_artists_has. assumption.
Qed.

Lemma indexed_artists : forall h l d, order_ok h -> indexed l d ->
  Permutation (artists h d) (map (fun n => mkArtist (artist_number l n) n) (artist_names l)).
Proof.
  intros h l d [Ho _] ->. unfold artists. cbn [artist_rows].
  rewrite (Permutation_map snd (Ho (expected_artists l))).
  unfold expected_artists. rewrite map_map.
  rewrite (map_ext_in (fun x => snd (let '(i, n) := x in (i, mkArtist i n)))
            (fun x => mkArtist (artist_number l (snd x)) (snd x))).
  - rewrite <- (numbered_map_snd _ (artist_names l) 2) at 2. rewrite map_map. apply Permutation_refl.
  - intros [i n] H. cbn [snd]. f_equal.
    apply numbered_in in H. destruct H as [H1 [_ H2]]. unfold artist_number.
    erewrite position_of_nth; [|apply firsts_nodup|eassumption]. lia.
Qed.

Lemma filter_perm : forall A (f : A -> bool) a b, Permutation a b -> Permutation (filter f a) (filter f b).
Proof.
  intros A f a b H. induction H; cbn.
  - constructor.
  - destruct (f x); [constructor|]; assumption.
  - destruct (f x), (f y); try apply Permutation_refl. apply perm_swap.
  - eapply Permutation_trans; eassumption.
Qed.

Lemma filter_map : forall A B (g : A -> B) f (l : list A),
  filter f (map g l) = map g (filter (fun x => f (g x)) l).
Proof. induction l as [|x l IH]; cbn; [reflexivity|]. destruct (f (g x)); cbn; now rewrite IH. Qed.

Lemma artist_number_inj : forall l n m, In n (artist_names l) -> In m (artist_names l) ->
  artist_number l n = artist_number l m -> n = m.
Proof.
  intros l n m Hn Hm E. apply position_nth in Hn. apply position_nth in Hm.
  unfold artist_number in E. assert (E' : position n (artist_names l) = position m (artist_names l)) by lia.
  congruence.
Qed.

Lemma indexed_titles : forall h l d name, order_ok h -> indexed l d ->
  In name (artist_names l) ->
  Permutation (title_by_artist h d (artist_number l name))
              (map (fun '(i, s) => expected_track l i s) (tracks_named l name)).
Proof.
  intros h l d name [_ Ho] -> Hin. unfold title_by_artist. cbn [track_rows].
  rewrite (filter_perm _ _ _ _ (Permutation_map snd (Ho (expected_tracks l)))).
  unfold expected_tracks, tracks_named. rewrite map_map, filter_map.
  rewrite (filter_ext_in _ (fun '(_, s) => bytes_eqb (s_artist s) name)).
  - erewrite map_ext; [apply Permutation_refl|]. intros [i s]. reflexivity.
  - intros [i s] H. cbn. apply numbered_in in H. destruct H as [_ [_ H]].
    assert (Hs : In (s_artist s) (artist_names l)).
    { apply firsts_in. apply in_map. eapply nth_error_In. eassumption. }
    destruct (bytes_eqb (s_artist s) name) eqn:E.
    + apply bytes_eqb_spec in E. subst. apply N.eqb_refl.
    + apply N.eqb_neq. intro Q. apply artist_number_inj in Q; try assumption.
      subst. rewrite bytes_eqb_refl in E. discriminate.
Qed.

Lemma indexed_titles_unknown : forall h l d id, order_ok h -> indexed l d ->
  get_artist d id = None -> title_by_artist h d id = [].
Proof.
  intros h l d id [_ Ho] Hd Hn.
  assert (P : Permutation (title_by_artist h d id)
     (filter (fun t => t_artist_id t =? id) (map snd (expected_tracks l)))).
  { rewrite Hd. apply filter_perm, Permutation_map, Ho. }
  assert (E : filter (fun t => t_artist_id t =? id) (map snd (expected_tracks l)) = []).
  { destruct (filter _ _) as [|t r] eqn:E; [reflexivity|]. exfalso.
    assert (Hin : In t (filter (fun t => t_artist_id t =? id) (map snd (expected_tracks l))))
      by (rewrite E; left; reflexivity).
    apply filter_In in Hin. destruct Hin as [Hin Eid]. apply N.eqb_eq in Eid.
    apply in_map_iff in Hin. destruct Hin as [[i t'] [Et Hin]]. cbn in Et. subst t'.
    unfold expected_tracks in Hin. apply in_map_iff in Hin. destruct Hin as [[j s] [Et Hin]].
    inversion Et; subst. cbn [t_artist_id expected_track] in *. apply numbered_in in Hin. destruct Hin as [_ [_ Hin]].
    assert (Hs : In (s_artist s) (artist_names l)).
    { apply firsts_in. apply in_map. eapply nth_error_In. eassumption. }
    assert (G : get_artist d (artist_number l (s_artist s))
       = Some (mkArtist (artist_number l (s_artist s)) (s_artist s))).
    { apply (indexed_get_artist l); [assumption|]. cbn. auto. }
    congruence. }
  rewrite E in P. apply Permutation_sym, Permutation_nil in P. exact P.
Qed.

(** ** Exhaustion *)

Lemma artist_insert_tracks : forall p h n d aid d',
  artist_insert p h n d = Ok (aid, d') -> track_rows d' = track_rows d /\ track_seq d' = track_seq d.
Proof.
  intros p h n d aid d' H. unfold artist_insert in H.
  destruct (find _ _) as [[id a]|]; [inversion H; subst; auto|].
  apply rbind_ok in H. destruct H as [id [_ H]]. inversion H; subst. auto.
Qed.

Lemma artist_insert_not_err : forall p h n d, artist_insert p h n d <> Err.
Proof.
  intros p h n d. unfold artist_insert. destruct (find _ _) as [[id a]|]; [discriminate|].
  unfold sequence_increment, u32_add. destruct (_ <? _); [discriminate|].
  destruct p; discriminate.
Qed.

Lemma db_index_checked_full : forall h d s, track_seq d = 4294967295 ->
  db_index Checked h d s = Panic.
Proof.
  intros h d s Hs. unfold db_index.
  destruct (artist_insert Checked h (s_artist s) d) as [[aid d']| |] eqn:E; cbn [rbind].
  - apply artist_insert_tracks in E. destruct E as [_ E].
    unfold track_insert, sequence_increment. rewrite E, Hs. reflexivity.
  - exfalso. eapply artist_insert_not_err. eassumption.
  - reflexivity.
Qed.

Lemma db_index_wrapping : forall h d s, track_seq d < 4294967296 ->
  exists d' aid, db_index Wrapping h d s = Ok d' /\
  track_seq d' = (track_seq d + 1) mod 4294967296 /\
  forall i, get_track d' i =
    if i =? track_seq d'
    then Some (mkTrack i aid (s_title s) (s_path s) (s_size s) (s_bpm s))
    else get_track d i.
Proof.
  intros h d s Hs. unfold db_index.
  destruct (artist_insert Wrapping h (s_artist s) d) as [[aid d']| |] eqn:E; cbn [rbind].
  - apply artist_insert_tracks in E. destruct E as [E1 E2].
    unfold track_insert, sequence_increment.
    assert (A : u32_add Wrapping (track_seq d') 1 = Ok ((track_seq d + 1) mod 4294967296)).
    { rewrite E2. unfold u32_add, u32_max1, as_u32.
      destruct (N.ltb_spec (track_seq d + 1) 4294967296); [|reflexivity].
      rewrite N.mod_small by assumption. reflexivity. }
    rewrite A. cbn [rbind]. eexists _, aid. split; [reflexivity|]. split; [reflexivity|].
    intro i. unfold get_track. cbn [track_rows track_seq]. rewrite hm_get_insert, E1.
    destruct (N.eqb_spec i ((track_seq d + 1) mod 4294967296)); [subst|]; reflexivity.
  - exfalso. eapply artist_insert_not_err. eassumption.
  - exfalso. unfold artist_insert in E. destruct (find _ _) as [[id a]|]; [discriminate|].
    unfold sequence_increment, u32_add in E. destruct (_ <? _); discriminate.
Qed.

Lemma db_new_full_checked : forall h l s r, order_ok h -> len l = 4294967294 ->
  db_new Checked h (l ++ s :: r) = Panic.
Proof.
  intros h l s r Ho Hl. unfold db_new. rewrite db_index_all_app.
  destruct (db_new_indexed Checked h l Ho) as [d [H1 H2]]; [rewrite Hl; lia|].
  unfold db_new in H1. rewrite H1. cbn [rbind db_index_all].
  rewrite db_index_checked_full; [reflexivity|]. rewrite H2. cbn [track_seq]. rewrite Hl. lia.
Qed.

Lemma db_new_full_wrapping : forall h l s, order_ok h -> len l = 4294967294 ->
  exists d d' aid, db_new Wrapping h l = Ok d /\ db_new Wrapping h (l ++ [s]) = Ok d' /\
  forall i, get_track d' i =
    if i =? 0 then Some (mkTrack 0 aid (s_title s) (s_path s) (s_size s) (s_bpm s))
    else get_track d i.
Proof.
  intros h l s Ho Hl. 
  destruct (db_new_indexed Wrapping h l Ho) as [d [H1 H2]]; [rewrite Hl; lia|].
  assert (Hseq : track_seq d = 4294967295) by (rewrite H2; cbn [track_seq]; rewrite Hl; lia).
  destruct (db_index_wrapping h d s) as (d' & aid & E1 & E2 & E3); [lia|].
  exists d, d', aid. split; [assumption|]. split.
  - unfold db_new in *. rewrite db_index_all_app, H1. cbn [rbind db_index_all].
    rewrite E1. reflexivity.
  - rewrite Hseq in E2. change ((4294967295 + 1) mod 4294967296) with 0 in E2.
    rewrite E2 in E3. intro i. rewrite E3. destruct (N.eqb_spec i 0); [subst|]; reflexivity.
Qed.

Lemma db_new_overwrites : forall h l a b c, order_ok h -> len l = 4294967294 ->
  exists d aid, db_new Wrapping h (l ++ [a; b; c]) = Ok d /\
  get_track d 2 = Some (mkTrack 2 aid (s_title c) (s_path c) (s_size c) (s_bpm c)).
Proof.
  intros h l a b c Ho Hl.
  destruct (db_new_indexed Wrapping h l Ho) as [d [H1 H2]]; [rewrite Hl; lia|].
  assert (Hseq : track_seq d = 4294967295) by (rewrite H2; cbn [track_seq]; rewrite Hl; lia).
  destruct (db_index_wrapping h d a) as (da & aida & A1 & A2 & A3); [lia|].
  rewrite Hseq in A2. change ((4294967295 + 1) mod 4294967296) with 0 in A2.
  destruct (db_index_wrapping h da b) as (db & aidb & B1 & B2 & B3); [lia|].
  rewrite A2 in B2. change ((0 + 1) mod 4294967296) with 1 in B2.
  destruct (db_index_wrapping h db c) as (dc & aidc & C1 & C2 & C3); [lia|].
  rewrite B2 in C2. change ((1 + 1) mod 4294967296) with 2 in C2.
  exists dc, aidc. split.
  - unfold db_new in *. rewrite db_index_all_app, H1. cbn [rbind db_index_all].
    rewrite A1. cbn [rbind]. rewrite B1. cbn [rbind]. rewrite C1. reflexivity.
  - rewrite C3, C2. reflexivity.
Qed.
