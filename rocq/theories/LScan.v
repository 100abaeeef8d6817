(** Lemmas about paths and the scan. *)

From Verif Require Import Base Unicode MPath MDatabase MScan SScan LBase LUnicode.
From Coq Require Import ZArith String.
Open Scope list_scope.
Open Scope N_scope.

Lemma bytes_eqb_iff : forall a b, bytes_eqb a b = true <-> a = b.
Proof.
  induction a as [|x a IH]; intros [|y b]; cbn; try (split; intro H; congruence || discriminate H).
  rewrite Bool.andb_true_iff, N.eqb_eq, IH. split; [intros [-> ->]; reflexivity|].
  intros H. inversion H. auto.
Qed.
Lemma bytes_eqb_false : forall a b, bytes_eqb a b = false <-> a <> b.
Proof. intros a b. rewrite <- bytes_eqb_iff. destruct (bytes_eqb a b); split; congruence. Qed.

(** ** Paths *)

Lemma path_split_app : forall p n cur, ~ In slash n -> 
  exists l, path_split cur (p ++ [slash] ++ n) = l ++ [n].
Proof.
  intros p n cur Hn. revert cur. induction p as [|b p IH]; intros cur.
  - cbn [app path_split]. rewrite N.eqb_refl. exists [rev cur].
    cbn [app]. f_equal.
    assert (G : forall m c, ~ In slash m -> path_split c m = [rev c ++ m]).
    { induction m as [|b m IHm]; intros c Hm; cbn [path_split]; [rewrite app_nil_r; reflexivity|].
      destruct (b =? slash) eqn:E; [apply N.eqb_eq in E; exfalso; apply Hm; left; auto|].
      rewrite IHm by (intro; apply Hm; right; assumption). cbn [rev]. rewrite <- app_assoc. reflexivity. }
    rewrite G by assumption. reflexivity.
  - cbn [app path_split]. destruct (b =? slash).
    + destruct (IH []) as [l E]. exists (rev cur :: l). cbn [app] in *. rewrite E. reflexivity.
    + apply IH.
Qed.
Lemma path_split_name : forall n, ~ In slash n -> path_split [] n = [n].
Proof.
  intros n.
  assert (G : forall m c, ~ In slash m -> path_split c m = [rev c ++ m]).
  { induction m as [|b m IHm]; intros c Hm; cbn [path_split]; [rewrite app_nil_r; reflexivity|].
    destruct (b =? slash) eqn:E; [apply N.eqb_eq in E; exfalso; apply Hm; left; auto|].
    rewrite IHm by (intro; apply Hm; right; assumption). cbn [rev]. rewrite <- app_assoc. reflexivity. }
  intros H. rewrite G by assumption. reflexivity.
Qed.

Lemma file_name_split : forall p l n, name_ok n -> path_split [] p = l ++ [n] -> path_file_name p = Some n.
Proof.
  intros p l n (N1 & N2 & N3 & N4) E. unfold path_file_name, path_names. rewrite E, filter_app.
  cbn [filter]. assert (B : bytes_eqb n [] || bytes_eqb n [dot] = false).
  { apply Bool.orb_false_iff. split; apply bytes_eqb_false; assumption. }
  rewrite B. cbn [negb]. rewrite rev_app_distr. cbn [rev app].
  assert (D : bytes_eqb n [dot; dot] = false) by (apply bytes_eqb_false; assumption).
  rewrite D. reflexivity.
Qed.

(** [r] is the name at the end of the path [p]. *)
Definition ends_in (p n : bytes) : Prop := p = n \/ exists q, p = q ++ [slash] ++ n.

Lemma file_name_ends : forall p n, name_ok n -> ends_in p n -> path_file_name p = Some n.
Proof.
  intros p n Hn [->|(q & ->)].
  - apply (file_name_split n [] n Hn). apply path_split_name. apply Hn.
  - destruct (path_split_app q n [] (proj1 (proj2 Hn))) as [l E]. exact (file_name_split _ l n Hn E).
Qed.

Lemma rev_last_name : forall p n, name_ok n -> ends_in p n -> exists x r, rev p = x :: r /\ x <> slash.
Proof.
  intros p n (N1 & N2 & _) E.
  destruct (rev n) as [|x r] eqn:R.
  { exfalso. apply N1. rewrite <- (rev_involutive n), R. reflexivity. }
  assert (X : x <> slash).
  { intros ->. apply N2. apply in_rev. rewrite R. left. reflexivity. }
  destruct E as [->|(q & ->)].
  - rewrite R. eauto.
  - rewrite !rev_app_distr, R. cbn [app rev]. eauto.
Qed.

Lemma push_below : forall p n m, name_ok n -> ends_in p n -> name_ok m ->
  path_push p m = p ++ [slash] ++ m /\ ends_in (path_push p m) m.
Proof.
  intros p n m Hn E Hm.
  assert (X : path_push p m = p ++ [slash] ++ m).
  { unfold path_push. destruct m as [|b m]; [destruct Hm as [Hm _]; congruence|].
    destruct (b =? slash) eqn:B.
    { apply N.eqb_eq in B. destruct Hm as (_ & Hm & _). exfalso. apply Hm. left. auto. }
    destruct (rev_last_name p n Hn E) as (x & r & R & S). rewrite R.
    apply N.eqb_neq in S. rewrite S. reflexivity. }
  split; [exact X|]. rewrite X. right. eauto.
Qed.

Lemma rsplit_dot_spec : forall r acc, ~ In dot acc ->
  match rsplit_dot acc r with
  | Some (before, after) => rev r ++ acc = before ++ [dot] ++ after /\ ~ In dot after
  | None => ~ In dot (rev r ++ acc)
  end.
Proof.
  induction r as [|b r IH]; intros acc H; cbn [rsplit_dot]; [exact H|].
  destruct (b =? dot) eqn:E.
  - apply N.eqb_eq in E. subst b. cbn [rev]. rewrite <- app_assoc. auto.
  - apply N.eqb_neq in E. cbn [rev]. rewrite <- app_assoc. apply IH. intros [X|X]; [congruence|contradiction].
Qed.

Lemma last_dot_unique : forall a b c d, ~ In dot b -> ~ In dot d ->
  a ++ [dot] ++ b = c ++ [dot] ++ d -> a = c /\ b = d.
Proof.
  induction a as [|x a IH]; intros b [|y c] d Hb Hd E; cbn [app] in E.
  - injection E as ->. auto.
  - injection E as <- E. exfalso. apply Hb. rewrite E. apply in_or_app. right. left. reflexivity.
  - injection E as -> E. exfalso. apply Hd. rewrite <- E. apply in_or_app. right. left. reflexivity.
  - injection E as -> E. destruct (IH b c d Hb Hd E) as [-> ->]. auto.
Qed.

Lemma mp3_no_dot : ~ In dot (lit "mp3").
Proof. cbn. intros [H|[H|[H|[]]]]; discriminate. Qed.

Lemma extension_mp3 : forall d n, name_ok n -> ends_in (de_path d) n ->
  (has_mp3_extension d = true <-> mp3_name n).
Proof.
  intros d n Hn E. unfold has_mp3_extension, path_extension. rewrite (file_name_ends _ n Hn E).
  pose proof (rsplit_dot_spec (rev n) [] (fun H => H)) as R. rewrite rev_involutive, app_nil_r in R.
  unfold mp3_name. change (lit ".mp3") with ([dot] ++ lit "mp3").
  destruct (rsplit_dot [] (rev n)) as [[before after]|].
  - destruct R as [R D]. destruct before as [|b before].
    + split; [discriminate|]. intros (stem & Hs & X). rewrite R in X.
      destruct (last_dot_unique [] after stem (lit "mp3") D mp3_no_dot X) as [<- _]. congruence.
    + rewrite bytes_eqb_iff. split.
      * intros ->. exists (b :: before). split; [discriminate|exact R].
      * intros (stem & Hs & X). rewrite R in X.
        apply (last_dot_unique (b :: before) after stem (lit "mp3") D mp3_no_dot X).
  - split; [discriminate|]. intros (stem & _ & X). exfalso. apply R. rewrite X.
    apply in_or_app. right. left. reflexivity.
Qed.

Lemma hidden_dotted : forall d n, name_ok n -> ends_in (de_path d) n ->
  (is_hidden d = true <-> dotted n).
Proof.
  intros d n Hn E. unfold is_hidden, de_file_name. rewrite (file_name_ends _ n Hn E).
  unfold dotted. destruct (utf8_decode n) as [s|] eqn:U.
  - destruct (utf8_decode_some _ _ U) as [S2 S1]. destruct s as [|c s].
    + split; [discriminate|]. intros (t & _ & X). cbn in S2. rewrite <- S2 in X. discriminate.
    + rewrite N.eqb_eq. split.
      * intros ->. exists s. inversion S1. split; [assumption|]. symmetry. exact S2.
      * intros (t & T & X). assert (Y : c :: s = dot :: t).
        { apply utf8_encode_inj; [assumption|constructor; [reflexivity|assumption]|].
          rewrite S2. exact X. }
        congruence.
  - split; [discriminate|]. intros (t & T & X). 
    assert (Y : utf8_decode n = Some (lit "." ++ t)).
    { rewrite X. apply utf8_decode_encode. constructor; [reflexivity|assumption]. }
    congruence.
Qed.

(** ** The walk *)

Definition wanted (rname : bytes) (x : list bytes * file_info) : Prop :=
  (forall n, In n (rname :: fst x) -> ~ dotted n) /\ mp3_name (last (fst x) rname).

Section NodeInd.
  Variable P : node -> Prop.
  Hypothesis Hfile : forall f, P (NFile f).
  Hypothesis Hdir : forall es, (forall n t, In (n, t) es -> P t) -> P (NDir (Some es)).
  Hypothesis Hun : P (NDir None).
  Hypothesis Hother : P NOther.
  Hypothesis Hbad : P NBad.
  Fixpoint node_ind' (n : node) : P n :=
    match n with
    | NFile f => Hfile f
    | NDir None => Hun
    | NDir (Some es) => Hdir es
        ((fix go (l : list (bytes * node)) : forall n t, In (n, t) l -> P t :=
            match l with
            | [] => fun n t H => match H with end
            | (m, u) :: r => fun n t H =>
                match H with
                | or_introl E => match E in (_ = y) return P (snd y) with eq_refl => node_ind' u end
                | or_intror H' => go r n t H'
                end
            end) es)
    | NOther => Hother
    | NBad => Hbad
    end.
End NodeInd.

Lemma those_app : forall A (P : A -> Prop) a b a' b', those P a a' -> those P b b' -> those P (a ++ b) (a' ++ b').
Proof. intros A P a b a' b' H. induction H; intros; cbn [app]; try assumption; constructor; auto. Qed.

Lemma those_map : forall A B (f : A -> B) (P : A -> Prop) (Q : B -> Prop), (forall a, P a <-> Q (f a)) ->
  forall l r, those P l r -> those Q (map f l) (map f r).
Proof.
  intros A B f P Q H l r T. induction T; cbn [map]; constructor; try assumption; try apply H; auto.
  intros X. apply H in X. contradiction.
Qed.

Lemma those_none : forall A (P : A -> Prop) l, (forall a, In a l -> ~ P a) -> those P l [].
Proof. intros A P l H. induction l; constructor; [apply H; left; reflexivity|]. apply IHl. intros b Hb. apply H. right. assumption. Qed.

Lemma those_functional : forall A (P : A -> Prop) l r, those P l r -> forall r', those P l r' -> r = r'.
Proof.
  intros A P l r H. induction H; intros r' H'; inversion H'; subst; try contradiction; auto.
  f_equal. auto.
Qed.

Lemma those_in : forall A (P : A -> Prop) l r, those P l r -> forall a, In a r <-> In a l /\ P a.
Proof.
  intros A P l r H. induction H; intros x; cbn [In]; [tauto| |]; rewrite IHthose; split; intros X.
  - destruct X as [<-|X]; tauto.
  - tauto.
  - tauto.
  - destruct X as [[<-|X] Y]; tauto.
Qed.

(** The files of the walk, before any condition on the extension. *)
Definition found (path : bytes) (n : node) : list dent := mp3_files path n.

Lemma flat_map_flat_map : forall A B C (f : A -> list B) (g : B -> list C) l,
  flat_map g (flat_map f l) = flat_map (fun a => flat_map g (f a)) l.
Proof. intros. induction l; cbn [flat_map]; [reflexivity|]. rewrite flat_map_app, IHl. reflexivity. Qed.

Lemma filter_flat_map : forall A B (f : A -> list B) (p : B -> bool) l,
  filter p (flat_map f l) = flat_map (fun a => filter p (f a)) l.
Proof. intros. induction l; cbn [flat_map]; [reflexivity|]. rewrite filter_app, IHl. reflexivity. Qed.

Lemma mp3_files_dir : forall path es, is_hidden (mkDent path KDir) = false ->
  mp3_files path (NDir (Some es)) = flat_map (fun e => mp3_files (path_push path (fst e)) (snd e)) es.
Proof.
  intros path es H. unfold mp3_files. cbn [walk]. rewrite H. cbn [flat_map app filter is_regular_file de_kind].
  rewrite flat_map_flat_map, !filter_flat_map. reflexivity.
Qed.

Lemma last_cons : forall A (l : list A) a d, last (a :: l) d = last l a.
Proof.
  intros A l. induction l as [|b l IH]; intros a d; [reflexivity|].
  change (last (a :: b :: l) d) with (last (b :: l) d). rewrite IH, <- (IH b a). reflexivity.
Qed.

Lemma below_app : forall root a b, below root (a ++ b) = below (below root a) b.
Proof. intros. unfold below. rewrite flat_map_app, app_assoc. reflexivity. Qed.

Lemma name_ok_dec_dotted : forall n, dotted n \/ ~ dotted n.
Proof.
  intros n. unfold dotted. destruct (utf8_decode n) as [s|] eqn:U.
  - destruct (utf8_decode_some _ _ U) as [S2 S1]. destruct s as [|c s].
    + right. intros (t & _ & X). cbn in S2. rewrite <- S2 in X. discriminate.
    + destruct (N.eq_dec c dot) as [->|Hc].
      * left. exists s. inversion S1. auto.
      * right. intros (t & T & X). assert (Y : c :: s = dot :: t).
        { apply utf8_encode_inj; [assumption|constructor; [reflexivity|assumption]|]. rewrite S2. exact X. }
        congruence.
  - right. intros (t & T & X). assert (Y : utf8_decode n = Some (lit "." ++ t)).
    { rewrite X. apply utf8_decode_encode. constructor; [reflexivity|assumption]. }
    congruence.
Qed.

Lemma mp3_files_found : forall n path nm, tree_ok n -> name_ok nm -> ends_in path nm ->
  exists files, those (wanted nm) (all_files n) files /\
    mp3_files path n = map (fun x => mkDent (below path (fst x)) (KFile (snd x))) files.
Proof.
  induction n as [f|es IH| | |] using node_ind'; intros path nm Ht Hn He.
  - destruct (name_ok_dec_dotted nm) as [D|D].
    + exists []. split.
      * apply those_none. intros a [<-|[]] [W _]. apply (W nm); [left; reflexivity|assumption].
      * unfold mp3_files. cbn [walk].
        assert (H : is_hidden (mkDent path (KFile f)) = true) by (apply (hidden_dotted _ nm); assumption).
        rewrite H. reflexivity.
    + assert (H : is_hidden (mkDent path (KFile f)) = false).
      { apply Bool.not_true_is_false. intros H. apply (hidden_dotted _ nm) in H; try assumption. contradiction. }
      unfold mp3_files. cbn [walk]. rewrite H. cbn [flat_map app filter is_regular_file de_kind].
      pose proof (extension_mp3 (mkDent path (KFile f)) nm Hn He) as X.
      assert (V : forall m, In m [nm] -> ~ dotted m) by (intros m [<-|[]]; assumption).
      destruct (has_mp3_extension (mkDent path (KFile f))).
      * exists [([], f)]. split.
        -- apply those_yes; [|constructor]. split; [exact V|]. apply X. reflexivity.
        -- cbn [map fst snd]. unfold below. cbn [flat_map]. rewrite app_nil_r. reflexivity.
      * exists []. split; [|reflexivity]. apply those_no; [|constructor]. intros [_ W]. apply X in W. discriminate.
  - inversion Ht as [|es' Hes| | |]. subst es'.
    destruct (name_ok_dec_dotted nm) as [D|D].
    + exists []. split.
      * apply those_none. intros a _ [W _]. apply (W nm); [left; reflexivity|assumption].
      * unfold mp3_files. cbn [walk].
        assert (H : is_hidden (mkDent path KDir) = true) by (apply (hidden_dotted _ nm); assumption).
        rewrite H. reflexivity.
    + assert (H : is_hidden (mkDent path KDir) = false).
      { apply Bool.not_true_is_false. intros H. apply (hidden_dotted _ nm) in H; try assumption. contradiction. }
      rewrite mp3_files_dir by assumption. cbn [all_files]. clear Ht H.
      induction es as [|[m t] es IHes].
      * exists []. split; [constructor|reflexivity].
      * destruct IHes as (fs1 & T1 & E1).
        { intros k u Hk. apply (IH k u). right. assumption. }
        { intros k u Hk. apply (Hes k u). right. assumption. }
        destruct (Hes m t (or_introl eq_refl)) as [Hm Htt].
        destruct (push_below path nm m Hn He Hm) as [P1 P2].
        destruct (IH m t (or_introl eq_refl) (path_push path m) m Htt Hm P2) as (fs2 & T2 & E2).
        exists (map (fun x => (m :: fst x, snd x)) fs2 ++ fs1). split.
        -- cbn [flat_map fst snd]. apply those_app; [|assumption].
           eapply those_map; [|exact T2]. intros [names f]. unfold wanted. cbn [fst snd].
           rewrite last_cons. split; intros [W1 W2]; (split; [|assumption]).
           ++ intros k [<-|Hk]; [assumption|]. apply W1. assumption.
           ++ intros k Hk. apply W1. right. assumption.
        -- cbn [flat_map fst snd]. rewrite E1, E2, map_app, map_map. f_equal.
           apply map_ext. intros [names f]. cbn [fst snd]. f_equal.
           unfold below. cbn [flat_map]. rewrite P1, <- !app_assoc. reflexivity.
  - exists []. split; [constructor|]. unfold mp3_files. cbn [walk]. destruct (is_hidden _); reflexivity.
  - exists []. split; [constructor|]. unfold mp3_files. cbn [walk]. destruct (is_hidden _); reflexivity.
  - exists []. split; [constructor|]. reflexivity.
Qed.

(** ** The entries of a folder, whatever the folder itself is called *)

(** A file below a folder of which no name below the folder is hidden. *)
Definition wanted_below (x : list bytes * file_info) : Prop :=
  fst x <> [] /\ (forall n, In n (fst x) -> ~ dotted n) /\ mp3_name (last (fst x) []).

Lemma entries_found : forall es path base, tree_ok (NDir (Some es)) ->
  (forall n, name_ok n -> path_push path n = base ++ [slash] ++ n) ->
  exists files, those wanted_below (all_files (NDir (Some es))) files /\
    flat_map (fun e => mp3_files (path_push path (fst e)) (snd e)) es
    = map (fun x => mkDent (below base (fst x)) (KFile (snd x))) files.
Proof.
  intros es path base Ht HP. inversion Ht as [|es' Hes| | |]. subst es'. clear Ht. cbn [all_files].
  induction es as [|[m t] es IH].
  - exists []. split; [constructor|reflexivity].
  - destruct IH as (fs1 & T1 & E1); [intros k u Hk; apply (Hes k u); right; assumption|].
    destruct (Hes m t (or_introl eq_refl)) as [Hm Htt]. pose proof (HP m Hm) as P1.
    destruct (mp3_files_found t (path_push path m) m Htt Hm) as (fs2 & T2 & E2).
    { right. exists base. exact P1. }
    exists (map (fun x => (m :: fst x, snd x)) fs2 ++ fs1). split.
    + cbn [flat_map fst snd]. apply those_app; [|assumption].
      eapply those_map; [|exact T2]. intros [names f]. unfold wanted, wanted_below. cbn [fst snd].
      rewrite last_cons. split.
      * intros [W1 W2]. split; [discriminate|]. split; assumption.
      * intros (_ & W1 & W2). split; assumption.
    + cbn [flat_map fst snd]. rewrite E1, E2, map_app, map_map. f_equal.
      apply map_ext. intros [names f]. cbn [fst snd]. f_equal.
      unfold below. cbn [flat_map]. rewrite P1, <- !app_assoc. reflexivity.
Qed.

Lemma mp3_files_link_found : forall target path nm, tree_ok target -> name_ok nm -> ends_in path nm ->
  exists files, those wanted_below (all_files target) files /\
    mp3_files_link path target = map (fun x => mkDent (below path (fst x)) (KFile (snd x))) files.
Proof.
  intros target path nm Ht Hn He. unfold mp3_files_link. destruct target as [f|[es|]| |]; cbn [walk_link].
  - exists []. split; [|destruct (is_hidden _); reflexivity].
    apply those_no; [intros (W & _); apply W; reflexivity|constructor].
  - destruct (entries_found es path path Ht) as (files & T & E).
    { intros n H. apply (push_below path nm n Hn He H). }
    exists files. split; [exact T|]. rewrite <- E.
    rewrite flat_map_app, !filter_app.
    assert (X : filter has_mp3_extension (filter is_regular_file
      (flat_map (fun o : option dent => match o with Some d => [d] | None => [] end)
        (if is_hidden (mkDent path KOther) then [] else [Some (mkDent path KOther)]))) = [])
      by (destruct (is_hidden _); reflexivity).
    rewrite X. cbn [app]. rewrite flat_map_flat_map, !filter_flat_map. reflexivity.
  - exists []. split; [constructor|]. destruct (is_hidden _); reflexivity.
  - exists []. split; [constructor|]. destruct (is_hidden _); reflexivity.
  - exists []. split; [constructor|reflexivity].
Qed.

(** A path with a separator behind it. *)
Lemma path_split_slash : forall p cur, path_split cur (p ++ [slash]) = path_split cur p ++ [[]].
Proof.
  induction p as [|b p IH]; intros cur; cbn [app path_split]; [rewrite N.eqb_refl; reflexivity|].
  destruct (b =? slash); rewrite IH; reflexivity.
Qed.
Lemma file_name_slash : forall p, path_file_name (p ++ [slash]) = path_file_name p.
Proof.
  intros p. unfold path_file_name, path_names. rewrite path_split_slash, filter_app. cbn [filter].
  rewrite app_nil_r. reflexivity.
Qed.
Lemma mp3_files_slash : forall es path nm, name_ok nm -> ends_in path nm ->
  tree_ok (NDir (Some es)) ->
  mp3_files (path ++ [slash]) (NDir (Some es)) = mp3_files path (NDir (Some es)).
Proof.
  intros es path nm Hn He Ht.
  assert (H : is_hidden (mkDent (path ++ [slash]) KDir) = is_hidden (mkDent path KDir)).
  { unfold is_hidden, de_file_name. cbn [de_path]. rewrite file_name_slash, (file_name_ends path nm Hn He). reflexivity. }
  destruct (is_hidden (mkDent path KDir)) eqn:E.
  - unfold mp3_files. cbn [walk]. rewrite H, E. reflexivity.
  - rewrite !mp3_files_dir by assumption. inversion Ht as [|es' Hes| | |]. subst es'.
    assert (G : forall e, In e es -> path_push (path ++ [slash]) (fst e) = path_push path (fst e)).
    { intros [m t] I. destruct (Hes m t I) as [Hm _]. cbn [fst].
      rewrite (proj1 (push_below path nm m Hn He Hm)). unfold path_push.
      destruct m as [|b m]; [destruct Hm as [Hm _]; congruence|].
      destruct (b =? slash) eqn:B.
      { apply N.eqb_eq in B. destruct Hm as (_ & Hm & _). exfalso. apply Hm. left. auto. }
      rewrite rev_app_distr. cbn [rev app]. rewrite N.eqb_refl, <- app_assoc. reflexivity. }
    clear Ht Hes. induction es as [|e es IH]; [reflexivity|]. cbn [flat_map].
    rewrite (G e (or_introl eq_refl)), IH; [reflexivity|]. intros x Hx. apply G. right. assumption.
Qed.

(** ** Numbers *)

Lemma parse_digits_spec : forall s acc, acc < 2 ^ 32 ->
  match parse_digits acc s with
  | Some v => all_digits s /\ v = acc * 10 ^ len s + digits_value s /\ v < 2 ^ 32
  | None => ~ all_digits s \/ 2 ^ 32 <= acc * 10 ^ len s + digits_value s
  end.
Proof.
  induction s as [|c s IH]; intros acc Ha; cbn [parse_digits].
  - split; [intros c []|]. split; [cbn; lia|assumption].
  - destruct ((48 <=? c) && (c <=? 57)) eqn:D.
    2: { left. intros A. specialize (A c (or_introl eq_refl)). lia. }
    assert (Dc : 48 <= c <= 57) by lia. clear D.
    assert (P : 10 ^ len (c :: s) = 10 * 10 ^ len s).
    { rewrite len_cons. replace (1 + len s) with (N.succ (len s)) by lia. apply N.pow_succ_r'. }
    assert (Q : 1 <= 10 ^ len s) by (pose proof (N.pow_nonzero 10 (len s)); lia).
    cbn [digits_value]. rewrite P. unfold u32_max1.
    assert (R : acc * (10 * 10 ^ len s) + ((c - 48) * 10 ^ len s + digits_value s)
                = (acc * 10 + (c - 48)) * 10 ^ len s + digits_value s) by ring.
    rewrite R. clear R.
    destruct (acc * 10 <? 4294967296) eqn:E1.
    + destruct (acc * 10 + (c - 48) <? 4294967296) eqn:E2.
      * specialize (IH (acc * 10 + (c - 48))). destruct (parse_digits (acc * 10 + (c - 48)) s).
        -- destruct IH as (I1 & I2 & I3); [apply N.ltb_lt in E2; exact E2|].
           split; [|auto]. intros x [<-|Hx]; [assumption|apply I1; assumption].
        -- destruct IH as [I|I]; [apply N.ltb_lt in E2; exact E2| |right; exact I].
           left. intros A. apply I. intros x Hx. apply A. right. assumption.
      * right. apply N.ltb_ge in E2. change (2 ^ 32) with 4294967296. nia.
    + right. apply N.ltb_ge in E1. change (2 ^ 32) with 4294967296. nia.
Qed.

Lemma utf8_char_high : forall c, c < 128 \/ exists b r, utf8_char c = b :: r /\ 128 <= b /\ 128 <= c.
Proof.
  intros c. unfold utf8_char. destruct (N.ltb_spec c 128) as [H|H]; [left; assumption|right].
  destruct (c <? 2048); [|destruct (c <? 65536)]; do 2 eexists; (split; [reflexivity|split; [lia|assumption]]).
Qed.
Lemma utf8_char_low : forall c, c < 128 -> utf8_char c = [c].
Proof. intros c H. unfold utf8_char. apply N.ltb_lt in H. rewrite H. reflexivity. Qed.

(** Bytes and characters are equally digits. *)
Lemma parse_digits_utf8 : forall s acc, parse_digits acc (utf8_encode s) = parse_digits acc s.
Proof.
  induction s as [|c s IH]; intros acc; [reflexivity|].
  unfold utf8_encode in *. cbn [flat_map].
  destruct (utf8_char_high c) as [H|(b & r & E & H1 & H2)].
  - rewrite utf8_char_low by assumption. cbn [app parse_digits]. rewrite IH. reflexivity.
  - rewrite E. cbn [app parse_digits].
    assert (X : (48 <=? b) && (b <=? 57) = false) by (apply Bool.andb_false_iff; right; apply N.leb_gt; lia).
    assert (Y : (48 <=? c) && (c <=? 57) = false) by (apply Bool.andb_false_iff; right; apply N.leb_gt; lia).
    rewrite X, Y. reflexivity.
Qed.

Lemma parse_u32_bytes_high : forall b r, 128 <= b -> parse_u32_bytes (b :: r) = None.
Proof.
  intros b r H.
  assert (E : parse_u32_bytes (b :: r) = parse_digits 0 (b :: r)).
  { destruct b as [|q]; [lia|]. do 6 (destruct q as [q|q|]; try reflexivity). lia. }
  rewrite E. cbn [parse_digits].
  assert (X : (48 <=? b) && (b <=? 57) = false) by (apply Bool.andb_false_iff; right; apply N.leb_gt; lia).
  rewrite X. reflexivity.
Qed.

Lemma parse_u32_utf8 : forall s, parse_u32 s = parse_u32_bytes s.
Proof.
  intros [|c s]; [reflexivity|]. unfold parse_u32.
  destruct (utf8_char_high c) as [H|(b & r & E & H1 & H2)].
  - assert (E : utf8_encode (c :: s) = c :: utf8_encode s)
      by (unfold utf8_encode; cbn [flat_map]; rewrite utf8_char_low by assumption; reflexivity).
    rewrite E. destruct (N.eq_dec c 43) as [->|Hc].
    + destruct s as [|d s]; [reflexivity|].
      assert (Z : exists x y, utf8_encode (d :: s) = x :: y).
      { unfold utf8_encode. cbn [flat_map]. destruct (utf8_char_high d) as [Hd|(b & r & Ed & _)].
        - rewrite utf8_char_low by assumption. cbn [app]. eauto.
        - rewrite Ed. cbn [app]. eauto. }
      destruct Z as (x & y & Z). rewrite Z. cbn [parse_u32_bytes].
      rewrite <- Z. apply parse_digits_utf8.
    + assert (G : forall r, parse_u32_bytes (c :: r) = parse_digits 0 (c :: r)).
      { intros r. destruct c as [|q]; [reflexivity|]. do 6 (destruct q as [q|q|]; try reflexivity). exfalso. apply Hc. reflexivity. }
      rewrite !G, <- E. apply parse_digits_utf8.
  - assert (X : utf8_encode (c :: s) = b :: (r ++ utf8_encode s))
      by (unfold utf8_encode; cbn [flat_map]; rewrite E; reflexivity).
    rewrite X, !parse_u32_bytes_high by assumption. reflexivity.
Qed.

Lemma parse_u32_spec : forall s v, parse_u32 s = Some v <-> number_text s v.
Proof.
  intros s v. rewrite parse_u32_utf8.
  assert (G : forall d, d <> [] -> (parse_digits 0 d = Some v <-> all_digits d /\ v = digits_value d /\ v < 2 ^ 32)).
  { intros d Hd. pose proof (parse_digits_spec d 0) as P. destruct (parse_digits 0 d) as [x|].
    - destruct P as (P1 & P2 & P3); [reflexivity|]. split.
      + intros E. injection E as <-. split; [assumption|]. split; [lia|assumption].
      + intros (_ & -> & _). f_equal. lia.
    - split; [discriminate|]. intros (A & -> & B). destruct P as [P|P]; [reflexivity|contradiction|lia]. }
  unfold parse_u32_bytes, number_text. destruct s as [|c s].
  { split; [discriminate|]. intros (ds & D1 & _ & [D|D] & _); [congruence|discriminate]. }
  destruct (N.eq_dec c 43) as [->|Hc].
  - destruct s as [|d s].
    + split; [discriminate|]. intros (ds & D1 & A & [D|D] & _).
      * subst ds. specialize (A 43 (or_introl eq_refl)). lia.
      * cbn in D. injection D as D. congruence.
    + assert (E : match 43 :: d :: s with [] => None | 43 :: [] => None | 43 :: r => parse_digits 0 r | _ => parse_digits 0 (43 :: d :: s) end
              = parse_digits 0 (d :: s)) by reflexivity.
      rewrite G by discriminate. split.
      * intros (A & B & C). exists (d :: s). split; [discriminate|]. split; [assumption|]. split; [right; reflexivity|auto].
      * intros (ds & D1 & A & [D|D] & B).
        -- subst ds. specialize (A 43 (or_introl eq_refl)). lia.
        -- cbn in D. injection D as ->. auto.
  - assert (E : match c :: s with [] => None | 43 :: [] => None | 43 :: r => parse_digits 0 r | _ => parse_digits 0 (c :: s) end
              = parse_digits 0 (c :: s)).
    { destruct c as [|p]; [reflexivity|].
      do 6 (destruct p as [p|p|]; try reflexivity). exfalso. apply Hc. reflexivity. }
    cbn beta iota in E. etransitivity; [rewrite E; reflexivity|]. rewrite G by discriminate. split.
    + intros (A & B & C). exists (c :: s). split; [discriminate|]. split; [assumption|]. split; [left; reflexivity|auto].
    + intros (ds & D1 & A & [D|D] & B).
      * subst ds. auto.
      * cbn in D. injection D as D _. congruence.
Qed.

Lemma number_text_functional : forall s v w, number_text s v -> number_text s w -> v = w.
Proof. intros s v w A B. apply parse_u32_spec in A, B. congruence. Qed.

(** ** Extraction *)

Lemma extract_bpm_spec : forall p f t, fi_v2 f = Some t ->
  (exists x v, tempo_text f x /\ number_text x v /\
     ((100 * v < 2 ^ 32 \/ p = Wrapping) /\ extract_bpm p t = Ok (Some (100 * v mod 2 ^ 32)) \/
      (2 ^ 32 <= 100 * v /\ p = Checked /\ extract_bpm p t = Panic))) \/
  ((forall x v, tempo_text f x -> ~ number_text x v) /\ extract_bpm p t = Ok None).
Proof.
  intros p f t Ef. unfold extract_bpm.
  assert (U : forall x, tempo_text f x <-> v2_tbpm t = Some (Text x)).
  { intros x. unfold tempo_text. split; [intros (t' & A & B); congruence|eauto]. }
  destruct (v2_tbpm t) as [[s|]|] eqn:Et.
  - destruct (parse_u32 s) as [v|] eqn:Ep.
    + left. exists s, v. split; [apply U; reflexivity|]. split; [apply parse_u32_spec; assumption|].
      unfold u32_mul, u32_max1, as_u32, u32_max1. change (2 ^ 32) with 4294967296. rewrite (N.mul_comm v 100).
      destruct (100 * v <? 4294967296) eqn:L.
      * left. apply N.ltb_lt in L. split; [auto|]. cbn [rbind]. rewrite N.mod_small by assumption. reflexivity.
      * apply N.ltb_ge in L. destruct p; [right; auto|left; auto].
    + right. split; [|reflexivity]. intros x v Hx Hv. apply U in Hx. injection Hx as <-.
      apply parse_u32_spec in Hv. congruence.
  - right. split; [|reflexivity]. intros x v Hx. apply U in Hx. discriminate.
  - right. split; [|reflexivity]. intros x v Hx. apply U in Hx. discriminate.
Qed.

Lemma extractor_spec : forall p path f,
  (p = Checked /\ tempo_too_large f /\ metadata_extractor p path f = Panic) \/
  ((p = Checked -> ~ tempo_too_large f) /\
   exists o, metadata_extractor p path f = Ok o /\
     match o with
     | Some s => recorded f path s /\ forall s', recorded f path s' -> s' = s
     | None => forall s, ~ recorded f path s
     end).
Proof.
  intros p path f. unfold metadata_extractor. destruct (fi_v2 f) as [t|] eqn:E2.
  - destruct (extract_bpm_spec p f t E2) as [(x & v & Hx & Hv & C)|[Hno ->]].
    + destruct C as [[Hfit ->]|(Hbig & -> & ->)].
      2: { left. split; [reflexivity|]. split; [|reflexivity]. exists x, v. auto. }
      right. split.
      { intros -> (x' & v' & Hx' & Hv' & L). assert (x' = x).
        { destruct Hx as (t1 & A & B), Hx' as (t2 & A' & B'). congruence. }
        subst x'. rewrite (number_text_functional x v' v Hv' Hv) in L.
        destruct Hfit; [lia|discriminate]. }
      cbn [rbind]. eexists. split; [reflexivity|].
      destruct (fi_size f) as [size|] eqn:Es.
      2: { intros s (size & A & _). congruence. }
      assert (R : recorded f path (mkScanned (or_empty (v2_artist t)) (or_empty (v2_title t))
                    (Some (100 * v mod 2 ^ 32)) (or_empty (v2_album t)) path (as_u32 size))).
      { exists size. cbn [s_size s_path s_artist s_title s_album s_bpm]. repeat (split; [first [assumption|reflexivity]|]).
        left. exists t. repeat (split; [first [assumption|reflexivity]|]). left. exists x, v. auto. }
      split; [exact R|]. intros s' R'. destruct R as (z & Z1 & Z2 & Z3 & Z4), R' as (z' & Z1' & Z2' & Z3' & Z4').
      destruct s' as [a' ti' b' al' pa' si']. cbn [s_size s_path s_artist s_title s_album s_bpm] in *.
      destruct Z4' as [(t' & T1 & T2 & T3 & T4 & T5)|(t' & T1 & _)]; [|congruence].
      assert (t' = t) by congruence. subst t'.
      assert (b' = Some (100 * v mod 2 ^ 32)).
      { destruct T5 as [(x' & v' & H1 & H2 & H3)|[H1 _]].
        - assert (x' = x) by (destruct Hx as (t1 & A & B), H1 as (t2 & A' & B'); congruence).
          subst x'. rewrite (number_text_functional x v' v H2 Hv) in H3. assumption.
        - exfalso. exact (H1 x v Hx Hv). }
      subst. f_equal. assert (z' = size) by congruence. subst. reflexivity.
    + right. split.
      { intros _ (x & v & Hx & Hv & _). exact (Hno x v Hx Hv). }
      cbn [rbind]. eexists. split; [reflexivity|].
      destruct (fi_size f) as [size|] eqn:Es.
      2: { intros s (size & A & _). congruence. }
      split.
      { exists size. cbn [s_size s_path s_artist s_title s_album s_bpm]. repeat (split; [first [assumption|reflexivity]|]).
        left. exists t. repeat (split; [first [assumption|reflexivity]|]). right. auto. }
      intros s' (z' & Z1' & Z2' & Z3' & Z4').
      destruct s' as [a' ti' b' al' pa' si']. cbn [s_size s_path s_artist s_title s_album s_bpm] in *.
      destruct Z4' as [(t' & T1 & T2 & T3 & T4 & T5)|(t' & T1 & _)]; [|congruence].
      assert (t' = t) by congruence. subst t'.
      assert (b' = None).
      { destruct T5 as [(x' & v' & H1 & H2 & H3)|[H1 H2]]; [|assumption]. exfalso. exact (Hno x' v' H1 H2). }
      assert (z' = size) by congruence. subst. reflexivity.
  - right. split.
    { intros _ (x & v & (t & A & _) & _). congruence. }
    destruct (fi_opens f) eqn:Eo.
    + destruct (fi_v1 f) as [t|] eqn:E1.
      * eexists. split; [reflexivity|]. destruct (fi_size f) as [size|] eqn:Es.
        2: { intros s (size & A & _). congruence. }
        split.
        { exists size. cbn [s_size s_path s_artist s_title s_album s_bpm]. repeat (split; [first [assumption|reflexivity]|]).
          right. exists t. auto 10. }
        intros s' (z' & Z1' & Z2' & Z3' & Z4').
        destruct s' as [a' ti' b' al' pa' si']. cbn [s_size s_path s_artist s_title s_album s_bpm] in *.
        destruct Z4' as [(t' & T1 & _)|(t' & _ & _ & T1 & T2 & T3 & T4 & T5)]; [congruence|].
        assert (t' = t) by congruence. assert (z' = size) by congruence. subst. reflexivity.
      * eexists. split; [reflexivity|]. intros s (z & _ & _ & _ & [(t & A & _)|(t & _ & _ & A & _)]); congruence.
    + eexists. split; [reflexivity|]. intros s (z & _ & _ & _ & [(t & A & _)|(t & _ & A & _)]); congruence.
Qed.

Lemma extract_all_spec : forall p root files,
  let ds := map (fun x => mkDent (below root (fst x)) (KFile (snd x))) files in
  (p = Checked /\ (exists x, In x files /\ tempo_too_large (snd x)) /\ extract_all p ds = Panic) \/
  ((p = Checked -> forall x, In x files -> ~ tempo_too_large (snd x)) /\
   exists l, extract_all p ds = Ok l /\ records root files l).
Proof.
  intros p root files. induction files as [|[names f] files IH]; cbv zeta in *; cbn [map extract_all de_kind de_path fst snd].
  - right. split; [intros _ x []|]. exists []. split; [reflexivity|constructor].
  - destruct (extractor_spec p (below root names) f) as [(Ep & T & ->)|(T & o & -> & O)].
    + left. split; [assumption|]. split; [|reflexivity]. exists (names, f). split; [left; reflexivity|assumption].
    + cbn [rbind]. destruct IH as [(Ep & (x & Hx & Tx) & ->)|(Tx & l & -> & R)].
      * left. split; [assumption|]. split; [|reflexivity]. exists x. split; [right; assumption|assumption].
      * right. split.
        { intros Ep x [<-|Hx]; [apply T; assumption|apply Tx; assumption]. }
        cbn [rbind]. eexists. split; [reflexivity|]. destruct o as [s|].
        -- apply rec_take; [apply O|assumption].
        -- apply rec_skip; assumption.
Qed.

Lemma recorded_functional : forall f path s s', recorded f path s -> recorded f path s' -> s = s'.
Proof.
  intros f path s s' A B. destruct (extractor_spec Wrapping path f) as [(X & _)|(_ & o & _ & O)]; [discriminate|].
  destruct o as [x|]; [|exfalso; exact (O s A)]. destruct O as [_ O]. rewrite (O s A), (O s' B). reflexivity.
Qed.

Lemma records_functional : forall root files l, records root files l -> forall l', records root files l' -> l = l'.
Proof.
  intros root files l H. induction H as [|names f s fs r R H IH|names f fs r R H IH]; intros l' H'; inversion H'; subst; auto.
  - f_equal; [eapply recorded_functional; eassumption|auto].
  - exfalso. match goal with N : forall s, ~ recorded f _ s |- _ => exact (N _ R) end.
  - exfalso. match goal with N : recorded f _ ?s |- _ => exact (R _ N) end.
Qed.
