(** Property theorems C98, continued: what clients can learn of the music folder. *)

From Verif Require Import Base Unicode MPath MDb MDatabase MScan MLib SDb SDatabase SLib SConn SScan SEnd
  SUdp MRpc SRpc MNetwork MRpcServer SRpcServer MNfs SNfs SLoad MPackets MServer MStatus MSystem SSystem SSession
  MMain SMain SLearn SFolders
  LBase LUnicode LScan LDatabase LEnd LNfs LLoad LSystem LSession PDatabase PLib PScan PNfs PEnd PRpcServer PSystem PLoad
  PSession PMain PLearn.
From Coq Require Import ZArith Arith Lia String.
Open Scope list_scope.
Open Scope N_scope.

(** ** Listings *)

Lemma listing_unique : forall pre fs l l', listing pre fs l -> listing pre fs l' -> l = l'.
Proof.
  intros pre fs l l' H. revert l'. induction H as [|names f s fs r S H IH|names f fs r N H IH]; intros l' H'.
  - inversion H'. reflexivity.
  - inversion H' as [|? ? s' ? r' S' G|? ? ? ? N' G]; subst.
    + f_equal; [|exact (IH _ G)]. destruct S as (_ & _ & R), S' as (_ & _ & R'). exact (recorded_functional _ _ _ _ R R').
    + elim (N' _ S).
  - inversion H' as [|? ? s' ? r' S' G|? ? ? ? N' G]; subst; [elim (N _ S')|exact (IH _ G)].
Qed.
Lemma listing_app : forall pre a b l, listing pre (a ++ b) l <->
  exists l1 l2, l = l1 ++ l2 /\ listing pre a l1 /\ listing pre b l2.
Proof.
  intros pre a b. induction a as [|[names f] a IH]; intros l; cbn [app].
  - split; [intros H; exists [], l; repeat split; [constructor|exact H]|]. intros (l1 & l2 & -> & H & G). inversion H; subst. exact G.
  - split.
    + intros H. inversion H as [|? ? s ? r S G|? ? ? ? N G]; subst; apply IH in G; destruct G as (l1 & l2 & -> & G1 & G2).
      * exists (s :: l1), l2. repeat split; [apply li_shown; assumption|exact G2].
      * exists l1, l2. repeat split; [apply li_other; assumption|exact G2].
    + intros (l1 & l2 & -> & H & G). inversion H as [|? ? s ? r S K|? ? ? ? N K]; subst.
      * cbn [app]. apply li_shown; [exact S|]. apply IH. exists r, l2. auto.
      * apply li_other; [exact N|]. apply IH. exists l1, l2. auto.
Qed.
Lemma listing_into : forall pre n fs l,
  listing pre (map (fun x => (n :: fst x, snd x)) fs) l <-> listing (pre ++ [n]) fs l.
Proof.
  intros pre n fs. induction fs as [|[names f] fs IH]; intros l; cbn [map fst snd].
  - split; intros H; inversion H; constructor.
  - assert (E : pre ++ n :: names = (pre ++ [n]) ++ names) by (rewrite <- app_assoc; reflexivity).
    split; intros H; inversion H as [|? ? s ? r S G|? ? ? ? N G]; subst.
    + apply li_shown; [rewrite <- E; exact S|apply IH; exact G].
    + apply li_other; [rewrite <- E; exact N|apply IH; exact G].
    + apply li_shown; [rewrite E; exact S|apply IH; exact G].
    + apply li_other; [rewrite E; exact N|apply IH; exact G].
Qed.

Lemma last_behind : forall (pre : list bytes) n names d, last (pre ++ n :: names) d = last (n :: names) d.
Proof.
  intros pre n names d. induction pre as [|m pre IH]; [reflexivity|].
  change ((m :: pre) ++ n :: names) with (m :: (pre ++ n :: names)). rewrite <- IH.
  destruct (pre ++ n :: names) eqn:E; [destruct pre; discriminate E|reflexivity].
Qed.
Lemma unseen_listing : forall pre n t, unseen n t -> listing (pre ++ [n]) (all_files t) [].
Proof.
  intros pre n t U. assert (G : forall fs, incl fs (all_files t) -> listing (pre ++ [n]) fs []).
  { intros fs. induction fs as [|[names f] fs IH]; intros I; [constructor|]. apply li_other.
    - rewrite <- app_assoc. cbn [app]. intros s (V & M & R). destruct (U names f (I _ (or_introl eq_refl))) as [(m & Im & D)|[N|[N _]]].
      + apply (V m); [apply in_or_app; right; exact Im|exact D].
      + apply N. rewrite last_behind in M. exact M.
      + exact (N _ _ R).
    - apply IH. intros x Hx. apply I. right. exact Hx. }
  apply G. intros x Hx. exact Hx.
Qed.

Lemma dir_files : forall es1 n t es2, all_files (NDir (Some (es1 ++ (n, t) :: es2))) =
  all_files (NDir (Some es1)) ++ map (fun x => (n :: fst x, snd x)) (all_files t) ++ all_files (NDir (Some es2)).
Proof. intros. cbn [all_files]. rewrite flat_map_app. reflexivity. Qed.
Lemma dir_files0 : forall es1 es2, all_files (NDir (Some (es1 ++ es2))) =
  all_files (NDir (Some es1)) ++ all_files (NDir (Some es2)).
Proof. intros. cbn [all_files]. apply flat_map_app. Qed.

Lemma alike_listing : forall t t', seen_alike t t' -> forall pre l, listing pre (all_files t) l <-> listing pre (all_files t') l.
Proof.
  intros t t' H. induction H as [t|t t' _ IH|t t' t'' _ IH1 _ IH2|es1 es2 n t t' _ IH|es1 es2 n t U]; intros pre l.
  - reflexivity.
  - symmetry. apply IH.
  - rewrite IH1. apply IH2.
  - rewrite !dir_files. split; intros L; apply listing_app in L; destruct L as (l1 & l2 & -> & L1 & L2);
      apply listing_app in L2; destruct L2 as (l3 & l4 & -> & L3 & L4); apply listing_into in L3; apply IH in L3;
      apply listing_app; exists l1, (l3 ++ l4); repeat split; try assumption; apply listing_app; exists l3, l4;
      repeat split; try assumption; apply listing_into; exact L3.
  - rewrite dir_files, dir_files0. split; intros L; apply listing_app in L; destruct L as (l1 & l2 & -> & L1 & L2).
    + apply listing_app. exists l1, l2. repeat split; [exact L1|]. apply listing_app. exists [], l2. repeat split; [|exact L2].
      apply listing_into. apply unseen_listing. exact U.
    + apply listing_app in L2. destruct L2 as (l3 & l4 & -> & L3 & L4). apply listing_into in L3.
      rewrite <- (listing_unique _ _ _ _ (unseen_listing pre n t U) L3) . cbn [app].
      apply listing_app. exists l1, l4. auto.
Qed.

(** ** Files that keep a checked build from starting *)

Definition fatal_file (pre : list bytes) (fs : list (list bytes * file_info)) : Prop :=
  exists names f, In (names, f) fs /\ (forall n, In n (pre ++ names) -> ~ dotted n) /\
    mp3_name (last (pre ++ names) []) /\ tempo_too_large f.
Lemma fatal_app : forall pre a b, fatal_file pre (a ++ b) <-> fatal_file pre a \/ fatal_file pre b.
Proof.
  intros pre a b. split.
  - intros (names & f & I & H). apply in_app_or in I. destruct I as [I|I]; [left|right]; exists names, f; auto.
  - intros [(names & f & I & H)|(names & f & I & H)]; exists names, f; (split; [apply in_or_app; auto|exact H]).
Qed.
Lemma fatal_into : forall pre n fs, fatal_file pre (map (fun x => (n :: fst x, snd x)) fs) <-> fatal_file (pre ++ [n]) fs.
Proof.
  intros pre n fs.
  assert (E : forall names, pre ++ n :: names = (pre ++ [n]) ++ names) by (intros; rewrite <- app_assoc; reflexivity).
  split.
  - intros (names & f & I & H). apply in_map_iff in I. destruct I as ([ns g] & Ex & I). cbn [fst snd] in Ex. injection Ex as <- <-.
    exists ns, g. split; [exact I|]. rewrite <- E. exact H.
  - intros (names & f & I & H). exists (n :: names), f. split; [|rewrite E; exact H].
    apply in_map_iff. exists (names, f). auto.
Qed.
Lemma unseen_fatal : forall pre n t, unseen n t -> ~ fatal_file (pre ++ [n]) (all_files t).
Proof.
  intros pre n t U (names & f & I & V & M & T). rewrite <- app_assoc in V, M. cbn [app] in V, M.
  destruct (U names f I) as [(m & Im & D)|[N|[_ N]]].
  - apply (V m); [apply in_or_app; right; exact Im|exact D].
  - apply N. rewrite last_behind in M. exact M.
  - exact (N T).
Qed.
Lemma alike_fatal : forall t t', seen_alike t t' -> forall pre, fatal_file pre (all_files t) <-> fatal_file pre (all_files t').
Proof.
  intros t t' H. induction H as [t|t t' _ IH|t t' t'' _ IH1 _ IH2|es1 es2 n t t' _ IH|es1 es2 n t U]; intros pre.
  - reflexivity.
  - symmetry. apply IH.
  - rewrite IH1. apply IH2.
  - rewrite !dir_files, !fatal_app, !fatal_into, IH. reflexivity.
  - rewrite dir_files, dir_files0, !fatal_app, fatal_into. pose proof (unseen_fatal pre n t U). tauto.
Qed.
Lemma deadly_fatal : forall pl, (exists names, deadly pl names) <-> fatal_file [] (all_files (contents pl)).
Proof.
  intros pl. split.
  - intros (names & f & H). exists names, f. exact H.
  - intros (names & f & H). exists names, f. exact H.
Qed.

(** ** What the scan lists *)

Lemma scan_lists : forall p pl l, place_ok pl -> scan_folder p the_folder (contents pl) = Ok l -> songs_of pl l.
Proof.
  intros p pl l (Ht & _) E.
  apply (C22_finds_exactly p the_folder _ _ l Ht rname_ok the_folder_ends) in E. destruct E as (files & T & R & _).
  unfold songs_of. revert l R. induction T as [|[names f] fs r (V & M) T IH|[names f] fs r N T IH]; intros l R.
  - inversion R. constructor.
  - cbn [fst] in V, M. assert (Ml : mp3_name (last names [])).
    { destruct names as [|n names]; [elim (rname_no_mp3 M)|].
      clear -M. revert n M. induction names as [|m names IH]; intros n M; [exact M|]. exact (IH m M). }
    inversion R as [|? ? s ? q Rs Rq|? ? ? ? Rn Rq]; subst.
    + apply li_shown; [|exact (IH _ Rq)]. split; [intros n I; apply V; right; exact I|]. split; assumption.
    + apply li_other; [|exact (IH _ Rq)]. intros s (_ & _ & Rs). exact (Rn s Rs).
  - apply li_other; [|exact (IH _ R)]. cbn [app]. intros s (V & M & _). apply N. cbn [fst]. split.
    + intros n [<-|I]; [apply rname_visible|exact (V n I)].
    + destruct names as [|n names]; [destruct M as (stem & Ns & M); destruct stem; discriminate|].
      clear -M. revert n M. induction names as [|m names IH]; intros n M; [exact M|]. exact (IH m M).
Qed.

(** ** C98 *)

(** Two folders whose songs look the same, one by one in the order in which they
    are found, are the same to everybody: the program, started on either, sends the
    same whatever happens. *)
Theorem C98_folders : forall e p h pl pl' l l', order_ok h -> order_by_id h -> place_ok pl -> place_ok pl' ->
  songs_of pl l -> songs_of pl' l' -> Forall2 looks_same l l' ->
  (p = Checked -> (exists names, deadly pl names) <-> (exists names, deadly pl' names)) ->
  forall ka st mp db is, program e p h pl ka st mp db is = program e p h pl' ka st mp db is.
Proof.
  intros e p h pl pl' l l' Ho Hi P P' L L' F D ka st mp db is. unfold program.
  destruct (C86_starts_or_panics p h pl Ho P) as [A B]. destruct (C86_starts_or_panics p h pl' Ho P') as [A' B'].
  assert (X : app_new p h music_path pl = Panic <-> app_new p h music_path pl' = Panic).
  { rewrite A, A'. split; intros [C E]; (split; [exact C|apply (D C); exact E]). }
  destruct (app_new p h music_path pl) as [d| |] eqn:E; [| |].
  - destruct (B' ltac:(intros Z; apply X in Z; discriminate Z)) as [d' E']. rewrite E'.
    unfold app_new in E, E'. rewrite scan_contents in E, E'. apply rbind_ok in E. destruct E as (m & S & N).
    apply rbind_ok in E'. destruct E' as (m' & S' & N').
    rewrite (listing_unique _ _ _ _ (scan_lists p pl m P S) L) in N.
    rewrite (listing_unique _ _ _ _ (scan_lists p pl' m' P' S') L') in N'.
    rewrite (C98_looks_same e p h l l' d d' Ho Hi F N N'). reflexivity.
  - destruct (B ltac:(discriminate)) as [d E']. discriminate E'.
  - rewrite (proj1 X eq_refl). reflexivity.
Qed.
Print Assumptions C98_folders.

(** So nothing can be learned, except through the file services, about what else
    is in the folder: files and folders whose name starts with a dot, files that
    are not mp3, and files that cannot be read can come, go and change. *)
Theorem C98_unseen_stays : forall e p h t t', order_ok h -> place_ok (Place t) -> place_ok (Place t') ->
  seen_alike t t' ->
  forall ka st mp db is, program e p h (Place t) ka st mp db is = program e p h (Place t') ka st mp db is.
Proof.
  intros e p h t t' Ho P P' H ka st mp db is. unfold program.
  destruct (C86_starts_or_panics p h _ Ho P) as [A B]. destruct (C86_starts_or_panics p h _ Ho P') as [A' B'].
  rewrite deadly_fatal in A, A'. cbn [contents] in A, A'. rewrite <- (alike_fatal t t' H []) in A'.
  destruct (app_new p h music_path (Place t)) as [d| |] eqn:E; [| |].
  - destruct (B' ltac:(intros Z; apply A' in Z; apply A in Z; discriminate Z)) as [d' E']. rewrite E'.
    unfold app_new in E, E'. rewrite scan_contents in E, E'. apply rbind_ok in E. destruct E as (m & S & N).
    apply rbind_ok in E'. destruct E' as (m' & S' & N').
    pose proof (scan_lists p _ m P S) as L. pose proof (scan_lists p _ m' P' S') as L'. unfold songs_of in L, L'. cbn [contents] in L, L'.
    apply (alike_listing t t' H) in L. rewrite (listing_unique _ _ _ _ L L') in N. rewrite N in N'. injection N' as ->. reflexivity.
  - destruct (B ltac:(discriminate)) as [d E']. discriminate E'.
  - rewrite (proj2 A' (proj1 A eq_refl)). reflexivity.
Qed.
Print Assumptions C98_unseen_stays.

(** A hidden song, a text file and a folder with nothing but a cover picture. *)
Definition secret_file : file_info := mkFile None true (Some (mkV1 (lit "a") (lit "secret") (lit "l"))) (Some 7).
Definition plain_folder : node := NDir (Some [(lit "x.mp3", NFile secret_file)]).
Definition fuller_folder : node :=
  NDir (Some [(lit ".y.mp3", NFile secret_file); (lit "notes.txt", NFile secret_file);
              (lit "covers", NDir (Some [(lit "c.jpg", NFile secret_file)])); (lit "x.mp3", NFile secret_file)]).
Example C98_case_folders : seen_alike plain_folder fuller_folder /\ place_ok (Place plain_folder) /\ place_ok (Place fuller_folder) /\
  songs_of (Place fuller_folder) [mkScanned (lit "a") (lit "secret") None (lit "l") (lit "/home/jonas/Music/TermDJ/x.mp3") 7].
Proof.
  assert (P : forall t, t = plain_folder \/ t = fuller_folder -> place_ok (Place t)).
  { intros t H. split; [|split].
    - assert (Nm : forall n, n = lit "x.mp3" \/ n = lit ".y.mp3" \/ n = lit "notes.txt" \/ n = lit "covers" \/ n = lit "c.jpg" -> name_ok n).
      { intros n [ -> | [ -> | [ -> | [ -> | -> ]]]]; (split; [discriminate|]); (split; [|split; discriminate]); vm_compute; intuition discriminate. }
      destruct H as [->| ->]; apply ok_dir; intros n t' I; cbn [In] in I.
      + destruct I as [I|[]]. injection I as <- <-. split; [apply Nm; auto|apply ok_file].
      + destruct I as [I|[I|[I|[I|[]]]]]; injection I as <- <-; (split; [apply Nm; auto 6|]); try apply ok_file.
        apply ok_dir. intros n t' [I|[]]. injection I as <- <-. split; [apply Nm; auto 6|apply ok_file].
    - intros names f I. assert (f = secret_file) as ->.
      { destruct H as [->| ->]; cbn in I; repeat (destruct I as [I|I]; [injection I as <- <-; reflexivity|]); contradiction. }
      split; [intros t' x' Z; discriminate Z|]. intros t' Z. injection Z as <-.
      split; apply ascii_ok; reflexivity.
    - destruct H as [->| ->]; vm_compute; reflexivity. }
  assert (No : forall n : bytes, rev (firstn 4 (rev n)) <> lit ".mp3" -> ~ mp3_name n).
  { intros n H (stem & _ & ->). apply H. rewrite rev_app_distr, firstn_app. cbn. reflexivity. }
  split; [|split; [apply P; left; reflexivity|split; [apply P; right; reflexivity|]]].
  - eapply sa_then; [apply (sa_unseen [] [(lit "x.mp3", NFile secret_file)] (lit "covers") (NDir (Some [(lit "c.jpg", NFile secret_file)])))|].
    { intros names f I. cbn in I. destruct I as [I|[]]. injection I as <- <-. right. left. apply No. vm_compute. discriminate. }
    eapply sa_then; [apply (sa_unseen [] _ (lit "notes.txt") (NFile secret_file))|].
    { intros names f I. cbn in I. destruct I as [I|[]]. injection I as <- <-. right. left. apply No. vm_compute. discriminate. }
    apply (sa_unseen [] _ (lit ".y.mp3") (NFile secret_file)).
    intros names f I. cbn in I. destruct I as [I|[]]. injection I as <- <-. left. exists (lit ".y.mp3").
    split; [left; reflexivity|]. exists (lit "y.mp3"). split; [apply ascii_ok; reflexivity|reflexivity].
  - apply (scan_lists Checked (Place fuller_folder)); [apply P; right; reflexivity|vm_compute; reflexivity].
Qed.
