(** Property theorems C22 and C23: the scan of the music folder. *)

From Verif Require Import Base Unicode MPath MDatabase MScan SScan LBase LUnicode LScan.
From Coq Require Import ZArith String.
Open Scope list_scope.
Open Scope N_scope.

(** ** C22 *)

(** The root folder is given by a path that ends in the name [rname].  The scan
    returns the records, in traversal order, of exactly those files of the tree
    of which no name, from the root on, starts with a dot (and is a text), and
    whose own name ends in ".mp3". *)
Theorem C22_finds_exactly : forall p root rname tree l,
  tree_ok tree -> name_ok rname ->
  (root = rname \/ exists parent, root = parent ++ lit "/" ++ rname) ->
  (scan_folder p root tree = Ok l <->
   exists files,
     those (fun x => (forall n, In n (rname :: fst x) -> ~ dotted n) /\ mp3_name (last (fst x) rname))
       (all_files tree) files /\
     records root files l /\
     (p = Checked -> forall x, In x files -> ~ tempo_too_large (snd x))).
Proof.
  intros p root rname tree l Ht Hn Hr.
  destruct (mp3_files_found tree root rname Ht Hn Hr) as (files & T & E).
  unfold scan_folder. rewrite E.
  destruct (extract_all_spec p root files) as [(Ep & (x & Hx & Bx) & ->)|(B & l' & -> & R)].
  - split; [discriminate|]. intros (files' & T' & _ & B). exfalso.
    rewrite (those_functional _ _ _ _ T' _ T) in B. exact (B Ep x Hx Bx).
  - split.
    + intros X. injection X as <-. exists files. auto.
    + intros (files' & T' & R' & _). rewrite (those_functional _ _ _ _ T' _ T) in R'.
      f_equal. eapply records_functional; eassumption.
Qed.
Print Assumptions C22_finds_exactly.

(** The only other outcome, see C23. *)
Theorem C22_otherwise_panics : forall p root rname tree,
  tree_ok tree -> name_ok rname ->
  (root = rname \/ exists parent, root = parent ++ lit "/" ++ rname) ->
  (scan_folder p root tree = Panic <->
   p = Checked /\ exists x, In x (all_files tree) /\
     (forall n, In n (rname :: fst x) -> ~ dotted n) /\ mp3_name (last (fst x) rname) /\
     tempo_too_large (snd x)) /\
  scan_folder p root tree <> Err.
Proof.
  intros p root rname tree Ht Hn Hr.
  destruct (mp3_files_found tree root rname Ht Hn Hr) as (files & T & E).
  unfold scan_folder. rewrite E. pose proof (those_in _ _ _ _ T) as I.
  destruct (extract_all_spec p root files) as [(Ep & (x & Hx & Bx) & ->)|(B & l' & -> & R)].
  - split; [|discriminate]. split; [|reflexivity]. intros _. split; [assumption|].
    exists x. apply I in Hx. destruct Hx as (H1 & H2 & H3). auto.
  - split; [|discriminate]. split; [discriminate|]. intros (Ep & x & H1 & H2 & H3 & H4). exfalso.
    apply (B Ep x); [|assumption]. apply I. split; [assumption|]. split; assumption.
Qed.
Print Assumptions C22_otherwise_panics.

(** Scanning the folder under the name "." or ".." finds nothing. *)
Theorem C22_dot_folders_are_empty : forall p root tree, root = lit "." \/ root = lit ".." ->
  scan_folder p root tree = Ok [].
Proof.
  intros p root tree [-> | ->]; unfold scan_folder, mp3_files;
    destruct tree as [f|[es|]| |]; reflexivity.
Qed.
Print Assumptions C22_dot_folders_are_empty.

(** A folder given by a symbolic link is scanned as the folder it leads to,
    under the path of the link; the name of the link itself does not matter, not
    even when it starts with a dot.  A link to a file is not a folder, and the
    file is not found. *)
Theorem C22_linked_folder : forall p root rname tree l,
  tree_ok tree -> name_ok rname ->
  (root = rname \/ exists parent, root = parent ++ lit "/" ++ rname) ->
  (scan_link p root tree = Ok l <->
   exists files,
     those (fun x => fst x <> [] /\ (forall n, In n (fst x) -> ~ dotted n) /\ mp3_name (last (fst x) []))
       (all_files tree) files /\
     records root files l /\
     (p = Checked -> forall x, In x files -> ~ tempo_too_large (snd x))).
Proof.
  intros p root rname tree l Ht Hn Hr.
  destruct (mp3_files_link_found tree root rname Ht Hn Hr) as (files & T & E).
  unfold scan_link. rewrite E.
  destruct (extract_all_spec p root files) as [(Ep & (x & Hx & Bx) & ->)|(B & l' & -> & R)].
  - split; [discriminate|]. intros (files' & T' & _ & B). exfalso.
    rewrite (those_functional _ _ _ _ T' _ T) in B. exact (B Ep x Hx Bx).
  - split.
    + intros X. injection X as <-. exists files. auto.
    + intros (files' & T' & R' & _). rewrite (those_functional _ _ _ _ T' _ T) in R'.
      f_equal. eapply records_functional; eassumption.
Qed.
Print Assumptions C22_linked_folder.

(** A separator behind the name of the folder changes nothing. *)
Theorem C22_trailing_separator : forall p root rname es,
  tree_ok (NDir (Some es)) -> name_ok rname ->
  (root = rname \/ exists parent, root = parent ++ lit "/" ++ rname) ->
  scan_folder p (root ++ lit "/") (NDir (Some es)) = scan_folder p root (NDir (Some es)).
Proof.
  intros p root rname es Ht Hn Hr. unfold scan_folder.
  change (lit "/") with [slash]. rewrite (mp3_files_slash es root rname Hn Hr Ht). reflexivity.
Qed.
Print Assumptions C22_trailing_separator.

(** The whole file system: everything visible below "/", under its full path. *)
Theorem C22_whole_file_system : forall p es l, tree_ok (NDir (Some es)) ->
  (scan_folder p (lit "/") (NDir (Some es)) = Ok l <->
   exists files,
     those (fun x => fst x <> [] /\ (forall n, In n (fst x) -> ~ dotted n) /\ mp3_name (last (fst x) []))
       (all_files (NDir (Some es))) files /\
     records [] files l /\
     (p = Checked -> forall x, In x files -> ~ tempo_too_large (snd x))).
Proof.
  intros p es l Ht.
  destruct (entries_found es (lit "/") [] Ht) as (files & T & E).
  { intros n (N1 & N2 & _). unfold path_push. destruct n as [|b n]; [congruence|].
    destruct (b =? slash) eqn:B; [apply N.eqb_eq in B; exfalso; apply N2; left; auto|]. reflexivity. }
  unfold scan_folder. rewrite mp3_files_dir by reflexivity. rewrite E.
  destruct (extract_all_spec p [] files) as [(Ep & (x & Hx & Bx) & ->)|(B & l' & -> & R)].
  - split; [discriminate|]. intros (files' & T' & _ & B). exfalso.
    rewrite (those_functional _ _ _ _ T' _ T) in B. exact (B Ep x Hx Bx).
  - split.
    + intros X. injection X as <-. exists files. auto.
    + intros (files' & T' & R' & _). rewrite (those_functional _ _ _ _ T' _ T) in R'.
      f_equal. eapply records_functional; eassumption.
Qed.
Print Assumptions C22_whole_file_system.

(** The claim that no file with a dotted name is found is false: names that are
    not UTF-8 do not count as hidden. *)
Theorem C22_no_dotted_name_refuted :
  let f := mkFile None true (Some (mkV1 (lit "a") (lit "t") (lit "l"))) (Some 7) in
  scan_folder Checked (lit "/m") (NDir (Some [(lit "." ++ [255] ++ lit ".mp3", NFile f)])) =
  Ok [mkScanned (lit "a") (lit "t") None (lit "l") (lit "/m/." ++ [255] ++ lit ".mp3") 7].
Proof. vm_compute. reflexivity. Qed.
Print Assumptions C22_no_dotted_name_refuted.

Definition example_v2 (bpm : string) : file_info :=
  mkFile (Some (mkV2 (Some (lit "Artist")) None (Some (lit "Album")) (Some (Text (lit bpm))))) true None
    (Some 4294967301).
Definition example_v1 : file_info :=
  mkFile None true (Some (mkV1 (lit "a") (lit "t") (lit "l"))) (Some 7).
Definition example_tree : node :=
  NDir (Some
    [(lit "one.mp3", NFile (example_v2 "128"));
     (lit "two.MP3", NFile example_v1);
     (lit ".three.mp3", NFile example_v1);
     (lit ".git", NDir (Some [(lit "four.mp3", NFile example_v1)]));
     (lit "gone", NBad);
     (lit "sub", NDir (Some [(lit "x.mp3", NDir None); (lit "five.old.mp3", NFile example_v1);
                             (lit "six.mp3", NFile (mkFile None true None (Some 1)))]));
     (lit "seven.mp3", NOther)]).

Lemma name_ok_compute : forall n,
  negb (bytes_eqb n []) && forallb (fun b => negb (b =? slash)) n && negb (bytes_eqb n [dot]) && negb (bytes_eqb n [dot; dot]) = true ->
  name_ok n.
Proof.
  intros n H. rewrite !Bool.andb_true_iff, !Bool.negb_true_iff in H. destruct H as [[[H1 H2] H3] H4].
  rewrite bytes_eqb_false in H1, H3, H4. split; [assumption|]. split; [|split; assumption].
  intros I. rewrite forallb_forall in H2. specialize (H2 slash I). discriminate.
Qed.

Example C22_case : tree_ok example_tree /\ name_ok (lit "TermDJ") /\
  scan_folder Checked (lit "/home/TermDJ") example_tree =
  Ok [mkScanned (lit "Artist") [] (Some 12800) (lit "Album") (lit "/home/TermDJ/one.mp3") 5;
      mkScanned (lit "a") (lit "t") None (lit "l") (lit "/home/TermDJ/sub/five.old.mp3") 7].
Proof.
  split; [|split; [apply name_ok_compute; reflexivity|vm_compute; reflexivity]].
  assert (G : forall es, forallb (fun e => negb (bytes_eqb (fst e) []) && forallb (fun b => negb (b =? slash)) (fst e)
              && negb (bytes_eqb (fst e) [dot]) && negb (bytes_eqb (fst e) [dot; dot])) es = true ->
            (forall n t, In (n, t) es -> tree_ok t) -> tree_ok (NDir (Some es))).
  { intros es H1 H2. apply ok_dir. intros n t I. rewrite forallb_forall in H1. specialize (H1 (n, t) I).
    split; [apply name_ok_compute; exact H1|apply (H2 n t I)]. }
  apply G; [vm_compute; reflexivity|]. intros n t I. unfold In in I.
  repeat (destruct I as [I|I]; [injection I as <- <-; try constructor|]); [| |destruct I].
  - intros n t [I|[]]. injection I as <- <-. split; [apply name_ok_compute; reflexivity|constructor].
  - intros n t I. unfold In in I.
    repeat (destruct I as [I|I]; [injection I as <- <-; split; [apply name_ok_compute; reflexivity|constructor]|]). destruct I.
Qed.

Example C22_case_link :
  scan_link Checked (lit "/home/.TermDJ") example_tree =
  Ok [mkScanned (lit "Artist") [] (Some 12800) (lit "Album") (lit "/home/.TermDJ/one.mp3") 5;
      mkScanned (lit "a") (lit "t") None (lit "l") (lit "/home/.TermDJ/sub/five.old.mp3") 7] /\
  scan_link Checked (lit "/home/one.mp3") (NFile example_v1) = Ok [] /\
  scan_folder Checked (lit "/home/TermDJ/") example_tree = scan_folder Checked (lit "/home/TermDJ") example_tree.
Proof. vm_compute. repeat split. Qed.

(** ** C23 *)

(** The tempo recorded for a file with an ID3v2 tag. *)
Theorem C23_tempo : forall p path f t s, fi_v2 f = Some t ->
  metadata_extractor p path f = Ok (Some s) ->
  (forall x v, tempo_text f x -> number_text x v ->
     (100 * v < 2 ^ 32 -> s_bpm s = Some (100 * v)) /\
     (2 ^ 32 <= 100 * v -> p = Wrapping /\ s_bpm s = Some (100 * v mod 2 ^ 32))) /\
  ((forall x v, tempo_text f x -> ~ number_text x v) -> s_bpm s = None).
Proof.
  intros p path f t s Ef E.
  destruct (extractor_spec p path f) as [(_ & _ & X)|(T & o & X & O)]; [congruence|].
  rewrite E in X. injection X as <-. destruct O as [(z & _ & _ & _ & R) _].
  destruct R as [(t' & R1 & _ & _ & _ & R2)|(t' & R1 & _)]; [|congruence].
  split.
  - intros x v Hx Hv.
    assert (B : s_bpm s = Some (100 * v mod 2 ^ 32)).
    { destruct R2 as [(x' & v' & A1 & A2 & A3)|[A1 _]].
      - assert (x' = x) by (destruct Hx as (t1 & B1 & B2), A1 as (t2 & C1 & C2); congruence).
        subst x'. rewrite (number_text_functional x v v' Hv A2). assumption.
      - exfalso. exact (A1 x v Hx Hv). }
    split.
    + intros L. rewrite N.mod_small in B; assumption.
    + intros L. split; [|assumption]. destruct p; [|reflexivity]. exfalso. apply (T eq_refl). exists x, v. auto.
  - intros H. destruct R2 as [(x' & v' & A1 & A2 & _)|[_ A]]; [|assumption]. exfalso. exact (H x' v' A1 A2).
Qed.
Print Assumptions C23_tempo.

(** Reading a file panics exactly if its tempo is too large. *)
Theorem C23_panics_exactly : forall p path f,
  metadata_extractor p path f = Panic <->
  p = Checked /\ exists x v, tempo_text f x /\ number_text x v /\ 2 ^ 32 <= 100 * v.
Proof.
  intros p path f. destruct (extractor_spec p path f) as [(E & T & X)|(T & o & X & O)]; rewrite X.
  - split; auto.
  - split; [discriminate|]. intros [E L]. exfalso. exact (T E L).
Qed.
Print Assumptions C23_panics_exactly.

(** A text is a number in at most one way; and every number below 2^32 has one. *)
Theorem C23_number_unique : forall x v w, number_text x v -> number_text x w -> v = w.
Proof. exact number_text_functional. Qed.
Print Assumptions C23_number_unique.

Example C23_case :
  number_text (lit "+0042949672") 42949672 /\ (forall v, ~ number_text (lit "12.5") v) /\
  metadata_extractor Checked (lit "a.mp3") (example_v2 "42949673") = Panic /\
  extract_bpm Wrapping (mkV2 None None None (Some (Text (lit "42949673")))) = Ok (Some 4).
Proof.
  split; [apply parse_u32_spec; vm_compute; reflexivity|]. split.
  - intros v H. apply parse_u32_spec in H. vm_compute in H. discriminate.
  - split; vm_compute; reflexivity.
Qed.
