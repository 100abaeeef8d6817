(** Specification of the scan: all files of the tree, then the conditions. *)

From Verif Require Import Base Unicode MPath MDatabase MScan.
From Coq Require Import String.
Open Scope list_scope.
Open Scope N_scope.

(** All regular files of a tree in traversal order, each with the names leading
    to it from the root (the root's own name excluded). *)
Fixpoint all_files (n : node) : list (list bytes * file_info) :=
  match n with
  | NFile f => [([], f)]
  | NDir (Some es) =>
      flat_map (fun e => map (fun x => (fst e :: fst x, snd x)) (all_files (snd e))) es
  | _ => []
  end.

(** What a file system guarantees: names are not empty, contain no slash and are
    not "." or "..". *)
Definition name_ok (n : bytes) : Prop := n <> [] /\ ~ In slash n /\ n <> lit "." /\ n <> lit "..".
Inductive tree_ok : node -> Prop :=
| ok_file : forall f, tree_ok (NFile f)
| ok_dir : forall es, (forall n t, In (n, t) es -> name_ok n /\ tree_ok t) -> tree_ok (NDir (Some es))
| ok_unreadable : tree_ok (NDir None)
| ok_other : tree_ok NOther
| ok_bad : tree_ok NBad.

(** A name that starts with a dot and is a text (valid UTF-8). *)
Definition dotted (n : bytes) : Prop := exists s, str_ok s /\ n = utf8_encode (lit "." ++ s).
(** A name with the extension mp3. *)
Definition mp3_name (n : bytes) : Prop := exists stem, stem <> [] /\ n = stem ++ lit ".mp3".

(** The path of a file below the root: names separated by slashes. *)
Definition below (root : bytes) (names : list bytes) : bytes :=
  root ++ flat_map (fun n => [slash] ++ n) names.

(** The value of a sequence of digits. *)
Fixpoint digits_value (s : str) : N :=
  match s with
  | [] => 0
  | c :: r => (c - 48) * 10 ^ len r + digits_value r
  end.
Definition all_digits (s : str) : Prop := forall c, In c s -> 48 <= c <= 57.
(** The text is a decimal number below 2^32, possibly after a plus sign. *)
Definition number_text (s : str) (v : N) : Prop :=
  exists ds, ds <> [] /\ all_digits ds /\ (s = ds \/ s = lit "+" ++ ds) /\
    v = digits_value ds /\ v < 2 ^ 32.

(** The tempo text of a file, if it has one. *)
Definition tempo_text (f : file_info) (s : str) : Prop :=
  exists t, fi_v2 f = Some t /\ v2_tbpm t = Some (Text s).

(** The file [f] at [path] is recorded as [s]; unreadable files are not. *)
Definition recorded (f : file_info) (path : bytes) (s : scanned) : Prop :=
  exists size, fi_size f = Some size /\ s_size s = size mod 2 ^ 32 /\ s_path s = path /\
  ((exists t, fi_v2 f = Some t /\
      s_artist s = match v2_artist t with Some x => x | None => [] end /\
      s_title s = match v2_title t with Some x => x | None => [] end /\
      s_album s = match v2_album t with Some x => x | None => [] end /\
      ((exists x v, tempo_text f x /\ number_text x v /\ s_bpm s = Some (100 * v mod 2 ^ 32)) \/
       ((forall x v, tempo_text f x -> ~ number_text x v) /\ s_bpm s = None))) \/
   (exists t, fi_v2 f = None /\ fi_opens f = true /\ fi_v1 f = Some t /\
      s_artist s = v1_artist t /\ s_title s = v1_title t /\ s_album s = v1_album t /\ s_bpm s = None)).

(** A tempo that does not fit. *)
Definition tempo_too_large (f : file_info) : Prop :=
  exists x v, tempo_text f x /\ number_text x v /\ 2 ^ 32 <= 100 * v.

(** The list of records of a list of files: in order, those that are recorded. *)
Inductive records (root : bytes) : list (list bytes * file_info) -> list scanned -> Prop :=
| rec_nil : records root [] []
| rec_take : forall names f s l r,
    recorded f (below root names) s -> records root l r -> records root ((names, f) :: l) (s :: r)
| rec_skip : forall names f l r,
    (forall s, ~ recorded f (below root names) s) -> records root l r -> records root ((names, f) :: l) r.

(** The sublist of the elements with a property. *)
Inductive those {A} (P : A -> Prop) : list A -> list A -> Prop :=
| those_nil : those P [] []
| those_yes : forall a l r, P a -> those P l r -> those P (a :: l) (a :: r)
| those_no : forall a l r, ~ P a -> those P l r -> those P (a :: l) r.
