(** Specification for C98 on folders: the files of the folder that are shown. *)

From Verif Require Import Base Unicode MPath MDatabase MScan MMain SScan SMain.
From Coq Require Import String.
Open Scope list_scope.
Open Scope N_scope.

(** The file with these names below the folder is shown, as [s]: no name starts with
    a dot, the last ends in ".mp3", and it can be read as [s]. *)
Definition shown (names : list bytes) (f : file_info) (s : scanned) : Prop :=
  (forall n, In n names -> ~ dotted n) /\ mp3_name (last names []) /\ recorded f (below the_folder names) s.

(** Of files below the folder with names [pre], those shown, in their order. *)
Inductive listing (pre : list bytes) : list (list bytes * file_info) -> list scanned -> Prop :=
| li_nil : listing pre [] []
| li_shown : forall names f s l r, shown (pre ++ names) f s -> listing pre l r -> listing pre ((names, f) :: l) (s :: r)
| li_other : forall names f l r, (forall s, ~ shown (pre ++ names) f s) -> listing pre l r -> listing pre ((names, f) :: l) r.

(** The songs of a place, in the order in which the folder is traversed. *)
Definition songs_of (pl : place) (l : list scanned) : Prop := listing [] (all_files (contents pl)) l.

(** Something called [n] with nothing in it that is shown, or keeps a checked build
    from starting: hidden, not mp3, or neither readable nor of an excessive tempo. *)
Definition unseen (n : bytes) (t : node) : Prop :=
  forall names f, In (names, f) (all_files t) ->
    (exists m, In m (n :: names) /\ dotted m) \/ ~ mp3_name (last (n :: names) []) \/
    (forall path s, ~ recorded f path s) /\ ~ tempo_too_large f.

(** Two folders that differ, here and there, in something unseen. *)
Inductive seen_alike : node -> node -> Prop :=
| sa_same : forall t, seen_alike t t
| sa_back : forall t t', seen_alike t t' -> seen_alike t' t
| sa_then : forall t t' t'', seen_alike t t' -> seen_alike t' t'' -> seen_alike t t''
| sa_inside : forall es1 es2 n t t', seen_alike t t' ->
    seen_alike (NDir (Some (es1 ++ (n, t) :: es2))) (NDir (Some (es1 ++ (n, t') :: es2)))
| sa_unseen : forall es1 es2 n t, unseen n t ->
    seen_alike (NDir (Some (es1 ++ es2))) (NDir (Some (es1 ++ (n, t) :: es2))).
