(** Specification for C86: the music the program serves. *)

From Verif Require Import Base Unicode MPath MDatabase MScan MMain SDatabase SLib SScan SEnd.
From Coq Require Import String.
Open Scope list_scope.
Open Scope N_scope.

Definition the_folder : bytes := lit "/home/jonas/Music/TermDJ".

(** What can be found at a place; a link to a file is not a file. *)
Definition contents (pl : place) : node :=
  match pl with
  | Place n => n
  | LinkTo (NDir es) => NDir es
  | LinkTo _ => NOther
  end.

(** What a file system guarantees, texts are Unicode, and there are fewer than
    2^32 - 1 files. *)
Definition place_ok (pl : place) : Prop :=
  tree_ok (contents pl) /\ tags_ok (contents pl) /\ len (all_files (contents pl)) < 2 ^ 32 - 1.

(** The path [rest] below the folder leads to a visible mp3 file recorded as [s]. *)
Definition song (pl : place) (rest : bytes) (s : scanned) : Prop :=
  exists names, music the_folder (lit "TermDJ") (contents pl) names s /\
    below the_folder names = the_folder ++ lit "/" ++ rest.

(** Artists and titles have at most 127 UTF-16 units, and paths below the folder
    at most 102. *)
Definition presentable (pl : place) : Prop :=
  forall rest s, song pl rest s ->
    short (s_artist s) /\ short (s_title s) /\
    forall r, str_ok r -> rest = utf8_encode r -> len (utf16_encode r) <= 102.

(** The full path of what has the path [rest] below the folder. *)
Definition full_path (rest : str) : str := lit "/home/jonas/Music/TermDJ/" ++ rest.

(** A file that keeps the program from starting: visible, mp3, and of a tempo that
    does not fit in 32 bits when multiplied by 100. *)
Definition deadly (pl : place) (names : list bytes) : Prop :=
  exists f, In (names, f) (all_files (contents pl)) /\ (forall n, In n names -> ~ dotted n) /\
    mp3_name (last names []) /\ tempo_too_large f.
