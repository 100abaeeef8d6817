(** Specification for C98: what a client can tell of two libraries. *)

From Verif Require Import Base Unicode MDatabase MLib.
From Coq Require Import ZArith.
Open Scope list_scope.
Open Scope N_scope.

(** The bytes are not the UTF-8 form of any text. *)
Definition not_text (b : bytes) : Prop := forall path, str_ok path -> b <> utf8_encode path.

(** A file without a tempo shows the tempo zero. *)
Definition shown_tempo (s : scanned) : N := match s_bpm s with Some b => b | None => 0 end.

(** Two files look the same: artist, title and tempo, and path and size unless
    the paths are not text. The albums do not matter. *)
Definition looks_same (s s' : scanned) : Prop :=
  s_artist s = s_artist s' /\ s_title s = s_title s' /\ shown_tempo s = shown_tempo s' /\
  (s_path s = s_path s' /\ s_size s = s_size s' \/ not_text (s_path s) /\ not_text (s_path s')).

(** They are the same except for the albums. *)
Definition same_but_album (s s' : scanned) : Prop :=
  s' = mkScanned (s_artist s) (s_title s) (s_bpm s) (s_album s') (s_path s) (s_size s).

(** The order in which a map gives its rows depends on their ids alone. *)
Definition order_by_id (h : hash_order) : Prop :=
  forall m m' : table track, map fst m = map fst m' -> map fst (ord_tracks h m) = map fst (ord_tracks h m').

(** Two databases answer every client alike. *)
Definition indistinguishable (p : profile) (h : hash_order) (d : database) (h' : hash_order) (d' : database) : Prop :=
  forall chunks, serve p h d None chunks = serve p h' d' None chunks.
