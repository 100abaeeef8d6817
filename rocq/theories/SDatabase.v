(** Independent specification of the indexed library: which rows a list of
    scanned tracks must give, computed from the list alone. *)

From Verif Require Import Base Unicode MDatabase.

(** The distinct texts of a list, in order of first appearance. *)
Definition firsts (l : list str) : list str :=
  rev (nodup (list_eq_dec N.eq_dec) (rev l)).

(** A list with consecutive numbers. *)
Fixpoint numbered {A} (k : N) (l : list A) : list (N * A) :=
  match l with
  | [] => []
  | x :: r => (k, x) :: numbered (k + 1) r
  end.

(** Position of the first occurrence of a text. *)
Fixpoint position (x : str) (l : list str) : N :=
  match l with
  | [] => 0
  | y :: r => if bytes_eqb x y then 0 else 1 + position x r
  end.

(** The distinct artist names of a scan. *)
Definition artist_names (l : list scanned) : list str := firsts (map s_artist l).

(** The number of an artist: numbering starts at 2. *)
Definition artist_number (l : list scanned) (name : str) : N :=
  2 + position name (artist_names l).

Definition expected_artists (l : list scanned) : list (N * artist) :=
  map (fun '(i, n) => (i, mkArtist i n)) (numbered 2 (artist_names l)).

Definition expected_track (l : list scanned) (i : N) (s : scanned) : track :=
  mkTrack i (artist_number l (s_artist s)) (s_title s) (s_path s) (s_size s) (s_bpm s).

Definition expected_tracks (l : list scanned) : list (N * track) :=
  map (fun '(i, s) => (i, expected_track l i s)) (numbered 2 l).

(** The tracks of one artist, with their numbers. *)
Definition tracks_named (l : list scanned) (name : str) : list (N * scanned) :=
  filter (fun '(_, s) => bytes_eqb (s_artist s) name) (numbered 2 l).
