(** Model of src/rekordbox/library/database.rs, helper.rs and model.rs. *)

From Verif Require Import Base Unicode.
From Coq Require Import Permutation.

(** model.rs:3-16, [struct Metadata] and [struct MetadataTrack]: one scanned
    file.  [PathBuf] is the byte string of the path. *)
Record scanned := mkScanned {
  s_artist : str;
  s_title : str;
  s_bpm : option N;
  s_album : str;
  s_path : bytes;
  s_size : N
}.

(** database.rs:52-56, [struct Artist]. *)
Record artist := mkArtist { a_id : N; a_name : str }.

(** database.rs:32-40, [struct Track]. *)
Record track := mkTrack {
  t_id : N;
  t_artist_id : N;
  t_title : str;
  t_path : bytes;
  t_size : N;
  t_bpm : option N
}.

(** database.rs:43-45, [Track::path]: [to_str().unwrap()]. *)
Definition track_path (t : track) : res str := unwrap_opt (utf8_decode (t_path t)).

(** [HashMap<u32, T>] (database.rs:15 and 20): an association list; the
    iteration order is an oracle, see [hash_order]. *)
Definition table (A : Type) := list (N * A).

(** [HashMap::get] (database.rs:212, 237; also rpc/nfs_program.rs:79, 93). *)
Fixpoint hm_get {A} (k : N) (m : table A) : option A :=
  match m with
  | [] => None
  | (k', v) :: r => if k =? k' then Some v else hm_get k r
  end.

(** [HashMap::insert] (database.rs:93, 108; also rpc/nfs_program.rs:57): replaces the
    value of an existing key. *)
Fixpoint hm_insert {A} (k : N) (v : A) (m : table A) : table A :=
  match m with
  | [] => [(k, v)]
  | (k', v') :: r => if k =? k' then (k, v) :: r else (k', v') :: hm_insert k v r
  end.

(** Iteration order of the two maps of database.rs:15 and 20 (used at 85, 226 and
    251): an arbitrary rearrangement of the entries,
    fixed while the map is not modified.  [hash_order] is a parameter of the
    model; theorems quantify over every [h] with [order_ok h]. *)
Record hash_order := mkOrder {
  ord_artists : table artist -> table artist;
  ord_tracks : table track -> table track
}.
(** Rows may come in any order (database.rs:85, 226, 251), but each exactly once. *)
Definition order_ok (h : hash_order) : Prop :=
  (forall l, Permutation (ord_artists h l) l) /\
  (forall l, Permutation (ord_tracks h l) l).

(** database.rs:182-189, [InnerDatabase]: the rows of the two tables and the
    counters of their sequences (database.rs:150-160). *)
Record database := mkDb {
  artist_rows : table artist;
  artist_seq : N;
  track_rows : table track;
  track_seq : N
}.

(** database.rs:154-160 and 178-180: a sequence starts at one. *)
Definition sequence_new : N := 1.

(** database.rs:162-172, [Sequence::increment]; the lock is never poisoned
    because a panic ends the indexing. *)
Definition sequence_increment (p : profile) (counter : N) : res N := u32_add p counter 1.

(** database.rs:193-200, the empty database. *)
Definition db_empty : database := mkDb [] sequence_new [] sequence_new.

(** database.rs:83-102, [ArtistTable::insert]. *)
Definition artist_insert (p : profile) (h : hash_order) (name : str) (d : database)
  : res (N * database) :=
  match find (fun e => bytes_eqb name (a_name (snd e))) (ord_artists h (artist_rows d)) with
  | Some (id, _) => Ok (id, d)
  | None =>
      do id <- sequence_increment p (artist_seq d);
      Ok (id, mkDb (hm_insert id (mkArtist id name) (artist_rows d)) id
                   (track_rows d) (track_seq d))
  end.

(** database.rs:104-121, [TrackTable::insert]. *)
Definition track_insert (p : profile) (artist_id : N) (s : scanned) (d : database)
  : res database :=
  do id <- sequence_increment p (track_seq d);
  Ok (mkDb (artist_rows d) (artist_seq d)
           (hm_insert id
              (mkTrack id artist_id (s_title s) (s_path s) (s_size s) (s_bpm s))
              (track_rows d))
           id).

(** database.rs:261-276, [Database::index]. *)
Definition db_index (p : profile) (h : hash_order) (d : database) (s : scanned)
  : res database :=
  do (artist_id, d) <- artist_insert p h (s_artist s) d;
  track_insert p artist_id s d.

(** database.rs:192-207, [Database::new], the scan result being given. *)
Fixpoint db_index_all (p : profile) (h : hash_order) (d : database) (l : list scanned)
  : res database :=
  match l with
  | [] => Ok d
  | s :: r => do d <- db_index p h d s; db_index_all p h d r
  end.
(** database.rs:192-207, [Database::new]: the loop above from an empty database. *)
Definition db_new (p : profile) (h : hash_order) (l : list scanned) : res database :=
  db_index_all p h db_empty l.

(** database.rs:209-221, [Database::get_track]. *)
Definition get_track (d : database) (id : N) : option track := hm_get id (track_rows d).

(** database.rs:234-246, [Database::get_artist]. *)
Definition get_artist (d : database) (id : N) : option artist := hm_get id (artist_rows d).

(** database.rs:223-232, [Database::artists]. *)
Definition artists (h : hash_order) (d : database) : list artist :=
  map snd (ord_artists h (artist_rows d)).

(** database.rs:248-259, [Database::title_by_artist]. *)
Definition title_by_artist (h : hash_order) (d : database) (artist_id : N) : list track :=
  filter (fun t => t_artist_id t =? artist_id) (map snd (ord_tracks h (track_rows d))).

(** helper.rs:7-9, [number_of_artists]. *)
Definition number_of_artists (h : hash_order) (d : database) : N :=
  as_u32 (len (artists h d)).

(** helper.rs:11-13, [number_of_tracks_by_artist]. *)
Definition number_of_tracks_by_artist (h : hash_order) (d : database) (artist_id : N) : N :=
  as_u32 (len (title_by_artist h d artist_id)).
