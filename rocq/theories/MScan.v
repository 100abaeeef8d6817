(** Model of src/library.rs: the scan of the music folder. *)

From Verif Require Import Base Unicode MPath MDatabase.
From Coq Require Import String.
Open Scope list_scope.
Open Scope N_scope.

(** The part of an id3 frame that is looked at (crate id3, an oracle):
    library.rs:40-48, the content of the frame TBPM is text or not. *)
Inductive frame := Text (s : str) | NoText.

(** What the id3 crate reads from a file with an ID3v2 tag (library.rs:95). *)
Record id3v2 := mkV2 {
  v2_artist : option str; v2_title : option str; v2_album : option str;
  v2_tbpm : option frame
}.

(** What it reads from a file with an ID3v1 tag (library.rs:100). *)
Record id3v1 := mkV1 { v1_artist : str; v1_title : str; v1_album : str }.

(** Everything the scan asks about a regular file: the two tags ([None] for an
    error), whether it can be opened (library.rs:98) and its size in bytes
    (library.rs:110-115, [None] if [metadata] fails). *)
Record file_info := mkFile {
  fi_v2 : option id3v2; fi_opens : bool; fi_v1 : option id3v1; fi_size : option N
}.

(** A directory tree, as walkdir meets it (library.rs:29).  A directory lists its entries in the order in which the
    system returns them, or cannot be read; [NBad] is an entry whose type cannot
    be determined, [NOther] anything but a file or directory (symbolic links are
    not followed). *)
Inductive node :=
| NFile (f : file_info)
| NDir (entries : option (list (bytes * node)))
| NOther
| NBad.

(** [walkdir::DirEntry] (library.rs:13-28). *)
Inductive kind := KFile (f : file_info) | KDir | KOther.
(** [walkdir::DirEntry]: its path and its type (library.rs:21, 25). *)
Record dent := mkDent { de_path : bytes; de_kind : kind }.

(** walkdir's [DirEntry::file_name] (library.rs:14): the last component, the whole path if there
    is none. *)
Definition de_file_name (d : dent) : bytes :=
  match path_file_name (de_path d) with
  | Some n => n
  | None => de_path d
  end.

(** library.rs:13-18, [is_hidden]. *)
Definition is_hidden (d : dent) : bool :=
  match utf8_decode (de_file_name d) with
  | Some (c :: _) => c =? dot
  | Some [] => false
  | None => false
  end.

(** library.rs:20-22, [is_regular_file]. *)
Definition is_regular_file (d : dent) : bool :=
  match de_kind d with KFile _ => true | _ => false end.

(** library.rs:24-26, [has_mp3_extension]. *)
Definition has_mp3_extension (d : dent) : bool :=
  match path_extension (de_path d) with
  | Some e => bytes_eqb e (lit "mp3")
  | None => false
  end.

(** library.rs:29-31, [WalkDir::new(t).into_iter().filter_entry(..)]: directories
    before their contents; an entry that fails the predicate is neither returned
    nor descended into; [None] is an error item. *)
Fixpoint walk (path : bytes) (n : node) : list (option dent) :=
  match n with
  | NFile f => if is_hidden (mkDent path (KFile f)) then [] else [Some (mkDent path (KFile f))]
  | NDir entries =>
      if is_hidden (mkDent path KDir) then []
      else Some (mkDent path KDir) ::
           match entries with
           | None => [None]
           | Some es => flat_map (fun e => walk (path_push path (fst e)) (snd e)) es
           end
  | NOther => if is_hidden (mkDent path KOther) then [] else [Some (mkDent path KOther)]
  | NBad => [None]
  end.

(** library.rs:28-35, [mp3_files_iterator]. *)
Definition mp3_files (root : bytes) (n : node) : list dent :=
  filter has_mp3_extension (filter is_regular_file
    (flat_map (fun o => match o with Some d => [d] | None => [] end) (walk root n))).

(** library.rs:29-31 when the root itself is a symbolic link: walkdir follows it, but the
    entry still counts as a link, so a hidden one is not returned and yet
    descended into.  [NBad]: a link to nothing, an error item. *)
Definition walk_link (path : bytes) (target : node) : list (option dent) :=
  let entry := if is_hidden (mkDent path KOther) then [] else [Some (mkDent path KOther)] in
  match target with
  | NDir None => entry ++ [None]
  | NDir (Some es) => entry ++ flat_map (fun e => walk (path_push path (fst e)) (snd e)) es
  | NBad => [None]
  | _ => entry
  end.

(** library.rs:28-35, [mp3_files_iterator], on such a root. *)
Definition mp3_files_link (root : bytes) (target : node) : list dent :=
  filter has_mp3_extension (filter is_regular_file
    (flat_map (fun o => match o with Some d => [d] | None => [] end) (walk_link root target))).

(** [str::parse::<u32>] (std), on the bytes of the text: an optional plus sign,
    then at least one digit, with overflow detected. *)
Fixpoint parse_digits (acc : N) (s : bytes) : option N :=
  match s with
  | [] => Some acc
  | c :: r =>
      if (48 <=? c) && (c <=? 57) then
        if acc * 10 <? u32_max1 then
          if acc * 10 + (c - 48) <? u32_max1 then parse_digits (acc * 10 + (c - 48)) r else None
        else None
      else None
  end.
(** The sign of [str::parse::<u32>] (library.rs:42). *)
Definition parse_u32_bytes (s : bytes) : option N :=
  match s with
  | [] => None
  | 43 :: [] => None
  | 43 :: r => parse_digits 0 r
  | _ => parse_digits 0 s
  end.
(** [text.parse::<u32>()], library.rs:42. *)
Definition parse_u32 (s : str) : option N := parse_u32_bytes (utf8_encode s).

(** library.rs:37-52, [extract_bpm]. *)
Definition extract_bpm (p : profile) (t : id3v2) : res (option N) :=
  match v2_tbpm t with
  | Some (Text s) =>
      match parse_u32 s with
      | Some v => do x <- u32_mul p v 100; Ok (Some x)
      | None => Ok None
      end
  | Some NoText => Ok None
  | None => Ok None
  end.

(** [Option::unwrap_or("")] (library.rs:56-59). *)
Definition or_empty (o : option str) : str := match o with Some s => s | None => [] end.

(** library.rs:94-120, [metadata_extractor], with [extract_id3v2] (54-61) and
    [extract_id3v1] (63-70); followed by [Track::new] (model.rs:18-26). *)
Definition metadata_extractor (p : profile) (path : bytes) (f : file_info) : res (option scanned) :=
  let finish (artist title : str) (bpm : option N) (album : str) :=
    match fi_size f with
    | Some size => Some (mkScanned artist title bpm album path (as_u32 size))
    | None => None
    end in
  match fi_v2 f with
  | Some t => do bpm <- extract_bpm p t;
              Ok (finish (or_empty (v2_artist t)) (or_empty (v2_title t)) bpm (or_empty (v2_album t)))
  | None =>
      if fi_opens f then
        match fi_v1 f with
        | Some t => Ok (finish (v1_artist t) (v1_title t) None (v1_album t))
        | None => Ok None
        end
      else Ok None
  end.

(** library.rs:122-127, [scan_folder]: the files one after the other. *)
Fixpoint extract_all (p : profile) (ds : list dent) : res (list scanned) :=
  match ds with
  | [] => Ok []
  | d :: r =>
      match de_kind d with
      | KFile f => do o <- metadata_extractor p (de_path d) f;
                   do l <- extract_all p r;
                   Ok (match o with Some s => s :: l | None => l end)
      | _ => extract_all p r
      end
  end.
(** library.rs:122-127, [scan_folder]. *)
Definition scan_folder (p : profile) (root : bytes) (n : node) : res (list scanned) :=
  extract_all p (mp3_files root n).
(** library.rs:122-127, [scan_folder], when the folder is given by a symbolic link. *)
Definition scan_link (p : profile) (root : bytes) (target : node) : res (list scanned) :=
  extract_all p (mp3_files_link root target).
