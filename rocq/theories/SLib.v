(** Independent specification of the remote-DB service: what a well-formed
    request is, which requests are menus, and what a client must read in the
    answers.  Nothing here uses the server's parser, encoders or controllers. *)

From Verif Require Import Base Unicode MDb MDatabase SDb SDatabase.
From Coq Require Import String Permutation.
Open Scope N_scope.
Open Scope list_scope.

(** ** Requests *)

(** [chunk] is a complete request: [kind]-tagged transaction id [tx], request
    code [code], arguments [fs]; anything may follow. *)
Definition is_request (p : profile) (chunk : bytes)
  (kind : field_type) (tx : bytes) (code : N) (fs : list field) : Prop :=
  bytes_ok chunk /\
  exists code2 n types args j1 j2 j3 j5,
    chunk = request_bytes (tag_of kind) tx code2 n types args j1 j2 j3 j5 /\
    len tx = 4 /\ len code2 = 2 /\ len types = 12 /\ len j5 = 5 /\
    n <= 12 /\ number code2 = code /\
    args_layout p (firstn (N.to_nat n) types) args fs.

(** A request as a client sends it: all tags regular, number arguments only. *)
Definition client_request (tx code : N) (args : list N) : bytes :=
  request_bytes 0x11 (be 4 tx) (be 2 code) (len args)
    (repeat 6 (List.length args) ++ repeat 0 (12 - List.length args))
    (flat_map (fun a => 0x11 :: be 4 a) args) 0x11 0x10 0x0f [0x14; 0; 0; 0; 12].

(** A chunk without the magic or with an incomplete header. *)
Definition undecodable (chunk : bytes) : Prop :=
  (forall t r, chunk <> t :: [0x87; 0x23; 0x49; 0xae] ++ r) \/
  len chunk < 10 \/
  (len chunk < 32 /\ In (nth 5 chunk 0) known_tags).

(** Argument [i] is the number [v]. *)
Definition arg_is (fs : list field) (i : nat) (v : N) : Prop :=
  exists d, nth_error fs i = Some (mkField FU32 d) /\ len d = 4 /\ number d = v.

(** ** Menus *)

Inductive menu :=
| RootMenu
| ArtistMenu
| TitleMenu
| AlbumsOfArtist (artist_id : N)
| TitlesOfArtist (artist_id : N)
| TrackMetadata (track_id : N)
| TrackMountInfo (track_id : N).

(** The chunk asks for a menu. *)
Definition menu_request (p : profile) (chunk : bytes) (m : menu) : Prop :=
  exists kind tx code fs, is_request p chunk kind tx code fs /\
  match m with
  | RootMenu => code = 0x1000
  | ArtistMenu => code = 0x1002
  | TitleMenu => code = 0x1004
  | AlbumsOfArtist a => code = 0x1102 /\ arg_is fs 2 a
  | TitlesOfArtist a => code = 0x1202 /\ arg_is fs 2 a
  | TrackMetadata t => code = 0x2002 /\ arg_is fs 1 t
  | TrackMountInfo t => code = 0x2102 /\ arg_is fs 1 t
  end.

(** [c] is the last chunk of the history that asks for a menu, and asks for [m]. *)
Definition last_menu (p : profile) (history : list bytes) (c : bytes) (m : menu) : Prop :=
  exists before after,
    history = before ++ c :: after /\ menu_request p c m /\
    forall c' m', In c' after -> ~ menu_request p c' m'.

Definition no_menu (p : profile) (history : list bytes) : Prop :=
  forall c m, In c history -> ~ menu_request p c m.

(** Codes with an answer of their own. *)
Definition supported_codes : list N :=
  [ 0x0000; 0x1000; 0x1002; 0x1004; 0x1102; 0x1202; 0x2002; 0x2004; 0x2102; 0x2b04; 0x3000 ].

(** ** What a client reads *)

Definition ack (tx : N) (args : list N) : cmsg := mkCmsg tx 0x4000 (map (CNum 4) args).

Definition header (tx : N) : cmsg := mkCmsg tx 0x4001 [CNum 4 1; CNum 4 0].
Definition footer (tx : N) : cmsg := mkCmsg tx 0x4201 [].
Definition root_footer (tx : N) : cmsg := mkCmsg tx 0x4201 [CNum 4 1; CNum 4 1].

Definition byte_size (s : str) : N := 2 * len (utf16_encode s) + 2.

(** An item: parent id, main id, the two texts with their sizes in bytes
    including the terminator, item type, and the ninth and eleventh argument. *)
Definition item (tx id1 id2 : N) (t1 t2 : str) (ty id3 id4 : N) : cmsg :=
  mkCmsg tx 0x4101
    [ CNum 4 id1; CNum 4 id2;
      CNum 4 (byte_size t1); CText (utf16_encode t1);
      CNum 4 (byte_size t2); CText (utf16_encode t2);
      CNum 4 ty; CNum 4 0; CNum 4 id3; CNum 4 0; CNum 4 id4; CNum 4 0 ].

(** A plain row: id, text, item type. *)
Definition row (tx id : N) (t : str) (ty : N) : cmsg := item tx 0 id t [] ty 0 0.

Definition is_item (m : cmsg) : bool := c_code m =? 0x4101.
Definition items (ms : list cmsg) : list cmsg := filter is_item ms.

(** The text of the main menu entries. *)
Definition entry (s : string) : str := [0xfffa] ++ lit s ++ [0xfffb].

(** ** Databases *)

(** At most 127 UTF-16 code units. *)
Definition short (s : str) : Prop := len (utf16_encode s) <= 127.

(** Every text of a scan is short Unicode text (its type says it is Unicode). *)
Definition short_scan (l : list scanned) : Prop :=
  Forall (fun s => short (s_artist s) /\ short (s_title s) /\
            forall path, utf8_decode (s_path s) = Some path -> short path) l.
(** Texts are Unicode, sizes and tempi are 32-bit numbers, as their types say. *)
Definition scan_ok (l : list scanned) : Prop :=
  Forall (fun s => str_ok (s_artist s) /\ str_ok (s_title s) /\ s_size s < 2 ^ 32 /\
            match s_bpm s with Some b => b < 2 ^ 32 | None => True end) l.

(** ** Contents of the pages *)

(** The metadata page of a track: header, ten items, footer.  Only the title, the
    artist's name and the tempo depend on the track. *)
Definition metadata_page (tx : N) (s : scanned) : list cmsg :=
  let tempo := match s_bpm s with Some b => b | None => 0 end in
  [ header tx;
    item tx 1 5 (s_title s) [] 4 0 256;       (* title *)
    item tx 1 1 (s_artist s) [] 7 0 0;        (* artist *)
    item tx 1 0 [] [] 2 0 0;                  (* album *)
    item tx 0 195 [] [] 0x0b 0 0;             (* duration *)
    item tx 0 tempo [] [] 0x0d 0 0;           (* tempo *)
    item tx 0 5 [] [] 0x23 0 0;               (* comment *)
    item tx 1 0 [] [] 0x0f 0 0;               (* key *)
    item tx 0 0 [] [] 0x0a 0 0;               (* rating *)
    item tx 0 0 [] [] 0x13 0 0;               (* colour *)
    item tx 0 0 [] [] 6 0 0;                  (* genre *)
    footer tx ].

(** The mount info page: the path is the text of the item of type 0 and the size
    its first id. *)
Definition mount_page (tx : N) (s : scanned) (path : str) : list cmsg :=
  let tempo := match s_bpm s with Some b => b | None => 0 end in
  [ header tx;
    item tx 0 1 [] [] 4 0 0;
    item tx 0 195 [] [] 0x0b 0 0;
    item tx 0 tempo [] [] 0x0d 0 0;
    item tx 0 0 (lit "Tracks by www.loopmasters.com") [] 0x23 0 0;
    item tx (s_size s) 5 path [] 0 0 0;
    item tx 0 1 [] [] 0x2f 0 0;
    footer tx ].

(** The track with a given id: the first one scanned has id 2. *)
Definition track_with_id (l : list scanned) (id : N) : option scanned :=
  if 2 <=? id then nth_error l (N.to_nat (id - 2)) else None.

(** ** Chunks without answer *)

(** The chunk is neither too short for a request nor a request. *)
Definition malformed (p : profile) (chunk : bytes) : Prop :=
  ~ undecodable chunk /\ forall kind tx code fs, ~ is_request p chunk kind tx code fs.

(** A request lacks the number it must name an artist or a track with. *)
Definition lacks_argument (code : N) (fs : list field) : Prop :=
  ((code = 0x1102 \/ code = 0x1202) /\ forall v, ~ arg_is fs 2 v) \/
  ((code = 0x2002 \/ code = 0x2102) /\ forall v, ~ arg_is fs 1 v).

(** The page cannot be rendered: no such track, or its path is not text. *)
Definition no_page (l : list scanned) (m : menu) : Prop :=
  match m with
  | TrackMetadata t => track_with_id l t = None
  | TrackMountInfo t =>
      match track_with_id l t with
      | None => True
      | Some s => forall path, str_ok path -> s_path s <> utf8_encode path
      end
  | _ => False
  end.

(** After [history], [chunk] ends the connection. *)
Definition fatal (p : profile) (l : list scanned) (history : list bytes) (chunk : bytes) : Prop :=
  malformed p chunk \/
  (exists kind tx code fs, is_request p chunk kind tx code fs /\ lacks_argument code fs) \/
  (exists kind tx fs c m, is_request p chunk kind tx 0x3000 fs /\
     last_menu p history c m /\ no_page l m).

(** A chunk of a well-behaved client of the library [l]. *)
Definition conforming (p : profile) (l : list scanned) (chunk : bytes) : Prop :=
  len chunk = 5 \/ undecodable chunk \/
  exists kind tx code fs, is_request p chunk kind tx code fs /\
    (code = 0x1102 \/ code = 0x1202 -> exists a, arg_is fs 2 a) /\
    (code = 0x2002 -> exists t s, arg_is fs 1 t /\ track_with_id l t = Some s) /\
    (code = 0x2102 -> exists t s path, arg_is fs 1 t /\ track_with_id l t = Some s /\
       str_ok path /\ s_path s = utf8_encode path).

(** The request asks for the menu. *)
Definition names_menu (code : N) (fs : list field) (m : menu) : Prop :=
  match m with
  | RootMenu => code = 0x1000
  | ArtistMenu => code = 0x1002
  | TitleMenu => code = 0x1004
  | AlbumsOfArtist a => code = 0x1102 /\ arg_is fs 2 a
  | TitlesOfArtist a => code = 0x1202 /\ arg_is fs 2 a
  | TrackMetadata t => code = 0x2002 /\ arg_is fs 1 t
  | TrackMountInfo t => code = 0x2102 /\ arg_is fs 1 t
  end.

(** The tracks of the artist with a given number, with their own numbers. *)
Definition tracks_of_artist (l : list scanned) (id : N) : list (N * scanned) :=
  filter (fun '(_, s) => artist_number l (s_artist s) =? id) (numbered 2 l).

(** Every text that the page of a menu shows satisfies [P]. *)
Definition page_texts (P : str -> Prop) (l : list scanned) (m : menu) : Prop :=
  match m with
  | ArtistMenu => Forall (fun s => P (s_artist s)) l
  | TitlesOfArtist a => forall i s, In (i, s) (tracks_of_artist l a) -> P (s_title s)
  | TrackMetadata t => forall s, track_with_id l t = Some s -> P (s_title s) /\ P (s_artist s)
  | TrackMountInfo t => forall s path, track_with_id l t = Some s -> str_ok path ->
      s_path s = utf8_encode path -> P path
  | _ => True
  end.

(** All of them are short. *)
Definition short_page : list scanned -> menu -> Prop := page_texts short.

(** None of them has 2^31 - 1 or more units, 4 GiB. *)
Definition moderate_page : list scanned -> menu -> Prop :=
  page_texts (fun t => len (utf16_encode t) < 2 ^ 31 - 1).

(** What a client must read as the page of a menu of the library [l]. *)
Definition page_ok (l : list scanned) (tx : N) (m : menu) (ms : list cmsg) : Prop :=
  match m with
  | RootMenu =>
      ms = [ header tx;
             row tx 0x02 (entry "ARTIST") 0x81;
             row tx 0x03 (entry "ALBUM") 0x82;
             row tx 0x04 (entry "TRACK") 0x83;
             row tx 0x0c (entry "KEY") 0x8b;
             row tx 0x05 (entry "PLAYLIST") 0x84;
             row tx 0x16 (entry "HISTORY") 0x95;
             row tx 0x12 (entry "SEARCH") 0x91;
             root_footer tx ]
  | ArtistMenu =>
      exists rows, ms = header tx :: rows ++ [footer tx] /\
        Permutation rows (map (fun '(i, n) => row tx i n 7) (numbered 2 (artist_names l)))
  | TitleMenu => ms = [ header tx; row tx 5 (lit "Loopmasters") 4; footer tx ]
  | AlbumsOfArtist _ => ms = [ header tx; row tx 0 (lit "Unknown") 2; footer tx ]
  | TitlesOfArtist a =>
      exists rows, ms = header tx :: rows ++ [footer tx] /\
        Permutation rows (map (fun '(i, s) => row tx i (s_title s) 4) (tracks_of_artist l a))
  | TrackMetadata t =>
      exists s, track_with_id l t = Some s /\ ms = metadata_page tx s
  | TrackMountInfo t =>
      exists s path, track_with_id l t = Some s /\ str_ok path /\ s_path s = utf8_encode path /\
        ms = mount_page tx s path
  end.
