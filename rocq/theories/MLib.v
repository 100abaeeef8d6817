(** Model of the remote-DB server, src/rekordbox/library.rs (with request.rs and
    metadata_type.rs). *)

From Verif Require Import Base Unicode MDb MDatabase MFixtures.
From Coq Require Import String.
Open Scope N_scope.
Open Scope list_scope.

(** ** Item types: metadata_type.rs *)

(** metadata_type.rs:3. *)
Definition MOUNT_PATH : N := 0x00.
(** metadata_type.rs:5. *)
Definition ALBUM : N := 0x02.
(** metadata_type.rs:6. *)
Definition TITLE : N := 0x04.
(** metadata_type.rs:7. *)
Definition GENRE : N := 0x06.
(** metadata_type.rs:8. *)
Definition ARTIST : N := 0x07.
(** metadata_type.rs:10. *)
Definition RATING : N := 0x0a.
(** metadata_type.rs:11. *)
Definition DURATION : N := 0x0b.
(** metadata_type.rs:12. *)
Definition BPM : N := 0x0d.
(** metadata_type.rs:14. *)
Definition KEY : N := 0x0f.
(** metadata_type.rs:15. *)
Definition COLOR_NONE : N := 0x13.
(** metadata_type.rs:16. *)
Definition UNKNOWN1 : N := 0x2f.
(** metadata_type.rs:18. *)
Definition COMMENT : N := 0x23.
(** metadata_type.rs:19. *)
Definition ROOT_ARTIST : N := 0x81.
(** metadata_type.rs:20. *)
Definition ROOT_ALBUM : N := 0x82.
(** metadata_type.rs:21. *)
Definition ROOT_TRACK : N := 0x83.
(** metadata_type.rs:22. *)
Definition ROOT_PLAYLIST : N := 0x84.
(** metadata_type.rs:24. *)
Definition ROOT_KEY : N := 0x8b.
(** metadata_type.rs:26. *)
Definition ROOT_SEARCH : N := 0x91.
(** metadata_type.rs:27. *)
Definition ROOT_HISTORY : N := 0x95.

(** ** Connection state *)

(** library.rs:595-604, [enum StatefulRequest]. *)
Inductive stateful :=
| SRootMenu
| SArtist
| STitle
| SAlbumByArtist (artist_id : N)
| STitleByArtistAlbum (artist_id : N)
| SMetadata (track_id : N)
| SMountInfo (track_id : N).

(** library.rs:28-46, [struct ClientState]: the mutable part is
    [previous_request]; the server state is never used by the handlers and the
    database is never modified after start-up. *)
Definition client_state := option stateful.

(** library.rs:523-535, [dbfield_to_u32]. *)
Definition dbfield_to_u32 (f : field) : res N :=
  match f_kind f with
  | FU32 => if len (f_value f) <? 4 then Panic else Ok (of_be (firstn 4 (f_value f)))
  | _ => Panic
  end.

(** [request.message.arguments[i]], db_message_argument.rs:76-81: out of range
    panics. *)
Definition argument_at (m : message) (i : nat) : res field :=
  unwrap_opt (nth_error (m_arguments m) i).

(** library.rs:53-55, [ok_request]. *)
Definition ok_request : bytes := field_as_bytes (mkField FU16 [0x40; 0x00]).

(** [[0u8, 0u8, request_type[0], request_type[1]]], e.g. library.rs:95: the code
    of the answered request as a number field. *)
Definition request_code_field (t : request_type) : field :=
  field_of_4 [0x00; 0x00; nth 0 (request_type_value t) 0; nth 1 (request_type_value t) 0].

(** ** Controllers answering a menu request *)

(** library.rs:57-70, [SetupController]. *)
Definition setup_controller (m : message) : bytes :=
  message_to_response (m_transaction_id m)
  ++ ok_request
  ++ arguments_encode [ field_of_4 [0x00; 0x00; 0x00; 0x00];
                        field_of_4 [0x00; 0x00; 0x00; 0x11] ].

(** library.rs:72-85, [RootMenuController]. *)
Definition root_menu_controller (m : message) : bytes :=
  message_to_response (m_transaction_id m)
  ++ ok_request
  ++ arguments_encode [ field_of_4 [0x00; 0x00; 0x10; 0x00];
                        field_of_4 [0x00; 0x00; 0x00; 0x08] ].

(** library.rs:87-105, [AlbumByArtistController]. *)
Definition album_by_artist_controller (h : hash_order) (d : database)
  (m : message) (st : client_state) : res (bytes * client_state) :=
  do a <- argument_at m 2;
  do artist_id <- dbfield_to_u32 a;
  Ok (message_to_response (m_transaction_id m)
      ++ ok_request
      ++ arguments_encode
           [ request_code_field (m_request_type m);
             field_of_u32 (number_of_tracks_by_artist h d artist_id) ],
      Some (SAlbumByArtist artist_id)).

(** library.rs:107-121, [ArtistController]. *)
Definition artist_controller (h : hash_order) (d : database) (m : message) : bytes :=
  message_to_response (m_transaction_id m)
  ++ ok_request
  ++ arguments_encode
       [ request_code_field (m_request_type m);
         field_of_u32 (number_of_artists h d) ].

(** library.rs:123-137, [PreviewWaveformController]. *)
Definition preview_waveform_controller (m : message) : bytes :=
  message_to_response (m_transaction_id m)
  ++ field_as_bytes (field_of_2 [0x44; 0x02])
  ++ arguments_encode
       [ field_of_4 [0x00; 0x00; 0x20; 0x04];
         field_of_u32 0;
         field_of_4 [0x00; 0x00; 0x03; 0x88];
         mkField FBinary preview_waveform_response ].

(** library.rs:139-144, [TitleController]. *)
Definition title_controller (m : message) : bytes :=
  message_to_response (m_transaction_id m).

(** library.rs:503-521, [QueryMountInfoController]. *)
Definition mount_info_controller (m : message) : res (bytes * client_state) :=
  do a <- argument_at m 1;
  do track_id <- dbfield_to_u32 a;
  Ok (message_encode
        (mkMessage (m_transaction_id m) Success
           [ request_code_field (m_request_type m); field_of_u32 6 ]),
      Some (SMountInfo track_id)).

(** library.rs:537-555, [TitleByArtistAlbumController]. *)
Definition title_by_artist_album_controller (h : hash_order) (d : database)
  (m : message) : res (bytes * client_state) :=
  do a <- argument_at m 2;
  do artist_id <- dbfield_to_u32 a;
  Ok (message_encode
        (mkMessage (m_transaction_id m) Success
           [ request_code_field (m_request_type m);
             field_of_u32 (number_of_tracks_by_artist h d artist_id) ]),
      Some (STitleByArtistAlbum artist_id)).

(** library.rs:557-574, [MetadataController]. *)
Definition metadata_controller (m : message) : res (bytes * client_state) :=
  do a <- argument_at m 1;
  do track_id <- dbfield_to_u32 a;
  Ok (message_encode
        (mkMessage (m_transaction_id m) Success
           [ request_code_field (m_request_type m); field_of_u32 10 ]),
      Some (SMetadata track_id)).

(** library.rs:576-593, [LoadTrackController]. *)
Definition load_track_controller (m : message) : bytes :=
  message_encode
    (mkMessage (m_transaction_id m) LoadTrackSuccess
       [ request_code_field (m_request_type m);
         field_of_u32 1;
         field_of_u32 0;
         mkField FBinary [];
         field_of_u32 0 ]).

(** ** Pages *)

(** library.rs:146-155, [build_message_header]. *)
Definition build_message_header (tx : field) : message :=
  mkMessage tx MenuHeader
    [ field_of_4 [0x00; 0x00; 0x00; 0x01]; field_of_4 [0x00; 0x00; 0x00; 0x00] ].

(** The item messages built inline, e.g. library.rs:318-329. *)
Definition item_message (tx : field) (a : item_arguments) : message :=
  mkMessage tx MenuItem (item_fields a).

(** library.rs:157-173, [build_message_item]. *)
Definition build_message_item (tx : field) (v1 : str) (entry_type id2 : N) : message :=
  item_message tx (with_id2 id2 (with_value1 v1 (with_type entry_type default_item))).

(** library.rs:175-181, [build_message_footer]. *)
Definition build_message_footer (tx : field) : message :=
  mkMessage tx MenuFooter [ field_of_u32 1; field_of_u32 1 ].

(** The footer without arguments, e.g. library.rs:226-230. *)
Definition empty_footer (tx : field) : message := mkMessage tx MenuFooter [].

(** The text [\u{fffa}NAME\u{fffb}] of library.rs:193-205. *)
Definition menu_name (s : string) : str := [0xfffa] ++ lit s ++ [0xfffb].

(** library.rs:190-206, the table of the root menu: name, item type, id. *)
Definition root_menu_items : list (str * N * N) :=
  [ (menu_name "ARTIST", ROOT_ARTIST, 0x02);
    (menu_name "ALBUM", ROOT_ALBUM, 0x03);
    (menu_name "TRACK", ROOT_TRACK, 0x04);
    (menu_name "KEY", ROOT_KEY, 0x0c);
    (menu_name "PLAYLIST", ROOT_PLAYLIST, 0x05);
    (menu_name "HISTORY", ROOT_HISTORY, 0x16);
    (menu_name "SEARCH", ROOT_SEARCH, 0x12) ].

(** library.rs:185-213, [render_root_menu]. *)
Definition render_root_menu (tx : field) : list message :=
  [build_message_header tx]
  ++ map (fun '(n, t, id) => build_message_item tx n t id) root_menu_items
  ++ [build_message_footer tx].

(** library.rs:215-235, [render_artist_page]. *)
Definition render_artist_page (h : hash_order) (d : database) (tx : field) : list message :=
  [build_message_header tx]
  ++ map (fun a => build_message_item tx (a_name a) ARTIST (a_id a)) (artists h d)
  ++ [empty_footer tx].

(** library.rs:237-254, [render_title_page]. *)
Definition render_title_page (tx : field) : list message :=
  [ build_message_header tx;
    build_message_item tx (lit "Loopmasters") TITLE 0x05;
    empty_footer tx ].

(** library.rs:256-279, [render_album_by_artist]. *)
Definition render_album_by_artist (tx : field) : list message :=
  [ build_message_header tx;
    build_message_item tx (lit "Unknown") ALBUM 0x00;
    empty_footer tx ].

(** library.rs:281-308, [render_title_by_artist_album]. *)
Definition render_title_by_artist_album (h : hash_order) (d : database)
  (tx : field) (artist_id : N) : list message :=
  [build_message_header tx]
  ++ map (fun t => build_message_item tx (t_title t) TITLE (t_id t))
         (title_by_artist h d artist_id)
  ++ [empty_footer tx].

(** library.rs:310-418, [render_metadata]; lines 317 and 318 unwrap. *)
Definition render_metadata (d : database) (tx : field) (track_id : N) : res (list message) :=
  do t <- unwrap_opt (get_track d track_id);
  do a <- unwrap_opt (get_artist d (t_artist_id t));
  let bpm := match t_bpm t with Some b => b | None => 0 end in
  Ok [ build_message_header tx;
       item_message tx (with_id1 1 (with_id2 5 (with_id4 256
                          (with_value1 (t_title t) (with_type TITLE default_item)))));
       item_message tx (with_id1 1 (with_id2 1
                          (with_value1 (a_name a) (with_type ARTIST default_item))));
       item_message tx (with_id1 1 (with_type ALBUM default_item));
       item_message tx (with_id2 195 (with_type DURATION default_item));
       item_message tx (with_id2 bpm (with_type BPM default_item));
       item_message tx (with_id2 5 (with_value1 [] (with_type COMMENT default_item)));
       item_message tx (with_id1 1 (with_type KEY default_item));
       item_message tx (with_type RATING default_item);
       item_message tx (with_type COLOR_NONE default_item);
       item_message tx (with_type GENRE default_item);
       empty_footer tx ].

(** library.rs:420-500, [render_mount_info]; line 490 panics, and so does
    [track.path()] on line 476 for a path that is not UTF-8. *)
Definition render_mount_info (d : database) (tx : field) (track_id : N) : res (list message) :=
  match get_track d track_id with
  | Some t =>
      let bpm := match t_bpm t with Some b => b | None => 0 end in
      do path <- track_path t;
      Ok [ build_message_header tx;
           item_message tx (with_type TITLE (with_id2 1 default_item));
           item_message tx (with_type DURATION (with_id2 195 default_item));
           item_message tx (with_type BPM (with_id2 bpm default_item));
           item_message tx (with_type COMMENT
                              (with_value1 (lit "Tracks by www.loopmasters.com") default_item));
           item_message tx (with_type MOUNT_PATH (with_id1 (t_size t)
                              (with_id2 5 (with_value1 path default_item))));
           item_message tx (with_type UNKNOWN1 (with_id2 1 default_item));
           empty_footer tx ]
  | None => Panic
  end.

(** library.rs:606-627, [RenderController]. *)
Definition render_controller (h : hash_order) (d : database) (m : message)
  (st : client_state) : res bytes :=
  let tx := m_transaction_id m in
  rmap messages_encode
    match st with
    | Some SRootMenu => Ok (render_root_menu tx)
    | Some SArtist => Ok (render_artist_page h d tx)
    | Some STitle => Ok (render_title_page tx)
    | Some (SAlbumByArtist _) => Ok (render_album_by_artist tx)
    | Some (STitleByArtistAlbum a) => Ok (render_title_by_artist_album h d tx a)
    | Some (SMetadata t) => render_metadata d tx t
    | Some (SMountInfo t) => render_mount_info d tx t
    | None => Ok []
    end.

(** ** Dispatch *)

(** library.rs:650-665, [handle_sequence_requests]. *)
Definition handle_sequence_requests (t : request_type) (st : client_state) : client_state :=
  match t with
  | ArtistRequest => Some SArtist
  | TitleRequest => Some STitle
  | RootMenuRequest => Some SRootMenu
  | _ => st
  end.

(** library.rs:629-644, [get_controller], together with the call of the
    controller it returns (request.rs:42-44, [respond_to]); [None] is the
    absence of a controller. *)
Definition controller (h : hash_order) (d : database) (m : message) (st : client_state)
  : option (res (bytes * client_state)) :=
  match m_request_type m with
  | AlbumByArtistRequest => Some (album_by_artist_controller h d m st)
  | ArtistRequest => Some (Ok (artist_controller h d m, st))
  | LoadTrackRequest => Some (Ok (load_track_controller m, st))
  | MetadataRequest => Some (metadata_controller m)
  | MountInfoRequest => Some (mount_info_controller m)
  | PreviewWaveformRequest => Some (Ok (preview_waveform_controller m, st))
  | RenderRequest => Some (rmap (fun b => (b, st)) (render_controller h d m st))
  | RootMenuRequest => Some (Ok (root_menu_controller m, st))
  | Setup => Some (Ok (setup_controller m, st))
  | TitleByArtistAlbumRequest => Some (title_by_artist_album_controller h d m)
  | TitleRequest => Some (Ok (title_controller m, st))
  | _ => None
  end.

(** library.rs:667-698, [process]. *)
Definition process (p : profile) (h : hash_order) (d : database)
  (st : client_state) (chunk : bytes) : res (bytes * client_state) :=
  if len chunk =? 5 then Ok (chunk, st)
  else
    match parse_message p chunk with
    | Ok (_, m) =>
        match controller h d m (handle_sequence_requests (m_request_type m) st) with
        | Some r => r
        | None => Ok (message_encode (mkMessage (m_transaction_id m) Success []), st)
        end
    | Err => Ok (lit "panic", st)
    | Panic => Panic
    end.

(** ** Connections *)

(** library.rs:731-785 and 700-729: the listener on port 12523 and the handlers
    it starts.  A handler first waits for one connection on its own port
    ([Listening]), then serves it ([Serving]); a panic ends its task, as does
    the end of the stream ([Gone]).  The listening socket stays open while the
    connection is served but accepts no second one. *)
Inductive handler := NoHandler | Listening | Serving (st : client_state) | Gone.

(** The handler of each port, the tasks of library.rs:700-729. *)
Definition db_ports := N -> handler.

(** What happens to the service.  [Query port chunk]: a (non-empty) chunk arrives
    on a connection to port 12523 and the operating system hands out [port] for
    the new listener (line 755-760).  [Connect]: a client connects to a handler's
    port.  [Chunk]: BytesCodec delivers a chunk.  [Close]: end of stream.  An
    accept that fails at a handler's port (line 727) has the effect of [Connect]
    followed by [Close]; one that fails on port 12523 (line 782) has none. *)
Inductive db_event :=
| Query (port : N) (chunk : bytes)
| Connect (port : N)
| Chunk (port : N) (chunk : bytes)
| Close (port : N).

(** What is sent: the answer on the query connection (library.rs:770-772), or an
    answer on the connection served on a handler's port (line 713-715). *)
Inductive db_output :=
| PortAnswer (data : bytes)
| Answer (port : N) (data : bytes).

(** The state of one port replaced; lines 700-729 of library.rs run once per port. *)
Definition set_port (s : db_ports) (port : N) (x : handler) : db_ports :=
  fun q => if q =? port then x else s q.

(** One step: lines 750-779 for [Query], 705-708 for [Connect], 710-725 for
    [Chunk] and [Close]. *)
Definition db_step (p : profile) (h : hash_order) (d : database)
  (s : db_ports) (e : db_event) : db_ports * list db_output :=
  match e with
  | Query port _ => (set_port s port Listening, [PortAnswer (be 2 port)])
  | Connect port =>
      match s port with
      | Listening => (set_port s port (Serving None), [])
      | _ => (s, [])
      end
  | Chunk port chunk =>
      match s port with
      | Serving st =>
          match process p h d st chunk with
          | Ok (answer, st') => (set_port s port (Serving st'), [Answer port answer])
          | _ => (set_port s port Gone, [])
          end
      | _ => (s, [])
      end
  | Close port =>
      match s port with
      | Serving _ => (set_port s port Gone, [])
      | _ => (s, [])
      end
  end.

(** The accept loop (library.rs:741) and the chunk loops (710) turn after turn. *)
Fixpoint db_run (p : profile) (h : hash_order) (d : database)
  (s : db_ports) (es : list db_event) : db_ports * list db_output :=
  match es with
  | [] => (s, [])
  | e :: r =>
      let '(s', o) := db_step p h d s e in
      let '(s'', o') := db_run p h d s' r in
      (s'', o ++ o')
  end.

(** One connection on its own, library.rs:710-725: the answers in order; the
    list ends where the task panicked. *)
Fixpoint serve (p : profile) (h : hash_order) (d : database)
  (st : client_state) (chunks : list bytes) : list bytes :=
  match chunks with
  | [] => []
  | c :: r =>
      match process p h d st c with
      | Ok (answer, st') => answer :: serve p h d st' r
      | _ => []
      end
  end.
