(** Model of the remote-DB wire format:
    src/rekordbox/db_field.rs, src/rekordbox/db_message_argument.rs,
    src/rekordbox/db_request_type.rs and the first part of
    src/rekordbox/packets.rs. *)

From Verif Require Import Base Unicode.

(** ** Fields: db_field.rs *)

(** db_field.rs:117-123, [enum DBFieldType]. *)
Inductive field_type := FU8 | FU16 | FU32 | FString | FBinary.

(** db_field.rs:15-19, [struct DBField]. *)
Record field := mkField { f_kind : field_type; f_value : bytes }.

(** db_field.rs:126-137, [DBFieldType::name]. *)
Definition field_type_name (v : N) : res field_type :=
  match v with
  | 0x0f => Ok FU8
  | 0x10 => Ok FU16
  | 0x11 => Ok FU32
  | 0x14 => Ok FBinary
  | 0x26 => Ok FString
  | _ => Err
  end.

(** db_field.rs:139-147, [DBFieldType::value]. *)
Definition field_type_value (k : field_type) : N :=
  match k with
  | FU8 => 0x0f
  | FU16 => 0x10
  | FU32 => 0x11
  | FBinary => 0x14
  | FString => 0x26
  end.

(** db_field.rs:21-25, [From<Binary> for DBField]. *)
Definition field_of_binary (v : bytes) : field := mkField FBinary v.
(** db_field.rs:27-31, [From<u32> for DBField]. *)
Definition field_of_u32 (v : N) : field := mkField FU32 (be 4 v).
(** db_field.rs:33-37, [From<u16> for DBField]. *)
Definition field_of_u16 (v : N) : field := mkField FU16 (be 2 v).
(** db_field.rs:39-43, [From<u8> for DBField]. *)
Definition field_of_u8 (v : N) : field := mkField FU8 [v].
(** db_field.rs:45-61, [From<&str> for DBField]; the empty string needs no case
    of its own, its UTF-16 form is empty. *)
Definition field_of_str (s : str) : field := mkField FString (utf16_be s).
(** db_field.rs:63-67, [From<[u8; 4]> for DBField]. *)
Definition field_of_4 (v : bytes) : field := mkField FU32 v.
(** db_field.rs:69-73, [From<[u8; 2]> for DBField]. *)
Definition field_of_2 (v : bytes) : field := mkField FU16 v.

(** db_field.rs:83-107, [DBField::as_bytes].  Line 89 computes
    [self.value.len() as u8 / 2+1], i.e. the length is truncated to 8 bits
    before it is halved; the sum is at most 128 and cannot overflow. *)
Definition field_as_bytes (f : field) : bytes :=
  match f_kind f with
  | FString =>
      [field_type_value FString]
      ++ [0x00; 0x00; 0x00; as_u8 (len (f_value f)) / 2 + 1]
      ++ f_value f
      ++ [0x00; 0x00]
  | FBinary =>
      if 0 <? len (f_value f)
      then [field_type_value FBinary]
           ++ be 4 (as_u32 (len (f_value f)))
           ++ f_value f
      else []
  | k => [field_type_value k] ++ f_value f
  end.

(** ** Arguments: db_message_argument.rs *)

(** db_message_argument.rs:9-15 and 17-27, [ArgumentType::new] composed with
    the conversion of lines 40-50; the panic of line 25 is [Panic]. *)
Definition argument_type_new (v : N) : res field_type :=
  match v with
  | 0x04 => Ok FU8
  | 0x05 => Ok FU16
  | 0x06 => Ok FU32
  | 0x02 => Ok FString
  | 0x03 => Ok FBinary
  | _ => Panic
  end.

(** db_message_argument.rs:29-37 and 52-62, [ArgumentType::from] and
    [ArgumentType::value]. *)
Definition argument_type_value (k : field_type) : N :=
  match k with
  | FU8 => 0x04
  | FU16 => 0x05
  | FU32 => 0x06
  | FString => 0x02
  | FBinary => 0x03
  end.

(** db_message_argument.rs:141-178, [Argument::decode]. *)
Definition argument_decode (p : profile) (k : field_type) : parser field := fun i =>
  match k with
  | FString =>
      do (i, _) <- take 1 i;
      do (i, variable_size) <- be_u32 i;
      do s <- u32_sub p variable_size 1;
      do n <- u32_mul p s 2;
      do (i, data) <- take n i;
      do (i, _) <- be_u16 i;
      Ok (i, mkField FString data)
  | FU8 =>
      do (i, _) <- take 1 i;
      do (i, data) <- take 1 i;
      Ok (i, mkField FU8 data)
  | FU16 =>
      do (i, _) <- take 1 i;
      do (i, data) <- take 2 i;
      Ok (i, mkField FU16 data)
  | FU32 =>
      do (i, _) <- take 1 i;
      do (i, data) <- take 4 i;
      Ok (i, mkField FU32 data)
  | FBinary =>
      if len i <? 4 then Ok (i, mkField FBinary [])
      else
        do (i, variable_size) <- be_u32 i;
        do (i, data) <- take variable_size i;
        Ok (i, mkField FBinary data)
  end.

(** db_message_argument.rs:101-106, the closure mapped over
    [0x00 .. argument_count[1]]: [types] are the not yet used entries of
    [argument_types]; indexing past its end (line 102) and the [unwrap] of
    line 103 panic. *)
Fixpoint arguments_loop (p : profile) (n : nat) (types : bytes) (i : bytes)
  : res (list field) :=
  match n with
  | O => Ok []
  | S n' =>
      match types with
      | [] => Panic
      | t :: types' =>
          do k <- argument_type_new t;
          do (i, f) <- unwrap (argument_decode p k i);
          do fs <- arguments_loop p n' types' i;
          Ok (f :: fs)
      end
  end.

(** db_message_argument.rs:96-109, [ArgumentCollection::decode]; the remaining
    input is always reported as empty (line 108). *)
Definition arguments_decode (p : profile) : parser (list field) := fun i =>
  do (i, argument_count) <- take 2 i;
  do (i, _) <- take 5 i;
  do (i, argument_types) <- take 12 i;
  do items <- arguments_loop p (N.to_nat (nth 1 argument_count 0)) argument_types i;
  Ok ([], items).

(** db_message_argument.rs:112-132, [From<ArgumentCollection> for Bytes]. *)
Definition arguments_encode (fs : list field) : bytes :=
  let arg_count := as_u8 (len fs) in
  [0x0f; arg_count; 0x14; 0x00; 0x00; 0x00; 0x0c]
  ++ map (fun f => argument_type_value (f_kind f)) fs
  ++ (if arg_count <? 12 then fill (12 - N.to_nat arg_count) 0x00 else [])
  ++ flat_map field_as_bytes fs.

(** ** Request types: db_request_type.rs *)

(** db_request_type.rs:4-28, [enum DBRequestType]. *)
Inductive request_type :=
| AlbumByArtistRequest
| AlbumRequest
| ArtistRequest
| GenreRequest
| HistoryRequest
| KeyRequest
| MenuFooter
| MenuHeader
| MenuItem
| MetadataRequest
| MountInfoRequest
| LoadTrackRequest
| LoadTrackSuccess
| PlaylistRequest
| PreviewWaveformRequest
| RenderRequest
| RootMenuRequest
| SearchQueryRequest
| Setup
| Success
| TitleByArtistAlbumRequest
| TitleRequest
| UnknownRequest (v : N).

(** db_request_type.rs:31-50, [DBRequestType::value]. *)
Definition request_type_value (t : request_type) : bytes :=
  match t with
  | AlbumByArtistRequest => [0x11; 0x02]
  | ArtistRequest => [0x10; 0x02]
  | LoadTrackRequest => [0x2b; 0x04]
  | MenuFooter => [0x42; 0x01]
  | MenuHeader => [0x40; 0x01]
  | MenuItem => [0x41; 0x01]
  | LoadTrackSuccess => [0x4e; 0x02]
  | MetadataRequest => [0x20; 0x02]
  | MountInfoRequest => [0x21; 0x02]
  | PreviewWaveformRequest => [0x20; 0x04]
  | RootMenuRequest => [0x10; 0x00]
  | RenderRequest => [0x30; 0x00]
  | Setup => [0x00; 0x00]
  | Success => [0x40; 0x00]
  | TitleByArtistAlbumRequest => [0x12; 0x02]
  | _ => [0x00; 0x00]
  end.

(** db_request_type.rs:52-77, [DBRequestType::new]. *)
Definition request_type_new (v : N) : request_type :=
  match v with
  | 0 => Setup
  | 4096 => RootMenuRequest
  | 4097 => GenreRequest
  | 4098 => ArtistRequest
  | 4099 => AlbumRequest
  | 4100 => TitleRequest
  | 4114 => HistoryRequest
  | 4116 => KeyRequest
  | 4354 => AlbumByArtistRequest
  | 4357 => PlaylistRequest
  | 4610 => TitleByArtistAlbumRequest
  | 4864 => SearchQueryRequest
  | 8194 => MetadataRequest
  | 8196 => PreviewWaveformRequest
  | 8450 => MountInfoRequest
  | 11012 => LoadTrackRequest
  | 12288 => RenderRequest
  | 16384 => Success
  | 16385 => MenuHeader
  | 16641 => MenuItem
  | 16897 => MenuFooter
  | _ => UnknownRequest v
  end.

(** ** Messages: packets.rs:18-200 *)

(** packets.rs:49-54, [struct DBMessage]. *)
Record message := mkMessage {
  m_transaction_id : field;
  m_request_type : request_type;
  m_arguments : list field
}.

(** packets.rs:100, [DBMessage::MAGIC]. *)
Definition db_magic : bytes := [0x87; 0x23; 0x49; 0xae].

(** packets.rs:114-117, [DBMessage::magic]. *)
Definition parse_magic : parser unit := fun i =>
  do (i, _) <- take 1 i;
  tag db_magic i.

(** packets.rs:119-130, [DBMessage::transaction_id]; unknown tags panic at the
    [unwrap] of line 126. *)
Definition parse_transaction_id : parser field := fun i =>
  do (i, kind) <- take 1 i;
  do (i, transaction) <- take 4 i;
  do k <- unwrap (field_type_name (nth 0 kind 0));
  Ok (i, mkField k transaction).

(** packets.rs:132-140, [DBMessage::request_type]. *)
Definition parse_request_type : parser request_type := fun i =>
  do (i, _) <- take 1 i;
  do (i, data) <- be_u16 i;
  Ok (i, request_type_new data).

(** packets.rs:146-157, [DBMessage::parse] (and 142-144, [arguments]). *)
Definition parse_message (p : profile) : parser message := fun i =>
  do (i, _) <- parse_magic i;
  do (i, transaction_id) <- parse_transaction_id i;
  do (i, rt) <- parse_request_type i;
  do (i, arguments) <- arguments_decode p i;
  Ok (i, mkMessage transaction_id rt arguments).

(** packets.rs:159-167, [DBMessage::to_response]. *)
Definition message_to_response (transaction_id : field) : bytes :=
  [0x11] ++ db_magic ++ field_as_bytes transaction_id.

(** packets.rs:170-180, [From<DBMessage> for Bytes]. *)
Definition message_encode (m : message) : bytes :=
  message_to_response (m_transaction_id m)
  ++ [0x10]
  ++ request_type_value (m_request_type m)
  ++ arguments_encode (m_arguments m).

(** packets.rs:193-200, [From<ManyDBMessages> for Bytes]. *)
Definition messages_encode (ms : list message) : bytes := flat_map message_encode ms.

(** packets.rs:56-64, [struct Arguments]. *)
Record item_arguments := mkItem {
  entry_id1 : N;
  entry_id2 : N;
  entry_id3 : N;
  entry_id4 : N;
  value1 : str;
  value2 : str;
  item_type : N
}.

(** packets.rs:66-78, [Default for Arguments]; 0x81 is [ROOT_ARTIST],
    metadata_type.rs:19. *)
Definition default_item : item_arguments := mkItem 0 0 0 0 [] [] 0x81.

(** [Arguments { entry_id1: v, .. }] and so on, e.g. library.rs:320-328: one field
    given, the others as in [a]. *)
Definition with_id1 (v : N) (a : item_arguments) : item_arguments :=
  mkItem v (entry_id2 a) (entry_id3 a) (entry_id4 a) (value1 a) (value2 a) (item_type a).
(** [entry_id2], e.g. library.rs:166. *)
Definition with_id2 (v : N) (a : item_arguments) : item_arguments :=
  mkItem (entry_id1 a) v (entry_id3 a) (entry_id4 a) (value1 a) (value2 a) (item_type a).
(** [entry_id4], library.rs:325. *)
Definition with_id4 (v : N) (a : item_arguments) : item_arguments :=
  mkItem (entry_id1 a) (entry_id2 a) (entry_id3 a) v (value1 a) (value2 a) (item_type a).
(** [value1], e.g. library.rs:167. *)
Definition with_value1 (v : str) (a : item_arguments) : item_arguments :=
  mkItem (entry_id1 a) (entry_id2 a) (entry_id3 a) (entry_id4 a) v (value2 a) (item_type a).
(** [_type], e.g. library.rs:168. *)
Definition with_type (v : N) (a : item_arguments) : item_arguments :=
  mkItem (entry_id1 a) (entry_id2 a) (entry_id3 a) (entry_id4 a) (value1 a) (value2 a) v.

(** packets.rs:80-97, [From<Arguments> for ArgumentCollection].  The [usize]
    arithmetic [count() * 2 + 2] cannot overflow; the cast is a truncation. *)
Definition item_fields (a : item_arguments) : list field :=
  [ field_of_4 (be 4 (entry_id1 a));
    field_of_4 (be 4 (entry_id2 a));
    field_of_u32 (as_u32 (len (utf16_encode (value1 a)) * 2 + 2));
    field_of_str (value1 a);
    field_of_u32 (as_u32 (len (utf16_encode (value2 a)) * 2 + 2));
    field_of_str (value2 a);
    field_of_u32 (item_type a);
    field_of_u32 0;
    field_of_4 (be 4 (entry_id3 a));
    field_of_u32 0;
    field_of_4 (be 4 (entry_id4 a));
    field_of_u32 0 ].
