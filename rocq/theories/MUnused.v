(** Model of the public functions of the crate that its own program never
    calls: the iterator and the marks of the player collection
    (rekordbox/player.rs), the codec for database messages
    (rekordbox/library/codec.rs), the encoder of one argument
    (rekordbox/db_message_argument.rs), the decoder of NFS procedure numbers and the
    default replies (rpc/packets.rs), the list of all tracks
    (rekordbox/library/database.rs), the access functions of the shared state
    (rekordbox/server.rs), the name in packets.rs and the array copy of util.rs. *)

From Verif Require Import Base Unicode MPackets MNetwork MDb MDatabase MServer MRpc MNfs.
From Coq Require Import ZArith String.
Open Scope list_scope.
Open Scope N_scope.

(** ** rekordbox/player.rs *)

(** player.rs:21-27 and 56-58, [get_mut] and [set_linking] on the player found:
    the first of that address is marked, and nothing happens when there is none. *)
Fixpoint mark_linking (players : list player) (address : ipv4) (val : bool) : list player :=
  match players with
  | [] => []
  | p :: rest =>
      if pl_address p =? address
      then mkPlayer (pl_model p) (pl_address p) (pl_number p) val :: rest
      else p :: mark_linking rest address val
  end.

(** The calls that change a collection: player.rs:60-79 [add_or_update], and
    lines 56-58 with 25-27, a mark through [get_mut]. *)
Inductive coll_call :=
| CReport (p : player)
| CMark (address : ipv4) (val : bool).

(** player.rs:40-42 [PlayerCollection::new], then the calls in turn. *)
Definition coll_step (ps : list player) (c : coll_call) : list player :=
  match c with
  | CReport p => add_or_update ps p
  | CMark a v => mark_linking ps a v
  end.
(** player.rs:40-42, 60-79, 25-27: the calls on a new collection. *)
Definition coll_run (cs : list coll_call) : list player := fold_left coll_step cs [].

(** player.rs:44-48, [PlayerCollection::iter]: a copy of the players. *)
Definition coll_iter (ps : list player) : list player := ps.

(** player.rs:88-94, [PlayerIter::next], which is [Vec::pop]: the last element
    and what is left. *)
Fixpoint iter_next (ps : list player) : option player * list player :=
  match ps with
  | [] => (None, [])
  | [p] => (Some p, [])
  | p :: rest => let (x, rest') := iter_next rest in (x, p :: rest')
  end.

(** player.rs:50-52 and 96-100, [PlayerCollection::len] and [PlayerIter::len]. *)
Definition coll_len (ps : list player) : N := len ps.

(** The items a [for] loop over the iterator receives, calling [next] until it
    answers [None].  The fuel is the number of players: that it suffices is
    part of what is proved. *)
Fixpoint iter_all (fuel : nat) (ps : list player) : list player :=
  match fuel with
  | O => []
  | S n => match iter_next ps with
           | (None, _) => []
           | (Some p, rest) => p :: iter_all n rest
           end
  end.

(** player.rs:102-108, [Index::index]: a panic outside the bounds. *)
Definition coll_index (ps : list player) (idx : N) : res player :=
  match nth_error ps (N.to_nat idx) with
  | Some p => Ok p
  | None => Panic
  end.

(** ** rekordbox/library/codec.rs *)

(** library/codec.rs:23-34, [Decoder::decode] with packets.rs:182-191,
    [TryFrom<Bytes> for DBMessage]: the outcome and what stays in the buffer.
    The whole buffer is split off before it is parsed. *)
Definition db_codec_decode (p : profile) (buf : bytes) : res (option message) * bytes :=
  if 0 <? len buf
  then (match parse_message p buf with
        | Ok (_, m) => Ok (Some m)
        | Err => Err
        | Panic => Panic
        end, [])
  else (Ok None, buf).

(** library/codec.rs:37-45, [Encoder::encode]. *)
Definition db_codec_encode (m : message) (buf : bytes) : bytes := buf ++ message_encode m.

(** ** rekordbox/db_message_argument.rs *)

(** db_message_argument.rs:180-204, [Argument::encode], on the kind and the
    bytes of an argument. *)
Definition argument_encode (f : field) : bytes :=
  match f_kind f with
  | FString =>
      [field_type_value FString; 0x00; 0x00; 0x00; as_u8 (len (f_value f)) / 2 + 1]
      ++ f_value f
      ++ [0x00; 0x00]
  | k => [field_type_value k] ++ f_value f
  end.

(** ** rpc/packets.rs *)

(** rpc/packets.rs:953-973, [enum NfsProcedure]. *)
Inductive nfs_procedure :=
| NpNull | NpGetattr | NpSattrargs | NpRoot | NpLookup | NpReadlink | NpRead
| NpWritecache | NpWrite | NpCreate | NpRemove | NpRename | NpLink | NpSymlink
| NpMkdir | NpRmdir | NpReaddir | NpStatfs.

(** rpc/packets.rs:975-1002, [Decoder for NfsProcedure]. *)
Definition nfs_procedure_decode : parser nfs_procedure := fun i =>
  do (i, procedure) <- be_u32 i;
  match procedure with
  | 0 => Ok (i, NpNull)
  | 1 => Ok (i, NpGetattr)
  | 2 => Ok (i, NpSattrargs)
  | 3 => Ok (i, NpRoot)
  | 4 => Ok (i, NpLookup)
  | 5 => Ok (i, NpReadlink)
  | 6 => Ok (i, NpRead)
  | 7 => Ok (i, NpWritecache)
  | 8 => Ok (i, NpWrite)
  | 9 => Ok (i, NpCreate)
  | 10 => Ok (i, NpRemove)
  | 11 => Ok (i, NpRename)
  | 12 => Ok (i, NpLink)
  | 13 => Ok (i, NpSymlink)
  | 14 => Ok (i, NpMkdir)
  | 15 => Ok (i, NpRmdir)
  | 16 => Ok (i, NpReaddir)
  | 17 => Ok (i, NpStatfs)
  | _ => Err
  end.

(** ** rekordbox/library/database.rs *)

(** database.rs:278-280, [Database::tracks]. *)
Definition database_tracks (db : database) : res (list track) := Ok [].

(** ** rekordbox/server.rs *)

(** The calls that change a state from outside: server.rs:289-291 [set_linking],
    293-295 [set_discovery], 305-307 [set_address]. *)
Inductive state_call :=
| SetLinking (value : bool)
| SetDiscovery (value : bool)
| SetAddress (address : network).

(** server.rs:289-295 and 305-307. *)
Definition state_step (s : server_state) (c : state_call) : server_state :=
  match c with
  | SetLinking v => mkState v (st_discovery s) (st_linked s) (st_address s) (st_players s)
  | SetDiscovery v => mkState (st_linking s) v (st_linked s) (st_address s) (st_players s)
  | SetAddress a => mkState (st_linking s) (st_discovery s) (st_linked s) (Some a) (st_players s)
  end.
(** server.rs:261-263 [ServerState::new], then the calls in turn. *)
Definition state_run (cs : list state_call) : server_state := fold_left state_step cs state_default.

(** server.rs:297-299, [is_discovery]. *)
Definition is_discovery (s : server_state) : bool := st_discovery s.
(** server.rs:301-303, [is_linking]. *)
Definition is_linking_now (s : server_state) : bool := st_linking s.
(** server.rs:309-311, [address]. *)
Definition state_address (s : server_state) : option network := st_address s.
(** server.rs:285-287, [players]. *)
Definition state_players (s : server_state) : list player := st_players s.

(** ** rekordbox/util.rs *)

(** util.rs:3-11, [clone_into_array], into an array of [n] elements:
    [clone_from_slice] panics when the lengths differ. *)
Definition clone_into_array {A} (n : N) (slice : list A) : res (list A) :=
  if len slice =? n then Ok slice else Panic.

(** ** rekordbox/packets.rs *)

(** packets.rs:210-218, [term_dj::Name] as bytes. *)
Definition term_dj_name : bytes := flat_map (be 2) (utf16_encode (lit "TermDJ")).

(** ** Default replies of rpc/packets.rs *)

(** packets.rs:414-438, [NfsFileAttributes::default], at three readings of the
    clock. *)
Definition attributes_default (now1 now2 now3 : time) : attributes :=
  mkAttr TDirectory [0; 0; 0; 0] 0 0 0 0 0 0 0 0 0 now1 now2 now3.

(** packets.rs:440-448, [NfsLookupReply::default]. *)
Definition lookup_default (now1 now2 now3 : time) : reply_message :=
  NfsLookupReply (repeat 0 32) (attributes_default now1 now2 now3).

(** packets.rs:863-870, [From<Metadata> for NfsGetAttrReply]. *)
Definition getattr_from (m : meta) : res reply_message :=
  do a <- attributes_from m;
  Ok (NfsGetAttrReply a).
