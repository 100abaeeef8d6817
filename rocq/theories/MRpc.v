(** Model of src/rpc/packets.rs and src/rpc/codec.rs: ONC RPC messages as the
    program reads and writes them. *)

From Verif Require Import Base Unicode.
From Coq Require Import String ZArith.
Open Scope list_scope.
Open Scope N_scope.

(** ** Calls *)

(** packets.rs:86-92, [enum RpcAuth]. *)
Inductive rpc_auth := AuthNull | AuthUnix | AuthShort | AuthDes.

(** packets.rs:94-107, [RpcAuth::decode]: the body of the verifier is not read. *)
Definition auth_decode : parser rpc_auth := fun i =>
  do (i, flavor) <- be_u32 i;
  do (i, length) <- be_u32 i;
  match flavor with
  | 0 => Ok (i, AuthNull)
  | 1 => Ok (i, AuthUnix)
  | _ => Err
  end.

(** packets.rs:109-123, [From<RpcAuth> for Bytes]. *)
Definition auth_bytes (a : rpc_auth) : bytes :=
  match a with AuthNull => be 4 0 | _ => be 4 16 end ++ be 4 0.

(** packets.rs:618-623, [enum RpcProgram]. *)
Inductive rpc_program := Portmap | Nfs | Mount.

(** packets.rs:625-639, [RpcProgram::decode]: the program and its version. *)
Definition program_decode : parser (rpc_program * N) := fun i =>
  do (i, program) <- be_u32 i;
  do (i, version) <- be_u32 i;
  match program with
  | 100000 => Ok (i, (Portmap, version))
  | 100003 => Ok (i, (Nfs, version))
  | 100005 => Ok (i, (Mount, version))
  | _ => Err
  end.

(** packets.rs:1004-1013, [struct RpcCredentials]. *)
Record rpc_credentials := mkCred {
  cr_flavor : N; cr_length : N; cr_stamp : N; cr_machine_name : N;
  cr_uid : N; cr_gid : N; cr_aux_gid : N
}.

(** packets.rs:1015-1037, [RpcCredentials::decode]: seven words, whatever the
    length says. *)
Definition credentials_decode : parser rpc_credentials := fun i =>
  do (i, flavor) <- be_u32 i;
  do (i, length) <- be_u32 i;
  do (i, stamp) <- be_u32 i;
  do (i, machine_name) <- be_u32 i;
  do (i, uid) <- be_u32 i;
  do (i, gid) <- be_u32 i;
  do (i, aux_gid) <- be_u32 i;
  Ok (i, mkCred flavor length stamp machine_name uid gid aux_gid).

(** packets.rs:748-751, [struct FileHandle]: its bytes. *)
Definition file_handle := bytes.

(** packets.rs:769-777, [FileHandle::decode]. *)
Definition handle_decode : parser file_handle := fun i => count be_u8 32 i.

(** packets.rs:934-951, [PortmapProtocol]; only Udp can be decoded. *)
Inductive portmap_protocol := ProtoIp | ProtoUdp.
(** packets.rs:940-951, [PortmapProtocol::decode]. *)
Definition protocol_decode : parser portmap_protocol := fun i =>
  do (i, protocol) <- be_u32 i;
  match protocol with
  | 17 => Ok (i, ProtoUdp)
  | _ => Err
  end.

(** packets.rs:903-932, [struct PortmapGetport] and its [decode]. *)
Record getport := mkGetport {
  gp_version : N; gp_program : rpc_program; gp_protocol : portmap_protocol; gp_port : N
}.
(** packets.rs:917-932, [PortmapGetport::decode]. *)
Definition getport_decode : parser getport := fun i =>
  do (i, (program, version)) <- program_decode i;
  do (i, protocol) <- protocol_decode i;
  do (i, port) <- be_u32 i;
  Ok (i, mkGetport version program protocol port).

(** packets.rs:811-826, [NfsGetAttr]: just the handle. *)
(** packets.rs:872-901, [struct NfsLookup] and its [decode]; the [PathBuf] of a
    text is its UTF-8 bytes. *)
Record nfs_lookup := mkLookup { lk_filename : bytes; lk_fhandle : file_handle }.
(** packets.rs:884-901, [NfsLookup::decode]. *)
Definition lookup_decode : parser nfs_lookup := fun i =>
  do (i, fhandle) <- handle_decode i;
  do (i, length) <- be_u32 i;
  do (i, contents) <- count le_u16 (N.to_nat (length / 2)) i;
  match utf16_decode contents with
  | Some s => Ok (i, mkLookup (utf8_encode s) fhandle)
  | None => Err
  end.

(** packets.rs:785-809, [struct NfsRead] and its [decode]. *)
Record nfs_read := mkRead { rd_fhandle : file_handle; rd_offset : N; rd_count : N; rd_total : N }.
(** packets.rs:793-809, [NfsRead::decode]. *)
Definition read_decode : parser nfs_read := fun i =>
  do (i, fhandle) <- handle_decode i;
  do (i, offset) <- be_u32 i;
  do (i, cnt) <- be_u32 i;
  do (i, total) <- be_u32 i;
  Ok (i, mkRead fhandle offset cnt total).

(** packets.rs:721-746, [struct MountMnt] and its [decode]: the path, and always
    two fill bytes. *)
Definition mnt_decode : parser (list str) := fun i =>
  do (i, length) <- be_u32 i;
  do (i, contents) <- count le_u16 (N.to_nat (length / 2)) i;
  do (i, fill) <- be_u16 i;
  match utf16_decode contents with
  | Some s => Ok (i, [s])
  | None => Err
  end.

(** packets.rs:668-683, [enum RpcProcedure]. *)
Inductive rpc_procedure :=
| PortmapNull
| PortmapSet
| PortmapUnset
| PortmapGetport (g : getport)
| PortmapDump
| PortmapCallResult
| NfsNull
| NfsGetAttr (h : file_handle)
| NfsLookup (l : nfs_lookup)
| NfsRead (r : nfs_read)
| MountMnt (paths : list str)
| MountExport
| MountNull.

(** packets.rs:685-719, [RpcProcedure::decode]. *)
Definition procedure_decode (program : rpc_program) (procedure : N) : parser rpc_procedure := fun i =>
  match program, procedure with
  | Portmap, 0 => Ok (i, PortmapNull)
  | Portmap, 1 => Ok (i, PortmapSet)
  | Portmap, 2 => Ok (i, PortmapUnset)
  | Portmap, 3 => do (i, d) <- getport_decode i; Ok (i, PortmapGetport d)
  | Portmap, 4 => Ok (i, PortmapDump)
  | Portmap, 5 => Ok (i, PortmapCallResult)
  | Portmap, _ => Err
  | Nfs, 1 => do (i, d) <- handle_decode i; Ok (i, NfsGetAttr d)
  | Nfs, 4 => do (i, d) <- lookup_decode i; Ok (i, NfsLookup d)
  | Nfs, 6 => do (i, d) <- read_decode i; Ok (i, NfsRead d)
  | Nfs, _ => Err
  | Mount, 5 => Ok (i, MountExport)
  | Mount, 1 => do (i, d) <- mnt_decode i; Ok (i, MountMnt d)
  | Mount, _ => Err
  end.

(** packets.rs:134-142, [struct RpcCall]. *)
Record rpc_call := mkCall {
  ca_version : N; ca_program : rpc_program; ca_program_version : N;
  ca_procedure : rpc_procedure; ca_credentials : rpc_credentials; ca_verifier : rpc_auth
}.

(** packets.rs:154-174, [RpcCall::decode]. *)
Definition call_decode : parser rpc_call := fun i =>
  do (i, version) <- be_u32 i;
  do (i, (program, program_version)) <- program_decode i;
  do (i, procedure) <- be_u32 i;
  do (i, credentials) <- credentials_decode i;
  do (i, verifier) <- auth_decode i;
  do (i, procedure) <- procedure_decode program procedure i;
  Ok (i, mkCall version program program_version procedure credentials verifier).

(** ** Replies *)

(** packets.rs:529-533, [enum FileType]. *)
Inductive file_type := TFile | TDirectory.

(** [SystemTime], as whole seconds since the epoch (rounded down); the fraction
    is never used (packets.rs:459-473). *)
Definition time := Z.

(** packets.rs:828-844, [struct NfsFileAttributes], with [FileMode]
    (packets.rs:510-516) as its four bytes. *)
Record attributes := mkAttr {
  at_type : file_type; at_mode : bytes; at_nlink : N; at_uid : N; at_gid : N;
  at_size : N; at_blocksize : N; at_rdev : N; at_blocks : N; at_fsid : N; at_file_id : N;
  at_atime : time; at_mtime : time; at_ctime : time
}.

(** packets.rs:457-473, [system_time_to_bytes]: the low four bytes of the
    seconds, then zero; times before the epoch are all zero. *)
Definition time_bytes (t : time) : bytes :=
  if (0 <=? t)%Z then skipn 4 (be 8 (Z.to_N t)) ++ be 4 0
  else repeat 0 8.

(** packets.rs:535-544, [From<FileType> for Bytes]. *)
Definition file_type_bytes (t : file_type) : bytes :=
  be 4 (match t with TFile => 1 | TDirectory => 2 end).

(** packets.rs:487-508, [From<NfsFileAttributes> for Bytes]. *)
Definition attributes_bytes (a : attributes) : bytes :=
  file_type_bytes (at_type a) ++ at_mode a ++ be 4 (at_nlink a) ++ be 4 (at_uid a)
  ++ be 4 (at_gid a) ++ be 4 (at_size a) ++ be 4 (at_blocksize a) ++ be 4 (at_rdev a)
  ++ be 4 (at_blocks a) ++ be 4 (at_fsid a) ++ be 4 (at_file_id a)
  ++ time_bytes (at_atime a) ++ time_bytes (at_mtime a) ++ time_bytes (at_ctime a).

(** packets.rs:344-357, [NfsStatus::Ok], the only status. *)
Definition nfs_ok_bytes : bytes := be 4 0.

(** packets.rs:329-333, [struct ExportListEntry]. *)
Record export_entry := mkExport { ex_directory : str; ex_groups : list str }.

(** packets.rs:275-301, [From<ExportListEntry> for Bytes]; [OPAQUE_DATA],
    [VALUE_FOLLOWS] and [NO_VALUE_FOLLOWS] are packets.rs:308-310. *)
Definition export_entry_bytes (e : export_entry) : bytes :=
  let content := flat_map (le 2) (utf16_encode (ex_directory e)) in
  be 4 (as_u32 (len content)) ++ content ++ [0; 0]
  ++ match ex_groups e with
     | [] => []
     | groups => [0; 0; 0; 1] ++ flat_map (fun g => be 4 (as_u32 (len (utf8_encode g))) ++ utf8_encode g ++ [0; 0]) groups
     end
  ++ [0; 0; 0; 0].

(** packets.rs:312-327, [From<MountExportReply> for Bytes]. *)
Definition export_reply_bytes (entries : list export_entry) : bytes :=
  match entries with
  | [] => []
  | entries => [0; 0; 0; 1] ++ flat_map export_entry_bytes entries
  end ++ [0; 0; 0; 0].

(** packets.rs:240-248, [enum RpcReplyMessage]; the statuses are left out where
    there is only one ([NfsStatus]). *)
Inductive reply_message :=
| PortmapGetportReply (port : N)
| MountExportReply (entries : list export_entry)
| MountMntReply (status : N) (fhandle : file_handle)
| NfsLookupReply (fhandle : file_handle) (a : attributes)
| NfsGetAttrReply (a : attributes)
| NfsReadReply (a : attributes) (data : bytes).

(** packets.rs:250-261 with 268-272, 312-327, 374-383, 475-485, 852-861, 212-222
    and 229-238, [From<RpcReplyMessage> for Bytes]. *)
Definition reply_message_bytes (m : reply_message) : bytes :=
  match m with
  | PortmapGetportReply port => be 4 port
  | MountExportReply entries => export_reply_bytes entries
  | MountMntReply status fhandle => be 4 status ++ fhandle
  | NfsLookupReply fhandle a => nfs_ok_bytes ++ fhandle ++ attributes_bytes a
  | NfsGetAttrReply a => nfs_ok_bytes ++ attributes_bytes a
  | NfsReadReply a data => nfs_ok_bytes ++ attributes_bytes a ++ be 4 (as_u32 (len data)) ++ data
  end.

(** packets.rs:176-182, [struct RpcReply]; reply state Accepted and accept state
    Success (packets.rs:546-574) are the only ones. *)
Record rpc_reply := mkReply { re_verifier : rpc_auth; re_data : reply_message }.

(** packets.rs:192-203, [From<RpcReply> for Bytes]. *)
Definition reply_bytes (r : rpc_reply) : bytes :=
  auth_bytes (re_verifier r) ++ be 4 0 ++ be 4 0 ++ reply_message_bytes (re_data r).

(** ** Messages *)

(** packets.rs:576-580, [enum RpcMessageType], and 26-30, [struct RpcMessage]. *)
Inductive rpc_message_type := Call (c : rpc_call) | Reply (r : rpc_reply).
(** packets.rs:26-30, [struct RpcMessage]. *)
Record rpc_message := mkRpc { rpc_xid : N; rpc_body : rpc_message_type }.

(** packets.rs:582-600, [RpcMessageType::decode], and 184-190,
    [RpcReply::decode], which is [unimplemented!()]. *)
Definition message_type_decode : parser rpc_message_type := fun i =>
  do (i, message_type) <- be_u32 i;
  match message_type with
  | 0 => do (i, c) <- call_decode i; Ok (i, Call c)
  | 1 => Panic
  | _ => Err
  end.

(** packets.rs:40-48, [RpcMessage::decode]. *)
Definition rpc_decode : parser rpc_message := fun i =>
  do (i, xid) <- be_u32 i;
  do (i, message) <- message_type_decode i;
  Ok (i, mkRpc xid message).

(** packets.rs:59-71, [TryFrom<Bytes> for RpcMessage]. *)
Definition rpc_try_from (d : bytes) : res rpc_message :=
  match rpc_decode d with
  | Ok (_, m) => Ok m
  | Err => Err
  | Panic => Panic
  end.

(** packets.rs:602-616, [From<RpcMessageType> for Bytes]: a call becomes nothing. *)
Definition message_type_bytes (m : rpc_message_type) : bytes :=
  match m with
  | Reply r => be 4 1 ++ reply_bytes r
  | Call _ => []
  end.

(** packets.rs:73-84, [TryFrom<RpcMessage> for Bytes]. *)
Definition rpc_bytes (m : rpc_message) : bytes := be 4 (rpc_xid m) ++ message_type_bytes (rpc_body m).

(** ** The codec *)

(** codec.rs:15-31, [RpcBytesCodec::decode] on the datagram [d] as driven by
    [UdpFramed] (tokio-util 0.6): nothing for an empty datagram, an error item
    for one that cannot be decoded. *)
Definition codec_decode (d : bytes) : res (option rpc_message) :=
  match d with
  | [] => Ok None
  | _ => rmap Some (rpc_try_from d)
  end.

(** codec.rs:33-40, [calculate_fill_bytes]. *)
Definition fill_bytes (length : N) : bytes :=
  if length mod 4 =? 0 then [] else repeat 0 (N.to_nat (4 - length mod 4)).

(** codec.rs:42-60, [RpcBytesCodec::encode] into an empty buffer. *)
Definition codec_encode (m : rpc_message) : bytes :=
  rpc_bytes m ++ fill_bytes (len (rpc_bytes m)).

(** server.rs:29-39, [serialize_rpc_reply_message]; the same value is built at
    server.rs:143-153 and nfs_program.rs:125-133. *)
Definition reply_to (reply : reply_message) (xid : N) : rpc_message :=
  mkRpc xid (Reply (mkReply AuthNull reply)).
