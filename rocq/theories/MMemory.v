(** Model of the room that src/rpc/packets.rs and src/rpc/fs.rs set aside for a
    number of items announced in a datagram, before they look for the items. *)

From Verif Require Import Base MDatabase MRpc MRpcServer MNfs.
Open Scope list_scope.
Open Scope N_scope.

(** nom 6, [multi::count]: [Vec::with_capacity(count)] comes first, with [size]
    bytes for each item.  Versions of nom from 7 on limit the room to 64 KiB. *)
Definition count_room (size n : N) : N := size * n.

(** packets.rs:769-777, [FileHandle::decode]. *)
Definition handle_room : list N := [count_room 1 32].

(** packets.rs:886-901, [NfsLookup::decode]: the handle, then the name. *)
Definition lookup_room (i : bytes) : list N :=
  handle_room ++
  match handle_decode i with
  | Ok (i, _) => match be_u32 i with Ok (_, length) => [count_room 2 (length / 2)] | _ => [] end
  | _ => []
  end.

(** packets.rs:727-746, [MountMnt::decode]. *)
Definition mnt_room (i : bytes) : list N :=
  match be_u32 i with Ok (_, length) => [count_room 2 (length / 2)] | _ => [] end.

(** packets.rs:685-719, [RpcProcedure::decode]. *)
Definition procedure_room (program : rpc_program) (procedure : N) (i : bytes) : list N :=
  match program, procedure with
  | Nfs, 1 => handle_room
  | Nfs, 4 => lookup_room i
  | Nfs, 6 => handle_room
  | Mount, 1 => mnt_room i
  | _, _ => []
  end.

(** packets.rs:154-174, [RpcCall::decode]: the fields before set nothing aside. *)
Definition call_room (i : bytes) : list N :=
  match (do (i, version) <- be_u32 i;
         do (i, (program, program_version)) <- program_decode i;
         do (i, procedure) <- be_u32 i;
         do (i, credentials) <- credentials_decode i;
         do (i, verifier) <- auth_decode i;
         Ok (i, (program, procedure))) with
  | Ok (i, (program, procedure)) => procedure_room program procedure i
  | _ => []
  end.

(** packets.rs:40-48 and 582-600, [RpcMessage::decode]: the room set aside while
    decoding a datagram, in order, also when decoding fails.  Each is given back
    when the decoded call, or the error, is dropped. *)
Definition datagram_room (d : bytes) : list N :=
  match (do (i, xid) <- be_u32 d; be_u32 i) with
  | Ok (i, 0) => call_room i
  | _ => []
  end.

(** fs.rs:25-26, [read_file_range]: a buffer of [count] zeros before the file is
    read; reached through nfs_program.rs:91-94, [read]. *)
Definition read_room (e : endian) (p : rpc_procedure) (n : nfs) : list N :=
  match p with
  | NfsRead r => match hm_get (handle_ino e (rd_fhandle r)) (nf_files n) with
                 | Some _ => [rd_count r]
                 | None => []
                 end
  | _ => []
  end.

(** nfs_program.rs:117-148, a turn of the file service: decoding, then the call. *)
Definition nfs_turn_room (e : endian) (i : nfs_input) (s : nfs_service) : list N :=
  match sv_nfs s with
  | None => []
  | Some n =>
      datagram_room (ni_datagram i) ++
      match codec_decode (ni_datagram i) with
      | Ok (Some m) =>
          match rpc_body m with
          | Call c => read_room e (ca_procedure c) n
          | Reply _ => []
          end
      | _ => []
      end
  end.
