(** Model of src/rpc/nfs_program.rs and src/rpc/fs.rs: the NFS service. *)

From Verif Require Import Base Unicode MPath MDatabase MRpc MRpcServer.
From Coq Require Import String ZArith.
Open Scope list_scope.
Open Scope N_scope.

(** ** The file system, as the operating system answers *)

(** [std::fs::Metadata], as far as rpc/packets.rs:386-411 looks at it; a time is [None] where the platform has none. *)
Record meta := mkMeta {
  m_dir : bool; m_file : bool; m_ino : N; m_nlink : N; m_uid : N; m_gid : N; m_size : N;
  m_blksize : N; m_rdev : N; m_blocks : N;
  m_accessed : option time; m_modified : option time; m_created : option time
}.

(** An open file (the values of the map of nfs_program.rs:16). *)
Definition fid := N.

(** Answers of the operating system at one moment: [std::fs::metadata]
    (nfs_program.rs:51), [File::open] (fs.rs:16), the bytes of an open file
    ([None]: seek or read fails, fs.rs:28-29) and [File::metadata]
    (nfs_program.rs:81, 96). *)
Record os := mkOs {
  os_stat : bytes -> option meta;
  os_open : bytes -> option fid;
  os_content : fid -> option bytes;
  os_fstat : fid -> option meta
}.

(** The [?] of fs.rs:16, 28, 29 and nfs_program.rs:81, 96 on what the operating system answers. *)
Definition of_option {A} (o : option A) : res A :=
  match o with Some a => Ok a | None => Err end.

(** ** Handles *)

(** Byte order of the host, for [from_ne_bytes] at rpc/packets.rs:765. *)
Inductive endian := Little | Big.

(** fs.rs:36-42, [encode_file_handler]: the inode's little-endian bytes, then
    zeros. *)
Definition encode_file_handler (inode : N) : bytes := le 8 inode ++ repeat 0 24.

(** packets.rs:760-766, [FileHandle::ino]: host byte order. *)
Definition handle_ino (e : endian) (h : file_handle) : N :=
  match e with
  | Little => of_le (firstn 8 h)
  | Big => of_be (firstn 8 h)
  end.

(** fs.rs:8-23, [FileWrapper] and [get_fhandle]. *)
Record file_wrapper := mkWrapper { fw_inode : N; fw_encoded : bytes; fw_file : fid }.
(** fs.rs:15-23, [get_fhandle]. *)
Definition get_fhandle (o : os) (path : bytes) (inode : N) : res file_wrapper :=
  do file <- of_option (os_open o path);
  Ok (mkWrapper inode (encode_file_handler inode) file).

(** The most bytes one [read] call (fs.rs:29) returns on Linux. *)
Definition read_limit : N := 2147479552.

(** fs.rs:25-34, [read_file_range]: a buffer of [count] zeros is filled by one
    read at [start], which may be shorter. *)
Definition read_file_range (o : os) (file : fid) (start cnt : N) : res bytes :=
  do content <- of_option (os_content o file);
  let got := firstn (N.to_nat (N.min cnt read_limit)) (skipn (N.to_nat start) content) in
  Ok (got ++ repeat 0 (N.to_nat cnt - List.length got)).

(** packets.rs:385-412, [From<Metadata> for NfsFileAttributes]. *)
Definition attributes_from (m : meta) : res attributes :=
  do atime <- unwrap_opt (m_accessed m);
  do mtime <- unwrap_opt (m_modified m);
  do ctime <- unwrap_opt (m_created m);
  Ok (mkAttr (if m_dir m then TDirectory else TFile) [0; 0; 81; 24]
        (as_u32 (m_nlink m)) (m_uid m) (m_gid m) (as_u32 (m_size m)) (as_u32 (m_blksize m))
        (as_u32 (m_rdev m)) (as_u32 (m_blocks m)) 0 0 atime mtime ctime).

(** ** The handler *)

(** nfs_program.rs:14-17, [struct RpcNfsProgramHandler]. *)
Record nfs := mkNfs { nf_path : bytes; nf_files : table fid }.

(** nfs_program.rs:33-38, [new]. *)
Definition nfs_new : nfs := mkNfs (lit "/") [].

(** nfs_program.rs:40-42, [reset_path]. *)
Definition reset_path (n : nfs) : nfs := mkNfs (lit "/") (nf_files n).

(** nfs_program.rs:44-72, [lookup].  Returns the state also when it fails. *)
Definition lookup (o : os) (l : nfs_lookup) (n : nfs) : nfs * res reply_message :=
  let temp_path := path_push (nf_path n) (lk_filename l) in
  match os_stat o temp_path with
  | Some metadata =>
      let n := mkNfs temp_path (nf_files n) in
      match get_fhandle o temp_path (m_ino metadata) with
      | Ok fwrapper =>
          let n := if m_file metadata
                   then reset_path (mkNfs (nf_path n) (hm_insert (fw_inode fwrapper) (fw_file fwrapper) (nf_files n)))
                   else n in
          (n, do a <- attributes_from metadata; Ok (NfsLookupReply (fw_encoded fwrapper) a))
      | Err => (n, Err)
      | Panic => (n, Panic)
      end
  | None => (reset_path n, Err)
  end.

(** nfs_program.rs:74-89, [getattr]. *)
Definition getattr (e : endian) (o : os) (h : file_handle) (n : nfs) : res reply_message :=
  match hm_get (handle_ino e h) (nf_files n) with
  | Some file =>
      do metadata <- of_option (os_fstat o file);
      do a <- attributes_from metadata;
      Ok (NfsGetAttrReply a)
  | None => Err
  end.

(** nfs_program.rs:91-106, [read]. *)
Definition nfs_do_read (e : endian) (o : os) (r : nfs_read) (n : nfs) : res reply_message :=
  match hm_get (handle_ino e (rd_fhandle r)) (nf_files n) with
  | Some file =>
      do data <- read_file_range o file (rd_offset r) (rd_count r);
      do metadata <- of_option (os_fstat o file);
      do a <- attributes_from metadata;
      Ok (NfsReadReply a data)
  | None => Err
  end.

(** nfs_program.rs:108-115, [call_procedure]. *)
Definition call_procedure (e : endian) (o : os) (p : rpc_procedure) (n : nfs) : nfs * res reply_message :=
  match p with
  | NfsLookup l => lookup o l n
  | NfsGetAttr h => (n, getattr e o h n)
  | NfsRead r => (n, nfs_do_read e o r n)
  | _ => (n, Err)
  end.

(** ** The service *)

(** The state of the task of rpc/server.rs:121-125: the handler ([None] after a panic) and what is left
    in the buffer of [UdpFramed] by a send that failed. *)
Record nfs_service := mkService { sv_nfs : option nfs; sv_unsent : option (peer * bytes) }.
(** rpc/server.rs:122-124: a new handler, an empty buffer. *)
Definition service_new : nfs_service := mkService (Some nfs_new) None.

(** One turn of nfs_program.rs:118: a datagram with the answers of the operating
    system: files, and whether
    the retry of an unsent datagram and the send of the reply would work. *)
Record nfs_input := mkNfsIn {
  ni_datagram : bytes; ni_from : peer; ni_os : os; ni_resend : bool; ni_send : bool
}.

(** [SinkExt::send] on [UdpFramed] (tokio-util 0.6): an unsent datagram is tried
    again first; if that fails the new one is dropped.  A datagram whose send
    fails stays in the buffer. *)
Definition framed_send (unsent : option (peer * bytes)) (resend send : bool) (new : peer * bytes)
  : option (peer * bytes) * list (peer * bytes) :=
  let first :=
    match unsent with
    | None => Some []
    | Some old => if send_to resend (snd old) then Some [old] else None
    end in
  match first with
  | None => (unsent, [])
  | Some sent => if send_to send (snd new) then (None, sent ++ [new]) else (Some new, sent)
  end.

(** nfs_program.rs:117-148, one turn of the loop of [run]; the datagrams sent. *)
Definition nfs_turn (e : endian) (i : nfs_input) (s : nfs_service) : nfs_service * list (peer * bytes) :=
  match sv_nfs s with
  | None => (s, [])
  | Some n =>
      match codec_decode (ni_datagram i) with
      | Panic => (mkService None (sv_unsent s), [])
      | Err => (s, [])
      | Ok None => (s, [])
      | Ok (Some m) =>
          match rpc_body m with
          | Call c =>
              let (n, r) := call_procedure e (ni_os i) (ca_procedure c) n in
              match r with
              | Ok reply =>
                  let (unsent, sent) :=
                    framed_send (sv_unsent s) (ni_resend i) (ni_send i)
                      (ni_from i, codec_encode (reply_to reply (rpc_xid m))) in
                  (mkService (Some n) unsent, sent)
              | Err => (mkService (Some n) (sv_unsent s), [])
              | Panic => (mkService None (sv_unsent s), [])
              end
          | Reply _ => (s, [])
          end
      end
  end.

(** nfs_program.rs:118, the loop. *)
Fixpoint nfs_run (e : endian) (is : list nfs_input) (s : nfs_service)
  : nfs_service * list (list (peer * bytes)) :=
  match is with
  | [] => (s, [])
  | i :: is =>
      let (s, out) := nfs_turn e i s in
      let (s, outs) := nfs_run e is s in
      (s, out :: outs)
  end.
