(** Independent specification of the NFS service. *)

From Verif Require Import Base Unicode SUdp MRpc SRpc MNetwork MRpcServer SRpcServer MNfs.
From Coq Require Import ZArith.
Open Scope list_scope.
Open Scope N_scope.

(** ** Attributes (RFC 1094, 2.3.5) *)

(** All three times are known. *)
Definition times_known (m : meta) : Prop :=
  m_accessed m <> None /\ m_modified m <> None /\ m_created m <> None.

(** Seconds of a timeval: modulo 2^32, and 0 before 1970. *)
Definition seconds (t : option time) : N :=
  match t with Some t => Z.to_N (t mod 4294967296) * (if (t <? 0)%Z then 0 else 1) | None => 0 end.

(** The 68 bytes [b] describe [m]. *)
Definition fattr_says (b : bytes) (m : meta) : Prop :=
  List.length b = 68%nat /\
  number_at 0 4 b = (if m_dir m then 2 else 1) /\
  number_at 4 4 b = 0x5118 (* the constant mode 0o50430 *) /\
  number_at 8 4 b = m_nlink m mod 4294967296 /\
  number_at 12 4 b = m_uid m mod 4294967296 /\
  number_at 16 4 b = m_gid m mod 4294967296 /\
  number_at 20 4 b = m_size m mod 4294967296 /\
  number_at 24 4 b = m_blksize m mod 4294967296 /\
  number_at 28 4 b = m_rdev m mod 4294967296 /\
  number_at 32 4 b = m_blocks m mod 4294967296 /\
  number_at 36 4 b = 0 /\ number_at 40 4 b = 0 /\
  number_at 44 4 b = seconds (m_accessed m) /\ number_at 48 4 b = 0 /\
  number_at 52 4 b = seconds (m_modified m) /\ number_at 56 4 b = 0 /\
  number_at 60 4 b = seconds (m_created m) /\ number_at 64 4 b = 0.

(** ** Handles *)

(** The handle sent for inode [i]: its eight bytes, least significant first, then
    zeros. *)
Definition handle_for (i : N) : bytes :=
  [i mod 256; i / 2^8 mod 256; i / 2^16 mod 256; i / 2^24 mod 256;
   i / 2^32 mod 256; i / 2^40 mod 256; i / 2^48 mod 256; i / 2^56 mod 256] ++ repeat 0 24.

(** ** Reading *)

(** [data] are the [n] bytes from [start] of [content], with zeros for bytes past
    its end. *)
Definition range_with_zeros (content : bytes) (start n : N) (data : bytes) : Prop :=
  len data = n /\
  forall j, j < n -> nth (N.to_nat j) data 0 =
    if start + j <? len content then nth (N.to_nat (start + j)) content 0 else 0.

(** ** What a datagram asks *)

(** A received datagram is ignored, asks the procedure [p] with transaction id
    [xid], or is of type 1, on which decoding panics. *)
Inductive heard := Ignored | Asked (xid : N) (p : rpc_procedure) | Fatal.

Definition hears (d : bytes) (h : heard) : Prop :=
  match h with
  | Ignored => (forall m, ~ call_says d m) /\ ~ reply_type d
  | Asked xid p =>
      exists m c, call_says d m /\ rpc_body m = Call c /\ xid = rpc_xid m /\ p = ca_procedure c
  | Fatal => reply_type d
  end.

(** A history: the inputs with what each asks. *)
Definition history := list (nfs_input * heard).
Definition history_ok (hs : history) : Prop :=
  Forall (fun x => bytes_ok (ni_datagram (fst x)) /\ hears (ni_datagram (fst x)) (snd x)) hs.

(** ** Walking *)

(** The path of [name] seen from the directory [here]. *)
Definition resolve (here name : bytes) : bytes :=
  match name with
  | 47 :: _ => name
  | _ => if last here 0 =? 47 then here ++ name else here ++ 47 :: name
  end.

(** Where a walk is after looking up [name] at [here]: at the root after a
    failed lookup and after reaching a file, else at the path looked up (also
    when it exists but cannot be opened). *)
Definition walk_to (o : os) (here name : bytes) : bytes :=
  let target := resolve here name in
  match os_stat o target, os_open o target with
  | None, _ => [47]
  | Some m, Some _ => if m_file m then [47] else target
  | Some _, None => target
  end.

(** Where the one walk of the service is after a history. *)
Definition position (hs : history) : bytes :=
  fold_left (fun here x =>
    match snd x with
    | Asked _ (NfsLookup l) => walk_to (ni_os (fst x)) here (lk_filename l)
    | _ => here
    end) hs [47].

(** The absolute path with these names, and a name that can be a component. *)
Definition absolute (names : list bytes) : bytes := flat_map (fun n => 47 :: n) names.
Definition component (n : bytes) : Prop := n <> [] /\ ~ In 47 n.

(** One lookup for each name, each of which can be answered over the network. *)
Definition walks (names : list bytes) (walk : history) : Prop :=
  Forall2 (fun name x =>
    bytes_ok (ni_datagram (fst x)) /\ hears (ni_datagram (fst x)) (snd x) /\ ni_send (fst x) = true /\
    exists xid h, snd x = Asked xid (NfsLookup (mkLookup name h))) names walk.

(** ** Open files *)

(** After the history [before], the input [x] looks up a regular file of inode
    [ino] and opens it as [f]. *)
Definition opens (before : history) (x : nfs_input * heard) (ino : N) (f : fid) : Prop :=
  exists xid l m,
    snd x = Asked xid (NfsLookup l) /\
    os_stat (ni_os (fst x)) (resolve (position before) (lk_filename l)) = Some m /\
    os_open (ni_os (fst x)) (resolve (position before) (lk_filename l)) = Some f /\
    m_file m = true /\ m_ino m = ino.

(** [f] is the file most recently opened for the inode [ino]. *)
Definition latest_opened (hs : history) (ino : N) (f : fid) : Prop :=
  exists j x, nth_error hs j = Some x /\ opens (firstn j hs) x ino f /\
    forall j' x' f', (j < j')%nat -> nth_error hs j' = Some x' -> ~ opens (firstn j' hs) x' ino f'.

(** The inode number a host of byte order [e] reads from a handle. *)
Definition names_inode (e : endian) (h : bytes) (ino : N) : Prop :=
  ino < 2^64 /\
  match e with
  | Little => firstn 8 h = firstn 8 (handle_for ino)
  | Big => firstn 8 h = rev (firstn 8 (handle_for ino))
  end.

(** The handle [h] stands for the open file [f]. *)
Definition handle_of_file (e : endian) (hs : history) (h : bytes) (f : fid) : Prop :=
  exists ino, names_inode e h ino /\ latest_opened hs ino f.

(** ** Answers *)

(** A call gets a result, no answer, or ends the service. *)
Inductive outcome := Result (r : bytes) | NoAnswer | Death.

(** The outcome if the attributes of [m] are needed: [result] of them, or death
    if a time is unknown. *)
Definition with_attributes (m : meta) (result : bytes -> bytes -> Prop) (a : outcome) : Prop :=
  match a with
  | Result r => times_known m /\ exists fattr, fattr_says fattr m /\ result fattr r
  | Death => ~ times_known m
  | NoAnswer => False
  end.

Definition lookup_outcome (o : os) (target : bytes) (a : outcome) : Prop :=
  match os_stat o target, os_open o target with
  | Some m, Some _ =>
      with_attributes m (fun fattr r => r = std_lookup_result (handle_for (m_ino m)) fattr) a
  | _, _ => a = NoAnswer
  end.

Definition getattr_outcome (o : os) (f : fid) (a : outcome) : Prop :=
  match os_fstat o f with
  | Some m => with_attributes m (fun fattr r => r = std_getattr_result fattr) a
  | None => a = NoAnswer
  end.

(** One read call of Linux returns at most 2147479552 bytes; a longer reply
    cannot be sent anyway. *)
Definition read_outcome (o : os) (f : fid) (start n : N) (a : outcome) : Prop :=
  match os_content o f, os_fstat o f with
  | Some content, Some m =>
      with_attributes m (fun fattr r =>
        exists data, r = std_read_result fattr data /\ len data = n /\
          (n <= 2147479552 -> range_with_zeros content start n data)) a
  | _, _ => a = NoAnswer
  end.

(** The outcome of a call after the history [before]. *)
Definition call_outcome (e : endian) (before : history) (o : os) (p : rpc_procedure) (a : outcome) : Prop :=
  match p with
  | NfsLookup l => lookup_outcome o (resolve (position before) (lk_filename l)) a
  | NfsGetAttr h =>
      (exists f, handle_of_file e before h f /\ getattr_outcome o f a) \/
      (forall f, ~ handle_of_file e before h f) /\ a = NoAnswer
  | NfsRead r =>
      (exists f, handle_of_file e before (rd_fhandle r) f /\
         read_outcome o f (rd_offset r) (rd_count r) a) \/
      (forall f, ~ handle_of_file e before (rd_fhandle r) f) /\ a = NoAnswer
  | _ => a = NoAnswer
  end.

(** After the history [before], the input [x] ends the service. *)
Definition kills (e : endian) (before : history) (x : nfs_input * heard) : Prop :=
  match snd x with
  | Ignored => False
  | Asked _ p => call_outcome e before (ni_os (fst x)) p Death
  | Fatal => True
  end.
Definition never_killed (e : endian) (hs : history) : Prop :=
  forall k x, nth_error hs k = Some x -> ~ kills e (firstn k hs) x.

(** The reply for the input [x], if there is one: a standard reply to the
    transaction, for the sender. *)
Definition replies (e : endian) (before : history) (x : nfs_input * heard) (d : option (peer * bytes)) : Prop :=
  match snd x with
  | Asked xid p =>
      (exists r, call_outcome e before (ni_os (fst x)) p (Result r) /\
         d = Some (ni_from (fst x), std_reply xid r)) \/
      call_outcome e before (ni_os (fst x)) p NoAnswer /\ d = None
  | _ => d = None
  end.

(** Every reply of the history can be sent. *)
Definition sends_work (e : endian) (hs : history) : Prop :=
  forall k x, nth_error hs k = Some x ->
    ni_send (fst x) = true /\
    forall to d, replies e (firstn k hs) x (Some (to, d)) -> len d <= 65507.
Definition goes_well (e : endian) (hs : history) : Prop :=
  history_ok hs /\ never_killed e hs /\ sends_work e hs.

(** The service started afresh and run on the inputs of the history: the state it
    ends in, and the datagrams sent at each input. *)
Definition served (e : endian) (hs : history) : nfs_service * list (list (peer * bytes)) :=
  nfs_run e (map fst hs) service_new.

(** ** Handles of lookups *)

(** Two datagrams of the NFS lookup procedure that differ at most in the handle. *)
Definition only_handle_differs (d d' : bytes) : Prop :=
  bytes_ok d /\ bytes_ok d' /\ List.length d = List.length d' /\
  firstn 60 d = firstn 60 d' /\ skipn 92 d = skipn 92 d' /\
  number_at 12 4 d = 100003 /\ number_at 20 4 d = 4.

(** ** Delivery *)

(** [l] is [m] with some elements left out. *)
Inductive subsequence {A} : list A -> list A -> Prop :=
| sub_nil : subsequence [] []
| sub_keep a l m : subsequence l m -> subsequence (a :: l) (a :: m)
| sub_skip a l m : subsequence l m -> subsequence l (a :: m).

(** The elements present. *)
Definition present {A} (ds : list (option A)) : list A :=
  flat_map (fun d => match d with Some d => [d] | None => [] end) ds.
