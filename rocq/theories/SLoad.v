(** Specification of loading a track: the player walks along the path it was given,
    one part after the other, and reads the file in pieces. *)

From Verif Require Import Base Unicode SUdp MRpc SRpc MNetwork MRpcServer SRpcServer MNfs SNfs.
From Coq Require Import ZArith.
Open Scope list_scope.
Open Scope N_scope.

(** The parts of an absolute path text. *)
Definition parts (path : str) (cs : list str) : Prop :=
  path = flat_map (fun c => 47 :: c) cs /\ Forall (fun c => c <> [] /\ ~ In 47 c) cs.

(** A standard NFS call with transaction id [xid], in a datagram. *)
Definition std_nfs_call (d : bytes) (xid : N) (p : rpc_procedure) : Prop :=
  exists rpcvers vers stamp uid gid proc args,
    word_ok xid /\ word_ok rpcvers /\ word_ok vers /\ word_ok stamp /\ word_ok uid /\ word_ok gid /\
    std_args p Nfs proc args /\ bytes_ok d /\
    d = std_call xid rpcvers 100003 vers proc (std_auth 1 (unix_body stamp [] uid gid [])) (std_auth 0 []) args.

(** The input is a standard call of the procedure, and the answer can be sent. *)
Definition asks (p : rpc_procedure) (x : nfs_input * heard) : Prop :=
  exists xid, std_nfs_call (ni_datagram (fst x)) xid p /\ snd x = Asked xid p /\ ni_send (fst x) = true.

(** The player looks up the parts of the path, one after the other. *)
Definition looks_up (path : str) (walk : history) : Prop :=
  exists cs, parts path cs /\
    Forall2 (fun c x => exists h, asks (NfsLookup (mkLookup (utf8_encode c) h)) x) cs walk.

(** The player reads the pieces of [cnt] bytes of the file with the handle [h]. *)
Definition reads_pieces (h : bytes) (cnt : N) (reads : history) : Prop :=
  forall k x, nth_error reads k = Some x -> exists total, asks (NfsRead (mkRead h (cnt * N.of_nat k) cnt total)) x.

(** During the walk the names lead through directories to a regular file with
    inode [ino], opened as [f] at the last step. *)
Definition on_disk (names : list bytes) (walk : history) (ino : N) (f : fid) : Prop :=
  ino < 2 ^ 64 /\
  forall j x, nth_error walk j = Some x -> exists m f',
    os_stat (ni_os (fst x)) (absolute (firstn (j + 1) names)) = Some m /\
    os_open (ni_os (fst x)) (absolute (firstn (j + 1) names)) = Some f' /\
    times_known m /\ m_file m = (j + 1 =? List.length names)%nat /\
    ((j + 1)%nat = List.length names -> m_ino m = ino /\ f' = f).

(** While it is read, the open file has this content. *)
Definition has_content (f : fid) (content : bytes) (reads : history) : Prop :=
  Forall (fun x => os_content (ni_os (fst x)) f = Some content /\
            exists m, os_fstat (ni_os (fst x)) f = Some m /\ times_known m) reads.

(** While it is read, the open file has these contents, one for each read. *)
Definition has_contents (f : fid) (contents : list bytes) (reads : history) : Prop :=
  Forall2 (fun (c : bytes) (x : nfs_input * heard) => os_content (ni_os (fst x)) f = Some c /\
            exists m, os_fstat (ni_os (fst x)) f = Some m /\ times_known m) contents reads.

(** The reply [out] to [x] carries [data]. *)
Definition data_reply (x : nfs_input * heard) (data : bytes) (out : peer * bytes) : Prop :=
  exists xid p fattr, snd x = Asked xid p /\ len fattr = 68 /\
    out = (ni_from (fst x), std_reply xid (std_read_result fattr data)).
