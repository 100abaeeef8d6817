(** Specification for C89: a disk that changes while files of it are open. *)

From Verif Require Import Base Unicode MRpc MRpcServer MNfs SNfs.
Open Scope list_scope.
Open Scope N_scope.

(** One moment of a disk: which file a path names, if any, and the attributes and
    bytes of every file.  A file stays what it is when it is renamed or removed. *)
Record disk := mkDisk {
  dk_names : bytes -> option fid;
  dk_info : fid -> meta;
  dk_content : fid -> bytes
}.

(** What the operating system answers at this moment: everything that is there can
    be opened and read. *)
Definition os_on (d : disk) : os :=
  mkOs (fun p => option_map (dk_info d) (dk_names d p)) (dk_names d)
       (fun f => Some (dk_content d f)) (fun f => Some (dk_info d f)).

(** A file is there while it has a name or is held open. *)
Definition there (held : list fid) (d : disk) (f : fid) : Prop :=
  In f held \/ exists p, dk_names d p = Some f.

(** Files that are there at the same time have different inode numbers, of 64
    bits, and known times. *)
Definition disk_ok (held : list fid) (d : disk) : Prop :=
  (forall f, there held d f -> m_ino (dk_info d f) < 2^64 /\ times_known (dk_info d f)) /\
  (forall f g, there held d f -> there held d g -> m_ino (dk_info d f) = m_ino (dk_info d g) -> f = g).

(** A disk may change in any way (names come, go and move, files are written, the
    inode number of a file that is gone is used again for another), but a file
    held open keeps its inode number. *)
Definition may_become (held : list fid) (d d' : disk) : Prop :=
  disk_ok held d' /\ forall f, In f held -> m_ino (dk_info d' f) = m_ino (dk_info d f).

(** The files a file service holds open. *)
Definition open_files (s : nfs_service) : list fid :=
  match sv_nfs s with Some n => map snd (nf_files n) | None => [] end.

(** The service serves the inputs, each answered by the disk as it is then; the
    disk changes in between as it may with the files the service holds open. *)
Inductive on_disk (e : endian) : nfs_service -> disk -> list (disk * (nfs_input * heard)) -> Prop :=
| od_nil : forall s d, on_disk e s d []
| od_step : forall s d d' x rest, may_become (open_files s) d d' -> ni_os (fst x) = os_on d' ->
    on_disk e (fst (nfs_turn e (fst x) s)) d' rest -> on_disk e s d ((d', x) :: rest).

(** The input [x], on the disk [d] after the history [before], looks up the
    regular file [f]. *)
Definition looks_up (before : list (disk * (nfs_input * heard))) (d : disk) (x : nfs_input * heard)
  (xid : N) (f : fid) : Prop :=
  exists l, snd x = Asked xid (NfsLookup l) /\
    dk_names d (resolve (position (map snd before)) (lk_filename l)) = Some f /\
    m_file (dk_info d f) = true.
