(** Model of the file descriptors the process of src/rekordbox/server.rs holds, and
    of an operating system that allows it only so many. *)

From Verif Require Import Base Unicode MPackets MNetwork MServer MStatus MDb MDatabase MLib MRpc MRpcServer MNfs MSystem.
Open Scope list_scope.
Open Scope N_scope.

(** What a descriptor is for: the sockets of the keep-alive service
    (rekordbox/keepalive.rs:107), the status service (status_event_server.rs:32),
    the port mapper (rpc/server.rs:103) and the database service (library.rs:739);
    a connection to port 12523 (library.rs:742); the listener opened for it
    (library.rs:755-758) and the one connection made to that (library.rs:705); the
    socket of an RPC service (rpc/server.rs:110); a file it keeps open
    (nfs_program.rs:57, by inode). *)
Inductive descriptor :=
| DKeepalive
| DStatus
| DMapper
| DDatabase
| DQuery (c : N)
| DListener (port : N)
| DClient (port : N)
| DService (port : N)
| DFile (port : N) (ino : N).

(** Which of them are open.  A listener stays open while its connection is served
    (library.rs:700-729 owns it); the files of a service are closed with its task
    (nfs_program.rs:14-17). *)
Definition open_in (s : system) (x : descriptor) : bool :=
  match x with
  | DKeepalive => w_listening (sy_world s)
  | DStatus => sy_status s
  | DMapper => sy_mapper s
  | DDatabase => sy_joined s
  | DQuery c => sy_query s c
  | DListener port => match sy_db s port with Listening | Serving _ => true | _ => false end
  | DClient port => match sy_db s port with Serving _ => true | _ => false end
  | DService port =>
      match sy_udp s port with
      | NfsUdp v => match sv_nfs v with Some _ => true | None => false end
      | MountUdp running => running
      | NoService => false
      end
  | DFile port ino =>
      match sy_udp s port with
      | NfsUdp v =>
          match sv_nfs v with
          | Some n => match hm_get ino (nf_files n) with Some _ => true | None => false end
          | None => false
          end
      | _ => false
      end
  end.

(** What the system grants in one step, with [n] descriptors open and [limit] allowed:
    a socket to send an announcement from (rekordbox/server.rs:318, closed again
    at once) or the datagrams of the handshake, one after the other; the socket
    the port mapper binds for a call (rpc/server.rs:110); an open file
    (rpc/fs.rs:16); accepted connections (library.rs:742 and 705); a listener
    (library.rs:755).  Each needs a descriptor that is still free.  Those the
    runtime and the standard streams take are not counted: [limit] is what is left.
    [pnet]'s list of the interfaces (utils/network.rs) is not restricted. *)
Definition within (limit n : nat) (s : system) (i : sys_input) : Prop :=
  match i with
  | SysWorld (BroadcastTurn ok) => ok = true -> (n < limit)%nat
  | SysWorld (AppTurn ok) => forall k, ok k = true -> (n < limit)%nat
  | SysMapper j => pi_port j <> None -> (n < limit)%nat
  | SysUdp _ j => forall path, os_open (ni_os j) path <> None -> (n < limit)%nat
  | SysJoin waiting => (n + List.length (accepted waiting) <= limit)%nat
  | SysQuery _ _ port => port <> None -> (n < limit)%nat
  | SysDb (Connect port) => sy_db s port = Listening -> (n < limit)%nat
  | _ => True
  end.

(** A step, or an accept at a handler's port that fails (library.rs:727), which ends
    the handler. *)
Inductive fd_input :=
| FdStep (i : sys_input)
| FdRefused (port : N).

(** library.rs:705-728: the failed accept is the end of the handler, as if its
    client had come and gone. *)
Definition fd_effects (x : fd_input) : list sys_input :=
  match x with
  | FdStep i => [i]
  | FdRefused port => [SysDb (Connect port); SysDb (Close port)]
  end.
