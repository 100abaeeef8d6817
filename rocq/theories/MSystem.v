(** Model of src/rekordbox/server.rs [Server::run], src/rekordbox/rpc.rs [server]
    and src/rekordbox/library.rs [DBLibraryServer]: all services in one process. *)

From Verif Require Import Base Unicode MPackets MKeepalive MNetwork MServer MStatus MDb MDatabase MLib
  MRpc MRpcServer MNfs.
From Coq Require Import ZArith.
Open Scope list_scope.
Open Scope N_scope.

(** The task behind a UDP port given out by the port mapper (rpc/server.rs:115-131). *)
Inductive udp_service :=
| NoService
| NfsUdp (s : nfs_service)
| MountUdp (running : bool).

(** The process.  [sy_world]: main thread, keep-alive and broadcast thread.
    [sy_status]: the status thread is running.  [sy_mapper]: the task of the port
    mapper (rekordbox/rpc.rs:18-28) is running.  [sy_joined]: the task that joins
    it with the listener on port 12523 (rekordbox/server.rs:93-98) is running; the
    listener lives in it.  [sy_query]: connections accepted on port 12523 and
    still served (library.rs:747-780).  [sy_db]: the connection handlers.
    [sy_udp]: the RPC services. *)
Record system := mkSystem {
  sy_world : world;
  sy_status : bool;
  sy_mapper : bool;
  sy_joined : bool;
  sy_query : N -> bool;
  sy_db : db_ports;
  sy_udp : N -> udp_service
}.

(** rekordbox/server.rs:76-99, [Server::run], and component/mod.rs:27-28.  The
    flags tell whether the ports of the keep-alive service and of the status
    service (a failure of either is a panic of the main thread, server.rs:176-178
    and status_event_server.rs:31-38 called at server.rs:84 and 164), the port
    mapper (its task ends, rpc/server.rs:103) and the database listener (the joined
    task ends, library.rs:739) can be bound.  The broadcast thread is started
    before and goes on only with the process. *)
Definition system_start (keepalive_ok status_ok mapper_ok db_ok : bool) : system :=
  mkSystem (mkWorld state_default false [] keepalive_ok true (keepalive_ok && status_ok))
    status_ok mapper_ok db_ok (fun _ => false) (fun _ => NoHandler) (fun _ => NoService).

(** What happens next in one of the threads and tasks started at
    rekordbox/server.rs:79-97.  [SysJoin]: the runtime polls the joined task, which finds
    these connections waiting ([None]: accept fails).  [SysQuery]: a chunk arrives
    on an accepted connection; the port of the socket bound for it, [None] if that
    fails.  [SysQueryEnd]: its end of stream.  [SysDb]: an event at a handler's
    port, or nothing for [Query]. *)
Inductive sys_input :=
| SysWorld (i : input)
| SysStatus (e : status_input)
| SysMapper (i : pm_input)
| SysUdp (port : N) (i : nfs_input)
| SysJoin (waiting : list (option N))
| SysQuery (c : N) (chunk : bytes) (port : option N)
| SysQueryEnd (c : N)
| SysDb (e : db_event).

(** What each of them sends; [OutAccept] is the accept of library.rs:742. *)
Inductive sys_output :=
| OutWorld (o : output)
| OutStatus (s : sent)
| OutMapper (o : pm_output)
| OutUdp (port : N) (to : peer) (d : bytes)
| OutAccept (c : N)
| OutQuery (c : N) (d : bytes)
| OutDb (o : db_output).

(** Record updates; they model nothing by themselves. *)
Definition with_world (s : system) (w : world) : system :=
  mkSystem w (sy_status s) (sy_mapper s) (sy_joined s) (sy_query s) (sy_db s) (sy_udp s).
(** A field update, as above; it models no code of its own. *)
Definition with_status (s : system) (b : bool) : system :=
  mkSystem (sy_world s) b (sy_mapper s) (sy_joined s) (sy_query s) (sy_db s) (sy_udp s).
(** A field update, as above; it models no code of its own. *)
Definition with_mapper (s : system) (b : bool) (u : N -> udp_service) : system :=
  mkSystem (sy_world s) (sy_status s) b (sy_joined s) (sy_query s) (sy_db s) u.
(** A field update, as above; it models no code of its own. *)
Definition with_joined (s : system) (b : bool) (q : N -> bool) : system :=
  mkSystem (sy_world s) (sy_status s) (sy_mapper s) b q (sy_db s) (sy_udp s).
(** A field update, as above; it models no code of its own. *)
Definition with_query (s : system) (q : N -> bool) (d : db_ports) : system :=
  mkSystem (sy_world s) (sy_status s) (sy_mapper s) (sy_joined s) q d (sy_udp s).
(** A field update, as above; it models no code of its own. *)
Definition with_db (s : system) (d : db_ports) : system :=
  mkSystem (sy_world s) (sy_status s) (sy_mapper s) (sy_joined s) (sy_query s) d (sy_udp s).
(** A field update, as above; it models no code of its own. *)
Definition with_udp (s : system) (u : N -> udp_service) : system :=
  mkSystem (sy_world s) (sy_status s) (sy_mapper s) (sy_joined s) (sy_query s) (sy_db s) u.

(** One entry of a map replaced; models nothing by itself. *)
Definition at_key {A} (f : N -> A) (k : N) (x : A) : N -> A := fun q => if q =? k then x else f q.

(** rpc/server.rs:115-131: the services a turn of the port mapper starts, each
    fresh, on the socket it has bound. *)
Definition start_services (u : N -> udp_service) (outs : list pm_output) : N -> udp_service :=
  fold_left (fun u o =>
    match o with
    | PmStart NfsService port => at_key u port (NfsUdp service_new)
    | PmStart ProgramService port => at_key u port (MountUdp true)
    | PmReply _ _ => u
    end) outs u.

(** A datagram at the port of an RPC service.  The mount service reads the shared
    state under its mutex (rekordbox/rpc.rs:40-41). *)
Definition udp_turn (e : endian) (w : world) (port : N) (i : nfs_input) (v : udp_service)
  : udp_service * list sys_output :=
  match v with
  | NoService => (v, [])
  | NfsUdp s =>
      let (s, outs) := nfs_turn e i s in
      (NfsUdp s, map (fun o => OutUdp port (fst o) (snd o)) outs)
  | MountUdp running =>
      if running then
        let (running, outs) :=
          ms_turn (mkMsIn (ni_datagram i) (ni_from i) (w_poisoned w) (st_address (w_state w)) (ni_send i)) in
        (MountUdp running, map (fun o => OutUdp port (fst o) (snd o)) outs)
      else (v, [])
  end.

(** library.rs:741-783: the connections accepted in one poll. *)
Definition accepted (waiting : list (option N)) : list N :=
  flat_map (fun c => match c with Some c => [c] | None => [] end) waiting.

(** One step of the process.  [try_join!] (rekordbox/server.rs:94-97) polls the
    future of the port mapper first; if its task has ended, by a panic or with an
    error that rpc.rs:24-26 turns into one, [join.await?] is an error and the
    whole joined task ends, and with it the listener.  An error of the listener
    ends the joined task but not the port mapper, which is a task of its own. *)
Definition sys_step (e : endian) (p : profile) (h : hash_order) (d : database) (i : sys_input) (s : system)
  : system * list sys_output :=
  if w_running (sy_world s) then
    match i with
    | SysWorld i => let '(w, os) := step (sy_world s) i in (with_world s w, map OutWorld os)
    | SysStatus x =>
        if sy_status s then
          match status_turn x with
          | Ok out => (s, map OutStatus out)
          | _ => (with_status s false, [])
          end
        else (s, [])
    | SysMapper i =>
        if sy_mapper s then
          let (running, outs) := pm_turn i in
          (with_mapper s running (start_services (sy_udp s) outs), map OutMapper outs)
        else (s, [])
    | SysUdp port i =>
        let (v, outs) := udp_turn e (sy_world s) port i (sy_udp s port) in
        (with_udp s (at_key (sy_udp s) port v), outs)
    | SysJoin waiting =>
        if sy_joined s then
          if sy_mapper s then
            (with_joined s true (fold_left (fun q c => at_key q c true) (accepted waiting) (sy_query s)),
             map OutAccept (accepted waiting))
          else (with_joined s false (sy_query s), [])
        else (s, [])
    | SysQuery c chunk port =>
        if sy_query s c then
          match port with
          | Some port =>
              let (db, outs) := db_step p h d (sy_db s) (Query port chunk) in
              (with_db s db, map (fun o => match o with PortAnswer b => OutQuery c b | _ => OutDb o end) outs)
          | None => (with_query s (at_key (sy_query s) c false) (sy_db s), [])
          end
        else (s, [])
    | SysQueryEnd c => (with_query s (at_key (sy_query s) c false) (sy_db s), [])
    | SysDb x =>
        match x with
        | Query _ _ => (s, [])
        | _ => let (db, outs) := db_step p h d (sy_db s) x in (with_db s db, map OutDb outs)
        end
    end
  else (s, []).

(** The threads and tasks of rekordbox/server.rs:79-98 turn after turn, in any order. *)
Fixpoint sys_run (e : endian) (p : profile) (h : hash_order) (d : database) (is : list sys_input) (s : system)
  : system * list (list sys_output) :=
  match is with
  | [] => (s, [])
  | i :: is =>
      let (s, o) := sys_step e p h d i s in
      let (s, os) := sys_run e p h d is s in
      (s, o :: os)
  end.
