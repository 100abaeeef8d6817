(** Model of what the process writes to its standard output and error, and of the
    process once they cannot be written to any more (a closed pipe, a terminal
    that is gone): [println!], [eprintln!] and [dbg!] panic then. *)

From Verif Require Import Base Unicode MPackets MKeepalive MNetwork MServer MStatus MDb MDatabase MLib
  MRpc MRpcServer MNfs MSystem.
From Coq Require Import ZArith.
Open Scope list_scope.
Open Scope N_scope.

(** rpc/packets.rs:62-69: a message that is not decoded is printed; the mount
    service prints the error again (rpc/server.rs:81). *)
Definition decoding_prints (d : bytes) : bool :=
  match codec_decode d with Err => true | _ => false end.

(** keepalive.rs:120-134; component/mod.rs:40-51 with server.rs:101-102: every
    event taken by the main thread is announced.  The lines about failed sends
    (server.rs:330) are in [mute_send]; those about a queue without receiver (server.rs:146, 249, 255) belong to a process that
    has ended. *)
Definition world_prints (w : world) (i : input) : bool :=
  match i with
  | KaDatagram d _ => w_listening w && match ka_receive d with Err => true | _ => false end
  | KaRecvError => false
  | BroadcastTurn _ => false
  | AppTurn _ => match w_queue w with [] => false | _ :: _ => true end
  end.

(** status_event_server.rs:48-52 and 86-90, 124-147 and packets.rs:433-436.  The
    socket is a blocking one, so its errors are none of the kind WouldBlock.  The
    line about failed sends (98) is in [mute_send]; line 114 is never reached, as
    [send_to] always returns Ok. *)
Definition status_prints (e : status_input) : bool :=
  match status_recv_from e with
  | Ok (packet, _) =>
      match sp_kind packet with
      | KCdj | KRekordboxHello | KLinkQuery => false
      | _ => true
      end
  | Err => true
  | Panic => true
  end.

(** nfs_program.rs:117-148: a message that is not decoded, a call that fails
    (line 139). *)
Definition nfs_prints (e : endian) (i : nfs_input) (s : nfs_service) : bool :=
  match sv_nfs s with
  | None => false
  | Some n =>
      match codec_decode (ni_datagram i) with
      | Err => true
      | Ok (Some m) =>
          match rpc_body m with
          | Call c =>
              match snd (call_procedure e (ni_os i) (ca_procedure c) n) with Err => true | _ => false end
          | Reply _ => false
          end
      | _ => false
      end
  end.

(** library.rs:667-698.  The lines about failed sends (719, 773) are in [mute_send];
    one about a failed receive (723) ends the connection like its closing. *)
Definition chunk_prints (p : profile) (h : hash_order) (d : database) (st : client_state) (chunk : bytes) : bool :=
  if len chunk =? 5 then false
  else
    match parse_message p chunk with
    | Ok (_, m) => match controller h d m st with Some _ => false | None => true end
    | Err => true
    | Panic => false
    end.

(** library.rs:741-782: the connections accepted before the first accept that
    fails, and whether one fails. *)
Fixpoint accepted_first (waiting : list (option N)) : list N * bool :=
  match waiting with
  | [] => ([], false)
  | Some c :: waiting => let (cs, failed) := accepted_first waiting in (c :: cs, failed)
  | None :: _ => ([], true)
  end.

(** The step writes something: the lines cited above, each by a service that is
    there; library.rs:782 for an accept that fails. *)
Definition prints (e : endian) (p : profile) (h : hash_order) (d : database) (i : sys_input) (s : system) : bool :=
  w_running (sy_world s) &&
  match i with
  | SysWorld i => world_prints (sy_world s) i
  | SysStatus x => sy_status s && status_prints x
  | SysMapper i => sy_mapper s && decoding_prints (pi_datagram i)
  | SysUdp port i =>
      match sy_udp s port with
      | NoService => false
      | NfsUdp v => nfs_prints e i v
      | MountUdp running => running && decoding_prints (ni_datagram i)
      end
  | SysJoin waiting => sy_joined s && sy_mapper s && snd (accepted_first waiting)
  | SysDb (Chunk port chunk) =>
      match sy_db s port with
      | Serving st => chunk_prints p h d st chunk
      | _ => false
      end
  | _ => false
  end.

(** keepalive.rs:128: the keep-alive thread panics, without the mutex.
    component/mod.rs:45 and server.rs:102: the main thread panics, after it has
    taken the event and before it locks the state. *)
Definition world_unprinted (w : world) (i : input) : world * list output :=
  match i with
  | KaDatagram _ _ =>
      (mkWorld (w_state w) (w_poisoned w) (w_queue w) false (w_broadcasting w) (w_running w), [])
  | AppTurn _ =>
      match w_queue w with
      | [] => (w, [])
      | e :: q =>
          (mkWorld (w_state w) (w_poisoned w) q (w_listening w) (w_broadcasting w) false, [Took e])
      end
  | _ => (w, [])
  end.

(** nfs_program.rs:135-139 and rpc/packets.rs:66: the task panics. *)
Definition nfs_unprinted (s : nfs_service) : nfs_service := mkService None (sv_unsent s).

(** A step whose line cannot be written: the thread or task that prints panics at
    that point.  Lines 750-780 of library.rs run in tasks of their own, so the
    connections accepted before are served. *)
Definition unprinted (i : sys_input) (s : system) : system * list sys_output :=
  match i with
  | SysWorld i => let (w, os) := world_unprinted (sy_world s) i in (with_world s w, map OutWorld os)
  | SysStatus _ => (with_status s false, [])
  | SysMapper _ => (with_mapper s false (sy_udp s), [])
  | SysUdp port _ =>
      match sy_udp s port with
      | NoService => (s, [])
      | NfsUdp v => (with_udp s (at_key (sy_udp s) port (NfsUdp (nfs_unprinted v))), [])
      | MountUdp _ => (with_udp s (at_key (sy_udp s) port (MountUdp false)), [])
      end
  | SysJoin waiting =>
      (with_joined s false
         (fold_left (fun q c => at_key q c true) (fst (accepted_first waiting)) (sy_query s)),
       map OutAccept (fst (accepted_first waiting)))
  | SysDb (Chunk port _) => (with_db s (set_port (sy_db s) port Gone), [])
  | _ => (s, [])
  end.

(** One step of the process while it cannot write; a step without a line is as in
    MSystem. *)
Definition mute_step (e : endian) (p : profile) (h : hash_order) (d : database) (i : sys_input) (s : system)
  : system * list sys_output :=
  if prints e p h d i s then unprinted i s else sys_step e p h d i s.

(** The loops of all threads and tasks, as in [sys_run]. *)
Fixpoint mute_run (e : endian) (p : profile) (h : hash_order) (d : database) (is : list sys_input) (s : system)
  : system * list (list sys_output) :=
  match is with
  | [] => (s, [])
  | i :: is =>
      let (s, o) := mute_step e p h d i s in
      let (s, os) := mute_run e p h d is s in
      (s, o :: os)
  end.

(** What the system can refuse to send with a line as the only consequence: an
    announcement (server.rs:324-333), a status reply (status_event_server.rs:93-104),
    an answer on a database connection (library.rs:712-721) and one with a port
    number (library.rs:771-774).  A refused answer of an RPC service ends it and is
    part of its inputs. *)
Definition refusable (o : sys_output) : bool :=
  match o with
  | OutWorld (Sent _ _ _ _) => true
  | OutStatus _ => true
  | OutQuery _ _ => true
  | OutDb _ => true
  | _ => false
  end.

(** Whoever has sent in vain writes a line and panics: server.rs:330, in the
    announcing thread while it holds the mutex (193), which poisons it;
    status_event_server.rs:98; library.rs:719; library.rs:773, when the handler of
    the port has been started already (757-764).  [s0] is the process before the
    step, [s] after it. *)
Definition unsent (i : sys_input) (s0 s : system) : system :=
  match i with
  | SysWorld _ =>
      let w := sy_world s in
      with_world s (mkWorld (w_state w) true (w_queue w) (w_listening w) false (w_running w))
  | SysStatus _ => with_status s false
  | SysQuery c _ _ => with_query s (at_key (sy_query s) c false) (sy_db s)
  | SysDb (Chunk port _) => with_db s (set_port (sy_db s0) port Gone)
  | _ => s
  end.

(** A step of the process that cannot write; [granted] is false if the system
    refuses what the step sends.  The main thread never comes to send anything
    (server.rs:102). *)
Definition mute_send (e : endian) (p : profile) (h : hash_order) (d : database) (i : sys_input) (granted : bool) (s : system)
  : system * list sys_output :=
  let (s', os) := mute_step e p h d i s in
  if granted || negb (existsb refusable os) then (s', os)
  else (unsent i s s', filter (fun o => negb (refusable o)) os).

(** The loops of all threads and tasks, as in [mute_run]. *)
Fixpoint mute_sends_run (e : endian) (p : profile) (h : hash_order) (d : database) (is : list (sys_input * bool)) (s : system)
  : system * list (list sys_output) :=
  match is with
  | [] => (s, [])
  | (i, granted) :: is =>
      let (s, o) := mute_send e p h d i granted s in
      let (s, os) := mute_sends_run e p h d is s in
      (s, o :: os)
  end.
