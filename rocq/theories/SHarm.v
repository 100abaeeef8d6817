(** Specification for C106: the parts of the program, when each works, and what
    takes it down. *)

From Verif Require Import Base Unicode MPackets MNetwork MServer MStatus MRpc MRpcServer MNfs MSystem
  SUdp SNetwork SServer SRpc SRpcServer SNfs SUp.
Open Scope list_scope.
Open Scope N_scope.

(** The parts: the process itself, the thread that listens for announcements, the
    thread that broadcasts, the state they share, the status service, the port
    mapper, the listener for database connections, and whatever is at a port that
    the port mapper has given out. *)
Inductive part :=
| Process
| Listening
| Announcing
| SharedState
| StatusService
| PortMapper
| DbListener
| Port (port : N).

(** A part works, in a state of the process. *)
Definition works (s : system) (x : part) : Prop :=
  w_running (sy_world s) = true /\
  match x with
  | Process => True
  | Listening => w_listening (sy_world s) = true
  | Announcing => w_broadcasting (sy_world s) = true
  | SharedState => w_poisoned (sy_world s) = false
  | StatusService => sy_status s = true
  | PortMapper => sy_mapper s = true
  | DbListener => sy_joined s = true
  | Port q =>
      match sy_udp s q with
      | NoService => True
      | NfsUdp v => sv_nfs v <> None
      | MountUdp running => running = true
      end
  end.

(** A link request is taken up. *)
Definition links (s : system) : Prop := exists q, w_queue (sy_world s) = InitiateLink :: q.
(** An announcement is heard from a network whose hardware address cannot be
    found out. *)
Definition heard_badly (s : system) (i : sys_input) : Prop :=
  exists d ifaces h, i = SysWorld (KaDatagram d ifaces) /\ works s Listening /\ works s SharedState /\
    status_of d h /\ lookup_fails ifaces (h_ip h).
(** A broadcast is due, to a network that is known, and cannot be sent. *)
Definition broadcast_fails (s : system) (i : sys_input) : Prop :=
  i = SysWorld (BroadcastTurn false) /\ works s Announcing /\ works s SharedState /\ network_known s <> None.
(** A link request is taken up and some of its datagrams cannot be sent. *)
Definition link_fails (s : system) (i : sys_input) : Prop :=
  exists ok k, i = SysWorld (AppTurn ok) /\ links s /\ works s SharedState /\ network_known s <> None /\
    (k < 40)%nat /\ ok k = false.
(** A link request is taken up without a network or without a usable state. *)
Definition link_hopeless (s : system) (i : sys_input) : Prop :=
  exists ok, i = SysWorld (AppTurn ok) /\ links s /\ (network_known s = None \/ ~ works s SharedState).

(** What takes down a part of a running process. *)
Definition takes (e : endian) (s : system) (i : sys_input) (x : part) : Prop :=
  link_hopeless s i \/ link_fails s i \/
  match x with
  | Process => False
  | Listening => heard_badly s i
  | Announcing => broadcast_fails s i
  | SharedState => heard_badly s i \/ broadcast_fails s i
  | StatusService => exists ip port d, i = SysStatus (StatusDatagram ip port d) /\ stops_status d
  | PortMapper => exists j, i = SysMapper j /\ pm_stops j
  | DbListener => exists ws, i = SysJoin ws /\ ~ works s PortMapper
  | Port q => exists j, i = SysUdp q j /\
      match sy_udp s q with
      | NoService => False
      | NfsUdp v => exists hs y, v = fst (served e hs) /\ history_ok (hs ++ [(j, y)]) /\ kills e hs (j, y)
      | MountUdp _ => ms_stops (mkMsIn (ni_datagram j) (ni_from j) (w_poisoned (sy_world s)) (network_known s) (ni_send j))
      end
  end.

(** The service the port mapper has just started at a port. *)
Definition fresh (v : service) : udp_service :=
  match v with NfsService => NfsUdp service_new | ProgramService => MountUdp true end.
