(** Specification of the traffic of the process: who asked and who is sent to. *)

From Verif Require Import Base Unicode MPackets MNetwork MServer MStatus MLib MRpc MRpcServer MNfs MSystem.
Open Scope list_scope.
Open Scope N_scope.

(** The other ends: an address at the status port; a correspondent of the port
    mapper; one of the RPC service at a port; a connection to port 12523; the
    client of the database service at a port. *)
Inductive correspondent :=
| StatusPeer (ip : ipv4)
| MapperPeer (p : peer)
| UdpPeer (port : N) (p : peer)
| QueryPeer (c : N)
| DbPeer (port : N).

(** Something comes in from there. *)
Definition received_from (x : correspondent) (i : sys_input) : bool :=
  match x, i with
  | StatusPeer ip, SysStatus (StatusDatagram a _ _) => a =? ip
  | MapperPeer p, SysMapper j => pi_from j =? p
  | UdpPeer port p, SysUdp q j => (q =? port) && (ni_from j =? p)
  | QueryPeer c, SysQuery k _ _ => k =? c
  | DbPeer port, SysDb (Chunk q _) => q =? port
  | _, _ => false
  end.

(** Something goes out to there. *)
Definition sent_to (x : correspondent) (o : sys_output) : bool :=
  match x, o with
  | StatusPeer ip, OutStatus (a, _, _) => a =? ip
  | MapperPeer p, OutMapper (PmReply a _) => a =? p
  | UdpPeer port p, OutUdp q a _ => (q =? port) && (a =? p)
  | QueryPeer c, OutQuery k _ => k =? c
  | DbPeer port, OutDb (Answer q _) => q =? port
  | _, _ => false
  end.

(** A datagram of discovery or linking goes out. *)
Definition announces (o : sys_output) : bool :=
  match o with OutWorld (Sent _ _ _ _) => true | _ => false end.

(** The broadcast thread makes a turn. *)
Definition broadcast_due (i : sys_input) : bool :=
  match i with SysWorld (BroadcastTurn _) => true | _ => false end.

(** Anything at all comes in on the status port, at the RPC services or on a
    database connection. *)
Definition asked (i : sys_input) : bool :=
  match i with
  | SysStatus (StatusDatagram _ _ _) | SysMapper _ | SysUdp _ _ | SysQuery _ _ _ | SysDb (Chunk _ _) => true
  | _ => false
  end.

(** The bytes that go out, if any do. *)
Definition on_the_wire (o : sys_output) : option bytes :=
  match o with
  | OutWorld (Sent _ _ _ b) => Some b
  | OutStatus (_, _, b) => Some b
  | OutMapper (PmReply _ b) => Some b
  | OutUdp _ _ b => Some b
  | OutQuery _ b => Some b
  | OutDb (PortAnswer b) => Some b
  | OutDb (Answer _ b) => Some b
  | _ => None
  end.
Definition carries (o : sys_output) : bool := match on_the_wire o with Some _ => true | None => false end.

Definition count {A} (f : A -> bool) (l : list A) : nat := List.length (filter f l).

(** How much goes out at once.  Announcements have 44, 50 or 54 bytes and status
    replies 296 or 192, to port 50002; the port mapper's replies have 28 and the
    answers on port 12523 have 2; nothing is larger than a UDP datagram, except
    answers on a database connection. *)
Definition fair_size (o : sys_output) : Prop :=
  match o with
  | OutWorld (Sent _ _ port b) => port = 50000 /\ (len b = 44 \/ len b = 50 \/ len b = 54)
  | OutStatus (_, port, b) => port = 50002 /\ (len b = 296 \/ len b = 192)
  | OutMapper (PmReply _ b) => len b = 28
  | OutUdp _ _ b => len b <= 65507
  | OutQuery _ b => len b = 2
  | _ => True
  end.
