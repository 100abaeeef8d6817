(** Specification of the lines the process writes, and of what is left of it once
    nothing can be written. *)

From Verif Require Import Base Unicode MPackets MNetwork MServer MStatus MDb MLib MRpc MRpcServer MNfs MSystem SUdp
  SRpc SRpcServer SServer SNfs SSystem SDb SLib.
From Coq Require Import ZArith.
Open Scope list_scope.
Open Scope N_scope.

(** A datagram at an RPC port that is neither empty nor a call nor of type 1. *)
Definition rpc_noise (d : bytes) : Prop := d <> [] /\ (forall m, ~ call_says d m) /\ ~ reply_type d.

(** The status of a player, complete. *)
Definition is_player_status (d : bytes) : Prop := status_header d /\ octet 10 d = 0x0a /\ reaches 49 d.

(** What the status service takes without a word. *)
Definition status_expected (e : status_input) : Prop :=
  match e with
  | StatusDatagram _ _ d => is_hello d \/ is_link_query d \/ is_player_status d
  | StatusRecvError => False
  end.

(** A chunk on a database connection that is not read, or that is a request
    without a controller. *)
Definition chunk_noise (p : profile) (c : bytes) : Prop :=
  len c <> 5 /\
  (undecodable c \/ exists kind tx code fs, is_request p c kind tx code fs /\ ~ In code supported_codes).

(** A call that a file service with this history leaves without an answer. *)
Definition call_fails (e : endian) (before : history) (x : nfs_input * heard) : Prop :=
  exists xid q, snd x = Asked xid q /\ call_outcome e before (ni_os (fst x)) q NoAnswer.

(** Nothing so far has ended the thread that listens for devices: it could read
    every datagram, and look up the network of every device. *)
Definition alert (is : list input) : Prop :=
  forall d ifaces, In (KaDatagram d ifaces) is ->
    ka_acceptable d /\ forall h, status_of d h -> ~ lookup_fails ifaces (h_ip h).

(** A device has been heard. *)
Definition device_heard (is : list input) : Prop :=
  exists before d ifaces after h, is = before ++ KaDatagram d ifaces :: after /\
    alert before /\ status_of d h /\ ~ lookup_fails ifaces (h_ip h).

(** The main thread has looked for events after that. *)
Definition noticed (is : list input) : Prop :=
  exists before ok after, is = before ++ AppTurn ok :: after /\ device_heard before.

(** An input the port mapper survives in silence. *)
Definition mapper_expected (i : pm_input) : Prop :=
  pi_datagram i = [] \/
  (exists m, call_says (pi_datagram i) m) /\ pi_port i <> None /\ pi_send i = true.

(** What arrives on the database connection at a port until it is closed. *)
Fixpoint chunks_at (port : N) (is : list sys_input) : list bytes :=
  match is with
  | [] => []
  | SysDb (Chunk q c) :: is => if q =? port then c :: chunks_at port is else chunks_at port is
  | SysDb (Close q) :: is => if q =? port then [] else chunks_at port is
  | _ :: is => chunks_at port is
  end.

(** What is answered there. *)
Definition answers_at (port : N) (os : list sys_output) : list bytes :=
  flat_map (fun o => match o with OutDb (Answer q b) => if q =? port then [b] else [] | _ => [] end) os.

(** The chunks before the first that makes the connection print. *)
Definition quiet_part (p : profile) (cs quiet : list bytes) : Prop :=
  exists rest, cs = quiet ++ rest /\ Forall (fun c => ~ chunk_noise p c) quiet /\
    (rest = [] \/ exists c r, rest = c :: r /\ chunk_noise p c).

(** The port is not given out to another connection. *)
Definition no_query (port : N) (is : list sys_input) : Prop :=
  forall c chunk, ~ In (SysQuery c chunk (Some port)) is.

(** The bytes in an input are bytes. *)
Definition input_bytes (i : sys_input) : Prop :=
  match i with
  | SysMapper i => bytes_ok (pi_datagram i)
  | SysUdp _ i => bytes_ok (ni_datagram i)
  | SysDb (Chunk _ c) => bytes_ok c
  | _ => True
  end.

(** The steps that write a line, in a running process; the file services apart. *)
Definition line_written (p : profile) (s : system) (i : sys_input) : Prop :=
  match i with
  | SysWorld (KaDatagram d _) => w_listening (sy_world s) = true /\ ~ ka_acceptable d
  | SysWorld (AppTurn _) => w_queue (sy_world s) <> []
  | SysStatus x => sy_status s = true /\ ~ status_expected x
  | SysMapper j => sy_mapper s = true /\ rpc_noise (pi_datagram j)
  | SysUdp port j => sy_udp s port = MountUdp true /\ rpc_noise (ni_datagram j)
  | SysJoin waiting => sy_joined s = true /\ sy_mapper s = true /\ In None waiting
  | SysDb (Chunk port c) => (exists st, sy_db s port = Serving st) /\ chunk_noise p c
  | _ => False
  end.

(** A line is written for the input [x] of a file service with this history. *)
Definition file_noise (e : endian) (before : history) (x : nfs_input * heard) : Prop :=
  rpc_noise (ni_datagram (fst x)) \/ call_fails e before x.

(** What a file service hears before the first line it writes, or until a call has
    ended it. *)
Definition quiet_calls (e : endian) (before hs quiet : history) : Prop :=
  exists rest, hs = quiet ++ rest /\
    (forall k x, nth_error quiet k = Some x -> ~ file_noise e (before ++ firstn k quiet) x) /\
    (rest = [] \/ (exists x r, rest = x :: r /\ file_noise e (before ++ quiet) x) \/
     ~ never_killed e (before ++ quiet)).

(** The port is not given out to another service. *)
Definition no_start (port : N) (is : list sys_input) : Prop :=
  forall j, In (SysMapper j) is -> pi_port j <> Some port.

(** Whoever wrote a line for this input is gone. *)
Definition writer_gone (i : sys_input) (s : system) : Prop :=
  match i with
  | SysWorld (KaDatagram _ _) => w_listening (sy_world s) = false
  | SysWorld _ => w_running (sy_world s) = false
  | SysStatus _ => sy_status s = false
  | SysMapper _ => sy_mapper s = false
  | SysUdp port _ => sy_udp s port = MountUdp false \/ exists unsent, sy_udp s port = NfsUdp (mkService None unsent)
  | SysJoin _ => sy_joined s = false
  | SysDb (Chunk port _) => sy_db s port = Gone
  | _ => False
  end.

(** Everybody else is as before. *)
Record others_same (i : sys_input) (s s' : system) : Prop := {
  same_state : w_state (sy_world s') = w_state (sy_world s) /\ w_poisoned (sy_world s') = w_poisoned (sy_world s) /\
    w_broadcasting (sy_world s') = w_broadcasting (sy_world s);
  same_queue : (forall ok, i <> SysWorld (AppTurn ok)) ->
    w_queue (sy_world s') = w_queue (sy_world s) /\ w_running (sy_world s') = w_running (sy_world s);
  same_listening : (forall d f, i <> SysWorld (KaDatagram d f)) -> w_listening (sy_world s') = w_listening (sy_world s);
  same_status : (forall x, i <> SysStatus x) -> sy_status s' = sy_status s;
  same_mapper : (forall x, i <> SysMapper x) -> sy_mapper s' = sy_mapper s;
  same_udp : forall port, (forall x, i <> SysUdp port x) -> sy_udp s' port = sy_udp s port;
  same_joined : (forall x, i <> SysJoin x) -> sy_joined s' = sy_joined s;
  same_query : (forall x, i <> SysJoin x) -> forall c, sy_query s' c = sy_query s c;
  same_db : forall port, (forall x, i <> SysDb (Chunk port x)) -> sy_db s' port = sy_db s port
}.

(** Nothing has been sent; connections are accepted up to the first that fails. *)
Definition nothing_sent (i : sys_input) (s s' : system) (os : list sys_output) : Prop :=
  match i with
  | SysWorld (AppTurn _) => exists x, os = [OutWorld (Took x)] /\ w_queue (sy_world s) = x :: w_queue (sy_world s')
  | SysJoin waiting =>
      exists before rest, waiting = map Some before ++ None :: rest /\ os = map OutAccept before /\
        forall c, sy_query s' c = true <-> sy_query s c = true \/ In c before
  | _ => os = []
  end.

(** Whoever has sent this input's answer in vain might as well have met with: an
    announcement whose socket cannot be opened; a failed receive at the status port;
    an empty chunk, which is not a message, on the connection. *)
Definition met_with (i : sys_input) : sys_input :=
  match i with
  | SysWorld (BroadcastTurn _) => SysWorld (BroadcastTurn false)
  | SysStatus _ => SysStatus StatusRecvError
  | SysDb (Chunk port _) => SysDb (Chunk port [])
  | _ => i
  end.

(** Something is sent that the system can refuse; the RPC services are apart. *)
Definition sends_freely (os : list sys_output) : Prop :=
  exists o, In o os /\
    ((exists from to port data, o = OutWorld (Sent from to port data)) \/ (exists s, o = OutStatus s) \/
     (exists c data, o = OutQuery c data) \/ (exists x, o = OutDb x)).
