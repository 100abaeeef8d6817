(** Specification for C99: several copies of the program on one network. *)

From Verif Require Import Base Unicode MPackets MKeepalive MNetwork MServer MStatus MDatabase MLib MRpc MRpcServer MNfs MSystem
  SServer SSystem STraffic.
Open Scope list_scope.
Open Scope N_scope.

(** A datagram goes out to some address at port [q].  Answers of the port mapper
    and of its services go to the port their question seems to come from, which may
    be any. *)
Definition goes_out (o : sys_output) (q : N) (b : bytes) : Prop :=
  match o with
  | OutWorld (Sent _ _ port data) => q = port /\ b = data
  | OutStatus (_, port, data) => q = port /\ b = data
  | OutMapper (PmReply _ data) => b = data
  | OutUdp _ _ data => b = data
  | _ => False
  end.

(** A datagram comes in at port [q], from anybody: discovery is at 50000, the status
    service at 50002, the port mapper at 50111, its services are at other ports. *)
Definition comes_in (i : sys_input) (q : N) (b : bytes) : Prop :=
  match i with
  | SysWorld (KaDatagram data _) => q = 50000 /\ data = b
  | SysStatus (StatusDatagram _ _ data) => q = 50002 /\ data = b
  | SysMapper j => q = 50111 /\ pi_datagram j = b
  | SysUdp port j => q = port /\ ni_datagram j = b /\ port <> 50000 /\ port <> 50002 /\ port <> 50111
  | _ => False
  end.

(** Some copy of the program, with any library and history, sends this. *)
Definition said_by_a_copy (o : sys_output) : Prop :=
  exists e p h d mp db is, inputs_typed (world_inputs is) /\
    In o (List.concat (snd (sys_run e p h d is (system_start true true mp db)))).

(** What arrives is what a copy has sent. *)
Definition carried (o : sys_output) (i : sys_input) : Prop :=
  said_by_a_copy o /\ exists q b, goes_out o q b /\ comes_in i q b.
Definition from_a_copy (i : sys_input) : Prop := exists o, carried o i.
Definition announcement_of_a_copy (i : sys_input) : Prop := exists o, announces o = true /\ carried o i.

(** [more] is [is] with turns of the kind [extra] put in anywhere. *)
Inductive with_extra (extra : sys_input -> Prop) : list sys_input -> list sys_input -> Prop :=
| extra_none : with_extra extra [] []
| extra_keep : forall i is more, with_extra extra is more -> with_extra extra (i :: is) (i :: more)
| extra_put : forall i is more, extra i -> with_extra extra is more -> with_extra extra is (i :: more).

(** The process with its status service ended, and with its port mapper ended. *)
Definition status_ended (s : system) : system :=
  mkSystem (sy_world s) false (sy_mapper s) (sy_joined s) (sy_query s) (sy_db s) (sy_udp s).
Definition mapper_ended (s : system) : system :=
  mkSystem (sy_world s) (sy_status s) false (sy_joined s) (sy_query s) (sy_db s) (sy_udp s).

(** An RPC service that has ended. *)
Definition service_ended (v : udp_service) : Prop :=
  match v with NoService => True | NfsUdp s => sv_nfs s = None | MountUdp running => running = false end.

(** [s'] is [s] except that the service at port [q] has ended. *)
Definition ended_at (q : N) (s s' : system) : Prop :=
  sy_world s' = sy_world s /\ sy_status s' = sy_status s /\ sy_mapper s' = sy_mapper s /\ sy_joined s' = sy_joined s /\
  sy_query s' = sy_query s /\ sy_db s' = sy_db s /\
  (forall q', q' <> q -> sy_udp s' q' = sy_udp s q') /\ service_ended (sy_udp s' q).
