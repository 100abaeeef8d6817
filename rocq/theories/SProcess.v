(** Specification for the process action by action: what its services receive
    and send, and what a schedule has in common with a history of whole turns. *)

From Verif Require Import Base Unicode MPackets MNetwork MServer MThreads MStatus MLib MRpc MRpcServer MNfs MSystem
  MProcess SNetwork SServer SThreads SRpc SSystem.
Open Scope list_scope.
Open Scope N_scope.

(** The actions of the threads in a schedule of the process. *)
Definition thread_acts (acts : list proc_action) : list action :=
  flat_map (fun a => match a with ThreadActs a => [a] | ServiceActs _ => [] end) acts.

(** What happened at the services and what they sent at once, in a schedule and
    in a history of whole turns. *)
Definition at_services (tr : list (proc_action * list sys_output)) : list (sys_input * list sys_output) :=
  flat_map (fun x => match x with (ServiceActs i, os) => [(i, os)] | _ => [] end) tr.
Definition beside_threads (tr : list (sys_input * list sys_output)) : list (sys_input * list sys_output) :=
  flat_map (fun x => match x with (SysWorld _, _) => [] | _ => [x] end) tr.

(** The services of the two are in the same state. *)
Definition same_services (x : process) (s : system) : Prop :=
  pr_status x = sy_status s /\ pr_mapper x = sy_mapper s /\ pr_joined x = sy_joined s /\
  pr_query x = sy_query s /\ pr_db x = sy_db s /\ pr_udp x = sy_udp s.

(** An EXPORT call for the mount service at a port. *)
Definition asks_export (x : process) (i : sys_input) : Prop :=
  exists port j m c, i = SysUdp port j /\ pr_udp x port = MountUdp true /\
    call_says (ni_datagram j) m /\ rpc_body m = Call c /\ ca_procedure c = MountExport.
