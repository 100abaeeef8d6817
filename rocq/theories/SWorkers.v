(** Specification for the process on a number of workers: what was taken, what
    was handled, and who needs a worker. *)

From Verif Require Import Base Unicode MPackets MNetwork MServer MThreads MStatus MLib MRpc MRpcServer MNfs MSystem
  MProcess MWorkers SNetwork SServer SThreads SRpc SSystem SProcess.
Open Scope list_scope.
Open Scope N_scope.

(** The actions of the threads, and what the services took, in order. *)
Definition pool_threads (acts : list pool_action) : list action :=
  flat_map (fun a => match a with PoolThread a => [a] | _ => [] end) acts.
Definition pool_taken (acts : list pool_action) : list sys_input :=
  flat_map (fun a => match a with PoolTakes i => [i] | _ => [] end) acts.
(** What the services handled, in a schedule of the process. *)
Definition handled (acts : list proc_action) : list sys_input :=
  flat_map (fun a => match a with ServiceActs i => [i] | ThreadActs _ => [] end) acts.

(** The datagrams for one port; all that is not a datagram for an RPC service. *)
Definition at_port (port : N) (is : list sys_input) : list nfs_input :=
  flat_map (fun i => match i with SysUdp q j => if q =? port then [j] else [] | _ => [] end) is.
Definition elsewhere (is : list sys_input) : list sys_input :=
  flat_map (fun i => match i with SysUdp _ _ => [] | _ => [i] end) is.
(** The calls that wait at a port. *)
Definition waiting_at (port : N) (ws : list (N * nfs_input)) : list nfs_input :=
  flat_map (fun w => if fst w =? port then [snd w] else []) ws.

(** All services but the status service, which has a thread of its own. *)
Definition needs_worker (i : sys_input) : Prop := forall x, i <> SysStatus x.

(** Some call waits at the port this is for. *)
Definition service_waits (x : pool) (i : sys_input) : Prop :=
  exists port j k, i = SysUdp port j /\ In (port, k) (pl_waiting x).

(** The datagram is an EXPORT call. *)
Definition export_question (j : nfs_input) : Prop :=
  exists m c, call_says (ni_datagram j) m /\ rpc_body m = Call c /\ ca_procedure c = MountExport.

(** Datagrams consist of bytes. *)
Definition taken_typed (acts : list pool_action) : Prop :=
  forall port j, In (PoolTakes (SysUdp port j)) acts -> bytes_ok (ni_datagram j).

(** The ports given out for other services than the file service. *)
Definition mount_ports (os : list sys_output) : list N :=
  flat_map (fun o => match o with OutMapper (PmStart ProgramService port) => [port] | _ => [] end) os.
