(** Specification of the process as a whole: what each part receives and sends. *)

From Verif Require Import Base Unicode MPackets MNetwork MServer MStatus MLib MRpc MRpcServer MNfs MSystem SUdp
  SRpc SRpcServer SServer SNfs.
From Coq Require Import ZArith.
Open Scope list_scope.
Open Scope N_scope.

(** What happens to each part, out of what happens to the process. *)
Definition world_inputs (is : list sys_input) : list input :=
  flat_map (fun i => match i with SysWorld i => [i] | _ => [] end) is.
Definition status_inputs (is : list sys_input) : list status_input :=
  flat_map (fun i => match i with SysStatus i => [i] | _ => [] end) is.
Definition mapper_inputs (is : list sys_input) : list pm_input :=
  flat_map (fun i => match i with SysMapper i => [i] | _ => [] end) is.
Definition udp_inputs (port : N) (is : list sys_input) : list nfs_input :=
  flat_map (fun i => match i with SysUdp q i => if q =? port then [i] else [] | _ => [] end) is.

(** What each part sends, out of what the process sends. *)
Definition world_outputs (os : list sys_output) : list output :=
  flat_map (fun o => match o with OutWorld o => [o] | _ => [] end) os.
Definition status_outputs (os : list sys_output) : list sent :=
  flat_map (fun o => match o with OutStatus o => [o] | _ => [] end) os.
Definition mapper_outputs (os : list sys_output) : list pm_output :=
  flat_map (fun o => match o with OutMapper o => [o] | _ => [] end) os.
Definition udp_outputs (port : N) (os : list sys_output) : list (peer * bytes) :=
  flat_map (fun o => match o with OutUdp q to d => if q =? port then [(to, d)] else [] | _ => [] end) os.
Definition db_outputs (os : list sys_output) : list db_output :=
  flat_map (fun o => match o with OutQuery _ b => [PortAnswer b] | OutDb o => [o] | _ => [] end) os.

(** Discovery and linking have not ended the process. *)
Definition process_runs (is : list sys_input) : Prop := w_running (fst (run (world_inputs is))) = true.

(** A record of a run: what happened with what was sent at once. *)
Definition trace := list (sys_input * list sys_output).

(** The connection [c] to port 12523 has been accepted, and neither closed nor
    lost because no socket could be bound for it. *)
Definition connected (tr : trace) (c : N) : Prop :=
  exists before i os after, tr = before ++ (i, os) :: after /\ In (OutAccept c) os /\
    forall j ys, In (j, ys) after -> j <> SysQueryEnd c /\ forall chunk, j <> SysQuery c chunk None.

(** The events at the database services in a run: chunks on connections accepted
    before, and whatever happens at the ports given out. *)
Inductive db_history : trace -> list db_event -> Prop :=
| dbh_nil : db_history [] []
| dbh_query : forall tr es c chunk port os, db_history tr es -> connected tr c ->
    db_history (tr ++ [(SysQuery c chunk (Some port), os)]) (es ++ [Query port chunk])
| dbh_handler : forall tr es x os, db_history tr es -> (forall port chunk, x <> Query port chunk) ->
    db_history (tr ++ [(SysDb x, os)]) (es ++ [x])
| dbh_other : forall tr es i os, db_history tr es ->
    (forall c chunk port, i = SysQuery c chunk (Some port) -> ~ connected tr c) ->
    (forall x, i = SysDb x -> exists port chunk, x = Query port chunk) ->
    db_history (tr ++ [(i, os)]) es.

(** A step starts a service at a port. *)
Definition starts (os : list sys_output) (v : service) (port : N) : Prop := In (OutMapper (PmStart v port)) os.

(** What a mount service at a port receives: the datagrams there, each with the
    shared state discovery and linking have reached by then. *)
Fixpoint mount_inputs (before : list sys_input) (port : N) (is : list sys_input) : list ms_input :=
  match is with
  | [] => []
  | i :: is =>
      match i with
      | SysUdp q j =>
          if q =? port then
            [mkMsIn (ni_datagram j) (ni_from j) (w_poisoned (fst (run (world_inputs before))))
               (st_address (w_state (fst (run (world_inputs before))))) (ni_send j)]
          else []
      | _ => []
      end ++ mount_inputs (before ++ [i]) port is
  end.
