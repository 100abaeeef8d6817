(** Model of the process of MProcess.v on a runtime with a given number of
    workers.  [#[tokio::main]] (src/main.rs:9) starts as many worker threads as
    the machine has cores; the tasks of the services run on them, and a call that
    waits in [lock] (src/rekordbox/rpc.rs:40) keeps its worker from all other
    tasks. *)

From Verif Require Import Base Unicode MPackets MKeepalive MNetwork MServer MThreads MStatus MDb MDatabase MLib
  MRpc MRpcServer MNfs MSystem MProcess.
From Coq Require Import ZArith.
Open Scope list_scope.
Open Scope N_scope.

(** The process (rekordbox/server.rs:76-99), and the calls that wait for its mutex in
    the mount services (rekordbox/rpc.rs:40), each on a worker of its own. *)
Record pool := mkPool {
  pl_process : process;
  pl_waiting : list (N * nfs_input)
}.

(** rekordbox/server.rs:76-99, as [process_start]. *)
Definition pool_start (mapper_ok db_ok : bool) : pool := mkPool (process_start mapper_ok db_ok) [].

(** What happens next: an action of a thread; a service takes what has arrived
    for it (rpc/server.rs:64 and 106, library.rs:742, the reads of its handlers);
    the call that waits at a port gets the mutex (rekordbox/rpc.rs:40). *)
Inductive pool_action :=
| PoolThread (a : action)
| PoolTakes (i : sys_input)
| PoolGoes (port : N).

(** The services that are tasks of the runtime: all but the status service, which
    is a thread (status_event_server.rs:38, started at rekordbox/server.rs:85). *)
Definition on_runtime (i : sys_input) : bool :=
  match i with SysStatus _ | SysWorld _ => false | _ => true end.

(** The call that waits at a port (rekordbox/rpc.rs:40), if any. *)
Definition waits_at (x : pool) (port : N) : option (N * nfs_input) :=
  find (fun w => fst w =? port) (pl_waiting x).

(** The service that would take this input waits itself: the loop of
    rpc/server.rs:64-84 handles one call after the other. *)
Definition own_waits (x : pool) (i : sys_input) : bool :=
  match i with
  | SysUdp port _ => match waits_at x port with Some _ => true | None => false end
  | _ => false
  end.

(** One action with [n] workers (main.rs:9); [None]: it would have to wait.  Any
    free worker takes any task: the queues of the workers and the stealing between
    them are left out, and so is the time a turn takes that does not wait. *)
Definition pool_act (n : nat) (e : endian) (p : profile) (h : hash_order) (d : database) (x : pool) (a : pool_action)
  : option (pool * list sys_output) :=
  match a with
  | PoolThread a =>
      match proc_act e p h d (pl_process x) (ThreadActs a) with
      | Some (y, os) => Some (mkPool y (pl_waiting x), os)
      | None => None
      end
  | PoolTakes i =>
      if (on_runtime i && (n <=? List.length (pl_waiting x))%nat) || own_waits x i then None
      else
        match proc_act e p h d (pl_process x) (ServiceActs i) with
        | Some (y, os) => Some (mkPool y (pl_waiting x), os)
        | None =>
            match i with
            | SysUdp port j => Some (mkPool (pl_process x) (pl_waiting x ++ [(port, j)]), [])
            | _ => None
            end
        end
  | PoolGoes port =>
      match waits_at x port, th_lock (pr_threads (pl_process x)) with
      | Some (port, j), None =>
          match proc_act e p h d (pl_process x) (ServiceActs (SysUdp port j)) with
          | Some (y, os) => Some (mkPool y (filter (fun w => negb (fst w =? port)) (pl_waiting x)), os)
          | None => None
          end
      | _, _ => None
      end
  end.

(** A sequence of actions of the process on [n] workers (main.rs:9), each enabled
    when its turn comes. *)
Fixpoint pool_run (n : nat) (e : endian) (p : profile) (h : hash_order) (d : database) (x : pool) (acts : list pool_action)
  : option (pool * list (list sys_output)) :=
  match acts with
  | [] => Some (x, [])
  | a :: acts =>
      match pool_act n e p h d x a with
      | Some (x, os) =>
          match pool_run n e p h d x acts with
          | Some (x, oss) => Some (x, os :: oss)
          | None => None
          end
      | None => None
      end
  end.
