(** Model of the whole process with its threads action by action: MThreads.v for
    discovery and linking, MSystem.v for the services.  The tasks of the services
    run beside the threads, on the workers of the tokio runtime (main.rs:9); what
    they share with them is the mutex of src/rekordbox/server.rs:58 alone. *)

From Verif Require Import Base Unicode MPackets MKeepalive MNetwork MServer MThreads MStatus MDb MDatabase MLib
  MRpc MRpcServer MNfs MSystem.
From Coq Require Import ZArith.
Open Scope list_scope.
Open Scope N_scope.

(** The process: the threads (rekordbox/server.rs:79-80, component/mod.rs:27-34)
    and everything else that [Server::run] starts (rekordbox/server.rs:81-98); the
    fields are those of [system]. *)
Record process := mkProcess {
  pr_threads : threads;
  pr_status : bool;
  pr_mapper : bool;
  pr_joined : bool;
  pr_query : N -> bool;
  pr_db : db_ports;
  pr_udp : N -> udp_service
}.

(** rekordbox/server.rs:76-99 with the ports of the keep-alive and the status
    service bound; the flags are those of [system_start]. *)
Definition process_start (mapper_ok db_ok : bool) : process :=
  mkProcess threads_start true mapper_ok db_ok (fun _ => false) (fun _ => NoHandler) (fun _ => NoService).

(** What happens next: an action of a thread, or something at a service
    (rekordbox/server.rs:76-99 starts them all). *)
Inductive proc_action :=
| ThreadActs (a : action)
| ServiceActs (i : sys_input).

(** The services as MSystem.v has them, with the shared state as it is in the
    mutex (rekordbox/rpc.rs:40-41; nothing else of the threads is used there). *)
Definition services_with (t : threads) (x : process) : system :=
  mkSystem (mkWorld (th_state t) (th_poisoned t) (th_queue t) true true true)
    (pr_status x) (pr_mapper x) (pr_joined x) (pr_query x) (pr_db x) (pr_udp x).

(** rekordbox/rpc.rs:39-40 and 79-84, rpc/server.rs:60-72: the datagram is a call
    for which the mount service takes the mutex. *)
Definition takes_mutex (x : process) (i : sys_input) : bool :=
  match i with
  | SysUdp port j =>
      match pr_udp x port with
      | MountUdp true =>
          match codec_decode (ni_datagram j) with
          | Ok (Some m) =>
              match rpc_body m with
              | Call c => match ca_procedure c with MountExport => true | _ => false end
              | Reply _ => false
              end
          | _ => false
          end
      | _ => false
      end
  | _ => false
  end.

(** One action of the process; [None]: it would block.  A turn of a service is
    one action: the mount service holds the mutex only while it copies the address
    (rekordbox/rpc.rs:40-55), and changes nothing in it.  The threads appear as
    [ThreadActs] only, so [SysWorld] is never enabled. *)
Definition proc_act (e : endian) (p : profile) (h : hash_order) (d : database) (x : process) (a : proc_action)
  : option (process * list sys_output) :=
  match a with
  | ThreadActs a =>
      match act (pr_threads x) a with
      | Some (t, os) =>
          Some (mkProcess t (pr_status x) (pr_mapper x) (pr_joined x) (pr_query x) (pr_db x) (pr_udp x),
                map OutWorld os)
      | None => None
      end
  | ServiceActs (SysWorld _) => None
  | ServiceActs i =>
      match takes_mutex x i, th_lock (pr_threads x) with
      | true, Some _ => None
      | _, _ =>
          let (s, os) := sys_step e p h d i (services_with (pr_threads x) x) in
          Some (mkProcess (pr_threads x) (sy_status s) (sy_mapper s) (sy_joined s) (sy_query s) (sy_db s) (sy_udp s),
                os)
      end
  end.

(** A sequence of actions, each enabled when its turn comes, with what each of
    them sends. *)
Fixpoint proc_run (e : endian) (p : profile) (h : hash_order) (d : database) (x : process) (acts : list proc_action)
  : option (process * list (list sys_output)) :=
  match acts with
  | [] => Some (x, [])
  | a :: acts =>
      match proc_act e p h d x a with
      | Some (x, os) =>
          match proc_run e p h d x acts with
          | Some (x, oss) => Some (x, os :: oss)
          | None => None
          end
      | None => None
      end
  end.
