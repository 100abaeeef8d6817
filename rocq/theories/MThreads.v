(** Model of the same threads as MServer.v, action by action: taking and
    releasing the mutex, queueing and taking one event, sending one datagram.
    The threads of src/rekordbox/server.rs (keep-alive and broadcast) and the
    main thread of src/component/mod.rs take turns in any order; an action that
    would block is not enabled. *)

From Verif Require Import Base Unicode MPackets MKeepalive MNetwork MServer.
Open Scope list_scope.
Open Scope N_scope.

(** server.rs:180-185 and 191-206, component/mod.rs:27-34: who can hold the mutex. *)
Inductive thread := KaThread | BcThread | AppThread.

(** Where the keep-alive thread is (keepalive.rs:116-137, server.rs:217-258). *)
Inductive ka_at :=
(** in [recv_from], or asleep (keepalive.rs:118-119, 125); *)
| KaIdle
(** before [lock] (server.rs:221), with a status packet; *)
| KaWaits (packet : ka_packet) (player_number : N) (ip_addr : ipv4)
(** with the mutex, before the lookup (server.rs:239); *)
| KaLocked (packet : ka_packet) (player_number : N) (ip_addr : ipv4)
(** with the mutex and the state changed, these events still to be queued
    (server.rs:247-257); *)
| KaPosts (es : list app_event)
(** it has panicked. *)
| KaDead.

(** Where the broadcast thread is (server.rs:192-205): asleep or before [lock];
    with the mutex, before the datagram; with the mutex, after it; panicked. *)
Inductive bc_at := BcIdle | BcLocked | BcSent | BcDead.

(** Where the main thread is (component/mod.rs:30-51, server.rs:101-150). *)
Inductive app_at :=
(** asleep, or in [recv] (component/mod.rs:32, 41); *)
| AppIdle
(** a link request taken, before [lock] (server.rs:105); *)
| AppWaits
(** with the mutex, the first [k] datagrams of the handshake sent
    (server.rs:109-138); *)
| AppSends (address : network) (k : nat)
(** it has panicked: the process ends, at some later moment. *)
| AppGone.

(** The mutex (server.rs:58) and the queue (component/mod.rs:13), and where
    the three threads are. *)
Record threads := mkThreads {
  th_state : server_state;
  th_poisoned : bool;
  th_lock : option thread;
  th_queue : list app_event;
  th_ka : ka_at;
  th_bc : bc_at;
  th_app : app_at
}.

(** server.rs:63-99 and component/mod.rs:12-28: after start-up. *)
Definition threads_start : threads :=
  mkThreads state_default false None [] KaIdle BcIdle AppIdle.

(** The actions, with what the operating system contributes: the steps between the
    points of [ka_at], [bc_at] and [app_at], cited there. *)
Inductive action :=
| KaReceives (d : bytes) | KaFails | KaAcquires | KaLooksUp (ifaces : list iface) | KaQueues | KaReleases
| BcAcquires | BcSends (socket_ok : bool) | BcReleases
| AppTakes | AppAcquires | AppSendsNext (socket_ok : bool) | AppReleases.

(** The thread that makes an action; it models nothing by itself. *)
Definition thread_of (a : action) : thread :=
  match a with
  | KaReceives _ | KaFails | KaAcquires | KaLooksUp _ | KaQueues | KaReleases => KaThread
  | BcAcquires | BcSends _ | BcReleases => BcThread
  | AppTakes | AppAcquires | AppSendsNext _ | AppReleases => AppThread
  end.

(** The updates of single fields; they model nothing by themselves. *)
Definition ka_to (t : threads) (k : ka_at) : threads :=
  mkThreads (th_state t) (th_poisoned t) (th_lock t) (th_queue t) k (th_bc t) (th_app t).
(** A field update, as above; it models no code of its own. *)
Definition bc_to (t : threads) (b : bc_at) : threads :=
  mkThreads (th_state t) (th_poisoned t) (th_lock t) (th_queue t) (th_ka t) b (th_app t).
(** A field update, as above; it models no code of its own. *)
Definition app_to (t : threads) (a : app_at) : threads :=
  mkThreads (th_state t) (th_poisoned t) (th_lock t) (th_queue t) (th_ka t) (th_bc t) a.
(** A field update, as above; it models no code of its own. *)
Definition lock_to (t : threads) (l : option thread) : threads :=
  mkThreads (th_state t) (th_poisoned t) l (th_queue t) (th_ka t) (th_bc t) (th_app t).
(** A field update, as above; it models no code of its own. *)
Definition queue_to (t : threads) (q : list app_event) : threads :=
  mkThreads (th_state t) (th_poisoned t) (th_lock t) q (th_ka t) (th_bc t) (th_app t).
(** A field update, as above; it models no code of its own. *)
Definition state_to (t : threads) (s : server_state) : threads :=
  mkThreads s (th_poisoned t) (th_lock t) (th_queue t) (th_ka t) (th_bc t) (th_app t).
(** A panic while the mutex (server.rs:58) is held: it is poisoned and released by the unwinding. *)
Definition poison (t : threads) : threads :=
  mkThreads (th_state t) true None (th_queue t) (th_ka t) (th_bc t) (th_app t).

(** keepalive.rs:116-137 and server.rs:217-221: a datagram is received, and
    decoded unless it is to be dropped. *)
Definition ka_receives (t : threads) (d : bytes) : option (threads * list output) :=
  match th_ka t with
  | KaIdle =>
      match ka_receive d with
      | Ok packet =>
          match event_status packet with
          | Some (player_number, ip_addr) => Some (ka_to t (KaWaits packet player_number ip_addr), [])
          | None => Some (t, [])
          end
      | Err => Some (t, [])
      | Panic => Some (ka_to t KaDead, [])
      end
  | _ => None
  end.

(** keepalive.rs:135: [recv_from] fails. *)
Definition ka_fails (t : threads) : option (threads * list output) :=
  match th_ka t with KaIdle => Some (t, []) | _ => None end.

(** server.rs:221-224, [lock]: it blocks while another thread has the mutex. *)
Definition ka_acquires (t : threads) : option (threads * list output) :=
  match th_ka t, th_lock t with
  | KaWaits packet player_number ip_addr, None =>
      if th_poisoned t then Some (ka_to t KaIdle, [])
      else Some (ka_to (lock_to t (Some KaThread)) (KaLocked packet player_number ip_addr), [])
  | _, _ => None
  end.

(** server.rs:238-244, up to the first event to be queued; a panic is that of
    [find_interface]. *)
Definition ka_looks_up (t : threads) (ifaces : list iface) : option (threads * list output) :=
  match th_ka t with
  | KaLocked packet player_number ip_addr =>
      match handle_keepalive_status ifaces packet player_number ip_addr (th_state t) with
      | Ok (s, es) => Some (ka_to (state_to t s) (KaPosts es), [])
      | _ => Some (ka_to (poison t) KaDead, [])
      end
  | _ => None
  end.

(** server.rs:247-257, one [tx.send].  Once the main thread has panicked its
    failure is only logged; the event is then in the queue of nobody. *)
Definition ka_queues (t : threads) : option (threads * list output) :=
  match th_ka t with
  | KaPosts (e :: es) => Some (ka_to (queue_to t (th_queue t ++ [e])) (KaPosts es), [Posted e])
  | _ => None
  end.

(** server.rs:222-225: the end of the arm releases the mutex. *)
Definition ka_releases (t : threads) : option (threads * list output) :=
  match th_ka t with
  | KaPosts [] => Some (ka_to (lock_to t None) KaIdle, [])
  | _ => None
  end.

(** server.rs:193, [lock]. *)
Definition bc_acquires (t : threads) : option (threads * list output) :=
  match th_bc t, th_lock t with
  | BcIdle, None =>
      if th_poisoned t then Some (t, [])
      else Some (bc_to (lock_to t (Some BcThread)) BcLocked, [])
  | _, _ => None
  end.

(** server.rs:194-201. *)
Definition bc_sends (t : threads) (socket_ok : bool) : option (threads * list output) :=
  match th_bc t, st_address (th_state t) with
  | BcLocked, Some address =>
      match send_broadcast_payload address socket_ok
              (ka_status_package (pn_ip address) (pn_mac address) 1 0) with
      | Ok o => Some (bc_to t BcSent, [o])
      | _ => Some (bc_to (poison t) BcDead, [])
      end
  | _, _ => None
  end.

(** server.rs:202-205: the mutex is released; without an address nothing has been
    sent. *)
Definition bc_releases (t : threads) : option (threads * list output) :=
  match th_bc t, st_address (th_state t) with
  | BcSent, _ | BcLocked, None => Some (bc_to (lock_to t None) BcIdle, [])
  | _, _ => None
  end.

(** component/mod.rs:41-46, [recv]: it blocks while the queue is empty. *)
Definition app_takes (t : threads) : option (threads * list output) :=
  match th_app t, th_queue t with
  | AppIdle, InitiateLink :: q => Some (app_to (queue_to t q) AppWaits, [Took InitiateLink])
  | AppIdle, DeviceChange :: q => Some (queue_to t q, [Took DeviceChange])
  | _, _ => None
  end.

(** server.rs:105-109 and 140-148, with the [unwrap] of component/mod.rs:37. *)
Definition app_acquires (t : threads) : option (threads * list output) :=
  match th_app t, th_lock t with
  | AppWaits, None =>
      if th_poisoned t then Some (app_to t AppGone, [])
      else
        let s := set_linking (th_state t) true in
        match st_address s with
        | Some address => Some (app_to (lock_to (state_to t s) (Some AppThread)) (AppSends address 0), [])
        | None => Some (app_to (state_to t s) AppGone, [])
        end
  | _, _ => None
  end.

(** server.rs:110-138 and 152-155, one [broadcast_message]. *)
Definition app_sends_next (t : threads) (socket_ok : bool) : option (threads * list output) :=
  match th_app t with
  | AppSends address k =>
      match nth_error (negotiation address) k with
      | Some p =>
          match send_broadcast_payload address socket_ok p with
          | Ok o => Some (app_to t (AppSends address (S k)), [o])
          | _ => Some (app_to (poison t) AppGone, [])
          end
      | None => None
      end
  | _ => None
  end.

(** server.rs:139: the mutex is released. *)
Definition app_releases (t : threads) : option (threads * list output) :=
  match th_app t with
  | AppSends address k =>
      match nth_error (negotiation address) k with
      | None => Some (app_to (lock_to t None) AppIdle, [])
      | Some _ => None
      end
  | _ => None
  end.

(** One action of one thread; [None] if it is not enabled. *)
Definition act (t : threads) (a : action) : option (threads * list output) :=
  match a with
  | KaReceives d => ka_receives t d
  | KaFails => ka_fails t
  | KaAcquires => ka_acquires t
  | KaLooksUp ifaces => ka_looks_up t ifaces
  | KaQueues => ka_queues t
  | KaReleases => ka_releases t
  | BcAcquires => bc_acquires t
  | BcSends ok => bc_sends t ok
  | BcReleases => bc_releases t
  | AppTakes => app_takes t
  | AppAcquires => app_acquires t
  | AppSendsNext ok => app_sends_next t ok
  | AppReleases => app_releases t
  end.

(** A schedule: actions one after the other, each enabled, with the outputs in
    order. *)
Fixpoint schedule_from (t : threads) (acts : list action) : option (threads * list output) :=
  match acts with
  | [] => Some (t, [])
  | a :: acts =>
      match act t a with
      | Some (t, o) =>
          match schedule_from t acts with
          | Some (t, os) => Some (t, o ++ os)
          | None => None
          end
      | None => None
      end
  end.

(** component/mod.rs:27-34: a schedule from the start. *)
Definition schedule (acts : list action) : option (threads * list output) :=
  schedule_from threads_start acts.
