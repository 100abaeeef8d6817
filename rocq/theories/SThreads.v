(** Specification for the threads: what a schedule of single actions has in
    common with a history of whole turns, and the shape of what is sent. *)

From Verif Require Import Base Unicode MPackets MNetwork MServer MThreads SNetwork SServer.
Open Scope list_scope.
Open Scope N_scope.

(** The datagrams among the outputs. *)
Definition datagrams (os : list output) : list output :=
  filter (fun o => match o with Sent _ _ _ _ => true | _ => false end) os.

(** The datagrams received, in a schedule and in a history. *)
Definition received_by (acts : list action) : list bytes :=
  flat_map (fun a => match a with KaReceives d => [d] | _ => [] end) acts.
Definition received_in (is : list input) : list bytes :=
  flat_map (fun i => match i with KaDatagram d _ => [d] | _ => [] end) is.

(** Schedules whose interfaces are well-formed. *)
Definition acts_typed (acts : list action) : Prop :=
  forall ifaces, In (KaLooksUp ifaces) acts -> ifaces_typed ifaces.

(** No thread is in the middle of its turn. *)
Definition between_turns (t : threads) : Prop :=
  (th_ka t = KaIdle \/ th_ka t = KaDead) /\ (th_bc t = BcIdle \/ th_bc t = BcDead) /\ th_app t = AppIdle.

(** The same shared state, threads alive, queue, and the same datagrams sent,
    events queued and events taken, each in the same order. *)
Definition agree (t : threads) (os : list output) (w : world) (ws : list (list output)) : Prop :=
  th_state t = w_state w /\ th_poisoned t = w_poisoned w /\ th_queue t = w_queue w /\
  (th_ka t <> KaDead <-> w_listening w = true) /\
  (th_bc t <> BcDead <-> w_broadcasting w = true) /\
  (th_app t <> AppGone <-> w_running w = true) /\
  datagrams os = datagrams (List.concat ws) /\
  posted [os] = posted ws /\ taken [os] = taken ws.

(** The number of actions of a thread in a schedule. *)
Definition actions_of (w : thread) (acts : list action) : nat :=
  List.length (filter (fun a => match thread_of a, w with
                                | KaThread, KaThread | BcThread, BcThread | AppThread, AppThread => true
                                | _, _ => false
                                end) acts).

(** What may be sent: periodic announcements and whole handshakes, with the
    number of handshakes. *)
Inductive traffic : list output -> nat -> Prop :=
| traffic_none : traffic [] 0
| traffic_announcement : forall l h n, traffic l h ->
    traffic (l ++ [broadcast_on n (status_bytes (pn_ip n) (pn_mac n) 1)]) h
| traffic_handshake : forall l h n, traffic l h ->
    traffic (l ++ map (broadcast_on n) (handshake_bytes n)) (S h).

(** The thread is where the code holds the mutex. *)
Definition inside (t : threads) (w : thread) : Prop :=
  match w with
  | KaThread => (exists p x ip, th_ka t = KaLocked p x ip) \/ (exists es, th_ka t = KaPosts es)
  | BcThread => th_bc t = BcLocked \/ th_bc t = BcSent
  | AppThread => exists n k, th_app t = AppSends n k
  end.

(** The thread has something to do that does not depend on the outside: it is
    alive, and not waiting for a datagram or for an event. *)
Definition has_work (t : threads) (w : thread) : Prop :=
  match w with
  | KaThread => th_ka t <> KaIdle /\ th_ka t <> KaDead
  | BcThread => th_bc t <> BcDead
  | AppThread => th_app t <> AppGone /\ ~ (th_app t = AppIdle /\ th_queue t = [])
  end.

(** Some action of the thread is possible. *)
Definition can_act (t : threads) (w : thread) : Prop :=
  exists a, thread_of a = w /\ act t a <> None.
