(** Specification for C107, continued: the memory of the whole process. *)

From Verif Require Import Base Unicode MPackets MNetwork MServer MStatus MDb MDatabase MLib MRpc MRpcServer MNfs MSystem SUdp.
Open Scope list_scope.
Open Scope N_scope.

(** What arrives consists of bytes. *)
Definition of_bytes (i : sys_input) : Prop :=
  match i with
  | SysUdp _ j => bytes_ok (ni_datagram j)
  | SysDb (Chunk _ c) => bytes_ok c
  | _ => True
  end.

(** Two processes do alike, whatever happens to them from now on. *)
Definition process_alike (e : endian) (p : profile) (h : hash_order) (d : database) (s1 s2 : system) : Prop :=
  forall is, Forall of_bytes is -> snd (sys_run e p h d is s1) = snd (sys_run e p h d is s2).

(** Two file services answer alike, whatever comes. *)
Definition service_alike (e : endian) (v1 v2 : nfs_service) : Prop :=
  forall is, Forall (fun i => bytes_ok (ni_datagram i)) is -> snd (nfs_run e is v1) = snd (nfs_run e is v2).

(** Two database connections answer alike, whatever is asked. *)
Definition connection_alike (p : profile) (h : hash_order) (d : database) (c1 c2 : client_state) : Prop :=
  forall more, Forall bytes_ok more -> serve p h d c1 more = serve p h d c2 more.

(** The discovery parts have the same failures behind them, the same events waiting,
    the same network, the same mark of having linked, and know the same addresses. *)
Definition same_world (w1 w2 : world) : Prop :=
  w_running w1 = w_running w2 /\ w_listening w1 = w_listening w2 /\ w_broadcasting w1 = w_broadcasting w2 /\
  w_poisoned w1 = w_poisoned w2 /\ w_queue w1 = w_queue w2 /\
  st_linking (w_state w1) = st_linking (w_state w2) /\ st_address (w_state w1) = st_address (w_state w2) /\
  forall ip, In ip (map pl_address (st_players (w_state w1))) <-> In ip (map pl_address (st_players (w_state w2))).

(** At each port the two processes have services of the same kind that answer alike. *)
Definition same_udp (e : endian) (v1 v2 : udp_service) : Prop :=
  match v1, v2 with
  | NoService, NoService => True
  | NfsUdp v1, NfsUdp v2 => service_alike e v1 v2
  | MountUdp r1, MountUdp r2 => r1 = r2
  | _, _ => False
  end.
Definition same_handler (p : profile) (h : hash_order) (d : database) (v1 v2 : handler) : Prop :=
  match v1, v2 with
  | Serving c1, Serving c2 => connection_alike p h d c1 c2
  | NoHandler, NoHandler | Listening, Listening | Gone, Gone => True
  | _, _ => False
  end.

(** Part by part the same memory. *)
Definition same_process (e : endian) (p : profile) (h : hash_order) (d : database) (s1 s2 : system) : Prop :=
  same_world (sy_world s1) (sy_world s2) /\
  sy_status s1 = sy_status s2 /\ sy_mapper s1 = sy_mapper s2 /\ sy_joined s1 = sy_joined s2 /\
  (forall c, sy_query s1 c = sy_query s2 c) /\
  (forall port, same_handler p h d (sy_db s1 port) (sy_db s2 port)) /\
  (forall port, same_udp e (sy_udp s1 port) (sy_udp s2 port)).
