(** Specification for C102: a process with a limited number of descriptors. *)

From Verif Require Import Base Unicode MPackets MNetwork MServer MStatus MDb MDatabase MLib MRpc MRpcServer MNfs MSystem
  MDescriptors SUdp SRpc SRpcServer SSystem.
From Coq Require Import Arith.
Open Scope list_scope.
Open Scope N_scope.

(** The process has [n] descriptors open. *)
Definition has_open (s : system) (n : nat) : Prop :=
  exists xs, NoDup xs /\ (forall x, In x xs <-> open_in s x = true) /\ List.length xs = n.

(** All that happens in a run. *)
Definition happens (xs : list fd_input) : list sys_input := flat_map fd_effects xs.

(** A run in which the system never grants a descriptor beyond the limit. It may
    refuse for other reasons too. *)
Inductive obeys (e : endian) (p : profile) (h : hash_order) (d : database) (limit : nat)
  : system -> list fd_input -> Prop :=
| obeys_nil : forall s, obeys e p h d limit s []
| obeys_cons : forall s x xs,
    (forall n i, has_open s n -> x = FdStep i -> within limit n s i) ->
    (forall port, x = FdRefused port -> sy_db s port = Listening) ->
    obeys e p h d limit (fst (sys_run e p h d (fd_effects x) s)) xs ->
    obeys e p h d limit s (x :: xs).

(** How many of its four ports the process still has: 50000, 50002, 50111, 12523. *)
Definition own_ports (s : system) : nat :=
  (if w_listening (sy_world s) then 1 else 0) + (if sy_status s then 1 else 0) +
  (if sy_mapper s then 1 else 0) + (if sy_joined s then 1 else 0).

(** A call that asks the port mapper for a port. *)
Definition asks_port (j : pm_input) : Prop :=
  exists m c g, call_says (pi_datagram j) m /\ rpc_body m = Call c /\ ca_procedure c = PortmapGetport g.

(** A call that looks up a name. *)
Definition asks_lookup (j : nfs_input) : Prop :=
  exists m c l, call_says (ni_datagram j) m /\ rpc_body m = Call c /\ ca_procedure c = NfsLookup l.

(** The file with inode number [ino] is kept open by the service at a port. *)
Definition file_open (s : system) (port ino : N) : Prop :=
  exists v n f, sy_udp s port = NfsUdp v /\ sv_nfs v = Some n /\ hm_get ino (nf_files n) = Some f.
