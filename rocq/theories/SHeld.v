(** Specification of what the process holds on to: sockets. *)

From Verif Require Import Base Unicode MPackets MNetwork MServer MStatus MDatabase MLib MRpc MRpcServer MNfs MSystem.
Open Scope list_scope.
Open Scope N_scope.

(** A TCP port given out on port 12523 whose handler still waits or serves, and a
    UDP port given out by the port mapper whose service still runs: the socket is
    open and the port taken. *)
Definition tcp_held (s : system) (port : N) : bool :=
  match sy_db s port with Listening | Serving _ => true | NoHandler | Gone => false end.
Definition udp_held (s : system) (port : N) : bool :=
  match sy_udp s port with
  | NfsUdp v => match sv_nfs v with Some _ => true | None => false end
  | MountUdp running => running
  | NoService => false
  end.

(** Ports that a step hands out. *)
Definition tcp_given (i : sys_input) (os : list sys_output) : list N :=
  match i with
  | SysQuery _ _ (Some port) => flat_map (fun o => match o with OutQuery _ _ => [port] | _ => [] end) os
  | _ => []
  end.
Definition udp_given (i : sys_input) (os : list sys_output) : list N :=
  flat_map (fun o => match o with OutMapper (PmStart _ port) => [port] | _ => [] end) os.

(** The port [held] tells of is no longer held after the step. *)
Definition freed (held : system -> N -> bool) (before after : system) (i : sys_input) : nat :=
  match i with
  | SysDb (Connect port) | SysDb (Chunk port _) | SysDb (Close port) | SysUdp port _ =>
      if held before port && negb (held after port) then 1%nat else 0%nat
  | _ => 0%nat
  end.

(** A run in which the operating system hands out only ports that exist and are
    free; [given] ports handed out in it and [ended] handlers or services that
    ended in it. *)
Inductive orderly (e : endian) (p : profile) (h : hash_order) (d : database)
  (held : system -> N -> bool) (give : sys_input -> list sys_output -> list N)
  : system -> list sys_input -> nat -> nat -> Prop :=
| ord_nil : forall s, orderly e p h d held give s [] 0 0
| ord_step : forall s i is given ended,
    (forall port, In port (give i (snd (sys_step e p h d i s))) -> port < 65536 /\ held s port = false) ->
    orderly e p h d held give (fst (sys_step e p h d i s)) is given ended ->
    orderly e p h d held give s (i :: is)
      (List.length (give i (snd (sys_step e p h d i s))) + given)
      (freed held s (fst (sys_step e p h d i s)) i + ended).
