(** Specification of how much goes out for what comes in. *)

From Verif Require Import Base SUdp MRpcServer MNfs MStatus MLib MSystem STraffic.
Open Scope list_scope.
Open Scope N_scope.

(** The bytes that come in. *)
Definition brought (i : sys_input) : N :=
  match i with
  | SysStatus (StatusDatagram _ _ b) => len b
  | SysMapper j => len (pi_datagram j)
  | SysUdp _ j => len (ni_datagram j)
  | SysQuery _ b _ => len b
  | SysDb (Chunk _ b) => len b
  | _ => 0
  end.

Definition total {A} (f : A -> N) (l : list A) : N := fold_right N.add 0 (map f l).

(** All bytes from a correspondent, and all to it. *)
Definition bytes_from (x : correspondent) (is : list sys_input) : N := total brought (filter (received_from x) is).
Definition bytes_to (x : correspondent) (os : list sys_output) : N :=
  total (fun o => match on_the_wire o with Some b => len b | None => 0 end) (filter (sent_to x) os).

(** A datagram says that it is a read of a file: program 100003, procedure 6. *)
Definition says_read (d : bytes) : Prop :=
  number_at 12 4 d = 100003 /\ number_at 20 4 d = 6.
