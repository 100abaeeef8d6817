(** Specification of the room that datagrams ask for: offsets in the datagram. *)

From Verif Require Import Base SUdp.
Open Scope list_scope.
Open Scope N_scope.

(** The datagram is a call of the procedure [proc] of the program [prog], with a
    verifier of flavor 0 or 1; its arguments begin at offset 60. *)
Definition calls (prog proc : N) (d : bytes) : Prop :=
  reaches 60 d /\ number_at 4 4 d = 0 /\ number_at 12 4 d = prog /\ number_at 20 4 d = proc /\
  (number_at 52 4 d = 0 \/ number_at 52 4 d = 1).

(** A call with a file handle: attributes, lookup, read. *)
Definition has_handle (d : bytes) : Prop :=
  calls 100003 1 d \/ calls 100003 4 d \/ calls 100003 6 d.

(** The size that the datagram gives for the text in it, the name of a lookup or the
    path of a mount, less one if it is odd. *)
Definition announces_text (d : bytes) (n : N) : Prop :=
  calls 100003 4 d /\ reaches 96 d /\ n = 2 * (number_at 92 4 d / 2) \/
  calls 100005 1 d /\ reaches 64 d /\ n = 2 * (number_at 60 4 d / 2).

(** The datagram asks for [n] bytes of the file with the handle [h]. *)
Definition asks_read (d h : bytes) (n : N) : Prop :=
  calls 100003 6 d /\ reaches 104 d /\ h = slice 60 32 d /\ n = number_at 96 4 d.
