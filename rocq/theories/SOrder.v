(** Independent specification: messages in another order. *)

From Verif Require Import Base SUdp MRpc SRpc MRpcServer MServer MNfs SNfs SRepeat.
From Coq Require Import String Arith.
Open Scope list_scope.
Open Scope N_scope.

(** The list [l] with its elements number [k] and [k + 1] exchanged. *)
Definition exchanged {A} (k : nat) (l : list A) : list A :=
  firstn k l ++ match skipn k l with a :: b :: r => b :: a :: r | r => r end.

(** The call is about the inode: it asks for the attributes or for the contents
    of the file behind a handle of the inode. *)
Definition is_about (e : endian) (h : heard) (ino : N) : Prop :=
  exists xid, (exists fh, h = Asked xid (NfsGetAttr fh) /\ names_inode e fh ino) \/
    (exists r, h = Asked xid (NfsRead r) /\ names_inode e (rd_fhandle r) ino).
