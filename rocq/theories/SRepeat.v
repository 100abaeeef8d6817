(** Independent specification: repeated and lost messages. *)

From Verif Require Import Base SUdp MRpc SRpc MRpcServer MServer MNfs SNfs.
From Coq Require Import String Arith.
Open Scope list_scope.
Open Scope N_scope.

(** The list [l] with its element number [k] once more, right behind it. *)
Definition twice {A} (k : nat) (l : list A) : list A :=
  firstn (k + 1) l ++ firstn 1 (skipn k l) ++ skipn (k + 1) l.

(** The list [l] without its element number [k]. *)
Definition without {A} (k : nat) (l : list A) : list A := firstn k l ++ skipn (k + 1) l.

(** A lookup of a name. *)
Definition is_lookup (h : heard) : Prop := exists xid l, h = Asked xid (NfsLookup l).

(** A file system in which everything that exists can be opened and has its three
    times. *)
Definition settled (o : os) : Prop :=
  forall path m, os_stat o path = Some m -> times_known m /\ os_open o path <> None.

(** The names lead from the root through folders to a regular file. *)
Definition path_of_file (o : os) (names : list bytes) : Prop :=
  names <> [] /\ Forall component names /\
  forall j, (1 <= j <= List.length names)%nat ->
    exists m, os_stat o (absolute (firstn j names)) = Some m /\
      m_file m = (j =? List.length names)%nat.

(** The answer to the lookup [x]: the handle and the attributes of what is at the
    path. *)
Definition answered_with (o : os) (path : bytes) (x : nfs_input * heard) (sent : list (peer * bytes)) : Prop :=
  exists xid l m fattr, snd x = Asked xid (NfsLookup l) /\ os_stat o path = Some m /\ fattr_says fattr m /\
    sent = [(ni_from (fst x), std_reply xid (std_lookup_result (handle_for (m_ino m)) fattr))].

(** The events other than changes of the devices. *)
Definition not_change (o : output) : bool :=
  match o with Posted DeviceChange => false | _ => true end.
