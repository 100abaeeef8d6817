(** Specification for C84: what a user of the crate's unused functions sees. *)

From Verif Require Import Base Unicode MPackets MNetwork MServer MRpc MUnused SUdp SNfs.
From Coq Require Import ZArith.
Open Scope list_scope.
Open Scope N_scope.

(** The addresses reported in a history of calls, in order. *)
Fixpoint reported (cs : list coll_call) : list ipv4 :=
  match cs with
  | [] => []
  | CReport p :: cs => pl_address p :: reported cs
  | CMark _ _ :: cs => reported cs
  end.

(** The first report of an address carries this model name. *)
Definition first_model (cs : list coll_call) (a : ipv4) (model : str) : Prop :=
  exists before p after, cs = before ++ CReport p :: after /\
    pl_address p = a /\ pl_model p = model /\ ~ In a (reported before).

(** The last report of an address carries this player number. *)
Definition last_number (cs : list coll_call) (a : ipv4) (n : N) : Prop :=
  exists before p after, cs = before ++ CReport p :: after /\
    pl_address p = a /\ pl_number p = n /\ ~ In a (reported after).

(** An address was reported or marked as linking, and the mark was not taken
    away since.  A mark counts only when the address was reported before. *)
Definition is_linking (cs : list coll_call) (a : ipv4) : Prop :=
  exists before c after, cs = before ++ c :: after /\
    ((exists p, c = CReport p /\ pl_address p = a /\ pl_linking p = true) \/
     (c = CMark a true /\ In a (reported before))) /\
    ~ In (CMark a false) after.

(** RFC 1094, section 2.2: the names of the procedures, from number zero. *)
Definition rfc1094_procedures : list nfs_procedure :=
  [NpNull; NpGetattr; NpSattrargs; NpRoot; NpLookup; NpReadlink; NpRead; NpWritecache; NpWrite;
   NpCreate; NpRemove; NpRename; NpLink; NpSymlink; NpMkdir; NpRmdir; NpReaddir; NpStatfs].

(** The last call of a history that says something about a field says [v]. *)
Definition said_last {A} (says : state_call -> option A) (cs : list state_call) (v : A) : Prop :=
  exists before c after, cs = before ++ c :: after /\ says c = Some v /\ forall x, In x after -> says x = None.
(** No call says anything about it. *)
Definition unsaid {A} (says : state_call -> option A) (cs : list state_call) : Prop :=
  forall x, In x cs -> says x = None.

(** What a call says about the three fields. *)
Definition says_linking (c : state_call) := match c with SetLinking v => Some v | _ => None end.
Definition says_discovery (c : state_call) := match c with SetDiscovery v => Some v | _ => None end.
Definition says_address (c : state_call) := match c with SetAddress a => Some a | _ => None end.

(** The attributes (RFC 1094, 2.3.5) of a directory of which only the times are
    known. *)
Definition blank_fattr (b : bytes) (t1 t2 t3 : time) : Prop :=
  List.length b = 68%nat /\ number_at 0 4 b = 2 /\
  (forall k, In k [4; 8; 12; 16; 20; 24; 28; 32; 36; 40; 48; 56; 64]%nat -> number_at k 4 b = 0) /\
  number_at 44 4 b = seconds (Some t1) /\ number_at 52 4 b = seconds (Some t2) /\ number_at 60 4 b = seconds (Some t3).
