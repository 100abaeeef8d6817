(** Specification for C97: the disk changes while the program runs. *)

From Verif Require Import Base Unicode MPackets MNetwork MServer MStatus MDb MLib MRpc MRpcServer MNfs MSystem SUdp SNfs SLoad.
From Coq Require Import ZArith.
Open Scope list_scope.
Open Scope N_scope.

(** The same thing happens, but a datagram at an RPC port may meet another disk. *)
Definition same_but_for_disk (i i' : sys_input) : Prop :=
  i' = i \/ exists port j o, i = SysUdp port j /\
    i' = SysUdp port (mkNfsIn (ni_datagram j) (ni_from j) o (ni_resend j) (ni_send j)).

(** The input is a datagram for a file service. *)
Definition for_file_service (s : system) (i : sys_input) : Prop :=
  exists port j v, i = SysUdp port j /\ sy_udp s port = NfsUdp v.

(** During the walk the names lead through directories, but at its last step the
    file is not there any more. *)
Definition file_gone (names : list bytes) (walk : history) : Prop :=
  forall j x, nth_error walk j = Some x ->
    if (j + 1 =? List.length names)%nat then os_stat (ni_os (fst x)) (absolute names) = None
    else exists m f,
      os_stat (ni_os (fst x)) (absolute (firstn (j + 1) names)) = Some m /\
      os_open (ni_os (fst x)) (absolute (firstn (j + 1) names)) = Some f /\
      times_known m /\ m_file m = false.
