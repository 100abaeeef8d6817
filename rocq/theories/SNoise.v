(** Specification for C100: datagrams that mean nothing to the program. *)

From Verif Require Import Base Unicode MPackets MKeepalive MNetwork MServer MStatus MDatabase MLib MRpc MRpcServer MNfs MSystem
  SUdp SNetwork SRpc SServer SRpcServer SSystem SCopies.
Open Scope list_scope.
Open Scope N_scope.

(** A datagram, or an error in receiving one, at one of the UDP ports. *)
Definition is_datagram (i : sys_input) : Prop :=
  match i with
  | SysWorld (KaDatagram _ _) | SysWorld KaRecvError | SysStatus _ => True
  | SysMapper j => bytes_ok (pi_datagram j)
  | SysUdp _ j => bytes_ok (ni_datagram j)
  | _ => False
  end.

(** Neither an RPC call nor a message of type 1. *)
Definition no_rpc (b : bytes) : Prop := (forall m, ~ call_says b m) /\ ~ reply_type b.

(** Noise: at port 50000 anything but the status of another device; at port 50002
    anything but a greeting, a media query and what ends the service; at the RPC
    ports anything but calls and messages of type 1; and failures to receive. *)
Definition noise (i : sys_input) : Prop :=
  match i with
  | SysWorld (KaDatagram b _) => forall h, ~ status_of b h
  | SysWorld KaRecvError => True
  | SysStatus (StatusDatagram _ _ b) => ~ is_hello b /\ ~ is_link_query b /\ ~ stops_status b
  | SysStatus StatusRecvError => True
  | SysMapper j => no_rpc (pi_datagram j)
  | SysUdp _ j => no_rpc (ni_datagram j)
  | _ => False
  end.

(** The two processes are in the same state. *)
Definition same_state (s s' : system) : Prop :=
  sy_world s = sy_world s' /\ sy_status s = sy_status s' /\ sy_mapper s = sy_mapper s' /\ sy_joined s = sy_joined s' /\
  (forall c, sy_query s c = sy_query s' c) /\ (forall q, sy_db s q = sy_db s' q) /\ (forall q, sy_udp s q = sy_udp s' q).

(** The state after some history. *)
Definition reached (e : endian) (p : profile) (h : hash_order) (d : database) (s : system) : Prop :=
  exists mp db is, inputs_typed (world_inputs is) /\ s = fst (sys_run e p h d is (system_start true true mp db)).
