(** Independent specification of the port mapper and the mount service. *)

From Verif Require Import Base Unicode SUdp MRpc SRpc MNetwork MRpcServer.
From Coq Require Import ZArith.
Open Scope list_scope.
Open Scope N_scope.

(** A datagram of RPC message type 1 (a reply). *)
Definition reply_type (d : bytes) : Prop := reaches 8 d /\ number_at 4 4 d = 1.

(** ** The port mapper *)

(** The inputs on which the port mapper ends. *)
Definition pm_stops (i : pm_input) : Prop :=
  reply_type (pi_datagram i) \/
  (exists m, call_says (pi_datagram i) m) /\ (pi_port i = None \/ pi_send i = false).

(** The services started for a call: one for GETPORT, none for anything else. *)
Definition pm_starts (c : rpc_call) (port : N) : list pm_output :=
  match ca_procedure c with
  | PortmapGetport g =>
      match gp_program g with
      | Nfs => [PmStart NfsService port]
      | Portmap | Mount => [PmStart ProgramService port]
      end
  | _ => []
  end.

(** The outputs for an input while the port mapper works. *)
Definition pm_answers (i : pm_input) (outs : list pm_output) : Prop :=
  (exists m c port, call_says (pi_datagram i) m /\ rpc_body m = Call c /\ pi_port i = Some port /\
     outs = pm_starts c port ++ [PmReply (pi_from i) (std_reply (rpc_xid m) (std_getport_result port))])
  \/ (forall m, ~ call_says (pi_datagram i) m) /\ outs = [].

(** ** The mount service *)

(** The calls it can answer. *)
Definition ms_answerable (i : ms_input) (p : rpc_procedure) : Prop :=
  (exists paths, p = MountMnt paths) \/
  p = MountExport /\ mi_poisoned i = false /\ exists a, mi_address i = Some a.

(** The inputs on which it ends. *)
Definition ms_stops (i : ms_input) : Prop :=
  reply_type (mi_datagram i) \/
  exists m c, call_says (mi_datagram i) m /\ rpc_body m = Call c /\
    (~ ms_answerable i (ca_procedure c) \/ mi_send i = false).

Definition ip_text (ip : N) : bytes :=
  dotted_text (ip / 16777216 mod 256) (ip / 65536 mod 256) (ip / 256 mod 256) (ip mod 256).

(** A network in the form "address/mask", the mask having as many leading ones as
    the prefix is long. *)
Definition network_text (n : network) : bytes :=
  ip_text (net_addr (pn_net n)) ++ [47] ++ ip_text (4294967296 - 2 ^ (32 - net_prefix (pn_net n))).

(** The datagram [d] answers the procedure with transaction id [xid]: mounts get
    status 0 and a null handle; the export list is read by a standard reader as
    the directory "/" for the group "address/mask". *)
Definition ms_reply (i : ms_input) (xid : N) (p : rpc_procedure) (d : bytes) : Prop :=
  match p with
  | MountMnt _ => d = std_reply xid (std_mnt_result 0 (repeat 0 32))
  | MountExport =>
      exists a result padding rest, mi_address i = Some a /\ d = std_reply xid result ++ padding /\
        (net_prefix (pn_net a) <= 32 -> exports_in d = Some ([([47; 0], [network_text a])], rest))
  | _ => False
  end.

Definition ms_answers (i : ms_input) (outs : list (peer * bytes)) : Prop :=
  (exists m c d, call_says (mi_datagram i) m /\ rpc_body m = Call c /\
     ms_reply i (rpc_xid m) (ca_procedure c) d /\ outs = [(mi_from i, d)])
  \/ (forall m, ~ call_says (mi_datagram i) m) /\ outs = [].
