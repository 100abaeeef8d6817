(** Specification for C105: the program with all of its parts working, and what
    harms it. *)

From Verif Require Import Base Unicode MPackets MNetwork MServer MStatus MRpc MRpcServer MNfs MSystem
  SUdp SNetwork SServer SRpc SRpcServer SNfs.
Open Scope list_scope.
Open Scope N_scope.

(** A service at a port is sound: it runs, and no reply is stuck in it. *)
Definition sound (v : udp_service) : Prop :=
  match v with
  | NoService => True
  | NfsUdp s => sv_nfs s <> None /\ sv_unsent s = None
  | MountUdp running => running = true
  end.

(** Everything is up: the process and its threads run and the shared state can be
    used; the status service, the port mapper and the database listener run; every
    service the port mapper has started is sound. *)
Definition all_up (s : system) : Prop :=
  w_running (sy_world s) = true /\ w_listening (sy_world s) = true /\ w_broadcasting (sy_world s) = true /\
  w_poisoned (sy_world s) = false /\
  sy_status s = true /\ sy_mapper s = true /\ sy_joined s = true /\ forall port, sound (sy_udp s port).

(** Datagrams consist of bytes, and interfaces are well-formed. *)
Definition input_ok (i : sys_input) : Prop :=
  match i with
  | SysWorld (KaDatagram _ ifaces) => ifaces_typed ifaces
  | SysMapper j => bytes_ok (pi_datagram j)
  | SysUdp _ j => bytes_ok (ni_datagram j)
  | _ => True
  end.

(** The network of the last device heard, if that is known and is one of ours. *)
Definition network_known (s : system) : option network := st_address (w_state (sy_world s)).

(** What harms a file service: being killed, or a reply that cannot be sent. *)
Definition harms_files (e : endian) (v : nfs_service) (j : nfs_input) : Prop :=
  exists hs x, v = fst (served e hs) /\ history_ok (hs ++ [(j, x)]) /\
    (kills e hs (j, x) \/
     exists to d, replies e hs (j, x) (Some (to, d)) /\ (ni_send j = false \/ 65507 < len d)).

(** What harms the program when all of it is up. *)
Definition harmful (e : endian) (s : system) (i : sys_input) : Prop :=
  match i with
  | SysWorld (KaDatagram d ifaces) => exists h, status_of d h /\ lookup_fails ifaces (h_ip h)
  | SysWorld (BroadcastTurn ok) => ok = false /\ network_known s <> None
  | SysWorld (AppTurn ok) => (exists q, w_queue (sy_world s) = InitiateLink :: q) /\
      (network_known s = None \/ exists k, (k < 40)%nat /\ ok k = false)
  | SysStatus (StatusDatagram _ _ d) => stops_status d
  | SysMapper j => pm_stops j
  | SysUdp port j =>
      match sy_udp s port with
      | NoService => False
      | MountUdp _ => ms_stops (mkMsIn (ni_datagram j) (ni_from j) false (network_known s) (ni_send j))
      | NfsUdp v => harms_files e v j
      end
  | _ => False
  end.

(** The machine does its part: sockets can be opened and bound, datagrams sent,
    every network has a hardware address and every file its three times. *)
Definition machine_works (i : sys_input) : Prop :=
  match i with
  | SysWorld (KaDatagram _ ifaces) => Forall (fun n => snd n <> None) (v4_networks ifaces)
  | SysWorld (BroadcastTurn ok) => ok = true
  | SysWorld (AppTurn ok) => forall k, ok k = true
  | SysMapper j => pi_port j <> None /\ pi_send j = true
  | SysUdp _ j => ni_send j = true /\
      (forall p m, os_stat (ni_os j) p = Some m -> times_known m) /\
      (forall f m, os_fstat (ni_os j) f = Some m -> times_known m)
  | _ => True
  end.

(** What the network alone can do to it. *)
Definition attack (e : endian) (s : system) (i : sys_input) : Prop :=
  match i with
  | SysWorld (AppTurn _) => (exists q, w_queue (sy_world s) = InitiateLink :: q) /\ network_known s = None
  | SysStatus (StatusDatagram _ _ d) => stops_status d
  | SysMapper j => reply_type (pi_datagram j)
  | SysUdp port j =>
      match sy_udp s port with
      | NoService => False
      | MountUdp _ => reply_type (ni_datagram j) \/
          exists m c, call_says (ni_datagram j) m /\ rpc_body m = Call c /\
            (forall paths, ca_procedure c <> MountMnt paths) /\
            (ca_procedure c = MountExport -> network_known s = None)
      | NfsUdp v => reply_type (ni_datagram j) \/
          exists hs xid r f, v = fst (served e hs) /\ history_ok hs /\
            SNfs.hears (ni_datagram j) (Asked xid (NfsRead r)) /\ handle_of_file e hs (rd_fhandle r) f /\
            os_content (ni_os j) f <> None /\ os_fstat (ni_os j) f <> None /\ 65404 < rd_count r
      end
  | _ => False
  end.
