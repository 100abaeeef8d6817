(** Model of src/rpc/server.rs and src/rekordbox/rpc.rs: the port mapper and the
    mount service. *)

From Verif Require Import Base Unicode MPackets MNetwork MRpc.
From Coq Require Import String ZArith.
Open Scope list_scope.
Open Scope N_scope.

(** A UDP peer ([address] in rpc/server.rs:68 and 108); addresses are not looked
    into. *)
Definition peer := N.

(** ** Sending *)

(** The largest UDP payload over IPv4; longer datagrams are refused by the
    operating system (EMSGSIZE). *)
Definition max_datagram : N := 65507.

(** The result of [send_to] (under rpc/server.rs:77 and 155); [os_ok] is whether the operating system would take a
    datagram of allowed size at that moment. *)
Definition send_to (os_ok : bool) (d : bytes) : bool := (len d <=? max_datagram) && os_ok.

(** ** The port mapper *)

(** What a started task serves (rpc/server.rs:119-134). *)
Inductive service := NfsService | ProgramService.

(** What a turn does: rpc/server.rs:121-132 starts a service, line 155 sends the reply. *)
Inductive pm_output :=
| PmStart (s : service) (port : N)
| PmReply (to : peer) (d : bytes).

(** One turn of rpc/server.rs:106: a datagram, with the operating system's answers: the port of the newly
    bound socket ([None]: bind or local_addr failed), and whether a send works. *)
Record pm_input := mkPmIn {
  pi_datagram : bytes; pi_from : peer; pi_port : option N; pi_send : bool
}.

(** server.rs:102-162, one turn of the loop of [PortmapServer::run]; [false] is
    the end of the task, by an error return (which rpc.rs:22-27 turns into a panic)
    or by a panic.  A socket that is not moved into a task (server.rs:136, 139)
    is closed at the end of the turn.  [call.procedure()] is the decoded
    procedure; replies cannot be decoded. *)
Definition pm_turn (i : pm_input) : bool * list pm_output :=
  match codec_decode (pi_datagram i) with
  | Panic => (false, [])
  | Err => (true, [])
  | Ok None => (true, [])
  | Ok (Some m) =>
      match pi_port i with
      | None => (false, [])
      | Some port =>
          let started :=
            match rpc_body m with
            | Call c =>
                match ca_procedure c with
                | PortmapGetport g =>
                    match gp_program g with
                    | Nfs => [PmStart NfsService port]
                    | _ => [PmStart ProgramService port]
                    end
                | _ => []
                end
            | Reply _ => []
            end in
          let d := codec_encode (reply_to (PortmapGetportReply port) (rpc_xid m)) in
          if send_to (pi_send i) d
          then (true, started ++ [PmReply (pi_from i) d])
          else (false, started)
      end
  end.

(** The loop of rpc/server.rs:106-160: once ended, nothing more.  [true] is running. *)
Fixpoint pm_run (running : bool) (is : list pm_input) : bool * list (list pm_output) :=
  match is with
  | [] => (running, [])
  | i :: is =>
      let (running, outs) := if running then pm_turn i else (false, []) in
      let (running, rest) := pm_run running is in
      (running, outs :: rest)
  end.

(** ** Display of addresses *)

(** Rust's [Display] for [u8]: decimal digits, most significant first.  Three
    digits are enough. *)
Definition u8_display (x : N) : str :=
  (if 100 <=? x then [48 + x / 100 mod 10] else [])
  ++ (if 10 <=? x then [48 + x / 10 mod 10] else [])
  ++ [48 + x mod 10].

(** [Display] for [Ipv4Addr] (rekordbox/rpc.rs:42). *)
Definition ipv4_display (ip : ipv4) : str :=
  match be 4 ip with
  | [a; b; c; d] =>
      u8_display a ++ lit "." ++ u8_display b ++ lit "." ++ u8_display c ++ lit "." ++ u8_display d
  | _ => []
  end.

(** ** The mount service *)

(** rekordbox/rpc.rs:35-37, [mount_mnt_rpc_callback]. *)
Definition mount_mnt_callback (paths : list str) : res reply_message :=
  Ok (MountMntReply 0 (repeat 0 32)).

(** rekordbox/rpc.rs:39-57, [mount_export_rpc_callback]; [poisoned] is the state
    of the mutex and [address] the shared state's address when it is locked. *)
Definition mount_export_callback (poisoned : bool) (address : option network) : res reply_message :=
  if poisoned then Err
  else match address with
       | Some a =>
           Ok (MountExportReply
                 [mkExport (lit "/") [ipv4_display (pn_ip a) ++ lit "/" ++ ipv4_display (pn_mask a)]])
       | None => Err
       end.

(** rekordbox/rpc.rs:71-94, [EventHandler::on_event], with rpc/mod.rs:24-26,
    [handle_event]; [None] is the same. *)
Definition on_event (poisoned : bool) (address : option network) (c : rpc_call)
  : option (res reply_message) :=
  match ca_procedure c with
  | MountExport => Some (mount_export_callback poisoned address)
  | MountMnt data => Some (mount_mnt_callback data)
  | _ => None
  end.

(** server.rs:41-55, [rpc_procedure_router]. *)
Definition rpc_procedure_router (poisoned : bool) (address : option network) (m : rpc_message)
  : res rpc_message :=
  match rpc_body m with
  | Call c =>
      match on_event poisoned address c with
      | Some (Ok reply) => Ok (reply_to reply (rpc_xid m))
      | Some Err => Err
      | Some Panic => Panic
      | None => Err
      end
  | Reply _ => Err
  end.

(** One turn of rpc/server.rs:64: a datagram for the mount service, with the shared state it will find. *)
Record ms_input := mkMsIn {
  mi_datagram : bytes; mi_from : peer; mi_poisoned : bool; mi_address : option network; mi_send : bool
}.

(** server.rs:60-86, one turn of the loop of [rpc_program_server]. *)
Definition ms_turn (i : ms_input) : bool * list (peer * bytes) :=
  match codec_decode (mi_datagram i) with
  | Panic => (false, [])
  | Err => (true, [])
  | Ok None => (true, [])
  | Ok (Some m) =>
      match rpc_procedure_router (mi_poisoned i) (mi_address i) m with
      | Ok r =>
          if send_to (mi_send i) (codec_encode r)
          then (true, [(mi_from i, codec_encode r)])
          else (false, [])
      | _ => (false, [])
      end
  end.

(** rpc/server.rs:64, the loop; line 75 and 79 leave it. *)
Fixpoint ms_run (running : bool) (is : list ms_input) : bool * list (list (peer * bytes)) :=
  match is with
  | [] => (running, [])
  | i :: is =>
      let (running, outs) := if running then ms_turn i else (false, []) in
      let (running, rest) := ms_run running is in
      (running, outs :: rest)
  end.
