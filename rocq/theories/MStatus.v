(** Model of src/rekordbox/status_event_server.rs: the service on UDP port 50002. *)

From Verif Require Import Base Unicode MPackets.
From Coq Require Import String.
Open Scope list_scope.
Open Scope N_scope.

(** status_event_server.rs:24, [STATUS_EVENT_SERVER_PORT]. *)
Definition STATUS_EVENT_SERVER_PORT : N := 50002.

(** status_event_server.rs:50-91, [StatusEventServer::process_packet]. *)
Definition process_packet (packet : status_packet) : option status_packet :=
  match sp_kind packet with
  | KCdj => None
  | KRekordboxHello =>
      Some (status_packet_new KRekordboxReply 1 1 (SRekordboxReply (lit "Term DJ")))
  | KLinkQuery =>
      Some (status_packet_new KLinkReply (sp_unknown1 packet) (sp_player_number packet)
              (SLinkReply (mkLinkReply
                 17
                 SlotRekordbox
                 (mkFixed (lit "Term DJ") 64)
                 (mkFixed (lit "") 24)
                 (mkFixed (lit "") 32)
                 1051
                 0
                 257
                 94
                 0
                 0)))
  | _ => None
  end.

(** What the socket gives one turn of the loop (status_event_server.rs:124-147): a datagram with the IPv4 address
    and port of its sender, or an error. *)
Inductive status_input :=
| StatusDatagram (ip : ipv4) (port : N) (data : bytes)
| StatusRecvError.

(** A datagram handed to the socket for sending (status_event_server.rs:96 and 112):
    destination address and port. *)
Definition sent := (ipv4 * N * bytes)%type.

(** status_event_server.rs:124-150, [recv_from]: datagrams are cut to 1024
    bytes; failures to decode become errors; a panic of the decoder leaves the
    function. *)
Definition status_recv_from (e : status_input) : res (status_packet * ipv4) :=
  match e with
  | StatusDatagram ip _ data =>
      do p <- status_packet_try_from (firstn 1024 data); Ok (p, ip)
  | StatusRecvError => Err
  end.

(** status_event_server.rs:107-122 and 93-105, one turn of [run] with [send_to].
    The result says what is sent; [Panic] ends the thread.  Errors of the
    socket's [send_to] are only logged (line 98) and not represented; the
    150 ms sleep is not represented. *)
Definition status_turn (e : status_input) : res (list sent) :=
  match status_recv_from e with
  | Ok (packet, ip) =>
      match process_packet packet with
      | Some response =>
          do b <- status_packet_encode response;
          Ok [(ip, STATUS_EVENT_SERVER_PORT, b)]
      | None => Ok []
      end
  | Err => Ok []
  | Panic => Panic
  end.

(** status_event_server.rs:107-122, [run] as the thread started by
    server.rs:158-170: the turns up to a panic, after which nothing is received
    or sent any more.  Returns whether the thread is still alive and what it
    sent, in order. *)
Fixpoint status_run (es : list status_input) : bool * list sent :=
  match es with
  | [] => (true, [])
  | e :: es =>
      match status_turn e with
      | Ok out => let '(alive, rest) := status_run es in (alive, out ++ rest)
      | _ => (false, [])
      end
  end.
