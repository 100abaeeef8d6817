(** Model of src/rekordbox/server.rs, src/rekordbox/player.rs and
    src/component/mod.rs: the keep-alive thread, the broadcast thread and the
    application loop, which share one mutex and one event queue. *)

From Verif Require Import Base Unicode MPackets MKeepalive MNetwork.
From Coq Require Import String.
Open Scope list_scope.
Open Scope N_scope.

(** player.rs:4-15, [struct Player] and [Player::new]. *)
Record player := mkPlayer { pl_model : str; pl_address : ipv4; pl_number : N; pl_linking : bool }.
(** player.rs:13-15, [Player::new]. *)
Definition player_new (model : str) (number : N) (address : ipv4) : player :=
  mkPlayer model address number false.

(** player.rs:66-74, the update of a known player. *)
Definition player_update (p new : player) : player :=
  mkPlayer (pl_model p) (pl_address p) (pl_number new)
    (if andb (Bool.eqb (pl_linking p) false) (Bool.eqb (pl_linking new) true)
     then pl_linking new else pl_linking p).

(** player.rs:56-79, [PlayerCollection::add_or_update] with [get_mut] and
    [push]: the first player of the same address is updated in place. *)
Fixpoint add_or_update (players : list player) (new : player) : list player :=
  match players with
  | [] => [new]
  | p :: rest =>
      if pl_address p =? pl_address new
      then player_update p new :: rest
      else p :: add_or_update rest new
  end.

(** server.rs:35-54, [struct ServerState] and [Default]. *)
Record server_state := mkState {
  st_linking : bool;
  st_discovery : bool;
  st_linked : bool;
  st_address : option network;
  st_players : list player
}.
(** server.rs:44-54, [ServerState::default]. *)
Definition state_default : server_state := mkState false false false None [].

(** server.rs:29-33, [enum ApplicationEvent]. *)
Inductive app_event := InitiateLink | DeviceChange.

(** server.rs:266-271, [synchronize_player_broadcast_network]. *)
Definition set_address (s : server_state) (n : option network) : server_state :=
  mkState (st_linking s) (st_discovery s) (st_linked s) n (st_players s).

(** server.rs:240 with player.rs:64-79. *)
Definition set_players (s : server_state) (ps : list player) : server_state :=
  mkState (st_linking s) (st_discovery s) (st_linked s) (st_address s) ps.

(** server.rs:107. *)
Definition set_linking (s : server_state) (b : bool) : server_state :=
  mkState b (st_discovery s) (st_linked s) (st_address s) (st_players s).

(** server.rs:273-283, [is_linking_possible]. *)
Definition is_linking_possible (s : server_state) : bool :=
  if 0 <? len (st_players s) then Bool.eqb (st_linking s) false else false.

(** server.rs:232-258, [handle_keepalive_status].  The interfaces are what the
    operating system reports at that moment; [Panic] is a panic of
    [find_interface], before anything has been changed.  Returns the new state
    and the events sent to the queue.  [tx.send] fails only if the receiver is
    gone, that is after the end of the process. *)
Definition handle_keepalive_status (ifaces : list iface) (event : ka_packet)
    (player_number : N) (ip_addr : ipv4) (s : server_state) : res (server_state * list app_event) :=
  let previous_number_of_players := len (st_players s) in
  do n <- find_interface ifaces ip_addr;
  let s := set_address s n in
  let s := set_players s (add_or_update (st_players s)
             (player_new (ka_model event) player_number ip_addr)) in
  Ok (s, (if previous_number_of_players =? len (st_players s) then [] else [DeviceChange])
         ++ (if is_linking_possible s then [InitiateLink] else [])).

(** Comparison of texts; server.rs:220 compares a model name. *)
Fixpoint str_eqb (a b : str) : bool :=
  match a, b with
  | [], [] => true
  | x :: a, y :: b => (x =? y) && str_eqb a b
  | _, _ => false
  end%bool.

(** server.rs:218-221, the test made by [on_event]: the player number and the
    address of a status packet that is to be handled. *)
Definition event_status (event : ka_packet) : option (N * ipv4) :=
  match ka_kind_of event, ka_content_of event, negb (str_eqb (ka_model event) (lit "rekordbox")) with
  | KaStatus, CStatus player_number _ _ ip_addr _ _ _, true => Some (player_number, ip_addr)
  | _, _, _ => None
  end.

(** The whole program, as far as these threads go.  [w_poisoned]: a thread has
    panicked while it held the mutex of the state.  [w_listening],
    [w_broadcasting]: the keep-alive thread (server.rs:180-185) and the broadcast
    thread (server.rs:191-206) have not panicked.  [w_running]: the main thread
    (component/mod.rs:27-34) has not panicked; with it the process ends. *)
Record world := mkWorld {
  w_state : server_state;
  w_poisoned : bool;
  w_queue : list app_event;
  w_listening : bool;
  w_broadcasting : bool;
  w_running : bool
}.

(** server.rs:63-99 and component/mod.rs:12-28: after start-up.  Failures at
    start-up (ports in use) are not represented. *)
Definition world_start : world := mkWorld state_default false [] true true true.

(** What happens next in one of the loops (keepalive.rs:116-121, server.rs:192-205,
    component/mod.rs:30-33), with what the operating system contributes: *)
Inductive input :=
(** the keep-alive thread receives a datagram, the interfaces being as given; *)
| KaDatagram (d : bytes) (ifaces : list iface)
(** its [recv_from] fails (keepalive.rs:135); *)
| KaRecvError
(** the broadcast thread makes a turn; the flag tells whether [bind] and
    [set_broadcast] succeed; *)
| BroadcastTurn (socket_ok : bool)
(** the application makes a turn; the flags are for its 1st, 2nd, ... socket. *)
| AppTurn (socket_ok : nat -> bool).

(** What can be seen from outside: a datagram handed to the socket bound to an
    address, for a destination; an event queued; an event taken by the
    application (component/mod.rs:42-46, both kinds print a line). *)
Inductive output :=
| Sent (from to : ipv4) (port : N) (data : bytes)
| Posted (e : app_event)
| Took (e : app_event).

(** server.rs:314-333, [send_broadcast_payload] and [send_data]: [Panic] if the
    socket cannot be opened.  Errors of [send_to] are only logged. *)
Definition send_broadcast_payload (address : network) (socket_ok : bool) (data : ka_packet) : res output :=
  if socket_ok then
    do b <- ka_encode data;
    Ok (Sent (pn_ip address) (pn_broadcast address) 50000 b)
  else Panic.

(** server.rs:110-138, the packets of the handshake, in order. *)
Definition negotiation (address : network) : list ka_packet :=
  map (fun sequence => ka_mac_package sequence (pn_mac address)) [1; 2; 3]
  ++ flat_map (fun sequence =>
       map (fun index => ka_ip_package sequence index (pn_ip address) (pn_mac address))
           [1; 2; 3; 4; 5; 6])
     [1; 2; 3; 4; 5; 6]
  ++ [ka_status_package (pn_ip address) (pn_mac address) 4 8].

(** server.rs:111-138 and 152-155, [broadcast_message] over a list of packets:
    what is sent, and whether all were sent without a panic.  The sleeps are not
    represented. *)
Fixpoint broadcast_messages (address : network) (socket_ok : nat -> bool) (k : nat)
    (ps : list ka_packet) : list output * bool :=
  match ps with
  | [] => ([], true)
  | p :: ps =>
      match send_broadcast_payload address (socket_ok k) p with
      | Ok o => let '(os, ok) := broadcast_messages address socket_ok (S k) ps in (o :: os, ok)
      | _ => ([], false)
      end
  end.

(** server.rs:101-150 with component/mod.rs:36-38, [initiate_linking]: what is
    sent and the new world.  Without an address, with a poisoned mutex, or if a
    socket cannot be opened, the main thread panics; in the last case it holds
    the mutex. *)
Definition initiate_linking (w : world) (socket_ok : nat -> bool) : world * list output :=
  if w_poisoned w then
    (mkWorld (w_state w) true (w_queue w) (w_listening w) (w_broadcasting w) false, [])
  else
    let s := set_linking (w_state w) true in
    match st_address s with
    | Some address =>
        let '(os, ok) := broadcast_messages address socket_ok 0 (negotiation address) in
        (mkWorld s (negb ok) (w_queue w) (w_listening w) (w_broadcasting w) ok, os)
    | None =>
        (mkWorld s false (w_queue w) (w_listening w) (w_broadcasting w) false, [])
    end.

(** keepalive.rs:116-137 and server.rs:217-230: one datagram.  A panic (of the
    lookup) ends the thread and, as it holds the mutex, poisons it. *)
Definition keepalive_turn (w : world) (d : bytes) (ifaces : list iface) : world * list output :=
  match ka_receive d with
  | Ok packet =>
      match event_status packet with
      | Some (player_number, ip_addr) =>
          if w_poisoned w then (w, [])
          else
            match handle_keepalive_status ifaces packet player_number ip_addr (w_state w) with
            | Ok (s, es) =>
                (mkWorld s (w_poisoned w) (w_queue w ++ es) (w_listening w) (w_broadcasting w) (w_running w),
                 map Posted es)
            | _ =>
                (mkWorld (w_state w) true (w_queue w) false (w_broadcasting w) (w_running w), [])
            end
      | None => (w, [])
      end
  | Err => (w, [])
  | Panic => (mkWorld (w_state w) (w_poisoned w) (w_queue w) false (w_broadcasting w) (w_running w), [])
  end.

(** server.rs:192-205, one turn of the broadcast thread. *)
Definition broadcast_turn (w : world) (socket_ok : bool) : world * list output :=
  if w_poisoned w then (w, [])
  else
    match st_address (w_state w) with
    | Some address =>
        match send_broadcast_payload address socket_ok
                (ka_status_package (pn_ip address) (pn_mac address) 1 0) with
        | Ok o => (w, [o])
        | _ => (mkWorld (w_state w) true (w_queue w) (w_listening w) false (w_running w), [])
        end
    | None => (w, [])
    end.

(** component/mod.rs:40-51, [App::next]: with an empty queue [recv] blocks, which
    is a turn without effect. *)
Definition app_turn (w : world) (socket_ok : nat -> bool) : world * list output :=
  match w_queue w with
  | [] => (w, [])
  | e :: q =>
      let w := mkWorld (w_state w) (w_poisoned w) q (w_listening w) (w_broadcasting w) (w_running w) in
      match e with
      | InitiateLink => let '(w, os) := initiate_linking w socket_ok in (w, Took e :: os)
      | DeviceChange => (w, [Took e])
      end
  end.

(** One step of the program.  Every access to the state is made under the mutex,
    from its beginning to its end, so steps do not overlap. *)
Definition step (w : world) (i : input) : world * list output :=
  if w_running w then
    match i with
    | KaDatagram d ifaces => if w_listening w then keepalive_turn w d ifaces else (w, [])
    | KaRecvError => (w, [])
    | BroadcastTurn ok => if w_broadcasting w then broadcast_turn w ok else (w, [])
    | AppTurn ok => app_turn w ok
    end
  else (w, []).

(** A run of the program from a given world: the world reached and the outputs,
    step by step. *)
Fixpoint run_from (w : world) (is : list input) : world * list (list output) :=
  match is with
  | [] => (w, [])
  | i :: is =>
      let '(w, o) := step w i in
      let '(w, os) := run_from w is in
      (w, o :: os)
  end.

(** component/mod.rs:27-34: a run from the start. *)
Definition run (is : list input) : world * list (list output) := run_from world_start is.
