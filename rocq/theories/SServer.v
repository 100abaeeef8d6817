(** Specification of the discovery and linking part of the program, in terms of
    the bytes received and sent. *)

From Verif Require Import Base Unicode MPackets MNetwork MServer SUdp SNetwork.
From Coq Require Import String.
Open Scope list_scope.
Open Scope N_scope.

(** A device heard from. *)
Record heard := mkHeard { h_ip : ipv4; h_number : N; h_model : str }.

(** The datagram [d] is the status announcement of a device other than rekordbox. *)
Definition status_of (d : bytes) (h : heard) : Prop :=
  reaches 54 d /\
  slice 0 10 d = lit "Qspt1WmJOL" /\ octet 10 d = 0x06 /\
  name_field (slice 12 20 d) (h_model h) /\ h_model h <> lit "rekordbox" /\
  1 <= octet 33 d <= 3 /\
  octet 36 d = h_number h /\ number_at 44 4 d = h_ip h.

(** The devices heard from in a history, in order. *)
Inductive hears : list input -> list heard -> Prop :=
| hears_nil : hears [] []
| hears_status : forall d ifaces h is hs,
    status_of d h -> hears is hs -> hears (KaDatagram d ifaces :: is) (h :: hs)
| hears_noise : forall d ifaces is hs,
    (forall h, ~ status_of d h) -> hears is hs -> hears (KaDatagram d ifaces :: is) hs
| hears_other : forall i is hs,
    (forall d ifaces, i <> KaDatagram d ifaces) -> hears is hs -> hears (i :: is) hs.

(** The distinct elements of a list, in the order of their first appearance. *)
Fixpoint distinct (l : list N) : list N :=
  match l with
  | [] => []
  | a :: l => a :: filter (fun b => negb (b =? a)) (distinct l)
  end.

(** The player list that corresponds to the devices heard. *)
Definition players_of (hs : list heard) (ps : list player) : Prop :=
  map pl_address ps = distinct (map h_ip hs) /\
  forall p, In p ps ->
    (exists before h after, hs = before ++ h :: after /\ h_ip h = pl_address p /\
       h_model h = pl_model p /\ ~ In (pl_address p) (map h_ip before)) /\
    (exists before h after, hs = before ++ h :: after /\ h_ip h = pl_address p /\
       h_number h = pl_number p /\ ~ In (pl_address p) (map h_ip after)) /\
    pl_linking p = false.

(** The lookup of an address among interfaces: the network chosen, or a failure. *)
Definition chosen (ifaces : list iface) (ip : ipv4) (o : option network) : Prop :=
  match o with
  | Some n => exists before after, v4_networks ifaces = before ++ (pn_net n, Some (pn_mac n)) :: after /\
                passed_over ip before /\ same_prefix (net_prefix (pn_net n)) (net_addr (pn_net n)) ip
  | None => passed_over ip (v4_networks ifaces)
  end.
Definition lookup_fails (ifaces : list iface) (ip : ipv4) : Prop :=
  exists before n after, v4_networks ifaces = before ++ (n, None) :: after /\ passed_over ip before.

(** Histories whose interfaces are well-formed. *)
Definition inputs_typed (is : list input) : Prop :=
  forall d ifaces, In (KaDatagram d ifaces) is -> ifaces_typed ifaces.

(** The program takes notice of status announcements. *)
Definition attentive (w : world) : Prop :=
  w_running w = true /\ w_listening w = true /\ w_poisoned w = false.

(** The announcements, byte by byte. *)
Definition announcement_bytes (kind size : N) (body : bytes) : bytes :=
  lit "Qspt1WmJOL" ++ [kind; 0] ++ ascii_padded 20 "rekordbox" ++ [1; 3; 0; size] ++ body.
Definition mac_claim_bytes (iteration : N) (m : mac) : bytes :=
  announcement_bytes 0x00 0x2c ([iteration; 4] ++ m).
Definition ip_claim_bytes (iteration index : N) (ip : ipv4) (m : mac) : bytes :=
  announcement_bytes 0x02 0x32
    (be 4 ip ++ m ++ [nth (N.to_nat index) [0; 0x11; 0x12; 0x29; 0x2a; 0x2b; 0x2c] 0; iteration; 4; 1]).
Definition status_bytes (ip : ipv4) (m : mac) (x : N) : bytes :=
  announcement_bytes 0x06 0x36 ([17; 1] ++ m ++ be 4 ip ++ [1; 1; 0] ++ be 2 x ++ [8]).

(** The handshake: 3 claims of the MAC, 36 of the IP address, one status. *)
Definition handshake_bytes (n : network) : list bytes :=
  [mac_claim_bytes 1 (pn_mac n); mac_claim_bytes 2 (pn_mac n); mac_claim_bytes 3 (pn_mac n)]
  ++ flat_map (fun iteration =>
       map (fun index => ip_claim_bytes iteration index (pn_ip n) (pn_mac n)) [1; 2; 3; 4; 5; 6])
     [1; 2; 3; 4; 5; 6]
  ++ [status_bytes (pn_ip n) (pn_mac n) 4].

(** A datagram broadcast on the network [n]. *)
Definition broadcast_on (n : network) (data : bytes) : output :=
  Sent (net_addr (pn_net n))
       (net_addr (pn_net n) / block (net_prefix (pn_net n)) * block (net_prefix (pn_net n))
        + (block (net_prefix (pn_net n)) - 1))
       50000 data.

(** Events queued and events taken, over a whole run. *)
Definition posted (os : list (list output)) : list app_event :=
  flat_map (fun o => match o with Posted e => [e] | _ => [] end) (List.concat os).
Definition taken (os : list (list output)) : list app_event :=
  flat_map (fun o => match o with Took e => [e] | _ => [] end) (List.concat os).
Definition is_link (e : app_event) : bool := match e with InitiateLink => true | DeviceChange => false end.
Definition links (es : list app_event) : nat := List.length (filter is_link es).
Definition changes (es : list app_event) : nat := List.length (filter (fun e => negb (is_link e)) es).
