(** Specification for C107: what can be seen of the program, and what it remembers. *)

From Verif Require Import Base Unicode MPackets MNetwork MServer SUdp SNetwork SServer.
Open Scope list_scope.
Open Scope N_scope.

(** What can be seen of a run from outside: the datagrams sent and the lines printed
    when an event is taken, turn by turn. *)
Definition outside (os : list (list output)) : list (list output) :=
  map (filter (fun o => match o with Posted _ => false | _ => true end)) os.

(** After two histories the program behaves alike, whatever happens from there on. *)
Definition discovery_alike (is1 is2 : list input) : Prop :=
  forall is, inputs_typed is ->
    outside (snd (run_from (fst (run is1)) is)) = outside (snd (run_from (fst (run is2)) is)).

(** The two networks as far as datagrams show them: our address, the last address
    of the network, our hardware address. *)
Definition last_address (n : network) : N :=
  net_addr (pn_net n) / block (net_prefix (pn_net n)) * block (net_prefix (pn_net n))
  + (block (net_prefix (pn_net n)) - 1).
Definition same_network (o1 o2 : option network) : Prop :=
  match o1, o2 with
  | None, None => True
  | Some n1, Some n2 =>
      net_addr (pn_net n1) = net_addr (pn_net n2) /\ last_address n1 = last_address n2 /\ pn_mac n1 = pn_mac n2
  | _, _ => False
  end.

(** A queue up to its first link request. *)
Fixpoint up_to_link (q : list app_event) : list app_event :=
  match q with
  | [] => []
  | InitiateLink :: _ => [InitiateLink]
  | DeviceChange :: q => DeviceChange :: up_to_link q
  end.

(** What a program that no longer takes notice of anything will still take from its queue. *)
Definition left_over (w : world) : list app_event :=
  if w_running w then up_to_link (w_queue w) else [].

(** Two histories leave the same memory: either the program takes notice of
    announcements after both, has the same events waiting, has or has not linked,
    is on the same network and has heard from the same addresses; or after neither
    does it take notice of anything, and the same events are left over. *)
Definition same_discovery (is1 is2 : list input) : Prop :=
  let w1 := fst (run is1) in let w2 := fst (run is2) in
  (attentive w1 /\ attentive w2 /\ w_queue w1 = w_queue w2 /\
   st_linking (w_state w1) = st_linking (w_state w2) /\
   same_network (st_address (w_state w1)) (st_address (w_state w2)) /\
   forall hs1 hs2, hears is1 hs1 -> hears is2 hs2 ->
     forall ip, In ip (map h_ip hs1) <-> In ip (map h_ip hs2)) \/
  (~ attentive w1 /\ ~ attentive w2 /\ left_over w1 = left_over w2).
