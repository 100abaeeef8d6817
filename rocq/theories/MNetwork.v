(** Model of src/utils/network.rs and of the parts of the [ipnetwork] crate it
    uses: which local network a remote address belongs to. *)

From Verif Require Import Base MPackets.
Open Scope list_scope.
Open Scope N_scope.

(** [ipnetwork::Ipv4Network]: an address and a prefix length, at most 32
    ([Ipv4Network::new] refuses longer ones).  Library code, modelled from its
    documented behaviour; network.rs:4-6. *)
Record ipv4net := mkNet { net_addr : ipv4; net_prefix : N }.

(** [u32] and [u64] complement; used by the library functions below
    (network.rs:28-30, 36-38). *)
Definition not_u32 (x : N) : N := N.lxor 0xffffffff x.
(** The [u64] complement, in [mask] (network.rs:28-30). *)
Definition not_u64 (x : N) : N := N.lxor 0xffffffffffffffff x.

(** [Ipv4Network::mask]: [!(0xffff_ffff as u64 >> prefix) as u32]; called by
    network.rs:28-30. *)
Definition net_mask (n : ipv4net) : N :=
  not_u64 (N.shiftr 0xffffffff (net_prefix n)) mod 4294967296.

(** [Ipv4Network::contains]; called by network.rs:20-22. *)
Definition net_contains (n : ipv4net) (ip : ipv4) : bool :=
  N.land ip (net_mask n) =? N.land (net_addr n) (net_mask n).

(** [Ipv4Network::broadcast]; called by network.rs:36-38. *)
Definition net_broadcast (n : ipv4net) : ipv4 :=
  N.lor (net_addr n) (not_u32 (net_mask n)).

(** [ipnetwork::IpNetwork], matched at network.rs:49-52.  Version 6 networks are
    only ever skipped, their contents are left out. *)
Inductive ipnet := V4 (n : ipv4net) | V6.

(** [pnet::datalink::NetworkInterface] (network.rs:4): the two fields used. *)
Record iface := mkIface { if_mac : option mac; if_ips : list ipnet }.

(** network.rs:9-18, [struct PioneerNetwork] and [new]. *)
Record network := mkNetwork { pn_net : ipv4net; pn_mac : mac }.

(** network.rs:20-38, the accessors. *)
Definition pn_contains (n : network) (ip : ipv4) : bool := net_contains (pn_net n) ip.
(** network.rs:24-26. *)
Definition pn_ip (n : network) : ipv4 := net_addr (pn_net n).
(** network.rs:28-30. *)
Definition pn_mask (n : network) : N := net_mask (pn_net n).
(** network.rs:36-38. *)
Definition pn_broadcast (n : network) : ipv4 := net_broadcast (pn_net n).

(** network.rs:49-52, the closure passed to [filter_map], for one address of one
    interface: [None] skips, [Panic] is the failed [unwrap] of the MAC. *)
Definition iface_network (m : option mac) (ip : ipnet) : res (option network) :=
  match ip with
  | V4 n => do m <- unwrap_opt m; Ok (Some (mkNetwork n m))
  | V6 => Ok None
  end.

(** network.rs:49-54, the addresses of one interface under [find].  Iterators are
    lazy: an element is only built when the search reaches it. *)
Fixpoint find_in_iface (m : option mac) (ips : list ipnet) (address : ipv4) : res (option network) :=
  match ips with
  | [] => Ok None
  | ip :: ips =>
      do n <- iface_network m ip;
      match n with
      | Some n => if pn_contains n address then Ok (Some n) else find_in_iface m ips address
      | None => find_in_iface m ips address
      end
  end.

(** network.rs:45-55, [match_interface]. *)
Fixpoint match_interface (ifaces : list iface) (address : ipv4) : res (option network) :=
  match ifaces with
  | [] => Ok None
  | i :: ifaces =>
      do n <- find_in_iface (if_mac i) (if_ips i) address;
      match n with
      | Some n => Ok (Some n)
      | None => match_interface ifaces address
      end
  end.

(** network.rs:41-43, [find_interface]: [interfaces()] asks the operating system
    and is a parameter. *)
Definition find_interface (ifaces : list iface) (address : ipv4) : res (option network) :=
  match_interface ifaces address.
