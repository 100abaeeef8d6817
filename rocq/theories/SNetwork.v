(** Specification of networks: prefixes of bit strings, ranges, first match. *)

From Verif Require Import Base MPackets MNetwork.
From Coq Require Import NArith.
Open Scope list_scope.
Open Scope N_scope.

(** Number of addresses of a network of prefix length [p]. *)
Definition block (p : N) : N := 2 ^ (32 - p).

(** Two addresses agree in their first [p] of 32 bits. *)
Definition same_prefix (p a b : N) : Prop :=
  forall i, 32 - p <= i < 32 -> N.testbit a i = N.testbit b i.

(** The IPv4 networks of a machine, in the order of its interfaces, each with
    the hardware address of its interface, if it has one. *)
Definition v4_networks (ifaces : list iface) : list (ipv4net * option mac) :=
  flat_map (fun i => flat_map (fun ip => match ip with V4 n => [(n, if_mac i)] | V6 => [] end) (if_ips i))
           ifaces.

(** [address] lies in none of [l], all of which have hardware addresses. *)
Definition passed_over (address : ipv4) (l : list (ipv4net * option mac)) : Prop :=
  forall n m, In (n, m) l ->
    m <> None /\ ~ same_prefix (net_prefix n) (net_addr n) address.

(** Interfaces as an operating system reports them. *)
Definition ifaces_typed (ifaces : list iface) : Prop :=
  forall i, In i ifaces ->
    (forall m, if_mac i = Some m -> len m = 6 /\ bytes_ok m) /\
    (forall n, In (V4 n) (if_ips i) -> net_addr n < 4294967296 /\ net_prefix n <= 32).
