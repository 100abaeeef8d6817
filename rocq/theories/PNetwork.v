(** Property theorems C34 and C35: networks. *)

From Verif Require Import Base MPackets MNetwork SNetwork LBase LNetwork.
From Coq Require Import ZArith.
Open Scope list_scope.
Open Scope N_scope.

(** ** C34 *)

(** The network found is the first in interface order that contains the address. *)
Theorem C34_first_containing : forall ifaces address n m, ifaces_typed ifaces ->
  (find_interface ifaces address = Ok (Some (mkNetwork n m)) <->
   exists before after, v4_networks ifaces = before ++ (n, Some m) :: after /\
     passed_over address before /\ same_prefix (net_prefix n) (net_addr n) address).
Proof. exact find_some_iff. Qed.
Print Assumptions C34_first_containing.

(** No interface is found exactly if every network is passed over. *)
Theorem C34_none_only_if_none_contains : forall ifaces address, ifaces_typed ifaces ->
  (find_interface ifaces address = Ok None <-> passed_over address (v4_networks ifaces)).
Proof. exact find_none_iff. Qed.
Print Assumptions C34_none_only_if_none_contains.

(** The lookup is a panic exactly if a network without a hardware address comes before
    one that contains the address. *)
Theorem C34_panics_exactly : forall ifaces address, ifaces_typed ifaces ->
  (find_interface ifaces address = Panic <->
   exists before n after, v4_networks ifaces = before ++ (n, None) :: after /\
     passed_over address before).
Proof. exact find_panic_iff. Qed.
Print Assumptions C34_panics_exactly.

(** It never returns an error. *)
Theorem C34_no_other_outcome : forall ifaces address, find_interface ifaces address <> Err.
Proof. exact find_not_err. Qed.
Print Assumptions C34_no_other_outcome.

(** The repository's test interfaces (network.rs:67-125), with a tunnel without
    hardware address appended. *)
Definition example_ifaces : list iface :=
  [mkIface (Some [0x00; 0x45; 0xcb; 0x9a; 0xa5; 0x0b]) [V4 (mkNet 3232238130 24); V6];
   mkIface (Some [0x00; 0x45; 0xcb; 0x9a; 0xa5; 0x0c]) [V4 (mkNet 3232238386 24)];
   mkIface (Some [0x00; 0x45; 0xcb; 0x9a; 0xa5; 0x0c]) [V4 (mkNet 3232238642 25)];
   mkIface (Some [0x00; 0x45; 0xcb; 0x9a; 0xa5; 0x0c]) [V4 (mkNet 3232238792 25)];
   mkIface None [V4 (mkNet 167772161 8)]].

Example C34_case : ifaces_typed example_ifaces /\
  find_interface example_ifaces 3232238822 =
    Ok (Some (mkNetwork (mkNet 3232238792 25) [0x00; 0x45; 0xcb; 0x9a; 0xa5; 0x0c])) /\
  find_interface example_ifaces 167772163 = Panic /\
  find_interface (firstn 4 example_ifaces) 167772163 = Ok None.
Proof.
  split; [|vm_compute; auto].
  assert (B : forall m : mac, forallb (fun b => b <? 256) m = true -> bytes_ok m).
  { intros m H. apply Forall_forall. intros b Hb. rewrite forallb_forall in H. apply N.ltb_lt, H, Hb. }
  intros i Hi. split.
  - intros m H. cbn in Hi.
    destruct Hi as [<-|[<-|[<-|[<-|[<-|[]]]]]]; cbn in H; try discriminate H;
      (assert (E := f_equal (fun o => match o with Some v => v | None => [] end) H); cbn in E;
       rewrite <- E; split; [reflexivity|apply B; reflexivity]).
  - intros n H. cbn in Hi.
    destruct Hi as [<-|[<-|[<-|[<-|[<-|[]]]]]]; cbn in H; destruct H as [H|H]; try contradiction;
      try (destruct H as [H|[]]; discriminate H);
      injection H as <-; cbn; lia.
Qed.

(** ** C35 *)

(** A network contains an address exactly if they agree in the leading bits, that is,
    lie in the same block. *)
Theorem C35_contains : forall n ip, net_addr n < 4294967296 -> ip < 4294967296 -> net_prefix n <= 32 ->
  (net_contains n ip = true <-> same_prefix (net_prefix n) (net_addr n) ip) /\
  (net_contains n ip = true <-> net_addr n / block (net_prefix n) = ip / block (net_prefix n)).
Proof.
  intros n ip Ha Hi Hp. rewrite contains_bits by assumption. split; [tauto|].
  apply same_prefix_div; assumption.
Qed.
Print Assumptions C35_contains.

(** The broadcast address is in the network, and no address of it is larger. *)
Theorem C35_broadcast_is_largest : forall n, net_addr n < 4294967296 -> net_prefix n <= 32 ->
  net_contains n (net_broadcast n) = true /\ net_broadcast n < 4294967296 /\
  forall ip, ip < 4294967296 -> net_contains n ip = true -> ip <= net_broadcast n.
Proof.
  intros n Ha Hp. pose proof (block_pos (net_prefix n)) as B. pose proof (block_le _ Hp) as B2.
  pose proof (broadcast_value n Ha Hp) as V.
  set (k := block (net_prefix n)) in *. set (q := net_addr n / k) in *.
  assert (D : net_addr n = k * q + net_addr n mod k) by (apply N.div_mod; lia).
  pose proof (N.mod_lt (net_addr n) k). 
  assert (Q : q * k + (k - 1) < 4294967296).
  { assert (E : exists j, 4294967296 = j * k).
    { exists (2 ^ net_prefix n). unfold k, block. change 4294967296 with (2 ^ 32).
      rewrite <- N.pow_add_r. f_equal. lia. }
    destruct E as [j E]. assert (q < j) by nia. nia. }
  rewrite V. split; [|split; [assumption|]].
  - apply (C35_contains n (q * k + (k - 1))); try assumption. fold k. fold q.
    rewrite N.div_add_l by lia. rewrite (N.div_small (k - 1) k) by lia. lia.
  - intros ip Hi C. apply (C35_contains n ip) in C; try assumption. fold k in C. fold q in C.
    rewrite C. pose proof (N.div_mod ip k). pose proof (N.mod_lt ip k). nia.
Qed.
Print Assumptions C35_broadcast_is_largest.

(** The mask has exactly the leading bits set. *)
Theorem C35_mask : forall n, net_prefix n <= 32 ->
  net_mask n = 4294967296 - block (net_prefix n) /\
  forall i, N.testbit (net_mask n) i = true <-> 32 - net_prefix n <= i < 32.
Proof.
  intros n Hp. split; [apply mask_value; assumption|]. intros i. rewrite mask_bits by assumption.
  rewrite Bool.andb_true_iff, N.leb_le, N.ltb_lt. tauto.
Qed.
Print Assumptions C35_mask.

Example C35_case :
  net_mask (mkNet 3232238642 25) = 4294967168 /\ net_broadcast (mkNet 3232238642 25) = 3232238719 /\
  net_contains (mkNet 3232238642 25) 3232238719 = true /\
  net_contains (mkNet 3232238642 25) 3232238720 = false /\
  net_mask (mkNet 1 0) = 0 /\ net_broadcast (mkNet 1 0) = 4294967295 /\
  net_broadcast (mkNet 77 32) = 77.
Proof. vm_compute. auto 10. Qed.
