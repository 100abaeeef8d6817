From Verif Require Import Base MPackets MNetwork SNetwork LBase.
From Coq Require Import ZArith.
Open Scope list_scope.
Open Scope N_scope.

Lemma ones_bits : forall n i, N.testbit (N.ones n) i = (i <? n).
Proof.
  intros n i. destruct (i <? n) eqn:E.
  - apply N.ltb_lt in E. apply N.ones_spec_low. assumption.
  - apply N.ltb_ge in E. apply N.ones_spec_high. assumption.
Qed.

Lemma high_bits : forall a k i, a < 2 ^ k -> k <= i -> N.testbit a i = false.
Proof.
  intros a k i Ha Hi. destruct (N.eq_dec a 0) as [->|Hz]; [apply N.bits_0|].
  apply N.bits_above_log2. apply N.log2_lt_pow2; [lia|].
  apply N.lt_le_trans with (2 ^ k); [assumption|]. apply N.pow_le_mono_r; lia.
Qed.

Lemma mask_bits : forall n i, net_prefix n <= 32 ->
  N.testbit (net_mask n) i = ((32 - net_prefix n <=? i) && (i <? 32))%bool.
Proof.
  intros [a p] i Hp. cbn [net_prefix] in *. unfold net_mask, not_u64. cbn [net_prefix].
  change 4294967296 with (2 ^ 32). rewrite <- N.land_ones, N.land_spec, ones_bits.
  change 0xffffffffffffffff with (N.ones 64). change 0xffffffff with (N.ones 32).
  rewrite N.lxor_spec, N.shiftr_spec', !ones_bits.
  destruct (i <? 64) eqn:E1, (i + p <? 32) eqn:E2, (i <? 32) eqn:E3, (32 - p <=? i) eqn:E4;
    try reflexivity; exfalso;
    repeat match goal with
    | H : (_ <? _) = true |- _ => apply N.ltb_lt in H
    | H : (_ <? _) = false |- _ => apply N.ltb_ge in H
    | H : (_ <=? _) = true |- _ => apply N.leb_le in H
    | H : (_ <=? _) = false |- _ => apply N.leb_gt in H
    end; lia.
Qed.

Lemma contains_bits : forall n ip, net_prefix n <= 32 ->
  (net_contains n ip = true <-> same_prefix (net_prefix n) (net_addr n) ip).
Proof.
  intros n ip Hp. unfold net_contains, same_prefix. rewrite N.eqb_eq. split.
  - intros H i Hi. apply (f_equal (fun x => N.testbit x i)) in H.
    rewrite !N.land_spec, mask_bits in H by assumption.
    replace (32 - net_prefix n <=? i) with true in H by (symmetry; apply N.leb_le; lia).
    replace (i <? 32) with true in H by (symmetry; apply N.ltb_lt; lia).
    rewrite !Bool.andb_true_r in H. symmetry. exact H.
  - intros H. apply N.bits_inj. intros i. rewrite !N.land_spec, mask_bits by assumption.
    destruct (32 - net_prefix n <=? i) eqn:E1, (i <? 32) eqn:E2; cbn [andb]; rewrite ?Bool.andb_false_r; try reflexivity.
    rewrite !Bool.andb_true_r. symmetry. apply H.
    apply N.leb_le in E1. apply N.ltb_lt in E2. lia.
Qed.

Lemma same_prefix_div : forall p a b, a < 4294967296 -> b < 4294967296 -> p <= 32 ->
  (same_prefix p a b <-> a / block p = b / block p).
Proof.
  intros p a b Ha Hb Hp. unfold same_prefix, block. rewrite <- !N.shiftr_div_pow2. split.
  - intros H. apply N.bits_inj. intros i. rewrite !N.shiftr_spec'.
    destruct (N.lt_ge_cases (i + (32 - p)) 32) as [L|L]; [apply H; lia|].
    rewrite !(high_bits _ 32) by (try assumption; lia). reflexivity.
  - intros H i Hi. apply (f_equal (fun x => N.testbit x (i - (32 - p)))) in H.
    rewrite !N.shiftr_spec' in H. replace (i - (32 - p) + (32 - p)) with i in H by lia. exact H.
Qed.

Lemma mask_value : forall n, net_prefix n <= 32 -> net_mask n = 4294967296 - block (net_prefix n).
Proof.
  intros n Hp. unfold block.
  assert (E : net_mask n = N.shiftl (N.ones (net_prefix n)) (32 - net_prefix n)).
  { apply N.bits_inj. intros i. rewrite mask_bits by assumption.
    destruct (32 - net_prefix n <=? i) eqn:E1.
    - apply N.leb_le in E1. rewrite N.shiftl_spec_high', ones_bits by assumption. cbn [andb].
      destruct (i <? 32) eqn:E2, (i - (32 - net_prefix n) <? net_prefix n) eqn:E3; try reflexivity; exfalso;
      repeat match goal with
      | H : (_ <? _) = true |- _ => apply N.ltb_lt in H
      | H : (_ <? _) = false |- _ => apply N.ltb_ge in H
      end; lia.
    - apply N.leb_gt in E1. rewrite N.shiftl_spec_low by assumption. reflexivity. }
  rewrite E, N.shiftl_mul_pow2, N.ones_equiv.
  change 4294967296 with (2 ^ 32). replace (2 ^ 32) with (2 ^ net_prefix n * 2 ^ (32 - net_prefix n)).
  2: { rewrite <- N.pow_add_r. f_equal. lia. }
  pose proof (N.pow_nonzero 2 (net_prefix n)). pose proof (N.pow_nonzero 2 (32 - net_prefix n)). nia.
Qed.

Lemma block_pos : forall p, 0 < block p.
Proof. intros. unfold block. pose proof (N.pow_nonzero 2 (32 - p)). lia. Qed.

Lemma block_le : forall p, p <= 32 -> block p <= 4294967296.
Proof. intros. unfold block. change 4294967296 with (2 ^ 32). apply N.pow_le_mono_r; lia. Qed.

Lemma broadcast_value : forall n, net_addr n < 4294967296 -> net_prefix n <= 32 ->
  net_broadcast n = net_addr n / block (net_prefix n) * block (net_prefix n) + (block (net_prefix n) - 1).
Proof.
  intros n Ha Hp. unfold block. rewrite <- N.shiftr_div_pow2, <- N.shiftl_mul_pow2.
  replace (2 ^ (32 - net_prefix n) - 1) with (N.ones (32 - net_prefix n)) by (rewrite N.ones_equiv; lia).
  assert (D : N.land (N.shiftl (N.shiftr (net_addr n) (32 - net_prefix n)) (32 - net_prefix n))
                     (N.ones (32 - net_prefix n)) = 0).
  { apply N.bits_inj. intros i. rewrite N.land_spec, N.bits_0, ones_bits.
       destruct (i <? 32 - net_prefix n) eqn:E; [|apply Bool.andb_false_r].
       apply N.ltb_lt in E. rewrite N.shiftl_spec_low by assumption. reflexivity. }
  rewrite N.add_nocarry_lxor, N.lxor_lor by exact D. clear D.
  unfold net_broadcast, not_u32. apply N.bits_inj. intros i.
  rewrite N.lor_spec, !N.lor_spec, ones_bits, N.lxor_spec, mask_bits by assumption.
  change 0xffffffff with (N.ones 32). rewrite ones_bits.
  destruct (N.lt_ge_cases i (32 - net_prefix n)) as [L|L].
  - rewrite N.shiftl_spec_low by assumption.
    replace (32 - net_prefix n <=? i) with false by (symmetry; apply N.leb_gt; assumption).
    replace (i <? 32 - net_prefix n) with true by (symmetry; apply N.ltb_lt; assumption).
    replace (i <? 32) with true by (symmetry; apply N.ltb_lt; lia).
    rewrite !Bool.orb_true_r. reflexivity.
  - rewrite N.shiftl_spec_high', N.shiftr_spec' by assumption.
    replace (i - (32 - net_prefix n) + (32 - net_prefix n)) with i by lia.
    replace (32 - net_prefix n <=? i) with true by (symmetry; apply N.leb_le; assumption).
    replace (i <? 32 - net_prefix n) with false by (symmetry; apply N.ltb_ge; assumption).
    cbn [andb]. rewrite Bool.xorb_nilpotent. reflexivity.
Qed.

(** ** First match *)

(** The search over the flat list of networks. *)
Fixpoint search (l : list (ipv4net * option mac)) (address : ipv4) : res (option network) :=
  match l with
  | [] => Ok None
  | (n, None) :: _ => Panic
  | (n, Some x) :: l => if net_contains n address then Ok (Some (mkNetwork n x)) else search l address
  end.

Lemma match_interface_flat : forall ifaces address,
  match_interface ifaces address = search (v4_networks ifaces) address.
Proof.
  intros ifaces address. induction ifaces as [|i ifaces IH]; [reflexivity|].
  cbn [match_interface]. unfold v4_networks in *. cbn [flat_map]. rewrite IH. clear IH.
  generalize (flat_map (fun i0 => flat_map (fun ip => match ip with V4 n => [(n, if_mac i0)] | V6 => [] end) (if_ips i0)) ifaces).
  intros rest. induction (if_ips i) as [|[n|] ips IH]; [reflexivity| |exact IH].
  cbn [find_in_iface iface_network flat_map app search]. destruct (if_mac i) as [x|]; [|reflexivity].
  cbn [unwrap_opt rbind]. unfold pn_contains. cbn [pn_net].
  destruct (net_contains n address); [reflexivity|exact IH].
Qed.

Definition nets_typed (l : list (ipv4net * option mac)) : Prop :=
  forall n m, In (n, m) l -> net_prefix n <= 32.

Lemma ifaces_nets_typed : forall ifaces, ifaces_typed ifaces -> nets_typed (v4_networks ifaces).
Proof.
  intros ifaces H n m Hin. unfold v4_networks in Hin. apply in_flat_map in Hin.
  destruct Hin as (i & Hi & Hin). apply in_flat_map in Hin. destruct Hin as ([n'|] & Hn & Hin); [|destruct Hin].
  destruct Hin as [E|[]]. inversion E; subst. apply (H i Hi) in Hn. tauto.
Qed.

Lemma passed_over_nil : forall a, passed_over a [].
Proof. intros a n m []. Qed.

Lemma passed_over_cons : forall a n x l, net_prefix n <= 32 -> net_contains n a = false ->
  passed_over a l -> passed_over a ((n, Some x) :: l).
Proof.
  intros a n x l Hp Hc H n' m [E|Hin]; [|apply H; assumption]. inversion E; subst.
  split; [discriminate|]. intros S. apply contains_bits in S; [|assumption]. congruence.
Qed.

Lemma search_cases : forall l a, nets_typed l ->
  (exists l1 n x l2, l = l1 ++ (n, Some x) :: l2 /\ passed_over a l1 /\
     same_prefix (net_prefix n) (net_addr n) a /\ search l a = Ok (Some (mkNetwork n x))) \/
  (passed_over a l /\ search l a = Ok None) \/
  (exists l1 n l2, l = l1 ++ (n, None) :: l2 /\ passed_over a l1 /\ search l a = Panic).
Proof.
  intros l a. induction l as [|[n [x|]] l IH]; intros Ht.
  - right. left. split; [apply passed_over_nil|reflexivity].
  - cbn [search]. assert (Hp : net_prefix n <= 32) by (apply (Ht n (Some x)); left; reflexivity).
    destruct (net_contains n a) eqn:E.
    + left. exists [], n, x, l. split; [reflexivity|]. split; [apply passed_over_nil|].
      split; [apply contains_bits; assumption|reflexivity].
    + destruct IH as [(l1 & n' & x' & l2 & -> & P & S & ->)|[[P ->]|(l1 & n' & l2 & -> & P & ->)]].
      * intros n' m Hin. apply (Ht n' m). right. assumption.
      * left. exists ((n, Some x) :: l1), n', x', l2. split; [reflexivity|].
        split; [apply passed_over_cons; assumption|]. split; [assumption|reflexivity].
      * right. left. split; [apply passed_over_cons; assumption|reflexivity].
      * right. right. exists ((n, Some x) :: l1), n', l2. split; [reflexivity|].
        split; [apply passed_over_cons; assumption|reflexivity].
  - right. right. exists [], n, l. split; [reflexivity|]. split; [apply passed_over_nil|reflexivity].
Qed.

(** At most one way to split the list behind the networks passed over. *)
Lemma passed_over_split : forall a l1 x l2 k1 y k2,
  l1 ++ x :: l2 = k1 ++ y :: k2 -> passed_over a l1 -> passed_over a k1 ->
  ~ passed_over a [x] -> ~ passed_over a [y] -> l1 = k1 /\ x = y /\ l2 = k2.
Proof.
  intros a l1 x l2. induction l1 as [|h l1 IH]; intros k1 y k2 E P Q Nx Ny; destruct k1 as [|h' k1]; cbn in E.
  - inversion E; subst. auto.
  - inversion E; subst. exfalso. apply Nx. intros n m [F|[]]. subst. apply Q. left. reflexivity.
  - inversion E; subst. exfalso. apply Ny. intros n m [F|[]]. subst. apply P. left. reflexivity.
  - inversion E; subst. destruct (IH k1 y k2) as (-> & -> & ->); auto;
      [intros n m Hin; apply P|intros n m Hin; apply Q]; right; assumption.
Qed.

Lemma not_passed_none : forall a n, ~ passed_over a [(n, None)].
Proof. intros a n H. destruct (H n None (or_introl eq_refl)) as [H1 _]. apply H1. reflexivity. Qed.

Lemma not_passed_hit : forall a n m, same_prefix (net_prefix n) (net_addr n) a -> ~ passed_over a [(n, m)].
Proof. intros a n m S H. destruct (H n m (or_introl eq_refl)) as [_ H1]. apply H1. assumption. Qed.

Lemma passed_over_app : forall a l k, passed_over a (l ++ k) <-> passed_over a l /\ passed_over a k.
Proof.
  intros a l k. split.
  - intros H. split; intros n m Hin; apply H; apply in_or_app; auto.
  - intros [H1 H2] n m Hin. apply in_app_or in Hin. destruct Hin; [apply H1|apply H2]; assumption.
Qed.

Lemma passed_over_head : forall a x l, passed_over a (x :: l) -> passed_over a [x].
Proof. intros a x l H n m [E|[]]. apply H. left. assumption. Qed.

Lemma find_some_iff : forall ifaces a n x, ifaces_typed ifaces ->
  (find_interface ifaces a = Ok (Some (mkNetwork n x)) <->
   exists l1 l2, v4_networks ifaces = l1 ++ (n, Some x) :: l2 /\ passed_over a l1 /\
     same_prefix (net_prefix n) (net_addr n) a).
Proof.
  intros ifaces a n x Ht. unfold find_interface. rewrite match_interface_flat.
  apply ifaces_nets_typed in Ht. set (l := v4_networks ifaces) in *. clearbody l.
  destruct (search_cases l a Ht) as [(l1 & n' & x' & l2 & -> & P & S & E)|[[P E]|(l1 & n' & l2 & -> & P & E)]];
    rewrite E; split.
  - intros H. inversion H; subst. eauto.
  - intros (k1 & k2 & Ek & Q & S'). apply (passed_over_split a) in Ek; auto using not_passed_hit.
    destruct Ek as (_ & Ek & _). inversion Ek. reflexivity.
  - discriminate.
  - intros (k1 & k2 & -> & Q & S'). exfalso. apply passed_over_app in P. destruct P as [_ P].
    apply passed_over_head in P. revert P. apply not_passed_hit. assumption.
  - discriminate.
  - intros (k1 & k2 & Ek & Q & S'). apply (passed_over_split a) in Ek; auto using not_passed_hit, not_passed_none.
    destruct Ek as (_ & Ek & _). discriminate.
Qed.

Lemma find_none_iff : forall ifaces a, ifaces_typed ifaces ->
  (find_interface ifaces a = Ok None <-> passed_over a (v4_networks ifaces)).
Proof.
  intros ifaces a Ht. unfold find_interface. rewrite match_interface_flat.
  apply ifaces_nets_typed in Ht. set (l := v4_networks ifaces) in *. clearbody l.
  destruct (search_cases l a Ht) as [(l1 & n' & x' & l2 & -> & P & S & E)|[[P E]|(l1 & n' & l2 & -> & P & E)]];
    rewrite E; split; try discriminate; auto; intros Q; exfalso;
    apply passed_over_app in Q; destruct Q as [_ Q]; apply passed_over_head in Q; revert Q;
    auto using not_passed_hit, not_passed_none.
  - apply not_passed_hit. assumption.
  - apply not_passed_none.
Qed.

Lemma find_panic_iff : forall ifaces a, ifaces_typed ifaces ->
  (find_interface ifaces a = Panic <->
   exists l1 n l2, v4_networks ifaces = l1 ++ (n, None) :: l2 /\ passed_over a l1).
Proof.
  intros ifaces a Ht. unfold find_interface. rewrite match_interface_flat.
  apply ifaces_nets_typed in Ht. set (l := v4_networks ifaces) in *. clearbody l.
  destruct (search_cases l a Ht) as [(l1 & n' & x' & l2 & -> & P & S & E)|[[P E]|(l1 & n' & l2 & -> & P & E)]];
    rewrite E; split; try discriminate; eauto.
  - intros (k1 & n & k2 & Ek & Q). apply (passed_over_split a) in Ek; auto using not_passed_hit, not_passed_none.
    destruct Ek as (_ & Ek & _). discriminate.
  - intros (k1 & n & k2 & -> & Q). exfalso. apply passed_over_app in P. destruct P as [_ P].
    apply passed_over_head in P. revert P. apply not_passed_none.
Qed.

Lemma find_not_err : forall ifaces a, find_interface ifaces a <> Err.
Proof.
  intros ifaces a. unfold find_interface. rewrite match_interface_flat.
  induction (v4_networks ifaces) as [|[n [x|]] l IH]; cbn [search]; try discriminate.
  destruct (net_contains n a); [discriminate|assumption].
Qed.
