(** Lemmas about RPC messages. *)

From Verif Require Import Base Unicode MRpc SUdp SRpc LBase LUnicode LUdp.
From Coq Require Import ZArith String.
Open Scope list_scope.
Open Scope N_scope.

(** ** Reading calls *)

Lemma u32_in : forall o d, (o + 4 <= List.length d)%nat ->
  be_u32 (skipn o d) = Ok (skipn (o + 4) d, number_at o 4 d).
Proof. intros. apply (uint_in 4); [reflexivity|assumption]. Qed.
Lemma u32_out : forall o d, (List.length d < o + 4)%nat -> be_u32 (skipn o d) = Err.
Proof. intros. apply (uint_out 4); [reflexivity|lia|assumption]. Qed.
Lemma u16_in : forall o d, (o + 2 <= List.length d)%nat ->
  be_u16 (skipn o d) = Ok (skipn (o + 2) d, number_at o 2 d).
Proof. intros. apply (uint_in 2); [reflexivity|assumption]. Qed.
Lemma u16_out : forall o d, (List.length d < o + 2)%nat -> be_u16 (skipn o d) = Err.
Proof. intros. apply (uint_out 2); [reflexivity|lia|assumption]. Qed.

Fixpoint units_of (l : bytes) : list N :=
  match l with
  | a :: b :: r => of_le [a; b] :: units_of r
  | _ => []
  end.

Lemma count_le16_in : forall n o d, (o + 2 * n <= List.length d)%nat ->
  count le_u16 n (skipn o d) = Ok (skipn (o + 2 * n) d, units_of (slice o (2 * n) d)).
Proof.
  induction n; intros o d H.
  - cbn [count]. rewrite Nat.mul_0_r, Nat.add_0_r. reflexivity.
  - cbn [count]. unfold le_u16 at 1. rewrite (take_in 2) by (reflexivity || lia). cbn [rbind].
    rewrite (IHn (o + 2)%nat d) by lia. cbn [rbind].
    replace (2 * S n)%nat with (2 + 2 * n)%nat by lia. rewrite slice_split.
    pose proof (slice_length o 2 d ltac:(lia)) as L.
    destruct (slice o 2 d) as [|a [|b [|]]]; try discriminate L.
    cbn [app units_of]. rewrite Nat.add_assoc. reflexivity.
Qed.
Lemma count_le16_out : forall n o d, (0 < n)%nat -> (List.length d < o + 2 * n)%nat ->
  count le_u16 n (skipn o d) = Err.
Proof.
  induction n; intros o d Hn H; [lia|].
  cbn [count]. unfold le_u16 at 1.
  destruct (le_gt_dec (o + 2) (List.length d)).
  - rewrite (take_in 2) by (reflexivity || lia). cbn [rbind].
    rewrite IHn by lia. reflexivity.
  - rewrite (take_out 2) by (reflexivity || lia). reflexivity.
Qed.

Lemma units_of_le16 : forall us, units_ok us -> units_of (flat_map (fun u => [u mod 256; u / 256]) us) = us.
Proof.
  induction 1 as [|u us H _ IH]; [reflexivity|].
  cbn [flat_map app units_of of_le]. rewrite IH. f_equal.
  pose proof (N.div_mod u 256 ltac:(discriminate)). lia.
Qed.
Lemma le16_units_of : forall n b, bytes_ok b -> List.length b = (2 * n)%nat ->
  flat_map (fun u => [u mod 256; u / 256]) (units_of b) = b /\ units_ok (units_of b).
Proof.
  induction n; intros b Hb L.
  - destruct b; [|discriminate L]. split; [reflexivity|constructor].
  - destruct b as [|x [|y b]]; try discriminate L; [cbn in L; lia|].
    inversion Hb as [|? ? Hx Hb1]; subst. inversion Hb1 as [|? ? Hy Hb2]; subst.
    unfold is_byte in *. cbn [List.length] in L.
    destruct (IHn b Hb2 ltac:(lia)) as [E U]. cbn [units_of flat_map app of_le].
    split.
    + rewrite E. do 2 f_equal; lia.
    + constructor; [lia|assumption].
Qed.

Lemma utf16le_units : forall s, str_ok s -> units_of (utf16le s) = utf16_encode s.
Proof. intros. apply units_of_le16. apply utf16_encode_units. assumption. Qed.

Lemma text16_decode : forall o n d s, bytes_ok d -> (o + 2 * n <= List.length d)%nat ->
  utf16_decode (units_of (slice o (2 * n) d)) = Some s <-> text16_at o (2 * n) d s.
Proof.
  intros o n d s Hd L. pose proof (slice_length o (2 * n) d L) as SL.
  destruct (le16_units_of n (slice o (2 * n) d) ltac:(apply slice_ok; assumption) SL) as [E U].
  split.
  - intros H. destruct (utf16_decode_some _ _ U H) as [H1 H2].
    repeat split; try assumption. unfold utf16le. rewrite H1. symmetry. exact E.
  - intros [_ [Hs He]]. rewrite He, utf16le_units by assumption. apply utf16_decode_encode. assumption.
Qed.

Lemma text16_functional : forall o n d s t, text16_at o n d s -> text16_at o n d t -> s = t.
Proof.
  intros o n d s t [_ [Hs E]] [_ [Ht F]]. rewrite E in F.
  apply (f_equal units_of) in F. rewrite !utf16le_units in F by assumption.
  apply utf16_encode_inj; assumption.
Qed.

Ltac split_number v :=
  let rec go v := (destruct v as [v|v|]; [try go v|try go v|]) in
  destruct v as [|v]; [|go v].

Lemma program_number_inj : forall p q, program_number p = program_number q -> p = q.
Proof. intros [] []; intros H; reflexivity || discriminate H. Qed.

Lemma program_in : forall o d, (o + 8 <= List.length d)%nat ->
  (exists p, number_at o 4 d = program_number p /\
     program_decode (skipn o d) = Ok (skipn (o + 8) d, (p, number_at (o + 4) 4 d)))
  \/ program_decode (skipn o d) = Err /\ forall p, number_at o 4 d <> program_number p.
Proof.
  intros o d H. unfold program_decode.
  rewrite u32_in by lia. cbn [rbind]. rewrite u32_in by lia. cbn [rbind].
  replace (o + 4 + 4)%nat with (o + 8)%nat by lia.
  generalize (number_at o 4 d) as v. intros v.
  destruct (N.eq_dec v 100000) as [->|N1]; [left; exists Portmap; split; reflexivity|].
  destruct (N.eq_dec v 100003) as [->|N2]; [left; exists Nfs; split; reflexivity|].
  destruct (N.eq_dec v 100005) as [->|N3]; [left; exists Mount; split; reflexivity|].
  right. split; [|intros []; assumption].
  destruct v as [|v]; [reflexivity|].
  do 17 (destruct v as [v|v|]; try reflexivity); exfalso; (apply N1; reflexivity) || (apply N2; reflexivity) || (apply N3; reflexivity).
Qed.
Lemma program_out : forall o d, (List.length d < o + 8)%nat -> program_decode (skipn o d) = Err.
Proof.
  intros o d H. unfold program_decode.
  destruct (le_gt_dec (o + 4) (List.length d)); [|rewrite u32_out by lia; reflexivity].
  rewrite u32_in by lia. cbn [rbind]. rewrite u32_out by lia. reflexivity.
Qed.

Lemma handle_in : forall o d, (o + 32 <= List.length d)%nat ->
  handle_decode (skipn o d) = Ok (skipn (o + 32) d, slice o 32 d).
Proof. intros. apply count_u8_in. assumption. Qed.
Lemma handle_out : forall o d, (List.length d < o + 32)%nat -> handle_decode (skipn o d) = Err.
Proof. intros. apply count_u8_out; lia. Qed.

Lemma even_length : forall o d,
  even_length_at o d = (2 * N.to_nat (number_at o 4 d / 2))%nat.
Proof. intros. unfold even_length_at. rewrite N2Nat.inj_mul. reflexivity. Qed.

Lemma getport_cases : forall d, (60 <= List.length d)%nat ->
  (exists g r, getport_decode (skipn 60 d) = Ok (r, g) /\ args_say d Portmap 3 (PortmapGetport g))
  \/ getport_decode (skipn 60 d) = Err /\ forall g, ~ args_say d Portmap 3 (PortmapGetport g).
Proof.
  intros d H. unfold getport_decode.
  destruct (le_gt_dec 76 (List.length d)) as [L|L].
  - destruct (program_in 60 d ltac:(lia)) as [[p [Hp E]]|[E Hn]]; rewrite E; cbn [rbind].
    + unfold protocol_decode. rewrite u32_in by (cbn; lia). cbn [rbind].
      destruct (N.eq_dec (number_at (60 + 8) 4 d) 17) as [E17|N17].
      * rewrite E17. cbn [rbind]. rewrite u32_in by (cbn; lia). cbn [rbind].
        left. eexists. eexists. split; [reflexivity|]. cbn [args_say gp_program gp_version gp_protocol gp_port].
        repeat split; try assumption.
      * right. split.
        -- destruct (number_at (60 + 8) 4 d) as [|v]; [reflexivity|].
           do 5 (destruct v as [v|v|]; try reflexivity). exfalso. apply N17. reflexivity.
        -- intros g [_ [_ [_ [_ [_ [F _]]]]]]. apply N17. exact F.
    + right. split; [reflexivity|]. intros g [_ [_ [_ [F _]]]]. exact (Hn _ F).
  - right. split; [|intros g [_ [_ [F _]]]; unfold reaches in F; lia].
    destruct (le_gt_dec 68 (List.length d)) as [M|M]; [|rewrite program_out by lia; reflexivity].
    destruct (program_in 60 d ltac:(lia)) as [[p [Hp E]]|[E Hn]]; rewrite E; [|reflexivity]. cbn [rbind].
    unfold protocol_decode. change (60 + 8)%nat with 68%nat.
    destruct (le_gt_dec 72 (List.length d)) as [K|K]; [|rewrite u32_out by lia; reflexivity].
    rewrite u32_in by lia. cbn [rbind].
    assert (Z : forall (k : bytes * portmap_protocol -> res (bytes * getport)),
      (forall x, k (skipn (68 + 4) d, x) = Err) ->
      rbind (match number_at 68 4 d with 17 => Ok (skipn (68 + 4) d, ProtoUdp) | _ => Err end) k = Err).
    { intros k Hk. destruct (number_at 68 4 d) as [|v]; [reflexivity|].
      do 5 (destruct v as [v|v|]; try reflexivity). cbn [rbind]. apply Hk. }
    apply Z. intros x. rewrite u32_out by (cbn; lia). reflexivity.
Qed.

Lemma lookup_cases : forall d, bytes_ok d -> (60 <= List.length d)%nat ->
  (exists l r, lookup_decode (skipn 60 d) = Ok (r, l) /\ args_say d Nfs 4 (NfsLookup l))
  \/ lookup_decode (skipn 60 d) = Err /\ forall l, ~ args_say d Nfs 4 (NfsLookup l).
Proof.
  intros d Hd H. unfold lookup_decode.
  destruct (le_gt_dec 96 (List.length d)) as [L|L].
  - rewrite handle_in by lia. cbn [rbind]. rewrite u32_in by (cbn; lia). cbn [rbind].
    change (60 + 32)%nat with 92%nat. change (92 + 4)%nat with 96%nat.
    set (n := N.to_nat (number_at 92 4 d / 2)).
    assert (EL : even_length_at 92 d = (2 * n)%nat) by apply even_length.
    destruct (le_gt_dec (96 + 2 * n) (List.length d)) as [M|M].
    + rewrite count_le16_in by lia. cbn [rbind].
      destruct (utf16_decode (units_of (slice 96 (2 * n) d))) as [s|] eqn:E.
      * left. eexists. eexists. split; [reflexivity|]. cbn [args_say lk_filename lk_fhandle].
        repeat split; try assumption. exists s. split; [|reflexivity].
        rewrite EL. apply text16_decode; assumption.
      * right. split; [reflexivity|]. intros l [_ [_ [_ [_ [s [T _]]]]]].
        rewrite EL in T. apply text16_decode in T; [congruence|assumption|assumption].
    + right. split.
      * rewrite count_le16_out by lia. reflexivity.
      * intros l [_ [_ [_ [_ [s [[T _] _]]]]]]. rewrite EL in T. unfold reaches in T. lia.
  - right. split; [|intros l [_ [_ [F _]]]; unfold reaches in F; lia].
    destruct (le_gt_dec 92 (List.length d)) as [M|M]; [|rewrite handle_out by lia; reflexivity].
    rewrite handle_in by lia. cbn [rbind]. rewrite u32_out by (cbn; lia). reflexivity.
Qed.

Lemma read_cases : forall d, (60 <= List.length d)%nat ->
  (exists l r, read_decode (skipn 60 d) = Ok (r, l) /\ args_say d Nfs 6 (NfsRead l))
  \/ read_decode (skipn 60 d) = Err /\ forall l, ~ args_say d Nfs 6 (NfsRead l).
Proof.
  intros d H. unfold read_decode.
  destruct (le_gt_dec 104 (List.length d)) as [L|L].
  - rewrite handle_in by lia. cbn [rbind]. do 3 (rewrite u32_in by (cbn; lia); cbn [rbind]).
    left. eexists. eexists. split; [reflexivity|].
    cbn [args_say rd_fhandle rd_offset rd_count rd_total]. repeat split; assumption.
  - right. split; [|intros l [_ [_ [F _]]]; unfold reaches in F; lia].
    destruct (le_gt_dec 92 (List.length d)) as [M|M]; [|rewrite handle_out by lia; reflexivity].
    rewrite handle_in by lia. cbn [rbind].
    destruct (le_gt_dec 96 (List.length d)) as [K|K]; [|rewrite u32_out by (cbn; lia); reflexivity].
    rewrite u32_in by (cbn; lia). cbn [rbind].
    destruct (le_gt_dec 100 (List.length d)) as [J|J]; [|rewrite u32_out by (cbn; lia); reflexivity].
    rewrite u32_in by (cbn; lia). cbn [rbind]. rewrite u32_out by (cbn; lia). reflexivity.
Qed.

Lemma mnt_cases : forall d, bytes_ok d -> (60 <= List.length d)%nat ->
  (exists l r, mnt_decode (skipn 60 d) = Ok (r, l) /\ args_say d Mount 1 (MountMnt l))
  \/ mnt_decode (skipn 60 d) = Err /\ forall l, ~ args_say d Mount 1 (MountMnt l).
Proof.
  intros d Hd H. unfold mnt_decode.
  destruct (le_gt_dec 64 (List.length d)) as [L|L].
  - rewrite u32_in by lia. cbn [rbind].
    change (60 + 4)%nat with 64%nat.
    set (n := N.to_nat (number_at 60 4 d / 2)).
    assert (EL : even_length_at 60 d = (2 * n)%nat) by apply even_length.
    destruct (le_gt_dec (64 + 2 * n) (List.length d)) as [M|M].
    + rewrite count_le16_in by lia. cbn [rbind].
      destruct (le_gt_dec (64 + 2 * n + 2) (List.length d)) as [K|K].
      * rewrite u16_in by lia. cbn [rbind].
        destruct (utf16_decode (units_of (slice 64 (2 * n) d))) as [s|] eqn:E.
        -- left. eexists. eexists. split; [reflexivity|]. cbn [args_say]. rewrite EL.
           repeat split; try assumption. exists s. split; [|reflexivity].
           apply text16_decode; assumption.
        -- right. split; [reflexivity|]. intros l [_ [_ [_ [s [T _]]]]].
           rewrite EL in T. apply text16_decode in T; [congruence|assumption|assumption].
      * right. rewrite u16_out by lia. split; [reflexivity|].
        intros l [_ [_ [F _]]]. rewrite EL in F. unfold reaches in F. lia.
    + right. split.
      * rewrite count_le16_out by lia. reflexivity.
      * intros l [_ [_ [F _]]]. rewrite EL in F. unfold reaches in F. lia.
  - right. split; [|intros l [_ [_ [F _]]]; unfold reaches in F; lia].
    rewrite u32_out by lia. reflexivity.
Qed.

Lemma procedure_cases : forall d program proc, bytes_ok d -> (60 <= List.length d)%nat ->
  (exists p r, procedure_decode program proc (skipn 60 d) = Ok (r, p) /\ args_say d program proc p)
  \/ procedure_decode program proc (skipn 60 d) = Err /\ forall p, ~ args_say d program proc p.
Proof.
  intros d program proc Hd H.
  assert (Simple : forall p, args_say d program proc p ->
    procedure_decode program proc (skipn 60 d) = Ok (skipn 60 d, p) ->
    exists p r, procedure_decode program proc (skipn 60 d) = Ok (r, p) /\ args_say d program proc p)
    by eauto.
  destruct program.
  - destruct (N.eq_dec proc 0) as [->|N0]; [left; apply (Simple PortmapNull); repeat split|].
    destruct (N.eq_dec proc 1) as [->|N1]; [left; apply (Simple PortmapSet); repeat split|].
    destruct (N.eq_dec proc 2) as [->|N2]; [left; apply (Simple PortmapUnset); repeat split|].
    destruct (N.eq_dec proc 4) as [->|N4]; [left; apply (Simple PortmapDump); repeat split|].
    destruct (N.eq_dec proc 5) as [->|N5]; [left; apply (Simple PortmapCallResult); repeat split|].
    destruct (N.eq_dec proc 3) as [->|N3].
    + clear Simple. cbn [procedure_decode].
      destruct (getport_cases d H) as [[g [r [E A]]]|[E A]]; rewrite E; cbn [rbind].
      * left. eexists. eexists. split; [reflexivity|exact A].
      * right. split; [reflexivity|]. intros [] F; cbn [args_say] in F; try (destruct F as [? F]; (discriminate || (destruct F; discriminate) || lia)); try contradiction.
        apply (A g). exact F.
    + right. split.
      * destruct proc as [|v]; [congruence|]. cbn [procedure_decode].
        do 3 (destruct v as [v|v|]; try reflexivity; try congruence).
      * intros [] F; cbn [args_say] in F; try (destruct F as [? F]; (discriminate || lia)); try contradiction.
  - destruct (N.eq_dec proc 1) as [->|N1].
    { cbn [procedure_decode]. destruct (le_gt_dec 92 (List.length d)) as [L|L].
      - rewrite handle_in by lia. cbn [rbind]. left. eexists. eexists. split; [reflexivity|].
        repeat split; assumption.
      - right. rewrite handle_out by lia. split; [reflexivity|].
        intros [] F; cbn [args_say] in F; try (destruct F as [? F]; discriminate || (destruct F; discriminate)); try contradiction.
        destruct F as [_ [_ [F _]]]. unfold reaches in F. lia. }
    destruct (N.eq_dec proc 4) as [->|N4].
    { clear Simple. cbn [procedure_decode].
      destruct (lookup_cases d Hd H) as [[g [r [E A]]]|[E A]]; rewrite E; cbn [rbind].
      - left. eexists. eexists. split; [reflexivity|exact A].
      - right. split; [reflexivity|]. intros [] F; cbn [args_say] in F; try (destruct F as [? F]; discriminate || (destruct F; discriminate)); try contradiction.
        apply (A l). exact F. }
    destruct (N.eq_dec proc 6) as [->|N6].
    { clear Simple. cbn [procedure_decode].
      destruct (read_cases d H) as [[g [r [E A]]]|[E A]]; rewrite E; cbn [rbind].
      - left. eexists. eexists. split; [reflexivity|exact A].
      - right. split; [reflexivity|]. intros [] F; cbn [args_say] in F; try (destruct F as [? F]; discriminate || (destruct F; discriminate)); try contradiction.
        apply (A r). exact F. }
    right. split.
    + destruct proc as [|v]; [reflexivity|]. cbn [procedure_decode].
      do 3 (destruct v as [v|v|]; try reflexivity; try congruence).
    + intros [] F; cbn [args_say] in F; try (destruct F as [? F]; (discriminate || lia)); try contradiction.
  - destruct (N.eq_dec proc 5) as [->|N5]; [left; apply (Simple MountExport); repeat split|].
    destruct (N.eq_dec proc 1) as [->|N1].
    { clear Simple. cbn [procedure_decode].
      destruct (mnt_cases d Hd H) as [[g [r [E A]]]|[E A]]; rewrite E; cbn [rbind].
      - left. eexists. eexists. split; [reflexivity|exact A].
      - right. split; [reflexivity|]. intros [] F; cbn [args_say] in F; try (destruct F as [? F]; discriminate || (destruct F; discriminate)); try contradiction.
        apply (A paths). exact F. }
    right. split.
    + destruct proc as [|v]; [reflexivity|]. cbn [procedure_decode].
      do 3 (destruct v as [v|v|]; try reflexivity; try congruence).
    + intros [] F; cbn [args_say] in F; try (destruct F as [? F]; (discriminate || lia)); try contradiction.
Qed.

Lemma args_functional : forall d program proc p q,
  args_say d program proc p -> args_say d program proc q -> p = q.
Proof.
  intros d program proc p q A B.
  destruct p, q; cbn [args_say] in A, B; try contradiction;
    try reflexivity;
    try (exfalso; destruct A as [A1 A2], B as [B1 B2]; repeat match goal with H : _ /\ _ |- _ => destruct H end; subst; discriminate).
  - destruct A as [_ [_ [_ [A1 [A2 [_ [A3 A4]]]]]]], B as [_ [_ [_ [B1 [B2 [_ [B3 B4]]]]]]].
    destruct g as [gv gp gr gpo], g0 as [hv hp hr hpo]. cbn [gp_version gp_program gp_protocol gp_port] in *.
    rewrite A1 in B1. apply program_number_inj in B1. congruence.
  - destruct A as [_ [_ [_ ->]]], B as [_ [_ [_ ->]]]. reflexivity.
  - destruct A as [_ [_ [_ [A1 [s [A2 A3]]]]]], B as [_ [_ [_ [B1 [t [B2 B3]]]]]].
    pose proof (text16_functional _ _ _ _ _ A2 B2). subst t.
    destruct l as [lf lh], l0 as [mf mh]. cbn [lk_filename lk_fhandle] in *. congruence.
  - destruct A as [_ [_ [_ [A1 [A2 [A3 A4]]]]]], B as [_ [_ [_ [B1 [B2 [B3 B4]]]]]].
    destruct r as [ra rb rc rd], r0 as [sa sb sc sd]. cbn [rd_fhandle rd_offset rd_count rd_total] in *. congruence.
  - destruct A as [_ [_ [_ [s [A1 A2]]]]], B as [_ [_ [_ [t [B1 B2]]]]].
    pose proof (text16_functional _ _ _ _ _ A1 B1). congruence.
Qed.

Lemma call_functional : forall d m n, call_says d m -> call_says d n -> m = n.
Proof.
  intros d [x b] [y e] [c [Ac [_ [Ax [_ [Av [Ap [Apv [Acr [Af Aa]]]]]]]]]]
    [c' [Bc [_ [Bx [_ [Bv [Bp [Bpv [Bcr [Bf Ba]]]]]]]]]].
  cbn [rpc_xid rpc_body] in *. subst b e.
  rewrite Ap in Bp. apply program_number_inj in Bp.
  destruct c as [v p pv pr cr ve], c' as [v' p' pv' pr' cr' ve'].
  cbn [ca_version ca_program ca_program_version ca_procedure ca_credentials ca_verifier] in *. subst p'.
  rewrite (args_functional _ _ _ _ _ Aa Ba).
  assert (ve = ve') by (destruct Af as [[? ?]|[? ?]], Bf as [[? ?]|[? ?]]; congruence).
  congruence.
Qed.

Definition is_reply_b (d : bytes) : bool := (8 <=? List.length d)%nat && (number_at 4 4 d =? 1).

Lemma rpc_cases : forall d, bytes_ok d ->
  (exists m, rpc_try_from d = Ok m /\ call_says d m)
  \/ rpc_try_from d = Panic /\ reaches 8 d /\ number_at 4 4 d = 1
  \/ rpc_try_from d = Err /\ (forall m, ~ call_says d m) /\ ~ (reaches 8 d /\ number_at 4 4 d = 1).
Proof.
  intros d Hd.
  assert (Sh : (List.length d < 60)%nat -> forall m, ~ call_says d m).
  { intros L m [c [_ [F _]]]. unfold reaches in F. lia. }
  change (rpc_try_from d) with (rpc_try_from (skipn 0 d)). unfold rpc_try_from, rpc_decode.
  destruct (le_gt_dec 4 (List.length d)) as [L|L].
  2:{ rewrite u32_out by lia. right. right. split; [reflexivity|]. split; [apply Sh; lia|].
      intros [F _]. unfold reaches in F. lia. }
  rewrite u32_in by lia. cbn [rbind]. unfold message_type_decode. change (0 + 4)%nat with 4%nat.
  destruct (le_gt_dec 8 (List.length d)) as [L8|L8].
  2:{ rewrite u32_out by lia. right. right. split; [reflexivity|]. split; [apply Sh; lia|].
      intros [F _]. unfold reaches in F. lia. }
  rewrite u32_in by lia. cbn [rbind]. change (4 + 4)%nat with 8%nat.
  destruct (N.eq_dec (number_at 4 4 d) 1) as [E1|N1].
  { rewrite E1. cbn [rbind]. right. left. repeat split. exact L8. }
  destruct (N.eq_dec (number_at 4 4 d) 0) as [E0|N0].
  2:{ right. right. split; [|split].
      - destruct (number_at 4 4 d) as [|[v|v|]]; [congruence|reflexivity|reflexivity|congruence].
      - intros m [c [_ [_ [_ [F _]]]]]. congruence.
      - intros [_ F]. congruence. }
  rewrite E0. cbn [rbind].
  assert (K : forall r : res (bytes * rpc_call), r = call_decode (skipn 8 d) ->
    match r with
    | Ok (_, c) => call_says d (mkRpc (number_at 0 4 d) (Call c))
    | Err => forall m, ~ call_says d m
    | Panic => False
    end).
  { intros r ->. unfold call_decode.
    destruct (le_gt_dec 12 (List.length d)); [|rewrite u32_out by lia; cbn [rbind]; apply Sh; lia].
    rewrite u32_in by lia. cbn [rbind]. change (8 + 4)%nat with 12%nat.
    destruct (le_gt_dec 20 (List.length d)); [|rewrite program_out by lia; cbn [rbind]; apply Sh; lia].
    destruct (program_in 12 d ltac:(lia)) as [[p [Ep E]]|[E Np]]; rewrite E; cbn [rbind].
    2:{ intros m [c [_ [_ [_ [_ [_ [F _]]]]]]]. exact (Np _ F). }
    change (12 + 8)%nat with 20%nat. change (12 + 4)%nat with 16%nat.
    destruct (le_gt_dec 24 (List.length d)); [|rewrite u32_out by lia; cbn [rbind]; apply Sh; lia].
    rewrite u32_in by lia. cbn [rbind]. change (20 + 4)%nat with 24%nat.
    unfold credentials_decode.
    destruct (le_gt_dec 28 (List.length d)); [|rewrite u32_out by lia; cbn [rbind]; apply Sh; lia].
    rewrite u32_in by lia. cbn [rbind]. change (24 + 4)%nat with 28%nat.
    destruct (le_gt_dec 32 (List.length d)); [|rewrite u32_out by lia; cbn [rbind]; apply Sh; lia].
    rewrite u32_in by lia. cbn [rbind]. change (28 + 4)%nat with 32%nat.
    destruct (le_gt_dec 36 (List.length d)); [|rewrite u32_out by lia; cbn [rbind]; apply Sh; lia].
    rewrite u32_in by lia. cbn [rbind]. change (32 + 4)%nat with 36%nat.
    destruct (le_gt_dec 40 (List.length d)); [|rewrite u32_out by lia; cbn [rbind]; apply Sh; lia].
    rewrite u32_in by lia. cbn [rbind]. change (36 + 4)%nat with 40%nat.
    destruct (le_gt_dec 44 (List.length d)); [|rewrite u32_out by lia; cbn [rbind]; apply Sh; lia].
    rewrite u32_in by lia. cbn [rbind]. change (40 + 4)%nat with 44%nat.
    destruct (le_gt_dec 48 (List.length d)); [|rewrite u32_out by lia; cbn [rbind]; apply Sh; lia].
    rewrite u32_in by lia. cbn [rbind]. change (44 + 4)%nat with 48%nat.
    destruct (le_gt_dec 52 (List.length d)); [|rewrite u32_out by lia; cbn [rbind]; apply Sh; lia].
    rewrite u32_in by lia. cbn [rbind]. change (48 + 4)%nat with 52%nat.
    unfold auth_decode.
    destruct (le_gt_dec 56 (List.length d)); [|rewrite u32_out by lia; cbn [rbind]; apply Sh; lia].
    rewrite u32_in by lia. cbn [rbind]. change (52 + 4)%nat with 56%nat.
    destruct (le_gt_dec 60 (List.length d)) as [L60|]; [|rewrite u32_out by lia; cbn [rbind]; apply Sh; lia].
    rewrite u32_in by lia. cbn [rbind]. change (56 + 4)%nat with 60%nat.
    destruct (N.eq_dec (number_at 52 4 d) 0) as [F0|G0].
    - rewrite F0. cbn [rbind].
      destruct (procedure_cases d p (number_at 20 4 d) Hd L60) as [[q [r [Eq A]]]|[Eq A]]; rewrite Eq; cbn [rbind].
      + eexists. split; [reflexivity|]. cbn [rpc_xid rpc_body ca_version ca_program ca_program_version ca_procedure ca_credentials ca_verifier].
        repeat split; try assumption. left. split; [exact F0|reflexivity].
      + intros m [c [_ [_ [_ [_ [_ [Fp [_ [_ [_ Fa]]]]]]]]]].
        rewrite Ep in Fp. apply program_number_inj in Fp. subst p. exact (A _ Fa).
    - destruct (N.eq_dec (number_at 52 4 d) 1) as [F1|G1].
      + rewrite F1. cbn [rbind].
        destruct (procedure_cases d p (number_at 20 4 d) Hd L60) as [[q [r [Eq A]]]|[Eq A]]; rewrite Eq; cbn [rbind].
        * eexists. split; [reflexivity|]. cbn [rpc_xid rpc_body ca_version ca_program ca_program_version ca_procedure ca_credentials ca_verifier].
          repeat split; try assumption. right. split; [exact F1|reflexivity].
        * intros m [c [_ [_ [_ [_ [_ [Fp [_ [_ [_ Fa]]]]]]]]]].
          rewrite Ep in Fp. apply program_number_inj in Fp. subst p. exact (A _ Fa).
      + assert (NC : forall m, ~ call_says d m)
          by (intros m [c [_ [_ [_ [_ [_ [_ [_ [_ [[[F _]|[F _]] _]]]]]]]]]]; congruence).
        destruct (number_at 52 4 d) as [|[v|v|]]; [congruence|exact NC|exact NC|congruence]. }
  specialize (K _ eq_refl). destruct (call_decode (skipn 8 d)) as [[r c]| |]; cbn [rbind].
  - left. eexists. split; [reflexivity|exact K].
  - right. right. split; [reflexivity|]. split; [exact K|]. intros [_ F]. congruence.
  - contradiction.
Qed.
