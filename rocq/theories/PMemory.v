(** Property theorems C94: how much memory a datagram can claim. *)

From Verif Require Import Base Unicode MDatabase MRpc MRpcServer MNfs MMemory SUdp SRpc SRpcServer SNfs SSize SMemory
  LBase LUdp LRpc LRpcServer LNfs PNfs PSize.
From Verif Require Import Base.
From Coq Require Import ZArith String Lia Arith.
Open Scope N_scope.
Open Scope list_scope.

(** ** Decoding *)

(** The start of the arguments is reached exactly by the calls. *)
Lemma room_cases : forall d,
  (exists p proc, calls (program_number p) proc d /\ datagram_room d = procedure_room p proc (skipn 60 d)) \/
  datagram_room d = [] /\ forall p proc, ~ calls (program_number p) proc d.
Proof.
  intros d. unfold datagram_room.
  assert (Sh : (List.length d < 60)%nat -> forall p proc, ~ calls (program_number p) proc d)
    by (intros L p proc [F _]; unfold reaches in F; lia).
  change d with (skipn 0 d) at 2 4.
  destruct (le_gt_dec 4 (List.length d)) as [L|L]; [|rewrite u32_out by lia; right; split; [reflexivity|apply Sh; lia]].
  rewrite u32_in by lia. cbn [rbind]. change (0 + 4)%nat with 4%nat.
  destruct (le_gt_dec 8 (List.length d)) as [L8|L8]; [|rewrite u32_out by lia; right; split; [reflexivity|apply Sh; lia]].
  rewrite u32_in by lia. change (4 + 4)%nat with 8%nat.
  destruct (N.eq_dec (number_at 4 4 d) 0) as [E0|N0].
  2:{ right. split; [destruct (number_at 4 4 d); [congruence|reflexivity]|]. intros p proc (_ & F & _). congruence. }
  rewrite E0. unfold call_room.
  destruct (le_gt_dec 12 (List.length d)); [|rewrite u32_out by lia; right; split; [reflexivity|apply Sh; lia]].
  rewrite u32_in by lia. cbn [rbind]. change (8 + 4)%nat with 12%nat.
  destruct (le_gt_dec 20 (List.length d)); [|rewrite program_out by lia; right; split; [reflexivity|apply Sh; lia]].
  destruct (program_in 12 d ltac:(lia)) as [[p [Ep E]]|[E Np]]; rewrite E; cbn [rbind].
  2:{ right. split; [reflexivity|]. intros p proc (_ & _ & F & _). exact (Np _ F). }
  change (12 + 8)%nat with 20%nat.
  destruct (le_gt_dec 24 (List.length d)); [|rewrite u32_out by lia; right; split; [reflexivity|apply Sh; lia]].
  rewrite u32_in by lia. cbn [rbind]. change (20 + 4)%nat with 24%nat.
  unfold credentials_decode.
  destruct (le_gt_dec 28 (List.length d)); [|rewrite u32_out by lia; right; split; [reflexivity|apply Sh; lia]].
  rewrite u32_in by lia. cbn [rbind]. change (24 + 4)%nat with 28%nat.
  destruct (le_gt_dec 32 (List.length d)); [|rewrite u32_out by lia; right; split; [reflexivity|apply Sh; lia]].
  rewrite u32_in by lia. cbn [rbind]. change (28 + 4)%nat with 32%nat.
  destruct (le_gt_dec 36 (List.length d)); [|rewrite u32_out by lia; right; split; [reflexivity|apply Sh; lia]].
  rewrite u32_in by lia. cbn [rbind]. change (32 + 4)%nat with 36%nat.
  destruct (le_gt_dec 40 (List.length d)); [|rewrite u32_out by lia; right; split; [reflexivity|apply Sh; lia]].
  rewrite u32_in by lia. cbn [rbind]. change (36 + 4)%nat with 40%nat.
  destruct (le_gt_dec 44 (List.length d)); [|rewrite u32_out by lia; right; split; [reflexivity|apply Sh; lia]].
  rewrite u32_in by lia. cbn [rbind]. change (40 + 4)%nat with 44%nat.
  destruct (le_gt_dec 48 (List.length d)); [|rewrite u32_out by lia; right; split; [reflexivity|apply Sh; lia]].
  rewrite u32_in by lia. cbn [rbind]. change (44 + 4)%nat with 48%nat.
  destruct (le_gt_dec 52 (List.length d)); [|rewrite u32_out by lia; right; split; [reflexivity|apply Sh; lia]].
  rewrite u32_in by lia. cbn [rbind]. change (48 + 4)%nat with 52%nat.
  unfold auth_decode.
  destruct (le_gt_dec 56 (List.length d)); [|rewrite u32_out by lia; right; split; [reflexivity|apply Sh; lia]].
  rewrite u32_in by lia. cbn [rbind]. change (52 + 4)%nat with 56%nat.
  destruct (le_gt_dec 60 (List.length d)) as [L60|]; [|rewrite u32_out by lia; right; split; [reflexivity|apply Sh; lia]].
  rewrite u32_in by lia. cbn [rbind]. change (56 + 4)%nat with 60%nat.
  destruct (N.eq_dec (number_at 52 4 d) 0) as [F0|G0].
  { rewrite F0. cbn [rbind]. left. exists p, (number_at 20 4 d). split; [|reflexivity]. repeat split; auto. }
  destruct (N.eq_dec (number_at 52 4 d) 1) as [F1|G1].
  { rewrite F1. cbn [rbind]. left. exists p, (number_at 20 4 d). split; [|reflexivity]. repeat split; auto. }
  right. split.
  - destruct (number_at 52 4 d) as [|[v|v|]]; [congruence|reflexivity|reflexivity|congruence].
  - intros q proc (_ & _ & _ & _ & [F|F]); congruence.
Qed.

Lemma calls_functional : forall p q proc proc' d,
  calls (program_number p) proc d -> calls (program_number q) proc' d -> p = q /\ proc = proc'.
Proof.
  intros p q proc proc' d (_ & _ & A & B & _) (_ & _ & C & D & _). split; [apply program_number_inj|]; congruence.
Qed.

Lemma room_in : forall d,
  (forall n, In n (datagram_room d) <-> n = 32 /\ has_handle d \/ announces_text d n) /\
  (List.length (datagram_room d) <= 2)%nat.
Proof.
  intros d. destruct (room_cases d) as [(p & proc & C & ->)|[-> NC]].
  2:{ split; [|cbn; lia]. intros n. split; [intros []|]. unfold has_handle, announces_text.
      intros [(_ & [H|[H|H]])|[[H _]|[H _]]];
        (elim (NC Nfs _ H) || elim (NC Mount _ H)). }
  assert (F : forall q proc', calls (program_number q) proc' d -> p = q /\ proc = proc')
    by (intros q proc' H; exact (calls_functional _ _ _ _ _ C H)).
  assert (Text : forall o, (o <= List.length d)%nat ->
    match be_u32 (skipn o d) with Ok (_, length) => [count_room 2 (length / 2)] | _ => [] end =
    if (o + 4 <=? List.length d)%nat then [2 * (number_at o 4 d / 2)] else []).
  { intros o Ho. destruct (Nat.leb_spec (o + 4) (List.length d)); [rewrite u32_in by assumption; reflexivity|].
    rewrite u32_out by assumption. reflexivity. }
  assert (L60 : (60 <= List.length d)%nat) by (destruct C as [C _]; exact C).
  assert (Nfs_case : forall q, p = Nfs -> proc = q -> q <> 1 -> q <> 4 -> q <> 6 ->
    forall n, ~ (n = 32 /\ has_handle d \/ announces_text d n)).
  { intros q -> -> N1 N4 N6 n [(_ & [H|[H|H]])|[[H _]|[H _]]];
      (destruct (F Nfs _ H) || destruct (F Mount _ H)); congruence. }
  destruct p.
  - (* portmap *)
    assert (E : procedure_room Portmap proc (skipn 60 d) = []) by reflexivity. rewrite E. split; [|cbn; lia].
    intros n. split; [intros []|]. intros [(_ & [H|[H|H]])|[[H _]|[H _]]];
      (destruct (F Nfs _ H) || destruct (F Mount _ H)); congruence.
  - destruct (N.eq_dec proc 1) as [->|N1]; [|destruct (N.eq_dec proc 4) as [->|N4]; [|destruct (N.eq_dec proc 6) as [->|N6]]].
    + cbn [procedure_room]. split; [|cbn; lia]. intros n. unfold handle_room, count_room. split.
      * intros [<-|[]]. left. split; [reflexivity|]. left. exact C.
      * intros [(-> & _)|[[H _]|[H _]]]; [left; reflexivity| |]; [destruct (F Nfs _ H)|destruct (F Mount _ H)]; discriminate.
    + cbn [procedure_room]. unfold lookup_room, handle_room. cbn [app].
      replace (match handle_decode (skipn 60 d) with
               | Ok (i, _) => match be_u32 i with Ok (_, length) => [count_room 2 (length / 2)] | _ => [] end
               | _ => [] end) with (if (96 <=? List.length d)%nat then [2 * (number_at 92 4 d / 2)] else []).
      2:{ destruct (le_gt_dec 92 (List.length d)).
          - rewrite handle_in by lia. symmetry. apply (Text 92%nat). assumption.
          - rewrite handle_out by lia. destruct (Nat.leb_spec 96 (List.length d)); [lia|reflexivity]. }
      split; [|destruct (96 <=? List.length d)%nat; cbn; lia]. intros n. cbn [In]. unfold count_room.
      destruct (Nat.leb_spec 96 (List.length d)) as [L|L].
      * split.
        -- intros [<-|[<-|[]]]; [left; split; [reflexivity|]; right; left; exact C|]. right. left.
           repeat split; try apply C; auto.
        -- intros [(-> & _)|[(H & _ & ->)|[H _]]]; [left; reflexivity|right; left; reflexivity|].
           destruct (F Mount _ H). discriminate.
      * split.
        -- intros [<-|[]]. left. split; [reflexivity|]. right. left. exact C.
        -- intros [(-> & _)|[(H & R & ->)|[H _]]]; [left; reflexivity|unfold reaches in R; lia|].
           destruct (F Mount _ H). discriminate.
    + cbn [procedure_room]. split; [|cbn; lia]. intros n. unfold handle_room, count_room. split.
      * intros [<-|[]]. left. split; [reflexivity|]. right. right. exact C.
      * intros [(-> & _)|[[H _]|[H _]]]; [left; reflexivity| |]; [destruct (F Nfs _ H)|destruct (F Mount _ H)]; discriminate.
    + assert (E : procedure_room Nfs proc (skipn 60 d) = []).
      { destruct proc as [|[[q|q|]|[q|q|]|]]; try reflexivity; try congruence; destruct q as [q|q|]; try reflexivity; congruence. }
      rewrite E. split; [|cbn; lia]. intros n. split; [intros []|]. intros H. elim (Nfs_case proc eq_refl eq_refl N1 N4 N6 n H).
  - destruct (N.eq_dec proc 1) as [->|N1].
    + cbn [procedure_room]. unfold mnt_room. rewrite (Text 60%nat L60). change (60 + 4)%nat with 64%nat.
      destruct (Nat.leb_spec 64 (List.length d)) as [L|L].
      * split; [|cbn; lia]. intros n. split.
        -- intros [<-|[]]. right. right. split; [exact C|]. split; [exact L|reflexivity].
        -- intros [(_ & [H|[H|H]])|[[H _]|(_ & _ & ->)]]; try (destruct (F Nfs _ H); discriminate). left. reflexivity.
      * split; [|cbn; lia]. intros n. split; [intros []|].
        intros [(_ & [H|[H|H]])|[[H _]|(_ & R & _)]]; try (destruct (F Nfs _ H); discriminate). unfold reaches in R. lia.
    + assert (E : procedure_room Mount proc (skipn 60 d) = []) by (destruct proc as [|[q|q|]]; try reflexivity; congruence).
      rewrite E. split; [|cbn; lia]. intros n. split; [intros []|].
      intros [(_ & [H|[H|H]])|[[H _]|[H _]]]; (destruct (F Nfs _ H) || destruct (F Mount _ H)); congruence.
Qed.
(** While a datagram is decoded, by any of the RPC services, room is set aside for
    the 32 bytes of a handle, and for as many bytes as the datagram announces for a
    text; for nothing else, and each once. *)
Theorem C94_decoding : forall d, exists handle text, datagram_room d = handle ++ text /\
  (handle = [32] /\ has_handle d \/ handle = [] /\ ~ has_handle d) /\
  ((exists n, text = [n] /\ announces_text d n) \/ text = [] /\ forall n, ~ announces_text d n).
Proof.
  intros d. pose proof (proj1 (room_in d)) as R.
  assert (NT : forall n, announces_text d n -> In n (datagram_room d)) by (intros n H; apply R; right; exact H).
  destruct (room_cases d) as [(p & proc & C & E)|[E NC]].
  2:{ exists [], []. split; [exact E|]. split; right; split; try reflexivity.
      - intros H. assert (I : In 32 (datagram_room d)) by (apply R; left; split; [reflexivity|exact H]). rewrite E in I. exact I.
      - intros n H. apply NT in H. rewrite E in H. exact H. }
  assert (F : forall q proc', calls (program_number q) proc' d -> p = q /\ proc = proc')
    by (intros q proc' H; exact (calls_functional _ _ _ _ _ C H)).
  assert (One : p = Nfs -> proc <> 4 -> datagram_room d = [32] -> has_handle d -> exists handle text, datagram_room d = handle ++ text /\
    (handle = [32] /\ has_handle d \/ handle = [] /\ ~ has_handle d) /\
    ((exists n, text = [n] /\ announces_text d n) \/ text = [] /\ forall n, ~ announces_text d n)).
  { intros -> N4 E' H. exists [32], []. split; [exact E'|]. split; [left; split; [reflexivity|exact H]|]. right. split; [reflexivity|].
    intros n [[K _]|[K _]]; [destruct (F Nfs _ K)|destruct (F Mount _ K)]; congruence. }
  assert (Zero : datagram_room d = [] -> exists handle text, datagram_room d = handle ++ text /\
    (handle = [32] /\ has_handle d \/ handle = [] /\ ~ has_handle d) /\
    ((exists n, text = [n] /\ announces_text d n) \/ text = [] /\ forall n, ~ announces_text d n)).
  { intros E'. exists [], []. split; [exact E'|]. split; right; split; try reflexivity.
    - intros H. assert (I : In 32 (datagram_room d)) by (apply R; left; split; [reflexivity|exact H]). rewrite E' in I. exact I.
    - intros n H. apply NT in H. rewrite E' in H. exact H. }
  destruct p.
  - apply Zero. rewrite E. reflexivity.
  - destruct (N.eq_dec proc 1) as [->|N1]; [|destruct (N.eq_dec proc 4) as [->|N4]; [|destruct (N.eq_dec proc 6) as [->|N6]]].
    + apply One; [reflexivity|discriminate|exact E|left; exact C].
    + exists [32]. cbn [procedure_room] in E. unfold lookup_room in E.
      destruct (le_gt_dec 96 (List.length d)) as [L|L].
      * rewrite handle_in in E by lia. rewrite u32_in in E by (cbn; lia). eexists. split; [exact E|].
        split; [left; split; [reflexivity|right; left; exact C]|]. left. eexists. split; [reflexivity|]. left.
        split; [exact C|]. split; [exact L|reflexivity].
      * exists []. split.
        { rewrite E. destruct (le_gt_dec 92 (List.length d)); [rewrite handle_in by lia; rewrite u32_out by (cbn; lia)|rewrite handle_out by lia]; reflexivity. }
        split; [left; split; [reflexivity|right; left; exact C]|]. right. split; [reflexivity|].
        intros n [(_ & K & _)|[K _]]; [unfold reaches in K; lia|]. destruct (F Mount _ K). discriminate.
    + apply One; [reflexivity|discriminate|exact E|right; right; exact C].
    + apply Zero. rewrite E.
      destruct proc as [|[[q|q|]|[q|q|]|]]; try reflexivity; try congruence; destruct q as [q|q|]; try reflexivity; congruence.
  - destruct (N.eq_dec proc 1) as [->|N1].
    + assert (NH : ~ has_handle d) by (intros [H|[H|H]]; destruct (F Nfs _ H); discriminate).
      cbn [procedure_room] in E. unfold mnt_room in E. exists [].
      destruct (le_gt_dec 64 (List.length d)) as [L|L].
      * rewrite u32_in in E by lia. eexists. split; [exact E|]. split; [right; split; [reflexivity|exact NH]|].
        left. eexists. split; [reflexivity|]. right. split; [exact C|]. split; [exact L|reflexivity].
      * rewrite u32_out in E by lia. exists []. split; [exact E|]. split; [right; split; [reflexivity|exact NH]|].
        right. split; [reflexivity|]. intros n H. apply NT in H. rewrite E in H. exact H.
    + apply Zero. rewrite E. destruct proc as [|[q|q|]]; try reflexivity; congruence.
Qed.
Print Assumptions C94_decoding.

Lemma number_bound : forall o d, bytes_ok d -> number_at o 4 d < 2 ^ 32.
Proof.
  intros o d B. unfold number_at, slice. set (l := firstn 4 (skipn o d)).
  assert (H : Forall is_byte l).
  { unfold l. clear -B. apply Forall_forall. intros x Hx. apply (proj1 (Forall_forall _ _) B).
    rewrite <- (firstn_skipn o d). apply in_or_app. right. rewrite <- (firstn_skipn 4 (skipn o d)). apply in_or_app. left. exact Hx. }
  assert (L : (List.length l <= 4)%nat) by (unfold l; rewrite firstn_length; lia).
  clearbody l. unfold is_byte in H.
  destruct l as [|a [|b [|c [|e [|f l]]]]]; [reflexivity| | | | |cbn in L; lia];
    repeat match goal with H : Forall _ (_ :: _) |- _ => let K := fresh in pose proof (Forall_inv H) as K; cbv beta in K; apply Forall_inv_tail in H end;
    cbn [fold_left]; change (2 ^ 32) with 4294967296; lia.
Qed.

(** If there are fewer bytes than announced, nothing comes of the datagram: it is an
    error, and the port mapper, the mount service and the file services go on as if
    it had not come. *)
Theorem C94_too_much : forall d n, bytes_ok d -> announces_text d n -> len d < n ->
  codec_decode d = Err /\ n < 2 ^ 32 /\
  (forall from port send, pm_turn (mkPmIn d from port send) = (true, [])) /\
  (forall from poisoned address send, ms_turn (mkMsIn d from poisoned address send) = (true, [])) /\
  (forall e from o resend send s, nfs_turn e (mkNfsIn d from o resend send) s = (s, [])).
Proof.
  intros d n B A L.
  assert (E : codec_decode d = Err).
  { destruct (codec_cases d B) as [(m & c & E & C & Bc)|[(E & R & _)|([E|E] & _)]].
    - exfalso. destruct C as (c' & Bc' & _ & _ & _ & _ & P & _ & _ & _ & G). rewrite Bc in Bc'. injection Bc' as <-.
      unfold len in L. destruct A as [((_ & _ & Pr & Pc & _) & R & ->)|((_ & _ & Pr & Pc & _) & R & ->)]; rewrite Pc in G; rewrite Pr in P.
      + destruct (ca_procedure c); cbn [args_say] in G;
          try (destruct G as [Q Q']; rewrite Q in P; discriminate); try contradiction;
          try (destruct G as (Q & Q' & _); rewrite Q in P; discriminate);
          try (destruct G as (_ & Q & _); discriminate).
        destruct G as (_ & _ & _ & _ & s & [T _] & _). unfold reaches, even_length_at in T.
        rewrite N2Nat.inj_mul in T. change (N.to_nat 2) with 2%nat in T. lia.
      + destruct (ca_procedure c); cbn [args_say] in G;
          try (destruct G as [Q Q']; rewrite Q in P; discriminate); try contradiction;
          try (destruct G as (Q & Q' & _); rewrite Q in P; discriminate);
          try (destruct G as (_ & Q & _); discriminate);
          try (destruct G as (_ & Q); discriminate).
        destruct G as (_ & _ & T & _). unfold reaches, even_length_at in T.
        rewrite N2Nat.inj_mul in T. change (N.to_nat 2) with 2%nat in T. lia.
    - exfalso. destruct R as [_ R]. destruct A as [((_ & F & _) & _)|((_ & F & _) & _)]; congruence.
    - exact E.
    - exfalso. destruct d; [|unfold codec_decode in E; destruct (rpc_try_from _); discriminate].
      destruct A as [((F & _) & _)|((F & _) & _)]; unfold reaches in F; cbn in F; lia. }
  split; [exact E|]. split.
  { destruct A as [(_ & _ & ->)|(_ & _ & ->)].
    - pose proof (number_bound 92 d B). pose proof (N.mul_div_le (number_at 92 4 d) 2 ltac:(lia)). lia.
    - pose proof (number_bound 60 d B). pose proof (N.mul_div_le (number_at 60 4 d) 2 ltac:(lia)). lia. }
  split; [|split].
  - intros. unfold pm_turn. cbn [pi_datagram]. rewrite E. reflexivity.
  - intros. unfold ms_turn. cbn [mi_datagram]. rewrite E. reflexivity.
  - intros. unfold nfs_turn. cbn [ni_datagram]. rewrite E. destruct (sv_nfs s); reflexivity.
Qed.
Print Assumptions C94_too_much.

(** The claim that a datagram makes the program set aside no more than its own size
    is false, by far: these 96 bytes ask for four gigabytes, at any of the services,
    and so do these 64. *)
Definition greedy_lookup : bytes := plain_call 100003 4 ++ repeat 0 32 ++ [255; 255; 255; 255].
Definition greedy_mount : bytes := plain_call 100005 1 ++ [255; 255; 255; 255].
(** The claim that a datagram claims at most its own size is false. *)
Theorem C94_own_size_refuted :
  len greedy_lookup = 96 /\ announces_text greedy_lookup 4294967294 /\ datagram_room greedy_lookup = [32; 4294967294] /\
  len greedy_mount = 64 /\ announces_text greedy_mount 4294967294 /\ datagram_room greedy_mount = [4294967294].
Proof.
  assert (C : forall d a b, (60 <=? List.length d)%nat = true -> number_at 4 4 d = 0 -> number_at 12 4 d = a ->
    number_at 20 4 d = b -> number_at 52 4 d = 0 -> calls a b d).
  { intros d a b L H1 H2 H3 H4. split; [apply Nat.leb_le; exact L|]. repeat split; auto. }
  split; [reflexivity|]. split; [left; split; [apply C; reflexivity|split; [unfold reaches; vm_compute; lia|reflexivity]]|].
  split; [reflexivity|]. split; [reflexivity|].
  split; [right; split; [apply C; reflexivity|split; [unfold reaches; vm_compute; lia|reflexivity]]|]. reflexivity.
Qed.
Print Assumptions C94_own_size_refuted.

(** ** Reading files *)

Lemma calls_read : forall d h n, bytes_ok d ->
  (exists m c r, codec_decode d = Ok (Some m) /\ rpc_body m = Call c /\ ca_procedure c = NfsRead r /\
     h = rd_fhandle r /\ n = rd_count r) <-> asks_read d h n.
Proof.
  intros d h n B. split.
  - intros (m & c & r & E & Bc & P & -> & ->).
    destruct (codec_cases d B) as [(m' & c' & E' & C & Bc')|[(E' & _)|([E'|E'] & _)]]; rewrite E in E'; try discriminate.
    injection E' as <-. rewrite Bc in Bc'. injection Bc' as <-.
    destruct C as (c' & Bc' & R60 & _ & T & _ & Pr & _ & _ & Fl & G). rewrite Bc in Bc'. injection Bc' as <-.
    rewrite P in G. cbn [args_say] in G. destruct G as (Q & Q6 & R & H & _ & Ct & _).
    rewrite Q in Pr. unfold asks_read, calls. repeat split; auto. destruct Fl as [[Fl _]|[Fl _]]; auto.
  - intros ((R60 & T & Pr & Pc & Fl) & R & -> & ->).
    destruct (codec_cases d B) as [(m & c & E & C & Bc)|[(E & Rt & _)|(_ & NC & _)]].
    + destruct C as (c' & Bc' & _ & _ & _ & _ & Pr' & _ & _ & _ & G). rewrite Bc in Bc'. injection Bc' as <-.
      rewrite Pc in G. rewrite Pr in Pr'. exists m, c.
      destruct (ca_procedure c) as [| | | | | | | |l|r| | |] eqn:P; cbn [args_say] in G;
        try (destruct G as [Q Q']; rewrite Q in Pr'; discriminate); try contradiction;
        try (destruct G as (Q & Q' & _); rewrite Q in Pr'; discriminate);
        try (destruct G as (_ & Q & _); discriminate).
      destruct G as (_ & _ & _ & H & _ & Ct & _). exists r. repeat split; auto.
    + destruct Rt as [_ Rt]. congruence.
    + exfalso. apply (NC (mkRpc (number_at 0 4 d) (Call (mkCall (number_at 8 4 d) Nfs (number_at 16 4 d)
        (NfsRead (mkRead (slice 60 32 d) (number_at 92 4 d) (number_at 96 4 d) (number_at 100 4 d)))
        (mkCred (number_at 24 4 d) (number_at 28 4 d) (number_at 32 4 d)
          (number_at 36 4 d) (number_at 40 4 d) (number_at 44 4 d) (number_at 48 4 d))
        (if number_at 52 4 d =? 0 then AuthNull else AuthUnix))))).
      eexists. split; [reflexivity|].
      cbn [rpc_xid ca_version ca_program ca_program_version ca_credentials ca_verifier ca_procedure args_say
           rd_fhandle rd_offset rd_count rd_total].
      repeat split; auto. destruct Fl as [Fl|Fl]; rewrite Fl; [left|right]; split; reflexivity.
Qed.

(** A file service that has seen the history [hs] and is running sets aside, beside
    that, the number of bytes that a read asks for, if its handle is one of a file
    opened before; not what the file has. *)
Theorem C94_reading : forall e hs i n, history_ok hs -> never_killed e hs -> bytes_ok (ni_datagram i) ->
  In n (nfs_turn_room e i (fst (served e hs))) <->
  In n (datagram_room (ni_datagram i)) \/
  exists h f, asks_read (ni_datagram i) h n /\ handle_of_file e hs h f.
Proof.
  intros e hs i n H K B. unfold nfs_turn_room.
  destruct (served_state e hs H) as [(_ & s & -> & I)|[NK _]]; [|contradiction].
  rewrite in_app_iff. apply or_iff_compat_l. split.
  - intros In. destruct (codec_decode (ni_datagram i)) as [[m|]| |] eqn:E; try contradiction.
    destruct (rpc_body m) as [c|] eqn:Bc; [|contradiction]. unfold read_room in In.
    destruct (ca_procedure c) as [| | | | | | | |l|r| | |] eqn:P; try contradiction.
    assert (A : asks_read (ni_datagram i) (rd_fhandle r) (rd_count r))
      by (apply calls_read; [exact B|]; exists m, c, r; repeat split; assumption).
    assert (Ok : proc_ok (NfsRead r)).
    { destruct (codec_cases _ B) as [(m' & c' & E' & C & Bc')|[(E' & _)|([E'|E'] & _)]]; rewrite E in E'; try discriminate.
      injection E' as <-. rewrite <- P. exact (call_proc_ok _ _ _ B C Bc). }
    destruct Ok as (Hb & Hl & _).
    destruct (file_cases e hs s (rd_fhandle r) I Hb Hl) as [(f & G & O)|(G & _)]; rewrite G in In; [|contradiction].
    destruct In as [<-|[]]. exists (rd_fhandle r), f. split; assumption.
  - intros (h & f & A & O). apply calls_read in A; [|exact B]. destruct A as (m & c & r & E & Bc & P & -> & ->).
    rewrite E, Bc, P. cbn [read_room].
    assert (Ok : proc_ok (NfsRead r)).
    { destruct (codec_cases _ B) as [(m' & c' & E' & C & Bc')|[(E' & _)|([E'|E'] & _)]]; rewrite E in E'; try discriminate.
      injection E' as <-. rewrite <- P. exact (call_proc_ok _ _ _ B C Bc). }
    destruct Ok as (Hb & Hl & _).
    destruct (file_cases e hs s (rd_fhandle r) I Hb Hl) as [(f' & G & O')|(G & NO)]; [|elim (NO f O)].
    rewrite G. left. reflexivity.
Qed.
Print Assumptions C94_reading.

(** So no allocation announced by a datagram reaches 2^32 bytes. *)
Theorem C94_bound : forall d n, bytes_ok d ->
  (In n (datagram_room d) -> n < 2 ^ 32) /\ (forall h, asks_read d h n -> n < 2 ^ 32).
Proof.
  intros d n B. split.
  - intros H. apply room_in in H. destruct H as [(-> & _)|[(_ & _ & ->)|(_ & _ & ->)]].
    + reflexivity.
    + pose proof (number_bound 92 d B). pose proof (N.mul_div_le (number_at 92 4 d) 2 ltac:(lia)). lia.
    + pose proof (number_bound 60 d B). pose proof (N.mul_div_le (number_at 60 4 d) 2 ltac:(lia)). lia.
  - intros h (_ & _ & _ & ->). apply number_bound. exact B.
Qed.
Print Assumptions C94_bound.

(** ** What stays *)

(** Between datagrams a file service holds at most one reply, one it could not send:
    of 96 or 128 bytes, or a header and as many bytes as a read asked for. *)
Theorem C94_kept : forall e hs to b, sv_unsent (fst (served e hs)) = Some (to, b) ->
  exists i, In i (map fst hs) /\ ni_from i = to /\
    (len b = 96 \/ len b = 128 \/
     says_read (ni_datagram i) /\ len b = 4 * ((100 + number_at 96 4 (ni_datagram i) + 3) / 4)).
Proof.
  intros e hs. induction hs as [|x hs IH] using rev_ind; intros to b H; [discriminate|].
  rewrite served_snoc in H. cbn [fst] in H. rewrite map_app.
  assert (Old : sv_unsent (fst (served e hs)) = Some (to, b) ->
    exists i, In i (map fst hs ++ map fst [x]) /\ ni_from i = to /\
    (len b = 96 \/ len b = 128 \/
     says_read (ni_datagram i) /\ len b = 4 * ((100 + number_at 96 4 (ni_datagram i) + 3) / 4))).
  { intros E. destruct (IH to b E) as (i & Hi & R). exists i. split; [apply in_or_app; left; exact Hi|exact R]. }
  destruct (fst (served e hs)) as [sn u]. cbn [sv_unsent] in Old. unfold nfs_turn in H. cbn [sv_nfs sv_unsent] in H.
  destruct sn as [n|]; [|exact (Old H)].
  destruct (codec_decode (ni_datagram (fst x))) as [[m|]| |] eqn:E; try exact (Old H).
  destruct (rpc_body m) as [c|r] eqn:B; [|exact (Old H)].
  destruct (call_procedure e (ni_os (fst x)) (ca_procedure c) n) as [n' [reply| |]] eqn:C; try exact (Old H).
  pose proof (answer_size _ _ _ _ _ _ _ _ E B C) as S. unfold framed_send in H. cbn [snd fst] in H.
  assert (New : Some (ni_from (fst x), codec_encode (reply_to reply (rpc_xid m))) = Some (to, b) ->
    exists i, In i (map fst hs ++ map fst [x]) /\ ni_from i = to /\
    (len b = 96 \/ len b = 128 \/
     says_read (ni_datagram i) /\ len b = 4 * ((100 + number_at 96 4 (ni_datagram i) + 3) / 4))).
  { intros F. injection F as F1 F2. exists (fst x). split; [apply in_or_app; right; left; reflexivity|]. split; [exact F1|].
    rewrite <- F2. destruct S as [[S _]|[[S _]|(S1 & S2 & _)]]; auto. }
  destruct u as [old|].
  - destruct (send_to (ni_resend (fst x)) (snd old)); [|exact (Old H)].
    destruct (send_to (ni_send (fst x)) _); [discriminate|exact (New H)].
  - destruct (send_to (ni_send (fst x)) _); [discriminate|exact (New H)].
Qed.
Print Assumptions C94_kept.

(** A running service with one open file, of three bytes: the read asks for four
    gigabytes, and the reply that could not be sent stays. *)
Example C94_case :
  let d := plain_call 100003 6 ++ handle_for 7 ++ be 4 0 ++ be 4 4294967295 ++ be 4 0 in
  let small := plain_call 100003 6 ++ handle_for 7 ++ be 4 0 ++ be 4 1000 ++ be 4 0 in
  history_ok [open_a] /\ never_killed Little [open_a] /\ bytes_ok d /\ asks_read d (handle_for 7) 4294967295 /\
  nfs_turn_room Little (mkNfsIn d 5 demo true true) (fst (served Little [open_a])) = [32; 4294967295] /\
  option_map (fun u => len (snd u))
    (sv_unsent (fst (nfs_run Little [fst open_a; mkNfsIn small 5 demo true false] service_new))) = Some 1100.
Proof.
  destruct (open_a_well Little) as (H & K & _). cbv zeta. split; [exact H|]. split; [exact K|].
  split; [apply Forall_forall; intros x Hx; vm_compute in Hx; unfold is_byte; repeat (destruct Hx as [<-|Hx]; [reflexivity|]); contradiction|].
  split; [|split; vm_compute; reflexivity].
  split; [|split; [unfold reaches; vm_compute; lia|split; reflexivity]].
  split; [unfold reaches; vm_compute; lia|]. repeat split; try reflexivity. left. reflexivity.
Qed.
