(** Parsers at fixed offsets, and the keep-alive codec. *)

From Verif Require Import Base Unicode MPackets MKeepalive SUdp LBase LUnicode.
From Coq Require Import ZArith String.
Open Scope list_scope.
Open Scope N_scope.

(** ** Reading at an offset *)

Lemma skipn_skipn : forall A a b (l : list A), skipn a (skipn b l) = skipn (a + b) l.
Proof.
  intros A a b. revert a. induction b; intros a l.
  - rewrite Nat.add_0_r. reflexivity.
  - destruct l; [rewrite !skipn_nil; reflexivity|].
    rewrite Nat.add_succ_r. cbn [skipn]. apply IHb.
Qed.

Lemma slice_length : forall o n d, (o + n <= List.length d)%nat -> List.length (slice o n d) = n.
Proof. intros. unfold slice. rewrite firstn_length, skipn_length. lia. Qed.

Lemma take_at : forall n o d,
  take (N.of_nat n) (skipn o d) =
  if (o + n <=? List.length d)%nat then Ok (skipn (o + n) d, slice o n d)
  else if (n =? 0)%nat then Ok (skipn o d, []) else Err.
Proof.
  intros. unfold take. rewrite len_skipn, Nat2N.id. unfold len.
  destruct (Nat.leb_spec (o + n) (List.length d)) as [H|H].
  - destruct (N.ltb_spec (N.of_nat (List.length d) - N.of_nat o) (N.of_nat n)); [lia|].
    rewrite skipn_skipn, Nat.add_comm. reflexivity.
  - destruct (Nat.eqb_spec n 0) as [->|Hn].
    + destruct (N.ltb_spec (N.of_nat (List.length d) - N.of_nat o) (N.of_nat 0)); [lia|]. reflexivity.
    + destruct (N.ltb_spec (N.of_nat (List.length d) - N.of_nat o) (N.of_nat n)); [reflexivity|lia].
Qed.

(** With the datagram known to be long enough. *)
Lemma take_in : forall n k o d, k = N.of_nat n -> (o + n <= List.length d)%nat ->
  take k (skipn o d) = Ok (skipn (o + n) d, slice o n d).
Proof.
  intros n k o d -> H. rewrite take_at.
  destruct (Nat.leb_spec (o + n) (List.length d)); [reflexivity|lia].
Qed.
Lemma take_out : forall n k o d, k = N.of_nat n -> (0 < n)%nat -> (List.length d < o + n)%nat ->
  take k (skipn o d) = Err.
Proof.
  intros n k o d -> Hn H. rewrite take_at.
  destruct (Nat.leb_spec (o + n) (List.length d)); [lia|].
  destruct (Nat.eqb_spec n 0); [lia|reflexivity].
Qed.
Lemma uint_in : forall n k o d, k = N.of_nat n -> (o + n <= List.length d)%nat ->
  be_uint k (skipn o d) = Ok (skipn (o + n) d, number_at o n d).
Proof. intros. unfold be_uint. rewrite (take_in n) by assumption. reflexivity. Qed.
Lemma uint_out : forall n k o d, k = N.of_nat n -> (0 < n)%nat -> (List.length d < o + n)%nat ->
  be_uint k (skipn o d) = Err.
Proof. intros. unfold be_uint. rewrite (take_out n) by assumption. reflexivity. Qed.

Lemma slice_1 : forall o d, (o < List.length d)%nat -> slice o 1 d = [octet o d].
Proof.
  induction o; intros [|x d] H; cbn [List.length] in H; try lia; [reflexivity|].
  unfold slice, octet in *. cbn [skipn nth]. apply IHo. lia.
Qed.
Lemma number_at_1 : forall o d, (o < List.length d)%nat -> number_at o 1 d = octet o d.
Proof. intros. unfold number_at. rewrite slice_1 by assumption. reflexivity. Qed.
Lemma u8_in : forall o d, (o < List.length d)%nat ->
  be_u8 (skipn o d) = Ok (skipn (o + 1) d, octet o d).
Proof.
  intros. unfold be_u8. rewrite (uint_in 1) by (reflexivity || lia).
  rewrite number_at_1 by assumption. reflexivity.
Qed.
Lemma u8_out : forall o d, (List.length d <= o)%nat -> be_u8 (skipn o d) = Err.
Proof. intros. unfold be_u8. apply (uint_out 1); lia. Qed.

Lemma slice_split : forall o a b d, slice o (a + b) d = slice o a d ++ slice (o + a) b d.
Proof.
  intros. unfold slice. rewrite (Nat.add_comm o a), <- skipn_skipn.
  generalize (skipn o d). clear. induction a; intros l; [reflexivity|].
  destruct l; cbn [Nat.add firstn skipn app].
  - rewrite firstn_nil. reflexivity.
  - f_equal. apply IHa.
Qed.

Lemma count_u8_in : forall n o d, (o + n <= List.length d)%nat ->
  count be_u8 n (skipn o d) = Ok (skipn (o + n) d, slice o n d).
Proof.
  induction n; intros o d H; cbn [count].
  - rewrite Nat.add_0_r. reflexivity.
  - rewrite u8_in by lia. cbn [rbind]. rewrite IHn by lia. cbn [rbind].
    replace (o + 1 + n)%nat with (o + S n)%nat by lia.
    pose proof (slice_split o 1 n d) as E. rewrite slice_1 in E by lia.
    cbn [Nat.add app] in E. rewrite E. reflexivity.
Qed.
Lemma count_u8_out : forall n o d, (0 < n)%nat -> (List.length d < o + n)%nat ->
  count be_u8 n (skipn o d) = Err.
Proof.
  induction n; intros o d Hn H; [lia|]. cbn [count].
  destruct (le_lt_dec (List.length d) o).
  - rewrite u8_out by lia. reflexivity.
  - rewrite u8_in by lia. cbn [rbind]. destruct n; [lia|]. rewrite IHn by lia. reflexivity.
Qed.

Lemma slice_all : forall n d, List.length d = n -> slice 0 n d = d.
Proof. intros n d <-. apply firstn_all. Qed.
Lemma slice_app_l : forall n a b, List.length a = n -> slice 0 n (a ++ b) = a.
Proof.
  intros n a b <-. unfold slice. cbn [skipn].
  rewrite firstn_app, Nat.sub_diag, firstn_all, app_nil_r. reflexivity.
Qed.

Lemma tag_at0 : forall t d,
  (slice 0 (List.length t) d = t /\ tag t d = Ok (skipn (List.length t) d, tt)) \/
  (slice 0 (List.length t) d <> t /\ tag t d = Err).
Proof.
  intros. destruct (tag_cases t d) as [[r [-> E]]|[H E]].
  - left. split; [apply slice_app_l; reflexivity|].
    rewrite E, skipn_app, skipn_all, Nat.sub_diag. reflexivity.
  - right. split; [|assumption]. intros Hs. apply (H (skipn (List.length t) d)).
    rewrite <- Hs at 1. symmetry. apply (firstn_skipn (List.length t) d).
Qed.

Lemma slice_ok : forall o n d, bytes_ok d -> bytes_ok (slice o n d).
Proof. intros. apply bytes_ok_firstn, bytes_ok_skipn. assumption. Qed.
Lemma octet_ok : forall o d, bytes_ok d -> octet o d < 256.
Proof.
  intros o d H. unfold octet. destruct (le_lt_dec (List.length d) o).
  - rewrite nth_overflow by assumption. lia.
  - apply (proj1 (Forall_forall _ _) H). apply nth_In. assumption.
Qed.

(** ** Names *)

Lemma trim_nuls_spec : forall s,
  (forall t, trim_nuls s <> t ++ [0]) /\ exists n, s = trim_nuls s ++ repeat 0 n.
Proof.
  induction s as [|c s [IH1 [n IH2]]]; [split; [intros [|] H; discriminate|exists 0%nat; reflexivity]|].
  cbn [trim_nuls]. destruct (trim_nuls s) as [|x t] eqn:E.
  - destruct (N.eqb_spec c 0) as [->|Hc].
    + split; [intros [|] H; discriminate|]. exists (S n). cbn in *. congruence.
    + split.
      * intros [|y t] H; [cbn in H; congruence|]. destruct t; discriminate.
      * exists n. cbn in *. congruence.
  - split.
    + intros [|y u] H; [discriminate|]. cbn [app] in H. inversion H; subst.
      apply (IH1 u). assumption.
    + exists n. cbn [app] in *. congruence.
Qed.

Lemma app_nuls_unique : forall a b n m,
  (forall t, a <> t ++ [0]) -> (forall t, b <> t ++ [0]) ->
  a ++ repeat 0 n = b ++ repeat 0 m -> a = b.
Proof.
  assert (Hrep : forall k, repeat 0 (S k) = repeat 0 k ++ [0]).
  { intros. rewrite <- repeat_cons. reflexivity. }
  intros a b n. revert b. induction n; intros b [|m] Ha Hb E.
  - now rewrite !app_nil_r in E.
  - rewrite Hrep, app_nil_r, app_assoc in E. exfalso. eapply Ha. exact E.
  - rewrite Hrep, app_nil_r, app_assoc in E. exfalso. eapply Hb. symmetry. exact E.
  - rewrite !Hrep, !app_assoc in E. apply app_inj_tail in E. destruct E as [E _].
    eapply IHn; eassumption.
Qed.

Lemma trim_nuls_app : forall s n, (forall t, s <> t ++ [0]) -> trim_nuls (s ++ repeat 0 n) = s.
Proof.
  intros s n H. destruct (trim_nuls_spec (s ++ repeat 0 n)) as [H1 [m H2]].
  symmetry. eapply app_nuls_unique; eassumption.
Qed.

Lemma utf8_nuls : forall n, utf8_encode (repeat 0 n) = repeat 0 n.
Proof. induction n; [reflexivity|]. cbn [repeat]. rewrite utf8_encode_cons, IHn. reflexivity. Qed.

Lemma str_ok_app : forall a b, str_ok (a ++ b) <-> str_ok a /\ str_ok b.
Proof. intros. apply Forall_app. Qed.
Lemma str_ok_nuls : forall n, str_ok (repeat 0 n).
Proof. intros. apply Forall_forall. intros x H. apply repeat_spec in H. subst. reflexivity. Qed.

(** What the decoder makes of a 20-byte field. *)
Lemma name_field_decode : forall b s,
  name_field b s <-> exists u, utf8_decode b = Some u /\ trim_nuls u = s.
Proof.
  intros b s. split.
  - intros (Hs & Ht & n & ->). exists (s ++ repeat 0 n). split; [|apply trim_nuls_app; assumption].
    rewrite <- (utf8_nuls n) at 1. rewrite <- utf8_encode_app. apply utf8_decode_encode.
    apply str_ok_app. split; [assumption|apply str_ok_nuls].
  - intros (u & Hu & <-). apply utf8_decode_some in Hu. destruct Hu as [<- Hu].
    destruct (trim_nuls_spec u) as [H1 [n H2]]. split; [|split; [exact H1|]].
    + rewrite H2 in Hu. apply str_ok_app in Hu. tauto.
    + exists n. rewrite H2 at 1. rewrite utf8_encode_app, utf8_nuls. reflexivity.
Qed.

Lemma name_field_functional : forall b s t, name_field b s -> name_field b t -> s = t.
Proof.
  intros b s t H1 H2. apply name_field_decode in H1. apply name_field_decode in H2.
  destruct H1 as (u & E1 & <-), H2 as (v & E2 & <-). congruence.
Qed.

Lemma utf8_text_decode : forall b, utf8_text b <-> utf8_decode b <> None.
Proof.
  intros b. split.
  - intros (s & Hs & <-). rewrite utf8_decode_encode by assumption. discriminate.
  - intros H. destruct (utf8_decode b) as [s|] eqn:E; [|congruence].
    apply utf8_decode_some in E. exists s. tauto.
Qed.

Lemma utf8_text_name : forall b, utf8_text b <-> exists s, name_field b s.
Proof.
  intros b. rewrite utf8_text_decode. split.
  - intros H. destruct (utf8_decode b) as [u|] eqn:E; [|congruence].
    exists (trim_nuls u). apply name_field_decode. eauto.
  - intros (s & H). apply name_field_decode in H. destruct H as (u & E & _). congruence.
Qed.

Lemma model_in : forall o d, (o + 20 <= List.length d)%nat ->
  (exists s, name_field (slice o 20 d) s /\ model_decode (skipn o d) = Ok (skipn (o + 20) d, s)) \/
  (~ utf8_text (slice o 20 d) /\ model_decode (skipn o d) = Err).
Proof.
  intros o d H. unfold model_decode. rewrite (take_in 20) by (reflexivity || assumption).
  cbn [rbind]. destruct (utf8_decode (slice o 20 d)) as [u|] eqn:E.
  - left. exists (trim_nuls u). split; [apply name_field_decode; eauto|reflexivity].
  - right. split; [|reflexivity]. intros T. apply utf8_text_decode in T. congruence.
Qed.
Lemma model_out : forall o d, (List.length d < o + 20)%nat -> model_decode (skipn o d) = Err.
Proof. intros. unfold model_decode. rewrite (take_out 20) by (reflexivity || lia). reflexivity. Qed.

(** ** Keep-alive datagrams *)

Ltac by_bits v :=
  destruct v as [|v]; try reflexivity; try congruence;
  do 7 (try (destruct v as [v|v|]; try reflexivity; try congruence)).

Lemma kind_size_some : forall v n, kind_size v = Some n ->
  (37 <= n)%nat /\ exists k, v = kind_code k.
Proof.
  intros v n H.
  destruct (N.eq_dec v 0x0a) as [->|]; [inversion H; split; [lia|exists KaHello; reflexivity]|].
  destruct (N.eq_dec v 0x04) as [->|]; [inversion H; split; [lia|exists KaNumber; reflexivity]|].
  destruct (N.eq_dec v 0x00) as [->|]; [inversion H; split; [lia|exists KaMac; reflexivity]|].
  destruct (N.eq_dec v 0x02) as [->|]; [inversion H; split; [lia|exists KaIp; reflexivity]|].
  destruct (N.eq_dec v 0x06) as [->|]; [inversion H; split; [lia|exists KaStatus; reflexivity]|].
  destruct (N.eq_dec v 0x08) as [->|]; [inversion H; split; [lia|exists KaChange; reflexivity]|].
  exfalso. assert (E : kind_size v = None) by (clear H; by_bits v). congruence.
Qed.

Lemma kind_in : forall o d, (o < List.length d)%nat ->
  (exists k, octet o d = kind_code k /\ ka_kind_decode (skipn o d) = Ok (skipn (o + 1) d, k)) \/
  ((forall k, octet o d <> kind_code k) /\ ka_kind_decode (skipn o d) = Err).
Proof.
  intros o d H. unfold ka_kind_decode. rewrite (take_in 1) by (reflexivity || lia).
  cbn [rbind]. rewrite slice_1 by assumption. cbn [nth].
  generalize (octet o d) as v. intros v.
  destruct (N.eq_dec v 0x0a) as [->|]; [left; exists KaHello; split; reflexivity|].
  destruct (N.eq_dec v 0x04) as [->|]; [left; exists KaNumber; split; reflexivity|].
  destruct (N.eq_dec v 0x00) as [->|]; [left; exists KaMac; split; reflexivity|].
  destruct (N.eq_dec v 0x02) as [->|]; [left; exists KaIp; split; reflexivity|].
  destruct (N.eq_dec v 0x06) as [->|]; [left; exists KaStatus; split; reflexivity|].
  destruct (N.eq_dec v 0x08) as [->|]; [left; exists KaChange; split; reflexivity|].
  right. split; [intros []; cbn; assumption|].
  by_bits v.
Qed.

Lemma device_in : forall o d, (o < List.length d)%nat ->
  (exists t, octet o d = device_code t /\ device_type_decode (skipn o d) = Ok (skipn (o + 1) d, t)) \/
  (~ (1 <= octet o d <= 3) /\ device_type_decode (skipn o d) = Err).
Proof.
  intros o d H. unfold device_type_decode. rewrite u8_in by assumption.
  cbn [rbind]. generalize (octet o d) as v. intros v.
  destruct (N.eq_dec v 1) as [->|]; [left; exists DevDjm; split; reflexivity|].
  destruct (N.eq_dec v 2) as [->|]; [left; exists DevCdj; split; reflexivity|].
  destruct (N.eq_dec v 3) as [->|]; [left; exists DevRekordbox; split; reflexivity|].
  right. split; [lia|].
  by_bits v.
Qed.

Lemma assignment_in : forall o d, (o < List.length d)%nat ->
  (exists a, octet o d = (match a with AssignAuto => 1 | AssignManual => 2 end) /\
             assignment_decode (skipn o d) = Ok (skipn (o + 1) d, a)) \/
  (~ (1 <= octet o d <= 2) /\ assignment_decode (skipn o d) = Err).
Proof.
  intros o d H. unfold assignment_decode. rewrite u8_in by assumption.
  cbn [rbind]. generalize (octet o d) as v. intros v.
  destruct (N.eq_dec v 1) as [->|]; [left; exists AssignAuto; split; reflexivity|].
  destruct (N.eq_dec v 2) as [->|]; [left; exists AssignManual; split; reflexivity|].
  right. split; [lia|].
  by_bits v.
Qed.

Lemma sub_in : forall o d, (o < List.length d)%nat ->
  exists s, sub_means (octet o d) s /\ ka_sub_decode (skipn o d) = Ok (skipn (o + 1) d, s).
Proof.
  intros o d H. unfold ka_sub_decode. rewrite (take_in 1) by (reflexivity || lia).
  cbn [rbind]. rewrite slice_1 by assumption. cbn [nth].
  generalize (octet o d) as v. intros v.
  destruct (N.eq_dec v 0x25) as [->|]; [exists SubHello; split; reflexivity|].
  destruct (N.eq_dec v 0x26) as [->|]; [exists SubNumber; split; reflexivity|].
  destruct (N.eq_dec v 0x2c) as [->|]; [exists SubMac; split; reflexivity|].
  destruct (N.eq_dec v 0x32) as [->|]; [exists SubIp; split; reflexivity|].
  destruct (N.eq_dec v 0x36) as [->|]; [exists SubStatus; split; reflexivity|].
  destruct (N.eq_dec v 0x29) as [->|]; [exists SubChange; split; reflexivity|].
  destruct (N.eq_dec v 0x00) as [->|]; [exists SubStatusMixer; split; reflexivity|].
  exists (SubUnknown v). split.
  - cbn. split; [reflexivity|]. intros [?|[?|[?|[?|[?|[?|[?|[]]]]]]]]; congruence.
  - destruct v as [|v]; [congruence|].
    do 7 (try (destruct v as [v|v|]; try reflexivity; try congruence)).
Qed.

Lemma sub_means_functional : forall v s t, sub_means v s -> sub_means v t -> s = t.
Proof.
  intros v s t H1 H2.
  destruct s, t; cbn in H1, H2; try reflexivity;
    repeat match goal with H : _ /\ _ |- _ => destruct H end; subst;
    try reflexivity; try discriminate;
    exfalso; match goal with H : ~ _ |- _ => apply H; tauto end.
Qed.

Lemma kind_code_inj : forall a b, kind_code a = kind_code b -> a = b.
Proof. intros [] []; cbn; congruence. Qed.
Lemma device_code_inj : forall a b, device_code a = device_code b -> a = b.
Proof. intros [] []; cbn; congruence. Qed.

Lemma ka_fields_functional : forall d k c c', ka_fields d k c -> ka_fields d k c' -> c = c'.
Proof.
  intros d k c c' H1 H2.
  destruct k, c; cbn in H1; try contradiction; destruct c'; cbn in H2; try contradiction;
    repeat match goal with H : _ /\ _ |- _ => destruct H end; subst; try reflexivity.
  f_equal. destruct player_number_assignment, player_number_assignment0; congruence.
Qed.

Lemma ka_says_functional : forall d p q, ka_says d p -> ka_says d q -> p = q.
Proof.
  intros d [k s m u t c] [k' s' m' u' t' c'] H1 H2. unfold ka_says in *. cbn in *.
  destruct H1 as (_ & K1 & N1 & U1 & D1 & S1 & F1), H2 as (_ & K2 & N2 & U2 & D2 & S2 & F2).
  assert (k = k') by (apply kind_code_inj; congruence). subst k'.
  assert (t = t') by (apply device_code_inj; congruence). subst t'.
  f_equal; try congruence.
  - eapply sub_means_functional; eassumption.
  - eapply name_field_functional; eassumption.
  - eapply ka_fields_functional; eassumption.
Qed.

Lemma ka_fields_reach : forall d k c, ka_fields d k c -> reaches 37 d.
Proof.
  intros d k c H. unfold reaches. destruct k, c; cbn in H; try contradiction;
    unfold reaches in H; destruct H as [H _]; lia.
Qed.

Ltac at_step :=
  first [ rewrite u8_in by lia | rewrite u8_out by lia
        | rewrite (take_in 1) by (reflexivity || lia) | rewrite (take_out 1) by (reflexivity || lia)
        | rewrite (take_in 2) by (reflexivity || lia) | rewrite (take_out 2) by (reflexivity || lia)
        | rewrite count_u8_in by lia | rewrite count_u8_out by lia ].

Lemma content_cases : forall k d, (36 <= List.length d)%nat ->
  (exists c r, ka_fields d k c /\ ka_decode_content k (skipn 36 d) = Ok (r, c)) \/
  ((forall c, ~ ka_fields d k c) /\ ka_decode_content k (skipn 36 d) = Err /\
   (kind_size (kind_code k) = None \/
    (exists n, kind_size (kind_code k) = Some n /\ ~ reaches n d) \/
    (k = KaIp /\ ~ (1 <= octet 49 d <= 2)))).
Proof.
  intros k d H36. unfold reaches.
  destruct k; unfold ka_decode_content, ka_hello_decode, ka_number_decode, ka_mac_decode,
    ka_ip_decode, ka_status_decode, ka_change_decode, mac_decode, ipv4_decode, be_u32, be_u16;
    cbn [kind_code kind_size].
  - destruct (le_lt_dec 37 (List.length d)) as [H|H].
    + left. repeat (at_step; cbn [rbind Nat.add]). do 2 eexists. split; [|reflexivity].
      cbn. unfold reaches. auto.
    + right. split; [intros [] F; cbn in F; unfold reaches in F; try contradiction; lia|].
      split; [repeat (at_step; cbn [rbind Nat.add]); reflexivity|right; left; eexists; split; [reflexivity|lia]].
  - destruct (le_lt_dec 38 (List.length d)) as [H|H].
    + left. repeat (at_step; cbn [rbind Nat.add]). do 2 eexists. split; [|reflexivity].
      cbn. unfold reaches. auto.
    + right. split; [intros [] F; cbn in F; unfold reaches in F; try contradiction; lia|].
      split; [|right; left; eexists; split; [reflexivity|lia]].
      destruct (le_lt_dec 37 (List.length d)); repeat (at_step; cbn [rbind Nat.add]); reflexivity.
  - destruct (le_lt_dec 44 (List.length d)) as [H|H].
    + left. repeat (at_step; cbn [rbind Nat.add]). do 2 eexists. split; [|reflexivity].
      cbn. unfold reaches. auto.
    + right. split; [intros [] F; cbn in F; unfold reaches in F; try contradiction; lia|].
      split; [|right; left; eexists; split; [reflexivity|lia]].
      destruct (le_lt_dec 37 (List.length d)), (le_lt_dec 38 (List.length d));
        repeat (at_step; cbn [rbind Nat.add]); reflexivity || lia.
  - destruct (le_lt_dec 50 (List.length d)) as [H|H].
    + rewrite (uint_in 4) by (reflexivity || lia). cbn [rbind Nat.add].
      repeat (at_step; cbn [rbind Nat.add]).
      destruct (assignment_in 49 d) as [(a & Ha & E)|[Ha E]]; [lia| |]; rewrite E; cbn [rbind].
      * left. do 2 eexists. split; [|reflexivity]. cbn. unfold reaches. auto 10.
      * right. split; [|split; [reflexivity|right; right; auto]].
        intros [] F; cbn in F; try contradiction. apply Ha.
        destruct player_number_assignment; lia.
    + right. split; [intros [] F; cbn in F; unfold reaches in F; try contradiction; lia|].
      split; [|right; left; eexists; split; [reflexivity|lia]].
      destruct (le_lt_dec 40 (List.length d));
        [rewrite (uint_in 4) by (reflexivity || lia)|rewrite (uint_out 4) by (reflexivity || lia); reflexivity].
      cbn [rbind Nat.add].
      destruct (le_lt_dec 46 (List.length d)); [|rewrite count_u8_out by lia; reflexivity].
      destruct (le_lt_dec 47 (List.length d)), (le_lt_dec 48 (List.length d)), (le_lt_dec 49 (List.length d));
        try lia; repeat (at_step; cbn [rbind Nat.add]); try reflexivity.
      unfold assignment_decode. rewrite u8_out by lia. reflexivity.
  - destruct (le_lt_dec 54 (List.length d)) as [H|H].
    + repeat (at_step; cbn [rbind Nat.add]).
      rewrite (uint_in 4) by (reflexivity || lia). cbn [rbind Nat.add].
      repeat (at_step; cbn [rbind Nat.add]).
      rewrite (uint_in 2) by (reflexivity || lia). cbn [rbind Nat.add].
      repeat (at_step; cbn [rbind Nat.add]).
      left. do 2 eexists. split; [|reflexivity]. cbn. unfold reaches. auto 10.
    + right. split; [intros [] F; cbn in F; unfold reaches in F; try contradiction; lia|].
      split; [|right; left; eexists; split; [reflexivity|lia]].
      destruct (le_lt_dec 37 (List.length d)); [|repeat (at_step; cbn [rbind Nat.add]); reflexivity].
      destruct (le_lt_dec 38 (List.length d)); [|repeat (at_step; cbn [rbind Nat.add]); reflexivity].
      destruct (le_lt_dec 44 (List.length d)); [|repeat (at_step; cbn [rbind Nat.add]); reflexivity].
      repeat (at_step; cbn [rbind Nat.add]).
      destruct (le_lt_dec 48 (List.length d));
        [rewrite (uint_in 4) by (reflexivity || lia)|rewrite (uint_out 4) by (reflexivity || lia); reflexivity].
      cbn [rbind Nat.add].
      destruct (le_lt_dec 49 (List.length d)); [|repeat (at_step; cbn [rbind Nat.add]); reflexivity].
      destruct (le_lt_dec 51 (List.length d)); [|repeat (at_step; cbn [rbind Nat.add]); reflexivity].
      repeat (at_step; cbn [rbind Nat.add]).
      destruct (le_lt_dec 53 (List.length d));
        [rewrite (uint_in 2) by (reflexivity || lia)|rewrite (uint_out 2) by (reflexivity || lia); reflexivity].
      cbn [rbind Nat.add]. at_step. reflexivity.
  - destruct (le_lt_dec 41 (List.length d)) as [H|H].
    + at_step. cbn [rbind Nat.add]. rewrite (uint_in 4) by (reflexivity || lia). cbn [rbind Nat.add].
      left. do 2 eexists. split; [|reflexivity]. cbn. unfold reaches. auto.
    + right. split; [intros [] F; cbn in F; unfold reaches in F; try contradiction; lia|].
      split; [|right; left; eexists; split; [reflexivity|lia]].
      destruct (le_lt_dec 37 (List.length d)); at_step; [|reflexivity]. cbn [rbind Nat.add].
      rewrite (uint_out 4) by (reflexivity || lia). reflexivity.
Qed.

Lemma ka_cases : forall d,
  (exists p, ka_says d p /\ ka_try_from d = Ok p) \/
  ((forall p, ~ ka_says d p) /\ ~ ka_acceptable d /\ ka_try_from d = Err).
Proof.
  intros d. unfold ka_try_from, ka_decode, magic_decode.
  change UDP_MAGIC with (lit "Qspt1WmJOL").
  destruct (tag_at0 (lit "Qspt1WmJOL") d) as [[T E]|[T E]]; rewrite E; cbn [rbind].
  2:{ right. split; [intros p S; apply T, S|]. split; [intros S; apply T, S|reflexivity]. }
  change (List.length (lit "Qspt1WmJOL")) with 10%nat in *.
  assert (Hacc : ka_acceptable d -> reaches 37 d).
  { intros (_ & (n & Hn & Hr) & _). unfold reaches in *.
    apply kind_size_some in Hn. lia. }
  destruct (le_lt_dec (List.length d) 10) as [L10|L10].
  { right. split; [intros p (_ & _ & _ & _ & _ & _ & F); apply ka_fields_reach in F; unfold reaches in F; lia|].
    split; [intros A; apply Hacc in A; unfold reaches in A; lia|].
    unfold ka_kind_decode. rewrite (take_out 1) by (reflexivity || lia). reflexivity. }
  destruct (kind_in 10 d L10) as [(k & Hk & Ek)|[Hk Ek]]; rewrite Ek; cbn [rbind Nat.add].
  2:{ right. split; [intros p (_ & K & _); eapply Hk; exact K|]. split; [|reflexivity].
      intros (_ & (n & Hn & _) & _).
      apply kind_size_some in Hn. destruct Hn as [_ [k Hn]]. eapply Hk. exact Hn. }
  destruct (le_lt_dec 37 (List.length d)) as [L37|L37].
  2:{ right. split; [intros p (_ & _ & _ & _ & _ & _ & F); apply ka_fields_reach in F; unfold reaches in F; lia|].
      split; [intros A; apply Hacc in A; unfold reaches in A; lia|].
      destruct (le_lt_dec 12 (List.length d)); at_step; [|reflexivity]. cbn [rbind Nat.add].
      destruct (le_lt_dec 32 (List.length d)); [|rewrite model_out by lia; reflexivity].
      destruct (model_in 12 d) as [(s & _ & E2)|[_ E2]]; [lia| |]; rewrite E2; cbn [rbind Nat.add]; [|reflexivity].
      destruct (le_lt_dec 33 (List.length d)); at_step; [|reflexivity]. cbn [rbind Nat.add].
      destruct (le_lt_dec 34 (List.length d)); [|unfold device_type_decode; rewrite u8_out by lia; reflexivity].
      destruct (device_in 33 d) as [(t & _ & E3)|[_ E3]]; [lia| |]; rewrite E3; cbn [rbind Nat.add]; [|reflexivity].
      destruct (le_lt_dec 35 (List.length d)); at_step; [|reflexivity]. cbn [rbind Nat.add].
      destruct (le_lt_dec 36 (List.length d));
        [|unfold ka_sub_decode; rewrite (take_out 1) by (reflexivity || lia); reflexivity].
      destruct (sub_in 35 d) as (s2 & _ & E4); [lia|]. rewrite E4. cbn [rbind Nat.add].
      destruct (content_cases k d) as [(c & r & F & E5)|(_ & E5 & _)]; [lia| |]; rewrite E5.
      - apply ka_fields_reach in F. unfold reaches in F. lia.
      - reflexivity. }
  at_step. cbn [rbind Nat.add].
  destruct (model_in 12 d) as [(s & Hs & E2)|[Hs E2]]; [lia| |]; rewrite E2; cbn [rbind Nat.add].
  2:{ right. split; [intros p (_ & _ & Nm & _); apply Hs; apply utf8_text_name; eauto|].
      split; [intros (_ & _ & U & _); contradiction|reflexivity]. }
  at_step. cbn [rbind Nat.add].
  destruct (device_in 33 d) as [(t & Ht & E3)|[Ht E3]]; [lia| |]; rewrite E3; cbn [rbind Nat.add].
  2:{ right. split; [intros p (_ & _ & _ & _ & Dv & _); apply Ht; rewrite Dv; destruct (ka_device p); cbn; lia|].
      split; [intros (_ & _ & _ & U & _); contradiction|reflexivity]. }
  at_step. cbn [rbind Nat.add].
  destruct (sub_in 35 d) as (s2 & Hs2 & E4); [lia|]. rewrite E4. cbn [rbind Nat.add].
  destruct (content_cases k d) as [(c & r & F & E5)|(F & E5 & W)]; [lia| |]; rewrite E5; cbn [rbind].
  - left. exists (mkKa k s2 s (octet 32 d) t c). split; [|reflexivity].
    unfold ka_says. cbn [ka_kind_of ka_model ka_unknown1 ka_device ka_subkind ka_content_of]. auto 10.
  - right. split; [intros p (_ & K & _ & _ & _ & _ & F2)|split; [|reflexivity]].
    + assert (ka_kind_of p = k) by (apply kind_code_inj; congruence). subst k. eapply F. exact F2.
    + intros (_ & (n & Hn & Hr) & _ & _ & A). rewrite Hk in Hn, A.
      destruct W as [W|[(m & W1 & W2)|[-> W]]]; [congruence| |].
      * rewrite Hn in W1. inversion W1; subst. contradiction.
      * apply W, A. reflexivity.
Qed.

Lemma ka_try_from_iff : forall d p, ka_try_from d = Ok p <-> ka_says d p.
Proof.
  intros d p. destruct (ka_cases d) as [(q & S & E)|(S & _ & E)]; rewrite E; split; intro H.
  - inversion H; subst. assumption.
  - f_equal. eapply ka_says_functional; eassumption.
  - discriminate.
  - exfalso. eapply S. exact H.
Qed.

Lemma slice_firstn : forall o n m d, (o + n <= m)%nat -> slice o n (firstn m d) = slice o n d.
Proof.
  intros o n m d H. unfold slice. rewrite skipn_firstn_comm, firstn_firstn.
  f_equal. lia.
Qed.
Lemma octet_firstn : forall o m d, (o < m)%nat -> octet o (firstn m d) = octet o d.
Proof.
  intros o m d H. unfold octet. revert m d H. induction o; intros [|m] [|x d] H; try lia; try reflexivity.
  cbn [firstn nth]. apply IHo. lia.
Qed.
Lemma reaches_firstn : forall n m d, (n <= m)%nat -> (reaches n (firstn m d) <-> reaches n d).
Proof. intros n m d H. unfold reaches. rewrite firstn_length. lia. Qed.

Lemma ka_says_firstn : forall m d p, (54 <= m)%nat -> ka_says (firstn m d) p <-> ka_says d p.
Proof.
  intros m d p H. unfold ka_says.
  rewrite !slice_firstn, !octet_firstn by lia.
  assert (F : ka_fields (firstn m d) (ka_kind_of p) (ka_content_of p) <->
              ka_fields d (ka_kind_of p) (ka_content_of p)).
  { unfold ka_fields, number_at.
    destruct (ka_kind_of p), (ka_content_of p); try reflexivity;
      rewrite reaches_firstn, ?octet_firstn, ?slice_firstn by lia; reflexivity. }
  rewrite F. reflexivity.
Qed.

Lemma ka_receive_whole : forall d, ka_receive d = ka_try_from d.
Proof.
  intros d. unfold ka_receive.
  destruct (ka_cases d) as [(q & S & E)|(S & _ & E)]; rewrite E.
  - apply ka_try_from_iff. apply ka_says_firstn; [lia|assumption].
  - destruct (ka_cases (firstn 1024 d)) as [(q & S2 & E2)|(_ & _ & E2)]; [|assumption].
    exfalso. apply (S q). apply (ka_says_firstn 1024 d q); [lia|assumption].
Qed.

(** ** Encoding *)

Lemma zeros_up_to_le : forall a b, b <= a -> zeros_up_to a b = Ok (repeat 0 (N.to_nat (a - b))).
Proof. intros. unfold zeros_up_to. destruct (N.leb_spec b a); [reflexivity|lia]. Qed.
Lemma zeros_up_to_gt : forall a b, a < b -> zeros_up_to a b = Panic.
Proof. intros. unfold zeros_up_to. destruct (N.leb_spec b a); [lia|reflexivity]. Qed.

Lemma model_encode_short : forall s, len (utf8_encode s) <= 20 ->
  exists n, model_encode s = Ok (utf8_encode s ++ repeat 0 n) /\
            len (utf8_encode s ++ repeat 0 n) = 20.
Proof.
  intros s H. exists (N.to_nat (20 - len (utf8_encode s))). unfold model_encode.
  rewrite zeros_up_to_le by assumption. split; [reflexivity|].
  rewrite len_app, len_repeat. lia.
Qed.
Lemma model_encode_long : forall s, 20 < len (utf8_encode s) -> model_encode s = Panic.
Proof. intros s H. unfold model_encode. rewrite zeros_up_to_gt by assumption. reflexivity. Qed.

(** A list of a known length, element by element. *)
Ltac explode l H :=
  repeat (destruct l as [|? l]; [discriminate H|rewrite len_cons in H]);
  idtac.

Lemma len4 : forall l : bytes, len l = 4 -> exists a b c d, l = [a; b; c; d].
Proof.
  intros [|a [|b [|c [|d [|e l]]]]] H; rewrite ?len_cons, ?len_nil in H; try lia.
  do 4 eexists. reflexivity.
Qed.
Lemma len6 : forall l : bytes, len l = 6 -> exists a b c d e f, l = [a; b; c; d; e; f].
Proof.
  intros [|a [|b [|c [|d [|e [|f [|g l]]]]]]] H; rewrite ?len_cons, ?len_nil in H; try lia.
  do 6 eexists. reflexivity.
Qed.
Lemma len2 : forall l : bytes, len l = 2 -> exists a b, l = [a; b].
Proof.
  intros [|a [|b [|c l]]] H; rewrite ?len_cons, ?len_nil in H; try lia.
  do 2 eexists. reflexivity.
Qed.

Lemma slice_mid : forall o n a b c, List.length a = o -> List.length b = n ->
  slice o n (a ++ b ++ c) = b.
Proof.
  intros o n a b c <- <-. unfold slice. rewrite skipn_app, skipn_all, Nat.sub_diag. cbn [app skipn].
  rewrite firstn_app, firstn_all, Nat.sub_diag, app_nil_r. reflexivity.
Qed.
Lemma octet_mid : forall o a x c, List.length a = o -> octet o (a ++ x :: c) = x.
Proof.
  intros o a x c <-. unfold octet. rewrite app_nth2, Nat.sub_diag by lia. reflexivity.
Qed.
Lemma slice_skip : forall o n a b, (List.length a <= o)%nat ->
  slice o n (a ++ b) = slice (o - List.length a) n b.
Proof.
  intros o n a b H. unfold slice. rewrite skipn_app, (skipn_all2 a) by assumption. reflexivity.
Qed.
Lemma octet_skip : forall o a b, (List.length a <= o)%nat ->
  octet o (a ++ b) = octet (o - List.length a) b.
Proof. intros. unfold octet. rewrite app_nth2 by lia. reflexivity. Qed.

(** The bytes of an encoded packet: 36 of header, then the content. *)
Definition ka_header (p : ka_packet) (name : bytes) : bytes :=
  lit "Qspt1WmJOL" ++ [kind_code (ka_kind_of p)] ++ [0] ++ name ++ [ka_unknown1 p]
  ++ [device_code (ka_device p)] ++ [0] ++ ka_sub_encode (ka_subkind p).

Lemma ka_encode_header : forall p name, model_encode (ka_model p) = Ok name ->
  ka_encode p = Ok (ka_header p name ++ ka_content_encode (ka_content_of p)).
Proof.
  intros p name H. unfold ka_encode. rewrite H. cbn [rbind]. f_equal.
  unfold ka_header. change (lit "Qspt1WmJOL") with UDP_MAGIC.
  replace (ka_kind_encode (ka_kind_of p)) with [kind_code (ka_kind_of p)]
    by (destruct (ka_kind_of p); reflexivity).
  replace (device_type_encode (ka_device p)) with [device_code (ka_device p)]
    by (destruct (ka_device p); reflexivity).
  rewrite <- !app_assoc. reflexivity.
Qed.

Lemma len_nat : forall (l : bytes) n, len l = N.of_nat n -> List.length l = n.
Proof. unfold len. intros. lia. Qed.

(** The header says what it should, whatever follows. *)
Lemma ka_header_facts : forall p name rest, len name = 20 ->
  let d := ka_header p name ++ rest in
  slice 0 10 d = lit "Qspt1WmJOL" /\
  octet 10 d = kind_code (ka_kind_of p) /\
  slice 12 20 d = name /\
  octet 32 d = ka_unknown1 p /\
  octet 33 d = device_code (ka_device p) /\
  [octet 35 d] = ka_sub_encode (ka_subkind p) /\
  List.length (ka_header p name) = 36%nat.
Proof.
  intros p name rest Hn d. apply (len_nat _ 20) in Hn.
  do 20 (destruct name as [|? name]; [discriminate Hn|]).
  destruct name; [|discriminate Hn]. unfold d, ka_header.
  repeat split; reflexivity || (destruct (ka_subkind p); reflexivity).
Qed.

Lemma sub_means_code : forall s,
  sub_means (nth 0 (ka_sub_encode s) 0) s <->
  match s with
  | SubUnknown v => ~ In v [0x25; 0x26; 0x2c; 0x32; 0x36; 0x29; 0x00]
  | _ => True
  end.
Proof. intros s. destruct s; cbn [ka_sub_encode nth sub_means]; tauto. Qed.

Lemma map_sequence_self : forall i, i = map_sequence_byte i <-> i = 0x2c.
Proof.
  intros i. unfold map_sequence_byte.
  repeat match goal with |- context [if ?a =? ?b then _ else _] => destruct (N.eqb_spec a b) end;
    split; intro H; subst; try reflexivity; try discriminate; congruence.
Qed.

Lemma ka_fields_encoded : forall h k c, List.length h = 36%nat -> content_typed c ->
  (ka_fields (h ++ ka_content_encode c) k c <->
   match k, c with
   | KaHello, CHello _ => True
   | KaNumber, CNumber _ _ => True
   | KaMac, CMac _ _ _ => True
   | KaIp, CIp _ _ iteration index _ => iteration = 0x2c /\ index = 0x2c
   | KaStatus, CStatus _ _ _ _ _ _ u4 => u4 = 8
   | KaChange, CChange _ _ => True
   | _, _ => False
   end).
Proof.
  intros h k c Hh Ht.
  assert (R : forall n r, (n <= 36 + List.length r)%nat -> reaches n (h ++ r)).
  { intros. unfold reaches. rewrite app_length. lia. }
  destruct k, c; cbn [ka_fields]; try reflexivity; cbn [content_typed] in Ht;
    unfold number_at; rewrite ?octet_skip, ?slice_skip, Hh by lia; cbn [Nat.sub].
  - split; [intros _; exact I|]. intros _. split; [apply R; cbn; lia|reflexivity].
  - split; [intros _; exact I|]. intros _. split; [apply R; cbn; lia|split; reflexivity].
  - destruct Ht as (_ & _ & Hm & _). apply len6 in Hm. destruct Hm as (a & b & c & d & e & f & ->).
    split; [intros _; exact I|]. intros _. split; [apply R; cbn; lia|repeat split; reflexivity].
  - destruct Ht as (Hip & Hm & _). apply len6 in Hm. destruct Hm as (a & b & c & d & e & f & ->).
    cbn [ka_content_encode]. unfold ip_addr_to_bytes.
    destruct (len4 (be 4 ip_addr)) as (i1 & i2 & i3 & i4 & Ei); [apply be_len|].
    pose proof (of_be_be_small 4 ip_addr Hip) as Eo. rewrite Ei in *. cbn [app].
    unfold octet, slice. cbn [skipn firstn nth].
    split.
    + intros (_ & _ & _ & E1 & E2 & _). subst index. apply map_sequence_self in E1. split; assumption.
    + intros [-> ->]. split; [apply R; cbn; lia|]. split; [symmetry; exact Eo|].
      split; [reflexivity|]. split; [reflexivity|]. split; [reflexivity|].
      destruct player_number_assignment; reflexivity.
  - destruct Ht as (_ & _ & Hm & _ & Hip & _ & H3 & _).
    apply len6 in Hm. destruct Hm as (a & b & c & d & e & f & ->).
    cbn [ka_content_encode]. unfold ip_addr_to_bytes.
    destruct (len4 (be 4 ip_addr)) as (i1 & i2 & i3 & i4 & Ei); [apply be_len|].
    pose proof (of_be_be_small 4 ip_addr Hip) as Eo.
    destruct (len2 (be 2 unknown3)) as (u1 & u2 & Eu); [apply be_len|].
    pose proof (of_be_be_small 2 unknown3 H3) as Eq.
    rewrite Ei, Eu in *. cbn [app].
    unfold octet, slice. cbn [skipn firstn nth].
    split.
    + intros (_ & _ & _ & _ & _ & _ & _ & E). exact E.
    + intros ->. split; [apply R; cbn; lia|].
      do 3 (split; [reflexivity|]). split; [symmetry; exact Eo|]. split; [reflexivity|].
      split; [symmetry; exact Eq|reflexivity].
  - destruct Ht as (_ & Hip).
    cbn [ka_content_encode]. unfold ip_addr_to_bytes.
    destruct (len4 (be 4 ip_addr)) as (i1 & i2 & i3 & i4 & Ei); [apply be_len|].
    pose proof (of_be_be_small 4 ip_addr Hip) as Eo. rewrite Ei in *. cbn [app].
    unfold octet, slice. cbn [skipn firstn nth].
    split; [intros _; exact I|]. intros _. split; [apply R; cbn; lia|]. split; [reflexivity|symmetry; exact Eo].
Qed.

Lemma ka_roundtrip : forall p, ka_typed p ->
  ((exists b, ka_encode p = Ok b /\ ka_try_from b = Ok p) <-> ka_consistent p).
Proof.
  intros p (Hm & _ & _ & Hc). unfold ka_consistent.
  destruct (N.le_gt_cases (len (utf8_encode (ka_model p))) 20) as [L|L].
  2:{ split; [|intros (L2 & _); lia]. intros (b & E & _).
      unfold ka_encode in E. rewrite model_encode_long in E by lia. discriminate. }
  destruct (model_encode_short _ L) as (n & E & Ln).
  rewrite (ka_encode_header _ _ E).
  destruct (ka_header_facts p _ (ka_content_encode (ka_content_of p)) Ln)
    as (F1 & F2 & F3 & F4 & F5 & F6 & F7).
  set (d := ka_header p (utf8_encode (ka_model p) ++ repeat 0 n) ++
            ka_content_encode (ka_content_of p)) in *.
  assert (S : ka_try_from d = Ok p <->
    (forall t, ka_model p <> t ++ [0]) /\ sub_means (octet 35 d) (ka_subkind p) /\
    ka_fields d (ka_kind_of p) (ka_content_of p)).
  { rewrite ka_try_from_iff. unfold ka_says. rewrite F1, F2, F3, F4, F5.
    assert (Nf : name_field (utf8_encode (ka_model p) ++ repeat 0 n) (ka_model p) <->
                 (forall t, ka_model p <> t ++ [0])).
    { unfold name_field. split; [tauto|]. intros. split; [assumption|]. split; [assumption|]. eauto. }
    rewrite Nf. tauto. }
  rewrite <- (ka_fields_encoded _ (ka_kind_of p) _ F7 Hc).
  rewrite <- sub_means_code.
  replace (nth 0 (ka_sub_encode (ka_subkind p)) 0) with (octet 35 d) by (rewrite <- F6; reflexivity).
  split.
  - intros (b & Eb & Hb). inversion Eb; subst b. apply S in Hb. tauto.
  - intros (_ & H1 & H2 & H3). exists d. split; [reflexivity|]. apply S. tauto.
Qed.
