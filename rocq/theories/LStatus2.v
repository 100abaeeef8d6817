(** Status datagrams are decoded by their fixed offsets. *)

From Verif Require Import Base Unicode MPackets MKeepalive MStatus SUdp LBase LUnicode LUdp LStatus.
From Coq Require Import ZArith Lia String.
Open Scope list_scope.
Open Scope N_scope.

Lemma slot_in : forall o d, (o < List.length d)%nat ->
  exists s, slot_means (octet o d) s /\ slot_decode (skipn o d) = Ok (skipn (o + 1) d, s).
Proof.
  intros o d H. unfold slot_decode. rewrite u8_in by assumption. cbn [rbind].
  eexists. split; [|reflexivity]. generalize (octet o d) as v. intros v.
  destruct (N.eq_dec v 0) as [->|]; [reflexivity|].
  destruct (N.eq_dec v 1) as [->|]; [reflexivity|].
  destruct (N.eq_dec v 2) as [->|]; [reflexivity|].
  destruct (N.eq_dec v 3) as [->|]; [reflexivity|].
  destruct (N.eq_dec v 4) as [->|]; [reflexivity|].
  match goal with |- slot_means _ ?x => assert (E : x = SlotUnknown v) by by_bits v end.
  rewrite E. cbn. lia.
Qed.

Lemma analyze_in : forall o d, (o < List.length d)%nat ->
  exists a, analyze_means (octet o d) a /\ analyze_decode (skipn o d) = Ok (skipn (o + 1) d, a).
Proof.
  intros o d H. unfold analyze_decode. rewrite u8_in by assumption. cbn [rbind].
  eexists. split; [|reflexivity]. generalize (octet o d) as v. intros v.
  destruct (N.eq_dec v 1) as [->|]; [reflexivity|].
  destruct (N.eq_dec v 2) as [->|]; [reflexivity|].
  destruct (N.eq_dec v 5) as [->|]; [reflexivity|].
  match goal with |- analyze_means _ ?x => assert (E : x = AUnknown) by by_bits v end.
  rewrite E. cbn. intros [?|[?|[?|[]]]]; congruence.
Qed.

Lemma slot_means_functional : forall v s t, slot_means v s -> slot_means v t -> s = t.
Proof.
  intros v [] [] A B; cbn in A, B; try reflexivity; try (exfalso; lia).
  f_equal. destruct A, B. congruence.
Qed.

Lemma analyze_means_functional : forall v s t, analyze_means v s -> analyze_means v t -> s = t.
Proof.
  intros v [] [] A B; cbn in A, B; try reflexivity; subst; try discriminate; exfalso; tauto.
Qed.

Lemma utf16_field_functional : forall b f g, utf16_field b f -> utf16_field b g -> f = g.
Proof.
  assert (D : forall b f, utf16_field b f -> fixed_decode (len b) b = Ok ([], f)).
  { intros b f (A1 & A2 & A3). apply fixed_decode_iff; [rewrite <- A3; apply utf16_be_ok|].
    split; [assumption|]. split; [assumption|]. rewrite A3, app_nil_r. split; [|reflexivity].
    rewrite <- A3, utf16_be_len. lia. }
  intros b f g A B. apply D in A. apply D in B. congruence.
Qed.

Lemma status_fields_functional : forall d k c c', status_fields d k c -> status_fields d k c' -> c = c'.
Proof.
  intros d k c c' A B. destruct k, c, c'; cbn in A, B; try contradiction; try reflexivity.
  - destruct c as [a1 a2 a3 a4 a5 a6], c0 as [b1 b2 b3 b4 b5 b6]. cbn in *.
    destruct A as (_ & _ & -> & -> & A3 & A4 & -> & ->), B as (_ & _ & -> & -> & B3 & B4 & -> & ->).
    rewrite (slot_means_functional _ _ _ A3 B3), (analyze_means_functional _ _ _ A4 B4). reflexivity.
  - destruct q as [a1 a2 a3], q0 as [b1 b2 b3]. cbn in *.
    destruct A as (_ & _ & -> & -> & A3), B as (_ & _ & -> & -> & B3).
    rewrite (slot_means_functional _ _ _ A3 B3). reflexivity.
  - destruct r as [a0 a1 a2 a3 a4 a5 a6 a7 a8 a9 a10], r0 as [b0 b1 b2 b3 b4 b5 b6 b7 b8 b9 b10]. cbn -[number_at slice octet] in *.
    destruct A as (_ & _ & -> & A1 & A2 & A3 & A4 & -> & -> & -> & -> & -> & ->),
             B as (_ & _ & -> & B1 & B2 & B3 & B4 & -> & -> & -> & -> & -> & ->).
    rewrite (slot_means_functional _ _ _ A1 B1), (utf16_field_functional _ _ _ A2 B2),
      (utf16_field_functional _ _ _ A3 B3), (utf16_field_functional _ _ _ A4 B4). reflexivity.
Qed.

Lemma slot_out : forall o d, (List.length d <= o)%nat -> slot_decode (skipn o d) = Err.
Proof. intros. unfold slot_decode. rewrite u8_out by assumption. reflexivity. Qed.
Lemma analyze_out : forall o d, (List.length d <= o)%nat -> analyze_decode (skipn o d) = Err.
Proof. intros. unfold analyze_decode. rewrite u8_out by assumption. reflexivity. Qed.

Lemma fixed_in : forall n o d, bytes_ok d -> (o + 2 * n <= List.length d)%nat ->
  (exists f, utf16_field (slice o (2 * n) d) f /\
     fixed_decode (N.of_nat (2 * n)) (skipn o d) = Ok (skipn (o + 2 * n) d, f)) \/
  ((forall f, ~ utf16_field (slice o (2 * n) d) f) /\ fixed_decode (N.of_nat (2 * n)) (skipn o d) = Err).
Proof.
  intros n o d Hd H.
  assert (Hs : bytes_ok (skipn o d)).
  { apply Forall_forall. intros x Hx. rewrite <- (firstn_skipn o d) in Hd. apply bytes_ok_app in Hd.
    destruct Hd as [_ Hd]. apply (proj1 (Forall_forall _ _) Hd x Hx). }
  assert (Sp : skipn o d = slice o (2 * n) d ++ skipn (o + 2 * n) d).
  { unfold slice. rewrite (Nat.add_comm o), <- skipn_skipn, firstn_skipn. reflexivity. }
  assert (Ls : len (slice o (2 * n) d) = N.of_nat (2 * n)).
  { unfold len. rewrite slice_length by assumption. reflexivity. }
  destruct (fixed_decode (N.of_nat (2 * n)) (skipn o d)) as [[r f]| |] eqn:E.
  - left. exists f. pose proof E as E0. apply fixed_decode_iff in E; [|assumption].
    destruct E as (E1 & E2 & E3 & E4).
    assert (X : slice o (2 * n) d = utf16_be (fx_value f) /\ skipn (o + 2 * n) d = r).
    { rewrite Sp in E4. apply app_inj_len; [|exact E4]. rewrite Ls, E3. lia. }
    destruct X as [X1 X2]. rewrite X2. split; [|reflexivity].
    split; [rewrite Ls; exact E1|]. split; [assumption|]. symmetry. exact X1.
  - right. split; [|reflexivity]. intros f (F1 & F2 & F3).
    assert (X : fixed_decode (N.of_nat (2 * n)) (skipn o d) = Ok (skipn (o + 2 * n) d, f)); [|congruence].
    apply fixed_decode_iff; [assumption|]. split; [rewrite F1; exact Ls|]. split; [assumption|].
    rewrite F3. split; [rewrite Ls; lia|]. exact Sp.
  - exfalso. apply (fixed_decode_no_panic _ _ E).
Qed.

Lemma fixed_out : forall n o d, (List.length d < o + 2 * n)%nat -> (0 < n)%nat ->
  fixed_decode (N.of_nat (2 * n)) (skipn o d) = Err.
Proof.
  intros n o d H Hn. unfold fixed_decode. rewrite count_u16_short; [reflexivity|].
  unfold len. rewrite skipn_length. lia.
Qed.

Ltac st_step :=
  first [ rewrite u8_in by lia | rewrite u8_out by lia
        | rewrite (take_in 1) by (reflexivity || lia) | rewrite (take_out 1) by (reflexivity || lia)
        | rewrite (take_in 3) by (reflexivity || lia) | rewrite (take_out 3) by (reflexivity || lia)
        | rewrite (take_in 4) by (reflexivity || lia) | rewrite (take_out 4) by (reflexivity || lia)
        | rewrite (uint_in 2) by (reflexivity || lia) | rewrite (uint_out 2) by (reflexivity || lia)
        | rewrite (uint_in 4) by (reflexivity || lia) | rewrite (uint_out 4) by (reflexivity || lia)
        | rewrite (uint_in 8) by (reflexivity || lia) | rewrite (uint_out 8) by (reflexivity || lia)
        | rewrite slot_out by lia | rewrite analyze_out by lia
        | match goal with |- context [slot_decode (skipn ?o ?d)] =>
            let s := fresh "s" in let Hs := fresh "Hs" in let E := fresh "E" in
            destruct (slot_in o d) as (s & Hs & E); [lia|rewrite E; clear E] end
        | match goal with |- context [analyze_decode (skipn ?o ?d)] =>
            let s := fresh "s" in let Hs := fresh "Hs" in let E := fresh "E" in
            destruct (analyze_in o d) as (s & Hs & E); [lia|rewrite E; clear E] end ];
  cbn [rbind Nat.add].

Lemma cdj_cases : forall d, (34 <= List.length d)%nat -> octet 10 d = 0x0a ->
  (exists c r, status_fields d KCdj c /\ cdj_decode (skipn 34 d) = Ok (r, c)) \/
  ((forall c, ~ status_fields d KCdj c) /\ cdj_decode (skipn 34 d) = Err).
Proof.
  intros d H K. unfold cdj_decode, be_u16, be_u32.
  destruct (le_lt_dec 49 (List.length d)) as [L|L].
  - left. repeat st_step. eexists. eexists. split; [|reflexivity].
    cbn -[number_at octet]. unfold reaches. repeat split; try assumption.
  - right. split.
    { intros [] X; cbn in X; try contradiction. unfold reaches in X. lia. }
    destruct (le_lt_dec 36 (List.length d)); [|repeat st_step; reflexivity]. st_step.
    destruct (le_lt_dec 38 (List.length d)); [|repeat st_step; reflexivity]. st_step.
    destruct (le_lt_dec 39 (List.length d)); [|repeat st_step; reflexivity]. st_step.
    destruct (le_lt_dec 40 (List.length d)); [|repeat st_step; reflexivity]. st_step.
    destruct (le_lt_dec 41 (List.length d)); [|repeat st_step; reflexivity]. st_step.
    destruct (le_lt_dec 45 (List.length d)); [|repeat st_step; reflexivity]. st_step.
    repeat st_step. reflexivity.
Qed.

Lemma link_query_cases : forall d, (34 <= List.length d)%nat -> octet 10 d = 0x05 ->
  (exists c r, status_fields d KLinkQuery c /\ link_query_decode (skipn 34 d) = Ok (r, c)) \/
  ((forall c, ~ status_fields d KLinkQuery c) /\ link_query_decode (skipn 34 d) = Err).
Proof.
  intros d H K. unfold link_query_decode, be_u16.
  destruct (le_lt_dec 48 (List.length d)) as [L|L].
  - left. repeat st_step. eexists. eexists. split; [|reflexivity].
    cbn -[number_at octet of_be]. unfold reaches. repeat split; try assumption.
  - right. split.
    { intros [] X; cbn in X; try contradiction. unfold reaches in X. lia. }
    destruct (le_lt_dec 36 (List.length d)); [|repeat st_step; reflexivity]. st_step.
    destruct (le_lt_dec 40 (List.length d)); [|repeat st_step; reflexivity]. st_step.
    destruct (le_lt_dec 43 (List.length d)); [|repeat st_step; reflexivity]. st_step.
    destruct (le_lt_dec 44 (List.length d)); [|repeat st_step; reflexivity]. st_step.
    destruct (le_lt_dec 47 (List.length d)); [|repeat st_step; reflexivity]. st_step.
    repeat st_step. reflexivity.
Qed.

Ltac text_step n D :=
  match goal with |- context [fixed_decode ?c (skipn ?o ?d)] =>
    change (fixed_decode c (skipn o d)) with (fixed_decode (N.of_nat (2 * n)) (skipn o d));
    let f := fresh "f" in let Hf := fresh "Hf" in let E := fresh "E" in
    destruct (fixed_in n o d D) as [(f & Hf & E)|(Hf & E)]; [lia| |]; rewrite E; clear E;
    cbn [Nat.mul] in Hf; cbn [rbind Nat.add Nat.mul]
  end.
Ltac text_out n :=
  match goal with |- context [fixed_decode ?c (skipn ?o ?d)] =>
    change (fixed_decode c (skipn o d)) with (fixed_decode (N.of_nat (2 * n)) (skipn o d));
    rewrite (fixed_out n) by lia; reflexivity end.

Lemma link_reply_cases : forall d, bytes_ok d -> (34 <= List.length d)%nat -> octet 10 d = 0x06 ->
  (exists c r, status_fields d KLinkReply c /\ link_reply_decode (skipn 34 d) = Ok (r, c)) \/
  ((forall c, ~ status_fields d KLinkReply c) /\ link_reply_decode (skipn 34 d) = Err).
Proof.
  intros d D H K. unfold link_reply_decode, be_u16, be_u32, be_u64.
  assert (No : ~ (183 <= List.length d)%nat -> forall c, ~ status_fields d KLinkReply c).
  { intros L [] X; cbn in X; try contradiction. unfold reaches in X. tauto. }
  destruct (le_lt_dec 35 (List.length d)) as [L|L].
  2: { right. split; [apply No; lia|]. st_step. reflexivity. }
  st_step.
  destruct (le_lt_dec 99 (List.length d)) as [L1|L1].
  2: { right. split; [apply No; lia|]. text_out 32%nat. }
  text_step 32%nat D.
  2: { right. split; [|reflexivity]. intros [] X; cbn -[number_at slice octet] in X; try contradiction.
       apply (Hf (lr_name r)). apply X. }
  destruct (le_lt_dec 123 (List.length d)) as [L2|L2].
  2: { right. split; [apply No; lia|]. text_out 12%nat. }
  text_step 12%nat D.
  2: { right. split; [|reflexivity]. intros [] X; cbn -[number_at slice octet] in X; try contradiction.
       apply (Hf0 (lr_date r)). apply X. }
  destruct (le_lt_dec 155 (List.length d)) as [L3|L3].
  2: { right. split; [apply No; lia|]. text_out 16%nat. }
  text_step 16%nat D.
  2: { right. split; [|reflexivity]. intros [] X; cbn -[number_at slice octet] in X; try contradiction.
       apply (Hf1 (lr_unknown5 r)). apply X. }
  destruct (le_lt_dec 183 (List.length d)) as [L4|L4].
  - left. repeat st_step. eexists. eexists. split; [|reflexivity].
    cbn -[number_at slice octet]. unfold reaches. repeat split; try assumption; apply Hf || apply Hf0 || apply Hf1.
  - right. split; [apply No; lia|].
    destruct (le_lt_dec 159 (List.length d)); [|repeat st_step; reflexivity]. st_step.
    destruct (le_lt_dec 161 (List.length d)); [|repeat st_step; reflexivity]. st_step.
    destruct (le_lt_dec 163 (List.length d)); [|repeat st_step; reflexivity]. st_step.
    destruct (le_lt_dec 167 (List.length d)); [|repeat st_step; reflexivity]. st_step.
    destruct (le_lt_dec 175 (List.length d)); [|repeat st_step; reflexivity]. st_step.
    repeat st_step. reflexivity.
Qed.

Lemma status_kind_dec : forall a b : status_kind, {a = b} + {a <> b}.
Proof. decide equality. apply N.eq_dec. Qed.

Lemma status_try_from_iff : forall d p, bytes_ok d ->
  (status_packet_try_from d = Ok p <-> status_says d p).
Proof.
  intros d p D. destruct (status_header_cases d) as [(Hh & s & Hs & E)|(Hh & E)].
  2: { rewrite E. split; [discriminate|]. intros (S1 & S2 & S3 & _). exfalso. apply Hh.
       split; [assumption|]. split; [assumption|]. apply utf8_text_name. eauto. }
  assert (G : forall k, (forall k', k' <> k -> forall c, ~ status_fields d k' c) ->
    (exists c r, status_fields d k c /\ status_decode_content k (skipn 34 d) = Ok (r, c)) \/
    ((forall c, ~ status_fields d k c) /\ (status_decode_content k (skipn 34 d) = Err \/ status_decode_content k (skipn 34 d) = Panic)) ->
    ((do (_, c) <- status_decode_content k (skipn 34 d);
      Ok (mkStatusPacket k s (octet 32 d) (octet 33 d) c)) = Ok p <-> status_says d p)).
  { intros k Ho [(c & r & F & Ec)|(F & Ec)].
    - rewrite Ec. cbn [rbind]. split.
      + intros X. injection X as <-. destruct Hh as (H1 & H2 & _). repeat (split; [first [assumption|reflexivity]|]). exact F.
      + intros (S1 & S2 & S3 & S4 & S5 & S6). destruct p as [k' m u n c']. cbn [sp_kind sp_model sp_unknown1 sp_player_number sp_content] in *.
        assert (Dk : k' = k).
        { destruct (status_kind_dec k' k) as [->|Nk]; [reflexivity|]. exfalso. apply (Ho k' Nk c' S6). }
        subst k'. rewrite (status_fields_functional _ _ _ _ F S6), (name_field_functional _ _ _ Hs S3), S4, S5. reflexivity.
    - assert (Q : (do (_, c) <- status_decode_content k (skipn 34 d);
        Ok (mkStatusPacket k s (octet 32 d) (octet 33 d) c)) <> Ok p) by (destruct Ec as [-> | ->]; discriminate).
      split; [intros X; contradiction|]. intros (_ & _ & _ & _ & _ & S6). exfalso.
      destruct (status_kind_dec (sp_kind p) k) as [Ek|Nk]; [rewrite Ek in S6; apply (F _ S6)|apply (Ho _ Nk _ S6)]. }
  assert (Code : forall k c, status_fields d k c -> kind_of_code (octet 10 d) = k).
  { intros k c F. destruct k, c; cbn -[number_at slice octet] in F; try contradiction;
      match goal with
      | F : octet 10 d = _ /\ _ |- _ => rewrite (proj1 F); reflexivity
      | F : octet 10 d = _ |- _ => rewrite F; reflexivity
      end. }
  rewrite E. apply G.
  - intros k' Nk c F. apply Nk. symmetry. apply (Code _ _ F).
  - destruct Hh as (_ & L & _). unfold reaches in L. pose proof (kind_of_code_cases (octet 10 d)) as K.
    destruct (kind_of_code (octet 10 d)) eqn:Ek; cbn [status_decode_content].
    + destruct (cdj_cases d L K) as [X|[X1 X2]]; [left|right]; auto.
    + left. exists SDjm, (skipn 34 d). split; [exact K|reflexivity].
    + right. split; [intros [] []|auto].
    + right. split; [intros [] []|auto].
    + destruct (link_query_cases d L K) as [X|[X1 X2]]; [left|right]; auto.
    + destruct (link_reply_cases d D L K) as [X|[X1 X2]]; [left|right]; auto.
    + left. exists SRekordboxHello, (skipn 34 d). split; [exact K|reflexivity].
    + right. split; [intros [] []|auto].
    + right. split; [intros [] []|auto].
Qed.
