(** Proofs about fixed-width texts, link replies and the status service. *)

From Verif Require Import Base Unicode MPackets MKeepalive MStatus SUdp LBase LUnicode LUdp.
From Coq Require Import ZArith String.
Open Scope list_scope.
Open Scope N_scope.

(** ** Sequences of 16-bit units *)

Lemma count_u16_encoded : forall us r, units_ok us ->
  count be_u16 (List.length us) (flat_map (be 2) us ++ r) = Ok (r, us).
Proof.
  induction us as [|u us IH]; intros r H; [reflexivity|].
  cbn [List.length count flat_map]. rewrite <- app_assoc.
  rewrite be_u16_be by (exact (Forall_inv H)). cbn [rbind].
  rewrite IH by (exact (Forall_inv_tail H)). reflexivity.
Qed.

Lemma count_u16_sound : forall n i r us, bytes_ok i -> count be_u16 n i = Ok (r, us) ->
  i = flat_map (be 2) us ++ r /\ List.length us = n /\ units_ok us.
Proof.
  induction n; intros i r us Hi H; cbn [count] in H.
  - inversion H; subst. repeat split. constructor.
  - apply rbind_ok in H. destruct H as ([i1 u] & H1 & H).
    apply rbind_ok in H. destruct H as ([i2 us'] & H2 & H). inversion H; subst.
    apply be_uint_ok in H1. destruct H1 as (d & -> & Hd & ->).
    apply bytes_ok_app in Hi. destruct Hi as [Hd' Hi].
    destruct (IHn _ _ _ Hi H2) as (-> & <- & Hu).
    assert (E : be 2 (of_be d) = d).
    { replace 2%nat with (List.length d) by (unfold len in Hd; lia). apply be_of_be. assumption. }
    cbn [flat_map List.length]. rewrite E, app_assoc. repeat split.
    constructor; [|assumption].
    pose proof (of_be_bound d Hd') as B. rewrite Hd in B. exact B.
Qed.

Lemma count_u16_no_panic : forall n i, count be_u16 n i <> Panic.
Proof.
  induction n; intros i; cbn [count]; [discriminate|].
  destruct (be_u16 i) as [[i1 u]| |] eqn:E; cbn [rbind]; try discriminate.
  - specialize (IHn i1). destruct (count be_u16 n i1) as [[? ?]| |]; cbn [rbind]; congruence.
  - exfalso. eapply be_uint_no_panic. exact E.
Qed.

Lemma count_u16_short : forall n i, len i < 2 * N.of_nat n -> count be_u16 n i = Err.
Proof.
  induction n; intros i H; [lia|]. cbn [count].
  destruct (be_uint_cases 2 i) as [[L E]|(L & d & r & -> & Hd & E)]; unfold be_u16; rewrite E; cbn [rbind].
  - reflexivity.
  - fold be_u16. rewrite IHn; [reflexivity|]. rewrite len_app in H. lia.
Qed.

Lemma count_u16_long : forall n i, 2 * N.of_nat n <= len i ->
  exists r us, count be_u16 n i = Ok (r, us).
Proof.
  induction n; intros i H; [do 2 eexists; reflexivity|]. cbn [count].
  destruct (be_uint_cases 2 i) as [[L E]|(L & d & r & -> & Hd & E)]; [lia|]; unfold be_u16; rewrite E; cbn [rbind].
  fold be_u16. rewrite len_app in H. destruct (IHn r) as (r' & us & E2); [lia|].
  rewrite E2. do 2 eexists. reflexivity.
Qed.

(** ** Fixed-width texts *)

Lemma fixed_decode_iff : forall c i r f, bytes_ok i ->
  (fixed_decode c i = Ok (r, f) <->
   fx_capacity f = c /\ str_ok (fx_value f) /\
   len (utf16_be (fx_value f)) = 2 * (c / 2) /\ i = utf16_be (fx_value f) ++ r).
Proof.
  intros c i r [v c'] Hi. cbn [fx_capacity fx_value]. unfold fixed_decode. split.
  - intros H. apply rbind_ok in H. destruct H as ([i1 us] & H1 & H).
    apply count_u16_sound in H1; [|assumption]. destruct H1 as (-> & L & Hu).
    destruct (utf16_decode us) as [s|] eqn:E; [|discriminate]. inversion H; subst.
    apply utf16_decode_some in E; [|assumption]. destruct E as [<- Hs].
    split; [reflexivity|]. split; [assumption|]. split; [|reflexivity].
    rewrite utf16_be_len. unfold len. rewrite L. lia.
  - intros (-> & Hs & L & ->). rewrite utf16_be_len in L.
    replace (N.to_nat (c / 2)) with (List.length (utf16_encode v)) by (unfold len in L; lia).
    unfold utf16_be. rewrite count_u16_encoded by (apply utf16_encode_units; assumption).
    cbn [rbind]. rewrite utf16_decode_encode by assumption. reflexivity.
Qed.

Lemma fixed_decode_no_panic : forall c i, fixed_decode c i <> Panic.
Proof.
  intros c i. unfold fixed_decode.
  destruct (count be_u16 (N.to_nat (c / 2)) i) as [[r us]| |] eqn:E; cbn [rbind]; try discriminate.
  - destruct (utf16_decode us); discriminate.
  - exfalso. eapply count_u16_no_panic. exact E.
Qed.

Lemma fixed_encode_fits : forall s c, len (utf16_be s) <= c ->
  fixed_encode (mkFixed s c) = Ok (utf16_be s ++ repeat 0 (N.to_nat (c - len (utf16_be s)))).
Proof. intros. unfold fixed_encode. cbn. rewrite zeros_up_to_le by assumption. reflexivity. Qed.
Lemma fixed_encode_over : forall s c, c < len (utf16_be s) -> fixed_encode (mkFixed s c) = Panic.
Proof. intros. unfold fixed_encode. cbn. rewrite zeros_up_to_gt by assumption. reflexivity. Qed.

Lemma utf16_be_app : forall a b, utf16_be (a ++ b) = utf16_be a ++ utf16_be b.
Proof. intros. unfold utf16_be. rewrite utf16_encode_app. apply flat_map_app. Qed.
Lemma utf16_be_nuls : forall n, utf16_be (repeat 0 n) = repeat 0 (2 * n).
Proof.
  induction n; [reflexivity|]. change (repeat 0 (S n)) with ([0] ++ repeat 0 n).
  rewrite utf16_be_app, IHn. replace (2 * S n)%nat with (S (S (2 * n))) by lia. reflexivity.
Qed.

Lemma utf16_be_ok : forall s, bytes_ok (utf16_be s).
Proof. intros. apply flat_map_be_ok. Qed.

Lemma fixed_roundtrip : forall s c r, str_ok s -> len (utf16_be s) <= c ->
  exists b, fixed_encode (mkFixed s c) = Ok b /\ len b = c /\
    (bytes_ok r -> fixed_decode c (b ++ r) =
     Ok (repeat 0 (N.to_nat (c mod 2)) ++ r,
         mkFixed (s ++ repeat 0 (N.to_nat (c / 2 - len (utf16_encode s)))) c)).
Proof.
  intros s c r Hs Hc. rewrite fixed_encode_fits by assumption.
  eexists. split; [reflexivity|]. rewrite utf16_be_len in *. split.
  - rewrite len_app, len_repeat, utf16_be_len. lia.
  - intros Hr. rewrite <- app_assoc.
    assert (E : repeat 0 (N.to_nat (c - 2 * len (utf16_encode s))) =
      repeat 0 (2 * N.to_nat (c / 2 - len (utf16_encode s))) ++ repeat 0 (N.to_nat (c mod 2))).
    { rewrite <- repeat_app. f_equal. lia. }
    rewrite E, <- utf16_be_nuls, !app_assoc, <- utf16_be_app, <- app_assoc.
    apply fixed_decode_iff.
    + repeat (apply bytes_ok_app; split); try assumption; [apply utf16_be_ok|apply bytes_ok_repeat0].
    + cbn [fx_capacity fx_value]. split; [reflexivity|].
      split; [apply str_ok_app; split; [assumption|apply str_ok_nuls]|]. split; [|reflexivity].
      rewrite utf16_be_app, utf16_be_nuls, len_app, len_repeat, utf16_be_len. lia.
Qed.

(** ** Link replies *)

Definition kind_of_code (v : N) : status_kind :=
  match v with
  | 0x0a => KCdj
  | 0x29 => KDjm
  | 0x19 => KLoadCmd
  | 0x1a => KLoadCmdReply
  | 0x05 => KLinkQuery
  | 0x06 => KLinkReply
  | 0x10 => KRekordboxHello
  | 0x11 => KRekordboxReply
  | v => KUnknown v
  end.

Lemma slot_decode_encode : forall i r s, slot_decode i = Ok (r, s) -> i = slot_encode s ++ r.
Proof.
  intros i r s H. unfold slot_decode in H. apply rbind_ok in H. destruct H as ([i1 v] & H1 & H).
  apply be_uint_ok in H1. destruct H1 as (d & -> & Hd & ->).
  destruct d as [|x [|y d]]; rewrite ?len_cons, ?len_nil in Hd; try lia.
  change (of_be [x]) with x in H. inversion H; subst. cbn [app]. f_equal.
  destruct (N.eq_dec x 0) as [->|]; [reflexivity|].
  destruct (N.eq_dec x 1) as [->|]; [reflexivity|].
  destruct (N.eq_dec x 2) as [->|]; [reflexivity|].
  destruct (N.eq_dec x 3) as [->|]; [reflexivity|].
  destruct (N.eq_dec x 4) as [->|]; [reflexivity|].
  destruct x as [|x]; [reflexivity|]. do 4 (try (destruct x as [x|x|]; try reflexivity)).
Qed.

Lemma uint_sound : forall n k i r v, k = N.of_nat n -> bytes_ok i -> be_uint k i = Ok (r, v) ->
  i = be n v ++ r /\ bytes_ok r.
Proof.
  intros n k i r v -> Hi H. apply be_uint_ok in H. destruct H as (d & -> & Hd & ->).
  apply bytes_ok_app in Hi. destruct Hi as [H1 H2]. split; [|assumption].
  replace n with (List.length d) by (unfold len in Hd; lia). rewrite be_of_be by assumption. reflexivity.
Qed.

(** The part of the layout both directions agree on, up to its position. *)
Definition reply_body (r : link_reply) : bytes :=
  slot_encode (lr_slot r) ++ utf16_be (fx_value (lr_name r)) ++ utf16_be (fx_value (lr_date r))
  ++ utf16_be (fx_value (lr_unknown5 r)) ++ be 4 (lr_track_count r) ++ be 2 (lr_unknown6 r)
  ++ be 2 (lr_unknown7 r) ++ be 4 (lr_playlist_count r) ++ be 8 (lr_bytes_total r)
  ++ be 8 (lr_bytes_free r).

Lemma link_reply_decode_sound : forall i rest c, bytes_ok i ->
  link_reply_decode i = Ok (rest, c) ->
  exists r, c = SLinkReply r /\ i = reply_body r ++ rest /\ len (reply_body r) = 149 /\
    lr_source_player_number r = 0x11 /\
    len (utf16_be (fx_value (lr_name r))) = 64 /\ fx_capacity (lr_name r) = 64 /\
    len (utf16_be (fx_value (lr_date r))) = 24 /\ fx_capacity (lr_date r) = 24 /\
    len (utf16_be (fx_value (lr_unknown5 r))) = 32 /\ fx_capacity (lr_unknown5 r) = 32.
Proof.
  intros i rest c Hi H. unfold link_reply_decode in H.
  apply rbind_ok in H. destruct H as ([i1 slot] & H1 & H). apply slot_decode_encode in H1. subst i.
  apply bytes_ok_app in Hi. destruct Hi as [_ Hi].
  apply rbind_ok in H. destruct H as ([i2 name] & H2 & H). apply fixed_decode_iff in H2; [|assumption].
  destruct H2 as (Cn & _ & Ln & ->). apply bytes_ok_app in Hi. destruct Hi as [_ Hi].
  apply rbind_ok in H. destruct H as ([i3 date] & H3 & H). apply fixed_decode_iff in H3; [|assumption].
  destruct H3 as (Cd & _ & Ld & ->). apply bytes_ok_app in Hi. destruct Hi as [_ Hi].
  apply rbind_ok in H. destruct H as ([i4 u5] & H4 & H). apply fixed_decode_iff in H4; [|assumption].
  destruct H4 as (Cu & _ & Lu & ->). apply bytes_ok_app in Hi. destruct Hi as [_ Hi].
  apply rbind_ok in H. destruct H as ([i5 tc] & H5 & H).
  apply (uint_sound 4) in H5; [|reflexivity|assumption]. destruct H5 as [-> H5].
  apply rbind_ok in H. destruct H as ([i6 u6] & H6 & H).
  apply (uint_sound 2) in H6; [|reflexivity|assumption]. destruct H6 as [-> H6].
  apply rbind_ok in H. destruct H as ([i7 u7] & H7 & H).
  apply (uint_sound 2) in H7; [|reflexivity|assumption]. destruct H7 as [-> H7].
  apply rbind_ok in H. destruct H as ([i8 pc] & H8 & H).
  apply (uint_sound 4) in H8; [|reflexivity|assumption]. destruct H8 as [-> H8].
  apply rbind_ok in H. destruct H as ([i9 bt] & H9 & H).
  apply (uint_sound 8) in H9; [|reflexivity|assumption]. destruct H9 as [-> H9].
  apply rbind_ok in H. destruct H as ([i10 bf] & H10 & H).
  apply (uint_sound 8) in H10; [|reflexivity|assumption]. destruct H10 as [-> H10].
  change (2 * (64 / 2)) with 64 in Ln. change (2 * (24 / 2)) with 24 in Ld.
  change (2 * (32 / 2)) with 32 in Lu.
  injection H as <- <-.
  eexists. split; [reflexivity|]. unfold reply_body.
  cbn [lr_source_player_number lr_slot lr_name lr_date lr_unknown5 lr_track_count lr_unknown6
       lr_unknown7 lr_playlist_count lr_bytes_total lr_bytes_free].
  split; [rewrite <- !app_assoc; reflexivity|]. split; [|auto 10].
  rewrite !len_app, !be_len, Ln, Ld, Lu. unfold slot_encode. rewrite len_cons, len_nil. lia.
Qed.

Lemma firstn_app_firstn : forall n (p l : bytes), firstn n (p ++ firstn n l) = firstn n (p ++ l).
Proof.
  intros n p l. rewrite !firstn_app, firstn_firstn. do 2 f_equal. lia.
Qed.

Lemma repeat_prefix : forall k n (p f : bytes),
  f = firstn n (p ++ f) -> f = firstn n (List.concat (repeat p k) ++ f).
Proof.
  induction k; intros n p f H; cbn [repeat List.concat app].
  - rewrite H at 2. rewrite firstn_firstn, Nat.min_id. exact H.
  - rewrite <- app_assoc, <- firstn_app_firstn, <- IHk by assumption. exact H.
Qed.

Lemma link_reply_encode_full : forall r,
  len (utf16_be (fx_value (lr_name r))) = 64 -> fx_capacity (lr_name r) = 64 ->
  len (utf16_be (fx_value (lr_date r))) = 24 -> fx_capacity (lr_date r) = 24 ->
  len (utf16_be (fx_value (lr_unknown5 r))) = 32 -> fx_capacity (lr_unknown5 r) = 32 ->
  link_reply_encode r =
  Ok ([0; 156; 0; 0; 0; lr_source_player_number r; 0; 0; 0] ++ reply_body r).
Proof.
  intros r L1 C1 L2 C2 L3 C3. unfold link_reply_encode, fixed_encode.
  rewrite L1, C1, L2, C2, L3, C3. rewrite !zeros_up_to_le by lia.
  rewrite !N.sub_diag. cbn [rbind N.to_nat repeat]. rewrite !app_nil_r.
  reflexivity.
Qed.

Lemma periodic_reply_bytes : link_reply_encode periodic_reply =
  Ok ([0; 156; 0; 0; 0; 17; 0; 0; 0] ++ firstn 149 (List.concat (repeat [0; 156; 0; 0; 0; 17; 0; 0; 0] 17))).
Proof. vm_compute. reflexivity. Qed.

Lemma link_reply_typed_ok : forall r b, link_reply_typed r -> link_reply_encode r = Ok b -> bytes_ok b.
Proof.
  intros r b (Hsrc & Hslot & _) E. unfold link_reply_encode in E.
  assert (F : forall f x, fixed_encode f = Ok x -> bytes_ok x).
  { intros [s c] x H. destruct (N.le_gt_cases (len (utf16_be s)) c).
    - rewrite fixed_encode_fits in H by assumption. inversion H. apply bytes_ok_app.
      split; [apply utf16_be_ok|apply bytes_ok_repeat0].
    - rewrite fixed_encode_over in H by assumption. discriminate. }
  apply rbind_ok in E. destruct E as (x1 & E1 & E). apply F in E1.
  apply rbind_ok in E. destruct E as (x2 & E2 & E). apply F in E2.
  apply rbind_ok in E. destruct E as (x3 & E3 & E). apply F in E3.
  match type of E with Ok ?x = Ok ?y => assert (Eb : x = y) by congruence end.
  rewrite <- Eb. clear E Eb.
  assert (Z : bytes_ok [0; 0; 0]) by (repeat constructor; unfold is_byte; lia).
  repeat match goal with |- bytes_ok (?u ++ ?v) => apply (proj2 (bytes_ok_app u v)); split end;
    try assumption; try apply be_ok.
  - apply Forall_cons; [exact Hsrc|constructor].
  - apply Forall_cons; [|constructor]. unfold is_byte. destruct (lr_slot r); lia || assumption.
Qed.

Lemma link_reply_fixpoint : forall r b rest, link_reply_typed r -> link_reply_encode r = Ok b ->
  link_reply_decode b = Ok (rest, SLinkReply r) -> r = periodic_reply.
Proof.
  intros r b rest Ht Eb D. pose proof (link_reply_typed_ok _ _ Ht Eb) as Hb.
  pose proof D as D'.
  apply link_reply_decode_sound in D; [|assumption].
  destruct D as (r' & E & Hi & L & Hs & L1 & C1 & L2 & C2 & L3 & C3).
  injection E as <-.
  rewrite (link_reply_encode_full r L1 C1 L2 C2 L3 C3), Hs in Eb. injection Eb as <-.
  set (P := [0; 156; 0; 0; 0; 17; 0; 0; 0]) in *. set (F := reply_body r) in *.
  assert (LF : List.length F = 149%nat) by (apply (len_nat F 149); exact L).
  assert (EF : F = firstn 149 (P ++ F)).
  { replace (P ++ F) with (F ++ rest) by (symmetry; exact Hi). rewrite firstn_app, LF, Nat.sub_diag, app_nil_r. rewrite <- LF, firstn_all. reflexivity. }
  apply (repeat_prefix 17) in EF.
  assert (EF2 : firstn 149 (List.concat (repeat P 17) ++ F) = firstn 149 (List.concat (repeat P 17))).
  { rewrite firstn_app. change (149 - List.length (List.concat (repeat P 17)))%nat with 0%nat.
    apply app_nil_r. }
  pose proof (eq_trans EF EF2) as EF3. clear EF EF2. clearbody F. subst F.
  assert (E2 : link_reply_decode (P ++ firstn 149 (List.concat (repeat P 17))) =
               Ok ([17; 0; 0; 0; 0; 156; 0; 0; 0], SLinkReply periodic_reply)) by (vm_compute; reflexivity).
  pose proof (eq_trans (eq_sym E2) D') as E3. congruence.
Qed.

(** ** Status packets *)

Lemma status_kind_in : forall o d, (o < List.length d)%nat ->
  status_kind_decode (skipn o d) = Ok (skipn (o + 1) d, kind_of_code (octet o d)).
Proof.
  intros o d H. unfold status_kind_decode. rewrite (take_in 1) by (reflexivity || lia).
  cbn [rbind]. rewrite slice_1 by assumption. cbn [nth].
  generalize (octet o d) as v. intros v. do 2 f_equal. by_bits v.
Qed.

Lemma status_header_cases : forall d,
  (status_header d /\ exists s, name_field (slice 11 20 d) s /\
     status_packet_try_from d =
     (do (_, c) <- status_decode_content (kind_of_code (octet 10 d)) (skipn 34 d);
      Ok (mkStatusPacket (kind_of_code (octet 10 d)) s (octet 32 d) (octet 33 d) c))) \/
  (~ status_header d /\ status_packet_try_from d = Err).
Proof.
  intros d. unfold status_packet_try_from, status_packet_decode, magic_decode, status_header, reaches.
  change UDP_MAGIC with (lit "Qspt1WmJOL").
  destruct (tag_at0 (lit "Qspt1WmJOL") d) as [[T E]|[T E]]; rewrite E; cbn [rbind];
    [|right; split; [tauto|reflexivity]].
  change (List.length (lit "Qspt1WmJOL")) with 10%nat in *.
  destruct (le_lt_dec 34 (List.length d)) as [L|L].
  - rewrite status_kind_in by lia. cbn [rbind Nat.add].
    destruct (model_in 11 d) as [(s & Hs & E2)|[Hs E2]]; [lia| |]; rewrite E2; cbn [rbind Nat.add];
      [|right; split; [tauto|reflexivity]].
    left. split; [split; [assumption|split; [assumption|apply utf8_text_name; eauto]]|].
    exists s. split; [assumption|].
    rewrite u8_in by lia. cbn [rbind Nat.add]. rewrite u8_in by lia. cbn [rbind Nat.add].
    rewrite u8_in by lia. cbn [rbind Nat.add].
    destruct (status_decode_content (kind_of_code (octet 10 d)) (skipn 34 d)) as [[? ?]| |]; reflexivity.
  - right. split; [lia|].
    destruct (le_lt_dec 11 (List.length d)) as [L11|L11].
    2:{ unfold status_kind_decode. rewrite (take_out 1) by (reflexivity || lia). reflexivity. }
    rewrite status_kind_in by lia. cbn [rbind Nat.add].
    destruct (le_lt_dec 31 (List.length d)) as [L31|L31]; [|rewrite model_out by lia; reflexivity].
    destruct (model_in 11 d) as [(s & Hs & E2)|[Hs E2]]; [lia| |]; rewrite E2; cbn [rbind Nat.add]; [|reflexivity].
    destruct (le_lt_dec 32 (List.length d)) as [L32|L32]; [|rewrite u8_out by lia; reflexivity].
    rewrite u8_in by lia. cbn [rbind Nat.add].
    destruct (le_lt_dec 33 (List.length d)) as [L33|L33]; [|rewrite u8_out by lia; reflexivity].
    rewrite u8_in by lia. cbn [rbind Nat.add]. rewrite u8_out by lia. reflexivity.
Qed.

Lemma kind_of_code_cases : forall v,
  match kind_of_code v with
  | KCdj => v = 0x0a
  | KDjm => v = 0x29
  | KLoadCmd => v = 0x19
  | KLoadCmdReply => v = 0x1a
  | KLinkQuery => v = 0x05
  | KLinkReply => v = 0x06
  | KRekordboxHello => v = 0x10
  | KRekordboxReply => v = 0x11
  | KUnknown w => w = v /\ ~ In v [0x0a; 0x29; 0x19; 0x1a; 0x05; 0x06; 0x10; 0x11]
  end.
Proof.
  intros v.
  destruct (N.eq_dec v 0x0a) as [->|]; [reflexivity|].
  destruct (N.eq_dec v 0x29) as [->|]; [reflexivity|].
  destruct (N.eq_dec v 0x19) as [->|]; [reflexivity|].
  destruct (N.eq_dec v 0x1a) as [->|]; [reflexivity|].
  destruct (N.eq_dec v 0x05) as [->|]; [reflexivity|].
  destruct (N.eq_dec v 0x06) as [->|]; [reflexivity|].
  destruct (N.eq_dec v 0x10) as [->|]; [reflexivity|].
  destruct (N.eq_dec v 0x11) as [->|]; [reflexivity|].
  assert (E : kind_of_code v = KUnknown v) by by_bits v. rewrite E.
  split; [reflexivity|]. intros [?|[?|[?|[?|[?|[?|[?|[?|[]]]]]]]]]; congruence.
Qed.

Lemma rbind_no_panic : forall A B (x : res A) (f : A -> res B),
  x <> Panic -> (forall a, f a <> Panic) -> rbind x f <> Panic.
Proof. intros A B [a| |] f H1 H2; cbn; [apply H2|discriminate|congruence]. Qed.

Lemma slot_no_panic : forall i, slot_decode i <> Panic.
Proof.
  intros i. apply rbind_no_panic; [apply be_uint_no_panic|]. intros [? ?]. discriminate.
Qed.

Ltac no_panic_step :=
  apply rbind_no_panic;
  [ first [ apply be_uint_no_panic | apply take_no_panic | apply slot_no_panic
          | apply fixed_decode_no_panic ]
  | intros [? ?] ].

Lemma status_content_no_panic : forall k i, In k [KCdj; KDjm; KLinkQuery; KLinkReply; KRekordboxHello] ->
  status_decode_content k i <> Panic.
Proof.
  intros k i [<-|[<-|[<-|[<-|[<-|[]]]]]]; cbn [status_decode_content]; try discriminate.
  - unfold cdj_decode. do 3 no_panic_step.
    apply rbind_no_panic; [unfold analyze_decode; no_panic_step; discriminate|intros [? ?]].
    repeat no_panic_step. discriminate.
  - unfold link_query_decode. repeat no_panic_step. discriminate.
  - unfold link_reply_decode. repeat no_panic_step. discriminate.
Qed.

Lemma status_try_from_panic : forall d, status_packet_try_from d = Panic <-> stops_status d.
Proof.
  intros d. unfold stops_status.
  destruct (status_header_cases d) as [(H & s & _ & E)|[H E]]; rewrite E.
  2:{ split; [discriminate|tauto]. }
  pose proof (kind_of_code_cases (octet 10 d)) as K.
  assert (G : forall k, In k [KCdj; KDjm; KLinkQuery; KLinkReply; KRekordboxHello] ->
     (do (_, c) <- status_decode_content k (skipn 34 d);
      Ok (mkStatusPacket k s (octet 32 d) (octet 33 d) c)) <> Panic).
  { intros k Hk. apply rbind_no_panic; [apply status_content_no_panic; assumption|].
    intros [? ?]. discriminate. }
  destruct (in_dec N.eq_dec (octet 10 d) status_kinds_known) as [I|I].
  - split; [|tauto]. intros P. exfalso. refine (G _ _ P). clear - I. unfold status_kinds_known in I.
    destruct I as [<-|[<-|[<-|[<-|[<-|[]]]]]]; cbn; tauto.
  - split; [tauto|]. intros _.
    assert (X : forall A (f : bytes * status_content -> res A),
               rbind (status_decode_content (kind_of_code (octet 10 d)) (skipn 34 d)) f = Panic);
      [|apply X].
    intros A f. destruct (kind_of_code (octet 10 d)); try reflexivity;
      exfalso; apply I; rewrite K; cbn; tauto.
Qed.

Lemma link_query_in : forall d, (34 <= List.length d)%nat ->
  (reaches 48 d /\ exists r q, link_query_decode (skipn 34 d) = Ok (r, SLinkQuery q)) \/
  (~ reaches 48 d /\ link_query_decode (skipn 34 d) = Err).
Proof.
  intros d H34. unfold link_query_decode, reaches, be_u16.
  destruct (le_lt_dec 48 (List.length d)) as [L|L].
  - left. split; [assumption|].
    rewrite (uint_in 2) by (reflexivity || lia). cbn [rbind Nat.add].
    rewrite (take_in 4) by (reflexivity || lia). cbn [rbind Nat.add].
    rewrite (take_in 3) by (reflexivity || lia). cbn [rbind Nat.add].
    rewrite u8_in by lia. cbn [rbind Nat.add].
    rewrite (take_in 3) by (reflexivity || lia). cbn [rbind Nat.add].
    unfold slot_decode. rewrite u8_in by lia. cbn [rbind Nat.add]. do 2 eexists. reflexivity.
  - right. split; [lia|].
    destruct (le_lt_dec 36 (List.length d)); [|rewrite (uint_out 2) by (reflexivity || lia); reflexivity].
    rewrite (uint_in 2) by (reflexivity || lia). cbn [rbind Nat.add].
    destruct (le_lt_dec 40 (List.length d)); [|rewrite (take_out 4) by (reflexivity || lia); reflexivity].
    rewrite (take_in 4) by (reflexivity || lia). cbn [rbind Nat.add].
    destruct (le_lt_dec 43 (List.length d)); [|rewrite (take_out 3) by (reflexivity || lia); reflexivity].
    rewrite (take_in 3) by (reflexivity || lia). cbn [rbind Nat.add].
    destruct (le_lt_dec 44 (List.length d)); [|rewrite u8_out by lia; reflexivity].
    rewrite u8_in by lia. cbn [rbind Nat.add].
    destruct (le_lt_dec 47 (List.length d)); [|rewrite (take_out 3) by (reflexivity || lia); reflexivity].
    rewrite (take_in 3) by (reflexivity || lia). cbn [rbind Nat.add].
    unfold slot_decode. rewrite u8_out by lia. reflexivity.
Qed.

(** ** The service *)

Lemma status_header_firstn : forall d, status_header (firstn 1024 d) <-> status_header d.
Proof.
  intros d. unfold status_header. rewrite !slice_firstn, reaches_firstn by lia. reflexivity.
Qed.
Lemma stops_status_firstn : forall d, stops_status (firstn 1024 d) <-> stops_status d.
Proof. intros d. unfold stops_status. rewrite status_header_firstn, octet_firstn by lia. reflexivity. Qed.
Lemma is_hello_firstn : forall d, is_hello (firstn 1024 d) <-> is_hello d.
Proof. intros d. unfold is_hello. rewrite status_header_firstn, octet_firstn by lia. reflexivity. Qed.
Lemma is_link_query_firstn : forall d, is_link_query (firstn 1024 d) <-> is_link_query d.
Proof.
  intros d. unfold is_link_query. rewrite status_header_firstn, octet_firstn, reaches_firstn by lia.
  reflexivity.
Qed.

(** What one received packet leads to. *)
Lemma status_try_from_cases : forall d, ~ stops_status d ->
  (is_hello d /\ exists p, status_packet_try_from d = Ok p /\ sp_kind p = KRekordboxHello) \/
  (is_link_query d /\ exists p, status_packet_try_from d = Ok p /\ sp_kind p = KLinkQuery /\
                                sp_unknown1 p = octet 32 d) \/
  (~ is_hello d /\ ~ is_link_query d /\
   (status_packet_try_from d = Err \/
    exists p, status_packet_try_from d = Ok p /\ process_packet p = None)).
Proof.
  intros d Hs. unfold is_hello, is_link_query.
  destruct (status_header_cases d) as [(H & s & _ & E)|[H E]].
  2:{ right. right. repeat split; try tauto. }
  pose proof (kind_of_code_cases (octet 10 d)) as K.
  destruct (kind_of_code (octet 10 d)) eqn:Ek; cbn [status_decode_content] in E.
  - right. right. rewrite K. split; [intros [_ ?]; discriminate|]. split; [intros (_ & ? & _); discriminate|].
    destruct (cdj_decode (skipn 34 d)) as [[r c]| |] eqn:D; cbn [rbind] in E; [|left; assumption|].
    + right. eexists. split; [exact E|]. reflexivity.
    + exfalso. apply (status_content_no_panic KCdj (skipn 34 d)); [cbn; tauto|exact D].
  - right. right. rewrite K. split; [intros [_ ?]; discriminate|]. split; [intros (_ & ? & _); discriminate|].
    right. eexists. split; [exact E|]. reflexivity.
  - exfalso. apply Hs. split; [assumption|]. rewrite K. cbn. intros [?|[?|[?|[?|[?|[]]]]]]; discriminate.
  - exfalso. apply Hs. split; [assumption|]. rewrite K. cbn. intros [?|[?|[?|[?|[?|[]]]]]]; discriminate.
  - destruct (link_query_in d) as [(R & r & q & D)|(R & D)]; [apply H| |]; rewrite D in E; cbn [rbind] in E.
    + right. left. split; [tauto|]. eexists. split; [exact E|]. split; reflexivity.
    + right. right. rewrite K. split; [intros [_ ?]; discriminate|]. tauto.
  - right. right. rewrite K. split; [intros [_ ?]; discriminate|]. split; [intros (_ & ? & _); discriminate|].
    destruct (link_reply_decode (skipn 34 d)) as [[r c]| |] eqn:D; cbn [rbind] in E; [|left; assumption|].
    + right. eexists. split; [exact E|]. reflexivity.
    + exfalso. apply (status_content_no_panic KLinkReply (skipn 34 d)); [cbn; tauto|exact D].
  - left. split; [tauto|]. eexists. split; [exact E|]. reflexivity.
  - exfalso. apply Hs. split; [assumption|]. rewrite K. cbn. intros [?|[?|[?|[?|[?|[]]]]]]; discriminate.
  - exfalso. apply Hs. split; [assumption|]. destruct K as [_ K]. intros I. apply K. cbn in I |- *. tauto.
Qed.

Lemma hello_reply_encoded : forall p, sp_kind p = KRekordboxHello ->
  exists q, process_packet p = Some q /\ status_packet_encode q = Ok hello_reply.
Proof.
  intros p H. unfold process_packet. rewrite H. eexists. split; [reflexivity|]. vm_compute. reflexivity.
Qed.
Lemma link_answer_encoded : forall p, sp_kind p = KLinkQuery ->
  exists q, process_packet p = Some q /\ status_packet_encode q = Ok (link_answer (sp_unknown1 p)).
Proof.
  intros p H. unfold process_packet. rewrite H. eexists. split; [reflexivity|].
  generalize (sp_unknown1 p) as u, (sp_player_number p) as n. intros. vm_compute. reflexivity.
Qed.

Lemma status_turn_answer : forall e, none_stops [e] ->
  exists out, status_turn e = Ok out /\ status_answer e out.
Proof.
  intros [ip port d|] Hs.
  2:{ exists []. split; reflexivity. }
  assert (Hd : ~ stops_status (firstn 1024 d)).
  { rewrite stops_status_firstn. apply (Hs ip port d). left. reflexivity. }
  unfold status_turn, status_recv_from, status_answer.
  setoid_rewrite <- (is_hello_firstn d). setoid_rewrite <- (is_link_query_firstn d).
  replace (octet 32 d) with (octet 32 (firstn 1024 d)) by (apply octet_firstn; lia).
  set (e := firstn 1024 d) in *. clearbody e.
  destruct (status_try_from_cases e Hd) as [(H & p & E & K)|[(H & p & E & K & U)|(H1 & H2 & H)]].
  - rewrite E. cbn [rbind]. destruct (hello_reply_encoded p K) as (q & Q & B). rewrite Q, B. cbn [rbind].
    eexists. split; [reflexivity|]. split; [reflexivity|]. split; [|tauto].
    intros (_ & L & _). destruct H as [_ H]. rewrite H in L. discriminate.
  - rewrite E. cbn [rbind]. destruct (link_answer_encoded p K) as (q & Q & B). rewrite Q, B, U. cbn [rbind].
    eexists. split; [reflexivity|]. split; [|split; [reflexivity|tauto]].
    intros (_ & L). destruct H as (_ & H & _). rewrite H in L. discriminate.
  - exists []. split; [|tauto].
    destruct H as [E|(p & E & N)]; rewrite E; cbn [rbind]; [reflexivity|]. rewrite N. reflexivity.
Qed.

Lemma status_turn_stop : forall ip port d, stops_status d ->
  status_turn (StatusDatagram ip port d) = Panic.
Proof.
  intros ip port d H. apply stops_status_firstn in H. apply status_try_from_panic in H.
  unfold status_turn, status_recv_from. rewrite H. reflexivity.
Qed.

Lemma status_run_answers : forall es, none_stops es ->
  exists outs, Forall2 status_answer es outs /\ status_run es = (true, List.concat outs).
Proof.
  induction es as [|e es IH]; intros H.
  - exists []. split; [constructor|reflexivity].
  - destruct IH as (outs & F & E); [intros ip port d I; apply (H ip port d); right; assumption|].
    destruct (status_turn_answer e) as (out & T & A).
    { intros ip port d [I|[]]. apply (H ip port d). left. assumption. }
    exists (out :: outs). split; [constructor; assumption|].
    cbn [status_run]. rewrite T, E. reflexivity.
Qed.

Lemma status_run_app : forall a b, fst (status_run a) = true ->
  status_run (a ++ b) = (fst (status_run b), snd (status_run a) ++ snd (status_run b)).
Proof.
  induction a as [|e a IH]; intros b H; cbn [app status_run] in *.
  - destruct (status_run b); reflexivity.
  - destruct (status_turn e) as [out| |]; try discriminate H.
    rewrite IH by (destruct (status_run a); exact H).
    destruct (status_run a), (status_run b). cbn. rewrite app_assoc. reflexivity.
Qed.

Lemma stops_status_dec : forall d, {stops_status d} + {~ stops_status d}.
Proof.
  intros d. destruct (status_packet_try_from d) eqn:E.
  - right. intros H. apply status_try_from_panic in H. congruence.
  - right. intros H. apply status_try_from_panic in H. congruence.
  - left. apply status_try_from_panic. assumption.
Qed.

Lemma status_alive_iff : forall es, fst (status_run es) = true <-> none_stops es.
Proof.
  induction es as [|e es IH]; [split; [intros _ ip port d []|reflexivity]|].
  assert (D : none_stops [e] \/ exists ip port d, e = StatusDatagram ip port d /\ stops_status d).
  { destruct e as [ip port d|]; [|left; intros ip port d [I|[]]; discriminate].
    destruct (stops_status_dec d) as [S|S]; [right; do 3 eexists; split; [reflexivity|assumption]|].
    left. intros ip' port' d' [I|[]]. inversion I; subst. assumption. }
  destruct D as [D|(ip & port & d & -> & S)].
  - destruct (status_turn_answer e D) as (out & T & _). cbn [status_run]. rewrite T.
    assert (X : fst (let '(alive, rest) := status_run es in (alive, out ++ rest)) = fst (status_run es)).
    { destruct (status_run es). reflexivity. }
    rewrite X, IH. split; intros H ip port d I.
    + destruct I as [I|I]; [apply (D ip port d); left; assumption|apply (H ip port d); assumption].
    + apply (H ip port d). right. assumption.
  - cbn [status_run]. rewrite status_turn_stop by assumption. cbn [fst]. split; [discriminate|].
    intros H. exfalso. apply (H ip port d); [left; reflexivity|assumption].
Qed.

(** ** Round trip of status packets *)

Lemma status_encode_parts : forall p b, status_packet_encode p = Ok b ->
  exists n c, len (utf8_encode (sp_model p)) <= 20 /\
    status_content_encode (sp_content p) = Ok c /\
    len (utf8_encode (sp_model p) ++ repeat 0 n) = 20 /\
    b = lit "Qspt1WmJOL" ++ status_kind_encode (sp_kind p) ++
        (utf8_encode (sp_model p) ++ repeat 0 n) ++ [1; sp_unknown1 p; 17] ++ c.
Proof.
  intros p b H. unfold status_packet_encode in H.
  destruct (N.le_gt_cases (len (utf8_encode (sp_model p))) 20) as [L|L].
  - destruct (model_encode_short _ L) as (n & E & Ln). rewrite E in H. cbn [rbind] in H.
    apply rbind_ok in H. destruct H as (c & Hc & H). exists n, c.
    split; [assumption|]. split; [assumption|]. split; [assumption|].
    match type of H with Ok ?x = Ok ?y => assert (Eb : y = x) by congruence end. exact Eb.
  - rewrite model_encode_long in H by assumption. discriminate.
Qed.

Lemma status_facts : forall k name u c, len name = 20 ->
  let d := lit "Qspt1WmJOL" ++ [k] ++ name ++ [1; u; 17] ++ c in
  slice 0 10 d = lit "Qspt1WmJOL" /\ octet 10 d = k /\ slice 11 20 d = name /\
  octet 32 d = u /\ octet 33 d = 17 /\ skipn 34 d = c /\ reaches 34 d.
Proof.
  intros k name u c Hn d. apply (len_nat _ 20) in Hn.
  do 20 (destruct name as [|? name]; [discriminate Hn|]).
  destruct name; [|discriminate Hn]. unfold d.
  repeat split; try reflexivity. unfold reaches. cbn. lia.
Qed.

Lemma status_roundtrip : forall p,
  str_ok (sp_model p) ->
  (forall r, sp_content p = SLinkReply r -> link_reply_typed r) ->
  ((exists b, status_packet_encode p = Ok b /\ status_packet_try_from b = Ok p) <->
   sp_kind p = KLinkReply /\ sp_content p = SLinkReply periodic_reply /\
   sp_player_number p = 17 /\
   len (utf8_encode (sp_model p)) <= 20 /\ (forall t, sp_model p <> t ++ [0])).
Proof.
  intros p Hm Ht. split.
  - intros (b & Eb & D). apply status_encode_parts in Eb.
    destruct Eb as (n & c & L & Ec & Ln & ->).
    assert (Ek : exists k, status_kind_encode (sp_kind p) = [k]) by (eexists; reflexivity).
    destruct Ek as (k & Ek). rewrite Ek in D.
    destruct (status_facts k _ (sp_unknown1 p) c Ln) as (F1 & F2 & F3 & F4 & F5 & F6 & F7).
    set (d := lit "Qspt1WmJOL" ++ [k] ++ (utf8_encode (sp_model p) ++ repeat 0 n) ++
              [1; sp_unknown1 p; 17] ++ c) in *.
    destruct (status_header_cases d) as [(H & s & Hs & E)|[H E]]; rewrite E in D; [|discriminate].
    rewrite F2, F4, F5, F6 in D. rewrite F3 in Hs.
    destruct (status_decode_content (kind_of_code k) c) as [[rest cc]| |] eqn:Dc; try discriminate.
    cbn [rbind] in D. assert (Ep : p = mkStatusPacket (kind_of_code k) s (sp_unknown1 p) 17 cc) by congruence.
    assert (E1 : sp_kind p = kind_of_code k) by (rewrite Ep; reflexivity).
    assert (E2 : sp_model p = s) by (rewrite Ep; reflexivity).
    assert (E3 : sp_player_number p = 17) by (rewrite Ep; reflexivity).
    assert (E4 : sp_content p = cc) by (rewrite Ep; reflexivity).
    clear Ep D. subst s cc.
    assert (X : kind_of_code k = KLinkReply /\ exists r, sp_content p = SLinkReply r).
    { destruct (sp_content p) as [| | | | |r| |name|] eqn:Cp; try discriminate Ec.
      - split; [|eauto]. destruct (kind_of_code k); cbn [status_decode_content] in Dc; try discriminate Dc; auto.
        + unfold cdj_decode in Dc. repeat (apply rbind_ok in Dc; destruct Dc as ([? ?] & _ & Dc)). discriminate.
        + unfold link_query_decode in Dc. repeat (apply rbind_ok in Dc; destruct Dc as ([? ?] & _ & Dc)). discriminate.
      - exfalso. destruct (kind_of_code k); cbn [status_decode_content] in Dc; try discriminate Dc.
        + unfold cdj_decode in Dc. repeat (apply rbind_ok in Dc; destruct Dc as ([? ?] & _ & Dc)). discriminate.
        + unfold link_query_decode in Dc. repeat (apply rbind_ok in Dc; destruct Dc as ([? ?] & _ & Dc)). discriminate.
        + unfold link_reply_decode in Dc. repeat (apply rbind_ok in Dc; destruct Dc as ([? ?] & _ & Dc)). discriminate. }
    destruct X as (Xk & r & Xr). rewrite Xk in Dc, E1. cbn [status_decode_content] in Dc.
    rewrite Xr in *. cbn [status_content_encode] in Ec.
    rewrite (link_reply_fixpoint r c rest (Ht r eq_refl) Ec Dc).
    split; [assumption|]. split; [reflexivity|]. split; [assumption|]. split; [assumption|]. apply Hs.
  - intros (Hk & Hc & Hp & L & Hn).
    destruct (model_encode_short _ L) as (n & E & Ln).
    unfold status_packet_encode. rewrite E, Hc, Hk. cbn [rbind status_content_encode].
    rewrite periodic_reply_bytes. cbn [rbind]. eexists. split; [reflexivity|].
    set (c := [0; 156; 0; 0; 0; 17; 0; 0; 0] ++
              firstn 149 (List.concat (repeat [0; 156; 0; 0; 0; 17; 0; 0; 0] 17))).
    change (UDP_MAGIC ++ status_kind_encode KLinkReply) with (lit "Qspt1WmJOL" ++ [6]).
    destruct (status_facts 6 _ (sp_unknown1 p) c Ln) as (F1 & F2 & F3 & F4 & F5 & F6 & F7).
    change (UDP_MAGIC ++ status_kind_encode KLinkReply ++ (utf8_encode (sp_model p) ++ repeat 0 n) ++
            [1; sp_unknown1 p; 17] ++ c) with
      (lit "Qspt1WmJOL" ++ [6] ++ (utf8_encode (sp_model p) ++ repeat 0 n) ++ [1; sp_unknown1 p; 17] ++ c).
    set (d := lit "Qspt1WmJOL" ++ [6] ++ (utf8_encode (sp_model p) ++ repeat 0 n) ++
              [1; sp_unknown1 p; 17] ++ c) in *.
    assert (Nf : name_field (slice 11 20 d) (sp_model p)).
    { rewrite F3. split; [assumption|]. split; [assumption|]. eauto. }
    destruct (status_header_cases d) as [(H & s & Hs & E2)|[H E2]].
    2:{ exfalso. apply H. split; [assumption|]. split; [assumption|]. apply utf8_text_name. eauto. }
    rewrite E2, F2, F4, F5, F6. change (kind_of_code 6) with KLinkReply. cbn [status_decode_content].
    assert (Dc : link_reply_decode c = Ok ([17; 0; 0; 0; 0; 156; 0; 0; 0], SLinkReply periodic_reply))
      by (vm_compute; reflexivity).
    rewrite Dc. cbn [rbind]. rewrite (name_field_functional _ _ _ Hs Nf).
    destruct p. cbn in *. congruence.
Qed.
