(** Property theorems C24-C27 (keep-alive datagrams) and C36-C39, C72 (status
    datagrams and the status service). *)

From Verif Require Import Base Unicode MPackets MKeepalive MStatus SUdp LBase LUnicode LUdp LStatus LStatus2.
From Coq Require Import ZArith String.
Open Scope list_scope.
Open Scope N_scope.

(** ** C24 *)

(** A datagram is decoded to [p] exactly if its bytes, at fixed offsets, say [p]. *)
Theorem C24_decoded_by_offsets : forall d p, ka_receive d = Ok p <-> ka_says d p.
Proof. intros. rewrite ka_receive_whole. apply ka_try_from_iff. Qed.
Print Assumptions C24_decoded_by_offsets.

(** No datagram makes the decoder panic. *)
Theorem C24_no_panic : forall d, ka_receive d <> Panic.
Proof.
  intros d. rewrite ka_receive_whole.
  destruct (ka_cases d) as [(p & _ & E)|(_ & _ & E)]; rewrite E; discriminate.
Qed.
Print Assumptions C24_no_panic.

(** The datagrams that are accepted, in terms of their bytes. *)
Theorem C24_accepted_exactly : forall d, (exists p, ka_receive d = Ok p) <-> ka_acceptable d.
Proof.
  intros d. rewrite ka_receive_whole.
  destruct (ka_cases d) as [(p & S & E)|(_ & N & E)]; rewrite E.
  - split; [intros _|eauto].
    destruct S as (S1 & S2 & S3 & S4 & S5 & S6 & S7). unfold ka_acceptable.
    split; [assumption|]. split.
    { rewrite S2. destruct (ka_kind_of p), (ka_content_of p); cbn in S7; try contradiction;
        (eexists; split; [reflexivity|apply S7]). }
    split; [apply utf8_text_name; eauto|].
    split; [rewrite S5; destruct (ka_device p); cbn; lia|].
    intros K. rewrite S2 in K.
    destruct (ka_kind_of p), (ka_content_of p); cbn in S7, K; try contradiction; try discriminate.
    destruct S7 as (_ & _ & _ & _ & _ & A). rewrite A. destruct player_number_assignment; lia.
  - split; [intros (p & H); discriminate|intros A; contradiction].
Qed.
Print Assumptions C24_accepted_exactly.

(** Bytes behind the first 54, cut off by the receive buffer or not, never
    matter. *)
Theorem C24_tail_ignored : forall d e, slice 0 54 d = slice 0 54 e -> ka_receive d = ka_receive e.
Proof.
  intros d e H. rewrite !ka_receive_whole.
  assert (G : forall x, ka_try_from x = ka_try_from (firstn 54 x)).
  { intros x. destruct (ka_cases x) as [(q & S & E)|(S & _ & E)]; rewrite E; symmetry.
    - apply ka_try_from_iff. apply ka_says_firstn; [lia|assumption].
    - destruct (ka_cases (firstn 54 x)) as [(q & S2 & E2)|(_ & _ & E2)]; [|assumption].
      exfalso. apply (S q). apply (ka_says_firstn 54 x q); [lia|assumption]. }
  rewrite (G d), (G e). f_equal. exact H.
Qed.
Print Assumptions C24_tail_ignored.

(** A status announcement of a CDJ, as a player sends it. *)
Definition example_status : bytes :=
  lit "Qspt1WmJOL" ++ [6; 0] ++ lit "XDJ-700" ++ repeat 0 13 ++ [1; 2; 0; 0x36]
  ++ [3; 1] ++ [0xc8; 0x3d; 0xfc; 4; 5; 6] ++ [192; 168; 10; 52] ++ [2; 0; 0; 0; 1; 0].
Example C24_case :
  ka_receive example_status =
  Ok (mkKa KaStatus SubStatus (lit "XDJ-700") 1 DevCdj
        (CStatus 3 1 [0xc8; 0x3d; 0xfc; 4; 5; 6] 3232238132 2 1 0)) /\
  ka_receive (firstn 53 example_status) = Err /\ ka_receive [] = Err.
Proof. vm_compute. auto. Qed.

(** ** C25 *)

(** A packet is read back from its bytes exactly if it is consistent. *)
Theorem C25_roundtrip_exactly : forall p, ka_typed p ->
  ((exists b, ka_encode p = Ok b /\ ka_try_from b = Ok p) <-> ka_consistent p).
Proof. exact ka_roundtrip. Qed.
Print Assumptions C25_roundtrip_exactly.

(** The Ip claims the server sends, iterations and indices 1 to 6, are never
    decoded to themselves; what comes out has the sequence byte for iteration
    and the iteration for index. *)
Theorem C25_ip_claims_not_returned : forall iteration index ip m,
  1 <= iteration <= 6 -> 1 <= index <= 6 -> ip < 4294967296 -> len m = 6 -> bytes_ok m ->
  exists b s, ka_encode (ka_ip_package iteration index ip m) = Ok b /\
    ka_try_from b = Ok (ka_ip_package s iteration ip m) /\
    nth (N.to_nat index) [0; 0x11; 0x12; 0x29; 0x2a; 0x2b; 0x2c] 0 = s /\
    ka_ip_package s iteration ip m <> ka_ip_package iteration index ip m.
Proof.
  intros it ix ip m Hit Hix Hip Hm Hb.
  assert (S : nth (N.to_nat ix) [0; 0x11; 0x12; 0x29; 0x2a; 0x2b; 0x2c] 0 = map_sequence_byte ix /\
              17 <= map_sequence_byte ix).
  { assert (C : ix = 1 \/ ix = 2 \/ ix = 3 \/ ix = 4 \/ ix = 5 \/ ix = 6) by lia.
    destruct C as [->|[->|[->|[->|[->| ->]]]]]; split; try reflexivity; vm_compute; discriminate. }
  destruct S as [S1 S2].
  apply len6 in Hm. destruct Hm as (a & b & c & d & e & f & ->).
  destruct (len4 (be 4 ip)) as (i1 & i2 & i3 & i4 & Ei); [apply be_len|].
  pose proof (of_be_be_small 4 ip Hip) as Eo. rewrite Ei in Eo.
  rewrite S1.
  eexists _, (map_sequence_byte ix). split.
  { unfold ka_encode. cbn [ka_ip_package ka_model ka_kind_of ka_unknown1 ka_device ka_subkind
      ka_content_of ka_content_encode]. unfold ip_addr_to_bytes. rewrite Ei. reflexivity. }
  clear S1. generalize dependent (map_sequence_byte ix). intros s S2.
  split; [|split; [reflexivity|]].
  - apply ka_try_from_iff. split; [reflexivity|]. split; [reflexivity|]. split.
    { split; [apply utf8_decode_some with (l := utf8_encode (lit "rekordbox")); vm_compute; reflexivity|].
      split; [|exists 11%nat; reflexivity].
      intros t H. apply (f_equal (@rev N)) in H. rewrite rev_app_distr in H. vm_compute in H. discriminate. }
    repeat split; try reflexivity.
    + unfold reaches. apply Nat.leb_le. reflexivity.
    + symmetry. exact Eo.
  - intros H. injection H as H1 _. lia.
Qed.
Print Assumptions C25_ip_claims_not_returned.

(** A packet that survives, and three that do not: a kind with foreign content,
    a status with another last byte, a name ending in NUL. *)
Definition example_packet : ka_packet :=
  mkKa KaStatus SubStatus (lit "Linux") 1 DevRekordbox
    (CStatus 17 1 [255; 255; 255; 255; 255; 255] 3232238130 1 4 8).
Example C25_case : ka_typed example_packet /\ ka_consistent example_packet /\
  (exists b, ka_encode example_packet = Ok b /\ ka_try_from b = Ok example_packet).
Proof.
  assert (T : ka_typed example_packet).
  { split; [apply utf8_decode_some with (l := utf8_encode (lit "Linux")); vm_compute; reflexivity|].
    cbn. repeat split; try lia. repeat constructor. }
  assert (C : ka_consistent example_packet).
  { split; [vm_compute; discriminate|]. split; [|repeat split].
    intros t H. apply (f_equal (@rev N)) in H. rewrite rev_app_distr in H. vm_compute in H. discriminate. }
  split; [exact T|]. split; [exact C|]. apply C25_roundtrip_exactly; assumption.
Qed.
Example C25_case_not :
  let bad p := forall b, ka_encode p = Ok b -> ka_try_from b <> Ok p in
  bad (mkKa KaMac SubMac (lit "x") 1 DevCdj (CNumber 1 2)) /\
  bad (mkKa KaStatus SubStatus (lit "x") 1 DevCdj (CStatus 1 1 [1; 2; 3; 4; 5; 6] 1 1 4 7)) /\
  bad (mkKa KaHello SubHello (lit "x" ++ [0]) 1 DevCdj (CHello 1)).
Proof. cbv zeta. repeat split; intros b H; vm_compute in H; injection H as <-; vm_compute; discriminate. Qed.

(** ** C26 *)

(** Common part of the announcements: [size] bytes, which the byte at offset 35
    repeats, the magic, the kind and the device name. *)
Definition announcement (size kind : N) (b : bytes) : Prop :=
  len b = size /\ octet 35 b = size /\
  slice 0 10 b = lit "Qspt1WmJOL" /\ octet 10 b = kind /\ octet 11 b = 0 /\
  slice 12 20 b = ascii_padded 20 "rekordbox" /\
  octet 32 b = 1 /\ octet 33 b = 3 /\ octet 34 b = 0.

(** The first kind of announcement, byte by byte. *)
Theorem C26_mac_claim : forall iteration m, len m = 6 ->
  exists b, ka_encode (ka_mac_package iteration m) = Ok b /\ announcement 0x2c 0x00 b /\
    octet 36 b = iteration /\ octet 37 b = 4 /\ slice 38 6 b = m.
Proof.
  intros it m H. apply len6 in H. destruct H as (m1 & m2 & m3 & m4 & m5 & m6 & ->).
  eexists. split; [vm_compute; reflexivity|]. unfold announcement. repeat split; reflexivity.
Qed.
Print Assumptions C26_mac_claim.

(** The second kind. *)
Theorem C26_ip_claim : forall iteration index ip m, ip < 4294967296 -> len m = 6 ->
  1 <= index <= 6 ->
  exists b, ka_encode (ka_ip_package iteration index ip m) = Ok b /\ announcement 0x32 0x02 b /\
    number_at 36 4 b = ip /\ slice 40 6 b = m /\
    octet 46 b = nth (N.to_nat index) [0; 0x11; 0x12; 0x29; 0x2a; 0x2b; 0x2c] 0 /\
    octet 47 b = iteration /\ octet 48 b = 4 /\ octet 49 b = 1.
Proof.
  intros it ix ip m Hip H Hix. apply len6 in H. destruct H as (m1 & m2 & m3 & m4 & m5 & m6 & ->).
  destruct (len4 (be 4 ip)) as (i1 & i2 & i3 & i4 & Ei); [apply be_len|].
  pose proof (of_be_be_small 4 ip Hip) as Eo. rewrite Ei in Eo.
  assert (S : nth (N.to_nat ix) [0; 0x11; 0x12; 0x29; 0x2a; 0x2b; 0x2c] 0 = map_sequence_byte ix).
  { assert (C : ix = 1 \/ ix = 2 \/ ix = 3 \/ ix = 4 \/ ix = 5 \/ ix = 6) by lia.
    destruct C as [->|[->|[->|[->|[->| ->]]]]]; reflexivity. }
  rewrite S.
  eexists. split.
  { unfold ka_encode. cbn [ka_ip_package ka_model ka_kind_of ka_unknown1 ka_device ka_subkind
      ka_content_of ka_content_encode]. unfold ip_addr_to_bytes. rewrite Ei. reflexivity. }
  unfold announcement.
  repeat split; try reflexivity. exact Eo.
Qed.
Print Assumptions C26_ip_claim.

(** The third kind. *)
Theorem C26_status : forall ip m unknown3 unknown4, ip < 4294967296 -> len m = 6 -> unknown3 < 65536 ->
  exists b, ka_encode (ka_status_package ip m unknown3 unknown4) = Ok b /\ announcement 0x36 0x06 b /\
    octet 36 b = 17 /\ octet 37 b = 1 /\ slice 38 6 b = m /\ number_at 44 4 b = ip /\
    octet 48 b = 1 /\ octet 49 b = 1 /\ octet 50 b = 0 /\ number_at 51 2 b = unknown3 /\
    octet 53 b = 8.
Proof.
  intros ip m u3 u4 Hip H H3. apply len6 in H. destruct H as (m1 & m2 & m3 & m4 & m5 & m6 & ->).
  destruct (len4 (be 4 ip)) as (i1 & i2 & i3 & i4 & Ei); [apply be_len|].
  pose proof (of_be_be_small 4 ip Hip) as Eo. rewrite Ei in Eo.
  destruct (len2 (be 2 u3)) as (u1 & u2 & Eu); [apply be_len|].
  pose proof (of_be_be_small 2 u3 H3) as Eq. rewrite Eu in Eq.
  eexists. split.
  { unfold ka_encode. cbn [ka_status_package ka_model ka_kind_of ka_unknown1 ka_device ka_subkind
      ka_content_of ka_content_encode]. unfold ip_addr_to_bytes. rewrite Ei, Eu. reflexivity. }
  unfold announcement. repeat split; try reflexivity; assumption.
Qed.
Print Assumptions C26_status.

(** The datagram of the repository's own test [test_mac_iteration]
    (keepalive.rs:702-726). *)
Example C26_case :
  ka_encode (ka_mac_package 1 [0xac; 0x87; 0xa3; 0x35; 0xbc; 0x4d]) =
  Ok [0x51; 0x73; 0x70; 0x74; 0x31; 0x57; 0x6d; 0x4a; 0x4f; 0x4c; 0x00; 0x00; 0x72; 0x65;
      0x6b; 0x6f; 0x72; 0x64; 0x62; 0x6f; 0x78; 0x00; 0x00; 0x00; 0x00; 0x00; 0x00; 0x00;
      0x00; 0x00; 0x00; 0x00; 0x01; 0x03; 0x00; 0x2c; 0x01; 0x04; 0xac; 0x87; 0xa3; 0x35;
      0xbc; 0x4d].
Proof. reflexivity. Qed.

(** ** C27 *)

(** A name is read from 20 bytes, which are then consumed, exactly if they hold it. *)
Theorem C27_decode : forall i r s,
  model_decode i = Ok (r, s) <-> exists b, i = b ++ r /\ len b = 20 /\ name_field b s.
Proof.
  intros i r s. unfold model_decode. split.
  - intros H. apply rbind_ok in H. destruct H as ([i1 b] & H1 & H). apply take_ok in H1.
    destruct H1 as [-> L]. exists b.
    destruct (utf8_decode b) as [u|] eqn:E; [|discriminate]. inversion H; subst.
    split; [reflexivity|]. split; [assumption|]. apply name_field_decode. eauto.
  - intros (b & -> & L & H). rewrite take_app by assumption. cbn [rbind].
    apply name_field_decode in H. destruct H as (u & -> & ->). reflexivity.
Qed.
Print Assumptions C27_decode.

(** It never panics and fails exactly if there are fewer than 20 bytes or they are not
    UTF-8. *)
Theorem C27_decode_fails : forall i,
  model_decode i <> Panic /\
  (model_decode i = Err <-> len i < 20 \/ ~ utf8_text (firstn 20 i)).
Proof.
  intros i. unfold model_decode.
  destruct (take_cases 20 i) as [[L E]|(L & d & r & -> & Ld & E)]; rewrite E; cbn [rbind].
  - split; [discriminate|]. tauto.
  - assert (F : firstn 20 (d ++ r) = d) by (apply (slice_app_l 20); unfold len in Ld; lia).
    rewrite F, utf8_text_decode. destruct (utf8_decode d); split; try discriminate; split; intro H;
      try discriminate; try reflexivity.
    + destruct H as [H|H]; [lia|]. exfalso. apply H. discriminate.
    + right. intros X. apply X. reflexivity.
Qed.
Print Assumptions C27_decode_fails.

(** Encoding: 20 bytes that decode to the name without its trailing NULs, or a
    panic if the name is longer. *)
Theorem C27_encode : forall s, str_ok s ->
  (len (utf8_encode s) <= 20 ->
   exists b t n, model_encode s = Ok b /\ len b = 20 /\
     s = t ++ repeat 0 n /\ (forall u, t <> u ++ [0]) /\
     forall r, model_decode (b ++ r) = Ok (r, t)) /\
  (20 < len (utf8_encode s) -> model_encode s = Panic).
Proof.
  intros s Hs. split; [|apply model_encode_long].
  intros L. destruct (model_encode_short _ L) as (k & E & Lk).
  destruct (trim_nuls_spec s) as [T1 [n T2]].
  eexists _, (trim_nuls s), n. split; [exact E|]. split; [exact Lk|]. split; [exact T2|].
  split; [exact T1|]. intros r. apply C27_decode. eexists. split; [reflexivity|]. split; [exact Lk|].
  split; [rewrite T2 in Hs; apply str_ok_app in Hs; tauto|]. split; [exact T1|].
  exists (n + k)%nat. rewrite T2 at 1. rewrite utf8_encode_app, utf8_nuls, repeat_app, app_assoc.
  reflexivity.
Qed.
Print Assumptions C27_encode.

(** A name with a two-byte character, one of exactly 20 bytes, one of 21. *)
Example C27_case :
  (exists b, model_encode (lit "DJ " ++ [0xd6]) = Ok b /\ model_decode b = Ok ([], lit "DJ " ++ [0xd6])) /\
  model_encode (repeat 65 20) = Ok (repeat 65 20) /\
  model_encode (repeat 65 21) = Panic.
Proof. split; [eexists; split|split]; vm_compute; reflexivity. Qed.

(** ** C36 *)

(** The service is alive after a history exactly if no datagram of it stops it. *)
Theorem C36_stopped_exactly : forall es, fst (status_run es) = true <-> none_stops es.
Proof. exact status_alive_iff. Qed.
Print Assumptions C36_stopped_exactly.

(** After a stopping datagram nothing is ever sent again. *)
Theorem C36_silent_afterwards : forall before ip port d after,
  none_stops before -> stops_status d ->
  status_run (before ++ StatusDatagram ip port d :: after) = (false, snd (status_run before)).
Proof.
  intros before ip port d after Hb Hs. rewrite status_run_app by (apply status_alive_iff; assumption).
  cbn [status_run]. rewrite status_turn_stop by assumption. cbn [fst snd]. rewrite app_nil_r. reflexivity.
Qed.
Print Assumptions C36_silent_afterwards.

(** 34 bytes of an unknown kind suffice, for every kind byte not understood. *)
Theorem C36_unstoppable_refuted : forall k, ~ In k status_kinds_known ->
  forall ip port, fst (status_run [StatusDatagram ip port (lit "Qspt1WmJOL" ++ [k] ++ repeat 0 23)]) = false.
Proof.
  intros k Hk ip port.
  destruct (fst (status_run [StatusDatagram ip port (lit "Qspt1WmJOL" ++ [k] ++ repeat 0 23)])) eqn:E;
    [|reflexivity].
  exfalso. apply status_alive_iff in E. apply (E ip port _ (or_introl eq_refl)).
  split; [|exact Hk]. split; [reflexivity|]. split; [unfold reaches; cbn; lia|].
  exists (repeat 0 20). split; [apply str_ok_nuls|reflexivity].
Qed.
Print Assumptions C36_unstoppable_refuted.

Example C36_case : ~ In 0x19 status_kinds_known /\
  status_run [StatusDatagram 1 2 (lit "Qspt1WmJOL" ++ [0x19] ++ repeat 0 300); StatusDatagram 1 2 []]
  = (false, []) /\
  fst (status_run [StatusDatagram 1 2 (lit "Qspt1WmJOL" ++ [0x29] ++ repeat 0 23); StatusDatagram 1 2 []]) = true.
Proof. split; [cbn; intros [?|[?|[?|[?|[?|[]]]]]]; discriminate|]. vm_compute. auto. Qed.

(** ** C37 *)

(** Over a history without a stopping datagram, each input is answered as
    specified, in order. *)
Theorem C37_answers : forall es, none_stops es ->
  exists outs, Forall2 status_answer es outs /\ status_run es = (true, List.concat outs).
Proof. exact status_run_answers. Qed.
Print Assumptions C37_answers.

(** The replies have the documented sizes and the reader of the fixed offsets
    finds the fields in them. *)
Theorem C37_reply_layout : forall u,
  len hello_reply = 296 /\ len (link_answer u) = 192 /\
  slice 40 256 hello_reply = utf16_padded 256 (lit "Term DJ") /\
  octet 32 (link_answer u) = u /\ number_at 34 2 (link_answer u) = 156 /\
  octet 39 (link_answer u) = 17 /\ octet 43 (link_answer u) = 4 /\
  slice 44 64 (link_answer u) = utf16_padded 64 (lit "Term DJ") /\
  number_at 164 4 (link_answer u) = 1051 /\ number_at 172 4 (link_answer u) = 94 /\
  number_at 176 8 (link_answer u) = 0 /\ number_at 184 8 (link_answer u) = 0.
Proof. intros u. repeat split; vm_compute; reflexivity. Qed.
Print Assumptions C37_reply_layout.

(** Number of replies: as many as hellos and link queries. *)
Theorem C37_reply_count : forall es hello query,
  none_stops es ->
  (forall ip port d, hello (StatusDatagram ip port d) = true <-> is_hello d) ->
  (forall ip port d, query (StatusDatagram ip port d) = true <-> is_link_query d) ->
  hello StatusRecvError = false -> query StatusRecvError = false ->
  List.length (snd (status_run es)) =
  (List.length (filter hello es) + List.length (filter query es))%nat.
Proof.
  intros es hello query Hn Hh Hq Eh Eq.
  destruct (status_run_answers es Hn) as (outs & F & E). rewrite E. cbn [snd]. clear E Hn.
  induction F as [|e out es outs A F IH]; [reflexivity|].
  cbn [List.concat filter]. rewrite app_length, IH.
  destruct e as [ip port d|].
  - specialize (Hh ip port d). specialize (Hq ip port d). destruct A as (A1 & A2 & A3).
    destruct (hello (StatusDatagram ip port d)) eqn:E1, (query (StatusDatagram ip port d)) eqn:E2; cbn [List.length].
    + exfalso. destruct (proj1 Hh eq_refl) as [_ H1]. destruct (proj1 Hq eq_refl) as [_ [H2 _]].
      rewrite H1 in H2. discriminate.
    + rewrite (A1 (proj1 Hh eq_refl)). reflexivity.
    + rewrite (A2 (proj1 Hq eq_refl)). cbn [List.length]. lia.
    + rewrite A3; [reflexivity| |]; intro H; [apply Hh in H|apply Hq in H]; discriminate.
  - cbn in A. subst out. rewrite Eh, Eq. reflexivity.
Qed.
Print Assumptions C37_reply_count.

Example C37_case :
  let hello := lit "Qspt1WmJOL" ++ [0x10] ++ lit "CDJ" ++ repeat 0 17 ++ [1; 0; 2] in
  let query := lit "Qspt1WmJOL" ++ [0x05] ++ lit "CDJ" ++ repeat 0 17 ++ [1; 7; 2]
               ++ [0; 12; 192; 168; 0; 9; 0; 0; 0; 17; 0; 0; 0; 4] in
  is_hello hello /\ is_link_query query /\
  status_run [StatusDatagram 9 50002 hello; StatusRecvError; StatusDatagram 8 1234 query;
              StatusDatagram 8 1234 (firstn 47 query)]
  = (true, [(9, 50002, hello_reply); (8, 50002, link_answer 7)]).
Proof.
  cbv zeta. split; [|split].
  - split; [|reflexivity]. split; [reflexivity|]. split; [unfold reaches; cbn; lia|].
    exists (lit "CDJ" ++ repeat 0 17). split; [|reflexivity].
    apply utf8_decode_some with (l := lit "CDJ" ++ repeat 0 17). reflexivity.
  - split; [|split; [reflexivity|unfold reaches; cbn; lia]].
    split; [reflexivity|]. split; [unfold reaches; cbn; lia|].
    exists (lit "CDJ" ++ repeat 0 17). split; [|reflexivity].
    apply utf8_decode_some with (l := lit "CDJ" ++ repeat 0 17). reflexivity.
  - vm_compute. reflexivity.
Qed.

(** ** C38 *)

(** A text that fits is padded with zeros to the width; one that does not is a panic. *)
Theorem C38_encode : forall s c,
  (len (utf16_be s) <= c ->
   fixed_encode (mkFixed s c) = Ok (utf16_be s ++ repeat 0 (N.to_nat (c - len (utf16_be s)))) /\
   len (utf16_be s ++ repeat 0 (N.to_nat (c - len (utf16_be s)))) = c) /\
  (c < len (utf16_be s) -> fixed_encode (mkFixed s c) = Panic).
Proof.
  intros s c. split; [|apply fixed_encode_over]. intros H. split; [apply fixed_encode_fits; assumption|].
  rewrite len_app, len_repeat. lia.
Qed.
Print Assumptions C38_encode.

(** Decoding an encoded text gives the text followed by NULs up to the capacity;
    it is the text itself exactly if it fills the capacity. *)
Theorem C38_decode_encoded : forall s c r, str_ok s -> len (utf16_be s) <= c -> bytes_ok r ->
  exists b t, fixed_encode (mkFixed s c) = Ok b /\
    t = s ++ repeat 0 (N.to_nat (c / 2 - len (utf16_encode s))) /\
    fixed_decode c (b ++ r) = Ok (repeat 0 (N.to_nat (c mod 2)) ++ r, mkFixed t c) /\
    (t = s <-> c / 2 = len (utf16_encode s)).
Proof.
  intros s c r Hs Hc Hr. destruct (fixed_roundtrip s c r Hs Hc) as (b & E & _ & D).
  exists b. eexists. split; [exact E|]. split; [reflexivity|]. split; [apply D; exact Hr|].
  rewrite utf16_be_len in Hc. split.
  - intros H. apply (f_equal (@len N)) in H. rewrite len_app, len_repeat in H. lia.
  - intros H. rewrite H, N.sub_diag. apply app_nil_r.
Qed.
Print Assumptions C38_decode_encoded.

(** Decoding in general, and that it never panics. *)
Theorem C38_decode : forall c i r f, bytes_ok i ->
  fixed_decode c i <> Panic /\
  (fixed_decode c i = Ok (r, f) <->
   fx_capacity f = c /\ str_ok (fx_value f) /\
   len (utf16_be (fx_value f)) = 2 * (c / 2) /\ i = utf16_be (fx_value f) ++ r).
Proof. intros. split; [apply fixed_decode_no_panic|apply fixed_decode_iff; assumption]. Qed.
Print Assumptions C38_decode.

Example C38_case :
  str_ok (lit "Term DJ") /\ len (utf16_be (lit "Term DJ")) <= 64 /\
  fixed_decode 4 [0xd8; 0x34; 0xdd; 0x1e; 7] = Ok ([7], mkFixed [0x1d11e] 4) /\
  fixed_decode 4 [0xd8; 0x34; 0; 65; 7] = Err /\
  fixed_encode (mkFixed (lit "abc") 5) = Panic.
Proof.
  split; [apply utf8_decode_some with (l := lit "Term DJ"); reflexivity|].
  split; [vm_compute; discriminate|]. vm_compute. auto.
Qed.

(** ** C39 *)

(** Of all status packets, only link replies with the content [periodic_reply]
    from player 17 survive a round trip. *)
Theorem C39_only_periodic : forall p,
  str_ok (sp_model p) ->
  (forall r, sp_content p = SLinkReply r -> link_reply_typed r) ->
  ((exists b, status_packet_encode p = Ok b /\ status_packet_try_from b = Ok p) <->
   sp_kind p = KLinkReply /\ sp_content p = SLinkReply periodic_reply /\
   sp_player_number p = 17 /\
   len (utf8_encode (sp_model p)) <= 20 /\ (forall t, sp_model p <> t ++ [0])).
Proof. exact status_roundtrip. Qed.
Print Assumptions C39_only_periodic.

(** The decoder reads every field nine bytes before the place where the encoder
    puts it. *)
Theorem C39_nine_bytes_early : forall r b rest r', link_reply_typed r ->
  link_reply_encode r = Ok b ->
  link_reply_decode b = Ok (rest, SLinkReply r') ->
  slice 0 1 b = [slot_byte (lr_slot r')] /\
  slice 1 64 b = utf16_be (fx_value (lr_name r')) /\
  slice 65 24 b = utf16_be (fx_value (lr_date r')) /\
  slice 89 32 b = utf16_be (fx_value (lr_unknown5 r')) /\
  slice 121 4 b = be 4 (lr_track_count r') /\
  slice 129 4 b = be 4 (lr_playlist_count r') /\
  slice 133 8 b = be 8 (lr_bytes_total r') /\
  slice 141 8 b = be 8 (lr_bytes_free r') /\
  slice 9 1 b = [slot_byte (lr_slot r)].
Proof.
  intros r b rest r' Ht E D. change [slot_byte (lr_slot r)] with (slot_encode (lr_slot r)).
  change [slot_byte (lr_slot r')] with (slot_encode (lr_slot r')). pose proof (link_reply_typed_ok _ _ Ht E) as Hb.
  assert (S9 : slice 9 1 b = slot_encode (lr_slot r)).
  { unfold link_reply_encode in E.
    apply rbind_ok in E. destruct E as (x1 & _ & E).
    apply rbind_ok in E. destruct E as (x2 & _ & E).
    apply rbind_ok in E. destruct E as (x3 & _ & E).
    match type of E with Ok ?x = Ok ?y => assert (Eb : x = y) by congruence end.
    rewrite <- Eb. reflexivity. }
  apply link_reply_decode_sound in D; [|assumption].
  destruct D as (q & Q & -> & L & _ & L1 & _ & L2 & _ & L3 & _). injection Q as <-.
  clear E Ht Hb. unfold reply_body in *. rewrite <- !app_assoc in *.
  set (s := slot_encode (lr_slot r')) in *.
  assert (Ls : List.length s = 1%nat) by reflexivity. clearbody s.
  set (x1 := utf16_be (fx_value (lr_name r'))) in *.
  set (x2 := utf16_be (fx_value (lr_date r'))) in *.
  set (x3 := utf16_be (fx_value (lr_unknown5 r'))) in *.
  apply (len_nat x1 64) in L1. apply (len_nat x2 24) in L2. apply (len_nat x3 32) in L3.
  clearbody x1 x2 x3.
  assert (B : forall n x, List.length (be n x) = n) by apply be_length.
  split; [apply slice_app_l; assumption|].
  split; [rewrite slice_skip, Ls by lia; apply slice_app_l; assumption|].
  do 1 (split; [rewrite !slice_skip, Ls, L1 by (rewrite ?Ls, ?L1; lia); apply slice_app_l; assumption|]).
  do 1 (split; [rewrite !slice_skip, Ls, L1, L2 by (rewrite ?Ls, ?L1, ?L2; lia); apply slice_app_l; assumption|]).
  split; [rewrite slice_skip, Ls by lia; rewrite slice_skip, L1 by lia;
          rewrite slice_skip, L2 by lia; rewrite slice_skip, L3 by lia; apply slice_app_l; apply B|].
  split; [rewrite slice_skip, Ls by lia; rewrite slice_skip, L1 by lia;
          rewrite slice_skip, L2 by lia; rewrite slice_skip, L3 by lia;
          rewrite !slice_skip, !B by (rewrite !B; lia); apply slice_app_l; apply B|].
  split; [rewrite slice_skip, Ls by lia; rewrite slice_skip, L1 by lia;
          rewrite slice_skip, L2 by lia; rewrite slice_skip, L3 by lia;
          rewrite !slice_skip, !B by (rewrite !B; lia); apply slice_app_l; apply B|].
  split; [rewrite slice_skip, Ls by lia; rewrite slice_skip, L1 by lia;
          rewrite slice_skip, L2 by lia; rewrite slice_skip, L3 by lia;
          rewrite !slice_skip, !B by (rewrite !B; lia); apply slice_app_l; apply B|].
  exact S9.
Qed.
Print Assumptions C39_nine_bytes_early.

(** The surviving packet exists; the reply the server sends does not survive. *)
Example C39_case :
  status_packet_encode (mkStatusPacket KLinkReply (lit "Linux") 1 17 (SLinkReply periodic_reply)) <> Panic /\
  (forall b, status_packet_encode (mkStatusPacket KLinkReply (lit "Linux") 1 17 (SLinkReply periodic_reply)) = Ok b ->
     status_packet_try_from b = Ok (mkStatusPacket KLinkReply (lit "Linux") 1 17 (SLinkReply periodic_reply))) /\
  (exists p, status_packet_try_from (link_answer 1) = Ok p /\ status_packet_encode p <> Ok (link_answer 1)).
Proof.
  split; [vm_compute; discriminate|]. split.
  - intros b H. vm_compute in H. injection H as <-. vm_compute. reflexivity.
  - eexists. split; [vm_compute; reflexivity|]. vm_compute. discriminate.
Qed.

(** ** C72 *)

(** A status datagram is decoded to [p] exactly if its bytes, at fixed offsets, say
    [p]. *)
Theorem C72_decoded_by_offsets : forall d p, bytes_ok d ->
  (status_packet_try_from d = Ok p <-> status_says d p).
Proof. exact status_try_from_iff. Qed.
Print Assumptions C72_decoded_by_offsets.

(** Every datagram is decoded, refused, or makes the decoder panic (C36), and says
    at most one packet. *)
Theorem C72_at_most_one : forall d p q, bytes_ok d -> status_says d p -> status_says d q -> p = q.
Proof.
  intros d p q D P Q. apply status_try_from_iff in P; [|assumption].
  apply status_try_from_iff in Q; [|assumption]. congruence.
Qed.
Print Assumptions C72_at_most_one.

(** The kind of a status datagram is read from its code and written as its code;
    a code without a kind is kept. *)
Theorem C72_kinds : forall b rest k,
  (status_kind_decode (b :: rest) = Ok (rest, k) <-> names_kind b k) /\
  (status_kind_encode k = [b] <-> In (b, k) status_kind_codes \/ k = KUnknown b).
Proof.
  intros b rest k. split.
  - pose proof (status_kind_in 0 (b :: rest) (Nat.lt_0_succ _)) as X. cbn [skipn Nat.add] in X.
    change (octet 0 (b :: rest)) with b in X.
    rewrite X.
    transitivity (kind_of_code b = k).
    { split; [intros E; injection E as E; exact E|intros ->; reflexivity]. }
    unfold names_kind. split.
    + intros <-. destruct (in_dec N.eq_dec b (map fst status_kind_codes)) as [I|N].
      * left. cbn in I. repeat (destruct I as [<-|I]; [cbn; tauto|]). destruct I.
      * right. split; [|exact N]. clear -N. unfold kind_of_code.
        assert (Y : forall c, In c (map fst status_kind_codes) -> b <> c) by (intros c I ->; exact (N I)).
        pose proof (Y 0x0a ltac:(cbn; tauto)). pose proof (Y 0x29 ltac:(cbn; tauto)). pose proof (Y 0x19 ltac:(cbn; tauto)).
        pose proof (Y 0x1a ltac:(cbn; tauto)). pose proof (Y 0x05 ltac:(cbn; tauto)). pose proof (Y 0x06 ltac:(cbn; tauto)).
        pose proof (Y 0x10 ltac:(cbn; tauto)). pose proof (Y 0x11 ltac:(cbn; tauto)). clear Y N.
        destruct b as [|q]; [reflexivity|].
        do 6 (destruct q as [q|q|]; try reflexivity; try congruence).
    + intros [I|[-> N]].
      * cbn in I. repeat (destruct I as [I|I]; [injection I as <- <-; reflexivity|]). destruct I.
      * unfold kind_of_code.
        assert (Y : forall c, In c (map fst status_kind_codes) -> b <> c) by (intros c I ->; exact (N I)).
        pose proof (Y 0x0a ltac:(cbn; tauto)). pose proof (Y 0x29 ltac:(cbn; tauto)). pose proof (Y 0x19 ltac:(cbn; tauto)).
        pose proof (Y 0x1a ltac:(cbn; tauto)). pose proof (Y 0x05 ltac:(cbn; tauto)). pose proof (Y 0x06 ltac:(cbn; tauto)).
        pose proof (Y 0x10 ltac:(cbn; tauto)). pose proof (Y 0x11 ltac:(cbn; tauto)). clear Y N.
        destruct b as [|q]; [reflexivity|].
        do 6 (destruct q as [q|q|]; try reflexivity; try congruence).
  - split.
    + intros E. destruct k; cbn in E; injection E as <-; cbn; tauto.
    + intros [I| ->]; [|reflexivity]. cbn in I.
      repeat (destruct I as [I|I]; [injection I as <- <-; reflexivity|]). destruct I.
Qed.
Print Assumptions C72_kinds.

Lemma filled_zeros : forall n t b, (do z <- zeros_up_to n (len t); Ok (t ++ z)) = Ok b <-> filled_up n t b.
Proof.
  intros n t b. destruct (N.le_gt_cases (len t) n) as [L|L].
  - rewrite zeros_up_to_le by exact L. cbn [rbind]. split.
    + intros E. injection E as <-. eexists. split; [reflexivity|]. rewrite len_app. unfold len. rewrite repeat_length. unfold len in L. lia.
    + intros (k & -> & E). f_equal. f_equal. f_equal. rewrite len_app in E. unfold len in *. rewrite repeat_length in E. lia.
  - rewrite zeros_up_to_gt by exact L. cbn [rbind]. split; [discriminate|].
    intros (k & -> & E). rewrite len_app in E. lia.
Qed.

(** What a status packet is written as, exactly; any other packet makes the
    encoder panic. *)
Theorem C72_written : forall p,
  (forall d, status_packet_encode p = Ok d <-> status_written p d) /\
  (status_packet_encode p = Panic \/ exists d, status_written p d).
Proof.
  intros p.
  assert (A : forall d, status_packet_encode p = Ok d <-> status_written p d).
  { intros d. unfold status_packet_encode, status_written, model_encode. split.
    - intros E. apply rbind_ok in E. destruct E as (m & M & E). apply rbind_ok in E. destruct E as (c & C & E).
      assert (Ed : d = UDP_MAGIC ++ status_kind_encode (sp_kind p) ++ m ++ [1; sp_unknown1 p; 17] ++ c) by congruence.
      exists (nth 0 (status_kind_encode (sp_kind p)) 0), m, c. split.
      { apply (proj2 (C72_kinds _ [] _)). destruct (sp_kind p); reflexivity. }
      split; [apply filled_zeros; exact M|]. split; [rewrite Ed; destruct (sp_kind p); reflexivity|].
      destruct (sp_content p) as [| | | | |r| |name|]; try discriminate C; cbn [status_content_encode] in C.
      + unfold link_reply_encode, fixed_encode in C. apply rbind_ok in C. destruct C as (a & A1 & C).
        apply rbind_ok in C. destruct C as (b & B1 & C). apply rbind_ok in C. destruct C as (u & U1 & C).
        exists a, b, u. split; [apply filled_zeros; exact A1|]. split; [apply filled_zeros; exact B1|].
        split; [apply filled_zeros; exact U1|].
        match type of C with Ok ?x = Ok ?y => assert (Ec : y = x) by congruence end.
        rewrite Ec. destruct (lr_slot r); reflexivity.
      + unfold rekordbox_reply_encode in C. apply rbind_ok in C. destruct C as (z & Z & C).
        exists (utf16_be name ++ z). split; [apply filled_zeros; rewrite Z; reflexivity|]. congruence.
    - intros (code & m & c & K & M & -> & C). apply filled_zeros in M. rewrite M. cbn [rbind].
      apply (proj2 (C72_kinds _ [] _)) in K. rewrite K.
      destruct (sp_content p) as [| | | | |r| |name|]; try contradiction; cbn [status_content_encode].
      + destruct C as (a & b & u & A1 & B1 & U1 & ->). apply filled_zeros in A1, B1, U1.
        unfold link_reply_encode, fixed_encode. rewrite A1. cbn [rbind]. rewrite B1. cbn [rbind]. rewrite U1. cbn [rbind].
        destruct (lr_slot r); reflexivity.
      + destruct C as (t & T & ->). apply filled_zeros in T. unfold rekordbox_reply_encode.
        destruct (zeros_up_to 256 (len (utf16_be name))) as [z| |]; cbn [rbind] in T |- *; try discriminate.
        injection T as <-. reflexivity. }
  split; [exact A|].
  destruct (status_packet_encode p) as [d| |] eqn:E; [right; exists d; apply A; reflexivity| |left; reflexivity].
  exfalso. unfold status_packet_encode, model_encode in E.
  assert (Z : forall a b, zeros_up_to a b <> Err) by (intros a b; unfold zeros_up_to; destruct (b <=? a); discriminate).
  destruct (zeros_up_to 20 _) eqn:Z1; cbn [rbind] in E; [|exact (Z _ _ Z1)|discriminate].
  destruct (sp_content p) as [| | | | |r| |name|]; cbn [status_content_encode rbind] in E; try discriminate.
  - unfold link_reply_encode, fixed_encode in E.
    destruct (zeros_up_to (fx_capacity (lr_name r)) _) eqn:Z2; cbn [rbind] in E; [|exact (Z _ _ Z2)|discriminate].
    destruct (zeros_up_to (fx_capacity (lr_date r)) _) eqn:Z3; cbn [rbind] in E; [|exact (Z _ _ Z3)|discriminate].
    destruct (zeros_up_to (fx_capacity (lr_unknown5 r)) _) eqn:Z4; cbn [rbind] in E; [discriminate|exact (Z _ _ Z4)|discriminate].
  - unfold rekordbox_reply_encode in E.
    destruct (zeros_up_to 256 _) eqn:Z2; cbn [rbind] in E; [discriminate|exact (Z _ _ Z2)|discriminate].
Qed.
Print Assumptions C72_written.

(** A player with track 258 loaded from player 2's USB slot. *)
Example C72_case :
  let d := lit "Qspt1WmJOL" ++ [0x0a] ++ lit "XDJ-700" ++ repeat 0 13 ++ [1; 4; 3]
           ++ [0; 1; 0; 2; 3; 1; 0; 0; 0; 1; 2; 0; 0; 0; 7; 9; 9] in
  bytes_ok d /\
  status_packet_try_from d =
  Ok (mkStatusPacket KCdj (lit "XDJ-700") 4 3 (SCdj (mkCdj 1 2 SlotUsb ARekordbox 258 7))).
Proof. cbv zeta. split; [|reflexivity]. apply Forall_forall. intros x. vm_compute. intuition; subst; reflexivity. Qed.
