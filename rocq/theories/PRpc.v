(** Properties C40 to C43: reading calls and writing replies. *)

From Verif Require Import Base Unicode MRpc SUdp SRpc LBase LUnicode LUdp LRpc LRpc2.
From Coq Require Import ZArith String.
Open Scope list_scope.
Open Scope N_scope.

(** ** C40 *)

(** A datagram is taken as the call [m] exactly if its bytes say so. *)
Theorem C40_accepted_exactly : forall d m, bytes_ok d ->
  (codec_decode d = Ok (Some m) <-> call_says d m).
Proof.
  intros d m Hd.
  assert (E : codec_decode d = Ok (Some m) <-> rpc_try_from d = Ok m).
  { destruct d as [|b d]; [split; intros H; discriminate H|].
    unfold codec_decode, rmap. destruct (rpc_try_from (b :: d)); cbn [rbind]; split; intros H; congruence. }
  rewrite E.
  destruct (rpc_cases d Hd) as [[n [En Cn]]|[[Ep [_ N1]]|[Ee [Nc _]]]].
  - rewrite En. split; intros H.
    + injection H as <-. exact Cn.
    + f_equal. exact (call_functional d n m Cn H).
  - rewrite Ep. split; [discriminate|]. intros [c [_ [_ [_ [F _]]]]]. congruence.
  - rewrite Ee. split; [discriminate|]. intros H. contradiction (Nc m H).
Qed.
Print Assumptions C40_accepted_exactly.

(** A standard call with a 20-byte AUTH_UNIX credential (no machine name, no
    supplementary groups) and an empty null verifier is read as that call, whatever
    follows it.  Mount paths of an even number of units are C43. *)
Theorem C40_standard_calls_followed :
  forall xid rpcvers vers stamp uid gid p program proc args tail,
  word_ok xid -> word_ok rpcvers -> word_ok vers -> word_ok stamp -> word_ok uid -> word_ok gid ->
  std_args p program proc args ->
  (forall path, p = MountMnt [path] -> N.odd (len (utf16_encode path)) = true) ->
  codec_decode (std_call xid rpcvers (program_number program) vers proc
    (std_auth 1 (unix_body stamp [] uid gid [])) (std_auth 0 []) args ++ tail) =
  Ok (Some (mkRpc xid (Call (mkCall rpcvers program vers p
                               (mkCred 1 20 stamp 0 uid gid 0) AuthNull)))).
Proof.
  intros xid rpcvers vers stamp uid gid p program proc args tail Hx Hr Hv Hs Hu Hg A O.
  change (std_auth 1 (unix_body stamp [] uid gid [])) with (unix_cred stamp uid gid).
  assert (Hp : word_ok proc) by (destruct A; reflexivity).
  pose proof (std_call_decode xid rpcvers program vers proc stamp uid gid (args ++ tail) Hx Hr Hv Hp Hs Hu Hg) as E.
  destruct (procedure_std p program proc args tail A O) as [r P]. rewrite P in E.
  unfold codec_decode. unfold std_call, word in *. cbn [app] in *. rewrite <- !app_assoc. rewrite E. reflexivity.
Qed.
Print Assumptions C40_standard_calls_followed.

(** Calls as the RFCs write them, with empty machine name and groups, are decoded to
    what they say. *)
Theorem C40_standard_calls_understood :
  forall xid rpcvers vers stamp uid gid p program proc args,
  word_ok xid -> word_ok rpcvers -> word_ok vers -> word_ok stamp -> word_ok uid -> word_ok gid ->
  std_args p program proc args ->
  (forall path, p = MountMnt [path] -> N.odd (len (utf16_encode path)) = true) ->
  codec_decode (std_call xid rpcvers (program_number program) vers proc
    (std_auth 1 (unix_body stamp [] uid gid [])) (std_auth 0 []) args) =
  Ok (Some (mkRpc xid (Call (mkCall rpcvers program vers p
                               (mkCred 1 20 stamp 0 uid gid 0) AuthNull)))).
Proof.
  intros xid rpcvers vers stamp uid gid p program proc args Hx Hr Hv Hs Hu Hg A O.
  rewrite <- (C40_standard_calls_followed xid rpcvers vers stamp uid gid p program proc args []) by assumption.
  rewrite app_nil_r. reflexivity.
Qed.
Print Assumptions C40_standard_calls_understood.

(** The ninth unit of a text without U+0000 is not zero. *)
Lemma unit_not_zero : forall s, str_ok s -> ~ In 0 s -> Forall (fun u => 0 < u /\ u < 65536) (utf16_encode s).
Proof.
  intros s Hs H0. pose proof (utf16_encode_units s Hs) as U. induction s as [|c s IH]; [constructor|].
  cbn [utf16_encode flat_map] in *. inversion Hs; subst. unfold units_ok in U. apply Forall_app in U. destruct U as [U1 U2].
  apply Forall_app. split; [|apply IH; auto; intros F; apply H0; right; exact F].
  assert (c <> 0) by (intros ->; apply H0; left; reflexivity).
  unfold utf16_char in *. destruct (c <? 65536) eqn:E.
  - constructor; [|constructor]. split; [lia|exact (Forall_inv U1)].
  - constructor; [|constructor; [|constructor]].
    + split; [apply N.lt_lt_add_r; reflexivity|exact (Forall_inv U1)].
    + split; [apply N.lt_lt_add_r; reflexivity|exact (Forall_inv (Forall_inv_tail U1))].
Qed.

(** Where a length would be read without the credentials there are two units of the
    text; the number they make is larger than a datagram. *)
Lemma misread_length : forall s, str_ok s -> ~ In 0 s -> forall k pre d, List.length pre = k ->
  d = pre ++ utf16le s ++ repeat 0 (N.to_nat (xdr_padding (len (utf16le s)))) ->
  reaches (k + 20) d -> 65536 <= number_at (k + 16) 4 d.
Proof.
  intros s Hs H0 k pre d <- -> R.
  pose proof (unit_not_zero s Hs H0) as U. pose proof (units_len s) as L.
  assert (Pd : xdr_padding (len (utf16le s)) <= 2).
  { unfold xdr_padding. rewrite L. set (n := len (utf16_encode s)). change 4 with (2 * 2).
    rewrite (N.mul_mod_distr_l n 2 2) by lia. pose proof (N.mod_lt n 2).
    assert (n mod 2 = 0 \/ n mod 2 = 1) as [->| ->] by lia; vm_compute; discriminate. }
  set (pad := repeat 0 _) in *. assert (Lp : (List.length pad <= 2)%nat) by (unfold pad; rewrite repeat_length; lia).
  clearbody pad. unfold reaches in R. rewrite !app_length in R.
  assert (Lu : (9 <= List.length (utf16_encode s))%nat) by (unfold len in L; lia).
  clear L Pd Lp. unfold utf16le in *. set (us := utf16_encode s) in *. clearbody us.
  do 8 (destruct us as [|? us]; [exfalso; cbn in Lu; lia|]). destruct us as [|u us]; [exfalso; cbn in Lu; lia|].
  do 8 (apply Forall_inv_tail in U). apply Forall_inv in U.
  cbn [flat_map app] in *. unfold number_at, slice. rewrite skipn_app, skipn_all2 by lia.
  replace (List.length pre + 16 - List.length pre)%nat with 16%nat by lia. cbn [app skipn].
  set (tail := flat_map _ us ++ pad). assert (Lt : (2 <= List.length tail)%nat).
  { unfold tail. rewrite app_length. cbn [List.length] in R. lia. }
  destruct tail as [|x [|y tail]]; [exfalso; cbn in Lt; lia..|]. cbn [firstn].
  unfold of_be. cbn [fold_left]. pose proof (N.div_mod u 256). lia.
Qed.

(** A client that sends no credentials is not understood: none of its standard calls
    is accepted, as long as the names in them have no U+0000. *)
Theorem C40_without_credentials_rejected :
  forall xid rpcvers vers p program proc args m,
  word_ok xid -> word_ok rpcvers -> word_ok vers -> bytes_ok args ->
  std_args p program proc args ->
  (forall l, p = NfsLookup l -> ~ In 0 (lk_filename l)) -> (forall path, p = MountMnt [path] -> ~ In 0 path) ->
  let d := std_call xid rpcvers (program_number program) vers proc (std_auth 0 []) (std_auth 0 []) args in
  len d <= 65507 -> codec_decode d <> Ok (Some m).
Proof.
  intros xid rpcvers vers p program proc args m Hx Hr Hv Ha A NL NM d Max.
  assert (Bw : forall x, bytes_ok (word x)) by (intros; rewrite word_be; apply be_ok).
  assert (Bd : bytes_ok d).
  { unfold d, std_call. rewrite !bytes_ok_app. change (std_auth 0 []) with (word 0 ++ word 0).
    rewrite !bytes_ok_app. repeat split; try apply Bw. exact Ha. }
  rewrite (C40_accepted_exactly d m Bd).
  assert (Hp : word_ok proc) by (destruct A; reflexivity).
  assert (Len : List.length d = (40 + List.length args)%nat) by reflexivity.
  assert (W : forall o x a b, List.length a = o -> word_ok x -> number_at o 4 (a ++ word x ++ b) = x).
  { intros o x a b L Hw. unfold number_at. rewrite slice_mid by (assumption || reflexivity).
    rewrite word_be. apply (of_be_be_small 4). exact Hw. }
  assert (P12 : number_at 12 4 d = program_number program).
  { unfold d, std_call. rewrite !app_assoc. rewrite <- (app_assoc _ (word (program_number program))).
    rewrite <- !app_assoc. rewrite (app_assoc (word 0)), (app_assoc (word xid)).
    apply (W 12%nat); [reflexivity|]. destruct program; reflexivity. }
  assert (P20 : number_at 20 4 d = proc).
  { change d with ((word xid ++ word 0 ++ word rpcvers ++ word (program_number program) ++ word vers)
                    ++ word proc ++ std_auth 0 [] ++ std_auth 0 [] ++ args).
    apply (W 20%nat); [reflexivity|assumption]. }
  assert (Dh : exists header, List.length header = 40%nat /\ d = header ++ args).
  { exists (firstn 40 d). split; reflexivity. }
  clearbody d. intros [c [_ [R [_ [_ [_ [F [_ [_ [_ G]]]]]]]]]].
  rewrite P12 in F. apply program_number_inj in F. subst program. rewrite P20 in G. clear P20.
  unfold reaches in R. rewrite Len in R.
  set (pr := ca_program c) in *. clearbody pr.
  set (q := ca_procedure c) in *. clearbody q. destruct Dh as (header & Lh & Dh).
  assert (Big : forall o, 65536 <= number_at o 4 d -> (List.length d < even_length_at o d)%nat).
  { intros o B. unfold even_length_at. pose proof (N.div_mod (number_at o 4 d) 2). unfold len in Max. lia. }
  inversion A; subst p pr proc args; try (cbn [List.length word app] in R; lia);
    (destruct q; cbn [args_say] in G; try contradiction;
      try (destruct G as [X1 X2]; discriminate X1 || discriminate X2 || (destruct X2; discriminate))).
  - (* getattr *) destruct G as (_ & _ & G & _). apply len_nat with (n := 32%nat) in H. unfold reaches in G. lia.
  - (* lookup *) destruct G as (_ & _ & G & _ & name' & (G1 & _) & _).
    assert (B : 65536 <= number_at (76 + 16) 4 d).
    { apply (misread_length name H0) with (pre := header ++ h ++ word (len (utf16le name))); [| |rewrite Dh|exact G].
      - intros I. apply (NL _ eq_refl). cbn [lk_filename]. unfold utf8_encode. apply in_flat_map. exists 0. split; [exact I|left; reflexivity].
      - rewrite !app_length. apply len_nat with (n := 32%nat) in H. rewrite H, Lh. reflexivity.
      - unfold xdr_opaque. rewrite <- !app_assoc. reflexivity. }
    apply (Big 92%nat) in B. unfold reaches in G1. lia.
  - (* read *) destruct G as (_ & _ & G & _). apply len_nat with (n := 32%nat) in H. unfold reaches in G.
    rewrite Len, !app_length in G. cbn [List.length word] in G. lia.
  - (* mount *) destruct G as (_ & _ & G & _).
    assert (B : 65536 <= number_at (44 + 16) 4 d).
    { apply (misread_length path H) with (pre := header ++ word (len (utf16le path))); [| |rewrite Dh|].
      - exact (NM _ eq_refl).
      - rewrite !app_length, Lh. reflexivity.
      - unfold xdr_opaque. rewrite <- !app_assoc. reflexivity.
      - unfold reaches in *. lia. }
    apply (Big 60%nat) in B. unfold reaches in G. lia.
Qed.
Print Assumptions C40_without_credentials_rejected.

(** With U+0000 in the name it can be misread: a standard lookup of the root folder,
    sent without credentials, is taken for a lookup of another name. *)
Theorem C40_lookup_without_credentials_refuted :
  exists name, str_ok name /\ len name = 12 /\
  codec_decode (std_call 7 2 100003 2 4 (std_auth 0 []) (std_auth 0 [])
    (repeat 0 32 ++ xdr_opaque (utf16le name))) =
  Ok (Some (mkRpc 7 (Call (mkCall 2 Nfs 2 (NfsLookup (mkLookup (lit "a") (repeat 0 15 ++ [24] ++ flat_map (fun c => [c; 0]) (lit "mixtapes"))))
                             (mkCred 0 0 0 0 0 0 0) AuthNull)))).
Proof.
  exists (lit "mixtapes" ++ [0; 0x200] ++ lit "ab").
  split; [repeat constructor|]. split; [reflexivity|]. vm_compute. reflexivity.
Qed.
Print Assumptions C40_lookup_without_credentials_refuted.

(** With any other AUTH_UNIX credential the call can be misread without notice:
    here a standard read of 100 bytes at offset 8, from a client that is in one
    group, is taken for a read of 8 bytes at another offset through another
    handle. *)
Theorem C40_longer_credentials_refuted :
  exists h h', h <> h' /\ len h = 32 /\ len h' = 32 /\
  codec_decode (std_call 7 2 100003 2 6
    (std_auth 1 (unix_body 0 [] 0 0 [1])) (std_auth 0 []) (h ++ word 8 ++ word 100 ++ word 0)) =
  Ok (Some (mkRpc 7 (Call (mkCall 2 Nfs 2 (NfsRead (mkRead h' 9 8 100))
                             (mkCred 1 24 0 0 0 0 1) AuthUnix)))).
Proof.
  exists (repeat 1 28 ++ word 9), (repeat 0 4 ++ repeat 1 28).
  split; [discriminate|]. split; [reflexivity|]. split; [reflexivity|]. vm_compute. reflexivity.
Qed.
Print Assumptions C40_longer_credentials_refuted.

(** ... and with one more word it is not understood at all. *)
Example C40_case :
  codec_decode (std_call 1 2 100000 2 3 (std_auth 1 (unix_body 5 [] 0 0 [])) (std_auth 0 [])
    (word 100003 ++ word 2 ++ word 17 ++ word 0)) =
  Ok (Some (mkRpc 1 (Call (mkCall 2 Portmap 2 (PortmapGetport (mkGetport 2 Nfs ProtoUdp 0))
                             (mkCred 1 20 5 0 0 0 0) AuthNull)))) /\
  codec_decode (std_call 1 2 100003 2 4 (std_auth 1 (unix_body 5 [] 0 0 [])) (std_auth 0 [])
    (repeat 0 32 ++ xdr_opaque (utf16le (lit "a.mp3")))) =
  Ok (Some (mkRpc 1 (Call (mkCall 2 Nfs 2 (NfsLookup (mkLookup (lit "a.mp3") (repeat 0 32)))
                             (mkCred 1 20 5 0 0 0 0) AuthNull)))) /\
  codec_decode (std_call 1 2 100000 2 3 (std_auth 1 (unix_body 5 [] 0 0 [3; 4])) (std_auth 0 [])
    (word 100003 ++ word 2 ++ word 17 ++ word 0)) = Err /\
  let name := lit "a longer name.mp3" in
  std_args (NfsLookup (mkLookup (utf8_encode name) (repeat 0 32))) Nfs 4 (repeat 0 32 ++ xdr_opaque (utf16le name)) /\
  ~ In 0 (utf8_encode name).
Proof.
  split; [vm_compute; reflexivity|]. split; [vm_compute; reflexivity|]. split; [vm_compute; reflexivity|]. cbv zeta. split.
  - constructor; [reflexivity|repeat constructor|reflexivity].
  - vm_compute. intuition discriminate.
Qed.

(** A lookup of that name without credentials. *)
Example C40_case_without_credentials :
  let name := lit "a longer name.mp3" in
  let args := repeat 0 32 ++ xdr_opaque (utf16le name) in
  bytes_ok args /\ std_args (NfsLookup (mkLookup (utf8_encode name) (repeat 0 32))) Nfs 4 args /\
  (forall l, NfsLookup (mkLookup (utf8_encode name) (repeat 0 32)) = NfsLookup l -> ~ In 0 (lk_filename l)) /\
  len (std_call 7 2 (program_number Nfs) 2 4 (std_auth 0 []) (std_auth 0 []) args) <= 65507.
Proof.
  cbv zeta. split; [|split; [|split]].
  - apply Forall_forall. intros b I. vm_compute in I. repeat (destruct I as [<-|I]; [vm_compute; reflexivity|]). destruct I.
  - constructor; [reflexivity|repeat constructor|reflexivity].
  - intros l E. injection E as <-. vm_compute. intuition discriminate.
  - vm_compute. discriminate.
Qed.

(** ** C41 *)

(** The datagram of a reply is the standard accepted reply to the call's xid,
    padded with fewer than four zero bytes to a multiple of four. *)
Theorem C41_standard_reply : forall r xid,
  exists padding, (padding < 4)%nat /\
  codec_encode (reply_to r xid) = std_reply xid (reply_message_bytes r) ++ repeat 0 padding /\
  len (codec_encode (reply_to r xid)) mod 4 = 0.
Proof.
  intros r xid. unfold codec_encode. rewrite reply_datagram, fill_spec.
  set (b := std_reply _ _). exists (N.to_nat (xdr_padding (len b))).
  pose proof (xdr_padding_lt (len b)). split; [lia|]. split; [reflexivity|].
  rewrite len_app, len_repeat, N2Nat.id. unfold xdr_padding. lia.
Qed.
Print Assumptions C41_standard_reply.

(** The whole datagrams: the results are the standard ones, apart from the export
    list (C42). *)
Theorem C41_standard_results : forall xid,
  (forall port, codec_encode (reply_to (PortmapGetportReply port) xid) =
     std_reply xid (std_getport_result port)) /\
  (forall status h, len h = 32 -> codec_encode (reply_to (MountMntReply status h) xid) =
     std_reply xid (std_mnt_result status h)) /\
  (forall h a, len h = 32 -> len (at_mode a) = 4 ->
     codec_encode (reply_to (NfsLookupReply h a) xid) =
     std_reply xid (std_lookup_result h (attributes_bytes a))) /\
  (forall a, len (at_mode a) = 4 -> codec_encode (reply_to (NfsGetAttrReply a) xid) =
     std_reply xid (std_getattr_result (attributes_bytes a))) /\
  (forall a data, len (at_mode a) = 4 -> word_ok (len data) ->
     codec_encode (reply_to (NfsReadReply a data) xid) =
     std_reply xid (std_read_result (attributes_bytes a) data)).
Proof.
  intros xid.
  assert (T : forall t, len (time_bytes t) = 8).
  { intros t. unfold time_bytes. destruct (0 <=? t)%Z; [|reflexivity].
    rewrite len_app, len_skipn, !be_len. reflexivity. }
  assert (AL : forall a, len (at_mode a) = 4 -> len (attributes_bytes a) = 68).
  { intros a H. unfold attributes_bytes, file_type_bytes. rewrite !len_app, !T, H, !be_len. reflexivity. }
  assert (K : forall r, exists p, p = xdr_padding (len (reply_message_bytes r)) /\
    codec_encode (reply_to r xid) = std_reply xid (reply_message_bytes r) ++ repeat 0 (N.to_nat p)).
  { intros r. eexists. split; [reflexivity|]. unfold codec_encode. rewrite reply_datagram, fill_spec, std_reply_len.
    do 3 f_equal. unfold xdr_padding. replace (24 + len (reply_message_bytes r)) with (len (reply_message_bytes r) + 6 * 4) by lia.
    rewrite N.mod_add by discriminate. reflexivity. }
  split; [|split; [|split; [|split]]].
  - intros port. destruct (K (PortmapGetportReply port)) as [p [P ->]]. cbn [reply_message_bytes] in *.
    rewrite be_len in P. change (xdr_padding (N.of_nat 4)) with 0 in P. subst p. cbn [N.to_nat repeat].
    rewrite app_nil_r. unfold std_getport_result. rewrite word_be. reflexivity.
  - intros status h H. destruct (K (MountMntReply status h)) as [p [P ->]]. cbn [reply_message_bytes] in *.
    rewrite len_app, be_len, H in P. change (xdr_padding _) with 0 in P. subst p. cbn [N.to_nat repeat].
    rewrite app_nil_r. unfold std_mnt_result. rewrite word_be. reflexivity.
  - intros h a H Hm. destruct (K (NfsLookupReply h a)) as [p [P ->]]. cbn [reply_message_bytes] in *.
    unfold nfs_ok_bytes in *. rewrite !len_app, be_len, H, (AL a Hm) in P. change (xdr_padding _) with 0 in P.
    subst p. cbn [N.to_nat repeat]. rewrite app_nil_r. unfold std_lookup_result. rewrite word_be. reflexivity.
  - intros a Hm. destruct (K (NfsGetAttrReply a)) as [p [P ->]]. cbn [reply_message_bytes] in *.
    unfold nfs_ok_bytes in *. rewrite !len_app, be_len, (AL a Hm) in P. change (xdr_padding _) with 0 in P.
    subst p. cbn [N.to_nat repeat]. rewrite app_nil_r. unfold std_getattr_result. rewrite word_be. reflexivity.
  - intros a data Hm Hl. destruct (K (NfsReadReply a data)) as [p [P ->]]. cbn [reply_message_bytes] in *.
    unfold nfs_ok_bytes in *. rewrite !len_app, !be_len, (AL a Hm) in P.
    assert (P' : p = xdr_padding (len data)).
    { rewrite P. unfold xdr_padding.
      replace (N.of_nat 4 + (68 + (N.of_nat 4 + len data))) with (len data + 19 * 4) by lia.
      rewrite N.mod_add by discriminate. reflexivity. }
    rewrite P'. unfold std_read_result, xdr_opaque. rewrite !word_be.
    unfold as_u32. rewrite (N.mod_small (len data) u32_max1 Hl).
    unfold std_reply. rewrite <- !app_assoc. reflexivity.
Qed.
Print Assumptions C41_standard_results.

Example C41_case :
  codec_encode (reply_to (PortmapGetportReply 2049) 9) =
  [0;0;0;9; 0;0;0;1; 0;0;0;0; 0;0;0;0; 0;0;0;0; 0;0;0;0; 0;0;8;1].
Proof. reflexivity. Qed.

(** ** C42 *)

(** A standard reader finds the export, with its group, exactly if the path has
    an odd number of UTF-16 units; it is at the end of the datagram afterwards
    exactly if, moreover, the length of the group name is 1 or 2 modulo 4. *)
Theorem C42_one_export : forall xid dir group,
  str_ok dir -> str_ok group -> word_ok (len (utf16le dir)) -> word_ok (len (utf8_encode group)) ->
  let d := codec_encode (reply_to (MountExportReply [mkExport dir [group]]) xid) in
  let export := [(utf16le dir, [utf8_encode group])] in
  ((exists rest, exports_in d = Some (export, rest)) <-> N.odd (len (utf16_encode dir)) = true) /\
  (exports_in d = Some (export, []) <->
     N.odd (len (utf16_encode dir)) = true /\
     (len (utf8_encode group) mod 4 = 1 \/ len (utf8_encode group) mod 4 = 2)).
Proof.
  intros xid dir group Hd Hg Ld Lg d export.
  pose proof (exports_one dir group xid Hd Hg Ld Lg) as E. cbv zeta in E. fold d in E.
  destruct (N.odd (len (utf16_encode dir))).
  - rewrite E. split; [split; intros; [reflexivity|eauto]|].
    destruct (N.eqb_spec (len (utf8_encode group) mod 4) 1) as [A|A], (N.eqb_spec (len (utf8_encode group) mod 4) 2) as [B|B];
      cbn [orb repeat]; (split; [intros H; try discriminate H; tauto|]);
      intros [_ [H|H]]; reflexivity || congruence.
  - split; (split; [|intros H; (discriminate H || (destruct H; discriminate))]).
    + intros [rest H]. specialize (E _ _ _ H). discriminate E.
    + intros H. specialize (E _ _ _ H). discriminate E.
Qed.
Print Assumptions C42_one_export.

(** Without groups it is always found. *)
Theorem C42_no_groups : forall xid dir, str_ok dir -> word_ok (len (utf16le dir)) ->
  let d := codec_encode (reply_to (MountExportReply [mkExport dir []]) xid) in
  (exists rest, exports_in d = Some ([(utf16le dir, [])], rest)) /\
  (exports_in d = Some ([(utf16le dir, [])], []) <-> N.odd (len (utf16_encode dir)) = true).
Proof.
  intros xid dir Hd Ld d. unfold d. rewrite exports_bare by assumption. split; [eauto|].
  destruct (N.odd (len (utf16_encode dir))); cbn [repeat]; split; intros H; reflexivity || discriminate H.
Qed.
Print Assumptions C42_no_groups.

(** The claim for longer lists is false: two exports, or two groups, are not read
    although every length is chosen well. *)
Theorem C42_longer_lists_refuted :
  exports_in (codec_encode (reply_to (MountExportReply
    [mkExport (lit "a") [lit "gr"]; mkExport (lit "b") [lit "gr"]]) 1)) = None /\
  exports_in (codec_encode (reply_to (MountExportReply
    [mkExport (lit "a") [lit "g1"; lit "g2"]]) 1)) = None.
Proof. split; vm_compute; reflexivity. Qed.
Print Assumptions C42_longer_lists_refuted.

Example C42_case :
  exports_in (codec_encode (reply_to (MountExportReply
    [mkExport (lit "/") [lit "10.0.0.1/255.0.0.0"]]) 1)) =
  Some ([([47; 0], [lit "10.0.0.1/255.0.0.0"])], []) /\
  exports_in (codec_encode (reply_to (MountExportReply [mkExport (lit "/x") [lit "group1"]]) 1)) = None.
Proof. split; vm_compute; reflexivity. Qed.

(** ** C43 *)

(** A mount request is accepted exactly if at least two more bytes follow the
    path. *)
Theorem C43_mount_accepted_exactly :
  forall xid rpcvers vers stamp uid gid path tail,
  word_ok xid -> word_ok rpcvers -> word_ok vers -> word_ok stamp -> word_ok uid -> word_ok gid ->
  str_ok path -> word_ok (len (utf16le path)) ->
  codec_decode (std_call xid rpcvers 100005 vers 1
    (std_auth 1 (unix_body stamp [] uid gid [])) (std_auth 0 [])
    (word (len (utf16le path)) ++ utf16le path ++ tail)) =
  if 2 <=? len tail
  then Ok (Some (mkRpc xid (Call (mkCall rpcvers Mount vers (MountMnt [path])
                                    (mkCred 1 20 stamp 0 uid gid 0) AuthNull))))
  else Err.
Proof.
  intros xid rpcvers vers stamp uid gid path tail Hx Hr Hv Hs Hu Hg Hp Hl.
  change (std_auth 1 (unix_body stamp [] uid gid [])) with (unix_cred stamp uid gid).
  pose proof (std_call_decode xid rpcvers Mount vers 1 stamp uid gid
    (word (len (utf16le path)) ++ utf16le path ++ tail) Hx Hr Hv eq_refl Hs Hu Hg) as E.
  cbn [procedure_decode program_number] in E. rewrite (mnt_decode_text path tail Hp Hl) in E.
  unfold codec_decode. unfold std_call, word in *. cbn [app] in *. rewrite E.
  destruct (2 <=? len tail); reflexivity.
Qed.
Print Assumptions C43_mount_accepted_exactly.

(** In standard form: exactly the paths of an odd number of units. *)
Theorem C43_standard_mount :
  forall xid rpcvers vers stamp uid gid path,
  word_ok xid -> word_ok rpcvers -> word_ok vers -> word_ok stamp -> word_ok uid -> word_ok gid ->
  str_ok path -> word_ok (len (utf16le path)) ->
  codec_decode (std_call xid rpcvers 100005 vers 1
    (std_auth 1 (unix_body stamp [] uid gid [])) (std_auth 0 []) (xdr_opaque (utf16le path))) =
  if N.odd (len (utf16_encode path))
  then Ok (Some (mkRpc xid (Call (mkCall rpcvers Mount vers (MountMnt [path])
                                    (mkCred 1 20 stamp 0 uid gid 0) AuthNull))))
  else Err.
Proof.
  intros. unfold xdr_opaque. rewrite C43_mount_accepted_exactly by assumption.
  rewrite len_repeat, N2Nat.id, units_len. unfold xdr_padding.
  destruct (N.odd (len (utf16_encode path))) eqn:O.
  - apply N.odd_spec in O. destruct O as [m ->].
    destruct (N.leb_spec 2 ((4 - (2 * (2 * m + 1)) mod 4) mod 4)); [reflexivity|lia].
  - apply (f_equal negb) in O. rewrite N.negb_odd in O. apply N.even_spec in O. destruct O as [m ->].
    destruct (N.leb_spec 2 ((4 - (2 * (2 * m)) mod 4) mod 4)); [lia|reflexivity].
Qed.
Print Assumptions C43_standard_mount.

Example C43_case :
  codec_decode (std_call 1 2 100005 1 1 (std_auth 1 (unix_body 5 [] 0 0 [])) (std_auth 0 [])
    (xdr_opaque (utf16le (lit "/C/")))) =
  Ok (Some (mkRpc 1 (Call (mkCall 2 Mount 1 (MountMnt [lit "/C/"]) (mkCred 1 20 5 0 0 0 0) AuthNull)))) /\
  codec_decode (std_call 1 2 100005 1 1 (std_auth 1 (unix_body 5 [] 0 0 [])) (std_auth 0 [])
    (xdr_opaque (utf16le (lit "/B")))) = Err.
Proof. split; vm_compute; reflexivity. Qed.
