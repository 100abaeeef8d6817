(** Lemmas about the standard layouts of RPC messages and about export lists. *)

From Verif Require Import Base Unicode MRpc SUdp SRpc LBase LUnicode LUdp LRpc.
From Coq Require Import ZArith String.
Open Scope list_scope.
Open Scope N_scope.

Lemma word_be : forall x, word x = be 4 x.
Proof.
  intros x. cbn [be app]. unfold word.
  rewrite !N.div_div by discriminate. reflexivity.
Qed.
Lemma be_u32_word : forall x r, word_ok x -> be_u32 (word x ++ r) = Ok (r, x).
Proof. intros. rewrite word_be. apply be_u32_be. assumption. Qed.
Lemma word_len : forall x, len (word x) = 4.
Proof. reflexivity. Qed.

Lemma read_word_word : forall x r, word_ok x -> read_word (word x ++ r) = Some (x, r).
Proof.
  intros x r H. unfold word, read_word. cbn [app]. f_equal. f_equal. unfold word_ok in H.
  lia.
Qed.

Lemma xdr_padding_lt : forall n, xdr_padding n < 4.
Proof. intros. unfold xdr_padding. apply N.mod_lt. discriminate. Qed.

Lemma read_opaque_app : forall b pad r, word_ok (len b) -> len pad = xdr_padding (len b) ->
  read_opaque (word (len b) ++ b ++ pad ++ r) = Some (b, r).
Proof.
  intros b pad r H P. unfold read_opaque. rewrite read_word_word by assumption.
  rewrite !len_app, P.
  destruct (N.ltb_spec (len b + (xdr_padding (len b) + len r)) (len b + xdr_padding (len b))); [lia|].
  f_equal. f_equal.
  - rewrite to_nat_len. rewrite firstn_app, Nat.sub_diag, firstn_all. cbn [firstn].
    rewrite app_nil_r. reflexivity.
  - rewrite <- P, <- len_app, to_nat_len, app_assoc.
    rewrite skipn_app, Nat.sub_diag, skipn_all. reflexivity.
Qed.

(** ** Standard calls *)

Lemma units_len : forall s, len (utf16le s) = 2 * len (utf16_encode s).
Proof.
  intros s. unfold utf16le. induction (utf16_encode s) as [|u us IH]; [reflexivity|].
  cbn [flat_map]. rewrite len_app, IH. change (len [u mod 256; u / 256]) with 2. rewrite len_cons. lia.
Qed.

Lemma utf16le_ok : forall s, str_ok s -> bytes_ok (utf16le s).
Proof.
  intros s H. pose proof (utf16_encode_units s H) as U. unfold utf16le.
  induction U as [|u us Hu _ IH]; [constructor|].
  cbn [flat_map app]. constructor; [unfold is_byte; apply N.mod_lt; discriminate|].
  constructor; [unfold is_byte; lia|exact IH].
Qed.

Lemma count_le16_text : forall s r, str_ok s ->
  count le_u16 (List.length (utf16_encode s)) (utf16le s ++ r) = Ok (r, utf16_encode s).
Proof.
  intros s r H. pose proof (utf16_encode_units s H) as U. unfold utf16le.
  induction U as [|u us Hu _ IH]; [reflexivity|].
  cbn [List.length count flat_map]. unfold le_u16 at 1.
  rewrite <- app_assoc.
  rewrite (take_app 2 [u mod 256; u / 256]) by reflexivity.
  cbn [rbind]. rewrite IH. cbn [rbind of_le].
  do 3 f_equal. pose proof (N.div_mod u 256 ltac:(discriminate)). lia.
Qed.

Lemma handle_app : forall h r, len h = 32 -> handle_decode (h ++ r) = Ok (r, h).
Proof.
  intros h r H. change (h ++ r) with (skipn 0 (h ++ r)). apply len_nat with (n := 32%nat) in H.
  rewrite handle_in by (rewrite app_length; lia). f_equal. f_equal.
  - cbn [Nat.add]. rewrite <- H, skipn_app, Nat.sub_diag, skipn_all. reflexivity.
  - apply slice_app_l. exact H.
Qed.

Lemma half_units : forall s, N.to_nat (len (utf16le s) / 2) = List.length (utf16_encode s).
Proof.
  intros s. rewrite units_len, N.mul_comm, N.div_mul by discriminate. apply to_nat_len.
Qed.

Lemma mnt_decode_text : forall s tail, str_ok s -> word_ok (len (utf16le s)) ->
  mnt_decode (word (len (utf16le s)) ++ utf16le s ++ tail) =
  if 2 <=? len tail then Ok (skipn 2 tail, [s]) else Err.
Proof.
  intros s tail Hs Hl. unfold mnt_decode. rewrite be_u32_word by assumption. cbn [rbind].
  rewrite half_units, count_le16_text by assumption. cbn [rbind].
  unfold be_u16, be_uint, take.
  destruct (N.ltb_spec (len tail) 2), (N.leb_spec 2 (len tail)); try lia; [reflexivity|].
  cbn [rbind]. rewrite utf16_decode_encode by assumption. reflexivity.
Qed.

Lemma procedure_std : forall p program proc args tail, std_args p program proc args ->
  (forall path, p = MountMnt [path] -> N.odd (len (utf16_encode path)) = true) ->
  exists r, procedure_decode program proc (args ++ tail) = Ok (r, p).
Proof.
  intros p program proc args tail H O. destruct H; cbn [procedure_decode]; eauto.
  - unfold getport_decode, program_decode, protocol_decode. rewrite <- !app_assoc.
    rewrite be_u32_word by (destruct p; reflexivity). cbn [rbind].
    rewrite be_u32_word by assumption. cbn [rbind].
    destruct p; cbn [rbind program_number];
      rewrite be_u32_word by reflexivity; cbn [rbind];
      rewrite be_u32_word by assumption; cbn [rbind]; eauto.
  - rewrite handle_app by assumption. cbn [rbind]. eauto.
  - unfold lookup_decode, xdr_opaque. rewrite <- !app_assoc.
    rewrite handle_app by assumption. cbn [rbind].
    rewrite be_u32_word by assumption. cbn [rbind].
    rewrite half_units, count_le16_text by assumption. cbn [rbind].
    rewrite utf16_decode_encode by assumption. cbn [rbind]. eauto.
  - unfold read_decode. rewrite <- !app_assoc.
    rewrite handle_app by assumption. cbn [rbind].
    rewrite !be_u32_word by assumption. cbn [rbind].
    rewrite !be_u32_word by assumption. cbn [rbind].
    rewrite !be_u32_word by assumption. cbn [rbind]. eauto.
  - unfold xdr_opaque. rewrite <- !app_assoc. rewrite mnt_decode_text by assumption.
    specialize (O path eq_refl). rewrite len_app, len_repeat, N2Nat.id.
    assert (P : xdr_padding (len (utf16le path)) = 2).
    { rewrite units_len. unfold xdr_padding. apply N.odd_spec in O. destruct O as [m ->]. lia. }
    rewrite P. destruct (N.leb_spec 2 (2 + len tail)); [|lia]. cbn [rbind]. eauto.
Qed.

Definition unix_cred (stamp uid gid : N) : bytes := std_auth 1 (unix_body stamp [] uid gid []).
Lemma unix_cred_words : forall stamp uid gid,
  unix_cred stamp uid gid = word 1 ++ word 20 ++ word stamp ++ word 0 ++ word uid ++ word gid ++ word 0.
Proof. reflexivity. Qed.

Lemma std_call_decode : forall xid rpcvers program vers proc stamp uid gid rest,
  word_ok xid -> word_ok rpcvers -> word_ok vers -> word_ok proc ->
  word_ok stamp -> word_ok uid -> word_ok gid ->
  rpc_try_from (std_call xid rpcvers (program_number program) vers proc
    (unix_cred stamp uid gid) (std_auth 0 []) rest) =
  match procedure_decode program proc rest with
  | Ok (_, p) => Ok (mkRpc xid (Call (mkCall rpcvers program vers p (mkCred 1 20 stamp 0 uid gid 0) AuthNull)))
  | Err => Err
  | Panic => Panic
  end.
Proof.
  intros. rewrite unix_cred_words. change (std_auth 0 []) with (word 0 ++ word 0).
  unfold std_call, rpc_try_from, rpc_decode. rewrite <- !app_assoc.
  rewrite be_u32_word by assumption. cbn [rbind]. unfold message_type_decode.
  rewrite be_u32_word by reflexivity. cbn [rbind]. unfold call_decode.
  rewrite be_u32_word by assumption. cbn [rbind]. unfold program_decode.
  rewrite be_u32_word by (destruct program; reflexivity). cbn [rbind].
  rewrite be_u32_word by assumption. cbn [rbind].
  assert (E : forall i, match program_number program with
    | 100000 => Ok (i, (Portmap, vers)) | 100003 => Ok (i, (Nfs, vers))
    | 100005 => Ok (i, (Mount, vers)) | _ => Err end = (Ok (i, (program, vers)) : res (bytes * _)))
    by (destruct program; reflexivity).
  rewrite E. cbn [rbind].
  rewrite be_u32_word by assumption. cbn [rbind]. unfold credentials_decode.
  do 7 (rewrite be_u32_word by (assumption || reflexivity); cbn [rbind]).
  unfold auth_decode. do 2 (rewrite be_u32_word by reflexivity; cbn [rbind]).
  destruct (procedure_decode program proc rest) as [[r p]| |]; reflexivity.
Qed.

(** ** Replies *)

Lemma reply_datagram : forall r xid,
  rpc_bytes (reply_to r xid) = std_reply xid (reply_message_bytes r).
Proof.
  intros. unfold rpc_bytes, reply_to, std_reply, message_type_bytes, reply_bytes, auth_bytes.
  cbn [rpc_xid rpc_body re_verifier re_data]. rewrite !word_be. rewrite <- !app_assoc. reflexivity.
Qed.

Lemma std_reply_len : forall xid r, len (std_reply xid r) = 24 + len r.
Proof.
  intros. unfold std_reply, std_auth, xdr_opaque. rewrite !len_app, !word_len.
  change (len (@nil N)) with 0. change (xdr_padding 0) with 0. cbn [N.to_nat repeat].
  change (len (@nil N)) with 0. lia.
Qed.

Lemma fill_spec : forall n, fill_bytes n = repeat 0 (N.to_nat (xdr_padding n)).
Proof.
  intros n. unfold fill_bytes, xdr_padding.
  destruct (N.eqb_spec (n mod 4) 0) as [->|E]; [reflexivity|].
  rewrite (N.mod_small (4 - n mod 4)) by lia. reflexivity.
Qed.

Lemma skip_reply : forall xid r t, skipn 24 (std_reply xid r ++ t) = r ++ t.
Proof. reflexivity. Qed.

(** ** Export lists *)

Lemma le16_spec : forall s, str_ok s -> flat_map (le 2) (utf16_encode s) = utf16le s.
Proof.
  intros s H. unfold utf16le. pose proof (utf16_encode_units s H) as U.
  induction U as [|u us Hu _ IH]; [reflexivity|].
  cbn [flat_map]. rewrite IH. f_equal. cbn [le].
  rewrite (N.mod_small (u / 256)) by lia. reflexivity.
Qed.

Lemma zeros_split : forall a b, (a <= b)%nat -> repeat 0 b = repeat 0 a ++ repeat 0 (b - a).
Proof. intros. rewrite <- repeat_app. f_equal. lia. Qed.

Lemma read_bool_zeros : forall n, (4 <= n)%nat -> read_bool (repeat 0 n) = Some (false, repeat 0 (n - 4)).
Proof. intros n H. rewrite (zeros_split 4 n H). reflexivity. Qed.
Lemma read_bool_one : forall r, read_bool ([0; 0; 0; 1] ++ r) = Some (true, r).
Proof. reflexivity. Qed.

(** A standard reader of the export list with one entry and one group. *)
Lemma exports_one : forall dir group xid, str_ok dir -> str_ok group ->
  word_ok (len (utf16le dir)) -> word_ok (len (utf8_encode group)) ->
  let d := codec_encode (reply_to (MountExportReply [mkExport dir [group]]) xid) in
  let g := len (utf8_encode group) mod 4 in
  if N.odd (len (utf16_encode dir))
  then exports_in d = Some ([(utf16le dir, [utf8_encode group])],
                            repeat 0 (if (g =? 1) || (g =? 2) then 0%nat else 4%nat))
  else forall gs es rest, exports_in d = Some ((utf16le dir, gs) :: es, rest) -> gs = [].
Proof.
  intros dir group xid Hd Hg Ld Lg d g.
  set (C := utf16le dir) in *. set (U := utf8_encode group) in *.
  assert (B : reply_message_bytes (MountExportReply [mkExport dir [group]]) =
              [0; 0; 0; 1] ++ word (len C) ++ C ++ [0; 0] ++ [0; 0; 0; 1] ++ word (len U) ++ U ++ repeat 0 10).
  { cbn [reply_message_bytes]. unfold export_reply_bytes. cbn [flat_map]. unfold export_entry_bytes.
    cbn [ex_directory ex_groups flat_map]. rewrite le16_spec by assumption. fold C U.
    unfold as_u32. rewrite !N.mod_small by assumption. rewrite !word_be, !app_nil_r, <- !app_assoc.
    reflexivity. }
  assert (D : exists f, d = std_reply xid (reply_message_bytes (MountExportReply [mkExport dir [group]])) ++ repeat 0 f
              /\ N.of_nat f = xdr_padding (52 + len C + len U)).
  { exists (N.to_nat (xdr_padding (52 + len C + len U))). split; [|apply N2Nat.id].
    unfold d, codec_encode. rewrite reply_datagram. f_equal. rewrite fill_spec, std_reply_len, B.
    rewrite !len_app, !word_len, len_repeat. do 3 f_equal.
    change (len [0; 0; 0; 1]) with 4. change (len [0; 0]) with 2. lia. }
  destruct D as [f [D F]]. clearbody d. rewrite B in D.
  assert (K : exists k, List.length d = S (S k)).
  { assert (L : (2 <= List.length d)%nat).
    { rewrite D. unfold std_reply, word. cbn [app List.length]. lia. }
    destruct (List.length d) as [|[|k]]; [lia|lia|eauto]. }
  destruct K as [k K].
  unfold exports_in. rewrite K, D, skip_reply. rewrite <- !app_assoc.
  assert (Ev : len C = 2 * len (utf16_encode dir)) by apply units_len.
  destruct (N.odd (len (utf16_encode dir))) eqn:O.
  - apply N.odd_spec in O. destruct O as [m O].
    assert (E : read_groups (List.length ([0; 0; 0; 1] ++ word (len C) ++ C ++ [0; 0] ++ [0; 0; 0; 1] ++
                 word (len U) ++ U ++ repeat 0 10 ++ repeat 0 f))
                 ([0; 0; 0; 1] ++ word (len U) ++ U ++ repeat 0 10 ++ repeat 0 f)
                = Some ([U], repeat 0 (10 + f - N.to_nat (xdr_padding (len U)) - 4))).
    { cbn [List.length app]. cbn [read_groups].
      change (read_bool (0 :: 0 :: 0 :: 1 :: word (len U) ++ U ++ repeat 0 10 ++ repeat 0 f))
        with (Some (true, word (len U) ++ U ++ repeat 0 10 ++ repeat 0 f)). cbn iota.
      rewrite <- repeat_app.
      rewrite (zeros_split (N.to_nat (xdr_padding (len U))) (10 + f)) by (pose proof (xdr_padding_lt (len U)); lia).
      rewrite read_opaque_app by (assumption || (rewrite len_repeat, N2Nat.id; reflexivity)).
      cbn [List.length app word]. cbn [read_groups].
      rewrite read_bool_zeros by (pose proof (xdr_padding_lt (len U)); lia). reflexivity. }
    assert (R : (10 + f - N.to_nat (xdr_padding (len U)) - 8)%nat = (if (g =? 1) || (g =? 2) then 0%nat else 4%nat)
                /\ (8 <= 10 + f - N.to_nat (xdr_padding (len U)))%nat).
    { assert (F' : N.of_nat f = xdr_padding (2 + len U)).
      { rewrite F, Ev, O. unfold xdr_padding.
        replace (52 + 2 * (2 * m + 1) + len U) with (2 + len U + (13 + m) * 4) by lia.
        rewrite N.mod_add by discriminate. reflexivity. }
      unfold xdr_padding in *. unfold g.
      destruct (N.eqb_spec (len U mod 4) 1), (N.eqb_spec (len U mod 4) 2); cbn [orb]; lia. }
    destruct R as [R1 R2].
    assert (P : len [0; 0] = xdr_padding (len C)).
    { rewrite Ev, O. unfold xdr_padding. change (len [0; 0]) with 2. lia. }
    cbn [read_exports]. rewrite read_bool_one. cbn iota.
    rewrite read_opaque_app by assumption. cbn iota. rewrite E. cbn iota.
    rewrite read_bool_zeros by lia. cbn iota. do 3 f_equal. lia.
  - assert (Z : len C mod 4 = 0).
    { apply (f_equal negb) in O. rewrite N.negb_odd in O. apply N.even_spec in O. destruct O as [m O].
      rewrite Ev, O. lia. }
    assert (P : len (@nil N) = xdr_padding (len C)).
    { unfold xdr_padding. rewrite Z. reflexivity. }
    intros gs es rest. cbn [read_exports]. rewrite read_bool_one. cbn iota.
    change (C ++ [0; 0] ++ [0; 0; 0; 1] ++ word (len U) ++ U ++ repeat 0 10 ++ repeat 0 f)
      with (C ++ [] ++ [0; 0; 0; 0] ++ [0; 1] ++ word (len U) ++ U ++ repeat 0 10 ++ repeat 0 f).
    rewrite read_opaque_app by assumption. cbn iota.
    cbn [List.length app]. cbn [read_groups].
    match goal with |- context [read_bool (0 :: 0 :: 0 :: 0 :: ?r)] =>
      change (read_bool (0 :: 0 :: 0 :: 0 :: r)) with (Some (false, r)) end. cbn iota.
    match goal with |- context [if ?b then _ else _] => destruct b | |- context [match ?b with _ => _ end] => destruct b as [[? ?]|] end; intros H; [|discriminate H].
    congruence.
Qed.

(** An entry without groups. *)
Lemma exports_bare : forall dir xid, str_ok dir -> word_ok (len (utf16le dir)) ->
  let d := codec_encode (reply_to (MountExportReply [mkExport dir []]) xid) in
  exports_in d = Some ([(utf16le dir, [])],
                       repeat 0 (if N.odd (len (utf16_encode dir)) then 0%nat else 4%nat)).
Proof.
  intros dir xid Hd Ld d.
  set (C := utf16le dir) in *.
  assert (B : reply_message_bytes (MountExportReply [mkExport dir []]) =
              [0; 0; 0; 1] ++ word (len C) ++ C ++ repeat 0 10).
  { cbn [reply_message_bytes]. unfold export_reply_bytes. cbn [flat_map]. unfold export_entry_bytes.
    cbn [ex_directory ex_groups flat_map]. rewrite le16_spec by assumption. fold C.
    unfold as_u32. rewrite !N.mod_small by assumption. rewrite !word_be, !app_nil_r, <- !app_assoc.
    reflexivity. }
  assert (D : exists f, d = std_reply xid (reply_message_bytes (MountExportReply [mkExport dir []])) ++ repeat 0 f
              /\ N.of_nat f = xdr_padding (42 + len C)).
  { exists (N.to_nat (xdr_padding (42 + len C))). split; [|apply N2Nat.id].
    unfold d, codec_encode. rewrite reply_datagram. f_equal. rewrite fill_spec, std_reply_len, B.
    rewrite !len_app, !word_len, len_repeat. do 3 f_equal.
    change (len [0; 0; 0; 1]) with 4. lia. }
  destruct D as [f [D F]]. clearbody d. rewrite B in D.
  assert (K : exists k, List.length d = S (S k)).
  { assert (L : (2 <= List.length d)%nat).
    { rewrite D. unfold std_reply, word. cbn [app List.length]. lia. }
    destruct (List.length d) as [|[|k]]; [lia|lia|eauto]. }
  destruct K as [k K].
  unfold exports_in. rewrite K, D, skip_reply. rewrite <- !app_assoc, <- repeat_app.
  assert (Ev : len C = 2 * len (utf16_encode dir)) by apply units_len.
  pose proof (xdr_padding_lt (len C)) as PL.
  rewrite (zeros_split (N.to_nat (xdr_padding (len C))) (10 + f)) by lia.
  cbn [read_exports]. rewrite read_bool_one. cbn iota.
  rewrite read_opaque_app by (assumption || (rewrite len_repeat, N2Nat.id; reflexivity)). cbn iota.
  cbn [List.length app]. cbn [read_groups].
  rewrite read_bool_zeros by lia. cbn iota.
  destruct (N.odd (len (utf16_encode dir))) eqn:O.
  - apply N.odd_spec in O. destruct O as [m O].
    assert (X : xdr_padding (len C) = 2) by (unfold xdr_padding; lia).
    assert (Y : N.of_nat f = 0) by (rewrite F; unfold xdr_padding; lia).
    rewrite read_bool_zeros by lia. cbn iota. do 3 f_equal. lia.
  - apply (f_equal negb) in O. rewrite N.negb_odd in O. apply N.even_spec in O. destruct O as [m O].
    assert (X : xdr_padding (len C) = 0) by (unfold xdr_padding; lia).
    assert (Y : N.of_nat f = 2) by (rewrite F; unfold xdr_padding; lia).
    rewrite read_bool_zeros by lia. cbn iota. do 3 f_equal. lia.
Qed.
