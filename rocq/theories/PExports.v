(** Property C42, for lists of any length: which export lists a standard client
    can read. *)

From Verif Require Import Base Unicode MRpc SUdp SRpc LBase LUnicode LUdp LRpc LRpc2 LExports PRpc.
From Coq Require Import ZArith Lia Arith String.
Open Scope list_scope.
Open Scope N_scope.

(** In a datagram every text is short. *)
Lemma entries_short : forall xid entries,
  Forall (fun e => str_ok (ex_directory e) /\ Forall str_ok (ex_groups e)) entries ->
  len (codec_encode (reply_to (MountExportReply entries) xid)) <= 65507 -> Forall short_entry entries.
Proof.
  intros xid entries H L.
  assert (I : len (flat_map export_entry_bytes entries) <= 65507).
  { revert L. unfold codec_encode. rewrite reply_datagram. cbn [reply_message_bytes]. unfold std_reply, export_reply_bytes.
    destruct entries; [unfold len; cbn; lia|]. rewrite !len_app. lia. }
  apply Forall_forall. intros e E. rewrite Forall_forall in H. destruct (H e E) as [Hd Hg].
  assert (J : len (export_entry_bytes e) <= 65507).
  { apply in_split in E. destruct E as (a & b & ->). rewrite flat_map_app in I. cbn [flat_map] in I. rewrite !len_app in I. lia. }
  split; [exact Hd|]. split; [exact Hg|]. unfold export_entry_bytes in J. rewrite le16_spec in J by assumption. rewrite !len_app in J.
  split; [lia|]. apply Forall_forall. intros g G. destruct (ex_groups e) as [|g0 gs0] eqn:E'; [destruct G|].
  apply in_split in G. destruct G as (a & b & G). rewrite G, flat_map_app in J. cbn [flat_map] in J. rewrite !len_app in J. lia.
Qed.

(** Of all export lists that fit a datagram, a standard reader finds exactly these:
    the empty one, one export without groups, and one export with one group whose
    path has an odd number of UTF-16 units. *)
Theorem C42_every_list : forall xid entries,
  Forall (fun e => str_ok (ex_directory e) /\ Forall str_ok (ex_groups e)) entries ->
  let d := codec_encode (reply_to (MountExportReply entries) xid) in
  len d <= 65507 ->
  ((exists rest, exports_in d =
      Some (map (fun e => (utf16le (ex_directory e), map utf8_encode (ex_groups e))) entries, rest)) <->
   match entries with
   | [] => True
   | [e] => match ex_groups e with
            | [] => True
            | [_] => N.odd (len (utf16_encode (ex_directory e))) = true
            | _ => False
            end
   | _ => False
   end).
Proof.
  intros xid entries H d L.
  assert (D : exists fill, d = std_reply xid (export_reply_bytes entries) ++ fill).
  { unfold d, codec_encode. rewrite reply_datagram. eexists. reflexivity. }
  destruct D as (fill & D).
  pose proof (entries_short xid entries H L) as S.
  clear H. destruct entries as [|e [|e' es]].
  - split; [trivial|]. intros _. unfold exports_in. rewrite D, skip_reply.
    assert (K : exists k, List.length (std_reply xid (export_reply_bytes []) ++ fill) = Datatypes.S k).
    { unfold std_reply, word. cbn [app List.length]. eexists. reflexivity. }
    destruct K as (k & ->). exists fill. reflexivity.
  - inversion S as [|? ? Se _]; subst. destruct e as [dir [|g [|g2 gs]]]; cbn [ex_directory ex_groups map].
    + destruct Se as (Hd & _ & Ld & _). cbn [ex_directory] in *. split; [trivial|]. intros _. unfold d.
      apply C42_no_groups; [assumption|unfold word_ok; lia].
    + destruct Se as (Hd & Hg & Ld & Lg). cbn [ex_directory ex_groups] in *. inversion Hg; subst. inversion Lg; subst. unfold d.
      apply C42_one_export; [assumption..|unfold word_ok; lia|unfold word_ok; lia].
    + split; [|intros []]. intros (rest & R). unfold exports_in in R. rewrite D, skip_reply in R.
      unfold export_reply_bytes in R. cbn [flat_map] in R. rewrite app_nil_r, <- !app_assoc in R.
      destruct (List.length _) as [|k]; [discriminate R|].
      change ([0; 0; 0; 0] ++ fill) with (0 :: [0; 0; 0] ++ fill) in R.
      destruct (first_entry (mkExport dir (g :: g2 :: gs)) k _ _ _ Se R) as (X & _). cbn in X. lia.
  - inversion S as [|? ? Se S']; subst. inversion S' as [|? ? Se' _]; subst. split; [|intros []]. intros (rest & R).
    unfold exports_in in R. rewrite D, skip_reply in R.
    unfold export_reply_bytes in R. cbn [flat_map] in R. rewrite <- !app_assoc in R. cbn [map] in R.
    exact (second_entry _ _ _ _ _ _ Se Se' R).
Qed.
Print Assumptions C42_every_list.

(** Two exports of paths with an odd number of units, and one export with two
    groups: both fit a datagram, and neither is read. *)
Example C42_case_list :
  let two := [mkExport (lit "/") [lit "gr"]; mkExport (lit "/sd") []] in
  let groups := [mkExport (lit "/") [lit "g1"; lit "g2"]] in
  Forall (fun e => str_ok (ex_directory e) /\ Forall str_ok (ex_groups e)) (two ++ groups) /\
  len (codec_encode (reply_to (MountExportReply two) 1)) <= 65507 /\
  len (codec_encode (reply_to (MountExportReply groups) 1)) <= 65507 /\
  ~ (exists rest, exports_in (codec_encode (reply_to (MountExportReply two) 1)) =
       Some ([([47; 0], [lit "gr"]); ([47; 0; 115; 0; 100; 0], [])], rest)).
Proof.
  cbv zeta. assert (F : Forall (fun e => str_ok (ex_directory e) /\ Forall str_ok (ex_groups e))
    ([mkExport (lit "/") [lit "gr"]; mkExport (lit "/sd") []] ++ [mkExport (lit "/") [lit "g1"; lit "g2"]])).
  { repeat (constructor; cbn [ex_directory ex_groups]); unfold is_scalar; vm_compute; intuition congruence. }
  split; [exact F|]. split; [vm_compute; discriminate|]. split; [vm_compute; discriminate|].
  apply Forall_app in F. destruct F as [F _].
  intros X. apply (C42_every_list 1 _ F) in X; [exact X|vm_compute; discriminate].
Qed.

(** Two lists of exports without empty texts that are sent as the same datagram are
    the same list. *)
Theorem C42_told_apart : forall xid xid' entries entries',
  let full := Forall (fun e => str_ok (ex_directory e) /\ ex_directory e <> [] /\
                               Forall (fun g => str_ok g /\ g <> []) (ex_groups e)) in
  word_ok xid -> word_ok xid' -> full entries -> full entries' ->
  let d := codec_encode (reply_to (MountExportReply entries) xid) in
  len d <= 65507 ->
  d = codec_encode (reply_to (MountExportReply entries') xid') -> xid = xid' /\ entries = entries'.
Proof.
  intros xid xid' l l' full X X' F F' d L E.
  assert (G : forall x l, full l -> len (codec_encode (reply_to (MountExportReply l) x)) <= 65507 ->
    Forall short_entry l /\ Forall (fun e => ex_directory e <> [] /\ Forall (fun g => g <> []) (ex_groups e)) l).
  { intros x k K M. split.
    - apply (entries_short x); [|exact M]. eapply Forall_impl; [|exact K]. intros e (A & _ & B). split; [exact A|].
      eapply Forall_impl; [|exact B]. intros g [C _]. exact C.
    - eapply Forall_impl; [|exact K]. intros e (_ & A & B). split; [exact A|]. eapply Forall_impl; [|exact B]. intros g [_ C]. exact C. }
  destruct (G xid l F L) as [S N]. rewrite E in L. destruct (G xid' l' F' L) as [S' N']. clear G F F' L.
  unfold d, codec_encode in E. rewrite !reply_datagram in E. unfold std_reply in E. cbn [reply_message_bytes] in E.
  rewrite <- !app_assoc in E. apply app_inj_len in E; [|rewrite !word_len; reflexivity]. destruct E as [W E].
  split. { pose proof (read_word_word xid [] X) as A. rewrite W, (read_word_word xid' [] X') in A. congruence. }
  do 4 apply app_inv_head in E. unfold export_reply_bytes in E. rewrite <- !app_assoc in E.
  destruct l as [|e l], l' as [|e' l']; try (cbn [app] in E; discriminate E); [reflexivity|].
  rewrite <- !app_assoc in E. apply app_inv_head in E. exact (entries_inj _ _ _ _ S S' N N' E).
Qed.
Print Assumptions C42_told_apart.

(** With empty texts the claim is false: six empty groups are sent as one empty group
    and three exports of an empty path. *)
Theorem C42_told_apart_refuted : exists entries entries', entries <> entries' /\ forall xid,
  codec_encode (reply_to (MountExportReply entries) xid) = codec_encode (reply_to (MountExportReply entries') xid).
Proof.
  exists [mkExport (lit "/") [[]; []; []; []; []; []]], [mkExport (lit "/") [[]]; mkExport [] []; mkExport [] []; mkExport [] []].
  split; [discriminate|]. intros xid. reflexivity.
Qed.
Print Assumptions C42_told_apart_refuted.

Example C42_case_apart :
  let one := [mkExport (lit "/") [lit "g1"; lit "g2"]] in
  let other := [mkExport (lit "/") [lit "g1"]; mkExport (lit "g2") []] in
  Forall (fun e => str_ok (ex_directory e) /\ ex_directory e <> [] /\ Forall (fun g => str_ok g /\ g <> []) (ex_groups e)) (one ++ other) /\
  len (codec_encode (reply_to (MountExportReply one) 1)) <= 65507 /\
  codec_encode (reply_to (MountExportReply one) 1) <> codec_encode (reply_to (MountExportReply other) 1).
Proof.
  cbv zeta. split; [|split; [vm_compute; discriminate|vm_compute; discriminate]].
  repeat (constructor; cbn [ex_directory ex_groups]); try discriminate; unfold is_scalar; vm_compute; intuition congruence.
Qed.
