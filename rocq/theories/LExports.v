(** Lemmas about reading export lists of any length. *)

From Verif Require Import Base Unicode MRpc SUdp SRpc LBase LUnicode LUdp LRpc LRpc2.
From Coq Require Import ZArith Lia Arith String.
Open Scope list_scope.
Open Scope N_scope.

Lemma word_small : forall n, n < 65536 -> word n = [0; 0; n / 256; n mod 256].
Proof.
  intros n H. unfold word. rewrite (N.div_small n 16777216), (N.div_small n 65536) by lia.
  rewrite (N.mod_small (n / 256)); [reflexivity|]. apply N.div_lt_upper_bound; lia.
Qed.

Lemma read_bool_word : forall b v r, read_bool b = Some (v, r) -> read_word b = Some (if v then 1 else 0, r).
Proof.
  intros b v r H. unfold read_bool in H. destruct (read_word b) as [[n r']|]; [|discriminate H].
  destruct n as [|[n|n|]]; try discriminate H; injection H as <- <-; reflexivity.
Qed.

Lemma read_opaque_inv : forall b c r, read_opaque b = Some (c, r) ->
  exists r', read_word b = Some (len c, r') /\ c = firstn (List.length c) r'.
Proof.
  intros b c r H. unfold read_opaque in H. destruct (read_word b) as [[n r']|]; [|discriminate H].
  destruct (N.ltb_spec (len r') (n + xdr_padding n)) as [L|L]; [discriminate H|]. injection H as <- _.
  exists r'. assert (F : List.length (firstn (N.to_nat n) r') = N.to_nat n) by (apply firstn_length_le; unfold len in L; lia).
  unfold len at 1. rewrite F, N2Nat.id. auto.
Qed.

(** What is written next, without the word that announces it, is never read as
    the next item, wherever the reader is. *)
Lemma not_next : forall X W p r1 r2, bytes_ok X -> len X < 65536 -> (p <= 3)%nat ->
  read_bool (skipn p ([0; 0] ++ word (len X) ++ X ++ [0; 0] ++ 0 :: W)) = Some (true, r1) ->
  read_opaque r1 = Some (X, r2) -> False.
Proof.
  intros X W p r1 r2 B L P R O. apply read_bool_word in R. destruct (read_opaque_inv _ _ _ O) as (r' & Rw & F). clear O.
  rewrite (word_small _ L) in R. pose proof (N.div_mod (len X) 256 ltac:(discriminate)) as D. pose proof (N.mod_lt (len X) 256 ltac:(discriminate)) as M.
  set (a := len X / 256) in *. set (b := len X mod 256) in *. clearbody a b.
  destruct p as [|[|[|[|p]]]]; [| | | |lia]; cbn [skipn app] in R.
  - cbn [read_word] in R. injection R as R _. discriminate R.
  - cbn [read_word] in R. injection R as R <-. assert (a = 1) by lia. subst a.
    destruct X as [|x0 [|x1 [|x2 X]]]; try (exfalso; unfold len in D; cbn [List.length] in D; lia).
    cbn [app read_word] in Rw. injection Rw as Rn <-.
    inversion B as [|? ? B0 B']; subst. inversion B' as [|? ? B1 B'']; subst. inversion B'' as [|? ? B2 _]; subst.
    unfold is_byte in *. assert (b = 0 /\ x0 = 0 /\ x1 = 1 /\ x2 = 0) as (-> & -> & -> & ->) by lia.
    assert (Ln : List.length X = 253%nat) by (unfold len in D; cbn [List.length] in D; lia).
    cbn [List.length] in F. rewrite Ln in F.
    set (Y := 0 :: 1 :: 0 :: X) in *.
    assert (S3 : forall i, (i < 256)%nat -> nth i Y 9 = nth i (X ++ 0 :: 0 :: 0 :: W) 9).
    { intros i Hi. rewrite F. rewrite <- (firstn_skipn 256 (X ++ 0 :: 0 :: 0 :: W)) at 2.
      rewrite app_nth1; [reflexivity|]. rewrite firstn_length, app_length. cbn [List.length]. lia. }
    assert (I : forall k, (3 * k + 1 <= 253)%nat -> nth (3 * k + 1) Y 9 = 1).
    { induction k as [|k IH]; intros Hk; [reflexivity|].
      rewrite <- IH by lia. rewrite (S3 (3 * k + 1)%nat) by lia. rewrite app_nth1 by lia.
      replace (3 * S k + 1)%nat with (S (S (S (3 * k + 1)))) by lia. reflexivity. }
    pose proof (I 84%nat ltac:(lia)) as I1. change (3 * 84 + 1)%nat with 253%nat in I1.
    rewrite (S3 253%nat) in I1 by lia. rewrite app_nth2 in I1 by lia. rewrite Ln in I1. discriminate I1.
  - cbn [read_word] in R. injection R as R <-. assert (len X = 1) by lia.
    destruct X as [|x [|y X]]; try (unfold len in *; cbn [List.length] in *; lia).
    cbn [app read_word] in Rw. injection Rw as Rn _. change (len [x]) with 1 in Rn. lia.
  - destruct X as [|x X]; cbn [app read_word] in R; injection R as R _.
    + change (len (@nil N)) with 0 in D. lia.
    + unfold len in D. cbn [List.length] in D. lia.
Qed.

(** After a text and its two zeros, where [0; 0; 0; 0] is written, the reader finds
    the end of the list of groups. *)
Lemma at_end : forall p T, (p <= 3)%nat ->
  read_bool (skipn p ([0; 0] ++ [0; 0; 0; 0] ++ 0 :: T)) = Some (false, skipn p ([0; 0] ++ 0 :: T)).
Proof. intros p T P. destruct p as [|[|[|[|p]]]]; [reflexivity..|lia]. Qed.

(** A text read where it was written. *)
Lemma opaque_here : forall C Y c r, word_ok (len C) -> read_opaque (word (len C) ++ C ++ Y) = Some (c, r) ->
  c = C /\ r = skipn (N.to_nat (xdr_padding (len C))) Y.
Proof.
  intros C Y c r H R. unfold read_opaque in R. rewrite read_word_word in R by assumption.
  destruct (N.ltb_spec (len (C ++ Y)) (len C + xdr_padding (len C))) as [L|L]; [discriminate R|]. injection R as <- <-.
  rewrite to_nat_len, firstn_app, Nat.sub_diag, firstn_all, app_nil_r. split; [reflexivity|].
  rewrite N2Nat.inj_add, to_nat_len, skipn_app, skipn_all2 by lia. cbn [app]. f_equal. lia.
Qed.

Lemma padding_3 : forall n, (N.to_nat (xdr_padding n) <= 3)%nat.
Proof. intros n. pose proof (xdr_padding_lt n). lia. Qed.

(** The bytes of an entry, with short texts. *)
Definition group_bytes (g : str) : bytes := word (len (utf8_encode g)) ++ utf8_encode g ++ [0; 0].
Definition short_entry (e : export_entry) : Prop :=
  str_ok (ex_directory e) /\ Forall str_ok (ex_groups e) /\
  len (utf16le (ex_directory e)) < 65536 /\ Forall (fun g => len (utf8_encode g) < 65536) (ex_groups e).
Lemma entry_bytes : forall e, short_entry e -> export_entry_bytes e =
  word (len (utf16le (ex_directory e))) ++ utf16le (ex_directory e) ++ [0; 0] ++
  match ex_groups e with [] => [] | gs => [0; 0; 0; 1] ++ flat_map group_bytes gs end ++ [0; 0; 0; 0].
Proof.
  intros [dir gs] (Hd & Hg & Ld & Lg). cbn [ex_directory ex_groups] in *. unfold export_entry_bytes. cbn [ex_directory ex_groups].
  rewrite le16_spec by assumption. unfold as_u32. rewrite N.mod_small by (change u32_max1 with 4294967296; lia). rewrite <- word_be.
  do 4 f_equal. destruct gs as [|g gs]; [reflexivity|]. f_equal.
  assert (K : forall l, Forall (fun g => len (utf8_encode g) < 65536) l ->
    flat_map (fun g => be 4 (len (utf8_encode g) mod u32_max1) ++ utf8_encode g ++ [0; 0]) l = flat_map group_bytes l).
  { induction l as [|x l IH]; intros H; [reflexivity|]. inversion H; subst. cbn [flat_map]. rewrite IH by assumption.
    unfold group_bytes. rewrite N.mod_small by (change u32_max1 with 4294967296; lia). rewrite <- word_be. reflexivity. }
  apply K. exact Lg.
Qed.

(** An entry never ends otherwise than with a zero, and starts with one. *)
Lemma group_starts : forall g, len (utf8_encode g) < 65536 -> exists r, group_bytes g = 0 :: r.
Proof. intros g H. unfold group_bytes. rewrite word_small by assumption. eexists. reflexivity. Qed.
Lemma entry_starts : forall e, short_entry e -> exists r, export_entry_bytes e =
  word (len (utf16le (ex_directory e))) ++ utf16le (ex_directory e) ++ [0; 0] ++ 0 :: r.
Proof. intros e H. rewrite (entry_bytes e H). destruct (ex_groups e); eexists; reflexivity. Qed.

(** After the directory, the groups are read as they are only when there is at most
    one, and then the reader is at most three bytes past the text before. *)
Definition groups_tail (gs : list str) (T : bytes) : bytes :=
  match gs with [] => [] | g :: l => [0; 0; 0; 1] ++ flat_map group_bytes (g :: l) end ++ [0; 0; 0; 0] ++ 0 :: T.
Lemma groups_read : forall gs p f T r, Forall str_ok gs -> Forall (fun g => len (utf8_encode g) < 65536) gs -> (p <= 3)%nat ->
  read_groups f (skipn p ([0; 0] ++ groups_tail gs T)) = Some (map utf8_encode gs, r) ->
  (List.length gs <= 1)%nat /\ exists q, (q <= 3)%nat /\ r = skipn q ([0; 0] ++ 0 :: T).
Proof.
  intros gs p f T r Hg Lg P H. destruct f as [|f]; [discriminate H|]. unfold groups_tail in H. destruct gs as [|g gs].
  - cbn [read_groups map] in H. change ([] ++ [0; 0; 0; 0] ++ 0 :: T) with ([0; 0; 0; 0] ++ 0 :: T) in H.
    rewrite (at_end p T P) in H. injection H as <-. split; [cbn; lia|]. exists p. auto.
  - inversion Hg as [|? ? Sg Sgs]; subst. inversion Lg as [|? ? Lg0 Lgs]; subst.
    cbn [map] in H. cbn [read_groups] in H. cbn [flat_map] in H. unfold group_bytes at 1 in H. rewrite <- !app_assoc in H.
    set (C := utf8_encode g) in *.
    assert (p = 2%nat) as ->.
    { destruct p as [|[|[|[|p]]]]; try reflexivity; try lia; exfalso; rewrite (word_small _ Lg0) in H; cbn in H; discriminate H. }
    change (skipn 2 ([0; 0] ++ [0; 0; 0; 1] ++ ?x)) with ([0; 0; 0; 1] ++ x) in H.
    rewrite read_bool_one in H. destruct (read_opaque _) as [[c r2]|] eqn:O; [|discriminate H].
    apply opaque_here in O; [|unfold word_ok; lia]. destruct O as [-> ->].
    set (q := N.to_nat (xdr_padding (len C))) in *. assert (Q : (q <= 3)%nat) by apply padding_3.
    destruct (read_groups f _) as [[l r3]|] eqn:G; [|discriminate H]. injection H as -> ->.
    destruct f as [|f]; [discriminate G|]. destruct gs as [|g2 gs].
    + change (flat_map group_bytes [] ++ [0; 0; 0; 0] ++ 0 :: T) with ([0; 0; 0; 0] ++ 0 :: T) in G. cbn [read_groups] in G. rewrite (at_end q T Q) in G. injection G as <-.
      split; [cbn; lia|]. exists q. auto.
    + exfalso. inversion Sgs as [|? ? Sg2 _]; subst. inversion Lgs as [|? ? Lg2 Lgs2]; subst.
      cbn [map] in G. cbn [read_groups] in G. cbn [flat_map] in G. unfold group_bytes at 1 in G. rewrite <- !app_assoc in G.
      assert (Z : exists W, flat_map group_bytes gs ++ [0; 0; 0; 0] ++ 0 :: T = 0 :: W).
      { destruct gs as [|g3 gs]; [eexists; reflexivity|]. inversion Lgs2 as [|? ? Lg3 _]; subst.
        destruct (group_starts g3 Lg3) as (w & E). cbn [flat_map]. rewrite E. eexists. reflexivity. }
      destruct Z as (W & Z). rewrite Z in G.
      destruct (read_bool _) as [[[|] r1]|] eqn:R; try discriminate G.
      destruct (read_opaque r1) as [[c r2]|] eqn:O; [|discriminate G].
      destruct (read_groups f r2) as [[? ?]|]; [|discriminate G]. injection G as -> _ _.
      refine (not_next (utf8_encode g2) W q r1 r2 _ Lg2 Q R O). apply utf8_encode_ok. exact Sg2.
Qed.

Lemma first_entry : forall e fuel T es out, short_entry e ->
  read_exports (Datatypes.S fuel) ([0; 0; 0; 1] ++ export_entry_bytes e ++ 0 :: T) =
    Some ((utf16le (ex_directory e), map utf8_encode (ex_groups e)) :: es, out) ->
  (List.length (ex_groups e) <= 1)%nat /\ exists q, (q <= 3)%nat /\ read_exports fuel (skipn q ([0; 0] ++ 0 :: T)) = Some (es, out).
Proof.
  intros e fuel T es out He H. rewrite (entry_bytes e He) in H. destruct He as (Hd & Hg & Ld & Lg).
  cbn [read_exports] in H. rewrite read_bool_one in H. rewrite <- !app_assoc in H.
  destruct (read_opaque _) as [[c r2]|] eqn:O; [|discriminate H].
  apply opaque_here in O; [|unfold word_ok; lia]. destruct O as [-> ->].
  destruct (read_groups _ _) as [[gs r3]|] eqn:G; [|discriminate H].
  destruct (read_exports fuel r3) as [[es' r4]|] eqn:E; [|discriminate H]. injection H as -> -> ->.
  match type of G with read_groups ?f _ = _ => destruct (groups_read (ex_groups e) (N.to_nat (xdr_padding (len (utf16le (ex_directory e))))) f T r3 Hg Lg (padding_3 _) G) as (L & q & Q & ->) end.
  split; [exact L|]. exists q. auto.
Qed.

(** A list with another entry after the first is not read as it is. *)
Lemma second_entry : forall e e' es fuel rest out, short_entry e -> short_entry e' ->
  read_exports fuel ([0; 0; 0; 1] ++ export_entry_bytes e ++ export_entry_bytes e' ++ rest) =
    Some ((utf16le (ex_directory e), map utf8_encode (ex_groups e)) ::
          (utf16le (ex_directory e'), map utf8_encode (ex_groups e')) :: es, out) -> False.
Proof.
  intros e e' es fuel rest out He He' H. destruct fuel as [|fuel]; [discriminate H|].
  destruct (entry_starts e' He') as (T & ET).
  assert (S0 : exists U, export_entry_bytes e' ++ rest = 0 :: U).
  { destruct He' as (_ & _ & Ld' & _). rewrite ET, word_small by assumption. eexists. reflexivity. }
  destruct S0 as (U & EU). rewrite EU in H. apply first_entry in H; [|exact He]. destruct H as (_ & q & Q & H).
  rewrite <- EU, ET in H. rewrite <- !app_assoc in H. destruct He' as (Hd' & _ & Ld' & _).
  destruct fuel as [|fuel]; [discriminate H|]. cbn [read_exports] in H.
  change ((0 :: T) ++ rest) with (0 :: (T ++ rest)) in H.
  destruct (read_bool _) as [[[|] r1]|] eqn:R; try discriminate H.
  destruct (read_opaque r1) as [[c r2]|] eqn:O; [|discriminate H].
  destruct (read_groups _ r2) as [[? ?]|]; [|discriminate H]. destruct (read_exports fuel _) as [[? ?]|]; [|discriminate H].
  injection H as -> _ _ _. refine (not_next _ (T ++ rest) q r1 r2 _ Ld' Q R O). apply utf16le_ok. exact Hd'.
Qed.

(** ** Lists told apart *)

Lemma text_inj : forall C C' u u', len C < 65536 -> len C' < 65536 ->
  word (len C) ++ C ++ u = word (len C') ++ C' ++ u' -> C = C' /\ u = u'.
Proof.
  intros C C' u u' L L' E. apply app_inj_len in E; [|rewrite !word_len; reflexivity]. destruct E as [W E].
  apply app_inj_len in E; [exact E|].
  pose proof (read_word_word (len C) [] ltac:(unfold word_ok; lia)) as A. pose proof (read_word_word (len C') [] ltac:(unfold word_ok; lia)) as B.
  rewrite W in A. congruence.
Qed.

Lemma no_text : forall C u t, len C < 65536 -> C <> [] -> word (len C) ++ C ++ u = [0; 0; 0; 0] ++ t -> False.
Proof.
  intros C u t L N E. rewrite word_small in E by assumption. cbn [app] in E. injection E as A B _.
  pose proof (N.div_mod (len C) 256 ltac:(discriminate)) as D. destruct C; [contradiction|]. unfold len in *. cbn [List.length] in *. lia.
Qed.

Lemma utf16le_inj : forall a b, str_ok a -> str_ok b -> utf16le a = utf16le b -> a = b.
Proof.
  intros a b Ha Hb E. apply utf16_encode_inj; [assumption..|]. revert E. unfold utf16le.
  generalize (utf16_encode a) (utf16_encode b). induction l as [|x l IH]; intros [|y l'] E; try discriminate E; [reflexivity|].
  cbn [flat_map app] in E. injection E as A B E. rewrite (IH _ E). f_equal.
  pose proof (N.div_mod x 256 ltac:(discriminate)). pose proof (N.div_mod y 256 ltac:(discriminate)). lia.
Qed.

Lemma utf8_nonempty : forall s, s <> [] -> utf8_encode s <> [].
Proof.
  intros s N E. destruct s as [|c s]; [contradiction|]. revert E. unfold utf8_encode. cbn [flat_map]. unfold utf8_char.
  repeat match goal with |- context [if ?b then _ else _] => destruct b end; discriminate.
Qed.
Lemma utf16le_nonempty : forall s, s <> [] -> utf16le s <> [].
Proof.
  intros s N E. destruct s as [|c s]; [contradiction|]. revert E. unfold utf16le, utf16_encode. cbn [flat_map]. unfold utf16_char.
  repeat match goal with |- context [if ?b then _ else _] => destruct b end; discriminate.
Qed.

Lemma group_app : forall g gs t, flat_map group_bytes (g :: gs) ++ t =
  word (len (utf8_encode g)) ++ utf8_encode g ++ [0; 0] ++ flat_map group_bytes gs ++ t.
Proof. intros. cbn [flat_map]. unfold group_bytes at 1. rewrite <- !app_assoc. reflexivity. Qed.

Lemma groups_inj : forall gs gs' t t', Forall str_ok gs -> Forall str_ok gs' ->
  Forall (fun g => len (utf8_encode g) < 65536) gs -> Forall (fun g => len (utf8_encode g) < 65536) gs' ->
  Forall (fun g => g <> []) gs -> Forall (fun g => g <> []) gs' ->
  flat_map group_bytes gs ++ [0; 0; 0; 0] ++ t = flat_map group_bytes gs' ++ [0; 0; 0; 0] ++ t' -> gs = gs' /\ t = t'.
Proof.
  induction gs as [|g gs IH]; intros [|g' gs'] t t' S S' L L' N N' E; rewrite ?group_app in E.
  - cbn [flat_map app] in E. injection E as <-. auto.
  - exfalso. inversion L'; inversion N'; subst. symmetry in E. revert E. apply no_text; [assumption|]. apply utf8_nonempty. assumption.
  - exfalso. inversion L; inversion N; subst. revert E. apply no_text; [assumption|]. apply utf8_nonempty. assumption.
  - inversion S; inversion S'; inversion L; inversion L'; inversion N; inversion N'; subst.
    apply text_inj in E; [|assumption..]. destruct E as [A E]. apply app_inv_head in E.
    apply IH in E; [|assumption..]. destruct E as [-> ->]. split; [|reflexivity]. f_equal. apply utf8_encode_inj; assumption.
Qed.

Lemma entry_inj : forall e e' t t', short_entry e -> short_entry e' ->
  Forall (fun g => g <> []) (ex_groups e) -> Forall (fun g => g <> []) (ex_groups e') ->
  export_entry_bytes e ++ t = export_entry_bytes e' ++ t' -> e = e' /\ t = t'.
Proof.
  intros e e' t t' H H' N N' E. rewrite (entry_bytes e H), (entry_bytes e' H') in E. rewrite <- !app_assoc in E.
  destruct H as (Sd & Sg & Ld & Lg), H' as (Sd' & Sg' & Ld' & Lg').
  apply text_inj in E; [|assumption..]. destruct E as [A E]. apply utf16le_inj in A; [|assumption..]. apply app_inv_head in E.
  destruct e as [dir gs], e' as [dir' gs']. cbn [ex_directory ex_groups] in *. subst dir'.
  destruct gs as [|g gs], gs' as [|g' gs']; try (cbn [app] in E; discriminate E).
  - cbn [app] in E. injection E as <-. auto.
  - rewrite <- !app_assoc in E. apply app_inv_head in E. apply groups_inj in E; [|assumption..]. destruct E as [-> ->]. auto.
Qed.

Lemma entries_inj : forall l l' t t', Forall short_entry l -> Forall short_entry l' ->
  Forall (fun e => ex_directory e <> [] /\ Forall (fun g => g <> []) (ex_groups e)) l ->
  Forall (fun e => ex_directory e <> [] /\ Forall (fun g => g <> []) (ex_groups e)) l' ->
  flat_map export_entry_bytes l ++ [0; 0; 0; 0] ++ t = flat_map export_entry_bytes l' ++ [0; 0; 0; 0] ++ t' -> l = l'.
Proof.
  assert (Z : forall e l t t', short_entry e -> ex_directory e <> [] ->
    flat_map export_entry_bytes (e :: l) ++ t = [0; 0; 0; 0] ++ t' -> False).
  { intros e l t t' S N E. cbn [flat_map] in E. destruct (entry_starts e S) as (r & R). rewrite R in E. rewrite <- !app_assoc in E.
    revert E. apply no_text; [apply S|]. apply utf16le_nonempty. exact N. }
  induction l as [|e l IH]; intros [|e' l'] t t' S S' N N' E.
  - reflexivity.
  - exfalso. inversion S'; inversion N'; subst. symmetry in E. eapply Z; [..|exact E]; [assumption|tauto].
  - exfalso. inversion S; inversion N; subst. eapply Z; [..|exact E]; [assumption|tauto].
  - inversion S; inversion S'; inversion N as [|? ? [N1 N2]]; inversion N' as [|? ? [N1' N2']]; subst. cbn [flat_map] in E. rewrite <- !app_assoc in E.
    apply entry_inj in E; [|assumption..]. destruct E as [-> E]. f_equal. apply (IH l' t t'); assumption.
Qed.
