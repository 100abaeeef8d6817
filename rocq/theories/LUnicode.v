(** UTF-8 and UTF-16 are lossless. *)

From Verif Require Import Base Unicode LBase.
From Coq Require Import ZArith.
Open Scope N_scope.

Lemma scalar_iff : forall c, is_scalar c <-> c < 0xD800 \/ (0xE000 <= c /\ c < 0x110000).
Proof. intros. unfold is_scalar, scalar_b. lia. Qed.

(** ** UTF-8 *)

Ltac ltb_case :=
  match goal with
  | |- context [if ?b then _ else _] => let E := fresh "E" in destruct b eqn:E
  end.

Lemma utf8_decode_char : forall c r, is_scalar c ->
  utf8_decode (utf8_char c ++ r) = option_map (cons c) (utf8_decode r).
Proof.
  intros c r Hc. apply scalar_iff in Hc. unfold utf8_char.
  destruct (N.ltb_spec c 0x80) as [H1|H1].
  { cbn [app utf8_decode]. ltb_case; [reflexivity|lia]. }
  destruct (N.ltb_spec c 0x800) as [H2|H2].
  { cbn [app utf8_decode]. ltb_case; [lia|]. ltb_case; [|lia].
    unfold cont. ltb_case; [|lia]. do 2 f_equal. lia. }
  destruct (N.ltb_spec c 0x10000) as [H3|H3].
  { cbn [app utf8_decode]. ltb_case; [lia|]. ltb_case; [lia|]. ltb_case; [|lia].
    replace ((224 + c / 4096 - 224) * 4096 + (128 + (c / 64) mod 64 - 128) * 64
             + (128 + c mod 64 - 128)) with c by lia.
    cbv zeta. unfold cont, scalar_b. ltb_case; [reflexivity|lia]. }
  cbn [app utf8_decode]. ltb_case; [lia|]. ltb_case; [lia|]. ltb_case; [lia|].
  ltb_case; [|lia].
  replace ((240 + c / 262144 - 240) * 262144 + (128 + (c / 4096) mod 64 - 128) * 4096
           + (128 + (c / 64) mod 64 - 128) * 64 + (128 + c mod 64 - 128)) with c by lia.
  cbv zeta. unfold cont, scalar_b. ltb_case; [reflexivity|lia].
Qed.

Lemma utf8_decode_encode : forall s, str_ok s -> utf8_decode (utf8_encode s) = Some s.
Proof.
  induction s as [|c s IH]; intros H; [reflexivity|].
  inversion H; subst. unfold utf8_encode. cbn [flat_map].
  rewrite utf8_decode_char by assumption.
  change (flat_map utf8_char s) with (utf8_encode s). rewrite IH by assumption. reflexivity.
Qed.

Lemma offset_digit : forall lo n b, lo <= b -> b < lo + n -> exists d, b = lo + d /\ d < n.
Proof. intros lo n b H1 H2. exists (b - lo). lia. Qed.

Lemma cont_digit : forall b, cont b = true -> exists d, b = 128 + d /\ d < 64.
Proof. intros b H. unfold cont in H. apply (offset_digit 128 64); lia. Qed.

Lemma add_sub_l : forall a d, a + d - a = d.
Proof. intros. lia. Qed.

Lemma utf8_char_2 : forall x y, x < 32 -> 2 <= x -> y < 64 ->
  utf8_char (x * 64 + y) = [192 + x; 128 + y] /\ is_scalar (x * 64 + y).
Proof.
  intros x y Hx Hx2 Hy. split; [|apply scalar_iff; lia]. unfold utf8_char.
  destruct (N.ltb_spec (x * 64 + y) 0x80); [lia|].
  destruct (N.ltb_spec (x * 64 + y) 0x800); [|lia].
  replace ((x * 64 + y) / 64) with x by lia.
  replace ((x * 64 + y) mod 64) with y by lia. reflexivity.
Qed.

Lemma utf8_char_3 : forall x y z, x < 16 -> y < 64 -> z < 64 ->
  0x800 <= x * 4096 + y * 64 + z ->
  utf8_char (x * 4096 + y * 64 + z) = [224 + x; 128 + y; 128 + z].
Proof.
  intros x y z Hx Hy Hz H. unfold utf8_char.
  destruct (N.ltb_spec (x * 4096 + y * 64 + z) 0x80); [lia|].
  destruct (N.ltb_spec (x * 4096 + y * 64 + z) 0x800); [lia|].
  destruct (N.ltb_spec (x * 4096 + y * 64 + z) 0x10000); [|lia].
  replace ((x * 4096 + y * 64 + z) / 4096) with x by lia.
  replace ((x * 4096 + y * 64 + z) / 64) with (x * 64 + y) by lia.
  replace ((x * 64 + y) mod 64) with y by lia.
  replace ((x * 4096 + y * 64 + z) mod 64) with z by lia. reflexivity.
Qed.

Lemma utf8_char_4 : forall w x y z, w < 8 -> x < 64 -> y < 64 -> z < 64 ->
  0x10000 <= w * 262144 + x * 4096 + y * 64 + z ->
  utf8_char (w * 262144 + x * 4096 + y * 64 + z) = [240 + w; 128 + x; 128 + y; 128 + z].
Proof.
  intros w x y z Hw Hx Hy Hz H. unfold utf8_char.
  destruct (N.ltb_spec (w * 262144 + x * 4096 + y * 64 + z) 0x80); [lia|].
  destruct (N.ltb_spec (w * 262144 + x * 4096 + y * 64 + z) 0x800); [lia|].
  destruct (N.ltb_spec (w * 262144 + x * 4096 + y * 64 + z) 0x10000); [lia|].
  replace ((w * 262144 + x * 4096 + y * 64 + z) / 262144) with w by lia.
  replace ((w * 262144 + x * 4096 + y * 64 + z) / 4096) with (w * 64 + x) by lia.
  replace ((w * 64 + x) mod 64) with x by lia.
  replace ((w * 262144 + x * 4096 + y * 64 + z) / 64) with (w * 4096 + x * 64 + y) by lia.
  replace ((w * 4096 + x * 64 + y) mod 64) with y by lia.
  replace ((w * 262144 + x * 4096 + y * 64 + z) mod 64) with z by lia. reflexivity.
Qed.

Lemma utf8_encode_cons : forall c s, utf8_encode (c :: s) = utf8_char c ++ utf8_encode s.
Proof. reflexivity. Qed.

Lemma utf8_decode_sound : forall n l s, (length l <= n)%nat ->
  utf8_decode l = Some s -> utf8_encode s = l /\ str_ok s.
Proof.
  induction n; intros l s Hn H.
  { destruct l; [|cbn in Hn; lia]. inversion H; subst. split; constructor. }
  destruct l as [|b1 r1]; [inversion H; subst; split; constructor|].
  cbn [utf8_decode] in H. cbn [length] in Hn.
  destruct (b1 <? 0x80) eqn:E1.
  { destruct (utf8_decode r1) as [s1|] eqn:D; [|discriminate].
    inversion H; subst. apply IHn in D; [|lia]. destruct D as [D1 D2].
    split; [|constructor; [apply scalar_iff; lia|assumption]].
    rewrite utf8_encode_cons, D1. unfold utf8_char. rewrite E1. reflexivity. }
  destruct r1 as [|b2 r2]; [discriminate|]. cbn [length] in Hn.
  destruct ((0xC2 <=? b1) && (b1 <? 0xE0)) eqn:E2.
  { destruct (cont b2) eqn:C2; [|discriminate].
    destruct (utf8_decode r2) as [s1|] eqn:D; [|discriminate].
    apply IHn in D; [|lia]. destruct D as [D1 D2].
    destruct (offset_digit 192 32 b1) as [x [-> Hx]]; [lia|lia|].
    apply cont_digit in C2. destruct C2 as [y [-> Hy]].
    rewrite !add_sub_l in H. inversion H; subst s.
    destruct (utf8_char_2 x y Hx ltac:(lia) Hy) as [U1 U2].
    split; [rewrite utf8_encode_cons, U1, D1; reflexivity|constructor; assumption]. }
  destruct r2 as [|b3 r3]; [discriminate|]. cbn [length] in Hn.
  destruct ((0xE0 <=? b1) && (b1 <? 0xF0)) eqn:E3.
  { cbv zeta in H.
    destruct (cont b2 && cont b3 && _ && _) eqn:C; [|discriminate].
    destruct (utf8_decode r3) as [s1|] eqn:D; [|discriminate].
    apply IHn in D; [|lia]. destruct D as [D1 D2].
    apply andb_true_iff in C. destruct C as [C C4].
    apply andb_true_iff in C. destruct C as [C C3].
    apply andb_true_iff in C. destruct C as [C1 C2].
    destruct (offset_digit 224 16 b1) as [x [-> Hx]]; [lia|lia|].
    apply cont_digit in C1. destruct C1 as [y [-> Hy]].
    apply cont_digit in C2. destruct C2 as [z [-> Hz]].
    rewrite !add_sub_l in *. inversion H; subst s. apply N.leb_le in C3.
    split; [rewrite utf8_encode_cons, utf8_char_3 by assumption; rewrite D1; reflexivity
           |constructor; assumption]. }
  destruct r3 as [|b4 r4]; [discriminate|]. cbn [length] in Hn.
  destruct ((0xF0 <=? b1) && (b1 <? 0xF8)) eqn:E4; [|discriminate].
  cbv zeta in H.
  destruct (cont b2 && cont b3 && cont b4 && _ && _) eqn:C; [|discriminate].
  destruct (utf8_decode r4) as [s1|] eqn:D; [|discriminate].
  apply IHn in D; [|lia]. destruct D as [D1 D2].
  apply andb_true_iff in C. destruct C as [C C5].
  apply andb_true_iff in C. destruct C as [C C4].
  apply andb_true_iff in C. destruct C as [C C3].
  apply andb_true_iff in C. destruct C as [C1 C2].
  destruct (offset_digit 240 8 b1) as [w [-> Hw]]; [lia|lia|].
  apply cont_digit in C1. destruct C1 as [x [-> Hx]].
  apply cont_digit in C2. destruct C2 as [y [-> Hy]].
  apply cont_digit in C3. destruct C3 as [z [-> Hz]].
  rewrite !add_sub_l in *. inversion H; subst s. apply N.leb_le in C4.
  split; [rewrite utf8_encode_cons, utf8_char_4 by assumption; rewrite D1; reflexivity
         |constructor; assumption].
Qed.

Lemma utf8_decode_some : forall l s, utf8_decode l = Some s ->
  utf8_encode s = l /\ str_ok s.
Proof. intros. eapply utf8_decode_sound; eauto. Qed.

Lemma utf8_char_ok : forall c, is_scalar c -> bytes_ok (utf8_char c).
Proof.
  intros c H. apply scalar_iff in H. unfold utf8_char.
  repeat (ltb_case; [repeat constructor; unfold is_byte; lia|]).
  repeat constructor; unfold is_byte; lia.
Qed.

Lemma utf8_encode_ok : forall s, str_ok s -> bytes_ok (utf8_encode s).
Proof.
  induction s as [|c s IH]; intros H; [constructor|]. inversion H; subst.
  unfold utf8_encode. cbn [flat_map]. apply bytes_ok_app.
  split; [apply utf8_char_ok; assumption|apply IH; assumption].
Qed.

Lemma utf8_encode_inj : forall s t, str_ok s -> str_ok t ->
  utf8_encode s = utf8_encode t -> s = t.
Proof.
  intros s t Hs Ht E. apply utf8_decode_encode in Hs. apply utf8_decode_encode in Ht.
  congruence.
Qed.

Lemma utf8_encode_app : forall a b, utf8_encode (a ++ b) = utf8_encode a ++ utf8_encode b.
Proof. intros. apply flat_map_app. Qed.

(** ** UTF-16 *)

Lemma utf16_decode_char : forall c r, is_scalar c ->
  utf16_decode (utf16_char c ++ r) = option_map (cons c) (utf16_decode r).
Proof.
  intros c r H. apply scalar_iff in H. unfold utf16_char.
  destruct (N.ltb_spec c 0x10000) as [H1|H1].
  - cbn [app utf16_decode]. ltb_case; [reflexivity|lia].
  - cbn [app utf16_decode]. ltb_case; [lia|]. ltb_case; [lia|]. ltb_case; [|lia].
    do 2 f_equal. lia.
Qed.

Lemma utf16_decode_encode : forall s, str_ok s -> utf16_decode (utf16_encode s) = Some s.
Proof.
  induction s as [|c s IH]; intros H; [reflexivity|]. inversion H; subst.
  unfold utf16_encode. cbn [flat_map]. rewrite utf16_decode_char by assumption.
  fold (utf16_encode s). rewrite IH by assumption. reflexivity.
Qed.

Definition units_ok (l : list N) : Prop := Forall (fun u => u < 65536) l.

Lemma utf16_encode_units : forall s, str_ok s -> units_ok (utf16_encode s).
Proof.
  induction s as [|c s IH]; intros H; [constructor|]. inversion H; subst.
  unfold utf16_encode. cbn [flat_map]. apply Forall_app. split; [|apply IH; assumption].
  apply scalar_iff in H2. unfold utf16_char. ltb_case; repeat constructor; lia.
Qed.

Lemma utf16_decode_sound : forall n l s, (length l <= n)%nat -> units_ok l ->
  utf16_decode l = Some s -> utf16_encode s = l /\ str_ok s.
Proof.
  induction n; intros l s Hn Hl H.
  { destruct l; [|cbn in Hn; lia]. inversion H; subst. split; constructor. }
  destruct l as [|u r]; [inversion H; subst; split; constructor|].
  cbn [utf16_decode] in H. cbn [length] in Hn. inversion Hl; subst.
  destruct ((u <? 0xD800) || (0xE000 <=? u)) eqn:E1.
  { destruct (utf16_decode r) as [s1|] eqn:D; [|discriminate].
    inversion H; subst. apply IHn in D; [|lia|assumption]. destruct D as [D1 D2].
    split; [|constructor; [apply scalar_iff; lia|assumption]].
    unfold utf16_encode. cbn [flat_map]. fold (utf16_encode s1). rewrite D1.
    unfold utf16_char. destruct (N.ltb_spec u 0x10000); [reflexivity|lia]. }
  destruct (0xDC00 <=? u) eqn:E2; [discriminate|].
  destruct r as [|v r']; [discriminate|]. cbn [length] in Hn.
  inversion H3; subst.
  destruct ((0xDC00 <=? v) && (v <? 0xE000)) eqn:E3; [|discriminate].
  destruct (utf16_decode r') as [s1|] eqn:D; [|discriminate].
  cbn [option_map] in H.
  match type of H with Some ?t = _ => assert (Hs : s = t) by congruence end.
  clear H. subst s. apply IHn in D; [|lia|assumption]. destruct D as [D1 D2].
  destruct (offset_digit 55296 1024 u) as [x [-> Hx]]; [lia|lia|].
  destruct (offset_digit 56320 1024 v) as [y [-> Hy]]; [lia|lia|].
  rewrite !add_sub_l.
  split; [|constructor; [apply scalar_iff; lia|assumption]].
  unfold utf16_encode. cbn [flat_map]. fold (utf16_encode s1). rewrite D1.
  unfold utf16_char. destruct (N.ltb_spec (65536 + x * 1024 + y) 0x10000); [lia|].
  replace (65536 + x * 1024 + y - 65536) with (x * 1024 + y) by lia.
  replace ((x * 1024 + y) / 1024) with x by lia.
  replace ((x * 1024 + y) mod 1024) with y by lia. reflexivity.
Qed.

Lemma utf16_decode_some : forall l s, units_ok l -> utf16_decode l = Some s ->
  utf16_encode s = l /\ str_ok s.
Proof. intros. eapply utf16_decode_sound; eauto. Qed.

Lemma utf16_encode_inj : forall s t, str_ok s -> str_ok t ->
  utf16_encode s = utf16_encode t -> s = t.
Proof.
  intros s t Hs Ht E. apply utf16_decode_encode in Hs. apply utf16_decode_encode in Ht.
  congruence.
Qed.

Lemma utf16_encode_app : forall a b, utf16_encode (a ++ b) = utf16_encode a ++ utf16_encode b.
Proof. intros. apply flat_map_app. Qed.

(** ** UTF-16BE bytes *)

Lemma flat_map_be_len : forall n l, len (flat_map (be n) l) = N.of_nat n * len l.
Proof.
  induction l as [|u l IH]; cbn [flat_map]; [rewrite len_nil; lia|].
  rewrite len_app, be_len, IH, len_cons. lia.
Qed.

Lemma utf16_be_len : forall s, len (utf16_be s) = 2 * len (utf16_encode s).
Proof. intros. apply (flat_map_be_len 2). Qed.

Lemma flat_map_be_ok : forall n l, bytes_ok (flat_map (be n) l).
Proof.
  induction l as [|u l IH]; cbn [flat_map]; [constructor|].
  apply bytes_ok_app. split; [apply be_ok|assumption].
Qed.

Lemma flat_map_be2_inj : forall a b, units_ok a -> units_ok b ->
  flat_map (be 2) a = flat_map (be 2) b -> a = b.
Proof.
  induction a as [|x a IH]; intros [|y b] Ha Hb E; try reflexivity; try discriminate.
  cbn [flat_map] in E. inversion Ha; inversion Hb; subst.
  apply app_inj_len in E; [|rewrite !be_len; reflexivity]. destruct E as [E1 E2].
  apply be_inj in E1; [|assumption|assumption]. subst. f_equal. apply IH; assumption.
Qed.

Lemma utf16_be_inj : forall s t, str_ok s -> str_ok t -> utf16_be s = utf16_be t -> s = t.
Proof.
  intros s t Hs Ht E. apply utf16_encode_inj; try assumption.
  apply flat_map_be2_inj; try apply utf16_encode_units; assumption.
Qed.
