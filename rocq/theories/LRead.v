(** The client-side reader of [SDb] applied to the server's encodings. *)

From Verif Require Import Base Unicode MDb SDb LBase LUnicode LDb.
From Coq Require Import ZArith.
Open Scope N_scope.

Lemma cut_app : forall n a b, len a = n -> cut n (a ++ b) = Some (a, b).
Proof.
  intros n a b H. unfold cut. rewrite len_app.
  destruct (N.leb_spec n (len a + len b)); [|lia].
  assert (E : N.to_nat n = length a) by (unfold len in H; lia).
  rewrite E, firstn_app, Nat.sub_diag, firstn_all, firstn_O, app_nil_r.
  rewrite skipn_app, Nat.sub_diag, skipn_all. reflexivity.
Qed.

Lemma cut_some : forall n l a b, cut n l = Some (a, b) -> l = a ++ b /\ len a = n.
Proof.
  intros n l a b H. unfold cut in H. destruct (N.leb_spec n (len l)); [|discriminate].
  inversion H; subst. rewrite firstn_skipn. split; [reflexivity|].
  rewrite len_firstn. lia.
Qed.

(** A field as a client sees it. *)
Definition cval (f : field) : cvalue :=
  match f_kind f with
  | FU8 => CNum 1 (number (f_value f))
  | FU16 => CNum 2 (number (f_value f))
  | FU32 => CNum 4 (number (f_value f))
  | FString => CText (units_of (f_value f))
  | FBinary => CBlob (f_value f)
  end.

Lemma read_value_num1 : forall d r, len d = 1 ->
  read_value (0x0f :: d ++ r) = Some (CNum 1 (number d), r).
Proof. intros. cbn [read_value]. rewrite cut_app by assumption. reflexivity. Qed.
Lemma read_value_num2 : forall d r, len d = 2 ->
  read_value (0x10 :: d ++ r) = Some (CNum 2 (number d), r).
Proof. intros. cbn [read_value]. rewrite cut_app by assumption. reflexivity. Qed.
Lemma read_value_num4 : forall d r, len d = 4 ->
  read_value (0x11 :: d ++ r) = Some (CNum 4 (number d), r).
Proof. intros. cbn [read_value]. rewrite cut_app by assumption. reflexivity. Qed.
Lemma read_value_text : forall c v r, len c = 4 -> 0 < number c ->
  len v = 2 * (number c - 1) ->
  read_value (0x26 :: c ++ v ++ [0; 0] ++ r) = Some (CText (units_of v), r).
Proof.
  intros. cbn [read_value]. rewrite cut_app by assumption.
  rewrite cut_app by assumption. cbn [app].
  destruct (N.ltb_spec 0 (number c)); [reflexivity|lia].
Qed.
Lemma read_value_blob : forall c v r, len c = 4 -> len v = number c ->
  read_value (0x14 :: c ++ v ++ r) = Some (CBlob v, r).
Proof.
  intros. cbn [read_value]. rewrite cut_app by assumption.
  rewrite cut_app by assumption. reflexivity.
Qed.

Lemma read_value_simple : forall f r, simple_arg f -> short_text f ->
  read_value (field_as_bytes f ++ r) = Some (cval f, r).
Proof.
  intros [k v] r Hs Ht. destruct k; unfold simple_arg in Hs; cbn in Hs;
    unfold field_as_bytes, cval; cbn [f_kind f_value field_type_value].
  - apply read_value_num1. assumption.
  - apply read_value_num2. assumption.
  - apply read_value_num4. assumption.
  - specialize (Ht eq_refl). cbn [f_value] in Ht.
    assert (E : as_u8 (len v) = len v) by (unfold as_u8, u8_max1; lia).
    rewrite E, <- !app_assoc.
    apply (read_value_text [0; 0; 0; len v / 2 + 1] v r); unfold number; cbn [fold_left].
    + reflexivity.
    + lia.
    + lia.
  - destruct Hs.
Qed.

Lemma has_code_cval : forall f, simple_arg f ->
  has_code (argument_type_value (f_kind f)) (cval f) = true.
Proof. intros [[] v] H; try reflexivity; destruct H. Qed.

(** One announced argument. *)
Lemma read_args_cons : forall c cs prev v l l' vs l'',
  (c =? 3) && (match prev with CNum _ 0 => true | _ => false end) = false ->
  read_value l = Some (v, l') -> has_code c v = true ->
  read_args cs v l' = Some (vs, l'') ->
  read_args (c :: cs) prev l = Some (v :: vs, l'').
Proof.
  intros c cs prev v l l' vs l'' H1 H2 H3 H4. cbn [read_args].
  rewrite H1, H2, H3, H4. reflexivity.
Qed.

Lemma argument_type_value_not3 : forall f, simple_arg f ->
  (argument_type_value (f_kind f) =? 3) = false.
Proof. intros [[] v] H; try reflexivity; destruct H. Qed.

Lemma read_args_simple : forall fs prev r,
  Forall simple_arg fs -> Forall short_text fs ->
  read_args (codes fs) prev (flat_map field_as_bytes fs ++ r) = Some (map cval fs, r).
Proof.
  induction fs as [|f fs IH]; intros prev r Hs Ht; [reflexivity|].
  inversion Hs; inversion Ht; subst. cbn [codes map flat_map]. rewrite <- app_assoc.
  eapply read_args_cons.
  - rewrite argument_type_value_not3 by assumption. reflexivity.
  - apply read_value_simple; assumption.
  - apply has_code_cval; assumption.
  - apply IH; assumption.
Qed.

Lemma firstn_codes : forall fs pad, firstn (N.to_nat (len fs)) (codes fs ++ pad) = codes fs.
Proof.
  intros. rewrite to_nat_len.
  replace (length fs) with (length (codes fs)) by apply map_length.
  rewrite firstn_app, Nat.sub_diag, firstn_all, firstn_O, app_nil_r. reflexivity.
Qed.

(** A message whose arguments the client can read. *)
Lemma read_message_gen : forall tx c1 c2 fs vs r,
  len tx = 4 -> (length fs <= 12)%nat ->
  read_args (codes fs) (CNum 0 1) (flat_map field_as_bytes fs ++ r) = Some (vs, r) ->
  read_message (message_to_response (mkField FU32 tx) ++ [0x10; c1; c2]
                ++ arguments_encode fs ++ r)
  = Some (mkCmsg (number tx) (number [c1; c2]) vs, r).
Proof.
  intros tx c1 c2 fs vs r Htx Hl Hargs.
  rewrite arguments_encode_12 by assumption.
  unfold message_to_response, read_message.
  cbn [field_as_bytes f_kind f_value field_type_value].
  rewrite <- !app_assoc.
  change ([17] ++ db_magic ++ ?x) with (17 :: db_magic ++ x).
  rewrite read_value_num4 by reflexivity.
  change (number db_magic) with 0x872349ae. cbv iota beta.
  change ([17] ++ tx ++ ?x) with (17 :: tx ++ x).
  rewrite read_value_num4 by assumption. cbv iota beta.
  change ([16; c1; c2] ++ ?x) with (16 :: [c1; c2] ++ x).
  rewrite read_value_num2 by reflexivity. cbv iota beta.
  change ([15; len fs] ++ ?x) with (15 :: [len fs] ++ x).
  rewrite read_value_num1 by reflexivity. cbv iota beta.
  change ([20; 0; 0; 0; 12] ++ ?x) with (20 :: [0; 0; 0; 12] ++ x).
  rewrite (app_assoc (codes fs)).
  assert (Htl : len (codes fs ++ repeat 0 (12 - length fs)) = 12)
    by (rewrite len_app, codes_len, len_repeat; unfold len; lia).
  rewrite read_value_blob by (try reflexivity; exact Htl). cbv iota beta.
  rewrite Htl. change (12 =? 12) with true.
  assert (En : number [len fs] = len fs) by (unfold number; cbn [fold_left]; lia).
  rewrite En. destruct (N.leb_spec (len fs) 12); [|unfold len in *; lia].
  cbn [andb]. rewrite firstn_codes, Hargs. reflexivity.
Qed.

Lemma read_message_simple : forall tx t fs r,
  len tx = 4 -> (length fs <= 12)%nat -> Forall simple_arg fs -> Forall short_text fs ->
  read_message (message_encode (mkMessage (mkField FU32 tx) t fs) ++ r)
  = Some (mkCmsg (number tx) (number (request_type_value t)) (map cval fs), r).
Proof.
  intros. unfold message_encode. cbn [m_transaction_id m_request_type m_arguments].
  rewrite <- !app_assoc.
  assert (E : exists c1 c2, request_type_value t = [c1; c2])
    by (destruct t; cbn; eauto).
  destruct E as [c1 [c2 ->]].
  apply (read_message_gen tx c1 c2); [assumption|assumption|].
  apply read_args_simple; assumption.
Qed.

(** ** Streams *)

Lemma read_stream_fuel_msgs : forall (bs : list bytes) (vs : list cmsg) k,
  Forall2 (fun b v => b <> [] /\ forall r, read_message (b ++ r) = Some (v, r)) bs vs ->
  (length bs <= k)%nat ->
  read_stream_fuel k (concat bs) = Some vs.
Proof.
  intros bs vs k H. revert k.
  induction H as [|b v bs vs [Hne H] _ IH]; intros k Hk.
  - destruct k; reflexivity.
  - destruct k as [|k]; [cbn in Hk; lia|].
    cbn [concat]. destruct b as [|x b]; [congruence|].
    cbn [app read_stream_fuel].
    change (x :: b ++ concat bs) with ((x :: b) ++ concat bs).
    rewrite H, IH by (cbn in Hk; lia). reflexivity.
Qed.

Lemma concat_length_ge : forall (bs : list bytes), Forall (fun b => b <> []) bs ->
  (length bs <= length (concat bs))%nat.
Proof.
  induction bs as [|b bs IH]; intro H; [cbn; lia|].
  inversion H as [|x y Hb Hbs]; subst.
  destruct b; [congruence|]. apply IH in Hbs. cbn [concat length app].
  rewrite app_length. lia.
Qed.

Lemma read_stream_msgs : forall bs vs,
  Forall2 (fun b v => b <> [] /\ forall r, read_message (b ++ r) = Some (v, r)) bs vs ->
  read_stream (concat bs) = Some vs.
Proof.
  intros bs vs H. unfold read_stream. apply read_stream_fuel_msgs; [assumption|].
  apply concat_length_ge. induction H as [|b v bs vs [Hb _] _ IH]; constructor; assumption.
Qed.

(** What a message of simple arguments looks like to a client. *)
Definition cview (m : message) : cmsg :=
  mkCmsg (number (f_value (m_transaction_id m))) (number (request_type_value (m_request_type m)))
         (map cval (m_arguments m)).

Definition simple_message (m : message) : Prop :=
  f_kind (m_transaction_id m) = FU32 /\ len (f_value (m_transaction_id m)) = 4 /\
  (length (m_arguments m) <= 12)%nat /\
  Forall simple_arg (m_arguments m) /\ Forall short_text (m_arguments m).

Lemma message_encode_ne : forall m, message_encode m <> [].
Proof. intros m. unfold message_encode, message_to_response. discriminate. Qed.

Lemma read_stream_simple : forall ms, Forall simple_message ms ->
  read_stream (messages_encode ms) = Some (map cview ms).
Proof.
  intros ms H. unfold messages_encode. rewrite flat_map_concat_map.
  apply read_stream_msgs.
  induction H as [|m ms Hm _ IH]; cbn [map]; constructor; [|assumption].
  split; [apply message_encode_ne|]. intro r.
  destruct m as [[k tx] t fs]. destruct Hm as [Hk [Htx [Hl [Hs Ht]]]].
  cbn in *. subst k. apply read_message_simple; assumption.
Qed.

Lemma read_stream_one : forall b v, b <> [] ->
  (forall r, read_message (b ++ r) = Some (v, r)) -> read_stream b = Some [v].
Proof.
  intros b v Hne H. rewrite <- (app_nil_r b). change (b ++ []) with (concat [b]).
  apply read_stream_msgs. repeat constructor; assumption.
Qed.

(** ** Texts *)

Lemma units_of_be : forall us, Forall (fun u => u < 65536) us ->
  units_of (flat_map (be 2) us) = us.
Proof.
  induction us as [|u us IH]; intro H; [reflexivity|]. inversion H; subst.
  change (flat_map (be 2) (u :: us)) with ((u / 256) mod 256 :: u mod 256 :: flat_map (be 2) us).
  cbn [units_of]. rewrite IH by assumption. f_equal. lia.
Qed.

Lemma units_of_length : forall n l, len l = 2 * n -> len (units_of l) = n.
Proof.
  intros n. induction n as [|n IH] using N.peano_ind; intros l H.
  - destruct l; [reflexivity|]. rewrite len_cons in H. lia.
  - destruct l as [|a [|b l]]; [rewrite len_nil in H; lia|rewrite !len_cons, len_nil in H; lia|].
    cbn [units_of]. rewrite !len_cons in *. rewrite IH; lia.
Qed.

Lemma units_of_utf16 : forall s, str_ok s -> units_of (utf16_be s) = utf16_encode s.
Proof. intros s H. apply units_of_be. apply utf16_encode_units. assumption. Qed.

Lemma utf16_be_even : forall s, len (utf16_be s) mod 2 = 0.
Proof. intros. rewrite utf16_be_len. lia. Qed.

(** The length byte of a text of [n] units is [n mod 128 + 1]. *)
Lemma text_field_bytes : forall s,
  field_as_bytes (field_of_str s)
  = 0x26 :: [0; 0; 0; len (utf16_encode s) mod 128 + 1] ++ utf16_be s ++ [0; 0].
Proof.
  intros s. unfold field_as_bytes, field_of_str. cbn [f_kind f_value app field_type_value].
  rewrite utf16_be_len.
  replace (as_u8 (2 * len (utf16_encode s)) / 2) with (len (utf16_encode s) mod 128);
    [reflexivity|]. unfold as_u8, u8_max1. lia.
Qed.

Lemma text_layout_iff : forall s,
  (exists c, len c = 4 /\ number c = len (utf16_encode s) + 1 /\
     field_as_bytes (field_of_str s) = [0x26] ++ c ++ utf16_be s ++ [0; 0])
  <-> len (utf16_encode s) <= 127.
Proof.
  intro s. rewrite text_field_bytes. split.
  - intros [c [Hc [Hn E]]]. cbn [app] in E. injection E as E.
    change (0 :: 0 :: 0 :: ?x :: ?y) with ([0; 0; 0; x] ++ y) in E.
    apply app_inj_len in E; [|now rewrite Hc]. destruct E as [<- _].
    unfold number in Hn. cbn [fold_left] in Hn. lia.
  - intro H. exists [0; 0; 0; len (utf16_encode s) + 1]. split; [reflexivity|].
    split; [unfold number; cbn [fold_left]; lia|].
    rewrite N.mod_small by lia. reflexivity.
Qed.

Lemma text_read_iff : forall s r, str_ok s ->
  (read_value (field_as_bytes (field_of_str s) ++ r) = Some (CText (utf16_encode s), r)
   <-> len (utf16_encode s) <= 127).
Proof.
  intros s r Hs. rewrite text_field_bytes. split.
  - intro H. cbn [app read_value] in H.
    change (0 :: 0 :: 0 :: ?x :: ?y) with ([0; 0; 0; x] ++ y) in H.
    rewrite cut_app in H by reflexivity.
    destruct (cut _ _) as [[d rest]|] eqn:E; [|discriminate].
    apply cut_some in E. destruct E as [_ E].
    assert (En : number [0; 0; 0; len (utf16_encode s) mod 128 + 1]
                 = len (utf16_encode s) mod 128 + 1)
      by (unfold number; cbn [fold_left]; lia).
    rewrite En in *.
    destruct rest as [|x [|y rest]]; try discriminate;
      destruct x; try discriminate; destruct y; try discriminate.
    destruct (0 <? _); [|discriminate].
    assert (Hu : units_of d = utf16_encode s) by congruence.
    assert (Hd : len (units_of d) = len (utf16_encode s) mod 128)
      by (apply units_of_length; lia).
    rewrite Hu in Hd. lia.
  - intro H. rewrite <- (units_of_utf16 s Hs).
    change ((38 :: ?a ++ ?b ++ ?c) ++ r) with (38 :: (a ++ b ++ c) ++ r).
    rewrite <- !app_assoc.
    assert (En : number [0; 0; 0; len (utf16_encode s) mod 128 + 1]
                 = len (utf16_encode s) + 1)
      by (unfold number; cbn [fold_left]; lia).
    apply read_value_text; rewrite ?(units_of_utf16 s Hs), ?En; [reflexivity|lia|].
    rewrite utf16_be_len. lia.
Qed.

Lemma be_units_of : forall n b, len b = 2 * n -> bytes_ok b -> flat_map (be 2) (units_of b) = b.
Proof.
  intros n. induction n as [|n IH] using N.peano_ind; intros b H Hb.
  - destruct b; [reflexivity|]. rewrite len_cons in H. lia.
  - destruct b as [|x [|y b]]; [rewrite len_nil in H; lia|rewrite !len_cons, len_nil in H; lia|].
    inversion Hb as [|x' l' Hx Hb']; subst. inversion Hb' as [|y' l'' Hy Hb'']; subst.
    rewrite !len_cons in H. cbn [units_of flat_map].
    rewrite IH by (assumption || lia).
    change (be 2 (x * 256 + y)) with [(x * 256 + y) / 256 mod 256; (x * 256 + y) mod 256].
    unfold is_byte in *. cbn [app]. f_equal; [|f_equal]; lia.
Qed.

Lemma units_of_units : forall n b, (length b <= n)%nat -> bytes_ok b -> units_ok (units_of b).
Proof.
  induction n; intros b H Hb.
  - destruct b; [constructor|cbn in H; lia].
  - destruct b as [|x [|y b]]; cbn [units_of]; [constructor|constructor|].
    inversion Hb as [|x' l' Hx Hb']; subst. inversion Hb' as [|y' l'' Hy Hb'']; subst.
    unfold is_byte in *. constructor; [lia|]. apply IHn; [cbn in H; lia|assumption].
Qed.

Lemma utf16_bytes_only_encodings : forall b s, bytes_ok b ->
  utf16_decode (units_of b) = Some s -> len b mod 2 = 0 -> str_ok s /\ utf16_be s = b.
Proof.
  intros b s Hb H He. apply utf16_decode_some in H; [|eapply units_of_units; eauto].
  destruct H as [H1 H2]. split; [assumption|]. unfold utf16_be. rewrite H1.
  apply (be_units_of (len b / 2)); [lia|assumption].
Qed.
