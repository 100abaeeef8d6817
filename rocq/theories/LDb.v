(** Proofs about the remote-DB wire format (C01, C02, C04, C05, C06). *)

From Verif Require Import Base Unicode MDb SDb LBase LUnicode.
From Coq Require Import ZArith.
Open Scope N_scope.

(** ** Single arguments *)

Lemma number_of_be : forall l, number l = of_be l.
Proof. reflexivity. Qed.

Lemma of_be_000 : forall x, of_be [0; 0; 0; x] = x.
Proof. intros. unfold of_be. cbn [fold_left]. lia. Qed.

Lemma take_cons1 : forall x l, take 1 (x :: l) = Ok (l, [x]).
Proof. intros. apply (take_app 1 [x] l). reflexivity. Qed.

Lemma argument_decode_num : forall p k f r n,
  f_kind f = k -> len (f_value f) = n ->
  (k = FU8 /\ n = 1 \/ k = FU16 /\ n = 2 \/ k = FU32 /\ n = 4) ->
  argument_decode p k (field_as_bytes f ++ r) = Ok (r, f).
Proof.
  intros p k [k' v] r n Hk Hn H. cbn in *. subst k'.
  destruct H as [[-> ->]|[[-> ->]|[-> ->]]]; unfold argument_decode, field_as_bytes;
    cbn [f_kind f_value app]; rewrite take_cons1; cbn [rbind];
    rewrite take_app by assumption; reflexivity.
Qed.

(** What decoding an encoded text argument gives: the length byte decides. *)
Lemma argument_decode_text : forall p v r,
  argument_decode p FString (field_as_bytes (mkField FString v) ++ r) =
  (do (i, data) <- take (as_u8 (len v) / 2 * 2) (v ++ [0; 0] ++ r);
   do (i, _) <- be_u16 i;
   Ok (i, mkField FString data)).
Proof.
  intros. unfold field_as_bytes, argument_decode. cbn [f_kind f_value app].
  rewrite take_cons1. cbn [rbind].
  assert (Hs : as_u8 (len v) < 256) by (unfold as_u8, u8_max1; lia).
  set (s := as_u8 (len v)) in *. clearbody s.
  change (0 :: 0 :: 0 :: s / 2 + 1 :: ((v ++ [0; 0]) ++ r))
    with ([0; 0; 0; s / 2 + 1] ++ ((v ++ [0; 0]) ++ r)).
  unfold be_u32. rewrite be_uint_app by reflexivity. cbn [rbind].
  rewrite of_be_000.
  unfold u32_sub. destruct (N.leb_spec 1 (s / 2 + 1)); [|lia]. cbn [rbind].
  replace (s / 2 + 1 - 1) with (s / 2) by lia.
  unfold u32_mul, u32_max1. destruct (N.ltb_spec (s / 2 * 2) 4294967296); [|lia].
  cbn [rbind]. rewrite <- app_assoc. reflexivity.
Qed.

Lemma argument_decode_simple : forall p f r, simple_arg f -> short_text f ->
  argument_decode p (f_kind f) (field_as_bytes f ++ r) = Ok (r, f).
Proof.
  intros p [k v] r Hs Ht. destruct k; unfold simple_arg in Hs; cbn in Hs.
  1-3: eapply argument_decode_num; cbn; eauto 10.
  - unfold short_text in Ht. cbn [f_kind f_value] in *. specialize (Ht eq_refl).
    rewrite argument_decode_text.
    replace (as_u8 (len v) / 2 * 2) with (len v) by (unfold as_u8, u8_max1; lia).
    rewrite take_app by reflexivity. cbn [rbind].
    unfold be_u16. rewrite be_uint_app by reflexivity. reflexivity.
  - destruct Hs.
Qed.

Lemma argument_decode_simple_inv : forall p f r r', simple_arg f ->
  argument_decode p (f_kind f) (field_as_bytes f ++ r) = Ok (r', f) ->
  short_text f /\ r' = r.
Proof.
  intros p [k v] r r' Hs H. destruct k; unfold simple_arg in Hs; cbn in Hs.
  1-3: erewrite argument_decode_num in H by (cbn; eauto 10); inversion H; subst;
       split; [unfold short_text; cbn; discriminate|reflexivity].
  - cbn [f_kind] in H. rewrite argument_decode_text in H.
    apply rbind_ok in H. destruct H as [[i data] [H1 H2]].
    apply rbind_ok in H2. destruct H2 as [[i' z] [H2 H3]]. inversion H3; subst.
    apply take_ok in H1. destruct H1 as [H1 H4].
    assert (Hl : len v < 256) by (unfold as_u8, u8_max1 in H4; lia).
    split; [unfold short_text; cbn; lia|].
    apply app_inj_len in H1; [|reflexivity]. destruct H1 as [_ <-].
    unfold be_u16 in H2. rewrite be_uint_app in H2 by reflexivity. now inversion H2.
  - destruct Hs.
Qed.

(** ** Argument lists *)

Lemma argument_type_roundtrip : forall k, argument_type_new (argument_type_value k) = Ok k.
Proof. destruct k; reflexivity. Qed.

Definition codes (fs : list field) : list N := map (fun f => argument_type_value (f_kind f)) fs.

Lemma arguments_loop_simple : forall p fs pad r,
  Forall simple_arg fs -> Forall short_text fs ->
  arguments_loop p (length fs) (codes fs ++ pad) (flat_map field_as_bytes fs ++ r) = Ok fs.
Proof.
  intros p fs pad r. revert r.
  induction fs as [|f fs IH]; intros r Hs Ht; [reflexivity|].
  inversion Hs; inversion Ht; subst.
  cbn [length codes map app flat_map arguments_loop].
  rewrite argument_type_roundtrip. cbn [rbind].
  rewrite <- app_assoc, argument_decode_simple by assumption. cbn [unwrap rbind].
  change (map (fun f => argument_type_value (f_kind f)) fs) with (codes fs).
  rewrite IH by assumption. reflexivity.
Qed.

Lemma arguments_loop_length : forall p n types i fs,
  arguments_loop p n types i = Ok fs -> length fs = n /\ (n <= length types)%nat.
Proof.
  induction n; intros types i fs H; cbn [arguments_loop] in H.
  - inversion H; subst. split; [reflexivity|lia].
  - destruct types as [|t types]; [discriminate|].
    apply rbind_ok in H. destruct H as [k [_ H]].
    apply rbind_ok in H. destruct H as [[i' f] [_ H]].
    apply rbind_ok in H. destruct H as [fs' [H1 H2]]. inversion H2; subst.
    apply IHn in H1. cbn. lia.
Qed.

Lemma unwrap_ok : forall A (r : res A) a, unwrap r = Ok a -> r = Ok a.
Proof. intros A [x| |] a; cbn; congruence. Qed.

Lemma arguments_loop_simple_inv : forall p fs pad r, Forall simple_arg fs ->
  arguments_loop p (length fs) (codes fs ++ pad) (flat_map field_as_bytes fs ++ r) = Ok fs ->
  Forall short_text fs.
Proof.
  intros p fs pad r. revert r.
  induction fs as [|f fs IH]; intros r Hs H; [constructor|].
  inversion Hs; subst. cbn [length codes map app flat_map arguments_loop] in H.
  rewrite argument_type_roundtrip in H. cbn [rbind] in H.
  rewrite <- app_assoc in H.
  apply rbind_ok in H. destruct H as [[i f'] [H1 H4]].
  apply rbind_ok in H4. destruct H4 as [fs' [H4 H5]]. inversion H5; subst.
  apply unwrap_ok in H1. apply argument_decode_simple_inv in H1; [|assumption].
  destruct H1 as [Hst ->]. constructor; [assumption|]. eapply IH; eassumption.
Qed.

(** Header of an encoded argument list of at most 12 arguments. *)
Lemma arguments_encode_12 : forall fs, (length fs <= 12)%nat ->
  arguments_encode fs =
  [0x0f; len fs] ++ [0x14; 0; 0; 0; 0x0c]
  ++ (codes fs ++ repeat 0 (12 - length fs)) ++ flat_map field_as_bytes fs.
Proof.
  intros fs H. unfold arguments_encode.
  assert (Hl : len fs <= 12) by (unfold len; lia).
  replace (as_u8 (len fs)) with (len fs) by (unfold as_u8, u8_max1; lia).
  cbn [app]. rewrite to_nat_len.
  change (map (fun f => argument_type_value (f_kind f)) fs) with (codes fs).
  destruct (N.ltb_spec (len fs) 12).
  - unfold fill. rewrite <- app_assoc. reflexivity.
  - replace (12 - length fs)%nat with 0%nat by (unfold len in *; lia).
    cbn [repeat]. rewrite app_nil_r. reflexivity.
Qed.

Lemma codes_len : forall fs, len (codes fs) = len fs.
Proof. intros. apply len_map. Qed.

Lemma arguments_decode_12 : forall p fs r, (length fs <= 12)%nat ->
  arguments_decode p (arguments_encode fs ++ r) =
  (do items <- arguments_loop p (length fs) (codes fs ++ repeat 0 (12 - length fs))
                 (flat_map field_as_bytes fs ++ r);
   Ok ([], items)).
Proof.
  intros p fs r H. rewrite arguments_encode_12 by assumption. unfold arguments_decode.
  rewrite <- !app_assoc.
  rewrite take_app by reflexivity. cbn [rbind].
  rewrite take_app by reflexivity. cbn [rbind].
  rewrite app_assoc, take_app
    by (rewrite len_app, codes_len, len_repeat; unfold len; lia).
  cbn [rbind nth]. rewrite to_nat_len. reflexivity.
Qed.

Lemma arguments_roundtrip_iff : forall p fs suffix, Forall simple_arg fs ->
  (arguments_decode p (arguments_encode fs ++ suffix) = Ok ([], fs) <->
   (length fs <= 12)%nat /\ Forall short_text fs).
Proof.
  intros p fs suffix Hs. split.
  - intro H.
    assert (Hlen : (length fs <= 12)%nat).
    { unfold arguments_decode in H.
      apply rbind_ok in H. destruct H as [[i1 cnt] [H1 H]].
      apply rbind_ok in H. destruct H as [[i2 x] [H2 H]].
      apply rbind_ok in H. destruct H as [[i3 types] [H3 H]].
      apply rbind_ok in H. destruct H as [items [H4 H]]. inversion H; subst.
      apply take_ok in H3. destruct H3 as [_ H3].
      apply arguments_loop_length in H4. unfold len in H3. lia. }
    split; [assumption|].
    rewrite arguments_decode_12 in H by assumption.
    apply rbind_ok in H. destruct H as [items [H1 H]]. inversion H; subst.
    eapply arguments_loop_simple_inv; eassumption.
  - intros [H1 H2]. rewrite arguments_decode_12 by assumption.
    rewrite arguments_loop_simple by assumption. reflexivity.
Qed.

(** ** Binary arguments *)

(** A number of at least [0x0f] in the first byte is far beyond any message. *)
Lemma be_u32_big : forall b l, 3 <= len l -> exists r v,
  be_u32 (b :: l) = Ok (r, v) /\ b * 16777216 <= v /\ len r <= len l.
Proof.
  intros b l H. destruct l as [|x [|y [|z r]]]; try (cbn in H; lia).
  exists r, (of_be [b; x; y; z]). split; [|split].
  - apply (be_uint_app 4 [b; x; y; z] r). reflexivity.
  - unfold of_be. cbn [fold_left]. lia.
  - rewrite !len_cons. lia.
Qed.

Lemma binary_decode_fails : forall p b l, 3 <= len l -> len l < b * 16777216 ->
  argument_decode p FBinary (b :: l) = Err.
Proof.
  intros p b l H1 H2. unfold argument_decode. rewrite len_cons.
  destruct (N.ltb_spec (1 + len l) 4); [lia|].
  destruct (be_u32_big b l H1) as [r [v [E [Hv Hr]]]]. rewrite E. cbn [rbind].
  rewrite take_short by lia. reflexivity.
Qed.

Lemma arguments_loop_app : forall p pre types n pad r,
  Forall simple_arg pre -> Forall short_text pre ->
  (length pre <= n)%nat ->
  arguments_loop p n (codes pre ++ types ++ pad) (flat_map field_as_bytes pre ++ r) =
  (do fs <- arguments_loop p (n - length pre) (types ++ pad) r; Ok (pre ++ fs)).
Proof.
  intros p pre types n pad r. revert n.
  induction pre as [|f pre IH]; intros n Hs Ht Hn.
  - cbn. rewrite Nat.sub_0_r. destruct (arguments_loop p n (types ++ pad) r); reflexivity.
  - inversion Hs; inversion Ht; subst. destruct n as [|n]; [cbn in Hn; lia|].
    cbn [codes map app flat_map arguments_loop length].
    rewrite argument_type_roundtrip. cbn [rbind]. rewrite <- app_assoc.
    rewrite argument_decode_simple by assumption. cbn [unwrap rbind].
    change (map (fun f => argument_type_value (f_kind f)) pre) with (codes pre).
    rewrite IH by (try assumption; cbn in Hn; lia).
    cbn [Nat.sub]. destruct (arguments_loop p (n - length pre) (types ++ pad) r); reflexivity.
Qed.

Lemma codes_app : forall a b, codes (a ++ b) = codes a ++ codes b.
Proof. intros. apply map_app. Qed.

Lemma binary_arguments_panic : forall p pre v post suffix,
  Forall simple_arg pre -> Forall short_text pre -> v <> [] ->
  (length (pre ++ mkField FBinary v :: post) <= 12)%nat ->
  len (arguments_encode (pre ++ mkField FBinary v :: post) ++ suffix) < 335544320 ->
  arguments_decode p (arguments_encode (pre ++ mkField FBinary v :: post) ++ suffix) = Panic.
Proof.
  intros p pre v post suffix Hs Ht Hv Hl Hsz.
  rewrite arguments_decode_12 by assumption.
  rewrite arguments_encode_12 in Hsz by assumption.
  rewrite flat_map_app in *. rewrite codes_app, <- !app_assoc in *.
  rewrite arguments_loop_app by (try assumption; rewrite app_length; lia).
  rewrite app_length in *. cbn [length] in *.
  replace (length pre + S (length post) - length pre)%nat with (S (length post)) by lia.
  change (codes (mkField FBinary v :: post)) with (3 :: codes post).
  cbn [app arguments_loop argument_type_new flat_map field_as_bytes f_kind f_value rbind].
  cbn [flat_map field_as_bytes f_kind f_value] in Hsz.
  assert (Hv0 : 0 < len v) by (destruct v; [congruence|rewrite len_cons; lia]).
  destruct (N.ltb_spec 0 (len v)); [|lia].
  rewrite <- !app_assoc in *. cbn [app].
  rewrite binary_decode_fails; [reflexivity| |].
  - rewrite !len_app, be_len. lia.
  - rewrite !len_app in Hsz. rewrite !len_app. cbn [field_type_value]. lia.
Qed.

Lemma binary_empty_last : forall p pre suffix,
  Forall simple_arg pre -> Forall short_text pre -> (length pre < 12)%nat ->
  len suffix < 4 ->
  arguments_decode p (arguments_encode (pre ++ [mkField FBinary []]) ++ suffix)
  = Ok ([], pre ++ [mkField FBinary []]).
Proof.
  intros p pre suffix Hs Ht Hl Hsz.
  assert (Hl' : (length (pre ++ [mkField FBinary []]) <= 12)%nat)
    by (rewrite app_length; cbn; lia).
  rewrite arguments_decode_12 by assumption.
  rewrite flat_map_app, codes_app, <- !app_assoc in *.
  rewrite arguments_loop_app by (try assumption; rewrite app_length; lia).
  rewrite app_length. cbn [length].
  replace (length pre + 1 - length pre)%nat with 1%nat by lia.
  cbn [codes map app arguments_loop argument_type_value argument_type_new f_kind rbind
       flat_map field_as_bytes f_value argument_decode].
  change (0 <? len (@nil N)) with false. cbn [app].
  destruct (N.ltb_spec (len suffix) 4); [|lia]. reflexivity.
Qed.

(** An empty binary argument followed by at least four bytes of other arguments
    is misread. *)
Lemma binary_empty_not_last : forall p pre f post suffix,
  Forall simple_arg pre -> Forall short_text pre ->
  simple_arg f -> f_kind f <> FU8 -> f_kind f <> FU16 ->
  (length (pre ++ mkField FBinary [] :: f :: post) <= 12)%nat ->
  len (arguments_encode (pre ++ mkField FBinary [] :: f :: post) ++ suffix) < 251658240 ->
  arguments_decode p (arguments_encode (pre ++ mkField FBinary [] :: f :: post) ++ suffix) = Panic.
Proof.
  intros p pre f post suffix Hs Ht Hf Hk Hk2 Hl Hsz.
  rewrite arguments_decode_12 by assumption.
  rewrite arguments_encode_12 in Hsz by assumption.
  rewrite flat_map_app in *. rewrite codes_app, <- !app_assoc in *.
  rewrite arguments_loop_app by (try assumption; rewrite app_length; lia).
  rewrite app_length in *. cbn [length] in *.
  replace (length pre + S (S (length post)) - length pre)%nat
    with (S (S (length post))) by lia.
  cbn [flat_map] in *.
  change (field_as_bytes (mkField FBinary [])) with (@nil N) in *. cbn [app] in *.
  change (codes (mkField FBinary [] :: f :: post)) with (3 :: codes (f :: post)).
  cbn [app].
  change (arguments_loop p (S (S (length post))) (3 :: codes (f :: post) ++ ?x) ?y)
    with (do (i, g) <- unwrap (argument_decode p FBinary y);
          do fs <- arguments_loop p (S (length post)) (codes (f :: post) ++ x) i;
          Ok (g :: fs)).
  assert (Hfb : exists b l, field_as_bytes f = b :: l /\ 0x11 <= b /\ 3 <= len l).
  { destruct f as [k w]. destruct k; cbn in Hf, Hk, Hk2; try congruence; try contradiction.
    - exists 0x11, w. cbn. split; [reflexivity|]. lia.
    - eexists 0x26, _. split; [reflexivity|]. cbn [app]. rewrite ?len_app, ?len_cons.
      split; lia. }
  destruct Hfb as [b [l [E [Hb Hl3]]]]. rewrite E in *.
  rewrite <- !app_assoc in *. cbn [app] in *.
  repeat (rewrite ?len_app, ?len_cons in Hsz).
  rewrite binary_decode_fails; [reflexivity| |]; rewrite ?len_app; lia.
Qed.

(** ** Request types *)

Lemma request_type_new_cases : forall v,
  (In v [0; 4096; 4097; 4098; 4099; 4100; 4114; 4116; 4354; 4357; 4610; 4864; 8194; 8196;
         8450; 11012; 12288; 16384; 16385; 16641; 16897]) \/
  request_type_new v = UnknownRequest v.
Proof.
  intros v. unfold request_type_new.
  repeat match goal with
  | |- _ \/ match ?x with _ => _ end = _ => is_var x; destruct x
  end; try (right; reflexivity); left; cbn; tauto.
Qed.

Lemma request_type_code_iff : forall v,
  of_be (request_type_value (request_type_new v)) = v <-> In v two_way_codes.
Proof.
  intros v. destruct (request_type_new_cases v) as [H|H].
  - cbn [In] in H. repeat (destruct H as [<-|H]); try (vm_compute; intuition congruence).
  - split.
    + rewrite H. cbn. intros <-. left. reflexivity.
    + intro Hin. cbn [In two_way_codes] in Hin.
      repeat (destruct Hin as [<-|Hin]); try discriminate H. destruct Hin.
Qed.

Lemma request_type_code_zero : forall v,
  ~ In v two_way_codes -> request_type_value (request_type_new v) = [0; 0].
Proof.
  intros v Hn. destruct (request_type_new_cases v) as [H|H].
  - cbn [In] in H. repeat (destruct H as [<-|H]); try reflexivity;
      try (exfalso; apply Hn; vm_compute; tauto).
  - rewrite H. reflexivity.
Qed.

Lemma request_type_new_inj : forall v w, request_type_new v = request_type_new w -> v = w.
Proof.
  intros v w. destruct (request_type_new_cases v) as [H|H];
  destruct (request_type_new_cases w) as [G|G].
  - cbn [In] in H, G. intro E.
    repeat (destruct H as [<-|H]); try (now destruct H);
    repeat (destruct G as [<-|G]); try (now destruct G); try reflexivity; discriminate E.
  - rewrite G. cbn [In] in H.
    repeat (destruct H as [<-|H]); try (now destruct H); intro E; discriminate E.
  - rewrite H. cbn [In] in G.
    repeat (destruct G as [<-|G]); try (now destruct G); intro E; discriminate E.
  - rewrite H, G. congruence.
Qed.

Lemma request_type_two_way_iff : forall t,
  request_type_new (of_be (request_type_value t)) = t <-> In t two_way_types.
Proof.
  intros t. split.
  - intro H. destruct t; try (vm_compute; tauto); vm_compute in H; discriminate.
  - intro H. cbn [In two_way_types] in H.
    repeat (destruct H as [<-|H]); try reflexivity. destruct H.
Qed.

(** ** Messages *)

Lemma request_type_value_len : forall t, len (request_type_value t) = 2.
Proof. destruct t; reflexivity. Qed.

Lemma parse_message_encode : forall p tx t fs suffix, len tx = 4 ->
  parse_message p (message_encode (mkMessage (mkField FU32 tx) t fs) ++ suffix) =
  (do (i, args) <- arguments_decode p (arguments_encode fs ++ suffix);
   Ok (i, mkMessage (mkField FU32 tx) (request_type_new (of_be (request_type_value t))) args)).
Proof.
  intros p tx t fs suffix Htx.
  unfold message_encode, message_to_response, parse_message, parse_magic,
    parse_transaction_id, parse_request_type.
  cbn [m_transaction_id m_request_type m_arguments field_as_bytes f_kind f_value field_type_value].
  rewrite <- !app_assoc.
  rewrite take_app by reflexivity. cbn [rbind].
  rewrite tag_app. cbn [rbind].
  rewrite take_app by reflexivity. cbn [rbind].
  rewrite take_app by assumption. cbn [rbind nth field_type_name unwrap].
  rewrite take_app by reflexivity. cbn [rbind].
  unfold be_u16. rewrite be_uint_app by apply request_type_value_len. cbn [rbind].
  reflexivity.
Qed.

Lemma arguments_decode_rest : forall p i r fs,
  arguments_decode p i = Ok (r, fs) -> r = [].
Proof.
  intros p i r fs H. unfold arguments_decode in H.
  repeat (apply rbind_ok in H; destruct H as [[? ?] [_ H]]).
  apply rbind_ok in H; destruct H as [? [_ H]]. congruence.
Qed.

Lemma message_roundtrip_iff : forall p tx t fs suffix,
  len tx = 4 -> Forall simple_arg fs ->
  (parse_message p (message_encode (mkMessage (mkField FU32 tx) t fs) ++ suffix)
   = Ok ([], mkMessage (mkField FU32 tx) t fs)
   <-> In t two_way_types /\ (length fs <= 12)%nat /\ Forall short_text fs).
Proof.
  intros p tx t fs suffix Htx Hs. rewrite parse_message_encode by assumption.
  rewrite rbind_ok. split.
  - intros [[i args] [H1 H2]]. inversion H2; subst.
    match goal with E : request_type_new _ = t |- _ => rewrite E end.
    split; [now apply request_type_two_way_iff|].
    eapply arguments_roundtrip_iff; eassumption.
  - intros [H1 H2]. exists ([], fs). split.
    + apply arguments_roundtrip_iff; assumption.
    + apply request_type_two_way_iff in H1. rewrite H1. reflexivity.
Qed.

(** ** Arbitrary bytes *)

Lemma len1 : forall A (l : list A), len l = 1 -> exists x, l = [x].
Proof.
  intros A [|x [|y l]] H; [discriminate H|eauto|]. rewrite !len_cons in H. lia.
Qed.

Lemma text_bytes_iff : forall p s n, s < 4294967296 ->
  (exists a, u32_sub p s 1 = Ok a /\ u32_mul p a 2 = Ok n) <-> text_bytes p s n.
Proof.
  intros p s n Hs. unfold u32_sub, u32_mul, text_bytes, as_u32, u32_max1. destruct p.
  - split.
    + intros [a [H1 H2]]. destruct (N.leb_spec 1 s); [|discriminate].
      inversion H1; subst. destruct (N.ltb_spec ((s - 1) * 2) 4294967296); [|discriminate].
      inversion H2; subst. auto.
    + intros [H1 [H2 H3]]. exists (s - 1). destruct (N.leb_spec 1 s); [|lia].
      split; [reflexivity|]. destruct (N.ltb_spec ((s - 1) * 2) 4294967296); [|lia].
      now subst.
  - split.
    + intros [a [H1 H2]].
      assert (Ha : a = (s + 4294967295) mod 4294967296).
      { destruct (N.leb_spec 1 s); inversion H1; subst; lia. }
      subst a.
      destruct (N.ltb_spec ((s + 4294967295) mod 4294967296 * 2) 4294967296);
        inversion H2; subst; [|reflexivity]. rewrite (N.mod_small (_ * 2)); auto.
    + intros ->. exists ((s + 4294967295) mod 4294967296). split.
      * destruct (N.leb_spec 1 s); f_equal; lia.
      * destruct (N.ltb_spec ((s + 4294967295) mod 4294967296 * 2) 4294967296);
          [|reflexivity]. rewrite (N.mod_small (_ * 2)); auto.
Qed.

Lemma number_bound4 : forall s, bytes_ok s -> len s = 4 -> number s < 4294967296.
Proof.
  intros s Hs H. rewrite number_of_be. pose proof (of_be_bound s Hs) as B.
  rewrite H in B. exact B.
Qed.

Lemma text_bytes_ex : forall p s a n, s < 4294967296 ->
  u32_sub p s 1 = Ok a -> u32_mul p a 2 = Ok n -> text_bytes p s n.
Proof. intros. apply text_bytes_iff; eauto. Qed.

Lemma args_layout_iff : forall p n types i fs, bytes_ok i ->
  arguments_loop p n types i = Ok fs <->
  (n <= length types)%nat /\ args_layout p (firstn n types) i fs.
Proof.
  induction n; intros types i fs Hi; cbn [arguments_loop firstn].
  { split.
    - intro H. inversion H; subst. split; [lia|constructor].
    - intros [_ H]. inversion H; reflexivity. }
  destruct types as [|t types].
  { split; [discriminate|]. intros [H _]. cbn in H. lia. }
  split.
  - intro H. apply rbind_ok in H. destruct H as [k [Hk H]].
    apply rbind_ok in H. destruct H as [[i' f] [Hd H]]. apply unwrap_ok in Hd.
    apply rbind_ok in H. destruct H as [fs' [Hl H]]. inversion H; subst; clear H.
    assert (Hsub : forall a, i = a ++ i' -> arguments_loop p n types i' = Ok fs' ->
              (S n <= length (t :: types))%nat /\ args_layout p (firstn n types) i' fs').
    { intros a E L. apply IHn in L; [cbn; intuition lia|].
      rewrite E in Hi. apply bytes_ok_app in Hi. tauto. }
    assert (Ht : t = argument_type_value k).
    { unfold argument_type_new in Hk.
      repeat match type of Hk with
      | match ?x with _ => _ end = _ => is_var x; destruct x; try discriminate
      end; inversion Hk; reflexivity. }
    subst t. clear Hk.
    destruct k; cbn [argument_decode argument_type_value] in *.
    + apply rbind_ok in Hd. destruct Hd as [[i1 t] [H1 Hd]]. apply take_ok in H1.
      apply rbind_ok in Hd. destruct Hd as [[i2 d] [H2 Hd]]. apply take_ok in H2.
      inversion Hd; subst. destruct H1 as [-> H1], H2 as [-> H2].
      apply len1 in H1. destruct H1 as [b ->].
      destruct (Hsub ([b] ++ d)) as [G1 G2]; [now rewrite <- app_assoc|assumption|].
      split; [assumption|]. cbn. apply lay_u8; assumption.
    + apply rbind_ok in Hd. destruct Hd as [[i1 t] [H1 Hd]]. apply take_ok in H1.
      apply rbind_ok in Hd. destruct Hd as [[i2 d] [H2 Hd]]. apply take_ok in H2.
      inversion Hd; subst. destruct H1 as [-> H1], H2 as [-> H2].
      apply len1 in H1. destruct H1 as [b ->].
      destruct (Hsub ([b] ++ d)) as [G1 G2]; [now rewrite <- app_assoc|assumption|].
      split; [assumption|]. cbn. apply lay_u16; assumption.
    + apply rbind_ok in Hd. destruct Hd as [[i1 t] [H1 Hd]]. apply take_ok in H1.
      apply rbind_ok in Hd. destruct Hd as [[i2 d] [H2 Hd]]. apply take_ok in H2.
      inversion Hd; subst. destruct H1 as [-> H1], H2 as [-> H2].
      apply len1 in H1. destruct H1 as [b ->].
      destruct (Hsub ([b] ++ d)) as [G1 G2]; [now rewrite <- app_assoc|assumption|].
      split; [assumption|]. cbn. apply lay_u32; assumption.
    + apply rbind_ok in Hd. destruct Hd as [[i1 t] [H1 Hd]]. apply take_ok in H1.
      apply rbind_ok in Hd. destruct Hd as [[i2 s] [H2 Hd]]. apply be_uint_ok in H2.
      apply rbind_ok in Hd. destruct Hd as [a [H3 Hd]].
      apply rbind_ok in Hd. destruct Hd as [m [H4 Hd]].
      apply rbind_ok in Hd. destruct Hd as [[i3 d] [H5 Hd]]. apply take_ok in H5.
      apply rbind_ok in Hd. destruct Hd as [[i4 z] [H6 Hd]]. apply be_uint_ok in H6.
      inversion Hd; subst. destruct H1 as [-> H1], H5 as [-> H5].
      destruct H2 as [s4 [-> [H2 ->]]], H6 as [z2 [-> [H6 ->]]].
      apply len1 in H1. destruct H1 as [b ->].
      destruct (Hsub ([b] ++ s4 ++ d ++ z2)) as [G1 G2];
        [now rewrite <- !app_assoc|assumption|].
      split; [assumption|]. cbn. apply lay_text; try assumption.
      rewrite H5. eapply text_bytes_ex; try eassumption.
      apply number_bound4; [|assumption]. rewrite !bytes_ok_app in Hi. tauto.
    + destruct (N.ltb_spec (len i) 4).
      * inversion Hd; subst.
        destruct (Hsub []) as [G1 G2]; [reflexivity|assumption|].
        split; [assumption|]. apply lay_no_blob; assumption.
      * apply rbind_ok in Hd. destruct Hd as [[i2 s] [H2 Hd]]. apply be_uint_ok in H2.
        apply rbind_ok in Hd. destruct Hd as [[i3 d] [H5 Hd]]. apply take_ok in H5.
        inversion Hd; subst. destruct H5 as [-> H5]. destruct H2 as [s4 [-> [H2 ->]]].
        destruct (Hsub (s4 ++ d)) as [G1 G2]; [now rewrite <- !app_assoc|assumption|].
        split; [assumption|]. apply lay_blob; assumption.
  - intros [Hn H].
    assert (Hrec : forall a r fs', i = a ++ r -> args_layout p (firstn n types) r fs' ->
              arguments_loop p n types r = Ok fs').
    { intros a r fs' -> L. apply IHn; [apply bytes_ok_app in Hi; tauto|].
      cbn in Hn. split; [lia|assumption]. }
    inversion H; subst; cbn [argument_type_new rbind argument_decode].
    + rewrite take_cons1. cbn [rbind]. rewrite take_app by assumption. cbn [rbind unwrap].
      erewrite (Hrec (t0 :: d)); [reflexivity|reflexivity|assumption].
    + rewrite take_cons1. cbn [rbind]. rewrite take_app by assumption. cbn [rbind unwrap].
      erewrite (Hrec (t0 :: d)); [reflexivity|reflexivity|assumption].
    + rewrite take_cons1. cbn [rbind]. rewrite take_app by assumption. cbn [rbind unwrap].
      erewrite (Hrec (t0 :: d)); [reflexivity|reflexivity|assumption].
    + rewrite take_cons1. cbn [rbind].
      unfold be_u32. rewrite be_uint_app by assumption. cbn [rbind].
      match goal with T : text_bytes _ _ _ |- _ => apply text_bytes_iff in T end.
      2:{ apply number_bound4; [|assumption]. inversion Hi; subst.
          match goal with B : Forall is_byte (_ ++ _) |- _ =>
            apply bytes_ok_app in B; tauto end. }
      match goal with T : exists _, _ |- _ => destruct T as [a [T1 T2]] end.
      rewrite <- number_of_be, T1. cbn [rbind]. rewrite T2. cbn [rbind].
      rewrite take_app by reflexivity. cbn [rbind].
      unfold be_u16. rewrite be_uint_app by assumption. cbn [rbind unwrap].
      erewrite (Hrec (t0 :: s ++ d ++ z)); [reflexivity| |assumption].
      cbn. now rewrite <- !app_assoc.
    + match goal with L : len s = 4 |- _ => rename L into Hs4 end.
      rewrite len_app, Hs4. destruct (N.ltb_spec (4 + len (d ++ r)) 4); [lia|].
      unfold be_u32. rewrite be_uint_app by assumption. cbn [rbind].
      rewrite take_app by assumption. cbn [rbind unwrap].
      erewrite (Hrec (s ++ d)); [reflexivity| |assumption]. now rewrite <- !app_assoc.
    + destruct (N.ltb_spec (len i) 4); [|lia]. cbn [rbind unwrap].
      erewrite (Hrec []); [reflexivity|reflexivity|assumption].
Qed.

Lemma arguments_loop_not_err : forall p n types i, arguments_loop p n types i <> Err.
Proof.
  induction n; intros types i; cbn [arguments_loop]; [discriminate|].
  destruct types as [|t types]; [discriminate|].
  destruct (argument_type_new t) as [k| |] eqn:E; cbn [rbind]; try discriminate.
  - destruct (argument_decode p k i) as [[i' f]| |]; cbn [unwrap rbind]; try discriminate.
    specialize (IHn types i'). destruct (arguments_loop p n types i'); cbn; congruence.
  - unfold argument_type_new in E.
    repeat match type of E with
    | match ?x with _ => _ end = _ => is_var x; destruct x; try discriminate
    end.
Qed.

(** The fixed part of a request. *)
Lemma split_at_len : forall n (l : bytes), n <= len l -> exists a b, l = a ++ b /\ len a = n.
Proof.
  intros n l H. exists (firstn (N.to_nat n) l), (skipn (N.to_nat n) l).
  split; [symmetry; apply firstn_skipn|]. rewrite len_firstn. lia.
Qed.

Lemma field_type_name_known : forall v,
  (exists k, field_type_name v = Ok k /\ v = field_type_value k /\ In v known_tags) \/
  (field_type_name v = Err /\ ~ In v known_tags).
Proof.
  intros v.
  destruct (in_dec N.eq_dec v known_tags) as [H|H].
  - left. cbn [In known_tags] in H.
    repeat (destruct H as [<-|H]); [exists FU8|exists FU16|exists FU32|exists FBinary
      |exists FString|destruct H]; cbn; tauto.
  - right. split; [|assumption]. unfold field_type_name.
    repeat match goal with
    | |- match ?x with _ => _ end = _ => is_var x; destruct x; try reflexivity
    end; exfalso; apply H; vm_compute; tauto.
Qed.

Lemma parse_magic_shape : forall b,
  (exists t r, b = t :: db_magic ++ r /\ parse_magic b = Ok (r, tt)) \/
  ((forall t r, b <> t :: db_magic ++ r) /\ parse_magic b = Err).
Proof.
  intros b. unfold parse_magic. destruct b as [|t b'].
  - right. split; [discriminate|reflexivity].
  - rewrite take_cons1. cbn [rbind].
    destruct (tag_cases db_magic b') as [[r [-> E]]|[H E]].
    + left. exists t, r. auto.
    + right. split; [|assumption]. intros t' r E'. apply (H r). congruence.
Qed.

(** Parsing a request, case by case. *)
Lemma parse_message_shape : forall p t tg r,
  parse_message p (t :: db_magic ++ tg ++ r) =
  match parse_transaction_id (tg ++ r) with
  | Ok (i, tx) =>
      match parse_request_type i with
      | Ok (i, rt) =>
          match arguments_decode p i with
          | Ok (i, a) => Ok (i, mkMessage tx rt a)
          | Err => Err
          | Panic => Panic
          end
      | Err => Err
      | Panic => Panic
      end
  | Err => Err
  | Panic => Panic
  end.
Proof.
  intros. unfold parse_message. unfold parse_magic. rewrite take_cons1. cbn [rbind].
  rewrite tag_app. cbn [rbind].
  destruct (parse_transaction_id (tg ++ r)) as [[i tx]| |]; cbn [rbind]; try reflexivity.
Qed.

Lemma parse_transaction_id_known : forall k tx r, len tx = 4 ->
  parse_transaction_id (field_type_value k :: tx ++ r) = Ok (r, mkField k tx).
Proof.
  intros k tx r H. unfold parse_transaction_id. rewrite take_cons1. cbn [rbind].
  rewrite take_app by assumption. cbn [rbind nth]. destruct k; reflexivity.
Qed.

Lemma parse_request_type_short : forall i, len i < 3 -> parse_request_type i = Err.
Proof.
  intros i H. unfold parse_request_type. destruct i as [|x i]; [reflexivity|].
  rewrite take_cons1. cbn [rbind]. unfold be_u16. rewrite len_cons in H.
  rewrite be_uint_short by lia. reflexivity.
Qed.

Lemma parse_request_type_long : forall j code r, len code = 2 ->
  parse_request_type (j :: code ++ r) = Ok (r, request_type_new (of_be code)).
Proof.
  intros j code r H. unfold parse_request_type. rewrite take_cons1. cbn [rbind].
  unfold be_u16. rewrite be_uint_app by assumption. reflexivity.
Qed.

Lemma arguments_decode_short : forall p i, len i < 19 -> arguments_decode p i = Err.
Proof.
  intros p i H. unfold arguments_decode.
  destruct (take_cases 2 i) as [[_ ->]|[_ [d1 [r1 [-> [L1 ->]]]]]]; [reflexivity|].
  cbn [rbind]. rewrite len_app in H.
  destruct (take_cases 5 r1) as [[_ ->]|[_ [d2 [r2 [-> [L2 ->]]]]]]; [reflexivity|].
  cbn [rbind]. rewrite len_app in H.
  rewrite take_short by lia. reflexivity.
Qed.

Lemma arguments_decode_long : forall p j n j5 types r, len j5 = 5 -> len types = 12 ->
  arguments_decode p ([j; n] ++ j5 ++ types ++ r) =
  (do items <- arguments_loop p (N.to_nat n) types r; Ok ([], items)).
Proof.
  intros. unfold arguments_decode. rewrite take_app by reflexivity. cbn [rbind].
  rewrite take_app by assumption. cbn [rbind]. rewrite take_app by assumption.
  cbn [rbind nth]. reflexivity.
Qed.

(** Errors, exactly. *)
Lemma parse_err_iff : forall p b,
  parse_message p b = Err <->
  (forall t r, b <> t :: [0x87; 0x23; 0x49; 0xae] ++ r) \/
  len b < 10 \/
  (len b < 32 /\ In (nth 5 b 0) known_tags).
Proof.
  intros p b. destruct (parse_magic_shape b) as [[t [r [-> E]]]|[H E]].
  2:{ split; [intros _; left; exact H|].
      intros _. unfold parse_message. rewrite E. reflexivity. }
  change (t :: db_magic ++ r) with (t :: db_magic ++ [] ++ r).
  rewrite parse_message_shape. cbn [app]. rewrite len_cons, len_app.
  change (len db_magic) with 4.
  destruct r as [|tg r].
  { split; [intros _; right; left; rewrite len_nil; lia|reflexivity]. }
  change (nth 5 (t :: db_magic ++ tg :: r) 0) with tg.
  rewrite len_cons.
  destruct (N.lt_ge_cases (len r) 4) as [Hr|Hr].
  { split; [intros _; right; left; lia|]. intros _.
    unfold parse_transaction_id. rewrite take_cons1. cbn [rbind].
    rewrite take_short by assumption. reflexivity. }
  destruct (split_at_len 4 r Hr) as [tx [r' [-> Htx]]]. rewrite len_app, Htx.
  destruct (field_type_name_known tg) as [[k [E1 [-> E2]]]|[E1 E2]].
  2:{ split.
      - unfold parse_transaction_id. rewrite take_cons1. cbn [rbind].
        rewrite take_app by assumption. cbn [rbind nth]. rewrite E1. discriminate.
      - intros [H|[H|[_ H]]]; [exfalso; eapply H; reflexivity|lia|contradiction]. }
  rewrite parse_transaction_id_known by assumption.
  assert (Hgoal : forall X : res (bytes * message),
    (X = Err <-> len r' < 22) ->
    (X = Err <-> (forall t0 r0, t :: db_magic ++ field_type_value k :: tx ++ r'
                    <> t0 :: [135; 35; 73; 174] ++ r0) \/
      1 + (4 + (1 + (4 + len r'))) < 10 \/
      1 + (4 + (1 + (4 + len r'))) < 32 /\ In (field_type_value k) known_tags)).
  { intros X HX. rewrite HX. split.
    - intro H. right; right. split; [lia|assumption].
    - intros [H|[H|[H _]]]; [exfalso; eapply H; reflexivity|lia|lia]. }
  apply Hgoal. clear Hgoal.
  destruct (N.lt_ge_cases (len r') 3) as [H3|H3].
  { rewrite parse_request_type_short by assumption. split; [lia|reflexivity]. }
  destruct (split_at_len 3 r' H3) as [jc [r'' [-> Hjc]]].
  destruct jc as [|j code]; [discriminate Hjc|].
  rewrite len_cons in Hjc. cbn [app].
  rewrite parse_request_type_long by lia.
  rewrite len_cons, len_app.
  destruct (N.lt_ge_cases (len r'') 19) as [H19|H19].
  { rewrite arguments_decode_short by assumption. split; [lia|reflexivity]. }
  split; [|lia].
  destruct (split_at_len 19 r'' H19) as [a19 [rest [-> Ha]]].
  destruct a19 as [|j3 [|n a17]]; [discriminate Ha|discriminate Ha|].
  rewrite !len_cons in Ha.
  destruct (split_at_len 5 a17) as [j5 [types [-> Hj5]]]; [lia|].
  rewrite len_app in Ha.
  change ((j3 :: n :: j5 ++ types) ++ rest) with ([j3; n] ++ ((j5 ++ types) ++ rest)).
  rewrite <- app_assoc. rewrite arguments_decode_long by (assumption || lia).
  pose proof (arguments_loop_not_err p (N.to_nat n) types rest) as NE.
  destruct (arguments_loop p (N.to_nat n) types rest); cbn; congruence.
Qed.

(** Successes, exactly. *)
Lemma parse_ok_iff : forall p b rest m, bytes_ok b ->
  (parse_message p b = Ok (rest, m) <->
   rest = [] /\
   exists k tx code n types args j1 j2 j3 j5 fs,
     b = request_bytes (field_type_value k) tx code n types args j1 j2 j3 j5 /\
     len tx = 4 /\ len code = 2 /\ len types = 12 /\ len j5 = 5 /\
     n <= 12 /\ args_layout p (firstn (N.to_nat n) types) args fs /\
     m = mkMessage (mkField k tx) (request_type_new (number code)) fs).
Proof.
  intros p b rest m Hb. split.
  - intro H. unfold parse_message in H.
    apply rbind_ok in H. destruct H as [[i1 u] [H1 H]].
    apply rbind_ok in H. destruct H as [[i2 tx] [H2 H]].
    apply rbind_ok in H. destruct H as [[i3 rt] [H3 H]].
    apply rbind_ok in H. destruct H as [[i4 args] [H4 H]]. inversion H; subst; clear H.
    unfold parse_magic in H1. apply rbind_ok in H1. destruct H1 as [[i0 t] [H0 H1]].
    apply take_ok in H0. destruct H0 as [-> L0]. apply len1 in L0. destruct L0 as [j1 ->].
    apply tag_ok in H1. subst i0.
    unfold parse_transaction_id in H2. apply rbind_ok in H2. destruct H2 as [[i5 tg] [H5 H2]].
    apply take_ok in H5. destruct H5 as [-> L5]. apply len1 in L5. destruct L5 as [g ->].
    apply rbind_ok in H2. destruct H2 as [[i6 x4] [H6 H2]].
    apply take_ok in H6. destruct H6 as [-> L6].
    apply rbind_ok in H2. destruct H2 as [k [Hk H2]]. inversion H2; subst; clear H2.
    cbn [nth] in Hk. apply unwrap_ok in Hk.
    destruct (field_type_name_known g) as [[k' [E1 [-> E2]]]|[E1 _]]; [|congruence].
    assert (k' = k) by congruence. subst k'.
    unfold parse_request_type in H3. apply rbind_ok in H3. destruct H3 as [[i7 t7] [H7 H3]].
    apply take_ok in H7. destruct H7 as [-> L7]. apply len1 in L7. destruct L7 as [j2 ->].
    apply rbind_ok in H3. destruct H3 as [[i8 c] [H8 H3]]. inversion H3; subst; clear H3.
    apply be_uint_ok in H8. destruct H8 as [code [-> [Lc ->]]].
    pose proof (arguments_decode_rest _ _ _ _ H4) as ->. split; [reflexivity|].
    unfold arguments_decode in H4.
    apply rbind_ok in H4. destruct H4 as [[i9 cnt] [H9 H4]].
    apply take_ok in H9. destruct H9 as [-> L9].
    apply rbind_ok in H4. destruct H4 as [[i10 j5] [H10 H4]].
    apply take_ok in H10. destruct H10 as [-> L10].
    apply rbind_ok in H4. destruct H4 as [[i11 types] [H11 H4]].
    apply take_ok in H11. destruct H11 as [-> L11].
    apply rbind_ok in H4. destruct H4 as [items [H12 H4]]. inversion H4; subst; clear H4.
    destruct cnt as [|j3 [|n [|? ?]]]; try discriminate L9;
      [|rewrite !len_cons in L9; lia].
    cbn [nth] in H12.
    assert (Hi : bytes_ok i11).
    { rewrite !bytes_ok_app in Hb. tauto. }
    apply args_layout_iff in H12; [|assumption]. destruct H12 as [Hn Hlay].
    exists k, x4, code, n, types, i11, j1, j2, j3, j5, args.
    repeat split; try assumption. unfold len in L11. lia.
  - intros (-> & k & tx & code & n & types & args & j1 & j2 & j3 & j5 & fs &
      -> & Ltx & Lc & Lt & Lj & Hn & Hlay & ->).
    unfold request_bytes in *.
    change ([j1] ++ [135; 35; 73; 174] ++ ?x) with (j1 :: db_magic ++ ([] ++ x)).
    rewrite parse_message_shape. cbn [app].
    rewrite parse_transaction_id_known by assumption.
    rewrite parse_request_type_long by assumption.
    change (j3 :: n :: j5 ++ types ++ args) with ([j3; n] ++ j5 ++ types ++ args).
    rewrite arguments_decode_long by assumption.
    assert (Hi : bytes_ok args).
    { rewrite !bytes_ok_app in Hb. tauto. }
    assert (Hl : arguments_loop p (N.to_nat n) types args = Ok fs).
    { apply args_layout_iff; [assumption|]. split; [unfold len in Lt; lia|assumption]. }
    rewrite Hl. reflexivity.
Qed.

(** Panics, exactly: the rest. *)
Lemma header_split : forall b t r, b = t :: db_magic ++ r -> 32 <= len b ->
  exists tg tx j2 code j3 n j5 types rest,
    b = request_bytes tg tx code n types rest t j2 j3 j5 /\
    len tx = 4 /\ len code = 2 /\ len j5 = 5 /\ len types = 12.
Proof.
  intros b t r -> H. rewrite len_cons, len_app in H. change (len db_magic) with 4 in H.
  destruct r as [|tg r]; [rewrite len_nil in H; lia|]. rewrite len_cons in H.
  destruct (split_at_len 4 r) as [tx [r1 [-> H1]]]; [lia|]. rewrite len_app in H.
  destruct r1 as [|j2 r1]; [rewrite len_nil in H; lia|]. rewrite len_cons in H.
  destruct (split_at_len 2 r1) as [code [r2 [-> H2]]]; [lia|]. rewrite len_app in H.
  destruct r2 as [|j3 [|n r2]]; [rewrite len_nil in H; lia|rewrite len_cons, len_nil in H; lia|].
  rewrite !len_cons in H.
  destruct (split_at_len 5 r2) as [j5 [r3 [-> H3]]]; [lia|]. rewrite len_app in H.
  destruct (split_at_len 12 r3) as [types [rest [-> H4]]]; [lia|].
  exists tg, tx, j2, code, j3, n, j5, types, rest. repeat split; assumption.
Qed.

Lemma parse_unknown_tag : forall p t tg r,
  ~ In tg known_tags -> 4 <= len r ->
  parse_message p (t :: db_magic ++ tg :: r) = Panic.
Proof.
  intros p t tg r Hn Hr. change (tg :: r) with ([tg] ++ r).
  rewrite parse_message_shape. cbn [app]. unfold parse_transaction_id.
  rewrite take_cons1. cbn [rbind].
  destruct (split_at_len 4 r Hr) as [tx [r' [-> Htx]]].
  rewrite take_app by assumption. cbn [rbind nth].
  destruct (field_type_name_known tg) as [[k [_ [_ E]]]|[E _]]; [contradiction|].
  rewrite E. reflexivity.
Qed.

Lemma request_bytes_inj : forall tg tx code n types rest j1 j2 j3 j5
    tg' tx' code' n' types' rest' j1' j2' j3' j5',
  request_bytes tg tx code n types rest j1 j2 j3 j5
  = request_bytes tg' tx' code' n' types' rest' j1' j2' j3' j5' ->
  len tx = 4 -> len code = 2 -> len j5 = 5 -> len types = 12 ->
  len tx' = 4 -> len code' = 2 -> len j5' = 5 -> len types' = 12 ->
  tg = tg' /\ tx = tx' /\ code = code' /\ n = n' /\ types = types' /\ rest = rest'.
Proof.
  intros until j5'. intros E H1 H2 H3 H4 G1 G2 G3 G4. unfold request_bytes in E.
  cbn [app] in E. injection E as Ej1 Etg E.
  apply app_inj_len in E; [|congruence]. destruct E as [-> E].
  injection E as Ej2 E. apply app_inj_len in E; [|congruence]. destruct E as [-> E].
  injection E as Ej3 En E. apply app_inj_len in E; [|congruence]. destruct E as [-> E].
  apply app_inj_len in E; [|congruence]. destruct E as [-> ->]. auto 10.
Qed.

Lemma parse_panic_iff : forall p b, bytes_ok b ->
  (parse_message p b = Panic <->
   (exists t tg r, b = t :: [0x87; 0x23; 0x49; 0xae] ++ tg :: r /\
      4 <= len r /\ ~ In tg known_tags) \/
   (exists tg tx code n types args j1 j2 j3 j5,
      b = request_bytes tg tx code n types args j1 j2 j3 j5 /\
      len tx = 4 /\ len code = 2 /\ len types = 12 /\ len j5 = 5 /\
      In tg known_tags /\
      ~ (n <= 12 /\ exists fs, args_layout p (firstn (N.to_nat n) types) args fs))).
Proof.
  intros p b Hb. split.
  - intro H.
    assert (NE : parse_message p b <> Err) by congruence.
    rewrite parse_err_iff in NE.
    destruct (parse_magic_shape b) as [[t [r [E _]]]|[E _]]; [|tauto].
    assert (H10 : 10 <= len b) by lia.
    destruct r as [|tg r].
    { rewrite E in H10. rewrite len_cons, app_nil_r in H10.
      change (len db_magic) with 4 in H10. lia. }
    destruct (in_dec N.eq_dec tg known_tags) as [Hin|Hin].
    2:{ left. exists t, tg, r. split; [assumption|]. split; [|assumption].
        rewrite E, len_cons, len_app, len_cons in H10.
        change (len db_magic) with 4 in H10. lia. }
    right.
    assert (H32 : 32 <= len b).
    { destruct (N.lt_ge_cases (len b) 32); [|assumption]. exfalso. apply NE.
      right; right. split; [assumption|]. rewrite E. exact Hin. }
    destruct (header_split b t (tg :: r) E H32)
      as (tg' & tx & j2 & code & j3 & n & j5 & types & rest & Eb & L1 & L2 & L3 & L4).
    exists tg', tx, code, n, types, rest, t, j2, j3, j5.
    assert (tg' = tg).
    { rewrite E in Eb. unfold request_bytes in Eb. cbn [app db_magic] in Eb. congruence. }
    subst tg'. repeat (split; [assumption|]).
    intros [Hn [fs Hlay]].
    assert (Hok : exists k, tg = field_type_value k).
    { destruct (field_type_name_known tg) as [[k [_ [-> _]]]|[_ Hx]]; [eauto|contradiction]. }
    destruct Hok as [k ->].
    assert (P : parse_message p b
                = Ok ([], mkMessage (mkField k tx) (request_type_new (number code)) fs)).
    { apply parse_ok_iff; [assumption|]. split; [reflexivity|].
      exists k, tx, code, n, types, rest, t, j2, j3, j5, fs. auto 10. }
    congruence.
  - intros [(t & tg & r & -> & Hr & Hn)|H].
    + apply parse_unknown_tag; assumption.
    + destruct H as (tg & tx & code & n & types & args & j1 & j2 & j3 & j5 &
                     E & L1 & L2 & L3 & L4 & Hin & Hno).
      destruct (parse_message p b) as [[rest m]| |] eqn:P; [| |reflexivity]; exfalso.
      * apply parse_ok_iff in P; [|assumption].
        destruct P as (_ & k' & tx' & code' & n' & types' & args' & j1' & j2' & j3' & j5' &
                       fs & E' & G1 & G2 & G3 & G4 & Hn & Hlay & _).
        rewrite E' in E.
        apply request_bytes_inj in E; try assumption.
        destruct E as (_ & _ & _ & <- & <- & <-). apply Hno. split; [assumption|].
        exists fs. assumption.
      * apply parse_err_iff in P. rewrite E in P. unfold request_bytes in P.
        destruct P as [P|[P|[P _]]].
        -- eapply P. reflexivity.
        -- rewrite !len_app, L1, L2, L3, L4 in P. rewrite !len_cons, !len_nil in P. lia.
        -- rewrite !len_app, L1, L2, L3, L4 in P. rewrite !len_cons, !len_nil in P. lia.
Qed.
