(** Property theorems C01-C06 (remote-DB wire format), C55 (text codecs). *)

From Verif Require Import Base Unicode MDb SDb LBase LUnicode LDb LRead.
From Coq Require Import ZArith String.
Open Scope N_scope.
Open Scope list_scope.

(** ** C01 *)

(** Decoding what was encoded (with anything behind it) returns the same
    arguments exactly if there are at most 12 and every text is short. *)
Theorem C01_arguments_roundtrip : forall p fs suffix,
  Forall simple_arg fs ->
  (arguments_decode p (arguments_encode fs ++ suffix) = Ok ([], fs) <->
   (List.length fs <= 12)%nat /\ Forall short_text fs).
Proof. exact arguments_roundtrip_iff. Qed.
Print Assumptions C01_arguments_roundtrip.

(** Two different lists within the limits never have the same encoding, not
    even as prefixes of longer inputs. *)
Theorem C01_arguments_injective : forall fs gs s1 s2,
  Forall simple_arg fs -> Forall simple_arg gs ->
  Forall short_text fs -> Forall short_text gs ->
  (List.length fs <= 12)%nat -> (List.length gs <= 12)%nat ->
  arguments_encode fs ++ s1 = arguments_encode gs ++ s2 -> fs = gs.
Proof.
  intros fs gs s1 s2 Hf Hg Tf Tg Lf Lg E.
  pose proof (proj2 (C01_arguments_roundtrip Checked fs s1 Hf) (conj Lf Tf)) as D1.
  pose proof (proj2 (C01_arguments_roundtrip Checked gs s2 Hg) (conj Lg Tg)) as D2.
  rewrite E in D1. congruence.
Qed.
Print Assumptions C01_arguments_injective.

(** The number a field is made from is the number a client reads, with the width
    of its type; so are the bytes. *)
Theorem C01_numbers_read : forall rest,
  (forall v, v < 2 ^ 8 -> read_value (field_as_bytes (field_of_u8 v) ++ rest) = Some (CNum 1 v, rest)) /\
  (forall v, v < 2 ^ 16 -> read_value (field_as_bytes (field_of_u16 v) ++ rest) = Some (CNum 2 v, rest)) /\
  (forall v, v < 2 ^ 32 -> read_value (field_as_bytes (field_of_u32 v) ++ rest) = Some (CNum 4 v, rest)) /\
  (forall a b, read_value (field_as_bytes (field_of_2 [a; b]) ++ rest) = Some (CNum 2 (a * 256 + b), rest)) /\
  (forall a b c d, read_value (field_as_bytes (field_of_4 [a; b; c; d]) ++ rest) =
     Some (CNum 4 (((a * 256 + b) * 256 + c) * 256 + d), rest)).
Proof.
  intros rest. unfold field_as_bytes. cbn [f_kind f_value field_of_u8 field_of_u16 field_of_u32 field_of_2 field_of_4].
  split; [|split; [|split; [|split]]].
  - intros v H. change (read_value (0x0f :: [v] ++ rest) = Some (CNum 1 v, rest)).
    rewrite read_value_num1 by reflexivity. reflexivity.
  - intros v H. change (read_value (0x10 :: be 2 v ++ rest) = Some (CNum 2 v, rest)).
    rewrite read_value_num2 by apply be_len. rewrite number_of_be, of_be_be_small by exact H. reflexivity.
  - intros v H. change (read_value (0x11 :: be 4 v ++ rest) = Some (CNum 4 v, rest)).
    rewrite read_value_num4 by apply be_len. rewrite number_of_be, of_be_be_small by exact H. reflexivity.
  - intros a b. change (read_value (0x10 :: [a; b] ++ rest) = Some (CNum 2 (a * 256 + b), rest)).
    rewrite read_value_num2 by reflexivity. reflexivity.
  - intros a b c d. change (read_value (0x11 :: [a; b; c; d] ++ rest) =
      Some (CNum 4 (((a * 256 + b) * 256 + c) * 256 + d), rest)).
    rewrite read_value_num4 by reflexivity. reflexivity.
Qed.
Print Assumptions C01_numbers_read.

(** A byte string made into an argument is read as that byte string, unless it is
    empty: then nothing at all is written. *)
Theorem C01_blob_read : forall v rest, len v < 2 ^ 32 ->
  (v <> [] -> read_value (field_as_bytes (field_of_binary v) ++ rest) = Some (CBlob v, rest)) /\
  (v = [] -> field_as_bytes (field_of_binary v) = []).
Proof.
  intros v rest L. unfold field_as_bytes, field_of_binary. cbn [f_kind f_value field_type_value]. split.
  - intros N. destruct (N.ltb_spec 0 (len v)) as [P|P].
    + rewrite <- !app_assoc. cbn [app]. apply read_value_blob; [apply be_len|].
      unfold as_u32, u32_max1. rewrite N.mod_small by exact L. rewrite number_of_be, of_be_be_small by exact L. reflexivity.
    + destruct v; [elim N; reflexivity|]. rewrite len_cons in P. lia.
  - intros ->. reflexivity.
Qed.
Print Assumptions C01_blob_read.

Example C01_case :
  let fs := [field_of_u8 7; field_of_u16 513; field_of_u32 4000000000; field_of_str (lit "Loop")] in
  Forall simple_arg fs /\ (List.length fs <= 12)%nat /\ Forall short_text fs /\
  arguments_decode Checked (arguments_encode fs ++ [1; 2; 3]) = Ok ([], fs).
Proof.
  cbv zeta. split; [repeat constructor|]. split; [cbn; lia|].
  split; [|reflexivity]. repeat constructor; unfold short_text; cbn; intro; lia || discriminate.
Qed.
(** Thirteen arguments, or one text of 128 units, are not returned. *)
Example C01_case_13 :
  arguments_decode Checked (arguments_encode (repeat (field_of_u32 1) 13)) <> Ok ([], repeat (field_of_u32 1) 13).
Proof. vm_compute. discriminate. Qed.
Example C01_case_128 :
  arguments_decode Checked (arguments_encode [field_of_str (repeat 65 128)])
  <> Ok ([], [field_of_str (repeat 65 128)]).
Proof. vm_compute. discriminate. Qed.

(** ** C02 *)

(** A written message is read back, whatever follows, exactly if its type is one both
    directions know, it has at most 12 arguments and its texts are short. *)
Theorem C02_message_roundtrip : forall p tx t fs suffix,
  len tx = 4 -> Forall simple_arg fs ->
  (parse_message p (message_encode (mkMessage (mkField FU32 tx) t fs) ++ suffix)
   = Ok ([], mkMessage (mkField FU32 tx) t fs)
   <-> In t two_way_types /\ (List.length fs <= 12)%nat /\ Forall short_text fs).
Proof. exact message_roundtrip_iff. Qed.
Print Assumptions C02_message_roundtrip.

(** A suffix never changes what is parsed. *)
Theorem C02_suffix_irrelevant : forall p tx t fs s1 s2,
  len tx = 4 -> Forall simple_arg fs ->
  (List.length fs <= 12)%nat -> Forall short_text fs ->
  parse_message p (message_encode (mkMessage (mkField FU32 tx) t fs) ++ s1)
  = parse_message p (message_encode (mkMessage (mkField FU32 tx) t fs) ++ s2).
Proof.
  intros p tx t fs s1 s2 Htx Hs Hl Ht.
  rewrite !parse_message_encode by assumption.
  pose proof (proj2 (C01_arguments_roundtrip p fs s1 Hs) (conj Hl Ht)) as D1.
  pose proof (proj2 (C01_arguments_roundtrip p fs s2 Hs) (conj Hl Ht)) as D2.
  rewrite D1, D2. reflexivity.
Qed.
Print Assumptions C02_suffix_irrelevant.

Example C02_case :
  parse_message Checked
    (message_encode (mkMessage (field_of_u32 77) MenuItem (item_fields (mkItem 1 2 3 4 (lit "abc") [] 7))))
  = Ok ([], mkMessage (field_of_u32 77) MenuItem (item_fields (mkItem 1 2 3 4 (lit "abc") [] 7))).
Proof. reflexivity. Qed.
(** A request type without code is parsed back as a different one. *)
Example C02_case_lost :
  parse_message Checked (message_encode (mkMessage (field_of_u32 77) GenreRequest []))
  = Ok ([], mkMessage (field_of_u32 77) Setup []).
Proof. reflexivity. Qed.

(** ** C03 *)

(** Layout: tag, 32-bit number of code units plus one, text, terminator. *)
Theorem C03_text_layout : forall s,
  (exists c, len c = 4 /\ number c = len (utf16_encode s) + 1 /\
     field_as_bytes (field_of_str s) = [0x26] ++ c ++ utf16_be s ++ [0; 0])
  <-> len (utf16_encode s) <= 127.
Proof. exact text_layout_iff. Qed.
Print Assumptions C03_text_layout.

(** A client reads the same text and finds the bytes behind it. *)
Theorem C03_text_read : forall s rest, str_ok s ->
  (read_value (field_as_bytes (field_of_str s) ++ rest) = Some (CText (utf16_encode s), rest)
   <-> len (utf16_encode s) <= 127).
Proof. exact text_read_iff. Qed.
Print Assumptions C03_text_read.

Example C03_case :
  str_ok (lit "Drum") /\
  read_value (field_as_bytes (field_of_str (lit "Drum")) ++ [9])
  = Some (CText [68; 114; 117; 109], [9]).
Proof. split; [repeat constructor|reflexivity]. Qed.
(** Claim "every title is read back" refuted. *)
Theorem C03_every_text_refuted : exists s, str_ok s /\
  read_value (field_as_bytes (field_of_str s)) <> Some (CText (utf16_encode s), []).
Proof.
  exists (repeat 65 128). split.
  - apply Forall_forall. intros x Hx. apply repeat_spec in Hx. subst. reflexivity.
  - vm_compute. discriminate.
Qed.
Print Assumptions C03_every_text_refuted.

(** ** C04 *)

(** The codes that are written as they were read are exactly those listed. *)
Theorem C04_code_roundtrip : forall v,
  number (request_type_value (request_type_new v)) = v <-> In v two_way_codes.
Proof. exact request_type_code_iff. Qed.
Print Assumptions C04_code_roundtrip.

(** All others are written as zero. *)
Theorem C04_other_codes_zero : forall v, ~ In v two_way_codes ->
  request_type_value (request_type_new v) = [0; 0].
Proof. exact request_type_code_zero. Qed.
Print Assumptions C04_other_codes_zero.

(** Different codes are never read as the same request. *)
Theorem C04_codes_distinct : forall v w, request_type_new v = request_type_new w -> v = w.
Proof. exact request_type_new_inj. Qed.
Print Assumptions C04_codes_distinct.

Example C04_case : In 0x3000 two_way_codes /\ ~ In 0x4e02 two_way_codes.
Proof. split; vm_compute; [tauto|]. intuition discriminate. Qed.

(** ** C05 *)

(** A list with a non-empty binary argument, after arguments that can be read, is a
    panic for its own decoder. *)
Theorem C05_binary_never_parses : forall p pre v post suffix,
  Forall simple_arg pre -> Forall short_text pre -> v <> [] ->
  (List.length (pre ++ mkField FBinary v :: post) <= 12)%nat ->
  len (arguments_encode (pre ++ mkField FBinary v :: post) ++ suffix) < 320 * 1024 * 1024 ->
  arguments_decode p (arguments_encode (pre ++ mkField FBinary v :: post) ++ suffix) = Panic.
Proof. exact binary_arguments_panic. Qed.
Print Assumptions C05_binary_never_parses.

(** The same for whole messages. *)
Theorem C05_binary_message_never_parses : forall p tx t pre v post suffix,
  len tx = 4 ->
  Forall simple_arg pre -> Forall short_text pre -> v <> [] ->
  (List.length (pre ++ mkField FBinary v :: post) <= 12)%nat ->
  len (message_encode (mkMessage (mkField FU32 tx) t (pre ++ mkField FBinary v :: post)) ++ suffix)
    < 320 * 1024 * 1024 ->
  parse_message p
    (message_encode (mkMessage (mkField FU32 tx) t (pre ++ mkField FBinary v :: post)) ++ suffix)
  = Panic.
Proof.
  intros. rewrite parse_message_encode by assumption.
  rewrite C05_binary_never_parses; try assumption; [reflexivity|].
  unfold message_encode in *. cbn [m_arguments] in *. rewrite !len_app in *. lia.
Qed.
Print Assumptions C05_binary_message_never_parses.

(** An empty binary argument at the very end is read back. *)
Theorem C05_empty_binary_last : forall p pre suffix,
  Forall simple_arg pre -> Forall short_text pre -> (List.length pre < 12)%nat ->
  len suffix < 4 ->
  arguments_decode p (arguments_encode (pre ++ [mkField FBinary []]) ++ suffix)
  = Ok ([], pre ++ [mkField FBinary []]).
Proof. exact binary_empty_last. Qed.
Print Assumptions C05_empty_binary_last.

(** An empty binary argument before another (4-byte or text) argument, as in the
    server's own answer to a load-track request, does not parse. *)
Theorem C05_empty_binary_not_last : forall p pre f post suffix,
  Forall simple_arg pre -> Forall short_text pre ->
  simple_arg f -> f_kind f <> FU8 -> f_kind f <> FU16 ->
  (List.length (pre ++ mkField FBinary [] :: f :: post) <= 12)%nat ->
  len (arguments_encode (pre ++ mkField FBinary [] :: f :: post) ++ suffix) < 240 * 1024 * 1024 ->
  arguments_decode p (arguments_encode (pre ++ mkField FBinary [] :: f :: post) ++ suffix) = Panic.
Proof. exact binary_empty_not_last. Qed.
Print Assumptions C05_empty_binary_not_last.

(** For arguments of every kind: a message survives exactly if it has at most 12
    arguments, every text is short, every binary argument is empty and what comes
    after one is written in fewer than four bytes. *)
Definition well_kinded (f : field) : Prop := simple_arg f \/ f_kind f = FBinary.
Definition binaries_harmless (fs : list field) : Prop :=
  forall pre v post, fs = pre ++ mkField FBinary v :: post ->
    v = [] /\ len (flat_map field_as_bytes post) < 4.

Lemma harmless_tail : forall f fs, binaries_harmless (f :: fs) -> binaries_harmless fs.
Proof. intros f fs H pre v post E. apply (H (f :: pre) v post). rewrite E. reflexivity. Qed.

Lemma written_first : forall fs, Forall well_kinded fs -> flat_map field_as_bytes fs = [] \/
  exists b l, flat_map field_as_bytes fs = b :: l /\ 0x0f <= b.
Proof.
  induction fs as [|[k v] fs IH]; intros H; [left; reflexivity|]. inversion H as [|? ? _ Hr]; subst.
  cbn [flat_map]. destruct k;
    try (right; unfold field_as_bytes; cbn [f_kind f_value field_type_value app]; eexists _, _; split; [reflexivity|lia]).
  unfold field_as_bytes. cbn [f_kind f_value]. destruct (0 <? len v).
  - right. cbn [app field_type_value]. eexists _, _. split; [reflexivity|lia].
  - cbn [app]. apply IH. exact Hr.
Qed.

Lemma any_loop_iff : forall p fs pad, Forall well_kinded fs ->
  len (flat_map field_as_bytes fs) < 240 * 1024 * 1024 ->
  (arguments_loop p (List.length fs) (codes fs ++ pad) (flat_map field_as_bytes fs) = Ok fs <->
   Forall short_text fs /\ binaries_harmless fs).
Proof.
  intros p fs pad. induction fs as [|f fs IH]; intros Hk Hl.
  - cbn. split; [|reflexivity]. intros _. split; [constructor|].
    intros pre v post E. destruct pre; discriminate E.
  - inversion Hk as [|? ? Hf Hr]; subst. cbn [flat_map] in Hl. rewrite len_app in Hl.
    specialize (IH Hr ltac:(lia)).
    cbn [codes map app flat_map arguments_loop List.length]. rewrite argument_type_roundtrip. cbn [rbind].
    change (map (fun f => argument_type_value (f_kind f)) fs) with (codes fs).
    assert (Goal_short : forall f', f' = f -> short_text f' -> forall r, r = flat_map field_as_bytes fs ->
      (binaries_harmless fs -> binaries_harmless (f :: fs)) ->
      ((do fs0 <- arguments_loop p (List.length fs) (codes fs ++ pad) r; Ok (f' :: fs0)) = Ok (f :: fs) <->
       Forall short_text (f :: fs) /\ binaries_harmless (f :: fs))).
    { intros f' -> St r -> Hh. split.
      - intros E. destruct (arguments_loop p (List.length fs) (codes fs ++ pad) (flat_map field_as_bytes fs)) as [l| |] eqn:El;
          [|discriminate E|discriminate E]. cbn [rbind] in E. injection E as ->.
        destruct (proj1 IH eq_refl) as [A B]. split; [constructor; assumption|exact (Hh B)].
      - intros [A B]. inversion A; subst. rewrite (proj2 IH (conj H2 (harmless_tail _ _ B))). reflexivity. }
    destruct Hf as [Hf|Hf].
    + assert (Hn : f_kind f <> FBinary) by (intros E; unfold simple_arg in Hf; rewrite E in Hf; exact Hf).
      assert (Hh : binaries_harmless fs -> binaries_harmless (f :: fs)).
      { intros B pre v post E. destruct pre as [|g pre]; injection E as -> E; [exfalso; apply Hn; reflexivity|].
        exact (B pre v post E). }
      split.
      * intros E. destruct (argument_decode p (f_kind f) (field_as_bytes f ++ flat_map field_as_bytes fs)) as [[r g]| |] eqn:Ed;
          [|discriminate E|discriminate E]. cbn [unwrap rbind] in E.
        assert (g = f).
        { destruct (arguments_loop p (List.length fs) (codes fs ++ pad) r); [|discriminate E|discriminate E].
          cbn [rbind] in E. injection E as -> _. reflexivity. }
        subst g. destruct (argument_decode_simple_inv _ _ _ _ Hf Ed) as [St ->].
        exact (proj1 (Goal_short f eq_refl St _ eq_refl Hh) E).
      * intros [A B]. inversion A as [|? ? St A']; subst. rewrite argument_decode_simple by assumption. cbn [unwrap rbind].
        apply (proj2 (Goal_short f eq_refl St _ eq_refl Hh)). split; [constructor; assumption|exact B].
    + destruct f as [k v]. cbn [f_kind] in Hf. subst k. cbn [f_kind].
      assert (St : short_text (mkField FBinary v)) by (intros E; discriminate E).
      destruct v as [|b v].
      * change (field_as_bytes (mkField FBinary [])) with (@nil N) in *. cbn [app].
        destruct (N.lt_ge_cases (len (flat_map field_as_bytes fs)) 4) as [Hs|Hs].
        -- unfold argument_decode. rewrite (proj2 (N.ltb_lt _ 4) Hs). cbn [unwrap rbind].
           apply (Goal_short _ eq_refl St _ eq_refl).
           intros B pre v post E. destruct pre as [|g pre]; injection E; intros; subst; [split; [reflexivity|exact Hs]|].
           exact (B pre v post eq_refl).
        -- split.
           ++ intros E. exfalso. destruct (written_first fs Hr) as [W|(b & l & W & Hb)]; rewrite W in *.
              ** unfold len in Hs; cbn in Hs; lia.
              ** rewrite len_cons in *. rewrite binary_decode_fails in E by lia. discriminate E.
           ++ intros [_ B]. destruct (B [] [] fs eq_refl). lia.
      * split.
        -- intros E. exfalso. clear - E Hl. set (tl := flat_map field_as_bytes fs) in *. clearbody tl.
           unfold field_as_bytes in E, Hl. cbn [f_kind f_value] in E, Hl.
           assert (Hv : 0 <? len (b :: v) = true) by (apply N.ltb_lt; rewrite len_cons; lia).
           rewrite Hv in E, Hl. rewrite <- !app_assoc in E. cbn [app field_type_value] in E.
           rewrite !len_app, be_len in Hl.
           rewrite binary_decode_fails in E; [discriminate E| |]; rewrite ?len_app, ?be_len; rewrite ?len_app, ?be_len in Hl; cbn [app] in Hl |- *; rewrite ?len_cons, ?len_app, ?be_len in *; lia.
        -- intros [_ B]. destruct (B [] _ fs eq_refl) as [E _]. discriminate E.
Qed.

(** For arguments of every kind: a list is read back exactly if it has at most 12, texts
    are short and binary arguments are harmless. *)
Theorem C05_any_arguments : forall p fs, Forall well_kinded fs ->
  len (arguments_encode fs) < 240 * 1024 * 1024 ->
  (arguments_decode p (arguments_encode fs) = Ok ([], fs) <->
   (List.length fs <= 12)%nat /\ Forall short_text fs /\ binaries_harmless fs).
Proof.
  intros p fs Hk Hl. split.
  - intros E. assert (L : (List.length fs <= 12)%nat).
    { unfold arguments_decode in E.
      destruct (take 2 (arguments_encode fs)) as [[i a]| |]; try discriminate E. cbn [rbind] in E.
      destruct (take 5 i) as [[i' a']| |]; try discriminate E. cbn [rbind] in E.
      destruct (take 12 i') as [[i'' types]| |] eqn:T; try discriminate E. cbn [rbind] in E.
      destruct (arguments_loop p (N.to_nat (nth 1 a 0)) types i'') as [l| |] eqn:El; try discriminate E.
      cbn [rbind] in E. injection E as ->. apply arguments_loop_length in El. destruct El as [El Eb].
      apply take_ok in T. destruct T as [_ T]. unfold len in T. lia. }
    split; [exact L|].
    rewrite <- (app_nil_r (arguments_encode fs)), arguments_decode_12 in E by exact L. rewrite app_nil_r in E.
    rewrite arguments_encode_12, !len_app in Hl by exact L.
    apply (any_loop_iff p fs (repeat 0 (12 - List.length fs)) Hk ltac:(lia)).
    destruct (arguments_loop _ _ _ _); [|discriminate E|discriminate E]. cbn [rbind] in E. injection E as ->. reflexivity.
  - intros (L & St & B).
    rewrite <- (app_nil_r (arguments_encode fs)), arguments_decode_12 by exact L. rewrite app_nil_r.
    rewrite arguments_encode_12, !len_app in Hl by exact L.
    rewrite (proj2 (any_loop_iff p fs (repeat 0 (12 - List.length fs)) Hk ltac:(lia)) (conj St B)). reflexivity.
Qed.
Print Assumptions C05_any_arguments.

Example C05_case :
  arguments_decode Wrapping
    (arguments_encode [field_of_u32 1; mkField FBinary [1; 2]; field_of_u32 2]) = Panic /\
  arguments_decode Wrapping
    (arguments_encode [field_of_u32 1; mkField FBinary []; field_of_u32 2]) = Panic /\
  arguments_decode Wrapping
    (arguments_encode [field_of_u32 1; mkField FBinary []])
  = Ok ([], [field_of_u32 1; mkField FBinary []]).
Proof. repeat split. Qed.

(** ** C06 *)

(** Which bytes are an error. *)
Theorem C06_error_iff : forall p b,
  parse_message p b = Err <->
  (forall t r, b <> t :: [0x87; 0x23; 0x49; 0xae] ++ r) \/
  len b < 10 \/
  (len b < 32 /\ In (nth 5 b 0) known_tags).
Proof. exact parse_err_iff. Qed.
Print Assumptions C06_error_iff.

(** Which bytes are a message, and which. *)
Theorem C06_success_iff : forall p b rest m, bytes_ok b ->
  (parse_message p b = Ok (rest, m) <->
   rest = [] /\
   exists k tx code n types args j1 j2 j3 j5 fs,
     b = request_bytes (tag_of k) tx code n types args j1 j2 j3 j5 /\
     len tx = 4 /\ len code = 2 /\ len types = 12 /\ len j5 = 5 /\
     n <= 12 /\ args_layout p (firstn (N.to_nat n) types) args fs /\
     m = mkMessage (mkField k tx) (request_type_new (number code)) fs).
Proof. exact parse_ok_iff. Qed.
Print Assumptions C06_success_iff.

(** Which bytes are a panic. *)
Theorem C06_panic_iff : forall p b, bytes_ok b ->
  (parse_message p b = Panic <->
   (exists t tg r, b = t :: [0x87; 0x23; 0x49; 0xae] ++ tg :: r /\
      4 <= len r /\ ~ In tg known_tags) \/
   (exists tg tx code n types args j1 j2 j3 j5,
      b = request_bytes tg tx code n types args j1 j2 j3 j5 /\
      len tx = 4 /\ len code = 2 /\ len types = 12 /\ len j5 = 5 /\
      In tg known_tags /\
      ~ (n <= 12 /\ exists fs, args_layout p (firstn (N.to_nat n) types) args fs))).
Proof. exact parse_panic_iff. Qed.
Print Assumptions C06_panic_iff.

(** A layout has as many arguments as were announced. *)
Theorem C06_announced_count : forall p codes args fs,
  args_layout p codes args fs -> List.length fs = List.length codes.
Proof. intros p codes args fs H. induction H; cbn; congruence. Qed.
Print Assumptions C06_announced_count.

Example C06_case_ok : exists m, parse_message Checked
  (request_bytes 0x11 [0; 0; 0; 5] [0x20; 0x02] 2 ([6; 6] ++ repeat 0 10)
     [0x11; 0; 0; 0; 1; 0x11; 0; 0; 0; 2] 0x11 0x10 0x0f [0x14; 0; 0; 0; 12]) = Ok ([], m).
Proof. eexists. reflexivity. Qed.
Example C06_case_err : parse_message Checked [0x11; 0x87; 0x23; 0x49; 0xae; 0x11; 0; 0; 0; 1] = Err.
Proof. reflexivity. Qed.
Example C06_case_panic :
  parse_message Checked [0x11; 0x87; 0x23; 0x49; 0xae; 0x99; 0; 0; 0; 1] = Panic.
Proof. reflexivity. Qed.
(** The empty text field with announced size 0 shows the two build profiles
    differ: overflow panic against a huge length. *)
Example C06_case_size0 :
  parse_message Checked
    (request_bytes 0x11 [0; 0; 0; 5] [0x10; 0x02] 1 ([2] ++ repeat 0 11)
       [0x26; 0; 0; 0; 0; 0; 0] 0x11 0x10 0x0f [0x14; 0; 0; 0; 12]) = Panic.
Proof. reflexivity. Qed.

(** ** C55 *)

(** Every text is decoded from its UTF-8 form. *)
Theorem C55_utf8_lossless : forall s, str_ok s -> utf8_decode (utf8_encode s) = Some s.
Proof. exact utf8_decode_encode. Qed.
Print Assumptions C55_utf8_lossless.

(** Nothing but the UTF-8 form of a text decodes to it. *)
Theorem C55_utf8_only_encodings : forall b s,
  utf8_decode b = Some s -> str_ok s /\ utf8_encode s = b.
Proof. intros b s H. apply utf8_decode_some in H. tauto. Qed.
Print Assumptions C55_utf8_only_encodings.

(** Every text is decoded from its UTF-16 form. *)
Theorem C55_utf16_lossless : forall s, str_ok s ->
  utf16_decode (units_of (utf16_be s)) = Some s.
Proof. intros s H. rewrite units_of_utf16 by assumption. apply utf16_decode_encode. assumption. Qed.
Print Assumptions C55_utf16_lossless.

(** Nothing but the UTF-16 form of a text decodes to it. *)
Theorem C55_utf16_only_encodings : forall b s, bytes_ok b ->
  utf16_decode (units_of b) = Some s -> len b mod 2 = 0 -> str_ok s /\ utf16_be s = b.
Proof. exact utf16_bytes_only_encodings. Qed.
Print Assumptions C55_utf16_only_encodings.

Example C55_case : str_ok [0x41; 0xe9; 0x20ac; 0x1f3a7] /\
  utf16_be [0x41; 0xe9; 0x20ac; 0x1f3a7] = [0; 0x41; 0; 0xe9; 0x20; 0xac; 0xd8; 0x3c; 0xdf; 0xa7] /\
  utf8_encode [0x41; 0xe9; 0x20ac; 0x1f3a7]
  = [0x41; 0xc3; 0xa9; 0xe2; 0x82; 0xac; 0xf0; 0x9f; 0x8e; 0xa7].
Proof. split; [repeat constructor|split; reflexivity]. Qed.
