(** Property theorems C84: the public functions the program itself never calls. *)

From Verif Require Import Base Unicode MDb MDatabase MServer MRpc MNfs MUnused SUdp SDb SRpc SServer SNfs SUnused LBase LDb LServer LServer2 LNfs
  PDb PServer.
From Coq Require Import ZArith Lia Arith String.
Open Scope list_scope.
Open Scope N_scope.

(** ** The player collection *)

Lemma reported_app : forall a b, reported (a ++ b) = reported a ++ reported b.
Proof. induction a as [|[p|x v] a IH]; intros b; cbn [app reported]; rewrite ?IH; reflexivity. Qed.

Lemma coll_run_snoc : forall cs c, coll_run (cs ++ [c]) = coll_step (coll_run cs) c.
Proof. intros. unfold coll_run. rewrite fold_left_app. reflexivity. Qed.

Lemma mark_address : forall ps a v, map pl_address (mark_linking ps a v) = map pl_address ps.
Proof.
  induction ps as [|p ps IH]; intros a v; [reflexivity|]. cbn [mark_linking].
  destruct (pl_address p =? a); cbn [map pl_address]; rewrite ?IH; reflexivity.
Qed.

(** Every reported address is listed once, in the order of the first reports. *)
Theorem C84_one_entry_each : forall cs,
  map pl_address (coll_run cs) = distinct (reported cs).
Proof.
  intros cs. induction cs as [|c cs IH] using rev_ind; [reflexivity|].
  rewrite coll_run_snoc, reported_app. destruct c as [p|a v]; cbn [coll_step reported].
  - rewrite distinct_snoc, add_or_update_address, IH.
    destruct (known (pl_address p) (coll_run cs)) eqn:K; destruct (in_dec N.eq_dec (pl_address p) (reported cs)) as [H|H];
      try reflexivity.
    + apply known_in in K. rewrite IH, in_distinct in K. contradiction.
    + rewrite <- in_distinct, <- IH, <- known_in in H. congruence.
  - rewrite app_nil_r, mark_address. assumption.
Qed.
Print Assumptions C84_one_entry_each.

Lemma in_add_or_update : forall ps p q, NoDup (map pl_address ps) -> In q (add_or_update ps p) ->
  (In q ps /\ pl_address q <> pl_address p) \/
  (exists o, In o ps /\ pl_address o = pl_address p /\ q = player_update o p) \/
  (q = p /\ ~ In (pl_address p) (map pl_address ps)).
Proof.
  induction ps as [|o ps IH]; intros p q ND H; cbn [add_or_update] in H.
  - destruct H as [<-|[]]. right. right. split; [reflexivity|intros []].
  - cbn [map] in ND. inversion ND as [|? ? N1 N2]; subst.
    destruct (N.eqb_spec (pl_address o) (pl_address p)) as [E|E].
    + destruct H as [<-|H].
      * right. left. exists o. split; [left; reflexivity|split; [assumption|reflexivity]].
      * left. split; [right; assumption|]. intros K. apply N1. rewrite E, <- K. apply in_map. assumption.
    + destruct H as [<-|H]; [left; split; [left; reflexivity|assumption]|].
      destruct (IH p q N2 H) as [[A B]|[(r & A & B & C)|[A B]]].
      * left. split; [right; assumption|assumption].
      * right. left. exists r. split; [right; assumption|split; assumption].
      * right. right. split; [assumption|]. cbn [map]. intros [K|K]; [congruence|contradiction].
Qed.

Lemma in_mark : forall ps a v q, NoDup (map pl_address ps) -> In q (mark_linking ps a v) ->
  (In q ps /\ pl_address q <> a) \/
  (exists o, In o ps /\ pl_address o = a /\ q = mkPlayer (pl_model o) (pl_address o) (pl_number o) v).
Proof.
  induction ps as [|o ps IH]; intros a v q ND H; cbn [mark_linking] in H; [destruct H|].
  cbn [map] in ND. inversion ND as [|? ? N1 N2]; subst.
  destruct (N.eqb_spec (pl_address o) a) as [E|E].
  - destruct H as [<-|H].
    + right. exists o. split; [left; reflexivity|split; [assumption|reflexivity]].
    + left. split; [right; assumption|]. intros K. apply N1. rewrite E, <- K. apply in_map. assumption.
  - destruct H as [<-|H]; [left; split; [left; reflexivity|assumption]|].
    destruct (IH a v q N2 H) as [[A B]|(r & A & B & C)].
    + left. split; [right; assumption|assumption].
    + right. exists r. split; [right; assumption|split; assumption].
Qed.

Lemma first_model_snoc : forall cs c a m, first_model cs a m -> first_model (cs ++ [c]) a m.
Proof.
  intros cs c a m (b & p & f & -> & H). exists b, p, (f ++ [c]). rewrite <- app_assoc. split; [reflexivity|assumption].
Qed.

Lemma last_number_snoc : forall cs c a n, ~ In a (reported [c]) -> last_number cs a n -> last_number (cs ++ [c]) a n.
Proof.
  intros cs c a n Hc (b & p & f & -> & H1 & H2 & H3). exists b, p, (f ++ [c]). rewrite <- app_assoc.
  split; [reflexivity|]. split; [assumption|]. split; [assumption|].
  rewrite reported_app, in_app_iff. tauto.
Qed.

Lemma snoc_split : forall {A} (cs : list A) c before x after, cs ++ [c] = before ++ x :: after ->
  (after = [] /\ x = c /\ before = cs) \/ (exists after', after = after' ++ [c] /\ cs = before ++ x :: after').
Proof.
  intros A cs c before x after E. destruct after as [|y after _] using rev_ind.
  - apply app_inj_tail in E. destruct E as [E1 E2]. left. auto.
  - right. rewrite app_comm_cons, app_assoc in E. apply app_inj_tail in E. destruct E as [E1 E2].
    exists after. subst. auto.
Qed.

Lemma is_linking_snoc : forall cs c a,
  is_linking (cs ++ [c]) a <->
  (exists p, c = CReport p /\ pl_address p = a /\ pl_linking p = true) \/
  (c = CMark a true /\ In a (reported cs)) \/
  (c <> CMark a false /\ is_linking cs a).
Proof.
  intros cs c a. split.
  - intros (b & x & f & E & H & N). destruct (snoc_split _ _ _ _ _ E) as [(-> & -> & ->)|(f' & -> & ->)].
    + destruct H as [H|H]; [left; assumption|right; left; assumption].
    + right. right. split.
      * intros ->. apply N. apply in_or_app. right. left. reflexivity.
      * exists b, x, f'. split; [reflexivity|]. split; [assumption|]. intros K. apply N. apply in_or_app. left. assumption.
  - intros [H|[H|[N (b & x & f & -> & H & N')]]].
    + exists cs, c, []. split; [reflexivity|]. split; [left; assumption|intros []].
    + exists cs, c, []. split; [reflexivity|]. split; [right; assumption|intros []].
    + exists b, x, (f ++ [c]). rewrite <- app_assoc. split; [reflexivity|]. split; [assumption|].
      rewrite in_app_iff. intros [K|[K|[]]]; [contradiction|congruence].
Qed.

Lemma is_linking_reported : forall cs a, is_linking cs a -> In a (reported cs).
Proof.
  intros cs a (b & x & f & -> & H & _). rewrite reported_app, in_app_iff.
  destruct H as [(p & -> & <- & _)|[-> H]]; [right; left; reflexivity|left; assumption].
Qed.

(** After any calls, an entry has the name of the first report, the number of
    the last, and is linking exactly when it was reported or marked so and no
    one unmarked it since. *)
Theorem C84_entry : forall cs p, In p (coll_run cs) ->
  first_model cs (pl_address p) (pl_model p) /\
  last_number cs (pl_address p) (pl_number p) /\
  (pl_linking p = true <-> is_linking cs (pl_address p)).
Proof.
  intros cs. induction cs as [|c cs IH] using rev_ind; intros q H; [destruct H|].
  pose proof (C84_one_entry_each cs) as AD.
  assert (ND : NoDup (map pl_address (coll_run cs))) by (rewrite AD; apply distinct_nodup).
  rewrite coll_run_snoc in H. rewrite is_linking_snoc. destruct c as [p|a v]; cbn [coll_step] in H.
  - destruct (in_add_or_update _ _ _ ND H) as [[A B]|[(o & A & B & ->)|[-> B]]].
    + destruct (IH q A) as (I1 & I2 & I3). split; [apply first_model_snoc; assumption|].
      split; [apply last_number_snoc; [|assumption]; cbn; intros [K|[]]; congruence|].
      rewrite I3. split.
      * intros K. right. right. split; [discriminate|assumption].
      * intros [(r & E & K & _)|[[E _]|[_ K]]]; [injection E as <-; congruence|discriminate|assumption].
    + destruct (IH o A) as (I1 & I2 & I3). cbn [player_update pl_address pl_model pl_number pl_linking].
      split; [apply first_model_snoc; assumption|]. split.
      * exists cs, p, []. split; [reflexivity|]. split; [congruence|]. split; [reflexivity|intros []].
      * destruct (pl_linking o) eqn:Eo; destruct (pl_linking p) eqn:Ep; cbn [Bool.eqb andb].
        -- split; [intros _; left; exists p; repeat split; congruence|reflexivity].
        -- split; [|reflexivity]. intros _. right. right. split; [discriminate|]. apply I3. reflexivity.
        -- split; [intros _; left; exists p; repeat split; congruence|reflexivity].
        -- split; [discriminate|].
           intros [(r & E & _ & K)|[[E _]|[_ K]]]; [injection E as <-; congruence|discriminate|apply I3 in K; discriminate].
    + assert (NR : ~ In (pl_address p) (reported cs)) by (rewrite <- in_distinct, <- AD; assumption).
      split; [exists cs, p, []; repeat split; assumption|].
      split; [exists cs, p, []; split; [reflexivity|]; split; [reflexivity|]; split; [reflexivity|intros []]|].
      split.
      * intros K. left. exists p. repeat split. assumption.
      * intros [(r & E & _ & K)|[[E _]|[_ K]]]; [injection E as <-; assumption|discriminate|].
        apply is_linking_reported in K. contradiction.
  - destruct (in_mark _ _ _ _ ND H) as [[A B]|(o & A & B & ->)].
    + destruct (IH q A) as (I1 & I2 & I3). split; [apply first_model_snoc; assumption|].
      split; [apply last_number_snoc; [intros []|assumption]|]. rewrite I3. split.
      * intros K. right. right. split; [congruence|assumption].
      * intros [(r & E & _)|[[E _]|[_ K]]]; [discriminate|congruence|assumption].
    + destruct (IH o A) as (I1 & I2 & I3). cbn [pl_address pl_model pl_number pl_linking].
      split; [apply first_model_snoc; assumption|].
      split; [apply last_number_snoc; [intros []|assumption]|]. subst a.
      assert (R : In (pl_address o) (reported cs)) by (rewrite <- in_distinct, <- AD; apply in_map; assumption).
      split.
      * intros ->. right. left. auto.
      * intros [(r & E & _)|[[E _]|[K _]]]; [discriminate|congruence|]. destruct v; [reflexivity|congruence].
Qed.
Print Assumptions C84_entry.

Lemma iter_next_snoc : forall ps p, iter_next (ps ++ [p]) = (Some p, ps).
Proof.
  induction ps as [|q ps IH]; intros p; [reflexivity|].
  cbn [app]. cbn [iter_next]. rewrite IH. destruct (ps ++ [p]) eqn:E; [destruct ps; discriminate|]. reflexivity.
Qed.

(** A loop over the players sees each of them once, the newest first, however
    often it may call on, and the number announced beforehand is the number of
    items that come. *)
Theorem C84_iterate : forall ps fuel, (List.length ps <= fuel)%nat ->
  iter_all fuel (coll_iter ps) = rev ps /\
  coll_len ps = N.of_nat (List.length (iter_all fuel (coll_iter ps))).
Proof.
  assert (F : forall ps fuel, (List.length ps <= fuel)%nat -> iter_all fuel ps = rev ps).
  { intros ps. induction ps as [|p ps IH] using rev_ind; intros [|fuel] L; cbn [iter_all]; try reflexivity.
    - rewrite app_length in L. cbn in L. lia.
    - rewrite iter_next_snoc, rev_app_distr. cbn [rev app]. rewrite IH; [reflexivity|].
      rewrite app_length in L. cbn in L. lia. }
  intros ps fuel L. unfold coll_iter. rewrite F by assumption. split; [reflexivity|].
  rewrite rev_length. reflexivity.
Qed.
Print Assumptions C84_iterate.

(** An index answers exactly when it is below the length. *)
Theorem C84_index : forall ps i,
  (forall p, coll_index ps i = Ok p <-> nth_error ps (N.to_nat i) = Some p) /\
  (coll_index ps i = Panic <-> coll_len ps <= i).
Proof.
  intros ps i. unfold coll_index, coll_len, len. split.
  - intros p. destruct (nth_error ps (N.to_nat i)); split; congruence.
  - destruct (nth_error ps (N.to_nat i)) eqn:E.
    + assert (nth_error ps (N.to_nat i) <> None) as H by congruence. apply nth_error_Some in H.
      split; [discriminate|lia].
    + apply nth_error_None in E. split; [lia|reflexivity].
Qed.
Print Assumptions C84_index.

(** ** The codec for database messages *)

(** What was encoded into an empty buffer is decoded, and nothing stays. *)
Theorem C84_codec_roundtrip : forall p tx t fs, len tx = 4 -> Forall simple_arg fs ->
  (db_codec_decode p (db_codec_encode (mkMessage (mkField FU32 tx) t fs) [])
   = (Ok (Some (mkMessage (mkField FU32 tx) t fs)), [])
   <-> In t two_way_types /\ (List.length fs <= 12)%nat /\ Forall short_text fs).
Proof.
  intros p tx t fs Htx Hs. rewrite <- (C02_message_roundtrip p tx t fs [] Htx Hs).
  unfold db_codec_decode, db_codec_encode. cbn [app]. rewrite app_nil_r.
  set (m := mkMessage (mkField FU32 tx) t fs).
  assert (L : 0 <? len (message_encode m) = true).
  { apply N.ltb_lt. unfold message_encode, message_to_response. cbn [app len List.length]. unfold len. cbn [List.length]. lia. }
  rewrite L. subst m. rewrite <- (app_nil_r (message_encode _)).
  split.
  - rewrite (parse_message_encode p tx t fs [] Htx). intros H. 
    destruct (arguments_decode p (arguments_encode fs ++ [])) as [[i args]| |] eqn:D; cbn [rbind] in H; try discriminate.
    cbn [rbind]. assert (i = []) as -> by (eapply arguments_decode_rest; eassumption).
    injection H as H1 H2. rewrite H1, H2. reflexivity.
  - intros ->. reflexivity.
Qed.
Print Assumptions C84_codec_roundtrip.

(** Every decode empties the buffer, whatever it held. *)
Theorem C84_codec_empties : forall p buf, snd (db_codec_decode p buf) = [].
Proof.
  intros p buf. unfold db_codec_decode. destruct buf as [|x b]; reflexivity.
Qed.
Print Assumptions C84_codec_empties.

(** An empty buffer is the only one that asks for more input: half a message
    is an error and not a reason to wait. *)
Theorem C84_codec_waits_iff : forall p buf,
  fst (db_codec_decode p buf) = Ok None <-> buf = [].
Proof.
  intros p buf. unfold db_codec_decode. destruct buf as [|x b]; [split; reflexivity|].
  assert (L : 0 <? len (x :: b) = true) by (apply N.ltb_lt; unfold len; cbn [List.length]; lia).
  rewrite L. cbn [fst]. split; [|discriminate]. destruct (parse_message p (x :: b)) as [[? ?]| |]; discriminate.
Qed.
Print Assumptions C84_codec_waits_iff.

(** Which bytes the decoder takes, which it refuses, and on which it panics: the same
    as those of the library's own parser (C06), but for the empty buffer. *)
Theorem C84_codec_outcome : forall p buf, bytes_ok buf -> buf <> [] ->
  (forall m, fst (db_codec_decode p buf) = Ok (Some m) <->
   exists k tx code n types args j1 j2 j3 j5 fs,
     buf = request_bytes (tag_of k) tx code n types args j1 j2 j3 j5 /\
     len tx = 4 /\ len code = 2 /\ len types = 12 /\ len j5 = 5 /\
     n <= 12 /\ args_layout p (firstn (N.to_nat n) types) args fs /\
     m = mkMessage (mkField k tx) (request_type_new (number code)) fs) /\
  (fst (db_codec_decode p buf) = Err <->
   (forall t r, buf <> t :: [0x87; 0x23; 0x49; 0xae] ++ r) \/ len buf < 10 \/
   (len buf < 32 /\ In (nth 5 buf 0) known_tags)) /\
  (fst (db_codec_decode p buf) = Panic <->
   (exists t tg r, buf = t :: [0x87; 0x23; 0x49; 0xae] ++ tg :: r /\ 4 <= len r /\ ~ In tg known_tags) \/
   (exists tg tx code n types args j1 j2 j3 j5,
      buf = request_bytes tg tx code n types args j1 j2 j3 j5 /\
      len tx = 4 /\ len code = 2 /\ len types = 12 /\ len j5 = 5 /\ In tg known_tags /\
      ~ (n <= 12 /\ exists fs, args_layout p (firstn (N.to_nat n) types) args fs))).
Proof.
  intros p buf B N. rewrite <- (C06_error_iff p buf), <- (C06_panic_iff p buf B).
  assert (D : fst (db_codec_decode p buf) = match parse_message p buf with Ok (_, m) => Ok (Some m) | Err => Err | Panic => Panic end).
  { unfold db_codec_decode. destruct buf as [|x b]; [contradiction|].
    assert (L : 0 <? len (x :: b) = true) by (apply N.ltb_lt; unfold len; cbn [List.length]; lia). rewrite L. reflexivity. }
  rewrite D. split; [|destruct (parse_message p buf) as [[? ?]| |]; split; split; intros H; discriminate H || reflexivity].
  intros m. pose proof (C06_success_iff p buf [] m B) as H. split.
  - intros E. destruct (parse_message p buf) as [[r m']| |] eqn:P; try discriminate. injection E as ->.
    destruct (proj1 (C06_success_iff p buf r m B) P) as [-> F]. exact F.
  - intros F. rewrite (proj2 H (conj eq_refl F)). reflexivity.
Qed.
Print Assumptions C84_codec_outcome.
Example C84_case_outcome :
  fst (db_codec_decode Checked [0x11; 0x87; 0x23; 0x49; 0xae; 0x99; 0; 0; 0; 1]) = Panic /\
  fst (db_codec_decode Checked [0x11; 0x87; 0x23; 0x49; 0xae; 0x11; 0; 0; 0; 1]) = Err.
Proof. split; reflexivity. Qed.

(** Of two messages that arrive together the second is dropped. *)
Theorem C84_codec_second_lost : forall p tx t fs m2, len tx = 4 -> Forall simple_arg fs ->
  In t two_way_types -> (List.length fs <= 12)%nat -> Forall short_text fs ->
  db_codec_decode p (db_codec_encode m2 (db_codec_encode (mkMessage (mkField FU32 tx) t fs) []))
  = (Ok (Some (mkMessage (mkField FU32 tx) t fs)), []).
Proof.
  intros p tx t fs m2 Htx Hs Ht Hl Hx. unfold db_codec_decode, db_codec_encode. cbn [app].
  rewrite (proj2 (C02_message_roundtrip p tx t fs (message_encode m2) Htx Hs) (conj Ht (conj Hl Hx))).
  match goal with |- (if ?c then _ else _) = _ => assert (L : c = true) end.
  { apply N.ltb_lt. rewrite len_app. unfold message_encode at 1, message_to_response. unfold len. cbn [app List.length]. lia. }
  rewrite L. reflexivity.
Qed.
Print Assumptions C84_codec_second_lost.

(** ** One argument *)

(** The encoder of one argument writes what the encoder of a field writes,
    except that the bytes of a binary argument carry no length. *)
Theorem C84_argument_encode : forall f,
  (f_kind f <> FBinary -> argument_encode f = field_as_bytes f) /\
  (f_kind f = FBinary -> argument_encode f = 0x14 :: f_value f /\ argument_encode f <> field_as_bytes f).
Proof.
  intros [k v]. unfold argument_encode, field_as_bytes. cbn [f_kind f_value]. split.
  - destruct k; intros H; try reflexivity. congruence.
  - intros ->. split; [reflexivity|]. destruct (N.ltb_spec 0 (len v)) as [H|H]; [|discriminate].
    intros E. apply (f_equal len) in E. rewrite !len_app, be_len in E. lia.
Qed.
Print Assumptions C84_argument_encode.

(** ** NFS procedure numbers *)

(** A procedure number is read as RFC 1094 names it, four bytes are consumed,
    and every other number and a shorter input are errors. *)
Theorem C84_procedure : forall i,
  (forall r x, nfs_procedure_decode i = Ok (r, x) <->
     exists d n, i = d ++ r /\ len d = 4 /\ of_be d = N.of_nat n /\ nth_error rfc1094_procedures n = Some x) /\
  (nfs_procedure_decode i = Err <->
     len i < 4 \/ exists d r, i = d ++ r /\ len d = 4 /\ 18 <= of_be d) /\
  nfs_procedure_decode i <> Panic.
Proof.
  assert (T : forall r v,
    (exists x n, v = N.of_nat n /\ nth_error rfc1094_procedures n = Some x /\
       (forall d, len d = 4 -> of_be d = v -> nfs_procedure_decode (d ++ r) = Ok (r, x))) \/
    (18 <= v /\ forall d, len d = 4 -> of_be d = v -> nfs_procedure_decode (d ++ r) = Err)).
  { intros r v. destruct (N.lt_ge_cases v 18) as [H|H].
    - left. assert (E : exists x, nth_error rfc1094_procedures (N.to_nat v) = Some x).
      { destruct (nth_error rfc1094_procedures (N.to_nat v)) as [x|] eqn:E; [eauto|].
        apply nth_error_None in E. cbn in E. lia. }
      destruct E as [x E]. exists x, (N.to_nat v). split; [lia|]. split; [assumption|].
      intros d Hd Hv. unfold nfs_procedure_decode, be_u32. rewrite be_uint_app by assumption. cbn [rbind]. rewrite Hv.
      assert (K : In v (map N.of_nat (seq 0 18))).
      { apply in_map_iff. exists (N.to_nat v). split; [lia|]. apply in_seq. lia. }
      cbn in K. repeat (destruct K as [<-|K]; [cbn in E; injection E as <-; reflexivity|]). destruct K.
    - right. split; [assumption|]. intros d Hd Hv. unfold nfs_procedure_decode, be_u32.
      rewrite be_uint_app by assumption. cbn [rbind]. rewrite Hv.
      destruct v as [|[[[[[q|q|]|[q|q|]|]|[[q|q|]|[q|q|]|]|]|[[[q|q|]|[q|q|]|]|[[q|q|]|[q|q|]|]|]|]
                      |[[[[q|q|]|[q|q|]|]|[[q|q|]|[q|q|]|]|]|[[[q|q|]|[q|q|]|]|[[q|q|]|[q|q|]|]|]|]|]];
        try reflexivity; exfalso; lia. }
  intros i. destruct (N.lt_ge_cases (len i) 4) as [H|H].
  - assert (E : nfs_procedure_decode i = Err).
    { unfold nfs_procedure_decode, be_u32. rewrite be_uint_short by assumption. reflexivity. }
    rewrite E. split; [|split; [tauto|discriminate]]. intros r x. split; [discriminate|].
    intros (d & n & -> & Hd & _). rewrite len_app in H. lia.
  - destruct (take_cases 4 i) as [[H' _]|(_ & d & r & -> & Hd & _)]; [lia|].
    destruct (T r (of_be d)) as [(x & n & E1 & E2 & E3)|[E1 E2]].
    + rewrite (E3 d Hd eq_refl). split; [|split; [|discriminate]].
      * intros r' x'. split.
        -- intros K. injection K as <- <-. exists d, n. auto.
        -- intros (d' & n' & F1 & F2 & F3 & F4).
           apply app_inj_len in F1; [|unfold len in *; lia]. destruct F1 as [<- <-]. rewrite E1 in F3.
           assert (n = n') as <- by lia. rewrite E2 in F4. injection F4 as <-. reflexivity.
      * split; [discriminate|]. intros [K|(d' & r' & F1 & F2 & F3)]; [lia|].
        apply app_inj_len in F1; [|unfold len in *; lia]. destruct F1 as [<- <-].
        assert (nth_error rfc1094_procedures n <> None) as K by congruence. apply nth_error_Some in K. cbn in K. lia.
    + rewrite (E2 d Hd eq_refl). split; [|split; [|discriminate]].
      * intros r' x'. split; [discriminate|]. intros (d' & n' & F1 & F2 & F3 & F4).
        apply app_inj_len in F1; [|unfold len in *; lia]. destruct F1 as [<- <-].
        assert (nth_error rfc1094_procedures n' <> None) as K by congruence. apply nth_error_Some in K. cbn in K. lia.
      * split; [|reflexivity]. intros _. right. exists d, r. auto.
Qed.
Print Assumptions C84_procedure.

(** ** Verifiers *)

(** A verifier is written as two words, its flavour and a length of zero.  Only
    the null flavour can be read back: every other is written as 16, which the
    reader refuses. *)
Theorem C84_verifier : forall a rest,
  (exists flavour, auth_bytes a = flavour ++ [0; 0; 0; 0] /\ len flavour = 4 /\
     (of_be flavour = 0 <-> a = AuthNull) /\ (of_be flavour = 16 <-> a <> AuthNull)) /\
  (auth_decode (auth_bytes a ++ rest) = Ok (rest, a) <-> a = AuthNull) /\
  (auth_decode (auth_bytes a ++ rest) = Err <-> a <> AuthNull).
Proof.
  intros a rest. unfold auth_bytes, auth_decode.
  destruct a; (split; [eexists; split; [reflexivity|]; split; [reflexivity|]; split; (split; [|intros]; vm_compute; congruence)|]);
    rewrite <- app_assoc, be_u32_be by reflexivity; cbn [rbind]; rewrite be_u32_be by reflexivity; cbn [rbind];
    (split; split; intros H; first [reflexivity | discriminate | exfalso; apply H; reflexivity]).
Qed.
Print Assumptions C84_verifier.

(** ** The list of all tracks *)

(** The claim "the list of tracks is the tracks of the database" holds only of
    a database that has none. *)
Theorem C84_tracks_listed_iff : forall db,
  database_tracks db = Ok (map snd (track_rows db)) <-> track_rows db = [].
Proof.
  intros db. unfold database_tracks. destruct (track_rows db) as [|x l]; cbn; split; congruence.
Qed.
Print Assumptions C84_tracks_listed_iff.

(** ** The shared state from outside *)

Lemma said_last_snoc : forall {A} (says : state_call -> option A) cs c v,
  said_last says (cs ++ [c]) v <-> says c = Some v \/ (says c = None /\ said_last says cs v).
Proof.
  intros A says cs c v. split.
  - intros (b & x & f & E & S & N). destruct (snoc_split _ _ _ _ _ E) as [(-> & -> & ->)|(f' & -> & ->)]; [left; exact S|].
    right. split; [apply N, in_or_app; right; left; reflexivity|]. exists b, x, f'. split; [reflexivity|]. split; [exact S|].
    intros y Y. apply N, in_or_app. left. exact Y.
  - intros [S|[S (b & x & f & -> & S' & N)]].
    + exists cs, c, []. split; [reflexivity|]. split; [exact S|intros y []].
    + exists b, x, (f ++ [c]). rewrite <- app_assoc. split; [reflexivity|]. split; [exact S'|].
      intros y Y. apply in_app_or in Y. destruct Y as [Y|[<-|[]]]; [apply N; exact Y|exact S].
Qed.

Lemma unsaid_snoc : forall {A} (says : state_call -> option A) cs c,
  unsaid says (cs ++ [c]) <-> unsaid says cs /\ says c = None.
Proof.
  intros A says cs c. unfold unsaid. split.
  - intros H. split; [intros x X; apply H, in_or_app; left; exact X|apply H, in_or_app; right; left; reflexivity].
  - intros [H E] x X. apply in_app_or in X. destruct X as [X|[<-|[]]]; [apply H; exact X|exact E].
Qed.

(** Each of the three fields is what the last call about it said, and at first no
    linking, no discovery and no network; the players and the field that nothing reads are not touched. *)
Theorem C84_state : forall cs, let s := state_run cs in
  (forall v, is_linking_now s = v <-> said_last says_linking cs v \/ (unsaid says_linking cs /\ v = false)) /\
  (forall v, is_discovery s = v <-> said_last says_discovery cs v \/ (unsaid says_discovery cs /\ v = false)) /\
  (forall a, state_address s = Some a <-> said_last says_address cs a) /\
  (state_address s = None <-> unsaid says_address cs) /\
  state_players s = [] /\ st_linked s = false.
Proof.
  intros cs. induction cs as [|c cs IH] using rev_ind.
  - cbv zeta. unfold state_run. cbn [fold_left]. unfold is_linking_now, is_discovery, state_address, state_players. cbn [state_default st_linking st_discovery st_address st_players].
    assert (N : forall A (f : state_call -> option A) v, ~ said_last f [] v).
    { intros A f v (b & c & a & E & _). destruct b; discriminate E. }
    assert (U : forall A (f : state_call -> option A), unsaid f []) by (intros A f x []).
    split; [|split; [|split; [|split]]]; try (intros v; split; [intros <-; right; split; [apply U|reflexivity]|intros [F|[_ ->]]; [elim (N _ _ _ F)|reflexivity]]).
    + intros a. split; [discriminate|]. intros F. elim (N _ _ _ F).
    + split; [intros _; apply U|reflexivity].
    + split; reflexivity.
  - cbv zeta in *. unfold state_run in *. rewrite fold_left_app. cbn [fold_left]. set (s := fold_left state_step cs state_default) in *.
    destruct IH as (I1 & I2 & I3 & I4 & I5). unfold is_linking_now, is_discovery, state_address, state_players in *.
    split; [|split; [|split; [|split]]].
    + intros v. rewrite said_last_snoc, unsaid_snoc. specialize (I1 v).
      destruct c; cbn [state_step st_linking says_linking]; intuition congruence.
    + intros v. rewrite said_last_snoc, unsaid_snoc. specialize (I2 v).
      destruct c; cbn [state_step st_discovery says_discovery]; intuition congruence.
    + intros a. rewrite said_last_snoc. specialize (I3 a). destruct c; cbn [state_step st_address says_address].
      1,2: rewrite I3; split; [intros H; right; auto|intros [F|[_ H]]; [discriminate F|exact H]].
      split; [intros H; left; exact H|intros [H|[F _]]; [exact H|discriminate F]].
    + rewrite unsaid_snoc. destruct c; cbn [state_step st_address says_address]; [intuition congruence..|].
      split; [discriminate|intros [_ F]; discriminate F].
    + destruct c; exact I5.
Qed.
Print Assumptions C84_state.

(** What the running program hears is what can be read from the shared state: its
    list of players, in the order of the first datagrams. *)
Theorem C84_players_seen : forall is hs, SServer.inputs_typed is -> SServer.hears is hs ->
  SServer.attentive (fst (MServer.run is)) ->
  players_of hs (state_players (w_state (fst (MServer.run is)))).
Proof. exact players_heard. Qed.
Print Assumptions C84_players_seen.

Example C84_case_players :
  (exists hs, SServer.inputs_typed example_history /\ SServer.hears example_history hs /\
     SServer.attentive (fst (MServer.run example_history))) /\
  map pl_number (state_players (w_state (fst (MServer.run example_history)))) = [2; 4].
Proof.
  destruct C28_case as (T & H & A & E). split; [eauto|]. unfold state_players. rewrite E. reflexivity.
Qed.

(** ** Arrays, names and default replies *)

(** A slice is copied into an array exactly if it is as long, and otherwise panics. *)
Theorem C84_array : forall A n (slice : list A),
  (forall a, clone_into_array n slice = Ok a <-> len slice = n /\ a = slice) /\
  (clone_into_array n slice = Panic <-> len slice <> n).
Proof.
  intros A n slice. unfold clone_into_array. destruct (N.eqb_spec (len slice) n) as [E|E].
  - split; [intros a; split; [intros H; injection H as <-; auto|intros [_ ->]; reflexivity]|split; [discriminate|contradiction]].
  - split; [intros a; split; [discriminate|intros [F _]; contradiction]|split; auto].
Qed.
Print Assumptions C84_array.

(** The name is "TermDJ" in UTF-16, most significant byte first. *)
Theorem C84_name : term_dj_name = [0; 84; 0; 101; 0; 114; 0; 109; 0; 68; 0; 74].
Proof. reflexivity. Qed.
Print Assumptions C84_name.

(** The default lookup reply reads as success, the handle of zeros and a directory of
    which only the times are known. *)
Theorem C84_lookup_default : forall t1 t2 t3, exists fattr,
  reply_message_bytes (lookup_default t1 t2 t3) = std_lookup_result (repeat 0 32) fattr /\ blank_fattr fattr t1 t2 t3.
Proof.
  intros t1 t2 t3. exists (attributes_bytes (attributes_default t1 t2 t3)). split; [reflexivity|].
  set (ws := [2; 0; 0; 0; 0; 0; 0; 0; 0; 0; 0; seconds (Some t1); 0; seconds (Some t2); 0; seconds (Some t3); 0]).
  assert (E : attributes_bytes (attributes_default t1 t2 t3) = flat_map (be 4) ws).
  { unfold attributes_bytes, file_type_bytes, attributes_default.
    cbn [at_type at_mode at_nlink at_uid at_gid at_size at_blocksize at_rdev at_blocks at_fsid at_file_id at_atime at_mtime at_ctime].
    rewrite !time_words. rewrite <- !app_assoc. change ([0; 0; 0; 0]) with (be 4 0). subst ws. cbn [flat_map]. rewrite app_nil_r. reflexivity. }
  rewrite E.
  assert (Sec : forall t, seconds t mod 4294967296 = seconds t).
  { intros [t|]; [|reflexivity]. apply N.mod_small. unfold seconds.
    pose proof (Z.mod_pos_bound t 4294967296 ltac:(lia)). destruct (t <? 0)%Z; lia. }
  assert (K : forall k, (k < 17)%nat -> forall o, o = (4 * k)%nat -> number_at o 4 (flat_map (be 4) ws) = nth k ws 0 mod 4294967296).
  { intros k Hk o ->. apply number_words. exact Hk. }
  unfold blank_fattr. split; [rewrite words_length; reflexivity|].
  split; [rewrite (K 0%nat) by (reflexivity || lia); reflexivity|].
  split. { intros k H. repeat (destruct H as [<-|H]; [match goal with |- number_at ?o _ _ = _ => rewrite (K (o / 4)%nat) by (reflexivity || (cbn; lia)) end; reflexivity|]). destruct H. }
  split; [rewrite (K 11%nat) by (reflexivity || lia); apply Sec|].
  split; [rewrite (K 13%nat) by (reflexivity || lia); apply Sec|].
  rewrite (K 15%nat) by (reflexivity || lia); apply Sec.
Qed.
Print Assumptions C84_lookup_default.

(** The attributes of a file are turned into a reply that reads as them, and panic
    exactly if one of its times is unknown. *)
Theorem C84_getattr_reply : forall m,
  (times_known m -> exists r fattr, getattr_from m = Ok r /\
     reply_message_bytes r = std_getattr_result fattr /\ fattr_says fattr m) /\
  (~ times_known m -> getattr_from m = Panic).
Proof.
  intros m. unfold getattr_from. destruct (attributes_cases m) as [[a [A T]]|[A T]]; rewrite A; cbn [rbind]; split; intros H; try contradiction; [|reflexivity].
  exists (NfsGetAttrReply a), (attributes_bytes a). split; [reflexivity|]. split; [reflexivity|]. apply attributes_fattr. exact A.
Qed.
Print Assumptions C84_getattr_reply.

Example C84_case :
  let a := mkPlayer (lit "XDJ-700") 7 1 false in
  let b := mkPlayer (lit "CDJ") 7 2 true in
  let c := mkPlayer (lit "XDJ-1000") 9 3 false in
  coll_run [CReport a; CReport b; CReport c; CMark 9 true; CReport c; CMark 9 false]
  = [mkPlayer (lit "XDJ-700") 7 2 true; c] /\
  iter_all 2 [a; c] = [c; a] /\
  coll_index [a] 1 = Panic /\
  (exists m, fst (db_codec_decode Checked (message_encode (mkMessage (mkField FU32 [0;0;0;1]) AlbumRequest []))) = Ok (Some m)) /\
  nfs_procedure_decode [0; 0; 0; 4; 9] = Ok ([9], NpLookup) /\
  nfs_procedure_decode [0; 0; 0; 18] = Err /\
  is_linking_now (state_run [SetLinking true; SetDiscovery true; SetLinking false]) = false /\
  clone_into_array 2 [7; 8] = Ok [7; 8] /\ clone_into_array 3 [7; 8] = Panic /\
  len (reply_message_bytes (lookup_default 1%Z 2%Z 3%Z)) = 104 /\
  times_known (mkMeta false true 7 1 0 0 3 4096 0 8 (Some 5%Z) (Some 6%Z) (Some 7%Z)).
Proof. repeat split; try discriminate. eexists. reflexivity. Qed.
