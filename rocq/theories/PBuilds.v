(** Property theorems C91: the build with overflow checks and the one without. *)

From Verif Require Import Base Unicode MPath MNetwork MPackets MDatabase MFixtures MScan MServer MStatus MDb MLib MRpc MRpcServer
  MNfs MSystem MMain SDb SLib STraffic SBuilds LBase LUnicode LDb PDb PDatabase PLib.
From Coq Require Import ZArith String Lia.
Open Scope N_scope.
Open Scope list_scope.

(** ** Computations that differ at most by a panic of the checked build *)

Definition agree {A} (c w : res A) : Prop := c = Panic \/ c = w.

Lemma agree_refl : forall A (x : res A), agree x x.
Proof. right. reflexivity. Qed.

Lemma agree_bind : forall A B (c w : res A) (f g : A -> res B), agree c w ->
  (forall a, agree (f a) (g a)) -> agree (rbind c f) (rbind w g).
Proof.
  intros A B c w f g [->| ->] H; [left; reflexivity|].
  destruct w; cbn [rbind]; [apply H|right; reflexivity|left; reflexivity].
Qed.

Lemma agree_unwrap : forall A (c w : res A), agree c w -> agree (unwrap c) (unwrap w).
Proof. intros A c w [->| ->]; [left|right]; reflexivity. Qed.

Lemma agree_add : forall a b, agree (u32_add Checked a b) (u32_add Wrapping a b).
Proof. intros. unfold u32_add. destruct (_ <? _); [right|left]; reflexivity. Qed.
Lemma agree_sub : forall a b, agree (u32_sub Checked a b) (u32_sub Wrapping a b).
Proof. intros. unfold u32_sub. destruct (_ <=? _); [right|left]; reflexivity. Qed.
Lemma agree_mul : forall a b, agree (u32_mul Checked a b) (u32_mul Wrapping a b).
Proof. intros. unfold u32_mul. destruct (_ <? _); [right|left]; reflexivity. Qed.

Ltac agreeing :=
  repeat match goal with
  | |- agree ?x ?x => apply agree_refl
  | |- agree (rbind _ _) (rbind _ _) => apply agree_bind
  | |- forall a, agree _ _ => intro
  | |- agree (let (_, _) := ?x in _) (let (_, _) := ?x in _) => destruct x
  | |- agree (unwrap _) (unwrap _) => apply agree_unwrap
  | |- agree (u32_add _ _ _) _ => apply agree_add
  | |- agree (u32_sub _ _ _) _ => apply agree_sub
  | |- agree (u32_mul _ _ _) _ => apply agree_mul
  end.

Lemma agree_argument : forall k i, agree (argument_decode Checked k i) (argument_decode Wrapping k i).
Proof. intros k i. destruct k; cbn [argument_decode]; agreeing. Qed.

Lemma agree_loop : forall n types i, agree (arguments_loop Checked n types i) (arguments_loop Wrapping n types i).
Proof.
  induction n; intros types i; cbn [arguments_loop]; [apply agree_refl|].
  destruct types; [apply agree_refl|]. agreeing; [apply agree_argument|apply IHn].
Qed.

Lemma agree_parse : forall b, agree (parse_message Checked b) (parse_message Wrapping b).
Proof.
  intros b. unfold parse_message. agreeing. unfold arguments_decode. agreeing. apply agree_loop.
Qed.

Lemma agree_process : forall h d st c, agree (process Checked h d st c) (process Wrapping h d st c).
Proof.
  intros h d st c. unfold process. destruct (len c =? 5); [apply agree_refl|].
  destruct (agree_parse c) as [-> | ->]; [left; reflexivity|apply agree_refl].
Qed.

Lemma agree_extractor : forall path f, agree (metadata_extractor Checked path f) (metadata_extractor Wrapping path f).
Proof.
  intros path f. unfold metadata_extractor. destruct (fi_v2 f); [|apply agree_refl]. agreeing.
  unfold extract_bpm. destruct (v2_tbpm _) as [[s|]|]; try apply agree_refl.
  destruct (parse_u32 s); agreeing.
Qed.

Lemma agree_extract_all : forall ds, agree (extract_all Checked ds) (extract_all Wrapping ds).
Proof.
  induction ds as [|x ds IH]; cbn [extract_all]; [apply agree_refl|].
  destruct (de_kind x); try exact IH. agreeing; [apply agree_extractor|exact IH].
Qed.

Lemma agree_index_all : forall h l d, agree (db_index_all Checked h d l) (db_index_all Wrapping h d l).
Proof.
  induction l as [|s l IH]; intros d; cbn [db_index_all]; [apply agree_refl|].
  apply agree_bind; [|intro; apply IH]. unfold db_index, track_insert, sequence_increment. agreeing.
  unfold artist_insert, sequence_increment. destruct (find _ _) as [[? ?]|]; agreeing.
Qed.

Lemma agree_app_new : forall h path pl, agree (app_new Checked h path pl) (app_new Wrapping h path pl).
Proof.
  intros h path pl. unfold app_new. apply agree_bind; [|intro; apply agree_index_all].
  destruct pl; apply agree_extract_all.
Qed.

(** If the checked build starts, the other starts with the same index. *)
Theorem C91_same_index : forall h path pl d,
  app_new Checked h path pl = Ok d -> app_new Wrapping h path pl = Ok d.
Proof. intros h path pl d H. destruct (agree_app_new h path pl) as [E|E]; congruence. Qed.
Print Assumptions C91_same_index.

(** ** Requests *)

(** What the build without checks reads is what both read of the corrected
    request. *)
Lemma layout_corrected : forall cs args fs, args_layout Wrapping cs args fs -> bytes_ok args ->
  exists args' b, corrected cs args args' b /\ bytes_ok args' /\ (b = false -> args' = args) /\
    args_layout Checked cs args' fs.
Proof.
  intros cs args fs H. induction H; intros B.
  - exists r, false. repeat split; [constructor|assumption|constructor].
  - inversion B as [|? ? B1 B2]; subst. apply bytes_ok_app in B2. destruct B2 as [B2 B3].
    destruct (IHargs_layout B3) as (a & b & C & O & E & L). exists (t :: d ++ a), b. repeat split.
    + eapply co_number; [left; reflexivity|assumption|assumption].
    + constructor; [assumption|]. apply bytes_ok_app. tauto.
    + intros F. rewrite (E F). reflexivity.
    + constructor; assumption.
  - inversion B as [|? ? B1 B2]; subst. apply bytes_ok_app in B2. destruct B2 as [B2 B3].
    destruct (IHargs_layout B3) as (a & b & C & O & E & L). exists (t :: d ++ a), b. repeat split.
    + eapply co_number; [right; left; reflexivity|assumption|assumption].
    + constructor; [assumption|]. apply bytes_ok_app. tauto.
    + intros F. rewrite (E F). reflexivity.
    + constructor; assumption.
  - inversion B as [|? ? B1 B2]; subst. apply bytes_ok_app in B2. destruct B2 as [B2 B3].
    destruct (IHargs_layout B3) as (a & b & C & O & E & L). exists (t :: d ++ a), b. repeat split.
    + eapply co_number; [right; right; left; reflexivity|assumption|assumption].
    + constructor; [assumption|]. apply bytes_ok_app. tauto.
    + intros F. rewrite (E F). reflexivity.
    + constructor; assumption.
  - inversion B as [|? ? B1 B2]; subst. rewrite !bytes_ok_app in B2. destruct B2 as (B2 & B3 & B4 & B5).
    destruct (IHargs_layout B5) as (a & b & C & O & E & L).
    pose proof (number_bound4 s B2 H) as Hs. cbn [text_bytes] in H1.
    assert (Cases : (1 <= number s <= 2 ^ 31 /\ len d = 2 * (number s - 1)) \/
                    ((number s = 0 \/ 2 ^ 31 < number s) /\ len d = 2 * ((number s + 2 ^ 31) mod 2 ^ 32 - 1) /\
                     1 <= (number s + 2 ^ 31) mod 2 ^ 32 <= 2 ^ 31)).
    { change (2 ^ 31) with 2147483648. change (2 ^ 32) with 4294967296. rewrite H1. clear H1.
      destruct (N.eq_dec (number s) 0) as [Z|Z].
      { right. rewrite Z. vm_compute. intuition congruence. }
      replace ((number s + 4294967295) mod 4294967296) with (number s - 1).
      2:{ replace (number s + 4294967295) with ((number s - 1) + 1 * 4294967296) by lia.
          rewrite N.mod_add by discriminate. symmetry. apply N.mod_small. lia. }
      destruct (N.le_gt_cases (number s) 2147483648).
      - left. split; [lia|]. rewrite N.mod_small; lia.
      - right. assert (E1 : (number s + 2147483648) mod 4294967296 = number s - 2147483648).
        { replace (number s + 2147483648) with ((number s - 2147483648) + 1 * 4294967296) by lia.
          rewrite N.mod_add by discriminate. apply N.mod_small. lia. }
        rewrite E1. split; [lia|]. split; [|lia].
        replace ((number s - 1) * 2) with (2 * (number s - 2147483648 - 1) + 1 * 4294967296) by lia.
        rewrite N.mod_add by discriminate. apply N.mod_small. lia. }
    destruct Cases as [[K1 K2]|[K1 [K2 K3]]].
    + exists (t :: s ++ d ++ z ++ a), b. repeat split.
      * apply co_text; [assumption|assumption|lia|assumption|assumption|lia].
      * constructor; [assumption|]. rewrite !bytes_ok_app. tauto.
      * intros F. rewrite (E F). reflexivity.
      * constructor; try assumption. cbn [text_bytes]. change (2 ^ 31) with 2147483648 in K1. lia.
    + set (v := (number s + 2 ^ 31) mod 2 ^ 32) in *.
      assert (Nv : number (be 4 v) = v).
      { rewrite number_of_be. apply of_be_be_small. change (2 ^ 31) with 2147483648 in K3. change (256 ^ N.of_nat 4) with 4294967296. lia. }
      exists (t :: be 4 v ++ d ++ z ++ a), true. repeat split.
      * eapply co_wrong_text; try eassumption; [apply be_len|]. rewrite Nv. assumption.
      * constructor; [assumption|]. rewrite !bytes_ok_app. pose proof (be_ok 4 v). tauto.
      * discriminate.
      * constructor; try assumption; [apply be_len|]. cbn [text_bytes]. rewrite Nv.
        change (2 ^ 31) with 2147483648 in K3. lia.
  - rewrite !bytes_ok_app in B. destruct B as (B1 & B2 & B3).
    destruct (IHargs_layout B3) as (a & b & C & O & E & L). exists (s ++ d ++ a), b. repeat split.
    + apply co_blob; assumption.
    + rewrite !bytes_ok_app. tauto.
    + intros F. rewrite (E F). reflexivity.
    + constructor; assumption.
  - destruct (IHargs_layout B) as (a & b & C & O & E & L).
    exists a, b. repeat split; try assumption; [constructor; assumption|].
    constructor; [|assumption].
    assert (X : len a = len r).
    { clear - C. induction C; rewrite ?len_cons, ?len_app in *; try lia; try reflexivity. }
    lia.
Qed.

Lemma corrected_layout : forall cs args args' b, corrected cs args args' b -> bytes_ok args -> bytes_ok args' ->
  exists fs, args_layout Wrapping cs args fs /\ args_layout Checked cs args' fs.
Proof.
  intros cs args args' b H. induction H; intros B B'.
  - exists []. split; constructor.
  - inversion B as [|? ? B1 B2]; subst. inversion B' as [|? ? B1' B2']; subst.
    apply bytes_ok_app in B2. apply bytes_ok_app in B2'.
    destruct IHcorrected as (fs & L & L'); [tauto|tauto|].
    cbn [In] in H. destruct H as [X|[X|[X|[]]]]; inversion X; subst.
    + exists (mkField FU8 d :: fs). split; constructor; auto.
    + exists (mkField FU16 d :: fs). split; constructor; auto.
    + exists (mkField FU32 d :: fs). split; constructor; auto.
  - inversion B as [|? ? B1 B2]; subst. inversion B' as [|? ? B1' B2']; subst.
    rewrite !bytes_ok_app in B2, B2'.
    destruct IHcorrected as (fs & L & L'); [tauto|tauto|].
    change (2 ^ 31) with 2147483648 in H4.
    exists (mkField FString d :: fs). split; constructor; auto; cbn [text_bytes]; [|lia].
    replace (number s + 4294967295) with ((number s - 1) + 1 * 4294967296) by lia.
    rewrite N.mod_add by discriminate. rewrite !N.mod_small; lia.
  - inversion B as [|? ? B1 B2]; subst. inversion B' as [|? ? B1' B2']; subst.
    rewrite !bytes_ok_app in B2, B2'.
    destruct IHcorrected as (fs & L & L'); [tauto|tauto|].
    assert (Hs : number s < 4294967296) by (apply number_bound4; tauto).
    change (2 ^ 31) with 2147483648 in *. change (2 ^ 32) with 4294967296 in *.
    assert (K : (number s = 0 /\ number s' = 2147483648) \/
                (2147483648 < number s /\ number s' = number s - 2147483648)).
    { destruct H2 as [Z|Z]; [left; rewrite H3, Z; split; reflexivity|right]. split; [assumption|].
      rewrite H3. replace (number s + 2147483648) with ((number s - 2147483648) + 1 * 4294967296) by lia.
      rewrite N.mod_add by discriminate. apply N.mod_small. lia. }
    exists (mkField FString d :: fs). split; constructor; auto; cbn [text_bytes].
    + destruct K as [[K1 K2]|[K1 K2]].
      * rewrite H4, K2, K1. reflexivity.
      * rewrite H4, K2. replace (number s + 4294967295) with ((number s - 1) + 1 * 4294967296) by lia.
        rewrite N.mod_add by discriminate. rewrite (N.mod_small (number s - 1)) by lia.
        replace ((number s - 1) * 2) with (2 * (number s - 2147483648 - 1) + 1 * 4294967296) by lia.
        rewrite N.mod_add by discriminate. symmetry. apply N.mod_small. lia.
    + lia.
  - rewrite !bytes_ok_app in B, B'.
    destruct IHcorrected as (fs & L & L'); [tauto|tauto|].
    exists (mkField FBinary d :: fs). split; constructor; auto.
  - destruct IHcorrected as (fs & L & L'); [assumption|assumption|].
    assert (X : len r' = len r).
    { clear - H0. induction H0; rewrite ?len_cons, ?len_app in *; try lia; try reflexivity. }
    exists (mkField FBinary [] :: fs). split; constructor; auto. lia.
Qed.


Lemma same_split : forall (a b c d : bytes), len a = len c -> a ++ b = c ++ d -> a = c /\ b = d.
Proof. intros. apply app_inj_len; assumption. Qed.

(** The checked build reads nothing of it. *)
Lemma corrected_unread : forall cs args args', corrected cs args args' true -> forall fs, ~ args_layout Checked cs args fs.
Proof.
  intros cs args args' H. remember true as b eqn:Eb. induction H; intros fs L; try discriminate.
  - specialize (IHcorrected Eb). cbn [In] in H.
    destruct H as [X|[X|[X|[]]]]; inversion X; subst; clear X; inversion L; subst;
      match goal with E : _ ++ _ = _ ++ _ |- _ => apply same_split in E; [destruct E as [-> ->]|lia] end;
      eapply IHcorrected; eassumption.
  - specialize (IHcorrected Eb). inversion L; subst. cbn [text_bytes] in *.
    match goal with E : _ ++ _ = s ++ _ |- _ => apply same_split in E; [destruct E as [-> E]|lia];
      apply same_split in E; [destruct E as [-> E]|lia]; apply same_split in E; [destruct E as [-> ->]|lia] end.
    eapply IHcorrected; eassumption.
  - inversion L; subst. cbn [text_bytes] in *.
    match goal with E : _ ++ _ = s ++ _ |- _ => apply same_split in E; [destruct E as [-> E]|lia] end.
    change (2 ^ 31) with 2147483648 in *. lia.
  - specialize (IHcorrected Eb). inversion L; subst.
    + match goal with E : _ ++ _ = s ++ _ |- _ => apply same_split in E; [destruct E as [-> E]|lia];
        apply same_split in E; [destruct E as [-> ->]|lia] end.
      eapply IHcorrected; eassumption.
    + rewrite !len_app in *. lia.
  - specialize (IHcorrected Eb). inversion L; subst.
    + rewrite !len_app in *. lia.
    + eapply IHcorrected; eassumption.
Qed.

Lemma known_tag : forall tag, In tag known_tags -> exists k, tag = tag_of k.
Proof.
  intros tag H. cbn [In known_tags] in H.
  repeat (destruct H as [<-|H]); [exists FU8|exists FU16|exists FU32|exists FBinary|exists FString|destruct H]; reflexivity.
Qed.

Lemma request_args_ok : forall tag tx code n types args j1 j2 j3 j5,
  bytes_ok (request_bytes tag tx code n types args j1 j2 j3 j5) -> bytes_ok args.
Proof. intros. unfold request_bytes in H. rewrite !bytes_ok_app in H. tauto. Qed.

(** The builds read a chunk differently exactly if a text in it announces 0 or
    more than 2^31 units: the checked build then panics, and the other reads the
    request that both read with the size right. *)
Theorem C91_read_differently : forall b, bytes_ok b ->
  (parse_message Checked b <> parse_message Wrapping b <-> exists right, oversized b right) /\
  forall right, oversized b right ->
    parse_message Checked b = Panic /\
    parse_message Wrapping b = parse_message Checked right /\
    parse_message Wrapping b = parse_message Wrapping right /\
    exists m, parse_message Checked right = Ok ([], m).
Proof.
  intros b B.
  assert (Second : forall right, oversized b right ->
    parse_message Checked b = Panic /\
    parse_message Wrapping b = parse_message Checked right /\
    parse_message Wrapping b = parse_message Wrapping right /\
    exists m, parse_message Checked right = Ok ([], m)).
  { intros right (tg & tx & code & n & types & args & args' & j1 & j2 & j3 & j5 & Eb & Er & T & L1 & L2 & L3 & L4 & Ln & Br & C).
    assert (Ba : bytes_ok args) by (rewrite Eb in B; eapply request_args_ok; exact B).
    assert (Ba' : bytes_ok args') by (rewrite Er in Br; eapply request_args_ok; exact Br).
    destruct (corrected_layout _ _ _ _ C Ba Ba') as (fs & W & K).
    destruct (known_tag _ T) as (k & ->).
    assert (PW : parse_message Wrapping b = Ok ([], mkMessage (mkField k tx) (request_type_new (number code)) fs)).
    { apply C06_success_iff; [assumption|]. split; [reflexivity|].
      exists k, tx, code, n, types, args, j1, j2, j3, j5, fs. tauto. }
    assert (PC : parse_message Checked right = Ok ([], mkMessage (mkField k tx) (request_type_new (number code)) fs)).
    { apply C06_success_iff; [assumption|]. split; [reflexivity|].
      exists k, tx, code, n, types, args', j1, j2, j3, j5, fs. tauto. }
    split; [|split; [congruence|split; [|eauto]]].
    - apply C06_panic_iff; [assumption|]. right.
      exists (tag_of k), tx, code, n, types, args, j1, j2, j3, j5. repeat (split; [assumption|]).
      intros [_ [fs' F]]. eapply corrected_unread; eassumption.
    - destruct (agree_parse right) as [E|E]; congruence. }
  split; [|exact Second]. split.
  - intros D. destruct (agree_parse b) as [E|E]; [|contradiction].
    destruct (parse_message Wrapping b) as [[rest m]| |] eqn:W; [| |congruence].
    + apply C06_success_iff in W; [|assumption].
      destruct W as (-> & k & tx & code & n & types & args & j1 & j2 & j3 & j5 & fs & Eb & L1 & L2 & L3 & L4 & Ln & Lay & Em).
      assert (Ba : bytes_ok args) by (rewrite Eb in B; eapply request_args_ok; exact B).
      destruct (layout_corrected _ _ _ Lay Ba) as (args' & f & C & Ba' & Ef & K).
      destruct f.
      * exists (request_bytes (tag_of k) tx code n types args' j1 j2 j3 j5).
        exists (tag_of k), tx, code, n, types, args, args', j1, j2, j3, j5.
        split; [assumption|]. split; [reflexivity|].
        split; [destruct k; cbn; tauto|]. repeat (split; [assumption|]). split; [|assumption].
        rewrite Eb in B. unfold request_bytes in *. rewrite !bytes_ok_app in *. tauto.
      * exfalso. rewrite (Ef eq_refl) in K.
        assert (PC : parse_message Checked b = Ok ([], m)).
        { apply C06_success_iff; [assumption|]. split; [reflexivity|].
          exists k, tx, code, n, types, args, j1, j2, j3, j5, fs. tauto. }
        congruence.
    + apply (C06_error_iff Wrapping) in W. apply (C06_error_iff Checked) in W. congruence.
  - intros [right O] E. destruct (Second right O) as (P1 & P2 & _ & m & P3). congruence.
Qed.
Print Assumptions C91_read_differently.

(** ** Conversations *)

(** Whatever a client sends, the checked build gives the answers of the other, up
    to the chunk at which it panics. *)
Theorem C91_conversation : forall h d chunks,
  (exists more, serve Wrapping h d None chunks = serve Checked h d None chunks ++ more) /\
  (Forall bytes_ok chunks -> (forall c right, In c chunks -> ~ oversized c right) ->
   serve Wrapping h d None chunks = serve Checked h d None chunks).
Proof.
  intros h d chunks. generalize (@None stateful) as st.
  induction chunks as [|c r IH]; intros st; cbn [serve].
  - split; [exists []; reflexivity|reflexivity].
  - split.
    + destruct (agree_process h d st c) as [->| ->]; [eexists; reflexivity|].
      destruct (process Wrapping h d st c) as [[a st']| |]; try (exists []; reflexivity).
      destruct (proj1 (IH st')) as [more ->]. exists more. reflexivity.
    + intros B N. inversion B as [|? ? Bc Br]; subst.
      assert (E : process Checked h d st c = process Wrapping h d st c).
      { unfold process. destruct (len c =? 5); [reflexivity|].
        assert (P : parse_message Checked c = parse_message Wrapping c).
        { destruct (agree_parse c) as [P|P]; [|assumption].
          destruct (parse_message Wrapping c) as [[r' m]| |] eqn:W; [| |assumption];
            exfalso; destruct (proj1 (proj1 (C91_read_differently c Bc))) as [right O];
            try congruence; apply (N c right); try (left; reflexivity); assumption. }
        rewrite P. reflexivity. }
      rewrite E. destruct (process Wrapping h d st c) as [[a st']| |]; try reflexivity.
      f_equal. apply IH; [assumption|]. intros c' right I. apply N. right. assumption.
Qed.
Print Assumptions C91_conversation.

(** ** The process *)

(** The same but for the database handlers at ports that are not [good]. *)
Definition alike (good : N -> Prop) (c w : system) : Prop :=
  sy_world c = sy_world w /\ sy_status c = sy_status w /\ sy_mapper c = sy_mapper w /\
  sy_joined c = sy_joined w /\ sy_query c = sy_query w /\ sy_udp c = sy_udp w /\
  forall q, good q -> sy_db c q = sy_db w q.

Lemma process_same : forall h d st c, bytes_ok c -> (forall right, ~ oversized c right) ->
  process Checked h d st c = process Wrapping h d st c.
Proof.
  intros h d st c Bc N. unfold process. destruct (len c =? 5); [reflexivity|].
  assert (P : parse_message Checked c = parse_message Wrapping c).
  { destruct (agree_parse c) as [P|P]; [|assumption].
    destruct (parse_message Wrapping c) as [[r' m]| |] eqn:W; [| |assumption];
      exfalso; destruct (proj1 (proj1 (C91_read_differently c Bc))) as [right O];
      try congruence; apply (N right); assumption. }
  rewrite P. reflexivity.
Qed.

Lemma alike_step : forall good e h d i c w (keep : sys_output -> bool), alike good c w ->
  (forall q a, keep (OutDb (Answer q a)) = true -> good q) ->
  (forall q chunk, i = SysDb (Chunk q chunk) -> good q -> bytes_ok chunk /\ forall right, ~ oversized chunk right) ->
  alike good (fst (sys_step e Checked h d i c)) (fst (sys_step e Wrapping h d i w)) /\
  filter keep (snd (sys_step e Checked h d i c)) = filter keep (snd (sys_step e Wrapping h d i w)).
Proof.
  intros good e h d i c w keep (E1 & E2 & E3 & E4 & E5 & E6 & E7) K S.
  unfold sys_step. rewrite <- E1. destruct (w_running (sy_world c)).
  2:{ split; [|reflexivity]. repeat split; assumption. }
  destruct i as [i|x|i|port i|waiting|cn chunk port|cn|x].
  - destruct (step (sy_world c) i) as [w' os]. split; [|reflexivity]. repeat split; assumption.
  - rewrite <- E2. destruct (sy_status c) eqn:Es; [|split; [|reflexivity]; repeat split; cbn; first [congruence|assumption]].
    destruct (status_turn x); (split; [|reflexivity]); repeat split; cbn; first [congruence|assumption].
  - rewrite <- E3. destruct (sy_mapper c) eqn:Es; [|split; [|reflexivity]; repeat split; cbn; first [congruence|assumption]].
    destruct (pm_turn i) as [running outs]. rewrite <- E6. split; [|reflexivity].
    repeat split; cbn; assumption.
  - rewrite <- E6. destruct (udp_turn e (sy_world c) port i (sy_udp c port)) as [v outs].
    split; [|reflexivity]. repeat split; cbn; first [congruence|assumption].
  - rewrite <- E4, <- E3. destruct (sy_joined c) eqn:Ej; [|split; [|reflexivity]; repeat split; cbn; first [congruence|assumption]].
    destruct (sy_mapper c) eqn:Es; (split; [|reflexivity]); repeat split; cbn; first [congruence|assumption].
  - rewrite <- E5. destruct (sy_query c cn) eqn:Eq; [|split; [|reflexivity]; repeat split; cbn; first [congruence|assumption]].
    destruct port as [port|].
    + cbn [db_step]. split; [|reflexivity]. repeat split; cbn; try congruence.
      intros q G. unfold set_port. destruct (q =? port); [reflexivity|apply E7; assumption].
    + split; [|reflexivity]. repeat split; cbn; try congruence. exact E7.
  - split; [|reflexivity]. repeat split; cbn; try congruence. exact E7.
  - destruct x as [port chunk|port|port chunk|port].
    + split; [|reflexivity]. repeat split; assumption.
    + cbn [db_step].
      assert (A : forall sc sw, (sc = sy_db c \/ exists y, sc = set_port (sy_db c) port y) ->
                (sw = sy_db w \/ exists y, sw = set_port (sy_db w) port y) ->
                (good port -> sc port = sw port) -> alike good (with_db c sc) (with_db w sw)).
      { intros sc sw Hc Hw P. repeat split; cbn; try assumption. intros q G.
        destruct (N.eq_dec q port) as [->|Ne]; [apply P; assumption|].
        destruct Hc as [->|[y ->]], Hw as [->|[y' ->]]; unfold set_port; rewrite ?(proj2 (N.eqb_neq q port) Ne);
          apply E7; assumption. }
      destruct (sy_db c port) eqn:Ec, (sy_db w port) eqn:Ew; (split; [|reflexivity]); apply A;
        (try (left; reflexivity)); (try (right; eexists; reflexivity));
        intros G; specialize (E7 port G); rewrite ?Ec, ?Ew in *; unfold set_port; rewrite ?N.eqb_refl; congruence.
    + cbn [db_step].
      assert (A : forall sc sw, (sc = sy_db c \/ exists y, sc = set_port (sy_db c) port y) ->
                (sw = sy_db w \/ exists y, sw = set_port (sy_db w) port y) ->
                (good port -> sc port = sw port) -> alike good (with_db c sc) (with_db w sw)).
      { intros sc sw Hc Hw P. repeat split; cbn; try assumption. intros q G.
        destruct (N.eq_dec q port) as [->|Ne]; [apply P; assumption|].
        destruct Hc as [->|[y ->]], Hw as [->|[y' ->]]; unfold set_port; rewrite ?(proj2 (N.eqb_neq q port) Ne);
          apply E7; assumption. }
      assert (Same : good port -> sy_db c port = sy_db w port /\
                forall st, process Checked h d st chunk = process Wrapping h d st chunk).
      { intros G. split; [apply E7; assumption|]. intros st. destruct (S port chunk eq_refl G). apply process_same; assumption. }
      assert (R : forall x y : db_ports * list db_output,
        (fst x = sy_db c \/ exists z, fst x = set_port (sy_db c) port z) ->
        (fst y = sy_db w \/ exists z, fst y = set_port (sy_db w) port z) ->
        (snd x = [] \/ exists a, snd x = [Answer port a]) ->
        (snd y = [] \/ exists a, snd y = [Answer port a]) ->
        (good port -> fst x port = fst y port /\ snd x = snd y) ->
        alike good (fst (let (db, outs) := x in (with_db c db, map OutDb outs)))
                   (fst (let (db, outs) := y in (with_db w db, map OutDb outs))) /\
        filter keep (snd (let (db, outs) := x in (with_db c db, map OutDb outs))) =
        filter keep (snd (let (db, outs) := y in (with_db w db, map OutDb outs)))).
      { intros [sc oc] [sw ow] H1 H2 H3 H4 H5. cbn [fst snd] in *. split; [apply A; try assumption; intros G; apply H5; assumption|].
        destruct H3 as [->|[a ->]], H4 as [->|[a' ->]]; cbn [map filter]; try reflexivity.
        - destruct (keep (OutDb (Answer port a'))) eqn:Ek; [|reflexivity]. destruct (H5 (K _ _ Ek)); discriminate.
        - destruct (keep (OutDb (Answer port a))) eqn:Ek; [|reflexivity]. destruct (H5 (K _ _ Ek)); discriminate.
        - destruct (keep (OutDb (Answer port a))) eqn:Ek.
          + destruct (H5 (K _ _ Ek)) as [_ X]. inversion X; subst. rewrite Ek. reflexivity.
          + destruct (keep (OutDb (Answer port a'))) eqn:Ek'; [|reflexivity].
            destruct (H5 (K _ _ Ek')) as [_ X]. inversion X; subst. congruence. }
      apply R.
      * destruct (sy_db c port) as [| |st|]; try (left; reflexivity).
        destruct (process Checked h d st chunk) as [[? ?]| |]; right; eexists; reflexivity.
      * destruct (sy_db w port) as [| |st|]; try (left; reflexivity).
        destruct (process Wrapping h d st chunk) as [[? ?]| |]; right; eexists; reflexivity.
      * destruct (sy_db c port) as [| |st|]; try (left; reflexivity).
        destruct (process Checked h d st chunk) as [[? ?]| |]; try (left; reflexivity). right; eexists; reflexivity.
      * destruct (sy_db w port) as [| |st|]; try (left; reflexivity).
        destruct (process Wrapping h d st chunk) as [[? ?]| |]; try (left; reflexivity). right; eexists; reflexivity.
      * intros G. destruct (Same G) as [Sp Pr]. rewrite Sp.
        destruct (sy_db w port) as [| |st|] eqn:Ew; cbn [fst snd]; try (rewrite Sp, Ew; split; reflexivity).
        rewrite Pr. destruct (process Wrapping h d st chunk) as [[? ?]| |]; cbn [fst snd]; unfold set_port;
          rewrite N.eqb_refl; split; reflexivity.
    + cbn [db_step].
      assert (A : forall sc sw, (sc = sy_db c \/ exists y, sc = set_port (sy_db c) port y) ->
                (sw = sy_db w \/ exists y, sw = set_port (sy_db w) port y) ->
                (good port -> sc port = sw port) -> alike good (with_db c sc) (with_db w sw)).
      { intros sc sw Hc Hw P. repeat split; cbn; try assumption. intros q G.
        destruct (N.eq_dec q port) as [->|Ne]; [apply P; assumption|].
        destruct Hc as [->|[y ->]], Hw as [->|[y' ->]]; unfold set_port; rewrite ?(proj2 (N.eqb_neq q port) Ne);
          apply E7; assumption. }
      destruct (sy_db c port) eqn:Ec, (sy_db w port) eqn:Ew; (split; [|reflexivity]); apply A;
        (try (left; reflexivity)); (try (right; eexists; reflexivity));
        intros G; specialize (E7 port G); rewrite ?Ec, ?Ew in *; unfold set_port; rewrite ?N.eqb_refl; congruence.
Qed.

Lemma alike_run : forall good e h d (keep : sys_output -> bool) is c w, alike good c w ->
  (forall q a, keep (OutDb (Answer q a)) = true -> good q) ->
  (forall q chunk, In (SysDb (Chunk q chunk)) is -> good q -> bytes_ok chunk /\ forall right, ~ oversized chunk right) ->
  map (filter keep) (snd (sys_run e Checked h d is c)) = map (filter keep) (snd (sys_run e Wrapping h d is w)).
Proof.
  induction is as [|i is IH]; intros c w A K S; cbn [sys_run]; [reflexivity|].
  destruct (alike_step good e h d i c w keep A K) as [B F].
  { intros q chunk ->. apply S. left. reflexivity. }
  destruct (sys_step e Checked h d i c) as [c' oc], (sys_step e Wrapping h d i w) as [w' ow]. cbn [fst snd] in *.
  specialize (IH c' w' B K (fun q chunk I => S q chunk (or_intror I))).
  destruct (sys_run e Checked h d is c') as [c'' osc], (sys_run e Wrapping h d is w') as [w'' osw]. cbn [fst snd map] in *.
  congruence.
Qed.

(** In the whole process: if the checked build starts, then nobody but the client
    of a database connection who sends such a text can tell the builds apart:
    every other correspondent is sent the same messages at the same moments, and
    the same announcements go out. *)
Theorem C91_process : forall e h pl ka st mp db is, app_new Checked h music_path pl <> Panic ->
  let checked := program e Checked h pl ka st mp db is in
  let wrapping := program e Wrapping h pl ka st mp db is in
  (forall x, well_sized is x -> map (filter (sent_to x)) checked = map (filter (sent_to x)) wrapping) /\
  map (filter announces) checked = map (filter announces) wrapping.
Proof.
  intros e h pl ka st mp db is H. cbv zeta. unfold program.
  destruct (agree_app_new h music_path pl) as [E|E]; [congruence|]. rewrite <- E.
  destruct (app_new Checked h music_path pl) as [d| |]; [|split; reflexivity|split; reflexivity].
  split.
  - intros x W. apply (alike_run (fun q => x = DbPeer q)).
    + repeat split.
    + intros q a F. destruct x; cbn in F; try discriminate. apply N.eqb_eq in F. subst. reflexivity.
    + intros q chunk I ->. split; [apply (W q chunk [] eq_refl I)|]. intros right. apply (W q chunk right eq_refl I).
  - apply (alike_run (fun _ => False)).
    + repeat split.
    + intros q a F. discriminate.
    + intros q chunk I [].
Qed.
Print Assumptions C91_process.

(** Without such texts the two are the same. *)
Theorem C91_same_process : forall e h pl ka st mp db is, app_new Checked h music_path pl <> Panic ->
  (forall x, well_sized is x) ->
  program e Checked h pl ka st mp db is = program e Wrapping h pl ka st mp db is.
Proof.
  intros e h pl ka st mp db is H W. unfold program.
  destruct (agree_app_new h music_path pl) as [E|E]; [congruence|]. rewrite <- E.
  destruct (app_new Checked h music_path pl) as [d| |]; try reflexivity.
  assert (M : forall l : list (list sys_output), map (filter (fun _ => true)) l = l).
  { intros l. rewrite <- (map_id l) at 2. apply map_ext. intros o. induction o as [|y o IH]; cbn; congruence. }
  rewrite <- (M (snd (sys_run e Checked h d is _))), <- (M (snd (sys_run e Wrapping h d is _))).
  apply (alike_run (fun _ => True)).
  - repeat split.
  - intros; exact I.
  - intros q chunk I _. split; [apply (W (DbPeer q) q chunk [] eq_refl I)|].
    intros right. apply (W (DbPeer q) q chunk right eq_refl I).
Qed.
Print Assumptions C91_same_process.

(** A request with a text of one unit and its terminator that announces 2^31 + 2:
    the checked build panics, the other answers as to a text that announces 2. *)
Definition text_request (size : bytes) : bytes :=
  request_bytes 0x11 [0; 0; 0; 5] [0x10; 0x02] 1 ([2] ++ repeat 0 11)
    ([0x26] ++ size ++ [0; 65] ++ [0; 0] ++ []) 0x11 0x10 0x0f [0x14; 0; 0; 0; 12].

Example C91_case :
  bytes_ok (text_request [128; 0; 0; 2]) /\
  oversized (text_request [128; 0; 0; 2]) (text_request [0; 0; 0; 2]) /\
  serve Checked reverse_order db_empty None [[1; 2; 3; 4; 5]; text_request [128; 0; 0; 2]] = [[1; 2; 3; 4; 5]] /\
  serve Wrapping reverse_order db_empty None [text_request [128; 0; 0; 2]] =
  serve Checked reverse_order db_empty None [text_request [0; 0; 0; 2]] /\
  List.length (serve Checked reverse_order db_empty None [text_request [0; 0; 0; 2]]) = 1%nat.
Proof.
  split; [repeat constructor|]. split; [|repeat split; reflexivity].
  unfold oversized, text_request.
  exists 0x11, [0; 0; 0; 5], [0x10; 0x02], 1, ([2] ++ repeat 0 11),
    ([0x26] ++ [128; 0; 0; 2] ++ [0; 65] ++ [0; 0] ++ []), ([0x26] ++ [0; 0; 0; 2] ++ [0; 65] ++ [0; 0] ++ []),
    0x11, 0x10, 0x0f, [0x14; 0; 0; 0; 12].
  split; [reflexivity|]. split; [reflexivity|]. split; [cbn; tauto|].
  repeat (split; [reflexivity || discriminate|]). split; [repeat constructor|].
  change (firstn (N.to_nat 1) ([2] ++ repeat 0 11)) with [2].
  apply (co_wrong_text [] 0x26 [128; 0; 0; 2] [0; 0; 0; 2] [0; 65] [0; 0] [] [] false);
    try reflexivity; [right; reflexivity|constructor].
Qed.

(** The process with two clients of the database, one of whom sends it: the other
    is well sized and gets the same answer from both builds. *)
Example C91_case_process :
  let is := [SysJoin [Some 1]; SysQuery 1 [1] (Some 5000); SysQuery 1 [1] (Some 5001);
             SysDb (Connect 5000); SysDb (Connect 5001); SysDb (Chunk 5000 (text_request [128; 0; 0; 2]));
             SysDb (Chunk 5001 [1; 2; 3; 4; 5]); SysDb (Chunk 5000 [1; 2; 3; 4; 5])] in
  app_new Checked reverse_order music_path (Place NBad) <> Panic /\
  well_sized is (DbPeer 5001) /\
  map (@List.length _) (program Little Checked reverse_order (Place NBad) true true true true is) = [1; 1; 1; 0; 0; 0; 1; 0]%nat /\
  map (@List.length _) (program Little Wrapping reverse_order (Place NBad) true true true true is) = [1; 1; 1; 0; 0; 1; 1; 1]%nat.
Proof.
  cbv zeta. split; [discriminate|]. split; [|split; reflexivity].
  intros port c right X H. inversion X; subst port. cbn [In] in H.
  repeat (destruct H as [H|H]; [try discriminate; inversion H; subst c|]); [|destruct H].
  split; [repeat constructor|].
  intros (tg & tx & code & n & types & args & args' & j1 & j2 & j3 & j5 & E & _).
  unfold request_bytes in E. discriminate.
Qed.
