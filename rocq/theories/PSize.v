(** Property theorems C93: how large and how many the answers are. *)

From Verif Require Import Base Unicode MPackets MKeepalive MNetwork MServer MStatus MDb MDatabase MLib
  MRpc MRpcServer MNfs MSystem SUdp STraffic SSize LBase LSystem PDatabase.
From Verif Require Import Base.
From Coq Require Import ZArith String Lia Arith.
Open Scope N_scope.
Open Scope list_scope.

(** ** What parsers need *)

Definition needs {A} (n : N) (p : parser A) : Prop := forall i r x, p i = Ok (r, x) -> n + len r <= len i.

Lemma needs_take : forall n, needs n (take n).
Proof. intros n i r x H. apply take_ok in H. destruct H as [-> <-]. rewrite len_app. lia. Qed.

Lemma needs_bind : forall A B n m (p : parser A) (k : A -> parser B),
  needs n p -> (forall a, needs m (k a)) -> needs (n + m) (fun i => do (i, a) <- p i; k a i).
Proof.
  intros A B n m p k Hp Hk i r x H. apply rbind_ok in H. destruct H as [[j a] [E H]].
  apply Hp in E. apply (Hk a) in H. lia.
Qed.

Lemma needs_ok : forall A (a : A), needs 0 (fun i => Ok (i, a)).
Proof. intros A a i r x H. inversion H; subst. lia. Qed.

Lemma needs_fail : forall A n, needs n (fun i => @Err (bytes * A)).
Proof. intros A n i r x H. discriminate. Qed.

Lemma needs_weaken : forall A n m (p : parser A), needs n p -> m <= n -> needs m p.
Proof. intros A n m p H L i r x E. apply H in E. lia. Qed.

Lemma needs_uint : forall n, needs n (be_uint n).
Proof.
  intros n. apply needs_weaken with (n + 0); [|lia]. unfold be_uint. apply needs_bind; [apply needs_take|].
  intros d. apply needs_ok.
Qed.

Lemma needs_tag : forall t, needs (len t) (tag t).
Proof. intros t i r x H. apply tag_ok in H. subst. rewrite len_app. lia. Qed.

Lemma needs_count : forall A n (f : parser A) k, needs n f -> needs (n * N.of_nat k) (count f k).
Proof.
  intros A n f k Hf. induction k as [|k IH]; intros i r x H; cbn [count] in H.
  - inversion H; subst. lia.
  - apply rbind_ok in H. destruct H as [[j a] [E H]]. apply rbind_ok in H. destruct H as [[l b] [F H]].
    apply Hf in E. apply IH in F. inversion H; subst. lia.
Qed.

Ltac needs_step :=
  first
    [ apply needs_ok | apply needs_fail
    | apply (needs_uint 1) | apply (needs_uint 2) | apply (needs_uint 4) | apply (needs_uint 8) | apply needs_take ].

(** Any call takes sixty bytes: nine words before the credentials' seven less one. *)
Lemma needs_handle : needs 32 handle_decode.
Proof. unfold handle_decode. apply (needs_count _ 1 be_u8 32). apply (needs_uint 1). Qed.

Lemma needs_program : needs 8 program_decode.
Proof.
  intros i r x H. unfold program_decode in H.
  apply rbind_ok in H. destruct H as [[j a] [E H]]. apply rbind_ok in H. destruct H as [[l b] [F H]].
  apply (needs_uint 4) in E. apply (needs_uint 4) in F.
  assert (r = l) as -> by (destruct a as [|a]; [discriminate|]; repeat (destruct a as [a|a|]; try discriminate; try (inversion H; reflexivity))).
  lia.
Qed.

Lemma needs_auth : needs 8 auth_decode.
Proof.
  intros i r x H. unfold auth_decode in H.
  apply rbind_ok in H. destruct H as [[j a] [E H]]. apply rbind_ok in H. destruct H as [[l b] [F H]].
  apply (needs_uint 4) in E. apply (needs_uint 4) in F.
  assert (r = l) as -> by (destruct a as [|a]; [inversion H; reflexivity|]; repeat (destruct a as [a|a|]; try discriminate; try (inversion H; reflexivity))).
  lia.
Qed.

Lemma needs_credentials : needs 28 credentials_decode.
Proof.
  apply needs_weaken with (4 + (4 + (4 + (4 + (4 + (4 + (4 + 0))))))); [|lia]. unfold credentials_decode.
  repeat (apply needs_bind; [apply (needs_uint 4)|intros ?]). apply needs_ok.
Qed.

(** The bytes of the arguments of a procedure. *)
Definition arguments_size (p : rpc_procedure) : N :=
  match p with
  | PortmapGetport _ => 16
  | NfsGetAttr _ => 32
  | NfsLookup _ => 36
  | NfsRead _ => 44
  | MountMnt _ => 6
  | _ => 0
  end.

(** A decoded call: header of 60 bytes, then the arguments. *)
Lemma needs_call : forall i r c, call_decode i = Ok (r, c) -> 52 + arguments_size (ca_procedure c) + len r <= len i.
Proof.
  intros i r c H. unfold call_decode in H.
  apply rbind_ok in H. destruct H as [[i1 v] [E1 H]]. apply (needs_uint 4) in E1.
  apply rbind_ok in H. destruct H as [[i2 [pr pv]] [E2 H]]. apply needs_program in E2.
  apply rbind_ok in H. destruct H as [[i3 proc] [E3 H]]. apply (needs_uint 4) in E3.
  apply rbind_ok in H. destruct H as [[i4 cr] [E4 H]]. apply needs_credentials in E4.
  apply rbind_ok in H. destruct H as [[i5 ve] [E5 H]]. apply needs_auth in E5.
  apply rbind_ok in H. destruct H as [[i6 p] [E6 H]]. inversion H; subst. cbn [ca_procedure].
  enough (arguments_size p + len r <= len i5) by lia. clear - E6.
  assert (Word : forall l i j (x : list N), count le_u16 l i = Ok (j, x) -> len j <= len i).
  { intros l i j x W. apply (needs_count _ 2) in W; [lia|]. intros a b y Y. unfold le_u16 in Y.
    apply rbind_ok in Y. destruct Y as [[? ?] [Y Z]]. apply needs_take in Y. inversion Z; subst. exact Y. }
  unfold procedure_decode in E6. destruct pr.
  - destruct proc as [|[[q|q|]|[q|q|]|]]; try discriminate; try (inversion E6; subst; cbn [arguments_size]; lia).
    all: try (destruct q as [q|q|]); try discriminate; try (inversion E6; subst; cbn [arguments_size]; lia).
    apply rbind_ok in E6. destruct E6 as [[j g] [E6 F]]. inversion F; subst. cbn [arguments_size].
    unfold getport_decode in E6. apply rbind_ok in E6. destruct E6 as [[j1 [a b]] [A E6]]. apply needs_program in A.
    apply rbind_ok in E6. destruct E6 as [[j2 t] [B E6]].
    assert (Bn : 4 + len j2 <= len j1).
    { unfold protocol_decode in B. apply rbind_ok in B. destruct B as [[j3 w] [B1 B]]. apply (needs_uint 4) in B1.
      assert (j2 = j3) as -> by (destruct w as [|w]; [discriminate|]; repeat (destruct w as [w|w|]; try discriminate; try (inversion B; reflexivity))).
      exact B1. }
    apply rbind_ok in E6. destruct E6 as [[j3 w] [C E6]]. apply (needs_uint 4) in C. inversion E6; subst. lia.
  - destruct proc as [|[[q|q|]|[q|q|]|]]; try discriminate; try (destruct q as [q|q|]; try discriminate).
    + apply rbind_ok in E6. destruct E6 as [[j d] [E6 F]]. inversion F; subst. cbn [arguments_size].
      unfold read_decode in E6. apply rbind_ok in E6. destruct E6 as [[j1 h] [A E6]]. apply needs_handle in A.
      apply rbind_ok in E6. destruct E6 as [[j2 w] [B E6]]. apply (needs_uint 4) in B.
      apply rbind_ok in E6. destruct E6 as [[j3 w2] [C E6]]. apply (needs_uint 4) in C.
      apply rbind_ok in E6. destruct E6 as [[j4 w3] [D E6]]. apply (needs_uint 4) in D. inversion E6; subst. lia.
    + apply rbind_ok in E6. destruct E6 as [[j d] [E6 F]]. inversion F; subst. cbn [arguments_size].
      unfold lookup_decode in E6. apply rbind_ok in E6. destruct E6 as [[j1 h] [A E6]]. apply needs_handle in A.
      apply rbind_ok in E6. destruct E6 as [[j2 w] [B E6]]. apply (needs_uint 4) in B.
      apply rbind_ok in E6. destruct E6 as [[j3 w2] [C E6]]. apply Word in C.
      destruct (utf16_decode w2); inversion E6; subst. lia.
    + apply rbind_ok in E6. destruct E6 as [[j d] [E6 F]]. inversion F; subst. cbn [arguments_size].
      apply needs_handle in E6. exact E6.
  - destruct proc as [|[[q|q|]|[q|q|]|]]; try discriminate; try (destruct q as [q|q|]; try discriminate).
    + inversion E6; subst. cbn [arguments_size]. lia.
    + apply rbind_ok in E6. destruct E6 as [[j d] [E6 F]]. inversion F; subst. cbn [arguments_size].
      unfold mnt_decode in E6. apply rbind_ok in E6. destruct E6 as [[j2 w] [B E6]]. apply (needs_uint 4) in B.
      apply rbind_ok in E6. destruct E6 as [[j3 w2] [C E6]]. apply Word in C.
      apply rbind_ok in E6. destruct E6 as [[j4 w3] [D E6]]. apply (needs_uint 2) in D.
      destruct (utf16_decode w2); inversion E6; subst. lia.
Qed.

Lemma needs_datagram : forall d m, codec_decode d = Ok (Some m) ->
  exists c, rpc_body m = Call c /\ 60 + arguments_size (ca_procedure c) <= len d.
Proof.
  intros d m H. unfold codec_decode in H. destruct d as [|b d]; [discriminate|].
  unfold rmap, rpc_try_from, rpc_decode, message_type_decode in H.
  apply rbind_ok in H. destruct H as [m' [H E]]. inversion E; subst m'. clear E.
  destruct (be_u32 (b :: d)) as [[i1 xid]| |] eqn:E1; try discriminate. apply (needs_uint 4) in E1. cbn [rbind] in H.
  destruct (be_u32 i1) as [[i2 t]| |] eqn:E2; try discriminate. apply (needs_uint 4) in E2. cbn [rbind] in H.
  destruct t as [|[t|t|]]; try discriminate.
  destruct (call_decode i2) as [[i3 c]| |] eqn:E3; try discriminate. apply needs_call in E3. cbn [rbind] in H.
  inversion H; subst. exists c. split; [reflexivity|]. lia.
Qed.

(** Where the number of bytes to read stands. *)
Lemma skip_skip : forall A a b (l : list A), skipn a (skipn b l) = skipn (b + a) l.
Proof.
  intros A a b. induction b as [|b IH]; intros l; [reflexivity|]. destruct l as [|x l]; [rewrite !skipn_nil; reflexivity|].
  cbn [skipn Nat.add]. apply IH.
Qed.

Lemma uint_at : forall n o d r x, be_uint (N.of_nat n) (skipn o d) = Ok (r, x) ->
  r = skipn (o + n) d /\ x = number_at o n d.
Proof.
  intros n o d r x H. unfold be_uint, take in H. destruct (len (skipn o d) <? N.of_nat n); [discriminate|]. cbn [rbind] in H.
  inversion H. rewrite Nat2N.id, skip_skip. split; reflexivity.
Qed.

Lemma octets_at : forall k o d r x, count be_u8 k (skipn o d) = Ok (r, x) -> r = skipn (o + k) d.
Proof.
  induction k as [|k IH]; intros o d r x H; cbn [count] in H; [inversion H; rewrite Nat.add_0_r; reflexivity|].
  apply rbind_ok in H. destruct H as [[j a] [E H]]. apply (uint_at 1) in E. destruct E as [-> _].
  apply rbind_ok in H. destruct H as [[l b] [F H]]. apply IH in F. inversion H; subst. f_equal. lia.
Qed.

Lemma read_says : forall d m c r, codec_decode d = Ok (Some m) -> rpc_body m = Call c -> ca_procedure c = NfsRead r ->
  says_read d /\ rd_count r = number_at 96 4 d.
Proof.
  intros d m c r H B R. unfold codec_decode in H. destruct d as [|b d]; [discriminate|]. set (dd := b :: d) in *. clearbody dd.
  unfold rmap, rpc_try_from, rpc_decode, message_type_decode in H.
  apply rbind_ok in H. destruct H as [m' [H E]]. inversion E; subst m'. clear E.
  destruct (be_u32 dd) as [[i1 xid]| |] eqn:E1; try discriminate. cbn [rbind] in H.
  apply (uint_at 4 0) in E1. destruct E1 as [-> _]. cbn [Nat.add] in H.
  destruct (be_u32 (skipn 4 dd)) as [[i2 t]| |] eqn:E2; try discriminate. cbn [rbind] in H.
  apply (uint_at 4 4) in E2. destruct E2 as [-> _]. cbn [Nat.add] in H.
  destruct t as [|[t|t|]]; try discriminate.
  destruct (call_decode (skipn 8 dd)) as [[i3 c']| |] eqn:E3; try discriminate. cbn [rbind] in H.
  inversion H; subst. cbn [rpc_body] in B. inversion B; subst c'. clear H B.
  unfold call_decode in E3.
  apply rbind_ok in E3. destruct E3 as [[j1 v] [F1 E3]]. apply (uint_at 4) in F1. destruct F1 as [-> _].
  apply rbind_ok in E3. destruct E3 as [[j2 [pr pv]] [F2 E3]].
  apply rbind_ok in E3. destruct E3 as [[j3 proc] [F3 E3]].
  apply rbind_ok in E3. destruct E3 as [[j4 cr] [F4 E3]].
  apply rbind_ok in E3. destruct E3 as [[j5 ve] [F5 E3]].
  apply rbind_ok in E3. destruct E3 as [[j6 q] [F6 E3]]. inversion E3; subst. cbn [ca_procedure] in R. subst q.
  cbn [Nat.add] in F2.
  assert (P : j2 = skipn 20 dd /\ (pr = Nfs -> number_at 12 4 dd = 100003)).
  { unfold program_decode in F2. apply rbind_ok in F2. destruct F2 as [[k1 w1] [G1 F2]]. apply (uint_at 4) in G1. destruct G1 as [-> ->].
    apply rbind_ok in F2. destruct F2 as [[k2 w2] [G2 F2]]. apply (uint_at 4) in G2. destruct G2 as [-> ->]. cbn [Nat.add] in F2.
    set (w := number_at 12 4 dd) in *. clearbody w. destruct w as [|w]; [discriminate|].
    repeat (destruct w as [w|w|]; try discriminate; try (inversion F2; subst; split; [reflexivity|intros; try discriminate; reflexivity])). }
  destruct P as [-> P]. apply (uint_at 4) in F3. destruct F3 as [-> ->]. cbn [Nat.add] in *.
  assert (C : j4 = skipn 52 dd).
  { unfold credentials_decode in F4.
    apply rbind_ok in F4. destruct F4 as [[k1 w1] [G1 F4]]. apply (uint_at 4) in G1. destruct G1 as [-> _].
    apply rbind_ok in F4. destruct F4 as [[k2 w2] [G2 F4]]. apply (uint_at 4) in G2. destruct G2 as [-> _].
    apply rbind_ok in F4. destruct F4 as [[k3 w3] [G3 F4]]. apply (uint_at 4) in G3. destruct G3 as [-> _].
    apply rbind_ok in F4. destruct F4 as [[k4 w4] [G4 F4]]. apply (uint_at 4) in G4. destruct G4 as [-> _].
    apply rbind_ok in F4. destruct F4 as [[k5 w5] [G5 F4]]. apply (uint_at 4) in G5. destruct G5 as [-> _].
    apply rbind_ok in F4. destruct F4 as [[k6 w6] [G6 F4]]. apply (uint_at 4) in G6. destruct G6 as [-> _].
    apply rbind_ok in F4. destruct F4 as [[k7 w7] [G7 F4]]. apply (uint_at 4) in G7. destruct G7 as [-> _].
    inversion F4. reflexivity. }
  subst j4.
  assert (V : j5 = skipn 60 dd).
  { unfold auth_decode in F5.
    apply rbind_ok in F5. destruct F5 as [[k1 w1] [G1 F5]]. apply (uint_at 4) in G1. destruct G1 as [-> _].
    apply rbind_ok in F5. destruct F5 as [[k2 w2] [G2 F5]]. apply (uint_at 4) in G2. destruct G2 as [-> _].
    destruct w1 as [|[w1|w1|]]; try discriminate; inversion F5; reflexivity. }
  subst j5. unfold says_read. set (proc := number_at 20 4 dd) in *. clearbody proc.
  unfold procedure_decode in F6. destruct pr.
  - exfalso. destruct proc as [|[[z|z|]|[z|z|]|]]; try discriminate; try (destruct z as [z|z|]; try discriminate);
      apply rbind_ok in F6; destruct F6 as [[? ?] [_ F6]]; discriminate.
  - destruct proc as [|[[z|z|]|[z|z|]|]]; try discriminate; try (destruct z as [z|z|]; try discriminate);
      apply rbind_ok in F6; destruct F6 as [[? ?] [F6 F7]]; try discriminate. inversion F7; subst.
    split; [split; [apply P; reflexivity|reflexivity]|].
    unfold read_decode in F6. apply rbind_ok in F6. destruct F6 as [[k1 w1] [G1 F6]]. apply octets_at in G1. subst k1. cbn [Nat.add] in F6.
    apply rbind_ok in F6. destruct F6 as [[k2 w2] [G2 F6]]. apply (uint_at 4) in G2. destruct G2 as [-> _]. cbn [Nat.add] in F6.
    apply rbind_ok in F6. destruct F6 as [[k3 w3] [G3 F6]]. apply (uint_at 4) in G3. destruct G3 as [_ ->].
    apply rbind_ok in F6. destruct F6 as [[k4 w4] [_ F6]]. inversion F6. reflexivity.
  - exfalso. destruct proc as [|[[z|z|]|[z|z|]|]]; try discriminate; try (destruct z as [z|z|]; try discriminate);
      apply rbind_ok in F6; destruct F6 as [[? ?] [_ F6]]; discriminate.
Qed.

(** ** Sizes of the answers *)

(** Rounded up to a multiple of four. *)
Definition words (n : N) : N := 4 * ((n + 3) / 4).

Lemma fill_words : forall n, n + len (fill_bytes n) = words n.
Proof.
  intros n. unfold fill_bytes, words. pose proof (N.div_mod n 4 ltac:(lia)) as D. pose proof (N.mod_lt n 4 ltac:(lia)) as L.
  set (q := n / 4) in *. set (m := n mod 4) in *.
  destruct (N.eqb_spec m 0) as [E|E].
  - change (len []) with 0. replace ((n + 3) / 4) with q; [lia|]. apply N.div_unique with (r := 3); lia.
  - rewrite len_repeat, N2Nat.id. replace ((n + 3) / 4) with (q + 1); [lia|]. apply N.div_unique with (r := m - 1); lia.
Qed.

Lemma encoded_size : forall reply xid,
  len (codec_encode (reply_to reply xid)) = words (24 + len (reply_message_bytes reply)).
Proof.
  intros reply xid. unfold codec_encode. rewrite len_app, fill_words. f_equal.
  unfold rpc_bytes, reply_to, message_type_bytes, reply_bytes, auth_bytes. cbn [rpc_body rpc_xid re_verifier re_data].
  rewrite !len_app, !be_len. lia.
Qed.

Lemma attributes_size : forall m a, attributes_from m = Ok a -> len (attributes_bytes a) = 68.
Proof.
  intros m a H. unfold attributes_from in H.
  apply rbind_ok in H. destruct H as [? [_ H]]. apply rbind_ok in H. destruct H as [? [_ H]].
  apply rbind_ok in H. destruct H as [? [_ H]]. inversion H; subst.
  assert (T : forall t, len (time_bytes t) = 8).
  { intros t. unfold time_bytes. destruct (0 <=? t)%Z; [|reflexivity].
    rewrite len_app, len_skipn, !be_len. reflexivity. }
  unfold attributes_bytes, file_type_bytes. cbn [at_mode]. rewrite !len_app, !be_len, !T. reflexivity.
Qed.

Lemma display_size : forall x, 1 <= len (u8_display x) <= 3.
Proof.
  intros x. unfold u8_display. rewrite !len_app. destruct (100 <=? x), (10 <=? x); cbn [len List.length]; unfold len; cbn [List.length]; lia.
Qed.

Lemma u8_ascii : forall x, Forall (fun c => c < 128) (u8_display x).
Proof.
  intros x. unfold u8_display.
  assert (D : forall y, 48 + y mod 10 < 128) by (intros y; pose proof (N.mod_lt y 10 ltac:(lia)); lia).
  apply Forall_app. split; [destruct (100 <=? x); repeat constructor; apply D|].
  apply Forall_app. split; [destruct (10 <=? x); repeat constructor; apply D|]. repeat constructor; apply D.
Qed.

Lemma be4 : forall x, exists a b c d, be 4 x = [a; b; c; d].
Proof. intros x. cbn [be]. eexists _, _, _, _. cbn [app]. reflexivity. Qed.

Lemma ipv4_ascii : forall ip, Forall (fun c => c < 128) (ipv4_display ip) /\ 7 <= len (ipv4_display ip) <= 15.
Proof.
  intros ip. unfold ipv4_display. destruct (be4 ip) as (a & b & c & d & ->).
  assert (Dot : Forall (fun c => c < 128) (lit ".")) by (repeat constructor).
  split.
  - rewrite !Forall_app. repeat split; auto using u8_ascii.
  - rewrite !len_app. change (len (lit ".")) with 1.
    pose proof (display_size a). pose proof (display_size b). pose proof (display_size c). pose proof (display_size d). lia.
Qed.

Lemma utf8_ascii : forall s, Forall (fun c => c < 128) s -> utf8_encode s = s.
Proof.
  induction s as [|c s IH]; intros H; [reflexivity|]. pose proof (Forall_inv H) as Hc. apply Forall_inv_tail in H.
  unfold utf8_encode in *. cbn [flat_map]. rewrite (IH H). unfold utf8_char.
  destruct (N.ltb_spec c 128); [reflexivity|lia].
Qed.

(** ** C93 *)

Lemma status_header : forall data p, status_packet_try_from data = Ok p ->
  34 <= len data /\ (sp_kind p = KLinkQuery -> 48 <= len data).
Proof.
  intros data p H. unfold status_packet_try_from in H. apply rbind_ok in H. destruct H as [[r q] [H E]]. inversion E; subst q. clear E.
  unfold status_packet_decode in H.
  apply rbind_ok in H. destruct H as [[i1 u] [E1 H]]. apply needs_tag in E1. change (len UDP_MAGIC) with 10 in E1.
  apply rbind_ok in H. destruct H as [[i2 k] [E2 H]].
  assert (N2 : 1 + len i2 <= len i1).
  { unfold status_kind_decode in E2. apply rbind_ok in E2. destruct E2 as [[j x] [A B]]. apply needs_take in A. inversion B; subst. exact A. }
  apply rbind_ok in H. destruct H as [[i3 m] [E3 H]].
  assert (N3 : 20 + len i3 <= len i2).
  { unfold model_decode in E3. apply rbind_ok in E3. destruct E3 as [[j x] [A B]]. apply needs_take in A.
    destruct (utf8_decode x); inversion B; subst. exact A. }
  apply rbind_ok in H. destruct H as [[i4 x4] [E4 H]]. apply (needs_uint 1) in E4.
  apply rbind_ok in H. destruct H as [[i5 x5] [E5 H]]. apply (needs_uint 1) in E5.
  apply rbind_ok in H. destruct H as [[i6 x6] [E6 H]]. apply (needs_uint 1) in E6.
  apply rbind_ok in H. destruct H as [[i7 c] [E7 H]]. inversion H; subst. cbn [sp_kind].
  split; [lia|]. intros ->. cbn [status_decode_content] in E7. unfold link_query_decode in E7.
  apply rbind_ok in E7. destruct E7 as [[j1 y1] [F1 E7]]. apply (needs_uint 2) in F1.
  apply rbind_ok in E7. destruct E7 as [[j2 y2] [F2 E7]]. apply needs_take in F2.
  apply rbind_ok in E7. destruct E7 as [[j3 y3] [F3 E7]]. apply needs_take in F3.
  apply rbind_ok in E7. destruct E7 as [[j4 y4] [F4 E7]]. apply (needs_uint 1) in F4.
  apply rbind_ok in E7. destruct E7 as [[j5 y5] [F5 E7]]. apply needs_take in F5.
  apply rbind_ok in E7. destruct E7 as [[j6 y6] [F6 E7]].
  unfold slot_decode in F6. apply rbind_ok in F6. destruct F6 as [[j7 y7] [F7 F6]]. apply (needs_uint 1) in F7.
  inversion F6; subst. lia.
Qed.

(** The status service answers a datagram with at most one, to its sender, of 296
    bytes for a greeting of at least 34 or of 192 bytes for a media query of at
    least 48. *)
Theorem C93_status_answer : forall ip port data outs, status_turn (StatusDatagram ip port data) = Ok outs ->
  outs = [] \/
  exists r, outs = [(ip, 50002, r)] /\ (len r = 296 /\ 34 <= len data \/ len r = 192 /\ 48 <= len data).
Proof.
  intros ip port data outs H. unfold status_turn in H. cbn [status_recv_from] in H.
  destruct (status_packet_try_from (firstn 1024 data)) as [p| |] eqn:E; cbn [rbind] in H; [|left; congruence|discriminate].
  apply status_header in E. rewrite len_firstn in E. destruct E as [L Q].
  unfold process_packet in H. destruct (sp_kind p); try (left; congruence); right.
  - cbn [status_packet_encode rbind] in H. unfold status_packet_new in H. cbv beta in H.
    set (b := status_packet_encode _) in H.
    assert (B : exists r, b = Ok r /\ len r = 192).
    { eexists. split; [reflexivity|]. rewrite !len_app, !be_len. reflexivity. }
    destruct B as [r [-> R]]. cbn [rbind] in H. inversion H; subst. exists r. split; [reflexivity|]. right. split; [exact R|].
    specialize (Q eq_refl). lia.
  - set (b := status_packet_encode _) in H.
    assert (B : exists r, b = Ok r /\ len r = 296) by (eexists; split; reflexivity).
    destruct B as [r [-> R]]. cbn [rbind] in H. inversion H; subst. exists r. split; [reflexivity|]. left. split; [exact R|]. lia.
Qed.
Print Assumptions C93_status_answer.

(** The port mapper answers with 28 bytes at most once, and only a datagram of at
    least 60. *)
Theorem C93_mapper_answer : forall i,
  (forall to d, ~ In (PmReply to d) (snd (pm_turn i))) \/
  exists started d, snd (pm_turn i) = started ++ [PmReply (pi_from i) d] /\
    (forall to d, ~ In (PmReply to d) started) /\ len d = 28 /\ 60 <= len (pi_datagram i).
Proof.
  intros i. unfold pm_turn. destruct (codec_decode (pi_datagram i)) as [[m|]| |] eqn:E; cbn [snd]; try (left; intros to d []).
  destruct (needs_datagram _ _ E) as (c & B & L). destruct (pi_port i) as [port|]; [|left; intros to d []].
  rewrite B. set (started := match ca_procedure c with PortmapGetport _ => _ | _ => _ end).
  assert (S : forall to d, ~ In (PmReply to d) started).
  { intros to d. subst started. destruct (ca_procedure c) as [| | |g| | | | | | | | |]; try (intros []).
    destruct (gp_program g); intros [F|[]]; discriminate. }
  destruct (send_to (pi_send i) _); cbn [snd]; [right|left; exact S].
  eexists started, _. split; [reflexivity|]. split; [exact S|]. split; [|lia].
  rewrite encoded_size. cbn [reply_message_bytes]. rewrite be_len. reflexivity.
Qed.
Print Assumptions C93_mapper_answer.

(** The mount service answers with at most one datagram, to the sender: 60 bytes for
    a mount call of at least 66, or 72 to 88 bytes for an export call of at least
    60. *)
Theorem C93_mount_answer : forall i,
  snd (ms_turn i) = [] \/
  exists d, snd (ms_turn i) = [(mi_from i, d)] /\
    (len d = 60 /\ 66 <= len (mi_datagram i) \/ 72 <= len d <= 88 /\ 60 <= len (mi_datagram i)).
Proof.
  intros i. unfold ms_turn. destruct (codec_decode (mi_datagram i)) as [[m|]| |] eqn:E; try (left; reflexivity).
  destruct (needs_datagram _ _ E) as (c & B & L). unfold rpc_procedure_router. rewrite B. unfold on_event.
  destruct (ca_procedure c); cbn [arguments_size] in L; try (left; reflexivity).
  - cbn [mount_mnt_callback]. destruct (send_to (mi_send i) _); [right|left; reflexivity]. eexists. split; [reflexivity|].
    left. split; [|lia]. rewrite encoded_size. reflexivity.
  - unfold mount_export_callback. destruct (mi_poisoned i); [left; reflexivity|].
    destruct (mi_address i) as [a|]; [|left; reflexivity].
    destruct (send_to (mi_send i) _); [right|left; reflexivity]. eexists. split; [reflexivity|]. right. split; [|lia].
    rewrite encoded_size. cbn [reply_message_bytes].
    destruct (ipv4_ascii (pn_ip a)) as [A1 A2]. destruct (ipv4_ascii (pn_mask a)) as [B1 B2].
    set (g := ipv4_display (pn_ip a) ++ lit "/" ++ ipv4_display (pn_mask a)).
    assert (G : utf8_encode g = g /\ 15 <= len g <= 31).
    { split; [apply utf8_ascii; subst g; rewrite !Forall_app; repeat split; try assumption; repeat constructor|].
      subst g. rewrite !len_app. change (len (lit "/")) with 1. lia. }
    destruct G as [G1 G2]. unfold export_reply_bytes, export_entry_bytes. cbn [ex_groups ex_directory flat_map]. rewrite G1.
    rewrite !len_app, !be_len. change (len (flat_map (le 2) (utf16_encode (lit "/")))) with 2.
    unfold words. set (n := len g) in *. cbn [len List.length]. unfold len. cbn [List.length].
    match goal with |- _ <= 4 * (?x / 4) <= _ => assert (X : 72 <= x <= 88 + 3 - 0) by lia;
      assert (72 / 4 <= x / 4) by (apply N.div_le_mono; lia); assert (x / 4 <= 91 / 4) by (apply N.div_le_mono; lia) end.
    change (72 / 4) with 18 in *. change (91 / 4) with 22 in *. lia.
Qed.
Print Assumptions C93_mount_answer.

Definition file_answer_size (d : bytes) (size : N) : Prop :=
  size = 96 /\ 92 <= len d \/ size = 128 /\ 96 <= len d \/
  says_read d /\ size = words (100 + number_at 96 4 d) /\ 104 <= len d.

Lemma answer_size : forall e o d m c n n' reply,
  codec_decode d = Ok (Some m) -> rpc_body m = Call c -> call_procedure e o (ca_procedure c) n = (n', Ok reply) ->
  file_answer_size d (len (codec_encode (reply_to reply (rpc_xid m)))).
Proof.
  intros e o d m c n n' reply E B H. unfold file_answer_size. rewrite encoded_size.
  destruct (needs_datagram _ _ E) as (c' & B' & L). rewrite B in B'. inversion B'; subst c'. clear B'.
  destruct (ca_procedure c) as [| | |g| | | |hd|l|r|ps| |] eqn:Pc; cbn [call_procedure arguments_size] in *; try (inversion H; fail).
  - inversion H as [[H1 H2]]. unfold getattr in H2. destruct (hm_get _ _); [|discriminate].
    apply rbind_ok in H2. destruct H2 as [mt [_ H2]]. apply rbind_ok in H2. destruct H2 as [a [A H2]]. inversion H2; subst.
    apply attributes_size in A. cbn [reply_message_bytes]. unfold nfs_ok_bytes. rewrite len_app, be_len, A. left. split; [reflexivity|lia].
  - unfold lookup in H. destruct (os_stat o _) as [mt|]; [|inversion H].
    destruct (get_fhandle o _ (m_ino mt)) as [w| |] eqn:G; try (inversion H; fail). inversion H as [[H1 H2]].
    apply rbind_ok in H2. destruct H2 as [a [A H2]]. inversion H2; subst. apply attributes_size in A.
    unfold get_fhandle in G. apply rbind_ok in G. destruct G as [f [_ G]]. inversion G; subst. cbn [fw_encoded reply_message_bytes].
    unfold nfs_ok_bytes, encode_file_handler. rewrite !len_app, be_len, A, len_repeat.
    assert (Le : len (le 8 (m_ino mt)) = 8) by (unfold len; rewrite le_length; reflexivity). rewrite Le. right. left. split; [reflexivity|lia].
  - inversion H as [[H1 H2]]. unfold nfs_do_read in H2. destruct (hm_get _ _); [|discriminate].
    apply rbind_ok in H2. destruct H2 as [dt [D H2]]. apply rbind_ok in H2. destruct H2 as [mt [_ H2]].
    apply rbind_ok in H2. destruct H2 as [a [A H2]]. inversion H2; subst. apply attributes_size in A.
    unfold read_file_range in D. apply rbind_ok in D. destruct D as [ct [_ D]]. inversion D; subst. clear D.
    cbn [reply_message_bytes]. unfold nfs_ok_bytes. right. right. destruct (read_says _ _ _ _ E B Pc) as [Sr Cr]. split; [exact Sr|]. split; [|lia].
    f_equal. rewrite !len_app, !be_len, A, <- Cr.
    assert (Z : forall x : N, len (firstn (N.to_nat (N.min (rd_count r) x)) (skipn (N.to_nat (rd_offset r)) ct)) +
      len (repeat 0 (N.to_nat (rd_count r) - List.length (firstn (N.to_nat (N.min (rd_count r) x)) (skipn (N.to_nat (rd_offset r)) ct)))) = rd_count r).
    { intros x. rewrite len_repeat. set (g := firstn _ _).
      assert (List.length g <= N.to_nat (rd_count r))%nat by (subst g; rewrite firstn_length; lia). unfold len. lia. }
    rewrite Z. lia.
Qed.

(** The file service, with no reply waiting to be sent again, answers a datagram
    with at most one, to its sender: 96 bytes of attributes for at least 92, 128 for
    a lookup of at least 96; for a read of at least 104 as many as it asks for,
    whatever the file contains. *)
Theorem C93_file_answer : forall e i s, sv_unsent s = None ->
  snd (nfs_turn e i s) = [] \/
  exists b, snd (nfs_turn e i s) = [(ni_from i, b)] /\
    (len b = 96 /\ 92 <= len (ni_datagram i) \/ len b = 128 /\ 96 <= len (ni_datagram i) \/
     says_read (ni_datagram i) /\ len b = 4 * ((100 + number_at 96 4 (ni_datagram i) + 3) / 4) /\
     104 <= len (ni_datagram i)).
Proof.
  intros e i s U. unfold nfs_turn. destruct (sv_nfs s) as [n|]; [|left; reflexivity].
  destruct (codec_decode (ni_datagram i)) as [[m|]| |] eqn:E; try (left; reflexivity).
  destruct (rpc_body m) as [c|r] eqn:B; [|left; reflexivity].
  destruct (call_procedure e (ni_os i) (ca_procedure c) n) as [n' [reply| |]] eqn:C; try (left; reflexivity).
  pose proof (answer_size _ _ _ _ _ _ _ _ E B C) as S. rewrite U. unfold framed_send.
  destruct (send_to (ni_send i) _); [right|left; reflexivity]. cbn [snd app]. eexists. split; [reflexivity|]. exact S.
Qed.
Print Assumptions C93_file_answer.

(** ** Over a whole run *)

Lemma total_app : forall A (f : A -> N) a b, total f (a ++ b) = total f a + total f b.
Proof.
  intros A f a b. unfold total. rewrite map_app. induction (map f a) as [|x l IH]; cbn [app fold_right]; [lia|]. rewrite IH. lia.
Qed.

Lemma to_app : forall x a b, bytes_to x (a ++ b) = bytes_to x a + bytes_to x b.
Proof. intros x a b. unfold bytes_to. rewrite filter_app, total_app. reflexivity. Qed.

Lemma from_cons : forall x i is, bytes_from x (i :: is) = bytes_from x [i] + bytes_from x is.
Proof. intros x i is. unfold bytes_from. change (i :: is) with ([i] ++ is). rewrite filter_app, total_app. reflexivity. Qed.

Lemma to_none : forall x l, (forall o, In o l -> sent_to x o = false) -> bytes_to x l = 0.
Proof.
  intros x l H. unfold bytes_to. induction l as [|o l IH]; [reflexivity|]. cbn [filter].
  rewrite (H o (or_introl eq_refl)). apply IH. intros y I. apply H. right. assumption.
Qed.

(** The bytes of a reply that may still be sent. *)
Definition pending (v : udp_service) (a : peer) : N :=
  match v with
  | NfsUdp s => match sv_unsent s with
                | Some (b, x) => if (b =? a) && (len x <=? 65507) then len x else 0
                | None => 0
                end
  | _ => 0
  end.

(** [k] to [l]: a bound for every answer of the file service to this datagram that
    can be sent, and for those of the mount service. *)
Definition within (k l : N) (d : bytes) : Prop :=
  (forall n, file_answer_size d n -> n <= 65507 -> k * n <= l * len d) /\ k * 60 <= l * 66 /\ k * 88 <= l * 60.

Lemma udp_turn_bytes : forall e w q j v a k l, within k l (ni_datagram j) ->
  k * (bytes_to (UdpPeer q a) (snd (udp_turn e w q j v)) + pending (fst (udp_turn e w q j v)) a)
  <= l * (if ni_from j =? a then len (ni_datagram j) else 0) + k * pending v a.
Proof.
  intros e w q j v a k l (W1 & W2 & W3). unfold udp_turn. destruct v as [|v|[|]]; [cbn; lia| | |cbn; lia].
  - unfold nfs_turn. destruct (sv_nfs v) as [n|]; [|cbn [fst snd map bytes_to total filter fold_right]; unfold bytes_to; cbn; lia].
    destruct (codec_decode (ni_datagram j)) as [[m|]| |] eqn:E; try (unfold bytes_to; cbn; lia).
    destruct (rpc_body m) as [c|r] eqn:B; [|unfold bytes_to; cbn; lia].
    destruct (call_procedure e (ni_os j) (ca_procedure c) n) as [n' [reply| |]] eqn:C; try (unfold bytes_to; cbn; lia).
    pose proof (W1 _ (answer_size _ _ _ _ _ _ _ _ E B C)) as S.
    set (b := codec_encode (reply_to reply (rpc_xid m))) in *. clearbody b. clear - S.
    assert (P : forall ok x, send_to ok x = true -> len x <= 65507).
    { intros ok x H. unfold send_to in H. apply andb_true_iff in H. apply N.leb_le. apply H. }
    assert (P1 := P (ni_send j) b). 
    unfold framed_send. destruct (sv_unsent v) as [[a' b']|] eqn:U; cbn [snd].
    + assert (P2 := P (ni_resend j) b'). destruct (send_to (ni_resend j) b') eqn:X; [destruct (send_to (ni_send j) b) eqn:Y|];
        cbn [fst snd map app pending sv_unsent]; rewrite ?U; unfold bytes_to, total; cbn [filter sent_to fst snd];
        rewrite ?N.eqb_refl; cbn [andb].
      * specialize (P1 eq_refl). specialize (P2 eq_refl). specialize (S P1). apply N.leb_le in P2. rewrite P2, andb_true_r.
        destruct (a' =? a), (ni_from j =? a); cbn [map fold_right on_the_wire]; lia.
      * specialize (P2 eq_refl). apply N.leb_le in P2. rewrite P2, andb_true_r.
        destruct (N.leb_spec (len b) 65507) as [Z|Z]; [specialize (S Z)|]; rewrite ?andb_true_r, ?andb_false_r;
          destruct (a' =? a), (ni_from j =? a); cbn [map fold_right on_the_wire]; lia.
      * cbn [map fold_right]. lia.
    + destruct (send_to (ni_send j) b) eqn:Y; cbn [fst snd map app pending sv_unsent]; rewrite ?U; unfold bytes_to, total;
        cbn [filter sent_to fst snd]; rewrite ?N.eqb_refl; cbn [andb].
      * specialize (P1 eq_refl). specialize (S P1). destruct (ni_from j =? a); cbn [map fold_right on_the_wire]; lia.
      * destruct (N.leb_spec (len b) 65507) as [Z|Z]; [specialize (S Z)|]; rewrite ?andb_true_r, ?andb_false_r;
          destruct (ni_from j =? a); cbn [map fold_right]; lia.
  - match goal with |- context [ms_turn ?x] => pose proof (C93_mount_answer x) as M; destruct (ms_turn x) as [run outs] end.
    cbn [fst snd mi_from mi_datagram pending] in *. destruct M as [->|(b & -> & M)]; cbn [map]; [unfold bytes_to; cbn; lia|].
    unfold bytes_to, total. cbn [filter sent_to fst snd]. rewrite N.eqb_refl. cbn [andb].
    destruct (ni_from j =? a); cbn [map fold_right on_the_wire]; [|lia].
    destruct M as [[M1 M2]|[M1 M2]]; nia.
Qed.

Lemma started_pending : forall outs u port a, pending (start_services u outs port) a <= pending (u port) a.
Proof.
  induction outs as [|o outs IH]; intros u port a; [cbn; lia|].
  unfold start_services in *. cbn [fold_left]. etransitivity; [apply IH|].
  destruct o as [[|] q|]; unfold at_key; try lia; destruct (port =? q); cbn; lia.
Qed.

Definition pending_at (x : correspondent) (s : system) : N :=
  match x with UdpPeer port a => pending (sy_udp s port) a | _ => 0 end.

(** The ratio that holds for the answers to one input. *)
Definition ratio (x : correspondent) (k l : N) (i : sys_input) : Prop :=
  match x with
  | StatusPeer _ => k = 34 /\ l = 296
  | MapperPeer _ => k = 60 /\ l = 28
  | UdpPeer q _ => match i with SysUdp q' j => q' = q -> within k l (ni_datagram j) | _ => True end
  | _ => False
  end.

Lemma step_bytes : forall e p h d x k l i s, ratio x k l i ->
  k * (bytes_to x (snd (sys_step e p h d i s)) + pending_at x (fst (sys_step e p h d i s)))
  <= l * bytes_from x [i] + k * pending_at x s.
Proof.
  intros e p h d x k l i s Rt. destruct (w_running (sy_world s)) eqn:R.
  2:{ unfold sys_step. rewrite R. unfold bytes_to at 1. cbn. lia. }
  pose proof (step_shape e p h d i s R) as S.
  assert (Nil : bytes_to x [] = 0) by reflexivity.
  destruct i as [j|y|j|q j|ws|c chunk [port|]|c|y].
  - rewrite S. cbn [fst snd]. rewrite to_none; [destruct x; cbn; lia|].
    intros o I. apply in_map_iff in I. destruct I as (? & <- & _). destruct x; reflexivity.
  - destruct (sy_status s) eqn:E.
    2:{ rewrite S. cbn [fst snd]. rewrite Nil. lia. }
    destruct (status_turn y) as [outs| |] eqn:T; rewrite S; cbn [fst snd]; [|rewrite Nil; destruct x; cbn; lia|rewrite Nil; destruct x; cbn; lia].
    destruct y as [ip pt b|].
    2:{ cbn in T. inversion T; subst. cbn [map]. rewrite Nil. lia. }
    apply C93_status_answer in T. destruct T as [->|(r & -> & T)]; [cbn [map]; rewrite Nil; lia|].
    unfold bytes_to, bytes_from, total. cbn [map filter].
    destruct x as [a|a|q a|c|q]; cbn [sent_to received_from ratio pending_at] in *; cbn [map fold_right] in *; try lia.
    destruct Rt as [-> ->]. destruct (ip =? a); cbn [map fold_right on_the_wire brought]; lia.
  - destruct (sy_mapper s) eqn:E.
    2:{ rewrite S. cbn [fst snd]. rewrite Nil. lia. }
    rewrite S. cbn [fst snd].
    assert (O : pending_at x (with_mapper s (fst (pm_turn j)) (start_services (sy_udp s) (snd (pm_turn j)))) <= pending_at x s).
    { destruct x; try (cbn; lia). apply started_pending. }
    enough (C : k * bytes_to x (map OutMapper (snd (pm_turn j))) <= l * bytes_from x [SysMapper j]) by nia.
    destruct (C93_mapper_answer j) as [Z|(st & b & Eq & Z & L1 & L2)].
    + rewrite to_none; [lia|]. intros o I. apply in_map_iff in I. destruct I as (y & <- & I).
      destruct x; try reflexivity. destruct y; [reflexivity|]. destruct (Z _ _ I).
    + rewrite Eq, map_app, to_app, to_none.
      2:{ intros o I. apply in_map_iff in I. destruct I as (y & <- & I). destruct x; try reflexivity. destruct y; [reflexivity|]. destruct (Z _ _ I). }
      unfold bytes_to, bytes_from, total. cbn [map filter].
      destruct x as [a|a|q a|c|q]; cbn [sent_to received_from ratio] in *; cbn [map fold_right] in *; try lia.
      destruct Rt as [-> ->]. destruct (pi_from j =? a); cbn [map fold_right on_the_wire brought]; lia.
  - destruct S as [S1 S2]. rewrite S1, S2.
    assert (Other : (forall a, x <> UdpPeer q a) -> bytes_to x (snd (udp_turn e (sy_world s) q j (sy_udp s q))) = 0).
    { intros N. apply to_none. intros o I. apply udp_turn_outs in I. destruct I as (to & bb & ->).
      destruct x as [a|a|port a|c|port]; try reflexivity. cbn [sent_to]. destruct (N.eqb_spec q port) as [->|]; [destruct (N a eq_refl)|reflexivity]. }
    destruct x as [a|a|port a|c|port]; try (rewrite Other by discriminate; cbn; lia).
    cbn [ratio pending_at with_udp sy_udp] in *. unfold at_key. destruct (N.eqb_spec port q) as [->|N].
    + pose proof (udp_turn_bytes e (sy_world s) q j (sy_udp s q) a k l (Rt eq_refl)) as H.
      unfold bytes_from, total. cbn [filter received_from]. rewrite N.eqb_refl. cbn [andb].
      destruct (ni_from j =? a); cbn [map fold_right brought] in *; lia.
    + rewrite Other by congruence. lia.
  - rewrite S. destruct (sy_joined s); [destruct (sy_mapper s)|]; cbn [fst snd]; try (rewrite Nil; destruct x; cbn; lia).
    rewrite to_none; [destruct x; cbn; lia|]. intros o I. apply in_map_iff in I. destruct I as (? & <- & _). destruct x; reflexivity.
  - rewrite S. destruct (sy_query s c); cbn [fst snd]; [|rewrite Nil; lia].
    rewrite to_none; [destruct x; cbn; lia|]. intros o [<-|[]]. destruct x; try reflexivity. destruct Rt.
  - rewrite S. destruct (sy_query s c); cbn [fst snd]; rewrite Nil; destruct x; cbn; lia.
  - rewrite S. cbn [fst snd]. rewrite Nil. destruct x; cbn; lia.
  - assert (Db : forall o, In o (snd (sys_step e p h d (SysDb y) s)) -> sent_to x o = false).
    { intros o I. destruct x as [a|a|port a|c|port]; try (destruct Rt; fail); cbn [sent_to].
      all: destruct y as [q ch|q|q ch|q]; rewrite S in I; cbn [snd] in I; try (destruct I; fail);
        apply in_map_iff in I; destruct I as (? & <- & _); reflexivity. }
    rewrite to_none by exact Db. assert (Same : pending_at x (fst (sys_step e p h d (SysDb y) s)) = pending_at x s).
    { destruct y as [q ch|q|q ch|q]; rewrite S; destruct x; reflexivity. }
    rewrite Same. lia.
Qed.

Lemma run_bytes : forall e p h d x k l is s, (forall i, In i is -> ratio x k l i) ->
  k * bytes_to x (List.concat (snd (sys_run e p h d is s))) <= l * bytes_from x is + k * pending_at x s.
Proof.
  intros e p h d x k l is. induction is as [|i is IH]; intros s Rt; [cbn; lia|].
  rewrite srun_cons. cbn [snd List.concat]. rewrite to_app, from_cons.
  pose proof (step_bytes e p h d x k l i s (Rt i (or_introl eq_refl))) as S.
  specialize (IH (fst (sys_step e p h d i s)) (fun j I => Rt j (or_intror I))). nia.
Qed.

(** Nobody can use the program to send somebody else much more than they send to
    it: the status service sends an address no more than 296 bytes for every 34 from
    there, the port mapper no more than 28 for every 60, and an RPC service no more
    than 65504 for every 104; only 88 for every 60 if none of the datagrams at its
    port is a read. *)
Theorem C93_amplification : forall e p h d ka st mp db is x,
  let received := bytes_from x is in
  let sent := bytes_to x (List.concat (snd (sys_run e p h d is (system_start ka st mp db)))) in
  match x with
  | StatusPeer _ => 34 * sent <= 296 * received
  | MapperPeer _ => 60 * sent <= 28 * received
  | UdpPeer port _ =>
      104 * sent <= 65504 * received /\
      ((forall j, In (SysUdp port j) is -> ~ says_read (ni_datagram j)) -> 60 * sent <= 88 * received)
  | _ => True
  end.
Proof.
  intros e p h d ka st mp db is x received sent.
  assert (P : pending_at x (system_start ka st mp db) = 0) by (destruct x; reflexivity).
  assert (G : forall k l, (forall i, In i is -> ratio x k l i) -> k * sent <= l * received).
  { intros k l H. pose proof (run_bytes e p h d x k l is (system_start ka st mp db) H) as B. rewrite P in B. subst sent received. lia. }
  destruct x as [a|a|port a|c|port]; try exact I.
  - apply G. intros i _. split; reflexivity.
  - apply G. intros i _. split; reflexivity.
  - split.
    + apply G. intros i _. destruct i; try exact I. intros _. split; [|lia].
      intros n [[-> L]|[[-> L]|(_ & W & L)]] N; try lia.
      assert (n <= 65504); [|lia]. unfold words in W. set (t := (_ + 3) / 4) in W. assert (4 * t <= 65507) by lia. assert (t <= 16376) by lia. lia.
    + intros NR. apply G. intros i Ii. destruct i; try exact I. intros ->. split; [|lia].
      intros n [[-> L]|[[-> L]|(R & W & L)]] N; try lia. destruct (NR _ Ii R).
Qed.
Print Assumptions C93_amplification.

(** The bounds are reached: by a greeting of 34 bytes, by a read of 65404 bytes with
    104, and by a question of 60 bytes for the exports. *)
Definition short_greeting : bytes := UDP_MAGIC ++ [0x10] ++ repeat 65 20 ++ [1; 1; 1].
Definition plain_call (program procedure : N) : bytes :=
  be 4 7 ++ be 4 0 ++ be 4 2 ++ be 4 program ++ be 4 2 ++ be 4 procedure ++ repeat 0 36.
Definition one_file : os := mkOs (fun _ => Some (mkMeta false true 7 1 0 0 3 0 0 0 (Some 0%Z) (Some 0%Z) (Some 0%Z)))
  (fun _ => Some 70) (fun _ => Some [1; 2; 3]) (fun _ => Some (mkMeta false true 7 1 0 0 3 0 0 0 (Some 0%Z) (Some 0%Z) (Some 0%Z))).

Example C93_case :
  (exists r, status_turn (StatusDatagram 9 50002 short_greeting) = Ok [(9, 50002, r)] /\
     len short_greeting = 34 /\ len r = 296) /\
  (let d := plain_call 100003 6 ++ encode_file_handler 7 ++ be 4 0 ++ be 4 65404 ++ be 4 0 in
   says_read d /\ len d = 104 /\
   map (fun o => (fst o, len (snd o)))
     (snd (nfs_turn Little (mkNfsIn d 5 one_file true true) (mkService (Some (mkNfs (lit "/") [(7, 70)])) None))) = [(5, 65504)]) /\
  (let d := plain_call 100005 5 in
   len d = 60 /\
   map (fun o => (fst o, len (snd o)))
     (snd (ms_turn (mkMsIn d 5 false (Some (mkNetwork (mkNet (2 ^ 32 - 1) 32) [1; 2; 3; 4; 5; 6])) true))) = [(5, 88)]).
Proof.
  split; [|split].
  - eexists. split; [vm_compute; reflexivity|]. split; reflexivity.
  - cbv zeta. split; [split; reflexivity|]. split; vm_compute; reflexivity.
  - cbv zeta. split; vm_compute; reflexivity.
Qed.

(** Three datagrams, answered by the port mapper, by the file service it has started
    and by the status service. *)
Example C93_case_run :
  let is := [SysMapper (mkPmIn (plain_call 100000 3 ++ be 4 100003 ++ be 4 2 ++ be 4 17 ++ be 4 0) 4 (Some 2049) true);
             SysUdp 2049 (mkNfsIn (plain_call 100003 4 ++ repeat 0 32 ++ be 4 2 ++ [97; 0]) 5 one_file true true);
             SysStatus (StatusDatagram 9 50002 short_greeting)] in
  let outs := List.concat (snd (sys_run Little Checked reverse_order db_empty is (system_start true true true true))) in
  map (fun x => (bytes_from x is, bytes_to x outs)) [MapperPeer 4; UdpPeer 2049 5; StatusPeer 9; StatusPeer 8]
  = [(76, 28); (98, 128); (34, 296); (0, 0)].
Proof. vm_compute. reflexivity. Qed.
