(** Lemmas about the NFS service. *)

From Verif Require Import Base Unicode SUdp MPath MDatabase MRpc SRpc MRpcServer SRpcServer MNfs SNfs
  LBase LUnicode LUdp LDatabase LRpc LRpc2 PRpc LRpcServer.
From Coq Require Import ZArith String.
Open Scope list_scope.
Open Scope N_scope.

(** ** Attributes *)

Lemma time_bytes_len : forall t, List.length (time_bytes t) = 8%nat.
Proof.
  intros t. unfold time_bytes. destruct (0 <=? t)%Z; [|reflexivity].
  rewrite app_length, skipn_length, !be_length. reflexivity.
Qed.

Lemma number_mid : forall o a x b, List.length a = o ->
  number_at o 4 (a ++ be 4 x ++ b) = x mod 4294967296.
Proof.
  intros. unfold number_at. rewrite slice_mid by (assumption || apply be_length).
  apply (of_be_be 4).
Qed.

Lemma be8_low : forall x, skipn 4 (be 8 x) = be 4 x.
Proof. intros. reflexivity. Qed.

Lemma time_words : forall t, time_bytes t = be 4 (seconds (Some t)) ++ be 4 0.
Proof.
  intros t. unfold time_bytes, seconds.
  destruct (Z.leb_spec 0 t) as [H|H], (Z.ltb_spec t 0) as [G|G]; try lia.
  - rewrite be8_low. f_equal. rewrite N.mul_1_r.
    rewrite <- (of_be_be_small 4 (Z.to_N (t mod 4294967296))) by (cbn; pose proof (Z.mod_pos_bound t 4294967296); lia).
    assert (E : Z.to_N (t mod 4294967296) = Z.to_N t mod 256 ^ N.of_nat 4).
    { change (256 ^ N.of_nat 4) with 4294967296. rewrite Z2N.inj_mod by lia. reflexivity. }
    rewrite E at 1. rewrite <- (of_be_be 4 (Z.to_N t)).
    pose proof (be_of_be (be 4 (Z.to_N t)) (be_ok 4 _)) as R. rewrite be_length in R.
    rewrite R, R. reflexivity.
  - rewrite N.mul_0_r. reflexivity.
Qed.

Lemma number_words : forall ws k, (k < List.length ws)%nat ->
  number_at (4 * k) 4 (flat_map (be 4) ws) = nth k ws 0 mod 4294967296.
Proof.
  intros ws k. revert ws. induction k; intros [|w ws] H; cbn [List.length] in H; try lia.
  - cbn [flat_map]. apply (number_mid 0 [] w). reflexivity.
  - cbn [flat_map nth]. rewrite <- IHk by lia. unfold number_at. f_equal.
    rewrite slice_skip by (rewrite be_length; lia). rewrite be_length. f_equal. lia.
Qed.
Lemma words_length : forall ws, List.length (flat_map (be 4) ws) = (4 * List.length ws)%nat.
Proof. induction ws; [reflexivity|]. cbn [flat_map List.length]. rewrite app_length, be_length. lia. Qed.

Definition fattr_words (m : meta) : list N :=
  [if m_dir m then 2 else 1; 0x5118; m_nlink m; m_uid m; m_gid m; m_size m; m_blksize m; m_rdev m;
   m_blocks m; 0; 0; seconds (m_accessed m); 0; seconds (m_modified m); 0; seconds (m_created m); 0].

Lemma be4_mod : forall x, be 4 (as_u32 x) = be 4 x.
Proof.
  intros x. unfold as_u32. pose proof (of_be_be 4 x) as E. change (256 ^ N.of_nat 4) with u32_max1 in E.
  rewrite <- E. pose proof (be_of_be (be 4 x) (be_ok 4 x)) as R. rewrite be_length in R. exact R.
Qed.

Lemma attributes_words : forall m a, attributes_from m = Ok a ->
  attributes_bytes a = flat_map (be 4) (fattr_words m) /\ times_known m.
Proof.
  intros m a H. unfold attributes_from in H. unfold times_known, fattr_words.
  destruct (m_accessed m) as [ta|]; [|discriminate H].
  destruct (m_modified m) as [tm|]; [|discriminate H].
  destruct (m_created m) as [tc|]; [|discriminate H].
  cbn [unwrap_opt rbind] in H. injection H as <-. split; [|repeat split; discriminate].
  unfold attributes_bytes, file_type_bytes.
  cbn [at_type at_mode at_nlink at_uid at_gid at_size at_blocksize at_rdev at_blocks at_fsid at_file_id at_atime at_mtime at_ctime].
  rewrite !time_words. rewrite <- !app_assoc. change ([0; 0; 81; 24]) with (be 4 0x5118).
  cbn [flat_map]. rewrite app_nil_r, !be4_mod. destruct (m_dir m); reflexivity.
Qed.

Lemma words_say : forall m, fattr_says (flat_map (be 4) (fattr_words m)) m.
Proof.
  intros m.
  assert (Sec : forall t, seconds t mod 4294967296 = seconds t).
  { intros [t|]; [|reflexivity]. apply N.mod_small. unfold seconds.
    pose proof (Z.mod_pos_bound t 4294967296 ltac:(lia)). destruct (t <? 0)%Z; lia. }
  assert (L : List.length (fattr_words m) = 17%nat) by reflexivity.
  assert (K : forall k, (k < 17)%nat -> forall o, o = (4 * k)%nat ->
    number_at o 4 (flat_map (be 4) (fattr_words m)) = nth k (fattr_words m) 0 mod 4294967296).
  { intros k Hk o ->. apply number_words. rewrite L. exact Hk. }
  unfold fattr_says. split; [rewrite words_length, L; reflexivity|].
  split; [rewrite (K 0%nat) by (reflexivity || lia); cbn [nth fattr_words]; destruct (m_dir m); reflexivity|].
  split; [rewrite (K 1%nat) by (reflexivity || lia); reflexivity|].
  split; [rewrite (K 2%nat) by (reflexivity || lia); reflexivity|].
  split; [rewrite (K 3%nat) by (reflexivity || lia); reflexivity|].
  split; [rewrite (K 4%nat) by (reflexivity || lia); reflexivity|].
  split; [rewrite (K 5%nat) by (reflexivity || lia); reflexivity|].
  split; [rewrite (K 6%nat) by (reflexivity || lia); reflexivity|].
  split; [rewrite (K 7%nat) by (reflexivity || lia); reflexivity|].
  split; [rewrite (K 8%nat) by (reflexivity || lia); reflexivity|].
  split; [rewrite (K 9%nat) by (reflexivity || lia); reflexivity|].
  split; [rewrite (K 10%nat) by (reflexivity || lia); reflexivity|].
  split; [rewrite (K 11%nat) by (reflexivity || lia); apply Sec|].
  split; [rewrite (K 12%nat) by (reflexivity || lia); reflexivity|].
  split; [rewrite (K 13%nat) by (reflexivity || lia); apply Sec|].
  split; [rewrite (K 14%nat) by (reflexivity || lia); reflexivity|].
  split; [rewrite (K 15%nat) by (reflexivity || lia); apply Sec|].
  rewrite (K 16%nat) by (reflexivity || lia); reflexivity.
Qed.

Lemma attributes_fattr : forall m a, attributes_from m = Ok a -> fattr_says (attributes_bytes a) m.
Proof. intros m a H. destruct (attributes_words m a H) as [-> _]. apply words_say. Qed.

Lemma attributes_cases : forall m,
  (exists a, attributes_from m = Ok a /\ times_known m) \/ attributes_from m = Panic /\ ~ times_known m.
Proof.
  intros m. unfold attributes_from, times_known.
  destruct (m_accessed m); [|right; split; [reflexivity|tauto]].
  destruct (m_modified m); [|right; split; [reflexivity|tauto]].
  destruct (m_created m); [|right; split; [reflexivity|tauto]].
  left. cbn [unwrap_opt rbind]. eexists. split; [reflexivity|]. repeat split; discriminate.
Qed.
Lemma attributes_mode : forall m a, attributes_from m = Ok a -> len (at_mode a) = 4.
Proof.
  intros m a H. unfold attributes_from in H.
  destruct (m_accessed m), (m_modified m), (m_created m); cbn [unwrap_opt rbind] in H; try discriminate H.
  injection H as <-. reflexivity.
Qed.
Lemma attributes_len : forall m a, attributes_from m = Ok a -> len (attributes_bytes a) = 68.
Proof.
  intros m a H. destruct (attributes_words m a H) as [-> _]. unfold len. rewrite words_length. reflexivity.
Qed.

(** ** Handles *)

Lemma handle_for_spec : forall i, encode_file_handler i = handle_for i.
Proof.
  intros i. unfold encode_file_handler, handle_for. f_equal. cbn [le].
  rewrite !N.div_div by discriminate. reflexivity.
Qed.
Lemma handle_len : forall i, len (encode_file_handler i) = 32.
Proof. intros. unfold encode_file_handler, len. rewrite app_length, le_length. reflexivity. Qed.
Lemma handle_first8 : forall i, firstn 8 (encode_file_handler i) = le 8 i.
Proof. reflexivity. Qed.
Lemma handle_little : forall i, i < 2^64 -> handle_ino Little (encode_file_handler i) = i.
Proof. intros i H. unfold handle_ino. rewrite handle_first8. apply (of_le_le_small 8). exact H. Qed.

(** ** Reading *)

Lemma read_range_ok : forall o f start cnt content, os_content o f = Some content ->
  exists data, read_file_range o f start cnt = Ok data /\ len data = cnt /\
  forall j, j < cnt -> nth (N.to_nat j) data 0 =
    if (j <? 2147479552) && (start + j <? len content) then nth (N.to_nat (start + j)) content 0 else 0.
Proof.
  intros o f start cnt content E. unfold read_file_range. rewrite E. cbn [of_option rbind].
  set (got := firstn _ _). eexists. split; [reflexivity|].
  assert (G : N.of_nat (List.length got) = N.min (N.min cnt read_limit) (len content - start)).
  { unfold got. rewrite firstn_length, skipn_length. unfold len. lia. }
  split; [rewrite len_app, len_repeat; unfold len; lia|].
  intros j Hj.
  destruct (N.ltb_spec j (N.of_nat (List.length got))) as [L|L].
  - rewrite app_nth1 by lia. unfold read_limit in *.
    destruct (N.ltb_spec j 2147479552); [|lia]. destruct (N.ltb_spec (start + j) (len content)); [|lia].
    cbn [andb]. unfold got.
    assert (P : forall A n k (l : list A) d, (k < n)%nat -> nth k (firstn n l) d = nth k l d).
    { clear. intros A n. induction n; intros k l d H; [lia|]. destruct l; [destruct k; reflexivity|].
      destruct k; [reflexivity|]. cbn [firstn nth]. apply IHn. lia. }
    rewrite P by (unfold read_limit; lia).
    assert (Q : forall A n k (l : list A) d, nth k (skipn n l) d = nth (n + k) l d).
    { clear. intros A n. induction n; intros k l d; [reflexivity|]. destruct l; [destruct k; reflexivity|].
      cbn [skipn Nat.add nth]. apply IHn. }
    rewrite Q. f_equal. lia.
  - rewrite app_nth2 by lia.
    assert (R : nth (N.to_nat j - List.length got) (repeat 0 (N.to_nat cnt - List.length got)) 0 = 0).
    { apply nth_repeat. }
    rewrite R. unfold read_limit in *.
    destruct (N.ltb_spec j 2147479552), (N.ltb_spec (start + j) (len content)); cbn [andb]; try reflexivity; lia.
Qed.

(** ** Histories *)

Lemma resolve_spec : forall here name, here <> [] -> path_push here name = resolve here name.
Proof.
  intros here name H. unfold path_push, resolve, slash.
  assert (L : exists h x, here = h ++ [x]) by (destruct (exists_last H) as [h [x ->]]; eauto).
  destruct L as [h [x ->]]. rewrite rev_app_distr, last_last. cbn [rev app].
  destruct name as [|b name].
  - destruct (x =? 47); [symmetry; apply app_nil_r|reflexivity].
  - destruct (N.eqb_spec b 47) as [->|B]; [reflexivity|].
    assert (R : match b :: name with
                | 47 :: _ => b :: name
                | _ => if x =? 47 then (h ++ [x]) ++ b :: name else (h ++ [x]) ++ 47 :: b :: name
                end = if x =? 47 then (h ++ [x]) ++ b :: name else (h ++ [x]) ++ 47 :: b :: name).
    { destruct b as [|b]; [reflexivity|]. do 6 (destruct b as [b|b|]; try reflexivity). congruence. }
    etransitivity; [|symmetry; exact R]. reflexivity.
Qed.

Lemma resolve_nonempty : forall here name, here <> [] -> resolve here name <> [].
Proof.
  intros here name H. rewrite <- resolve_spec by exact H. unfold path_push.
  destruct name as [|b name]; destruct here as [|h here]; try congruence.
  - destruct (rev (h :: here)) as [|y r] eqn:R.
    + apply (f_equal (@rev N)) in R. rewrite rev_involutive in R. discriminate R.
    + destruct (y =? slash); discriminate.
  - destruct (b =? slash); [discriminate|].
    destruct (rev (h :: here)); [discriminate|]. destruct (_ =? slash); discriminate.
Qed.

Lemma position_snoc : forall hs x, position (hs ++ [x]) =
  match snd x with
  | Asked _ (NfsLookup l) => walk_to (ni_os (fst x)) (position hs) (lk_filename l)
  | _ => position hs
  end.
Proof. intros. unfold position. rewrite fold_left_app. reflexivity. Qed.

Lemma position_nonempty : forall hs, position hs <> [].
Proof.
  induction hs as [|x hs IH] using rev_ind; [discriminate|]. rewrite position_snoc.
  destruct (snd x) as [|xid p|]; try exact IH. destruct p; try exact IH.
  unfold walk_to. destruct (os_stat _ _) as [m|]; [|discriminate].
  destruct (os_open _ _); [destruct (m_file m); [discriminate|]|]; apply resolve_nonempty; exact IH.
Qed.

Lemma firstn_snoc_lt : forall A (l : list A) x j, (j < List.length l)%nat ->
  firstn j (l ++ [x]) = firstn j l /\ nth_error (l ++ [x]) j = nth_error l j.
Proof.
  intros. split; [|apply nth_error_app1; assumption].
  rewrite firstn_app. replace (j - List.length l)%nat with 0%nat by lia. cbn [firstn]. apply app_nil_r.
Qed.
Lemma firstn_snoc_eq : forall A (l : list A) x,
  firstn (List.length l) (l ++ [x]) = l /\ nth_error (l ++ [x]) (List.length l) = Some x.
Proof.
  intros. split.
  - rewrite firstn_app, Nat.sub_diag, firstn_all. apply app_nil_r.
  - rewrite nth_error_app2, Nat.sub_diag by lia. reflexivity.
Qed.
Lemma nth_snoc_cases : forall A (l : list A) x j y, nth_error (l ++ [x]) j = Some y ->
  (j < List.length l)%nat /\ nth_error l j = Some y /\ firstn j (l ++ [x]) = firstn j l \/
  j = List.length l /\ y = x /\ firstn j (l ++ [x]) = l.
Proof.
  intros A l x j y H.
  assert (J : (j < List.length (l ++ [x]))%nat) by (apply nth_error_Some; congruence).
  rewrite app_length in J. cbn [List.length] in J.
  destruct (Nat.eq_dec j (List.length l)) as [->|Nj].
  - right. destruct (firstn_snoc_eq A l x) as [F E]. split; [reflexivity|]. split; [congruence|exact F].
  - left. destruct (firstn_snoc_lt A l x j ltac:(lia)) as [F E]. split; [lia|]. split; [congruence|exact F].
Qed.

Lemma opens_functional : forall hs x ino f f', opens hs x ino f -> opens hs x ino f' -> f = f'.
Proof.
  intros hs x ino f f' [xid [l [m [E [_ [O _]]]]]] [xid' [l' [m' [E' [_ [O' _]]]]]].
  rewrite E in E'. injection E' as _ <-. congruence.
Qed.

Lemma latest_functional : forall hs ino f f', latest_opened hs ino f -> latest_opened hs ino f' -> f = f'.
Proof.
  intros hs ino f f' [j [x [H [O L]]]] [j' [x' [H' [O' L']]]].
  destruct (Nat.lt_trichotomy j j') as [J|[J|J]].
  - elim (L j' x' f' J H' O').
  - subst j'. rewrite H in H'. injection H' as <-. exact (opens_functional _ _ _ _ _ O O').
  - elim (L' j x f J H O).
Qed.

Lemma latest_snoc : forall hs x ino f, latest_opened (hs ++ [x]) ino f <->
  opens hs x ino f \/ (forall f', ~ opens hs x ino f') /\ latest_opened hs ino f.
Proof.
  intros hs x ino f. destruct (firstn_snoc_eq _ hs x) as [F E]. split.
  - intros [j [y [H [O L]]]]. destruct (nth_snoc_cases _ _ _ _ _ H) as [[J [Hy Fj]]|[J [-> Fj]]].
    + right. split.
      * intros f' Of. rewrite <- F in Of. exact (L _ x f' J E Of).
      * exists j, y. rewrite <- Fj. split; [exact Hy|]. split; [exact O|].
        intros j' x' f' Jj' Hx' Ox'.
        assert (J' : (j' < List.length hs)%nat) by (apply nth_error_Some; congruence).
        destruct (firstn_snoc_lt _ hs x j' J') as [F' E'].
        apply (L j' x' f' Jj'); [congruence|]. rewrite F'. exact Ox'.
    + left. rewrite Fj in O. exact O.
  - intros [O|[Nx [j [y [H [O L]]]]]].
    + exists (List.length hs), x. split; [exact E|]. split; [rewrite F; exact O|].
      intros j' x' f' J H. exfalso.
      assert (j' < List.length (hs ++ [x]))%nat by (apply nth_error_Some; congruence).
      rewrite app_length in *. cbn [List.length] in *. lia.
    + assert (J : (j < List.length hs)%nat) by (apply nth_error_Some; congruence).
      destruct (firstn_snoc_lt _ hs x j J) as [Fj Ej].
      exists j, y. split; [congruence|]. split; [rewrite Fj; exact O|].
      intros j' x' f' Jj H'. destruct (nth_snoc_cases _ _ _ _ _ H') as [[_ [Hy F']]|[_ [-> F']]]; rewrite F'.
      * exact (L j' x' f' Jj Hy).
      * apply Nx.
Qed.

Lemma names_inode_iff : forall e h ino, bytes_ok h -> (8 <= List.length h)%nat ->
  (names_inode e h ino <-> handle_ino e h = ino).
Proof.
  intros e h ino B L. unfold names_inode, handle_ino.
  assert (F8 : firstn 8 (handle_for ino) = le 8 ino) by (rewrite <- handle_for_spec; apply handle_first8).
  rewrite F8.
  assert (Bf : bytes_ok (firstn 8 h)) by (apply bytes_ok_firstn; exact B).
  assert (Lf : List.length (firstn 8 h) = 8%nat) by (rewrite firstn_length; lia).
  set (w := firstn 8 h) in *. clearbody w.
  pose proof (le_of_le w Bf) as R. rewrite Lf in R.
  assert (Br : bytes_ok (rev w)) by (apply Forall_rev; exact Bf).
  pose proof (le_of_le (rev w) Br) as R'. rewrite rev_length, Lf in R'.
  assert (U : forall v, bytes_ok v -> List.length v = 8%nat -> of_le v < 2^64).
  { intros v Bv Lv. pose proof (le_of_le v Bv) as Rv. rewrite Lv in Rv. rewrite <- Rv, of_le_le. apply N.mod_lt. discriminate. }
  assert (Sm : forall i, i < 2^64 -> of_le (le 8 i) = i) by (intros; apply (of_le_le_small 8); assumption).
  destruct e.
  - split; [intros [H ->]; apply Sm; exact H|]. intros <-. split; [apply U; assumption|]. symmetry. exact R.
  - assert (E : of_be w = of_le (rev w)) by (rewrite of_le_rev, rev_involutive; reflexivity). rewrite E.
    split; [intros [H ->]; rewrite rev_involutive; apply Sm; exact H|].
    intros <-. split; [apply U; [exact Br|rewrite rev_length; exact Lf]|].
    rewrite R', rev_involutive. reflexivity.
Qed.

Lemma names_functional : forall e h i i', names_inode e h i -> names_inode e h i' -> i = i'.
Proof.
  intros e h i i' [B H] [B' H'].
  assert (F8 : forall i, firstn 8 (handle_for i) = le 8 i) by (intros; rewrite <- handle_for_spec; apply handle_first8).
  assert (E : le 8 i = le 8 i').
  { rewrite <- !F8. destruct e; [congruence|]. rewrite <- (rev_involutive (firstn 8 (handle_for i))), <- H, H'.
    apply rev_involutive. }
  rewrite <- (of_le_le_small 8 i), <- (of_le_le_small 8 i') by assumption. f_equal. exact E.
Qed.

Lemma handle_functional : forall e hs h f f', handle_of_file e hs h f -> handle_of_file e hs h f' -> f = f'.
Proof.
  intros e hs h f f' [i [Ni L]] [i' [Ni' L']]. pose proof (names_functional _ _ _ _ Ni Ni'). subst i'.
  exact (latest_functional _ _ _ _ L L').
Qed.

(** ** One call *)

(** The state of the handler after a history. *)
Definition inv (hs : history) (n : nfs) : Prop :=
  nf_path n = position hs /\ forall ino f, hm_get ino (nf_files n) = Some f <-> latest_opened hs ino f.

Lemma inv_new : inv [] nfs_new.
Proof.
  split; [reflexivity|]. intros ino f. cbn [nfs_new nf_files]. split; [discriminate|].
  intros [j [x [H _]]]. destruct j; discriminate H.
Qed.

(** What the procedure needs of its arguments. *)
Definition proc_ok (p : rpc_procedure) : Prop :=
  match p with
  | NfsGetAttr h => bytes_ok h /\ len h = 32
  | NfsRead r => bytes_ok (rd_fhandle r) /\ len (rd_fhandle r) = 32 /\ word_ok (rd_count r)
  | _ => True
  end.

Lemma call_proc_ok : forall d m c, bytes_ok d -> call_says d m -> rpc_body m = Call c -> proc_ok (ca_procedure c).
Proof.
  intros d m c B [c' [E [_ [_ [_ [_ [_ [_ [_ [_ A]]]]]]]]]] E'. rewrite E' in E. injection E as ->.
  unfold proc_ok. destruct (ca_procedure c'); cbn [args_say] in A; try exact I.
  - destruct A as [_ [_ [R ->]]]. unfold reaches in R. split; [apply slice_ok; exact B|].
    unfold len. rewrite slice_length by lia. reflexivity.
  - destruct A as [_ [_ [R [-> [_ [-> _]]]]]]. unfold reaches in R. split; [apply slice_ok; exact B|].
    split; [unfold len; rewrite slice_length by lia; reflexivity|].
    unfold word_ok, number_at. pose proof (of_be_bound (slice 96 4 d) (slice_ok 96 4 d B)) as X.
    unfold len in X. rewrite slice_length in X by lia. exact X.
Qed.

Definition matches (xid : N) (r : res reply_message) (a : outcome) : Prop :=
  match r, a with
  | Ok m, Result b => codec_encode (reply_to m xid) = std_reply xid b
  | Err, NoAnswer => True
  | Panic, Death => True
  | _, _ => False
  end.

Lemma inv_same : forall hs n x, inv hs n ->
  (forall xid l, snd x <> Asked xid (NfsLookup l)) -> inv (hs ++ [x]) n.
Proof.
  intros hs n x [P F] Hx. split.
  - rewrite position_snoc. destruct (snd x) as [|xid p|]; try exact P.
    destruct p; try exact P. elim (Hx xid l). reflexivity.
  - intros ino f. rewrite F, latest_snoc.
    assert (O : forall f', ~ opens hs x ino f') by (intros f' [xid [l [m [E _]]]]; exact (Hx _ _ E)).
    split; [intros H; right; split; assumption|]. intros [H|[_ H]]; [elim (O _ H)|exact H].
Qed.

Lemma lookup_step : forall e hs n x xid l, inv hs n -> snd x = Asked xid (NfsLookup l) ->
  let nr := lookup (ni_os (fst x)) l n in
  (exists a, call_outcome e hs (ni_os (fst x)) (NfsLookup l) a /\ matches xid (snd nr) a) /\
  inv (hs ++ [x]) (fst nr).
Proof.
  intros e hs n x xid l [P F] Hx nr. unfold nr, lookup. rewrite P, (resolve_spec _ _ (position_nonempty hs)).
  cbn [call_outcome]. unfold lookup_outcome, get_fhandle.
  set (o := ni_os (fst x)). set (t := resolve (position hs) (lk_filename l)).
  assert (Pos : position (hs ++ [x]) = walk_to o (position hs) (lk_filename l)) by (rewrite position_snoc, Hx; reflexivity).
  unfold walk_to in Pos. fold t in Pos.
  assert (Same : (forall m f, os_stat o t = Some m -> os_open o t = Some f -> m_file m = true -> False) ->
    forall ino f, hm_get ino (nf_files n) = Some f <-> latest_opened (hs ++ [x]) ino f).
  { intros Hn ino f. rewrite F, latest_snoc.
    assert (O : forall f', ~ opens hs x ino f').
    { intros f' [xid' [l' [m [E [St [Op [Fi _]]]]]]]. rewrite Hx in E. injection E as _ <-. exact (Hn m f' St Op Fi). }
    split; [intros H; right; split; assumption|]. intros [H|[_ H]]; [elim (O _ H)|exact H]. }
  destruct (os_stat o t) as [m|] eqn:St.
  - destruct (os_open o t) as [f|] eqn:Op; cbn [of_option rbind].
    + cbn [fw_inode fw_encoded fw_file nf_path nf_files fst snd]. split.
      * destruct (attributes_cases m) as [[a [A T]]|[A T]]; rewrite A; cbn [rbind].
        -- exists (Result (std_lookup_result (handle_for (m_ino m)) (attributes_bytes a))). split.
           ++ split; [exact T|]. exists (attributes_bytes a). split; [apply attributes_fattr; exact A|reflexivity].
           ++ cbn [matches]. rewrite <- handle_for_spec.
              apply (proj1 (proj2 (proj2 (C41_standard_results xid)))); [apply handle_len|exact (attributes_mode _ _ A)].
        -- exists Death. split; [exact T|exact I].
      * destruct (m_file m) eqn:Fi.
        -- split; [rewrite Pos; reflexivity|]. intros ino f'. cbn [reset_path nf_files].
           rewrite hm_get_insert, latest_snoc.
           assert (O : forall i g, opens hs x i g <-> i = m_ino m /\ g = f).
           { intros i g. unfold opens. fold o. split.
             - intros [xid' [l' [m' [E [St' [Op' [_ I']]]]]]]. rewrite Hx in E. injection E as _ <-.
               fold t in St', Op'. split; congruence.
             - intros [-> ->]. exists xid, l, m. fold t. repeat split; assumption. }
           destruct (N.eqb_spec ino (m_ino m)) as [->|D].
           ++ split; [intros H; left; apply O; split; [reflexivity|congruence]|].
              intros [H|[H _]]; [apply O in H; destruct H as [_ ->]; reflexivity|].
              elim (H f). apply O. split; reflexivity.
           ++ rewrite F. split.
              ** intros H. right. split; [intros g G; apply O in G; destruct G; contradiction|exact H].
              ** intros [H|[_ H]]; [apply O in H; destruct H; contradiction|exact H].
        -- split; [rewrite Pos; reflexivity|]. apply Same. intros m' f' E' _ Fi'. congruence.
    + split; [exists NoAnswer; split; [reflexivity|exact I]|].
      split; [rewrite Pos; reflexivity|]. cbn [nf_files fst]. apply Same. intros m' f' _ E'. congruence.
  - split; [exists NoAnswer; split; [reflexivity|exact I]|].
    split; [rewrite Pos; reflexivity|]. cbn [nf_files fst reset_path]. apply Same. intros m' f' E'. congruence.
Qed.

Lemma file_cases : forall e hs n h, inv hs n -> bytes_ok h -> len h = 32 ->
  (exists f, hm_get (handle_ino e h) (nf_files n) = Some f /\ handle_of_file e hs h f) \/
  hm_get (handle_ino e h) (nf_files n) = None /\ forall f, ~ handle_of_file e hs h f.
Proof.
  intros e hs n h [_ F] B L.
  assert (Ni : forall ino, names_inode e h ino <-> handle_ino e h = ino).
  { intros ino. apply names_inode_iff; [exact B|]. unfold len in L. lia. }
  destruct (hm_get (handle_ino e h) (nf_files n)) as [f|] eqn:G.
  - left. exists f. split; [reflexivity|]. exists (handle_ino e h). split; [apply Ni; reflexivity|]. apply F. exact G.
  - right. split; [reflexivity|]. intros f [ino [N L']]. apply Ni in N. subst ino. apply F in L'. congruence.
Qed.

Lemma call_step : forall e hs n x xid p, inv hs n -> snd x = Asked xid p -> proc_ok p ->
  let nr := call_procedure e (ni_os (fst x)) p n in
  (exists a, call_outcome e hs (ni_os (fst x)) p a /\ matches xid (snd nr) a) /\
  inv (hs ++ [x]) (fst nr).
Proof.
  intros e hs n x xid p I Hx Pk nr.
  assert (Other : (forall l, p <> NfsLookup l) -> inv (hs ++ [x]) n).
  { intros Np. apply inv_same; [exact I|]. intros xid' l E. rewrite Hx in E. injection E as _ ->. exact (Np l eq_refl). }
  unfold nr. clear nr.
  destruct p; cbn [call_procedure fst snd]; try (split; [exists NoAnswer; split; [reflexivity|exact Logic.I]|apply Other; discriminate]).
  - (* getattr *)
    split; [|apply Other; discriminate]. destruct Pk as [B L].
    unfold getattr. cbn [call_outcome].
    destruct (file_cases e hs n h I B L) as [[f [G O]]|[G O]]; rewrite G.
    + assert (K : exists a, getattr_outcome (ni_os (fst x)) f a /\
        matches xid (do metadata <- of_option (os_fstat (ni_os (fst x)) f);
                     do a <- attributes_from metadata; Ok (NfsGetAttrReply a)) a).
      { unfold getattr_outcome. destruct (os_fstat _ f) as [m|]; cbn [of_option rbind];
          [|exists NoAnswer; split; [reflexivity|exact Logic.I]].
        destruct (attributes_cases m) as [[a [A T]]|[A T]]; rewrite A; cbn [rbind].
        - exists (Result (std_getattr_result (attributes_bytes a))). split.
          + split; [exact T|]. exists (attributes_bytes a). split; [apply attributes_fattr; exact A|reflexivity].
          + cbn [matches]. apply (proj1 (proj2 (proj2 (proj2 (C41_standard_results xid))))). exact (attributes_mode _ _ A).
        - exists Death. split; [exact T|exact Logic.I]. }
      destruct K as [a [K1 K2]]. exists a. split; [left; exists f; split; assumption|exact K2].
    + exists NoAnswer. split; [right; split; [exact O|reflexivity]|exact Logic.I].
  - (* lookup *)
    apply (lookup_step e hs n x xid l I Hx).
  - (* read *)
    split; [|apply Other; discriminate]. destruct Pk as [B [L W]].
    unfold nfs_do_read. cbn [call_outcome].
    destruct (file_cases e hs n (rd_fhandle r) I B L) as [[f [G O]]|[G O]]; rewrite G.
    + assert (K : exists a, read_outcome (ni_os (fst x)) f (rd_offset r) (rd_count r) a /\
        matches xid (do data <- read_file_range (ni_os (fst x)) f (rd_offset r) (rd_count r);
                     do metadata <- of_option (os_fstat (ni_os (fst x)) f);
                     do a <- attributes_from metadata; Ok (NfsReadReply a data)) a).
      { unfold read_outcome.
        destruct (os_content (ni_os (fst x)) f) as [content|] eqn:C.
        2:{ unfold read_file_range. rewrite C. exists NoAnswer. split; [reflexivity|exact Logic.I]. }
        destruct (read_range_ok _ f (rd_offset r) (rd_count r) content C) as [data [D [Ld Nd]]].
        rewrite D. cbn [rbind].
        destruct (os_fstat _ f) as [m|]; cbn [of_option rbind];
          [|exists NoAnswer; split; [reflexivity|exact Logic.I]].
        destruct (attributes_cases m) as [[a [A T]]|[A T]]; rewrite A; cbn [rbind].
        - exists (Result (std_read_result (attributes_bytes a) data)). split.
          + split; [exact T|]. exists (attributes_bytes a). split; [apply attributes_fattr; exact A|].
            exists data. split; [reflexivity|]. split; [exact Ld|]. intros Le. split; [exact Ld|].
            intros j Hj. rewrite (Nd j Hj). destruct (N.ltb_spec j 2147479552); [reflexivity|lia].
          + cbn [matches]. apply (proj2 (proj2 (proj2 (proj2 (C41_standard_results xid))))).
            * exact (attributes_mode _ _ A).
            * rewrite Ld. exact W.
        - exists Death. split; [exact T|exact Logic.I]. }
      destruct K as [a [K1 K2]]. exists a. split; [left; exists f; split; assumption|exact K2].
    + exists NoAnswer. split; [right; split; [exact O|reflexivity]|exact Logic.I].
Qed.

Lemma with_death : forall m R a, with_attributes m R Death -> with_attributes m R a -> a = Death.
Proof. intros m R [r| |] D H; [elim D; exact (proj1 H)|elim H|reflexivity]. Qed.

Lemma outcome_death : forall e hs o p a, call_outcome e hs o p Death -> call_outcome e hs o p a -> a = Death.
Proof.
  intros e hs o p a. destruct p; cbn [call_outcome]; try (intros D; discriminate D).
  - intros [[f [H D]]|[_ D]]; [|discriminate D]. intros [[f' [H' D']]|[Nf _]]; [|elim (Nf f H)].
    pose proof (handle_functional _ _ _ _ _ H H'). subst f'. unfold getattr_outcome in *.
    destruct (os_fstat o f); [exact (with_death _ _ _ D D')|discriminate D].
  - unfold lookup_outcome. destruct (os_stat _ _); [|intros D; discriminate D].
    destruct (os_open _ _); [apply with_death|intros D; discriminate D].
  - intros [[f [H D]]|[_ D]]; [|discriminate D]. intros [[f' [H' D']]|[Nf _]]; [|elim (Nf f H)].
    pose proof (handle_functional _ _ _ _ _ H H'). subst f'. unfold read_outcome in *.
    destruct (os_content o f); [|discriminate D].
    destruct (os_fstat o f); [exact (with_death _ _ _ D D')|discriminate D].
Qed.

(** ** One turn *)

Definition put (u : option (peer * bytes)) (i : nfs_input) (d : option (peer * bytes)) :=
  match d with
  | None => (u, [])
  | Some d => framed_send u (ni_resend i) (ni_send i) d
  end.

Lemma turn_step : forall e hs n u x, inv hs n ->
  bytes_ok (ni_datagram (fst x)) -> hears (ni_datagram (fst x)) (snd x) ->
  (exists n' d, ~ kills e hs x /\ inv (hs ++ [x]) n' /\ replies e hs x d /\
     nfs_turn e (fst x) (mkService (Some n) u) = (mkService (Some n') (fst (put u (fst x) d)), snd (put u (fst x) d)))
  \/ kills e hs x /\ nfs_turn e (fst x) (mkService (Some n) u) = (mkService None u, []).
Proof.
  intros e hs n u x I B H. unfold nfs_turn. cbn [sv_nfs sv_unsent].
  destruct (codec_cases _ B) as [[m [c [E [C Bc]]]]|[[E [R Nc]]|[E [Nc Nr]]]].
  - assert (Hx : snd x = Asked (rpc_xid m) (ca_procedure c)).
    { destruct (snd x) as [|xid p|]; cbn [hears] in H.
      - destruct H as [H _]. elim (H m C).
      - destruct H as [m' [c' [C' [Bc' [-> ->]]]]]. pose proof (call_functional _ _ _ C C'). subst m'. congruence.
      - destruct H as [_ T]. destruct C as [c' [_ [_ [_ [F _]]]]]. congruence. }
    rewrite E, Bc.
    destruct (call_step e hs n x _ _ I Hx (call_proc_ok _ _ _ B C Bc)) as [[a [O M]] I'].
    destruct (call_procedure e (ni_os (fst x)) (ca_procedure c) n) as [n' r]. cbn [fst snd] in *.
    unfold kills, replies. rewrite Hx.
    destruct r as [reply| |], a as [b| |]; cbn [matches] in M; try contradiction.
    + left. exists n', (Some (ni_from (fst x), std_reply (rpc_xid m) b)).
      split; [intros D; pose proof (outcome_death _ _ _ _ _ D O); discriminate|]. split; [exact I'|].
      split; [left; exists b; split; [exact O|reflexivity]|]. cbn [put]. rewrite M.
      destruct (framed_send _ _ _ _). reflexivity.
    + left. exists n', None. split; [intros D; pose proof (outcome_death _ _ _ _ _ D O); discriminate|].
      split; [exact I'|]. split; [right; split; [exact O|reflexivity]|reflexivity].
    + right. split; [exact O|reflexivity].
  - assert (Hx : snd x = Fatal).
    { destruct (snd x) as [|xid p|]; cbn [hears] in H; [destruct H; contradiction| |reflexivity].
      destruct H as [m' [c' [C' _]]]. elim (Nc m' C'). }
    rewrite E. right. unfold kills. rewrite Hx. split; [exact Logic.I|reflexivity].
  - assert (Hx : snd x = Ignored).
    { destruct (snd x) as [|xid p|]; cbn [hears] in H; [reflexivity| |contradiction].
      destruct H as [m' [c' [C' _]]]. elim (Nc m' C'). }
    left. exists n, None. unfold kills, replies. rewrite Hx. split; [intros []|].
    split; [apply inv_same; [exact I|intros; rewrite Hx; discriminate]|].
    split; [reflexivity|]. destruct E as [-> | ->]; reflexivity.
Qed.

(** ** Runs *)

Lemma run_app : forall e a b s, nfs_run e (a ++ b) s =
  (fst (nfs_run e b (fst (nfs_run e a s))), snd (nfs_run e a s) ++ snd (nfs_run e b (fst (nfs_run e a s)))).
Proof.
  induction a; intros b s; [cbn; destruct (nfs_run e b s); reflexivity|].
  cbn [app nfs_run]. destruct (nfs_turn e a s) as [s1 out]. rewrite IHa.
  destruct (nfs_run e a0 s1) as [s2 outs]. reflexivity.
Qed.
Lemma run_snoc : forall e a i s, nfs_run e (a ++ [i]) s =
  (fst (nfs_turn e i (fst (nfs_run e a s))), snd (nfs_run e a s) ++ [snd (nfs_turn e i (fst (nfs_run e a s)))]).
Proof. intros. rewrite run_app. cbn [nfs_run]. destruct (nfs_turn _ _ _). reflexivity. Qed.
Lemma run_length : forall e a s, List.length (snd (nfs_run e a s)) = List.length a.
Proof.
  induction a; intros s; [reflexivity|]. cbn [nfs_run]. destruct (nfs_turn e a s) as [s1 out].
  specialize (IHa s1). destruct (nfs_run e a0 s1). cbn [snd List.length] in *. congruence.
Qed.
Lemma run_nth : forall e a s k i, nth_error a k = Some i ->
  nth k (snd (nfs_run e a s)) [] = snd (nfs_turn e i (fst (nfs_run e (firstn k a) s))).
Proof.
  induction a; intros s k i H; [destruct k; discriminate H|]. destruct k; cbn [nth_error] in H.
  - injection H as ->. cbn [firstn nfs_run fst]. destruct (nfs_turn e i s) as [s1 out].
    destruct (nfs_run e a0 s1). reflexivity.
  - cbn [firstn nfs_run]. destruct (nfs_turn e a s) as [s1 out]. specialize (IHa s1 k i H).
    destruct (nfs_run e a0 s1), (nfs_run e (firstn k a0) s1). exact IHa.
Qed.

Lemma history_snoc : forall hs x, history_ok (hs ++ [x]) <->
  history_ok hs /\ bytes_ok (ni_datagram (fst x)) /\ hears (ni_datagram (fst x)) (snd x).
Proof.
  intros. unfold history_ok. rewrite Forall_app. split; intros [A B]; (split; [exact A|]).
  - inversion B; assumption.
  - constructor; [exact B|constructor].
Qed.
Lemma never_snoc : forall e hs x, never_killed e (hs ++ [x]) <-> never_killed e hs /\ ~ kills e hs x.
Proof.
  intros e hs x. unfold never_killed. split.
  - intros H. split.
    + intros k y Hy. assert (K : (k < List.length hs)%nat) by (apply nth_error_Some; congruence).
      destruct (firstn_snoc_lt _ hs x k K) as [F E]. rewrite <- F. apply H. congruence.
    + destruct (firstn_snoc_eq _ hs x) as [F E]. rewrite <- F at 1. apply H. exact E.
  - intros [H Hx] k y Hy. destruct (nth_snoc_cases _ _ _ _ _ Hy) as [[_ [Hy' ->]]|[_ [-> ->]]]; [exact (H k y Hy')|exact Hx].
Qed.
Lemma sends_snoc : forall e hs x, sends_work e (hs ++ [x]) <->
  sends_work e hs /\ ni_send (fst x) = true /\ forall to d, replies e hs x (Some (to, d)) -> len d <= 65507.
Proof.
  intros e hs x. unfold sends_work. split.
  - intros H. split.
    + intros k y Hy. assert (K : (k < List.length hs)%nat) by (apply nth_error_Some; congruence).
      destruct (firstn_snoc_lt _ hs x k K) as [F E]. rewrite <- F. apply H. congruence.
    + destruct (firstn_snoc_eq _ hs x) as [F E]. specialize (H _ x E). rewrite F in H. exact H.
  - intros [H Hx] k y Hy. destruct (nth_snoc_cases _ _ _ _ _ Hy) as [[_ [Hy' ->]]|[_ [-> ->]]]; [exact (H k y Hy')|exact Hx].
Qed.

Lemma served_snoc : forall e hs x, served e (hs ++ [x]) =
  (fst (nfs_turn e (fst x) (fst (served e hs))), snd (served e hs) ++ [snd (nfs_turn e (fst x) (fst (served e hs)))]).
Proof. intros. unfold served. rewrite map_app. apply run_snoc. Qed.
Lemma served_nth : forall e hs k x, nth_error hs k = Some x ->
  nth k (snd (served e hs)) [] = snd (nfs_turn e (fst x) (fst (served e (firstn k hs)))).
Proof.
  intros e hs k x H. unfold served. rewrite <- firstn_map. apply run_nth. apply map_nth_error. exact H.
Qed.

Lemma served_state : forall e hs, history_ok hs ->
  (never_killed e hs /\ exists n, sv_nfs (fst (served e hs)) = Some n /\ inv hs n) \/
  (~ never_killed e hs /\ sv_nfs (fst (served e hs)) = None).
Proof.
  intros e hs. induction hs as [|x hs IH] using rev_ind; intros H.
  - left. split; [intros k y F; destruct k; discriminate F|]. exists nfs_new. split; [reflexivity|exact inv_new].
  - apply history_snoc in H. destruct H as [H [B Hx]]. rewrite served_snoc. cbn [fst].
    destruct (IH H) as [[Nk [n [E I]]]|[Nk E]].
    + destruct (fst (served e hs)) as [sn u]. cbn [sv_nfs] in E. subst sn.
      destruct (turn_step e hs n u x I B Hx) as [[n' [d [K [I' [_ T]]]]]|[K T]]; rewrite T; cbn [fst sv_nfs].
      * left. split; [apply never_snoc; split; assumption|]. exists n'. split; [reflexivity|exact I'].
      * right. split; [|reflexivity]. rewrite never_snoc. tauto.
    + right. split; [rewrite never_snoc; tauto|].
      unfold nfs_turn. rewrite E. exact E.
Qed.

Lemma put_well : forall i d, ni_send i = true -> (forall to b, d = Some (to, b) -> len b <= 65507) ->
  put None i d = (None, match d with Some d => [d] | None => [] end).
Proof.
  intros i [[to b]|] S L; [|reflexivity]. cbn [put framed_send snd]. unfold send_to. rewrite S.
  pose proof (L to b eq_refl). unfold max_datagram. destruct (N.leb_spec (len b) 65507); [reflexivity|lia].
Qed.

Lemma served_unsent : forall e hs, goes_well e hs -> sv_unsent (fst (served e hs)) = None.
Proof.
  intros e hs. induction hs as [|x hs IH] using rev_ind; intros [H [Nk S]]; [reflexivity|].
  rewrite served_snoc. cbn [fst].
  apply history_snoc in H. apply never_snoc in Nk. apply sends_snoc in S.
  destruct H as [H [B Hx]], Nk as [Nk Kx], S as [S [Sx Lx]].
  specialize (IH (conj H (conj Nk S))).
  destruct (served_state e hs H) as [[_ [n [E I]]]|[F _]]; [|contradiction].
  destruct (fst (served e hs)) as [sn u]. cbn [sv_nfs sv_unsent] in *. subst sn u.
  destruct (turn_step e hs n None x I B Hx) as [[n' [d [K [I' [R T]]]]]|[K _]]; [|contradiction].
  rewrite T. cbn [fst sv_unsent]. rewrite put_well; [reflexivity|exact Sx|].
  intros to b ->. exact (Lx to b R).
Qed.

Lemma history_firstn : forall hs k, history_ok hs -> history_ok (firstn k hs).
Proof.
  intros hs k H. apply Forall_forall. intros x Hx. rewrite <- (firstn_skipn k hs) in H.
  apply Forall_app in H. exact (proj1 (Forall_forall _ _) (proj1 H) x Hx).
Qed.
Lemma nth_firstn_lt : forall A (l : list A) k j, (j < k)%nat ->
  nth_error (firstn k l) j = nth_error l j /\ firstn j (firstn k l) = firstn j l.
Proof.
  intros A l k j H. split.
  - revert l j H. induction k; intros l j H; [lia|]. destruct l; [destruct j; reflexivity|].
    destruct j; [reflexivity|]. cbn [firstn nth_error]. apply IHk. lia.
  - rewrite firstn_firstn. f_equal. lia.
Qed.
Lemma never_firstn : forall e hs k, never_killed e hs -> never_killed e (firstn k hs).
Proof.
  intros e hs k H j x Hj.
  assert (J : (j < k)%nat).
  { assert (j < List.length (firstn k hs))%nat by (apply nth_error_Some; congruence). rewrite firstn_length in *. lia. }
  destruct (nth_firstn_lt _ hs k j J) as [E F]. rewrite F. apply H. congruence.
Qed.
Lemma sends_firstn : forall e hs k, sends_work e hs -> sends_work e (firstn k hs).
Proof.
  intros e hs k H j x Hj.
  assert (J : (j < k)%nat).
  { assert (j < List.length (firstn k hs))%nat by (apply nth_error_Some; congruence). rewrite firstn_length in *. lia. }
  destruct (nth_firstn_lt _ hs k j J) as [E F]. rewrite F. apply H. congruence.
Qed.
Lemma well_firstn : forall e hs k, goes_well e hs -> goes_well e (firstn k hs).
Proof.
  intros e hs k [A [B C]]. split; [apply history_firstn; exact A|].
  split; [apply never_firstn; exact B|apply sends_firstn; exact C].
Qed.
