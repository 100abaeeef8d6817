(** Lemmas about loading a track. *)

From Verif Require Import Base Unicode SUdp MRpc SRpc MNetwork MRpcServer SRpcServer MNfs SNfs MPath MScan SScan
  LBase LUnicode LScan SLoad LNfs LNfs2 LEnd PNfs.
From Coq Require Import ZArith Arith.
Open Scope list_scope.
Open Scope N_scope.

(** ** Parts *)

Lemma absolute_inj : forall a b, Forall (fun n => ~ In 47 n) a -> Forall (fun n => ~ In 47 n) b ->
  absolute a = absolute b -> a = b.
Proof.
  intros a b Ha Hb E. unfold absolute in E. revert b Hb E.
  assert (G : forall x y u v, ~ In 47 x -> ~ In 47 y ->
      (u = [] \/ exists u', u = 47 :: u') -> (v = [] \/ exists v', v = 47 :: v') ->
      x ++ u = y ++ v -> x = y /\ u = v).
    { clear. induction x as [|c x IH]; intros y u v Hx Hy Hu Hv E.
      - destruct y as [|c' y]; [auto|]. cbn [app] in E. destruct Hu as [->|[u' ->]]; [discriminate|].
        injection E as <- _. elim Hy. left. reflexivity.
      - destruct y as [|c' y].
        + cbn [app] in E. destruct Hv as [->|[v' ->]]; [discriminate|]. injection E as -> _. elim Hx. left. reflexivity.
        + cbn [app] in E. injection E as -> E. destruct (IH y u v) as [-> ->]; try assumption; [|auto|auto].
          * intros I. apply Hx. right. exact I.
          * intros I. apply Hy. right. exact I. }
  assert (H : forall k, flat_map (fun n : bytes => 47 :: n) k = [] \/ exists u', flat_map (fun n : bytes => 47 :: n) k = 47 :: u').
  { intros [|k r]; [left; reflexivity|right; eexists; reflexivity]. }
  induction Ha as [|n a Hn Ha IH]; intros b Hb E.
  - destruct Hb; [reflexivity|discriminate].
  - destruct Hb as [|m b Hm Hb]; [discriminate|]. cbn [flat_map app] in E. injection E as E.
    destruct (G n m _ _ Hn Hm (H a) (H b) E) as [-> E2]. f_equal. apply IH; assumption.
Qed.

Lemma slash_utf8 : forall s, In 47 (utf8_encode s) -> In 47 s.
Proof.
  intros s. induction s as [|c s IH]; [intros []|]. rewrite utf8_encode_cons.
  intros I. apply in_app_or in I. destruct I as [I|I]; [|right; apply IH; exact I]. left.
  unfold utf8_char in I. destruct (c <? 128); [destruct I as [I|[]]; exact I|exfalso].
  destruct (c <? 2048); [|destruct (c <? 65536)]; cbn [In] in I;
    repeat (destruct I as [I|I]; [revert I; generalize (c / 64) (c mod 64) (c / 4096) (c / 64 mod 64) (c / 262144) (c / 4096 mod 64); intros; lia|]);
    exact I.
Qed.

Fixpoint pieces (s : str) : str * list str :=
  match s with
  | [] => ([], [])
  | c :: s => let (p, r) := pieces s in if c =? 47 then ([], p :: r) else (c :: p, r)
  end.

Lemma pieces_spec : forall s : list N, s = fst (pieces s) ++ flat_map (fun c : str => 47 :: c) (snd (pieces s)) /\
  Forall (fun c => ~ In 47 c) (fst (pieces s) :: snd (pieces s)).
Proof.
  induction s as [|c s [IH1 IH2]]; [split; [reflexivity|constructor; [intros []|constructor]]|].
  cbn [pieces]. destruct (pieces s) as [p r]. cbn [fst snd] in *. destruct (N.eqb_spec c 47) as [->|Nc]; cbn [fst snd app flat_map].
  - split; [f_equal; exact IH1|]. constructor; [intros []|exact IH2].
  - split; [f_equal; exact IH1|]. inversion IH2. subst. constructor; [|assumption]. intros [E|I]; [congruence|contradiction].
Qed.

Lemma utf8_parts : forall cs, utf8_encode (flat_map (fun c => 47 :: c) cs) = absolute (map utf8_encode cs).
Proof.
  induction cs as [|c cs IH]; [reflexivity|]. cbn [flat_map map app]. rewrite utf8_encode_cons, utf8_encode_app, IH. reflexivity.
Qed.

Lemma parts_unique : forall path cs cs', parts path cs -> parts path cs' -> cs = cs'.
Proof.
  intros path cs cs' [E H] [E' H']. apply absolute_inj; [| |unfold absolute; congruence].
  - eapply Forall_impl; [|exact H]. intros c [_ Hc]. exact Hc.
  - eapply Forall_impl; [|exact H']. intros c [_ Hc]. exact Hc.
Qed.

Lemma parts_of_bytes : forall path bs, str_ok path -> Forall component bs -> utf8_encode path = absolute bs ->
  exists cs, parts path cs /\ map utf8_encode cs = bs /\ Forall str_ok cs.
Proof.
  intros path bs Sp Hb E. destruct (pieces_spec path) as [P F]. destruct (pieces path) as [p cs]. cbn [fst snd] in *.
  inversion F as [|? ? Fp Fc]. subst.
  assert (p = []).
  { destruct p as [|c p]; [reflexivity|]. exfalso. cbn [app] in E. rewrite utf8_encode_cons in E.
    assert (c <> 47) by (intros ->; apply Fp; left; reflexivity).
    assert (forall b r, utf8_char c ++ r <> 47 :: b).
    { intros b r H1. apply H. destruct (slash_utf8 [c]) as [H2|[]]; [|exact H2].
      rewrite utf8_encode_cons. unfold utf8_char in *. destruct (c <? 128); [|destruct (c <? 2048); [|destruct (c <? 65536)]];
        cbn [app] in H1; injection H1 as H1 _; cbn [app]; left; exact H1. }
    destruct bs as [|b bs]; cbn [absolute flat_map app] in E.
    - unfold utf8_char in E. destruct (c <? 128); [|destruct (c <? 2048); [|destruct (c <? 65536)]]; discriminate.
    - exact (H0 _ _ E). }
  subst p. cbn [app] in *. rewrite utf8_parts in E.
  assert (M : map utf8_encode cs = bs).
  { apply absolute_inj; [| |exact E].
    - apply Forall_map. eapply Forall_impl; [|exact Fc]. intros c Hc I. apply Hc, slash_utf8, I.
    - eapply Forall_impl; [|exact Hb]. intros c [_ Hc]. exact Hc. }
  exists cs. split; [split; [reflexivity|]|split; [exact M|]].
  - apply Forall_forall. intros c I. split; [|exact (proj1 (Forall_forall _ _) Fc c I)].
    intros ->. rewrite <- M in Hb. apply (proj1 (Forall_forall _ _)) with (x := []) in Hb; [elim (proj1 Hb); reflexivity|].
    apply in_map_iff. exists []. auto.
  - clear -Sp. induction cs as [|c cs IH]; [constructor|]. cbn [flat_map app] in Sp. inversion Sp as [|? ? _ Sp']. subst.
    apply Forall_app in Sp'. destruct Sp' as [S1 S2]. constructor; [exact S1|apply IH; exact S2].
Qed.

(** ** Pieces of a file *)

Lemma nth_skipn_plus : forall (l : bytes) k j, nth j (skipn k l) 0 = nth (k + j) l 0.
Proof. induction l as [|a l IH]; intros [|k] j; try reflexivity; [destruct j; reflexivity|]. cbn [skipn nth Nat.add]. apply IH. Qed.
Lemma nth_firstn_less : forall (l : bytes) k j, (j < k)%nat -> nth j (firstn k l) 0 = nth j l 0.
Proof.
  induction l as [|a l IH]; intros [|k] [|j] L; try reflexivity; try lia. cbn [firstn nth]. apply IH. lia.
Qed.

Lemma skipn_twice : forall (l : bytes) a b, skipn a (skipn b l) = skipn (a + b) l.
Proof.
  induction l as [|x l IH]; intros a b; [rewrite !skipn_nil; reflexivity|].
  destruct b; [rewrite Nat.add_0_r; reflexivity|]. rewrite <- plus_n_Sm. cbn [skipn]. apply IH.
Qed.
Lemma pieces_join : forall content cnt datas off,
  (forall k data, nth_error datas k = Some data -> range_with_zeros content (off + cnt * N.of_nat k) cnt data) ->
  len content <= off + cnt * len datas ->
  firstn (N.to_nat (len content - off)) (concat datas) = skipn (N.to_nat off) content.
Proof.
  intros content cnt datas. induction datas as [|data datas IH]; intros off H L.
  - unfold len in *. cbn [List.length concat] in *. rewrite skipn_all2 by lia. apply firstn_nil.
  - cbn [concat]. destruct (H 0%nat data eq_refl) as [Ld Hd].
    rewrite N.mul_0_r, N.add_0_r in Hd.
    rewrite firstn_app. specialize (IH (off + cnt)).
    replace (N.to_nat (len content - off) - List.length data)%nat with (N.to_nat (len content - (off + cnt))) by (unfold len in *; lia).
    rewrite IH.
    2:{ intros k d' Hk. specialize (H (S k) d' Hk). replace (off + cnt + cnt * N.of_nat k) with (off + cnt * N.of_nat (S k)) by lia. exact H. }
    2:{ unfold len in *. cbn [List.length] in L. lia. }
    replace (skipn (N.to_nat off) content) with
      (firstn (N.to_nat cnt) (skipn (N.to_nat off) content) ++ skipn (N.to_nat cnt) (skipn (N.to_nat off) content))
      by apply firstn_skipn.
    rewrite skipn_twice. replace (N.to_nat cnt + N.to_nat off)%nat with (N.to_nat (off + cnt)) by lia. f_equal.
    apply (nth_ext _ _ 0 0).
    + rewrite !firstn_length, skipn_length. unfold len in *. lia.
    + intros n Hn. rewrite firstn_length in Hn. rewrite nth_firstn_less by lia.
      specialize (Hd (N.of_nat n)). rewrite Nat2N.id in Hd. rewrite Hd by (unfold len in *; lia).
      destruct (N.ltb_spec (off + N.of_nat n) (len content)); [|unfold len in *; lia].
      rewrite nth_firstn_less by (unfold len in *; lia). rewrite nth_skipn_plus. f_equal. lia.
Qed.

(** ** Calls *)

Lemma asks_heard : forall p x, asks p x ->
  bytes_ok (ni_datagram (fst x)) /\ hears (ni_datagram (fst x)) (snd x) /\ ni_send (fst x) = true /\
  exists xid, snd x = Asked xid p.
Proof.
  intros p x (xid & (rpcvers & vers & stamp & uid & gid & proc & args & Hx & Hr & Hv & Hs & Hu & Hg & A & B & E) & S & Se).
  split; [exact B|]. split; [|split; [exact Se|exists xid; exact S]]. rewrite S. rewrite E in B |- *.
  apply (C51_standard_calls_heard xid rpcvers vers stamp uid gid p proc args); assumption.
Qed.

Lemma walks_of : forall cs walk,
  Forall2 (fun c x => exists h, asks (NfsLookup (mkLookup (utf8_encode c) h)) x) cs walk ->
  walks (map utf8_encode cs) walk.
Proof.
  intros cs walk H. induction H as [|c x cs walk (h & A) _ IH]; [constructor|].
  cbn [map]. constructor; [|exact IH]. destruct (asks_heard _ _ A) as (B & Hh & Se & xid & E).
  split; [exact B|]. split; [exact Hh|]. split; [exact Se|]. exists xid, h. exact E.
Qed.

Lemma read_opens_nothing : forall before x xid r ino f, snd x = Asked xid (NfsRead r) -> ~ opens before x ino f.
Proof. intros before x xid r ino f E (xid' & l & m & E' & _). rewrite E in E'. discriminate. Qed.

Lemma fattr_len : forall fattr m, fattr_says fattr m -> len fattr = 68.
Proof. intros fattr m [L _]. unfold len. rewrite L. reflexivity. Qed.

(** Reading piece by piece through the handle of an open file. *)
Lemma reads_answered : forall hs ino f contents cnt reads, goes_well Little hs -> latest_opened hs ino f -> ino < 2 ^ 64 ->
  cnt <= 65404 -> reads_pieces (handle_for ino) cnt reads -> has_contents f contents reads ->
  goes_well Little (hs ++ reads) /\ latest_opened (hs ++ reads) ino f /\
  exists got, Forall2 (fun x g => data_reply x (fst g) (snd g)) reads got /\
    snd (served Little (hs ++ reads)) = snd (served Little hs) ++ map (fun g => [snd g]) got /\
    forall k g c, nth_error got k = Some g -> nth_error contents k = Some c -> range_with_zeros c (cnt * N.of_nat k) cnt (fst g).
Proof.
  intros hs ino f contents cnt reads W L Li Le. revert contents. induction reads as [|x reads IH] using rev_ind; intros contents R C.
  - rewrite app_nil_r. split; [exact W|]. split; [exact L|]. exists []. split; [constructor|].
    split; [cbn [map]; rewrite app_nil_r; reflexivity|]. intros [|k] g c H; discriminate.
  - apply Forall2_app_inv_r in C. destruct C as (contents' & last' & C & Cx & ->).
    inversion Cx as [|content ? ? ? (Ct & m & Fs & T) Cn]. subst. inversion Cn. subst. clear Cx Cn.
    assert (Lc : List.length contents' = List.length reads) by (clear -C; induction C; cbn [List.length]; congruence).
    destruct (IH contents') as (W' & L' & got & F & O & Rg); [|exact C|].
    { intros k y Hk. apply R. rewrite nth_error_app1; [exact Hk|]. apply nth_error_Some. congruence. }
    destruct (R (List.length reads) x) as [total A]; [rewrite nth_error_app2, Nat.sub_diag by lia; reflexivity|].
    destruct (asks_heard _ _ A) as (B & Hh & Se & xid & E).
    assert (Hf : handle_of_file Little (hs ++ reads) (handle_for ino) f).
    { exists ino. split; [split; [exact Li|reflexivity]|exact L']. }
    destruct (read_answered Little _ x xid _ _ cnt total f content m W' B Hh E Se Hf Ct Fs T Le) as (W2 & fattr & data & Fa & Rd & Out).
    rewrite app_assoc. split; [exact W2|]. split.
    { apply latest_later; [exact L'|]. intros [|j] y ino' f' Hy Op; cbn [nth_error] in Hy; [|destruct j; discriminate].
      injection Hy as <-. elim (read_opens_nothing _ _ _ _ _ _ E Op). }
    exists (got ++ [(data, (ni_from (fst x), std_reply xid (std_read_result fattr data)))]).
    assert (Lg : List.length got = List.length reads) by (clear -F; induction F; cbn [List.length]; congruence).
    split; [|split].
    + apply Forall2_app; [exact F|]. constructor; [|constructor]. exists xid. eexists. exists fattr.
      split; [exact E|]. split; [exact (fattr_len _ _ Fa)|reflexivity].
    + rewrite served_snoc in Out |- *. cbn [snd] in *. rewrite map_app. cbn [map snd]. rewrite app_assoc, <- O.
      f_equal. rewrite app_nth2 in Out.
      2:{ unfold served. rewrite run_length, map_length. lia. }
      replace (List.length (hs ++ reads) - List.length (snd (served Little (hs ++ reads))))%nat with 0%nat in Out.
      2:{ unfold served. rewrite run_length, map_length. lia. }
      cbn [nth] in Out. rewrite Out. reflexivity.
    + intros k g c Hk Hc. destruct (Nat.lt_ge_cases k (List.length got)) as [G|G].
      * rewrite nth_error_app1 in Hk by exact G. rewrite nth_error_app1 in Hc by lia. exact (Rg k g c Hk Hc).
      * assert (k = List.length reads).
        { assert (k < List.length (got ++ [(data, (ni_from (fst x), std_reply xid (std_read_result fattr data)))]))%nat
            by (apply nth_error_Some; congruence). rewrite app_length in H. cbn [List.length] in H. lia. }
        subst k. rewrite nth_error_app2, Lg, Nat.sub_diag in Hk by lia. injection Hk as <-.
        rewrite nth_error_app2, Lc, Nat.sub_diag in Hc by lia. injection Hc as <-. exact Rd.
Qed.

Lemma same_contents : forall f content reads, has_content f content reads ->
  has_contents f (repeat content (List.length reads)) reads.
Proof. intros f content reads H. induction H as [|x reads A _ IH]; [constructor|]. cbn [List.length repeat]. constructor; assumption. Qed.
