(** Properties C47 to C53 and C60 to C62: the NFS service. *)

From Verif Require Import Base Unicode SUdp MPath MDatabase MRpc SRpc MNetwork MRpcServer SRpcServer MNfs SNfs
  LBase LUnicode LUdp LDatabase LRpc LRpc2 PRpc LRpcServer LNfs LNfs2.
From Coq Require Import ZArith String.
Open Scope list_scope.
Open Scope N_scope.

(** ** C47 *)

(** The handle of an inode is its little-endian bytes and zeros, 32 bytes. *)
Theorem C47_handle_layout : forall i, encode_file_handler i = handle_for i /\ len (handle_for i) = 32.
Proof. intros i. split; [apply handle_for_spec|]. rewrite <- handle_for_spec. apply handle_len. Qed.
Print Assumptions C47_handle_layout.

(** On a little-endian host it reads back as the inode, for every 64-bit inode;
    handles of different inodes are different. *)
Theorem C47_little_endian : forall i, i < 2^64 ->
  handle_ino Little (encode_file_handler i) = i /\
  forall j, j < 2^64 -> handle_for i = handle_for j -> i = j.
Proof.
  intros i H. split; [exact (handle_little i H)|]. intros j Hj E.
  rewrite <- !handle_for_spec in E. rewrite <- (handle_little i H), <- (handle_little j Hj), E. reflexivity.
Qed.
Print Assumptions C47_little_endian.

(** On a big-endian host it does so exactly for the inodes whose eight bytes are
    a palindrome. *)
Theorem C47_big_endian_exactly : forall i, i < 2^64 ->
  (handle_ino Big (encode_file_handler i) = i <-> rev (firstn 8 (handle_for i)) = firstn 8 (handle_for i)).
Proof.
  intros i H. rewrite <- handle_for_spec, handle_first8. unfold handle_ino. rewrite handle_first8.
  assert (E : of_be (le 8 i) = of_le (rev (le 8 i))) by (rewrite of_le_rev, rev_involutive; reflexivity).
  rewrite E. split.
  - intros F. assert (B : bytes_ok (rev (le 8 i))) by (apply Forall_rev, le_ok).
    pose proof (le_of_le _ B) as R. rewrite rev_length, le_length, F in R. symmetry. exact R.
  - intros ->. apply (of_le_le_small 8). exact H.
Qed.
Print Assumptions C47_big_endian_exactly.

Example C47_case : handle_ino Little (encode_file_handler 0x0102030405060708) = 0x0102030405060708 /\
  handle_ino Big (encode_file_handler 0x0102030405060708) = 0x0807060504030201 /\
  handle_ino Big (encode_file_handler 0x0102030404030201) = 0x0102030404030201.
Proof. repeat split; vm_compute; reflexivity. Qed.

(** ** C51 *)

(** Every datagram is heard in exactly one way. *)
Theorem C51_heard : forall d, bytes_ok d -> exists h, hears d h /\ forall h', hears d h' -> h' = h.
Proof.
  intros d B. destruct (codec_cases d B) as [[m [c [_ [C Bc]]]]|[[_ [R Nc]]|[_ [Nc Nr]]]].
  - exists (Asked (rpc_xid m) (ca_procedure c)). split; [exists m, c; repeat split; assumption|].
    intros [|xid p|] H; cbn [hears] in H.
    + elim (proj1 H m C).
    + destruct H as [m' [c' [C' [Bc' [-> ->]]]]]. pose proof (call_functional _ _ _ C C'). subst m'. congruence.
    + destruct H as [_ T]. destruct C as [c' [_ [_ [_ [F _]]]]]. congruence.
  - exists Fatal. split; [exact R|]. intros [|xid p|] H; cbn [hears] in H; [tauto| |reflexivity].
    destruct H as [m [c [C _]]]. elim (Nc m C).
  - exists Ignored. split; [split; assumption|]. intros [|xid p|] H; cbn [hears] in H; [reflexivity| |contradiction].
    destruct H as [m [c [C _]]]. elim (Nc m C).
Qed.
Print Assumptions C51_heard.

(** Standard calls of the NFS procedures are heard as such. *)
Theorem C51_standard_calls_heard : forall xid rpcvers vers stamp uid gid p proc args,
  word_ok xid -> word_ok rpcvers -> word_ok vers -> word_ok stamp -> word_ok uid -> word_ok gid ->
  std_args p Nfs proc args ->
  let d := std_call xid rpcvers 100003 vers proc (std_auth 1 (unix_body stamp [] uid gid [])) (std_auth 0 []) args in
  bytes_ok d -> hears d (Asked xid p).
Proof.
  intros xid rpcvers vers stamp uid gid p proc args Hx Hr Hv Hs Hu Hg A d B.
  assert (E : codec_decode d = Ok (Some (mkRpc xid (Call (mkCall rpcvers Nfs vers p
                               (mkCred 1 20 stamp 0 uid gid 0) AuthNull))))).
  { apply (C40_standard_calls_understood xid rpcvers vers stamp uid gid p Nfs proc args); try assumption.
    intros path ->. inversion A. }
  destruct (codec_cases d B) as [[m [c [E' [C Bc]]]]|[[E' _]|[E' _]]].
  - rewrite E in E'. injection E' as <-. exists (mkRpc xid (Call (mkCall rpcvers Nfs vers p
      (mkCred 1 20 stamp 0 uid gid 0) AuthNull))), c. split; [exact C|]. split; [exact Bc|].
    cbn [rpc_body] in Bc. injection Bc as <-. split; reflexivity.
  - congruence.
  - destruct E'; congruence.
Qed.
Print Assumptions C51_standard_calls_heard.

(** In a history in which the service is not killed and every reply can be sent,
    every input is answered as [replies] says: a lookup through the file system
    at the current position, a read or attribute request only through a handle
    whose inode number was given out for a regular file opened earlier in the
    same session, and then from the file most recently opened for it; other
    procedures, unknown handles and failures of the file system get no reply. *)
Theorem C51_history : forall e hs k x, goes_well e hs -> nth_error hs k = Some x ->
  exists d, replies e (firstn k hs) x d /\
    nth k (snd (served e hs)) [] = match d with Some d => [d] | None => [] end.
Proof.
  intros e hs k x W Hk. rewrite (served_nth e hs k x Hk).
  pose proof (well_firstn e hs k W) as Wk. pose proof (served_unsent e _ Wk) as U.
  destruct Wk as [Hok [Nk _]]. destruct (served_state e _ Hok) as [[_ [n [E I]]]|[F _]]; [|contradiction].
  destruct (fst (served e (firstn k hs))) as [sn u]. cbn [sv_nfs sv_unsent] in *. subst sn u.
  destruct W as [Hk' [Kx Sx]].
  pose proof (proj1 (Forall_forall _ _) Hk' x (nth_error_In _ _ Hk)) as [B Hx].
  destruct (turn_step e (firstn k hs) n None x I B Hx) as [[n' [d [K [_ [R T]]]]]|[K _]]; [|elim (Kx k x Hk K)].
  exists d. split; [exact R|]. rewrite T. cbn [snd]. destruct (Sx k x Hk) as [Se Le].
  rewrite put_well; [reflexivity|exact Se|]. intros to b ->. exact (Le to b R).
Qed.
Print Assumptions C51_history.

(** ** C62 *)

(** The service runs after a history exactly if it was never killed: by a type-1
    datagram, or by needing attributes of a file one of whose times is unknown. *)
Theorem C62_running_exactly : forall e hs, history_ok hs ->
  (sv_nfs (fst (served e hs)) <> None <-> never_killed e hs).
Proof.
  intros e hs H. destruct (served_state e hs H) as [[K [n [E _]]]|[K E]]; rewrite E.
  - split; [intros _; exact K|discriminate].
  - split; [congruence|contradiction].
Qed.
Print Assumptions C62_running_exactly.

Lemma dead_run : forall e is s, sv_nfs s = None -> forall k, nth k (snd (nfs_run e is s)) [] = [].
Proof.
  intros e is. induction is as [|i is IH]; intros s D k; [destruct k; reflexivity|].
  cbn [nfs_run]. unfold nfs_turn. rewrite D. specialize (IH s D).
  destruct (nfs_run e is s) as [s' outs]. destruct k; [reflexivity|]. apply IH.
Qed.

(** Once killed, nothing is answered any more. *)
Theorem C62_silent_after : forall e hs k j, history_ok hs -> ~ never_killed e (firstn k hs) -> (k <= j)%nat ->
  nth j (snd (served e hs)) [] = [].
Proof.
  intros e hs k j H K J. unfold served.
  rewrite <- (firstn_skipn k hs), map_app, run_app. cbn [snd].
  pose proof (run_length e (map fst (firstn k hs)) service_new) as L. rewrite map_length in L.
  destruct (le_lt_dec (List.length hs) j) as [G|G].
  - apply nth_overflow. rewrite app_length, L, run_length, map_length, <- app_length, firstn_skipn. exact G.
  - rewrite app_nth2 by (rewrite L, firstn_length; lia). apply dead_run.
    destruct (served_state e (firstn k hs) (history_firstn _ k H)) as [[F _]|[_ E]]; [contradiction|exact E].
Qed.
Print Assumptions C62_silent_after.

(** The inputs that kill: exactly type-1 datagrams, and calls that succeed but for
    a missing time. *)
Theorem C62_killers : forall e before x, kills e before x <->
  snd x = Fatal \/
  exists xid p m, snd x = Asked xid p /\ ~ times_known m /\
    match p with
    | NfsLookup l =>
        os_stat (ni_os (fst x)) (resolve (position before) (lk_filename l)) = Some m /\
        os_open (ni_os (fst x)) (resolve (position before) (lk_filename l)) <> None
    | NfsGetAttr h => exists f, handle_of_file e before h f /\ os_fstat (ni_os (fst x)) f = Some m
    | NfsRead r => exists f, handle_of_file e before (rd_fhandle r) f /\
        os_fstat (ni_os (fst x)) f = Some m /\ os_content (ni_os (fst x)) f <> None
    | _ => False
    end.
Proof.
  intros e before x. unfold kills. destruct (snd x) as [|xid p|].
  - split; [intros []|]. intros [F|[xid [p [m [F _]]]]]; discriminate F.
  - split.
    + intros K. right. destruct p; cbn [call_outcome] in K; try discriminate K.
      * destruct K as [[f [Hf K]]|[_ K]]; [|discriminate K]. unfold getattr_outcome in K.
        destruct (os_fstat _ f) as [m|] eqn:Fs; [|discriminate K].
        exists xid, (NfsGetAttr h), m. split; [reflexivity|]. split; [exact K|]. exists f. split; assumption.
      * unfold lookup_outcome in K. destruct (os_stat _ _) as [m|] eqn:St; [|discriminate K].
        destruct (os_open _ _) eqn:Op; [|discriminate K].
        exists xid, (NfsLookup l), m. split; [reflexivity|]. split; [exact K|]. split; [exact St|congruence].
      * destruct K as [[f [Hf K]]|[_ K]]; [|discriminate K]. unfold read_outcome in K.
        destruct (os_content _ f) eqn:Ct; [|discriminate K].
        destruct (os_fstat _ f) as [m|] eqn:Fs; [|discriminate K].
        exists xid, (NfsRead r), m. split; [reflexivity|]. split; [exact K|]. exists f.
        split; [exact Hf|]. split; [exact Fs|congruence].
    + intros [F|[xid' [p' [m [E [T C]]]]]]; [discriminate F|]. injection E as <- <-.
      destruct p; try contradiction; cbn [call_outcome].
      * destruct C as [f [Hf Fs]]. left. exists f. split; [exact Hf|]. unfold getattr_outcome. rewrite Fs. exact T.
      * destruct C as [St Op]. unfold lookup_outcome. rewrite St. destruct (os_open _ _); [exact T|congruence].
      * destruct C as [f [Hf [Fs Ct]]]. left. exists f. split; [exact Hf|]. unfold read_outcome.
        destruct (os_content _ f); [|congruence]. rewrite Fs. exact T.
  - split; [left; reflexivity|]. intros _. exact I.
Qed.
Print Assumptions C62_killers.

(** ** C48 *)

Lemma walk_prefix : forall e before names walk, goes_well e before -> position before = [47] ->
  Forall component names -> walks names walk ->
  (forall j x, nth_error walk j = Some x -> exists m f,
     os_stat (ni_os (fst x)) (absolute (firstn (j + 1) names)) = Some m /\
     os_open (ni_os (fst x)) (absolute (firstn (j + 1) names)) = Some f /\
     times_known m /\ m_file m = (j + 1 =? List.length names)%nat) ->
  forall k, (k <= List.length names)%nat ->
  goes_well e (before ++ firstn k walk) /\
  position (before ++ firstn k walk) =
    (if ((k =? 0) || (k =? List.length names))%nat then [47] else absolute (firstn k names)) /\
  (forall j x xid p m, (j < k)%nat -> nth_error walk j = Some x -> snd x = Asked xid p ->
     os_stat (ni_os (fst x)) (absolute (firstn (j + 1) names)) = Some m ->
     exists fattr, fattr_says fattr m /\
       nth (List.length before + j) (snd (served e (before ++ firstn k walk))) [] =
       [(ni_from (fst x), std_reply xid (std_lookup_result (handle_for (m_ino m)) fattr))]) /\
  (forall x m f, k = List.length names -> nth_error walk (k - 1) = Some x ->
     os_stat (ni_os (fst x)) (absolute names) = Some m -> os_open (ni_os (fst x)) (absolute names) = Some f ->
     latest_opened (before ++ firstn k walk) (m_ino m) f).
Proof.
  intros e before names walk W P Cn Wk Fs.
  assert (Lw : List.length walk = List.length names) by exact (walks_length _ _ Wk).
  induction k as [|k IH]; intros Hk.
  - cbn [firstn]. rewrite app_nil_r. split; [exact W|]. split; [exact P|].
    split; [intros; lia|]. intros x m f K0 Hx. rewrite <- K0 in Lw. destruct walk; [discriminate Hx|discriminate Lw].
  - destruct (IH ltac:(lia)) as [Wk' [Pk [Ok _]]]. clear IH.
    assert (Ex : exists x, nth_error walk k = Some x).
    { destruct (nth_error walk k) as [x|] eqn:E; [eauto|]. apply nth_error_None in E. lia. }
    destruct Ex as [x Ex].
    assert (En : exists n, nth_error names k = Some n).
    { destruct (nth_error names k) as [n|] eqn:E; [eauto|]. apply nth_error_None in E. lia. }
    destruct En as [n En].
    assert (Sn : firstn (S k) names = firstn k names ++ [n] /\ firstn (S k) walk = firstn k walk ++ [x]).
    { assert (G : forall A (l : list A) k a, nth_error l k = Some a -> firstn (S k) l = firstn k l ++ [a]).
      { clear. intros A l. induction l; intros k b H; [destruct k; discriminate H|].
        destruct k; [cbn in H; injection H as ->; reflexivity|]. cbn [firstn app]. f_equal. apply IHl. exact H. }
      split; apply G; assumption. }
    destruct Sn as [Sn Sw].
    assert (Hx : bytes_ok (ni_datagram (fst x)) /\ hears (ni_datagram (fst x)) (snd x) /\ ni_send (fst x) = true /\
      exists xid h, snd x = Asked xid (NfsLookup (mkLookup n h))).
    { clear - Wk Ex En. revert k Ex En. induction Wk; intros k Ex En; [destruct k; discriminate Ex|].
      destruct k; [injection Ex as ->; injection En as ->; assumption|]. exact (IHWk k Ex En). }
    destruct Hx as [B [Hh [Se [xid [h Hx]]]]].
    destruct (Fs k x Ex) as [m [f [St [Op [T Fi]]]]].
    replace (k + 1)%nat with (S k) in * by lia.
    assert (Cmp : Forall component (firstn k names) /\ component n).
    { split.
      - apply Forall_forall. intros y Hy. apply (proj1 (Forall_forall _ _) Cn).
        rewrite <- (firstn_skipn k names). apply in_or_app. left. exact Hy.
      - apply (proj1 (Forall_forall _ _) Cn). exact (nth_error_In _ _ En). }
    assert (Tg : resolve (position (before ++ firstn k walk)) n = absolute (firstn (S k) names)).
    { rewrite Sn, <- (resolve_component _ _ (proj1 Cmp) (proj2 Cmp)), Pk. f_equal.
      destruct k; [reflexivity|].
      assert (Z : ((S k =? 0) || (S k =? List.length names))%nat = false).
      { apply Bool.orb_false_iff. split; [reflexivity|]. apply Nat.eqb_neq. lia. }
      rewrite Z. destruct names; [cbn in En; discriminate En|reflexivity]. }
    assert (LA : goes_well e ((before ++ firstn k walk) ++ [x]) /\
      exists fattr, fattr_says fattr m /\
      nth (List.length (before ++ firstn k walk)) (snd (served e ((before ++ firstn k walk) ++ [x]))) [] =
      [(ni_from (fst x), std_reply xid (std_lookup_result (handle_for (m_ino m)) fattr))]).
    { apply (lookup_answered e _ x xid (mkLookup n h) m f); try assumption; cbn [lk_filename]; rewrite Tg; assumption. }
    rewrite Sw, app_assoc. destruct LA as [Wn [fattr [Fa Out]]].
    assert (Lb : List.length (before ++ firstn k walk) = (List.length before + k)%nat).
    { rewrite app_length, firstn_length. lia. }
    split; [exact Wn|]. split.
    { rewrite position_snoc, Hx. cbn [lk_filename]. unfold walk_to. rewrite Tg, St, Op, Fi.
      cbn [Nat.eqb orb]. destruct (Nat.eqb_spec (S k) (List.length names)); reflexivity. }
    split.
    { intros j y xid' p m' Hj Ey Hy St'. destruct (Nat.eq_dec j k) as [->|Nj].
      - rewrite Ex in Ey. injection Ey as <-. rewrite Hx in Hy. injection Hy as <- _.
        replace (k + 1)%nat with (S k) in St' by lia. rewrite St in St'. injection St' as <-.
        exists fattr. split; [exact Fa|]. rewrite <- Lb. exact Out.
      - rewrite served_prefix by lia. apply (Ok j y xid' p m'); try assumption. lia. }
    intros y m' f' Kn Ey St' Op'. replace (S k - 1)%nat with k in Ey by lia.
    rewrite Ex in Ey. injection Ey as <-. apply latest_snoc. left.
    exists xid, (mkLookup n h), m'. cbn [lk_filename]. rewrite Tg, Kn, firstn_all.
    split; [exact Hx|]. split; [exact St'|]. split; [exact Op'|].
    rewrite Kn, firstn_all in St. split; [|reflexivity]. rewrite St in St'. injection St' as <-.
    rewrite Fi. apply Nat.eqb_eq. exact Kn.
Qed.

(** From a fresh or reset position: looking up the names of a path in turn, where
    every proper prefix exists and the whole path is a readable regular file,
    answers every step with the handle and attributes of the prefix; the last
    handle stands for the opened file, and the position is reset. *)
Theorem C48_walk : forall e before names walk, goes_well e before -> position before = [47] ->
  Forall component names -> names <> [] -> walks names walk ->
  (forall j x, nth_error walk j = Some x -> exists m f,
     os_stat (ni_os (fst x)) (absolute (firstn (j + 1) names)) = Some m /\
     os_open (ni_os (fst x)) (absolute (firstn (j + 1) names)) = Some f /\
     times_known m /\ m_file m = (j + 1 =? List.length names)%nat) ->
  goes_well e (before ++ walk) /\ position (before ++ walk) = [47] /\
  (forall j x xid p m, nth_error walk j = Some x -> snd x = Asked xid p ->
     os_stat (ni_os (fst x)) (absolute (firstn (j + 1) names)) = Some m ->
     exists fattr, fattr_says fattr m /\
       nth (List.length before + j) (snd (served e (before ++ walk))) [] =
       [(ni_from (fst x), std_reply xid (std_lookup_result (handle_for (m_ino m)) fattr))]) /\
  (forall x m f, nth_error walk (List.length names - 1) = Some x ->
     os_stat (ni_os (fst x)) (absolute names) = Some m -> os_open (ni_os (fst x)) (absolute names) = Some f ->
     latest_opened (before ++ walk) (m_ino m) f).
Proof.
  intros e before names walk W P Cn Ne Wk Fs.
  destruct (walk_prefix e before names walk W P Cn Wk Fs (List.length names) (le_n _)) as [A [B [C D]]].
  assert (Lw : List.length walk = List.length names) by exact (walks_length _ _ Wk).
  rewrite <- Lw, firstn_all in *. split; [exact A|].
  split; [rewrite B, Nat.eqb_refl, Bool.orb_true_r; reflexivity|].
  split; [|intros x m f Hx; apply (D x m f eq_refl Hx)].
  intros j x xid p m Hx. apply C; [|exact Hx]. apply nth_error_Some. congruence.
Qed.
Print Assumptions C48_walk.

(** And a read through that handle, on a little-endian host, returns the bytes of
    the file (see C50). *)
Theorem C48_walk_then_read : forall before names walk x0 ino f r xid off cnt total content m,
  goes_well Little before -> position before = [47] ->
  Forall component names -> names <> [] -> walks names walk ->
  (forall j x, nth_error walk j = Some x -> exists m f,
     os_stat (ni_os (fst x)) (absolute (firstn (j + 1) names)) = Some m /\
     os_open (ni_os (fst x)) (absolute (firstn (j + 1) names)) = Some f /\
     times_known m /\ m_file m = (j + 1 =? List.length names)%nat) ->
  nth_error walk (List.length names - 1) = Some x0 ->
  (exists m0, os_stat (ni_os (fst x0)) (absolute names) = Some m0 /\ m_ino m0 = ino) -> ino < 2^64 ->
  os_open (ni_os (fst x0)) (absolute names) = Some f ->
  bytes_ok (ni_datagram (fst r)) -> hears (ni_datagram (fst r)) (snd r) ->
  snd r = Asked xid (NfsRead (mkRead (handle_for ino) off cnt total)) -> ni_send (fst r) = true ->
  os_content (ni_os (fst r)) f = Some content -> os_fstat (ni_os (fst r)) f = Some m -> times_known m ->
  cnt <= 65404 ->
  exists fattr data, fattr_says fattr m /\ range_with_zeros content off cnt data /\
    nth (List.length (before ++ walk)) (snd (served Little (before ++ walk ++ [r]))) [] =
    [(ni_from (fst r), std_reply xid (std_read_result fattr data))].
Proof.
  intros before names walk x0 ino f r xid off cnt total content m W P Cn Ne Wk Fs Hx0 [m0 [St Im]] Li Op B Hh Hr Se Ct Fm T Le.
  destruct (C48_walk Little before names walk W P Cn Ne Wk Fs) as [A [_ [_ D]]].
  pose proof (D x0 m0 f Hx0 St Op) as L. rewrite Im in L.
  assert (Hf : handle_of_file Little (before ++ walk) (handle_for ino) f).
  { exists ino. split; [split; [exact Li|reflexivity]|exact L]. }
  destruct (read_answered Little _ r xid _ off cnt total f content m A B Hh Hr Se Hf Ct Fm T Le) as [_ R].
  rewrite app_assoc. exact R.
Qed.
Print Assumptions C48_walk_then_read.

(** ** C49 *)

(** Histories that differ only in the handles sent with lookups are answered the
    same, whatever the state. *)
Theorem C49_handle_ignored : forall e is is' s,
  Forall2 (fun i i' => i' = i \/
    only_handle_differs (ni_datagram i) (ni_datagram i') /\
    i' = mkNfsIn (ni_datagram i') (ni_from i) (ni_os i) (ni_resend i) (ni_send i)) is is' ->
  nfs_run e is' s = nfs_run e is s.
Proof.
  intros e is is' s H. revert s. induction H as [|i i' is is' Hi _ IH]; intros s; [reflexivity|].
  cbn [nfs_run].
  assert (E : nfs_turn e i' s = nfs_turn e i s).
  { destruct Hi as [->|[O ->]]; [reflexivity|]. apply turn_handle. exact O. }
  rewrite E. destruct (nfs_turn e i s) as [s' out]. rewrite IH. reflexivity.
Qed.
Print Assumptions C49_handle_ignored.

(** A small file system: directories "/a" and "/b", files "/a/x" (inode 7, open
    file 70) and "/b/x" (inode 8, open file 80); opening "/c" is refused. *)
Definition demo_meta (dir : bool) (ino size : N) : meta :=
  mkMeta dir (negb dir) ino 1 1000 1000 size 4096 0 8 (Some 1000%Z) (Some 2000%Z) (Some 3000%Z).
Definition demo_os (content70 content80 : bytes) (ino_b : N) : os :=
  let file p := if list_eq_dec N.eq_dec p (lit "/a/x") then Some (demo_meta false 7 (len content70), 70)
           else if list_eq_dec N.eq_dec p (lit "/b/x") then Some (demo_meta false ino_b (len content80), 80)
           else if list_eq_dec N.eq_dec p (lit "/a") then Some (demo_meta true 5 4096, 50)
           else if list_eq_dec N.eq_dec p (lit "/b") then Some (demo_meta true 6 4096, 60)
           else None in
  mkOs (fun p => if list_eq_dec N.eq_dec p (lit "/c") then Some (demo_meta true 9 4096) else option_map fst (file p))
       (fun p => option_map snd (file p))
       (fun f => if f =? 70 then Some content70 else if f =? 80 then Some content80 else None)
       (fun f => if f =? 70 then Some (demo_meta false 7 (len content70))
                 else if f =? 80 then Some (demo_meta false ino_b (len content80)) else None).
Definition demo_call (xid proc : N) (args : bytes) : bytes :=
  std_call xid 2 100003 2 proc (std_auth 1 (unix_body 0 [] 0 0 [])) (std_auth 0 []) args.
Definition demo_lookup (o : os) (xid : N) (name : str) (h : bytes) : nfs_input * heard :=
  (mkNfsIn (demo_call xid 4 (h ++ xdr_opaque (utf16le name))) 1 o true true,
   Asked xid (NfsLookup (mkLookup (utf8_encode name) h))).
Definition demo_read (o : os) (xid : N) (h : bytes) (off cnt : N) : nfs_input * heard :=
  (mkNfsIn (demo_call xid 6 (h ++ word off ++ word cnt ++ word 0)) 1 o true true,
   Asked xid (NfsRead (mkRead h off cnt 0))).

Lemma demo_bytes : forall d, forallb (fun b => b <? 256) d = true -> bytes_ok d.
Proof.
  intros d H. apply Forall_forall. intros b Hb. apply N.ltb_lt. exact (proj1 (forallb_forall _ _) H b Hb).
Qed.
Lemma demo_heard : forall xid p proc args, word_ok xid -> std_args p Nfs proc args ->
  forallb (fun b => b <? 256) (demo_call xid proc args) = true ->
  bytes_ok (demo_call xid proc args) /\ hears (demo_call xid proc args) (Asked xid p).
Proof.
  intros xid p proc args Hx A H. pose proof (demo_bytes _ H) as B. split; [exact B|].
  apply C51_standard_calls_heard; try assumption; reflexivity.
Qed.

Definition demo : os := demo_os [1; 2; 3] [9; 8; 7; 6] 8.
Definition answered (outs : list (list (peer * bytes))) : list bool :=
  map (fun o => match o with [] => false | _ => true end) outs.

(** Two walks, to "/a/x" and to "/b/x", are each answered when made one after the
    other, and when interleaved neither reaches its file: the second lookup of the
    interleaving is made in the directory of the other walk. *)
Theorem C49_independent_walks_refuted :
  let a1 := fst (demo_lookup demo 1 (lit "a") (repeat 0 32)) in
  let a2 := fst (demo_lookup demo 2 (lit "x") (handle_for 5)) in
  let b1 := fst (demo_lookup demo 3 (lit "b") (repeat 0 32)) in
  let b2 := fst (demo_lookup demo 4 (lit "x") (handle_for 6)) in
  answered (snd (nfs_run Little [a1; a2; b1; b2] service_new)) = [true; true; true; true] /\
  answered (snd (nfs_run Little [a1; b1; a2; b2] service_new)) = [true; false; false; false].
Proof. split; vm_compute; reflexivity. Qed.
Print Assumptions C49_independent_walks_refuted.

(** The claim that a lookup that gets no answer changes nothing is false: "/c"
    exists but cannot be opened, and afterwards "a" is sought in "/c". *)
Theorem C49_failed_lookup_harmless_refuted :
  let c := fst (demo_lookup demo 1 (lit "c") (repeat 0 32)) in
  let a := fst (demo_lookup demo 2 (lit "a") (repeat 0 32)) in
  answered (snd (nfs_run Little [a] service_new)) = [true] /\
  answered (snd (nfs_run Little [c; a] service_new)) = [false; false].
Proof. split; vm_compute; reflexivity. Qed.
Print Assumptions C49_failed_lookup_harmless_refuted.

Example C49_case :
  let a := demo_lookup demo 1 (lit "a") (repeat 0 32) in
  let a' := demo_lookup demo 1 (lit "a") (handle_for 77) in
  only_handle_differs (ni_datagram (fst a)) (ni_datagram (fst a')) /\
  ni_datagram (fst a) <> ni_datagram (fst a').
Proof.
  split; [|vm_compute; discriminate].
  split; [apply demo_bytes; vm_compute; reflexivity|]. split; [apply demo_bytes; vm_compute; reflexivity|].
  repeat split; vm_compute; reflexivity.
Qed.

(** ** C50 *)

(** A read of [cnt] bytes at [start] always gives [cnt] bytes: those of the file
    where it has them, zeros after its end.  (One read call of Linux returns at
    most 2147479552 bytes; past them there are zeros as well.) *)
Theorem C50_range : forall o f content start cnt, os_content o f = Some content ->
  exists data, read_file_range o f start cnt = Ok data /\ len data = cnt /\
    (cnt <= 2147479552 -> range_with_zeros content start cnt data) /\
    (forall j, j < cnt -> 2147479552 <= j -> nth (N.to_nat j) data 0 = 0).
Proof.
  intros o f content start cnt E. destruct (read_range_ok o f start cnt content E) as [data [R [L H]]].
  exists data. split; [exact R|]. split; [exact L|]. split.
  - intros Le. split; [exact L|]. intros j Hj. rewrite (H j Hj).
    destruct (N.ltb_spec j 2147479552); [reflexivity|lia].
  - intros j Hj Le. rewrite (H j Hj). destruct (N.ltb_spec j 2147479552); [lia|reflexivity].
Qed.
Print Assumptions C50_range.

(** Over the network: a read of at most 65404 bytes through a handle of an open
    file is answered with exactly these bytes, in any history. *)
Theorem C50_served : forall e hs x xid h off cnt total f content m, goes_well e hs ->
  bytes_ok (ni_datagram (fst x)) -> hears (ni_datagram (fst x)) (snd x) ->
  snd x = Asked xid (NfsRead (mkRead h off cnt total)) -> ni_send (fst x) = true ->
  handle_of_file e hs h f -> os_content (ni_os (fst x)) f = Some content ->
  os_fstat (ni_os (fst x)) f = Some m -> times_known m -> cnt <= 65404 ->
  exists fattr data, fattr_says fattr m /\ range_with_zeros content off cnt data /\
    nth (List.length hs) (snd (served e (hs ++ [x]))) [] =
    [(ni_from (fst x), std_reply xid (std_read_result fattr data))].
Proof.
  intros e hs x xid h off cnt total f content m W B Hh Hx Se Hf Ct Fs T Le.
  exact (proj2 (read_answered e hs x xid h off cnt total f content m W B Hh Hx Se Hf Ct Fs T Le)).
Qed.
Print Assumptions C50_served.

(** The standard's short read at the end of the file never happens: a read that
    reaches past the end returns more bytes than the file has left. *)
Theorem C50_short_read_refuted : forall o f content start cnt, os_content o f = Some content ->
  len content - start < cnt ->
  exists data, read_file_range o f start cnt = Ok data /\ len content - start < len data.
Proof.
  intros o f content start cnt E H. destruct (C50_range o f content start cnt E) as [data [R [L _]]].
  exists data. split; [exact R|lia].
Qed.
Print Assumptions C50_short_read_refuted.

(** ** C52 *)

(** Attributes are made exactly if the three times are known, and are then the 68
    bytes of the standard, every number reduced modulo 2^32. *)
Theorem C52_attributes : forall m,
  (times_known m -> exists a, attributes_from m = Ok a /\ fattr_says (attributes_bytes a) m) /\
  (~ times_known m -> attributes_from m = Panic).
Proof.
  intros m. destruct (attributes_cases m) as [[a [A T]]|[A T]]; split; intros H; try contradiction; [|exact A].
  exists a. split; [exact A|]. apply attributes_fattr. exact A.
Qed.
Print Assumptions C52_attributes.

(** The size (as the other counts) is right exactly below 2^32. *)
Theorem C52_size_exactly : forall fattr m, fattr_says fattr m ->
  (number_at 20 4 fattr = m_size m <-> m_size m < 4294967296) /\
  (number_at 8 4 fattr = m_nlink m <-> m_nlink m < 4294967296) /\
  (number_at 32 4 fattr = m_blocks m <-> m_blocks m < 4294967296).
Proof.
  intros fattr m [_ [_ [_ [Nl [_ [_ [Sz [_ [_ [Bl _]]]]]]]]]]. rewrite Nl, Sz, Bl.
  assert (K : forall x, x mod 4294967296 = x <-> x < 4294967296).
  { intros x. split; [intros <-; apply N.mod_lt; discriminate|apply N.mod_small]. }
  repeat split; apply K.
Qed.
Print Assumptions C52_size_exactly.

(** A file of 4 GiB is announced as empty. *)
Theorem C52_large_file_refuted : exists m a, m_size m = 4294967296 /\ attributes_from m = Ok a /\
  number_at 20 4 (attributes_bytes a) = 0.
Proof.
  exists (demo_meta false 1 4294967296). eexists. split; [reflexivity|]. split; [reflexivity|]. vm_compute. reflexivity.
Qed.
Print Assumptions C52_large_file_refuted.

Example C52_case : exists a, attributes_from (demo_meta false 7 3) = Ok a /\
  number_at 20 4 (attributes_bytes a) = 3 /\ number_at 52 4 (attributes_bytes a) = 2000 /\
  times_known (demo_meta false 7 3).
Proof. eexists. split; [reflexivity|]. split; [|split; [|repeat split; discriminate]]; vm_compute; reflexivity. Qed.

(** ** C53 *)

Lemma latest_later : forall hs later ino f, latest_opened hs ino f ->
  (forall j x ino' f', nth_error later j = Some x -> opens (hs ++ firstn j later) x ino' f' -> ino' <> ino) ->
  latest_opened (hs ++ later) ino f.
Proof.
  intros hs later ino f L. induction later as [|x later IH] using rev_ind; intros H; [rewrite app_nil_r; exact L|].
  rewrite app_assoc. apply latest_snoc. right. destruct (firstn_snoc_eq _ later x) as [F E]. split.
  - intros f' O. apply (H _ x ino f' E); [rewrite F; exact O|reflexivity].
  - apply IH. intros j y ino' f' Hy O.
    assert (J : (j < List.length later)%nat) by (apply nth_error_Some; congruence).
    destruct (firstn_snoc_lt _ later x j J) as [Fj Ej].
    apply (H j y ino' f'); [congruence|]. rewrite Fj. exact O.
Qed.

(** Whatever is looked up after a file, as long as the inode numbers differ,
    reads through its handle still return its bytes. *)
Theorem C53_distinct_inodes : forall hs later x xid ino off cnt total f content m,
  goes_well Little (hs ++ later) -> latest_opened hs ino f -> ino < 2^64 ->
  (forall j y ino' f', nth_error later j = Some y -> opens (hs ++ firstn j later) y ino' f' -> ino' <> ino) ->
  bytes_ok (ni_datagram (fst x)) -> hears (ni_datagram (fst x)) (snd x) ->
  snd x = Asked xid (NfsRead (mkRead (handle_for ino) off cnt total)) -> ni_send (fst x) = true ->
  os_content (ni_os (fst x)) f = Some content ->
  os_fstat (ni_os (fst x)) f = Some m -> times_known m -> cnt <= 65404 ->
  exists fattr data, fattr_says fattr m /\ range_with_zeros content off cnt data /\
    nth (List.length (hs ++ later)) (snd (served Little ((hs ++ later) ++ [x]))) [] =
    [(ni_from (fst x), std_reply xid (std_read_result fattr data))].
Proof.
  intros hs later x xid ino off cnt total f content m W L Li H B Hh Hx Se Ct Fs T Le.
  apply (C50_served Little _ x xid (handle_for ino) off cnt total f content m); try assumption.
  exists ino. split; [split; [exact Li|reflexivity]|]. apply latest_later; assumption.
Qed.
Print Assumptions C53_distinct_inodes.

(** Handles do not identify files: with equal inode numbers (7, on two devices),
    after both lookups a read through the first handle returns the bytes of the
    second file. *)
Theorem C53_handles_identify_files_refuted :
  let o := demo_os [1; 2; 3] [9; 8; 7; 6] 7 in
  let outs := snd (nfs_run Little (map fst
    [demo_lookup o 1 (lit "a") (repeat 0 32); demo_lookup o 2 (lit "x") (repeat 0 32);
     demo_read o 3 (handle_for 7) 0 4;
     demo_lookup o 4 (lit "b") (repeat 0 32); demo_lookup o 5 (lit "x") (repeat 0 32);
     demo_read o 6 (handle_for 7) 0 4]) service_new) in
  (exists fattr, nth 2 outs [] = [(1, std_reply 3 (std_read_result fattr [1; 2; 3; 0]))]) /\
  (exists fattr, nth 5 outs [] = [(1, std_reply 6 (std_read_result fattr [9; 8; 7; 6]))]).
Proof.
  intros o outs.
  destruct (attributes_from (demo_meta false 7 3)) as [a3| |] eqn:A3; [|discriminate A3|discriminate A3].
  destruct (attributes_from (demo_meta false 7 4)) as [a4| |] eqn:A4; [|discriminate A4|discriminate A4].
  split; [exists (attributes_bytes a3)|exists (attributes_bytes a4)].
  - injection A3 as <-. vm_compute. reflexivity.
  - injection A4 as <-. vm_compute. reflexivity.
Qed.
Print Assumptions C53_handles_identify_files_refuted.

(** ** C61 *)

(** Lookups are not confined: in any state of the walk, a lookup of an absolute
    path of a readable file opens that file, and its handle then gives its bytes. *)
Theorem C61_any_file : forall hs x xid rest h m f r xid' off cnt total content m',
  goes_well Little hs ->
  bytes_ok (ni_datagram (fst x)) -> hears (ni_datagram (fst x)) (snd x) ->
  snd x = Asked xid (NfsLookup (mkLookup (47 :: rest) h)) -> ni_send (fst x) = true ->
  os_stat (ni_os (fst x)) (47 :: rest) = Some m -> os_open (ni_os (fst x)) (47 :: rest) = Some f ->
  times_known m -> m_file m = true -> m_ino m < 2^64 ->
  bytes_ok (ni_datagram (fst r)) -> hears (ni_datagram (fst r)) (snd r) ->
  snd r = Asked xid' (NfsRead (mkRead (handle_for (m_ino m)) off cnt total)) -> ni_send (fst r) = true ->
  os_content (ni_os (fst r)) f = Some content -> os_fstat (ni_os (fst r)) f = Some m' -> times_known m' ->
  cnt <= 65404 ->
  exists fattr fattr' data, fattr_says fattr m /\ fattr_says fattr' m' /\ range_with_zeros content off cnt data /\
    nth (List.length hs) (snd (served Little (hs ++ [x; r]))) [] =
      [(ni_from (fst x), std_reply xid (std_lookup_result (handle_for (m_ino m)) fattr))] /\
    nth (List.length hs + 1) (snd (served Little (hs ++ [x; r]))) [] =
      [(ni_from (fst r), std_reply xid' (std_read_result fattr' data))].
Proof.
  intros hs x xid rest h m f r xid' off cnt total content m' W B Hh Hx Se St Op T Fi Li B' Hh' Hr Se' Ct Fs T' Le.
  destruct (lookup_answered Little hs x xid (mkLookup (47 :: rest) h) m f W B Hh Hx Se St Op T) as [W1 [fattr [Fa O1]]].
  assert (Hf : handle_of_file Little (hs ++ [x]) (handle_for (m_ino m)) f).
  { exists (m_ino m). split; [split; [exact Li|reflexivity]|]. apply latest_snoc. left.
    exists xid, (mkLookup (47 :: rest) h), m. repeat split; assumption. }
  destruct (read_answered Little _ r xid' _ off cnt total f content m' W1 B' Hh' Hr Se' Hf Ct Fs T' Le)
    as [_ [fattr' [data [Fa' [Rg O2]]]]].
  exists fattr, fattr', data. split; [exact Fa|]. split; [exact Fa'|]. split; [exact Rg|].
  change ([x; r]) with ([x] ++ [r]). rewrite app_assoc. split.
  - rewrite served_prefix; [exact O1|]. rewrite app_length. cbn [List.length]. lia.
  - rewrite app_length in O2. exact O2.
Qed.
Print Assumptions C61_any_file.

(** ** C60 *)

Lemma stuck_run : forall e is s to d, sv_unsent s = Some (to, d) -> 65507 < len d ->
  forall outs, In outs (snd (nfs_run e is s)) -> outs = [].
Proof.
  intros e is. induction is as [|i is IH]; intros s to d U L outs; [intros []|].
  cbn [nfs_run].
  assert (T : sv_unsent (fst (nfs_turn e i s)) = Some (to, d) /\ snd (nfs_turn e i s) = []).
  { assert (S : forall b, send_to b d = false).
    { intros b. unfold send_to, max_datagram. destruct (N.leb_spec (len d) 65507); [lia|reflexivity]. }
    unfold nfs_turn. destruct (sv_nfs s); [|split; [exact U|reflexivity]].
    destruct (codec_decode (ni_datagram i)) as [[q|]| |]; try (split; [exact U|reflexivity]).
    destruct (rpc_body q); [|split; [exact U|reflexivity]].
    destruct (call_procedure e (ni_os i) (ca_procedure c) n) as [n' [reply| |]]; try (split; [exact U|reflexivity]).
    unfold framed_send. rewrite U. cbn [snd]. rewrite S. split; reflexivity. }
  destruct (nfs_turn e i s) as [s1 out]. cbn [fst snd] in T. destruct T as [U1 ->].
  specialize (IH s1 to d U1 L). destruct (nfs_run e is s1) as [s2 rest]. cbn [snd In].
  intros [<-|H]; [reflexivity|]. exact (IH outs H).
Qed.

(** One read of more than 65404 bytes through a valid handle silences the service
    for good: neither it nor anything later is answered, whatever is asked and
    whoever asks. *)
Theorem C60_oversized_read_silences_refuted : forall e hs x xid h off cnt total f content m later,
  goes_well e hs ->
  bytes_ok (ni_datagram (fst x)) -> hears (ni_datagram (fst x)) (snd x) ->
  snd x = Asked xid (NfsRead (mkRead h off cnt total)) ->
  handle_of_file e hs h f -> os_content (ni_os (fst x)) f = Some content ->
  os_fstat (ni_os (fst x)) f = Some m -> times_known m -> 65404 < cnt ->
  forall k, (List.length hs <= k)%nat ->
  nth k (snd (nfs_run e (map fst hs ++ fst x :: later) service_new)) [] = [].
Proof.
  intros e hs x xid h off cnt total f content m later W B Hh Hx Hf Ct Fs T Le k K.
  rewrite run_app. change (nfs_run e (map fst hs) service_new) with (served e hs).
  assert (Ls : List.length (snd (served e hs)) = List.length hs) by (unfold served; rewrite run_length; apply map_length).
  cbn [snd]. rewrite app_nth2 by lia.
  pose proof (served_unsent e hs W) as U. destruct W as [Hok [Nk S]].
  destruct (served_state e hs Hok) as [[_ [n [En I]]]|[G _]]; [|contradiction].
  destruct (fst (served e hs)) as [sn u]. cbn [sv_nfs sv_unsent] in *. subst sn u.
  assert (One : forall a, call_outcome e hs (ni_os (fst x)) (NfsRead (mkRead h off cnt total)) a ->
    exists r, a = Result r /\ 65483 < len r).
  { intros a C. cbn [call_outcome rd_fhandle rd_offset rd_count] in C.
    destruct C as [[f' [Hf' C]]|[G _]]; [|elim (G f Hf)].
    pose proof (handle_functional _ _ _ _ _ Hf Hf'). subst f'.
    unfold read_outcome in C. rewrite Ct, Fs in C.
    destruct a as [r| |]; cbn [with_attributes] in C; try contradiction.
    destruct C as [_ [fattr [F [data [-> [Ld Rg]]]]]].
    eexists. split; [reflexivity|]. pose proof (read_fits _ _ data F). lia. }
  cbn [nfs_run].
  destruct (turn_step e hs n None x I B Hh) as [[n' [d [Kx [_ [R T1]]]]]|[Kx _]].
  - unfold replies in R. rewrite Hx in R. destruct R as [[r [C ->]]|[C _]].
    + destruct (One _ C) as [r' [G L]]. injection G as <-.
      assert (D : 65507 < len (std_reply xid r)) by (rewrite std_reply_len; lia).
      assert (P : put None (fst x) (Some (ni_from (fst x), std_reply xid r)) =
        (Some (ni_from (fst x), std_reply xid r), [])).
      { cbn [put framed_send snd]. unfold send_to, max_datagram.
        destruct (N.leb_spec (len (std_reply xid r)) 65507); [lia|reflexivity]. }
      rewrite P in T1. rewrite T1. cbn [fst snd].
      pose proof (stuck_run e later (mkService (Some n') (Some (ni_from (fst x), std_reply xid r))) _ _ eq_refl D) as St.
      destruct (nfs_run e later _) as [s2 rest]. cbn [snd] in *.
      destruct (k - List.length (snd (served e hs)))%nat as [|q]; [reflexivity|]. cbn [nth].
      destruct (Nat.lt_ge_cases q (List.length rest)) as [Q|Q];
        [apply St, nth_In; exact Q|apply nth_overflow; exact Q].
    + destruct (One _ C) as [r [G _]]. discriminate G.
  - unfold kills in Kx. rewrite Hx in Kx. destruct (One _ Kx) as [r [G _]]. discriminate G.
Qed.
Print Assumptions C60_oversized_read_silences_refuted.

Lemma sub_refl : forall A (l : list A), subsequence l l.
Proof. induction l; constructor; assumption. Qed.
Lemma sub_app : forall A (l m l' m' : list A), subsequence l m -> subsequence l' m' -> subsequence (l ++ l') (m ++ m').
Proof. intros A l m l' m' H H'. induction H; [exact H'| |]; cbn [app]; constructor; assumption. Qed.
Lemma sub_nil_l : forall A (m : list A), subsequence [] m.
Proof. induction m; constructor; assumption. Qed.
Lemma sub_trans : forall A (l m r : list A), subsequence l m -> subsequence m r -> subsequence l r.
Proof.
  intros A l m r H H'. revert l H. induction H'; intros l0 H.
  - exact H.
  - inversion H; subst; constructor; apply IHH'; assumption.
  - constructor. apply IHH'. exact H.
Qed.
Lemma present_snoc : forall A (ds : list (option A)) d, present (ds ++ [d]) = present ds ++ present [d].
Proof. intros. apply flat_map_app. Qed.

(** Whatever sends fail: the datagrams sent, in order and each at most once, are
    some of the replies of the history.  If every reply fits in a datagram and a
    repeated send works, none is lost: each is sent in order, the last perhaps
    still waiting. *)
Theorem C60_delivery : forall e hs, history_ok hs -> never_killed e hs ->
  exists ds, List.length ds = List.length hs /\
    (forall k x, nth_error hs k = Some x -> replies e (firstn k hs) x (nth k ds None)) /\
    subsequence (List.concat (snd (served e hs))) (present ds) /\
    (Forall (fun x => ni_resend (fst x) = true) hs ->
     (forall to d, In (Some (to, d)) ds -> len d <= 65507) ->
     exists waiting, List.concat (snd (served e hs)) ++ present [waiting] = present ds).
Proof.
  intros e hs Hok Nk.
  enough (K : exists ds, List.length ds = List.length hs /\
    (forall k x, nth_error hs k = Some x -> replies e (firstn k hs) x (nth k ds None)) /\
    subsequence (List.concat (snd (served e hs)) ++ present [sv_unsent (fst (served e hs))]) (present ds) /\
    (Forall (fun x => ni_resend (fst x) = true) hs ->
     (forall to d, In (Some (to, d)) ds -> len d <= 65507) ->
     List.concat (snd (served e hs)) ++ present [sv_unsent (fst (served e hs))] = present ds)).
  { destruct K as [ds [L [R [S F]]]]. exists ds. split; [exact L|]. split; [exact R|]. split.
    - apply (sub_trans _ _ (List.concat (snd (served e hs)) ++ present [sv_unsent (fst (served e hs))])); [|exact S].
      rewrite <- (app_nil_r (List.concat _)) at 1. apply sub_app; [apply sub_refl|apply sub_nil_l].
    - intros A B. eexists. exact (F A B). }
  induction hs as [|x hs IH] using rev_ind.
  - exists []. split; [reflexivity|]. split; [intros k x H; destruct k; discriminate H|].
    split; [constructor|reflexivity].
  - apply history_snoc in Hok. apply never_snoc in Nk. destruct Hok as [Hok [B Hx]], Nk as [Nk Kx].
    destruct (IH Hok Nk) as [ds [L [R [S F]]]]. clear IH.
    destruct (served_state e hs Hok) as [[_ [n [En I]]]|[G _]]; [|contradiction].
    rewrite served_snoc. destruct (fst (served e hs)) as [sn u]. cbn [sv_nfs sv_unsent] in *. subst sn.
    destruct (turn_step e hs n u x I B Hx) as [[n' [d [_ [_ [Rx T]]]]]|[K _]]; [|contradiction].
    rewrite T. cbn [fst snd sv_unsent].
    exists (ds ++ [d]). split; [rewrite !app_length, L; reflexivity|]. split.
    { intros k y Hy. destruct (nth_snoc_cases _ _ _ _ _ Hy) as [[J [Hy' ->]]|[-> [-> ->]]].
      - rewrite app_nth1 by lia. exact (R k y Hy').
      - rewrite app_nth2, L, Nat.sub_diag by lia. exact Rx. }
    rewrite concat_app, present_snoc. cbn [List.concat]. rewrite app_nil_r, <- app_assoc.
    assert (P : subsequence (snd (put u (fst x) d) ++ present [fst (put u (fst x) d)]) (present [u] ++ present [d]) /\
      (ni_resend (fst x) = true -> (forall to b, u = Some (to, b) -> len b <= 65507) ->
       (forall to b, d = Some (to, b) -> len b <= 65507) ->
       snd (put u (fst x) d) ++ present [fst (put u (fst x) d)] = present [u] ++ present [d])).
    { destruct d as [[to b]|]; cbn [put].
      2:{ cbn [fst snd app present flat_map]. rewrite !app_nil_r. split; [apply sub_refl|reflexivity]. }
      unfold framed_send, send_to, max_datagram. destruct u as [[to' b']|]; cbn [snd].
      - destruct (N.leb_spec (len b') 65507) as [L1|L1]; cbn [andb].
        + destruct (ni_resend (fst x)).
          * destruct ((len b <=? 65507) && ni_send (fst x)); cbn [fst snd app present flat_map];
              (split; [apply sub_refl|reflexivity]).
          * cbn [fst snd app present flat_map]. split; [apply sub_keep, sub_nil_l|]. discriminate.
        + cbn [fst snd app present flat_map]. split; [apply sub_keep, sub_nil_l|].
          intros _ H. specialize (H to' b' eq_refl). lia.
      - destruct ((len b <=? 65507) && ni_send (fst x)); cbn [fst snd app present flat_map];
          (split; [apply sub_refl|reflexivity]). }
    destruct P as [P1 P2]. split.
    + apply (sub_trans _ _ (List.concat (snd (served e hs)) ++ present [u] ++ present [d])).
      * apply sub_app; [apply sub_refl|exact P1].
      * rewrite app_assoc. apply sub_app; [exact S|apply sub_refl].
    + intros Fr Fit. apply Forall_app in Fr. destruct Fr as [Fr Fx]. inversion Fx as [|? ? Rs _]; subst.
      assert (Fit1 : forall to b, In (Some (to, b)) ds -> len b <= 65507).
      { intros to b Hi. apply (Fit to b). apply in_or_app. left. exact Hi. }
      specialize (F Fr Fit1).
      rewrite P2; [rewrite app_assoc, F; reflexivity|exact Rs| |].
      * intros to b ->. apply (Fit1 to b).
        assert (Hi : In (to, b) (present ds)).
        { rewrite <- F. apply in_or_app. right. left. reflexivity. }
        unfold present in Hi. apply in_flat_map in Hi. destruct Hi as [[y|] [Hy Ey]]; [|destruct Ey].
        destruct Ey as [Ey|[]]. subst y. exact Hy.
      * intros to b ->. apply (Fit to b). apply in_or_app. right. left. reflexivity.
Qed.
Print Assumptions C60_delivery.

(** ** Cases *)

Lemma demo_well_nil : forall e, goes_well e [].
Proof.
  intros e. split; [constructor|]. split; intros k x H; destruct k; discriminate H.
Qed.
Lemma demo_times : forall d i s, times_known (demo_meta d i s).
Proof. intros. repeat split; discriminate. Qed.
Lemma demo_lookup_heard : forall o xid name h, word_ok xid -> len h = 32 -> str_ok name -> word_ok (len (utf16le name)) ->
  forallb (fun b => b <? 256) (ni_datagram (fst (demo_lookup o xid name h))) = true ->
  bytes_ok (ni_datagram (fst (demo_lookup o xid name h))) /\
  hears (ni_datagram (fst (demo_lookup o xid name h))) (snd (demo_lookup o xid name h)).
Proof. intros. apply demo_heard; [assumption| |assumption]. constructor; assumption. Qed.
Lemma demo_read_heard : forall o xid h off cnt, word_ok xid -> len h = 32 -> word_ok off -> word_ok cnt ->
  forallb (fun b => b <? 256) (ni_datagram (fst (demo_read o xid h off cnt))) = true ->
  bytes_ok (ni_datagram (fst (demo_read o xid h off cnt))) /\
  hears (ni_datagram (fst (demo_read o xid h off cnt))) (snd (demo_read o xid h off cnt)).
Proof. intros. apply demo_heard; [assumption| |assumption]. constructor; try assumption; reflexivity. Qed.

Definition walk_a : history := [demo_lookup demo 1 (lit "a") (repeat 0 32); demo_lookup demo 2 (lit "x") (handle_for 5)].
Lemma walk_a_walks : walks [lit "a"; lit "x"] walk_a.
Proof.
  assert (H1 := demo_lookup_heard demo 1 (lit "a") (repeat 0 32) eq_refl eq_refl ltac:(repeat constructor; vm_compute; reflexivity) eq_refl ltac:(vm_compute; reflexivity)).
  assert (H2 := demo_lookup_heard demo 2 (lit "x") (handle_for 5) eq_refl eq_refl ltac:(repeat constructor; vm_compute; reflexivity) eq_refl ltac:(vm_compute; reflexivity)).
  constructor; [|constructor; [|constructor]].
  - split; [exact (proj1 H1)|]. split; [exact (proj2 H1)|]. split; [reflexivity|]. exists 1, (repeat 0 32). reflexivity.
  - split; [exact (proj1 H2)|]. split; [exact (proj2 H2)|]. split; [reflexivity|]. exists 2, (handle_for 5). reflexivity.
Qed.

(** The hypotheses of C48 hold of the walk to "/a/x", and the read returns its
    bytes. *)
Example C48_case : exists fattr data, fattr_says fattr (demo_meta false 7 3) /\
  range_with_zeros [1; 2; 3] 1 4 data /\
  nth 2 (snd (served Little (walk_a ++ [demo_read demo 9 (handle_for 7) 1 4]))) [] =
  [(1, std_reply 9 (std_read_result fattr data))].
Proof.
  apply (C48_walk_then_read [] [lit "a"; lit "x"] walk_a (demo_lookup demo 2 (lit "x") (handle_for 5))
    7 70 (demo_read demo 9 (handle_for 7) 1 4) 9 1 4 0 [1; 2; 3]);
    try exact walk_a_walks; try apply demo_well_nil; try apply demo_times; try discriminate; try reflexivity.
  - repeat constructor; try discriminate; cbn; intros [F|[]]; discriminate F.
  - intros j x H. destruct j as [|[|j]]; [| |destruct j; discriminate H]; injection H as <-.
    + exists (demo_meta true 5 4096), 50. split; [vm_compute; reflexivity|]. split; [vm_compute; reflexivity|].
      split; [apply demo_times|reflexivity].
    + exists (demo_meta false 7 3), 70. split; [vm_compute; reflexivity|]. split; [vm_compute; reflexivity|].
      split; [apply demo_times|reflexivity].
  - exists (demo_meta false 7 3). split; [vm_compute; reflexivity|reflexivity].
  - apply demo_read_heard; try reflexivity; vm_compute; reflexivity.
  - apply demo_read_heard; try reflexivity; vm_compute; reflexivity.
Qed.

Definition open_a : nfs_input * heard := demo_lookup demo 1 (lit "/a/x") (repeat 0 32).
Definition open_b : nfs_input * heard := demo_lookup demo 2 (lit "/b/x") (repeat 0 32).
Lemma open_a_heard : bytes_ok (ni_datagram (fst open_a)) /\ hears (ni_datagram (fst open_a)) (snd open_a).
Proof.
  exact (demo_lookup_heard demo 1 (lit "/a/x") (repeat 0 32) eq_refl eq_refl
    ltac:(repeat constructor; vm_compute; reflexivity) eq_refl ltac:(vm_compute; reflexivity)).
Qed.
Lemma open_b_heard : bytes_ok (ni_datagram (fst open_b)) /\ hears (ni_datagram (fst open_b)) (snd open_b).
Proof.
  exact (demo_lookup_heard demo 2 (lit "/b/x") (repeat 0 32) eq_refl eq_refl
    ltac:(repeat constructor; vm_compute; reflexivity) eq_refl ltac:(vm_compute; reflexivity)).
Qed.
Lemma open_a_well : forall e, goes_well e [open_a].
Proof.
  intros e. destruct open_a_heard as [B H].
  exact (proj1 (lookup_answered e [] open_a 1 (mkLookup (lit "/a/x") (repeat 0 32)) (demo_meta false 7 3) 70
    (demo_well_nil e) B H eq_refl eq_refl eq_refl eq_refl (demo_times _ _ _))).
Qed.
Lemma open_ab_well : forall e, goes_well e ([open_a] ++ [open_b]).
Proof.
  intros e. destruct open_b_heard as [B H].
  exact (proj1 (lookup_answered e [open_a] open_b 2 (mkLookup (lit "/b/x") (repeat 0 32)) (demo_meta false 8 4) 80
    (open_a_well e) B H eq_refl eq_refl eq_refl eq_refl (demo_times _ _ _))).
Qed.
Lemma open_a_opened : latest_opened [open_a] 7 70.
Proof.
  apply (latest_snoc [] open_a). left. exists 1, (mkLookup (lit "/a/x") (repeat 0 32)), (demo_meta false 7 3).
  repeat split; vm_compute; reflexivity.
Qed.
Lemma open_a_handle : handle_of_file Little [open_a] (handle_for 7) 70.
Proof. exists 7. split; [split; reflexivity|exact open_a_opened]. Qed.

(** A history that goes well, with a lookup and a read that is answered. *)
Example C51_case : goes_well Little ([open_a] ++ [demo_read demo 5 (handle_for 7) 0 3]).
Proof.
  assert (H := demo_read_heard demo 5 (handle_for 7) 0 3 eq_refl eq_refl eq_refl eq_refl ltac:(vm_compute; reflexivity)).
  exact (proj1 (read_answered Little [open_a] (demo_read demo 5 (handle_for 7) 0 3) 5 (handle_for 7) 0 3 0 70 [1; 2; 3]
    (demo_meta false 7 3) (open_a_well _) (proj1 H) (proj2 H) eq_refl eq_refl open_a_handle eq_refl eq_refl
    (demo_times _ _ _) ltac:(discriminate))).
Qed.

(** A read through a handle that was never given out gets no answer. *)
Example C51_case_unknown :
  call_outcome Little [open_a] demo (NfsRead (mkRead (handle_for 8) 0 3 0)) NoAnswer.
Proof.
  cbn [call_outcome rd_fhandle]. right. split; [|reflexivity]. intros f [ino [Ni L]].
  assert (E : ino = 8).
  { apply (names_functional Little (handle_for 8)); [exact Ni|]. split; reflexivity. }
  subst ino. apply (latest_snoc [] open_a) in L. destruct L as [[xid [l [m [Hx [St [_ [_ I]]]]]]]|[_ [j [x [H _]]]]].
  - injection Hx as _ <-. vm_compute in St. injection St as <-. discriminate I.
  - destruct j; discriminate H.
Qed.

Example C50_case : exists fattr data, fattr_says fattr (demo_meta false 7 3) /\
  range_with_zeros [1; 2; 3] 2 4 data /\
  nth 1 (snd (served Little ([open_a] ++ [demo_read demo 5 (handle_for 7) 2 4]))) [] =
  [(1, std_reply 5 (std_read_result fattr data))].
Proof.
  assert (H := demo_read_heard demo 5 (handle_for 7) 2 4 eq_refl eq_refl eq_refl eq_refl ltac:(vm_compute; reflexivity)).
  exact (C50_served Little [open_a] (demo_read demo 5 (handle_for 7) 2 4) 5 (handle_for 7) 2 4 0 70 [1; 2; 3]
    (demo_meta false 7 3) (open_a_well _) (proj1 H) (proj2 H) eq_refl eq_refl open_a_handle eq_refl eq_refl
    (demo_times _ _ _) ltac:(discriminate)).
Qed.
Example C50_case_values : read_file_range demo 70 2 4 = Ok [3; 0; 0; 0].
Proof. reflexivity. Qed.

(** "/b/x" is opened after "/a/x", which can still be read. *)
Example C53_case : exists fattr data, fattr_says fattr (demo_meta false 7 3) /\
  range_with_zeros [1; 2; 3] 0 3 data /\
  nth 2 (snd (served Little (([open_a] ++ [open_b]) ++ [demo_read demo 5 (handle_for 7) 0 3]))) [] =
  [(1, std_reply 5 (std_read_result fattr data))].
Proof.
  assert (H := demo_read_heard demo 5 (handle_for 7) 0 3 eq_refl eq_refl eq_refl eq_refl ltac:(vm_compute; reflexivity)).
  refine (C53_distinct_inodes [open_a] [open_b] (demo_read demo 5 (handle_for 7) 0 3) 5 7 0 3 0 70 [1; 2; 3]
    (demo_meta false 7 3) (open_ab_well _) open_a_opened eq_refl _ (proj1 H) (proj2 H) eq_refl eq_refl eq_refl eq_refl
    (demo_times _ _ _) ltac:(discriminate)).
  intros j y ino' f' Hy [xid [l [m [Hx [St [_ [_ I]]]]]]].
  destruct j; [|destruct j; discriminate Hy]. injection Hy as <-. injection Hx as _ <-.
  vm_compute in St. injection St as <-. subst ino'. discriminate.
Qed.

Example C61_case : exists fattr fattr' data, fattr_says fattr (demo_meta false 8 4) /\
  fattr_says fattr' (demo_meta false 8 4) /\ range_with_zeros [9; 8; 7; 6] 0 4 data /\
  nth 1 (snd (served Little ([open_a] ++ [open_b; demo_read demo 5 (handle_for 8) 0 4]))) [] =
    [(1, std_reply 2 (std_lookup_result (handle_for 8) fattr))] /\
  nth 2 (snd (served Little ([open_a] ++ [open_b; demo_read demo 5 (handle_for 8) 0 4]))) [] =
    [(1, std_reply 5 (std_read_result fattr' data))].
Proof.
  assert (H := demo_read_heard demo 5 (handle_for 8) 0 4 eq_refl eq_refl eq_refl eq_refl ltac:(vm_compute; reflexivity)).
  exact (C61_any_file [open_a] open_b 2 (lit "b/x") (repeat 0 32) (demo_meta false 8 4) 80
    (demo_read demo 5 (handle_for 8) 0 4) 5 0 4 0 [9; 8; 7; 6] (demo_meta false 8 4) (open_a_well _)
    (proj1 open_b_heard) (proj2 open_b_heard) eq_refl eq_refl eq_refl eq_refl (demo_times _ _ _) eq_refl eq_refl
    (proj1 H) (proj2 H) eq_refl eq_refl eq_refl eq_refl (demo_times _ _ _) ltac:(discriminate)).
Qed.

(** After a read of 65405 bytes of the three-byte file nothing is answered. *)
Example C60_case : forall later k, (1 <= k)%nat ->
  nth k (snd (nfs_run Little (map fst [open_a] ++ fst (demo_read demo 5 (handle_for 7) 0 65405) :: later) service_new)) [] = [].
Proof.
  intros later k K.
  assert (H := demo_read_heard demo 5 (handle_for 7) 0 65405 eq_refl eq_refl eq_refl eq_refl ltac:(vm_compute; reflexivity)).
  exact (C60_oversized_read_silences_refuted Little [open_a] (demo_read demo 5 (handle_for 7) 0 65405) 5 (handle_for 7)
    0 65405 0 70 [1; 2; 3] (demo_meta false 7 3) later (open_a_well _) (proj1 H) (proj2 H) eq_refl open_a_handle
    eq_refl eq_refl (demo_times _ _ _) eq_refl k K).
Qed.

(** The service dies of these eight bytes, and of a file without a creation time. *)
Example C62_case :
  kills Little [] (mkNfsIn [0; 0; 0; 0; 0; 0; 0; 1] 1 demo true true, Fatal) /\
  (let o := mkOs (fun _ => Some (mkMeta true false 1 1 0 0 0 0 0 0 (Some 1%Z) (Some 1%Z) None)) (fun _ => Some 1)
              (fun _ => None) (fun _ => None) in
   sv_nfs (fst (nfs_run Little (map fst [demo_lookup o 1 (lit "a") (repeat 0 32)]) service_new)) = None).
Proof. split; [exact I|]. vm_compute. reflexivity. Qed.
