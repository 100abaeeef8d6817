(** Lemmas about histories of the NFS service. *)

From Verif Require Import Base Unicode SUdp MPath MDatabase MRpc SRpc MNetwork MRpcServer SRpcServer MNfs SNfs
  LBase LUnicode LUdp LDatabase LRpc LRpc2 PRpc LRpcServer LNfs.
From Coq Require Import ZArith String.
Open Scope list_scope.
Open Scope N_scope.

(** ** Lengths of replies *)

Lemma handle_for_len : forall i, len (handle_for i) = 32.
Proof. intros. rewrite <- handle_for_spec. apply handle_len. Qed.
Lemma fattr_len : forall b m, fattr_says b m -> len b = 68.
Proof. intros b m [L _]. unfold len. rewrite L. reflexivity. Qed.
Lemma lookup_result_len : forall i fattr m, fattr_says fattr m ->
  len (std_lookup_result (handle_for i) fattr) = 104.
Proof.
  intros i fattr m F. unfold std_lookup_result. rewrite !len_app, word_len, handle_for_len, (fattr_len _ _ F). reflexivity.
Qed.
Lemma read_result_len : forall fattr m data, fattr_says fattr m ->
  len (std_read_result fattr data) = 76 + len data + xdr_padding (len data).
Proof.
  intros fattr m data F. unfold std_read_result, xdr_opaque.
  rewrite !len_app, !word_len, (fattr_len _ _ F), len_repeat. lia.
Qed.

Lemma reply_fits : forall xid r, len (std_reply xid r) <= 65507 <-> len r <= 65483.
Proof. intros. rewrite std_reply_len. lia. Qed.
Lemma read_fits : forall fattr m data, fattr_says fattr m ->
  (len (std_read_result fattr data) <= 65483 <-> len data <= 65404).
Proof.
  intros. rewrite (read_result_len _ _ _ H). unfold xdr_padding.
  pose proof (N.mod_lt (len data) 4). pose proof (N.div_mod (len data) 4).
  lia.
Qed.

(** ** One more input *)

Lemma replies_result : forall e hs x xid p to d, snd x = Asked xid p -> replies e hs x (Some (to, d)) ->
  exists r, call_outcome e hs (ni_os (fst x)) p (Result r) /\ to = ni_from (fst x) /\ d = std_reply xid r.
Proof.
  intros e hs x xid p to d Hx R. unfold replies in R. rewrite Hx in R.
  destruct R as [[r [C E]]|[_ E]]; [|discriminate E]. injection E as -> ->. exists r. repeat split; assumption.
Qed.

(** An input whose outcomes are all results of at most 65483 bytes. *)
Lemma well_snoc : forall e hs x xid p, goes_well e hs ->
  bytes_ok (ni_datagram (fst x)) -> hears (ni_datagram (fst x)) (snd x) -> snd x = Asked xid p ->
  ni_send (fst x) = true ->
  (forall a, call_outcome e hs (ni_os (fst x)) p a -> exists r, a = Result r /\ len r <= 65483) ->
  goes_well e (hs ++ [x]) /\
  exists r, call_outcome e hs (ni_os (fst x)) p (Result r) /\
    nth (List.length hs) (snd (served e (hs ++ [x]))) [] = [(ni_from (fst x), std_reply xid r)].
Proof.
  intros e hs x xid p W B Hh Hx Se O.
  assert (W' : goes_well e (hs ++ [x])).
  { destruct W as [A [K S]]. split; [apply history_snoc; repeat split; assumption|].
    split; [apply never_snoc; split; [exact K|]|apply sends_snoc; split; [exact S|split; [exact Se|]]].
    - unfold kills. rewrite Hx. intros D. destruct (O _ D) as [r [F _]]. discriminate F.
    - intros to d R. destruct (replies_result _ _ _ _ _ _ _ Hx R) as [r [C [_ ->]]].
      destruct (O _ C) as [r' [F L]]. injection F as ->. apply reply_fits. exact L. }
  split; [exact W'|].
  destruct (firstn_snoc_eq _ hs x) as [F E].
  rewrite (served_nth e _ _ x E), F.
  pose proof (served_unsent e hs W) as U. destruct W as [Hok [Nk S]].
  destruct (served_state e hs Hok) as [[_ [n [En I]]]|[G _]]; [|contradiction].
  destruct (fst (served e hs)) as [sn u]. cbn [sv_nfs sv_unsent] in *. subst sn u.
  destruct (turn_step e hs n None x I B Hh) as [[n' [d [K [_ [R T]]]]]|[K _]].
  - unfold replies in R. rewrite Hx in R. destruct R as [[r [C ->]]|[C _]].
    + exists r. split; [exact C|]. rewrite T. cbn [snd]. rewrite put_well; [reflexivity|exact Se|].
      intros to b G. injection G as _ <-. destruct (O _ C) as [r' [G L]]. injection G as ->. apply reply_fits. exact L.
    + destruct (O _ C) as [r [G _]]. discriminate G.
  - unfold kills in K. rewrite Hx in K. destruct (O _ K) as [r [G _]]. discriminate G.
Qed.

Lemma served_prefix : forall e a b k, (k < List.length a)%nat ->
  nth k (snd (served e (a ++ b))) [] = nth k (snd (served e a)) [].
Proof.
  intros e a b k K. unfold served. rewrite map_app, run_app. cbn [snd].
  apply app_nth1. rewrite run_length, map_length. exact K.
Qed.

(** A lookup of something readable whose times are known. *)
Lemma lookup_answered : forall e hs x xid l m f, goes_well e hs ->
  bytes_ok (ni_datagram (fst x)) -> hears (ni_datagram (fst x)) (snd x) -> snd x = Asked xid (NfsLookup l) ->
  ni_send (fst x) = true ->
  os_stat (ni_os (fst x)) (resolve (position hs) (lk_filename l)) = Some m ->
  os_open (ni_os (fst x)) (resolve (position hs) (lk_filename l)) = Some f ->
  times_known m ->
  goes_well e (hs ++ [x]) /\
  exists fattr, fattr_says fattr m /\
    nth (List.length hs) (snd (served e (hs ++ [x]))) [] =
    [(ni_from (fst x), std_reply xid (std_lookup_result (handle_for (m_ino m)) fattr))].
Proof.
  intros e hs x xid l m f W B Hh Hx Se St Op T.
  destruct (well_snoc e hs x xid _ W B Hh Hx Se) as [W' [r [C Out]]].
  - intros a C. cbn [call_outcome] in C. unfold lookup_outcome in C. rewrite St, Op in C.
    destruct a as [r| |]; cbn [with_attributes] in C; try contradiction.
    destruct C as [_ [fattr [F ->]]]. eexists. split; [reflexivity|]. rewrite (lookup_result_len _ _ _ F). lia.
  - split; [exact W'|]. cbn [call_outcome] in C. unfold lookup_outcome in C. rewrite St, Op in C.
    destruct C as [_ [fattr [F ->]]]. exists fattr. split; [exact F|exact Out].
Qed.

(** A read that fits through the handle of an open file. *)
Lemma read_answered : forall e hs x xid h off cnt total f content m, goes_well e hs ->
  bytes_ok (ni_datagram (fst x)) -> hears (ni_datagram (fst x)) (snd x) ->
  snd x = Asked xid (NfsRead (mkRead h off cnt total)) -> ni_send (fst x) = true ->
  handle_of_file e hs h f -> os_content (ni_os (fst x)) f = Some content ->
  os_fstat (ni_os (fst x)) f = Some m -> times_known m -> cnt <= 65404 ->
  goes_well e (hs ++ [x]) /\
  exists fattr data, fattr_says fattr m /\ range_with_zeros content off cnt data /\
    nth (List.length hs) (snd (served e (hs ++ [x]))) [] =
    [(ni_from (fst x), std_reply xid (std_read_result fattr data))].
Proof.
  intros e hs x xid h off cnt total f content m W B Hh Hx Se Hf Ct Fs T Le.
  assert (One : forall a, call_outcome e hs (ni_os (fst x)) (NfsRead (mkRead h off cnt total)) a ->
    exists fattr data, fattr_says fattr m /\ range_with_zeros content off cnt data /\ len data = cnt /\
      a = Result (std_read_result fattr data)).
  { intros a C. cbn [call_outcome rd_fhandle rd_offset rd_count] in C.
    destruct C as [[f' [Hf' C]]|[G _]]; [|elim (G f Hf)].
    pose proof (handle_functional _ _ _ _ _ Hf Hf'). subst f'.
    unfold read_outcome in C. rewrite Ct, Fs in C.
    destruct a as [r| |]; cbn [with_attributes] in C; try contradiction.
    destruct C as [_ [fattr [F [data [-> [Ld Rg]]]]]].
    exists fattr, data. split; [exact F|]. split; [apply Rg; lia|]. split; [exact Ld|reflexivity]. }
  destruct (well_snoc e hs x xid _ W B Hh Hx Se) as [W' [r [C Out]]].
  - intros a C. destruct (One a C) as [fattr [data [F [_ [Ld ->]]]]].
    eexists. split; [reflexivity|]. apply (read_fits _ _ _ F). lia.
  - split; [exact W'|]. destruct (One _ C) as [fattr [data [F [Rg [_ G]]]]]. injection G as ->.
    exists fattr, data. split; [exact F|]. split; [exact Rg|exact Out].
Qed.

(** ** Absolute paths *)

Lemma absolute_app : forall a b, absolute (a ++ b) = absolute a ++ absolute b.
Proof. intros. apply flat_map_app. Qed.

Lemma resolve_component : forall names n, Forall component names -> component n ->
  resolve (match names with [] => [47] | _ => absolute names end) n = absolute (names ++ [n]).
Proof.
  intros names n Hn [Ne Ni].
  assert (R : forall here, resolve here n = if last here 0 =? 47 then here ++ n else here ++ 47 :: n).
  { intros here. destruct n as [|b n]; [congruence|]. unfold resolve.
    assert (b <> 47) by (intros ->; apply Ni; left; reflexivity).
    destruct b as [|b]; [reflexivity|]. do 6 (destruct b as [b|b|]; try reflexivity). congruence. }
  rewrite R. rewrite absolute_app. cbn [absolute flat_map]. rewrite app_nil_r.
  destruct names as [|a names]; [reflexivity|].
  destruct (exists_last (l := a :: names) ltac:(discriminate)) as [front [z E]]. rewrite E in *.
  apply Forall_app in Hn. destruct Hn as [_ Hz]. inversion Hz as [|? ? [Nz Iz] _]; subst.
  assert (L : last (absolute (front ++ [z])) 0 <> 47).
  { rewrite absolute_app. cbn [absolute flat_map]. rewrite app_nil_r.
    destruct (exists_last Nz) as [zf [zl ->]].
    change (47 :: zf ++ [zl]) with ((47 :: zf) ++ [zl]). rewrite app_assoc, last_last.
    intros ->. apply Iz. apply in_or_app. right. left. reflexivity. }
  destruct (front ++ [z]) as [|q qs] eqn:Q; [destruct front; discriminate Q|]. rewrite <- Q in *.
  apply N.eqb_neq in L. rewrite L. reflexivity.
Qed.

(** ** Datagrams that differ in the handle only *)

Lemma slice_first : forall o n k (d : bytes), (o + n <= k)%nat -> slice o n d = slice o n (firstn k d).
Proof.
  intros. unfold slice. rewrite skipn_firstn_comm, firstn_firstn. f_equal. lia.
Qed.

Lemma only_sym : forall d d', only_handle_differs d d' -> only_handle_differs d' d.
Proof.
  intros d d' [B [B' [L [F [K [P Q]]]]]].
  assert (S : forall o n, (o + n <= 60)%nat -> slice o n d' = slice o n d).
  { intros o n H. rewrite (slice_first o n 60 d), (slice_first o n 60 d'), F by exact H. reflexivity. }
  repeat split; try (symmetry; assumption); try assumption; unfold number_at in *; rewrite S by lia; assumption.
Qed.

Lemma only_before : forall d d' o n, only_handle_differs d d' -> (o + n <= 60)%nat -> slice o n d' = slice o n d.
Proof.
  intros d d' o n [B [B' [L [F _]]]] H. rewrite (slice_first o n 60 d), (slice_first o n 60 d'), F by exact H. reflexivity.
Qed.
Lemma only_after : forall d d' o n, only_handle_differs d d' -> (92 <= o)%nat -> slice o n d' = slice o n d.
Proof.
  intros d d' o n [B [B' [L [_ [K _]]]]] H. unfold slice. f_equal.
  replace o with ((o - 92) + 92)%nat by lia. rewrite <- !skipn_skipn, K. reflexivity.
Qed.

Lemma only_says : forall d d' m, only_handle_differs d d' -> call_says d m ->
  exists m' c c' name h h', call_says d' m' /\ rpc_xid m' = rpc_xid m /\
    rpc_body m = Call c /\ rpc_body m' = Call c' /\
    ca_procedure c = NfsLookup (mkLookup name h) /\ ca_procedure c' = NfsLookup (mkLookup name h').
Proof.
  intros d d' m O [c [Bc [R [X [T [V [P [PV [Cr [Ve A]]]]]]]]]].
  pose proof O as [B [B' [L [_ [_ [Pn Qn]]]]]].
  assert (Nb : forall o, (o + 4 <= 60)%nat -> number_at o 4 d' = number_at o 4 d).
  { intros o H. unfold number_at. rewrite (only_before d d' o 4 O H). reflexivity. }
  assert (Pr : ca_program c = Nfs) by (destruct (ca_program c); cbn [program_number] in P; congruence).
  rewrite Pr, Qn in A.
  destruct (ca_procedure c) as [| | |g| | | |h|l|r|ps| |] eqn:Pc; cbn [args_say] in A;
    try (destruct A as [A _]; discriminate A); try contradiction;
    try (destruct A as [_ [A _]]; discriminate A).
  destruct A as [_ [_ [R96 [Fh [name [[Re [So Sl]] Fn]]]]]].
  destruct l as [fname h]. cbn [lk_fhandle lk_filename] in *.
  assert (Ev : even_length_at 92 d' = even_length_at 92 d).
  { unfold even_length_at, number_at. rewrite (only_after d d' 92 4 O) by lia. reflexivity. }
  exists (mkRpc (rpc_xid m) (Call (mkCall (ca_version c) Nfs (ca_program_version c)
           (NfsLookup (mkLookup fname (slice 60 32 d'))) (ca_credentials c) (ca_verifier c)))), c.
  eexists. exists fname, h, (slice 60 32 d').
  split; [|split; [reflexivity|split; [exact Bc|split; [reflexivity|split; [exact Pc|reflexivity]]]]].
  eexists. split; [reflexivity|]. unfold reaches in *. split; [lia|].
  cbn [rpc_xid ca_version ca_program ca_program_version ca_credentials ca_verifier ca_procedure].
  rewrite !Nb by lia. rewrite Pr in P. repeat (split; [assumption|]). rewrite Qn.
  cbn [args_say lk_fhandle lk_filename]. unfold reaches. split; [reflexivity|]. split; [reflexivity|]. split; [lia|].
  split; [reflexivity|]. exists name. split; [|exact Fn].
  unfold text16_at, reaches. rewrite Ev, (only_after d d' 96 _ O) by lia. repeat split; [lia|exact So|exact Sl].
Qed.

Lemma lookup_handle : forall o name h h' n, lookup o (mkLookup name h) n = lookup o (mkLookup name h') n.
Proof. reflexivity. Qed.

Lemma turn_handle : forall e i d' s, only_handle_differs (ni_datagram i) d' ->
  nfs_turn e (mkNfsIn d' (ni_from i) (ni_os i) (ni_resend i) (ni_send i)) s = nfs_turn e i s.
Proof.
  intros e i d' s O. unfold nfs_turn. cbn [ni_datagram ni_from ni_os ni_resend ni_send].
  destruct (sv_nfs s) as [n|]; [|reflexivity].
  pose proof O as [B [B' _]].
  assert (T : number_at 4 4 d' = number_at 4 4 (ni_datagram i)).
  { unfold number_at. rewrite (only_before _ _ 4 4 O) by lia. reflexivity. }
  assert (Len : List.length (ni_datagram i) = List.length d') by apply O.
  destruct (codec_cases _ B) as [[m [c [E [C Bc]]]]|[[E [R Nc]]|[E [Nc Nr]]]].
  - destruct (only_says _ _ _ O C) as [m' [c1 [c' [name [h [h' [C' [X [B1 [B2 [P1 P2]]]]]]]]]]].
    destruct (codec_cases _ B') as [[m2 [c2 [E2 [C2 Bc2]]]]|[[E2 [R2 Nc2]]|[E2 [Nc2 Nr2]]]].
    + pose proof (call_functional _ _ _ C' C2). subst m2. rewrite E, E2, B1, B2, X, P1, P2. reflexivity.
    + elim (Nc2 _ C').
    + elim (Nc2 _ C').
  - destruct (codec_cases _ B') as [[m2 [c2 [E2 [C2 Bc2]]]]|[[E2 [R2 Nc2]]|[E2 [Nc2 Nr2]]]].
    + destruct (only_says _ _ _ (only_sym _ _ O) C2) as [m' [c1 [c' [name [h [h' [C' _]]]]]]]. elim (Nc _ C').
    + rewrite E, E2. reflexivity.
    + elim Nr2. destruct R as [R1 R2]. split; [unfold reaches in *; lia|congruence].
  - destruct (codec_cases _ B') as [[m2 [c2 [E2 [C2 Bc2]]]]|[[E2 [R2 Nc2]]|[E2 [Nc2 Nr2]]]].
    + destruct (only_says _ _ _ (only_sym _ _ O) C2) as [m' [c1 [c' [name [h [h' [C' _]]]]]]]. elim (Nc _ C').
    + elim Nr. destruct R2 as [R1 R2]. split; [unfold reaches in *; lia|congruence].
    + destruct E as [-> | ->], E2 as [-> | ->]; reflexivity.
Qed.

Lemma walks_length : forall names walk, walks names walk -> List.length walk = List.length names.
Proof. intros names walk H. induction H; [reflexivity|]. cbn [List.length]. congruence. Qed.
