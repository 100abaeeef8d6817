(** Lemmas for repeated and lost messages. *)

From Verif Require Import Base Unicode SUdp MPackets MNetwork MKeepalive MDb MLib LLib2 SLib MRpc SRpc LRpc LRpc2 MRpcServer SRpcServer LRpcServer MServer LServer
  MNfs SNfs LNfs LNfs2 PNfs SRepeat.
From Coq Require Import ZArith Lia Arith String.
Open Scope list_scope.
Open Scope N_scope.

Lemma twice_app : forall A (a : list A) x b, twice (List.length a) (a ++ x :: b) = a ++ x :: x :: b.
Proof.
  intros. unfold twice. rewrite !firstn_app, !skipn_app.
  replace (List.length a + 1 - List.length a)%nat with 1%nat by lia.
  replace (List.length a - List.length a)%nat with 0%nat by lia.
  rewrite (firstn_all2 a) by lia. rewrite (skipn_all2 (n := List.length a) a), (skipn_all2 (n := List.length a + 1) a) by lia. cbn [firstn skipn app]. rewrite <- app_assoc. reflexivity.
Qed.
Lemma without_app : forall A (a : list A) x b, without (List.length a) (a ++ x :: b) = a ++ b.
Proof.
  intros. unfold without. rewrite firstn_app, skipn_app.
  replace (List.length a + 1 - List.length a)%nat with 1%nat by lia.
  rewrite Nat.sub_diag, (firstn_all2 a), (skipn_all2 (n := List.length a + 1) a) by lia. cbn [firstn skipn app]. rewrite app_nil_r. reflexivity.
Qed.
Lemma split_at : forall A (l : list A) k x, nth_error l k = Some x ->
  exists a b, l = a ++ x :: b /\ List.length a = k.
Proof. intros A l k x H. exact (nth_error_split l k H). Qed.

(** ** The file service *)

(** A call other than a lookup leaves the state as it was. *)
Lemma turn_same : forall e hs x, goes_well e (hs ++ [x]) -> ~ is_lookup (snd x) ->
  fst (nfs_turn e (fst x) (fst (served e hs))) = fst (served e hs).
Proof.
  intros e hs x W Nl. pose proof (served_unsent _ _ W) as U. rewrite served_snoc in U. cbn [fst] in U.
  assert (W0 : goes_well e hs).
  { destruct W as [A [B C]]. apply history_snoc in A. apply never_snoc in B. apply sends_snoc in C. exact (conj (proj1 A) (conj (proj1 B) (proj1 C))). }
  pose proof (served_unsent _ _ W0) as U0. destruct W as [A [B C]].
  apply history_snoc in A. apply never_snoc in B. destruct A as [A [By Hh]], B as [B K].
  destruct (served_state e hs A) as [[_ [n [En I]]]|[G _]]; [|contradiction].
  destruct (fst (served e hs)) as [sn u]. cbn [sv_nfs sv_unsent] in *. subst sn u.
  destruct (turn_step e hs n None x I By Hh) as [[n' [d [_ [_ [_ T]]]]]|[G _]]; [|contradiction].
  rewrite T in *. cbn [fst sv_unsent] in U. cbn [fst]. rewrite U. f_equal.
  unfold nfs_turn in T. cbn [sv_nfs sv_unsent] in T.
  destruct (codec_cases _ By) as [[m [c [E [Cs Bc]]]]|[[E [R Nc]]|[E [Nc Nr]]]].
  - rewrite E, Bc in T.
    assert (Hx : snd x = Asked (rpc_xid m) (ca_procedure c)).
    { destruct (snd x) as [|xid p|]; cbn [hears] in Hh.
      - destruct Hh as [Hh _]. elim (Hh m Cs).
      - destruct Hh as [m' [c' [C' [Bc' [-> ->]]]]]. pose proof (call_functional _ _ _ Cs C'). subst m'. congruence.
      - destruct Hh as [_ T']. destruct Cs as [c' [_ [_ [_ [F _]]]]]. congruence. }
    assert (P : fst (call_procedure e (ni_os (fst x)) (ca_procedure c) n) = n).
    { destruct (ca_procedure c) eqn:Ep; try reflexivity. elim Nl. eexists. eexists. exact Hx. }
    destruct (call_procedure e (ni_os (fst x)) (ca_procedure c) n) as [n1 r]. cbn [fst] in P. subst n1.
    destruct r; [destruct (framed_send _ _ _ _)| |]; congruence.
  - rewrite E in T. congruence.
  - destruct E as [E|E]; rewrite E in T; congruence.
Qed.

Lemma nfs_again : forall e hs x after, goes_well e (hs ++ [x]) -> ~ is_lookup (snd x) ->
  let is := map fst hs ++ fst x :: after in
  snd (nfs_run e (twice (List.length hs) is) service_new) = twice (List.length hs) (snd (nfs_run e is service_new)) /\
  snd (nfs_run e (without (List.length hs) is) service_new) = without (List.length hs) (snd (nfs_run e is service_new)).
Proof.
  intros e hs x after W Nl is. pose proof (turn_same e hs x W Nl) as T. unfold served in T.
  assert (Lm : List.length hs = List.length (map fst hs)) by (rewrite map_length; reflexivity).
  assert (L : List.length hs = List.length (snd (nfs_run e (map fst hs) service_new))) by (rewrite run_length; exact Lm).
  subst is. split.
  - rewrite Lm at 1. rewrite twice_app. rewrite !(run_app e (map fst hs)). cbn [nfs_run snd].
    destruct (nfs_turn e (fst x) _) as [s out] eqn:E. cbn [fst] in T. subst s. rewrite E.
    destruct (nfs_run e after _) as [s2 outs]. cbn [snd]. rewrite L at 1. rewrite twice_app. reflexivity.
  - rewrite Lm at 1. rewrite without_app. rewrite !(run_app e (map fst hs)). cbn [nfs_run snd].
    destruct (nfs_turn e (fst x) _) as [s out] eqn:E. cbn [fst] in T. subst s.
    destruct (nfs_run e after _) as [s2 outs]. cbn [snd]. rewrite L at 1. rewrite without_app. reflexivity.
Qed.

(** A lookup of nothing. *)
Lemma well_unanswered : forall e hs x xid l, goes_well e hs ->
  bytes_ok (ni_datagram (fst x)) -> hears (ni_datagram (fst x)) (snd x) -> snd x = Asked xid (NfsLookup l) ->
  ni_send (fst x) = true -> os_stat (ni_os (fst x)) (resolve (position hs) (lk_filename l)) = None ->
  goes_well e (hs ++ [x]) /\ position (hs ++ [x]) = [47] /\
  nth (List.length hs) (snd (served e (hs ++ [x]))) [] = [].
Proof.
  intros e hs x xid l W B Hh Hx Se St.
  assert (O : forall a, call_outcome e hs (ni_os (fst x)) (NfsLookup l) a -> a = NoAnswer).
  { intros a C. cbn [call_outcome] in C. unfold lookup_outcome in C. rewrite St in C. exact C. }
  assert (W' : goes_well e (hs ++ [x])).
  { destruct W as [A [K S]]. split; [apply history_snoc; repeat split; assumption|].
    split; [apply never_snoc; split; [exact K|]|apply sends_snoc; split; [exact S|split; [exact Se|]]].
    - unfold kills. rewrite Hx. intros D. apply O in D. discriminate D.
    - intros to d R. destruct (replies_result _ _ _ _ _ _ _ Hx R) as [r [C _]]. apply O in C. discriminate C. }
  split; [exact W'|]. split.
  { rewrite position_snoc, Hx. unfold walk_to. rewrite St. reflexivity. }
  destruct (firstn_snoc_eq _ hs x) as [F E].
  destruct (C51_history e (hs ++ [x]) (List.length hs) x W' E) as [d [R ->]].
  unfold replies in R. rewrite Hx, F in R. destruct R as [[r [C _]]|[_ ->]]; [|reflexivity].
  apply O in C. discriminate C.
Qed.

(** ** The database *)

Lemma process_again : forall p h d st c a st', process p h d st c = Ok (a, st') ->
  process p h d st' c = Ok (a, st').
Proof.
  intros p h d st c a st' H. unfold process in *. destruct (len c =? 5); [congruence|].
  destruct (parse_message p c) as [[r m]| |]; [|congruence|discriminate].
  unfold controller in *. destruct (m_request_type m) eqn:T; cbn [handle_sequence_requests] in *; try congruence;
    try (unfold album_by_artist_controller, metadata_controller, mount_info_controller, title_by_artist_album_controller in *;
         destruct (argument_at m _); cbn [rbind] in *; try discriminate;
         destruct (dbfield_to_u32 _); cbn [rbind] in *; try discriminate; congruence).
  destruct (render_controller h d m st) as [b| |] eqn:E; cbn [rmap rbind] in *; try discriminate.
  injection H as -> <-. rewrite E. reflexivity.
Qed.

Lemma serve_again : forall p h d cs k st c, nth_error cs k = Some c -> (k < List.length (serve p h d st cs))%nat ->
  serve p h d st (twice k cs) = twice k (serve p h d st cs).
Proof.
  intros p h d cs k st c Hc. destruct (split_at _ _ _ _ Hc) as [a [b [-> <-]]]. clear Hc.
  rewrite twice_app. revert st. induction a as [|x a IH]; intros st L; cbn [app List.length serve] in *.
  - destruct (process p h d st c) as [[ans st']| |] eqn:E; [|cbn in L; lia|cbn in L; lia].
    rewrite (process_again _ _ _ _ _ _ _ E). reflexivity.
  - destruct (process p h d st x) as [[ans st']| |] eqn:E; [|reflexivity|reflexivity].
    cbn [List.length] in L. rewrite IH by lia. reflexivity.
Qed.

Lemma serve_lost : forall p h d cs k st c, nth_error cs k = Some c -> bytes_ok c -> (forall m, ~ menu_request p c m) ->
  (k < List.length (serve p h d st cs))%nat ->
  serve p h d st (without k cs) = without k (serve p h d st cs).
Proof.
  intros p h d cs k st c Hc B N. destruct (split_at _ _ _ _ Hc) as [a [b [-> <-]]]. clear Hc.
  rewrite without_app. revert st. induction a as [|x a IH]; intros st L; cbn [app List.length serve] in *.
  - destruct (process p h d st c) as [[ans st']| |] eqn:E; [|cbn in L; lia|cbn in L; lia].
    rewrite (process_other p h d c st ans st' B N E). reflexivity.
  - destruct (process p h d st x) as [[ans st']| |] eqn:E; [|reflexivity|reflexivity].
    cbn [List.length] in L. rewrite IH by lia. reflexivity.
Qed.

(** ** Discovery *)

Lemma add_twice : forall ps p, add_or_update (add_or_update ps p) p = add_or_update ps p.
Proof.
  intros ps p. induction ps as [|q ps IH]; cbn [add_or_update].
  - rewrite N.eqb_refl. unfold player_update. destruct p as [a b c []]; reflexivity.
  - destruct (pl_address q =? pl_address p) eqn:E; cbn [add_or_update].
    + replace (pl_address (player_update q p) =? pl_address p) with true
        by (symmetry; destruct q, p; exact E).
      destruct q as [a b c []], p as [a' b' c' []]; reflexivity.
    + rewrite E, IH. reflexivity.
Qed.

Lemma known_added : forall ps p, known (pl_address p) (add_or_update ps p) = true.
Proof.
  intros ps p. induction ps as [|q ps IH]; cbn [add_or_update known existsb].
  - rewrite N.eqb_refl. reflexivity.
  - destruct (pl_address q =? pl_address p) eqn:E; cbn [existsb].
    + replace (pl_address (player_update q p) =? pl_address p) with true
        by (symmetry; destruct q, p; exact E). reflexivity.
    + rewrite E. exact IH.
Qed.

Lemma step_again : forall w d ifaces,
  let w1 := fst (step w (KaDatagram d ifaces)) in
  w_state (fst (step w1 (KaDatagram d ifaces))) = w_state w1 /\
  snd (step w1 (KaDatagram d ifaces)) = filter not_change (snd (step w (KaDatagram d ifaces))).
Proof.
  intros w d ifaces. cbn zeta. destruct (step w (KaDatagram d ifaces)) as [w1 o] eqn:E. cbn [fst snd].
  unfold step in E. destruct (w_running w) eqn:R;
    [|injection E as <- <-; unfold step; rewrite R; split; reflexivity].
  destruct (w_listening w) eqn:L; [|injection E as <- <-; unfold step; rewrite R, L; split; reflexivity].
  unfold keepalive_turn in E. destruct (ka_receive d) as [packet| |] eqn:K.
  2: { injection E as <- <-. unfold step. rewrite R, L. unfold keepalive_turn. rewrite K. split; reflexivity. }
  2: { injection E as <- <-. unfold step. cbn [w_running w_listening]. rewrite R. split; reflexivity. }
  destruct (event_status packet) as [[num ip]|] eqn:Ev.
  2: { injection E as <- <-. unfold step. rewrite R, L. unfold keepalive_turn. rewrite K, Ev. split; reflexivity. }
  destruct (w_poisoned w) eqn:P.
  { injection E as <- <-. unfold step. rewrite R, L. unfold keepalive_turn. rewrite K, Ev, P. split; reflexivity. }
  destruct (handle_keepalive_status ifaces packet num ip (w_state w)) as [[s es]| |] eqn:H.
  2: { injection E as <- <-. unfold step. cbn [w_running w_listening]. rewrite R. split; reflexivity. }
  2: { injection E as <- <-. unfold step. cbn [w_running w_listening]. rewrite R. split; reflexivity. }
  injection E as <- <-. unfold step. cbn [w_running w_listening]. rewrite R, L. unfold keepalive_turn. rewrite K, Ev.
  cbn [w_poisoned w_state].
  assert (H2 : handle_keepalive_status ifaces packet num ip s = Ok (s, if is_linking_possible s then [InitiateLink] else [])).
  { unfold handle_keepalive_status in *. destruct (find_interface ifaces ip) as [n| |]; cbn [rbind] in *; try discriminate.
    injection H as <- _. unfold set_address, set_players. cbn [st_linking st_discovery st_linked st_address st_players].
    rewrite add_twice, N.eqb_refl. reflexivity. }
  rewrite H2. cbn [fst snd w_state]. split; [reflexivity|].
  unfold handle_keepalive_status in H. destruct (find_interface ifaces ip) as [n| |]; cbn [rbind] in H; try discriminate.
  injection H as <- <-. rewrite map_app, filter_app.
  destruct (_ =? _); destruct (is_linking_possible _); reflexivity.
Qed.
