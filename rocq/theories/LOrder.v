(** Lemmas for messages in another order. *)

From Verif Require Import Base Unicode SUdp MPackets MStatus MNetwork SNetwork LNetwork MKeepalive MDb MLib LLib2 SLib MRpc SRpc LRpc LRpc2 MRpcServer SRpcServer LRpcServer MServer SServer LServer LServer2
  MDatabase MNfs SNfs LNfs LNfs2 PNfs SRepeat LRepeat SOrder.
From Coq Require Import ZArith Lia Arith String Permutation.
Open Scope list_scope.
Open Scope N_scope.

Lemma exchanged_app : forall A (a : list A) x y b,
  exchanged (List.length a) (a ++ x :: y :: b) = a ++ y :: x :: b.
Proof.
  intros. unfold exchanged. rewrite firstn_app, skipn_app, Nat.sub_diag, (firstn_all2 a), (skipn_all2 (n := List.length a) a) by lia.
  cbn [firstn skipn app]. rewrite app_nil_r. reflexivity.
Qed.

Lemma combine_map : forall A B (f : A -> B) l, combine l (map f l) = map (fun a => (a, f a)) l.
Proof. intros A B f l. induction l; [reflexivity|]. cbn [map combine]. f_equal. exact IHl. Qed.
Lemma combine_permutation : forall A B (f : A -> B) l l', Permutation l l' ->
  Permutation (combine l (map f l)) (combine l' (map f l')).
Proof. intros A B f l l' P. rewrite !combine_map. apply Permutation_map. exact P. Qed.

(** ** The file service *)

(** What is heard of a call is what the codec makes of it. *)
Lemma heard_call : forall x m c, hears (ni_datagram (fst x)) (snd x) ->
  call_says (ni_datagram (fst x)) m -> rpc_body m = Call c -> snd x = Asked (rpc_xid m) (ca_procedure c).
Proof.
  intros x m c H C Bc. destruct (snd x) as [|xid p|]; cbn [hears] in H.
  - destruct H as [H _]. elim (H m C).
  - destruct H as [m' [c' [C' [Bc' [-> ->]]]]]. pose proof (call_functional _ _ _ C C'). subst m'. congruence.
  - destruct H as [_ T]. destruct C as [c' [_ [_ [_ [F _]]]]]. congruence.
Qed.

Lemma well_prefix : forall e a b, goes_well e (a ++ b) -> goes_well e a.
Proof.
  intros e a b. induction b as [|x b IH] using rev_ind; intros W; [rewrite app_nil_r in W; exact W|].
  apply IH. rewrite app_assoc in W. destruct W as [A [B C]].
  apply history_snoc in A. apply never_snoc in B. apply sends_snoc in C.
  exact (conj (proj1 A) (conj (proj1 B) (proj1 C))).
Qed.

(** A block of calls other than lookups leaves the state as it was; every answer
    is the one the state gives. *)
Lemma block_same : forall e hs block, goes_well e (hs ++ block) -> Forall (fun x => ~ is_lookup (snd x)) block ->
  fst (served e (hs ++ block)) = fst (served e hs) /\
  Forall (fun x => fst (nfs_turn e (fst x) (fst (served e hs))) = fst (served e hs)) block.
Proof.
  intros e hs block. induction block as [|x block IH] using rev_ind; intros W Nl.
  - rewrite app_nil_r. split; [reflexivity|constructor].
  - rewrite app_assoc in W. apply Forall_app in Nl. destruct Nl as [Nl Nx]. inversion Nx as [|? ? Nx' _]; subst.
    pose proof (turn_same e _ x W Nx') as T. apply well_prefix in W.
    destruct (IH W Nl) as [S F]. rewrite S in T. split.
    + rewrite app_assoc, served_snoc. cbn [fst]. rewrite S. exact T.
    + apply Forall_app. split; [exact F|]. constructor; [exact T|constructor].
Qed.

Lemma run_constant : forall e (block : history) s,
  Forall (fun x => fst (nfs_turn e (fst x) s) = s) block ->
  nfs_run e (map fst block) s = (s, map (fun x => snd (nfs_turn e (fst x) s)) block).
Proof.
  intros e block s F. induction F as [|x block Hx _ IH]; [reflexivity|]. cbn [map nfs_run].
  destruct (nfs_turn e (fst x) s) as [s1 out]. cbn [fst snd] in *. subst s1. rewrite IH. reflexivity.
Qed.

(** A lookup that opens no file of the inode leaves the table as it is there. *)
Lemma table_same : forall hs x y n n' ino, ~ is_lookup (snd x) -> inv hs n -> inv (hs ++ [x; y]) n' ->
  (forall f, ~ opens hs y ino f) -> hm_get ino (nf_files n') = hm_get ino (nf_files n).
Proof.
  intros hs x y n n' ino Nl [_ F] [_ F'] No.
  assert (Px : position (hs ++ [x]) = position hs).
  { rewrite position_snoc. destruct (snd x) as [|xid p|] eqn:E; try reflexivity.
    destruct p; try reflexivity. elim Nl. eexists. eexists. reflexivity. }
  assert (Oy : forall f, ~ opens (hs ++ [x]) y ino f).
  { intros f [xid [l [m [A [B [C D]]]]]]. apply (No f). exists xid, l, m. rewrite Px in B, C. auto. }
  assert (Ox : forall f, ~ opens hs x ino f).
  { intros f [xid [l [m [A _]]]]. apply Nl. exists xid, l. exact A. }
  assert (Eq : forall f, hm_get ino (nf_files n') = Some f <-> hm_get ino (nf_files n) = Some f).
  { intros f. rewrite F, F'. replace (hs ++ [x; y]) with ((hs ++ [x]) ++ [y]) by (rewrite <- app_assoc; reflexivity).
    rewrite latest_snoc, latest_snoc. split.
    - intros [H|[_ [H|[_ H]]]]; [elim (Oy _ H)|elim (Ox _ H)|exact H].
    - intros H. right. split; [exact Oy|]. right. split; [exact Ox|exact H]. }
  destruct (hm_get ino (nf_files n)) as [f|].
  - apply Eq. reflexivity.
  - destruct (hm_get ino (nf_files n')) as [f|]; [|reflexivity]. symmetry. apply Eq. reflexivity.
Qed.

Lemma nfs_exchanged : forall e hs x y after, goes_well e (hs ++ [x; y]) -> ~ is_lookup (snd x) ->
  (forall ino f, is_about e (snd x) ino -> ~ opens hs y ino f) ->
  let is := map fst hs ++ fst x :: fst y :: after in
  snd (nfs_run e (exchanged (List.length hs) is) service_new) =
  exchanged (List.length hs) (snd (nfs_run e is service_new)).
Proof.
  intros e hs x y after W Nl No is.
  assert (Sp : hs ++ [x; y] = (hs ++ [x]) ++ [y]) by (rewrite <- app_assoc; reflexivity).
  assert (W1 : goes_well e (hs ++ [x])) by (rewrite Sp in W; exact (well_prefix _ _ _ W)).
  pose proof (well_prefix _ _ _ W1) as W0.
  pose proof (turn_same e hs x W1 Nl) as T.
  assert (Y : fst (nfs_turn e (fst y) (fst (served e hs))) = fst (served e (hs ++ [x; y]))).
  { rewrite Sp, served_snoc. cbn [fst]. rewrite served_snoc. cbn [fst]. rewrite T. reflexivity. }
  pose proof (served_unsent _ _ W) as U2. pose proof (served_unsent _ _ W0) as U0.
  destruct (served_state e hs (proj1 W0)) as [[_ [n [En I]]]|[G _]]; [|elim (G (proj1 (proj2 W0)))].
  destruct (served_state e (hs ++ [x; y]) (proj1 W)) as [[_ [n' [En' I']]]|[G _]]; [|elim (G (proj1 (proj2 W)))].
  assert (Bx : bytes_ok (ni_datagram (fst x)) /\ hears (ni_datagram (fst x)) (snd x)).
  { destruct W1 as [A _]. apply history_snoc in A. exact (proj2 A). }
  destruct Bx as [By Hh].
  assert (X : nfs_turn e (fst x) (fst (served e (hs ++ [x; y]))) =
    (fst (served e (hs ++ [x; y])), snd (nfs_turn e (fst x) (fst (served e hs))))).
  { destruct (fst (served e (hs ++ [x; y]))) as [sn' u'] eqn:Es'. destruct (fst (served e hs)) as [sn u] eqn:Es.
    cbn [sv_nfs sv_unsent] in *. subst sn u sn' u'.
    unfold nfs_turn in T |- *. cbn [sv_nfs sv_unsent] in *.
    destruct (codec_cases _ By) as [[m [c [E [Cs Bc]]]]|[[E [R Nc]]|[E [Nc Nr]]]].
    - rewrite E, Bc in *. pose proof (heard_call x m c Hh Cs Bc) as Hx.
      assert (P : forall k, fst (call_procedure e (ni_os (fst x)) (ca_procedure c) k) = k).
      { intros k. destruct (ca_procedure c) eqn:Ep; try reflexivity. elim Nl. eexists. eexists. exact Hx. }
      assert (Q : snd (call_procedure e (ni_os (fst x)) (ca_procedure c) n') = snd (call_procedure e (ni_os (fst x)) (ca_procedure c) n)).
      { pose proof (call_proc_ok _ _ _ By Cs Bc) as Pk.
        destruct (ca_procedure c) as [| | |g| | | |h|l|r|ps| |] eqn:Ep; try reflexivity.
        - cbn [call_procedure snd]. unfold getattr. rewrite (table_same hs x y n n' _ Nl I I'); [reflexivity|].
          intros f. apply No. exists (rpc_xid m). left. exists h. split; [exact Hx|].
          cbn [proc_ok] in Pk. apply names_inode_iff; [apply Pk| |reflexivity]. destruct Pk as [_ Pk]. unfold len in Pk. lia.
        - elim Nl. eexists. eexists. exact Hx.
        - cbn [call_procedure snd]. unfold nfs_do_read. rewrite (table_same hs x y n n' _ Nl I I'); [reflexivity|].
          intros f. apply No. exists (rpc_xid m). right. exists r. split; [exact Hx|].
          cbn [proc_ok] in Pk. apply names_inode_iff; [apply Pk| |reflexivity]. destruct Pk as [_ Pk]. unfold len in Pk. lia. }
      pose proof (P n) as P1. pose proof (P n') as P2.
      destruct (call_procedure e (ni_os (fst x)) (ca_procedure c) n) as [n1 r1].
      destruct (call_procedure e (ni_os (fst x)) (ca_procedure c) n') as [n2 r2].
      cbn [fst snd] in *. subst n1 n2 r2. destruct r1 as [rp| |]; [|reflexivity|discriminate T].
      destruct (framed_send _ _ _ _) as [u s]. cbn [fst snd] in *. congruence.
    - rewrite E in T |- *. discriminate T.
    - destruct E as [E|E]; rewrite E in *; reflexivity. }
  assert (Lm : List.length hs = List.length (map fst hs)) by (rewrite map_length; reflexivity).
  assert (L : List.length hs = List.length (snd (nfs_run e (map fst hs) service_new))) by (rewrite run_length; exact Lm).
  subst is. rewrite Lm at 1. rewrite exchanged_app. rewrite !(run_app e (map fst hs)). cbn [nfs_run snd].
  fold (served e hs). rewrite <- Y in X. unfold served in *.
  destruct (nfs_turn e (fst x) _) as [s out] eqn:E. cbn [fst snd] in *. subst s.
  destruct (nfs_turn e (fst y) _) as [s1 out1] eqn:E1. cbn [fst snd] in *.
  rewrite X.
  destruct (nfs_run e after s1) as [s2 outs]. cbn [snd]. rewrite L at 1. rewrite exchanged_app. reflexivity.
Qed.

(** ** The database *)

(** A block of requests that ask for no menu: every answer is the one the state
    gives. *)
Definition answer_of (p : profile) (h : hash_order) (d : database) (st : client_state) (c : bytes) : bytes :=
  match process p h d st c with Ok (a, _) => a | _ => [] end.
Definition constant (p : profile) (h : hash_order) (d : database) (st : client_state) (c : bytes) : Prop :=
  exists a, process p h d st c = Ok (a, st).
Lemma serve_block : forall p h d block st after, Forall (constant p h d st) block ->
  serve p h d st (block ++ after) = map (answer_of p h d st) block ++ serve p h d st after.
Proof.
  intros p h d block st after F. induction F as [|c block [a Ha] _ IH]; [reflexivity|].
  cbn [app serve map]. unfold answer_of at 1. rewrite Ha, IH. reflexivity.
Qed.
Lemma serve_length : forall p h d cs st, (List.length (serve p h d st cs) <= List.length cs)%nat.
Proof.
  intros p h d cs. induction cs as [|c cs IH]; intros st; [cbn; lia|]. cbn [serve].
  destruct (process p h d st c) as [[a st']| |]; cbn [List.length]; [specialize (IH st'); lia|lia|lia].
Qed.
Lemma serve_split : forall p h d a b st, List.length (serve p h d st (a ++ b)) = List.length (a ++ b) ->
  exists st' answers, List.length answers = List.length a /\ List.length (serve p h d st' b) = List.length b /\
    forall c, serve p h d st (a ++ c) = answers ++ serve p h d st' c.
Proof.
  intros p h d a. induction a as [|x a IH]; intros b st L.
  - exists st, []. repeat split. exact L.
  - cbn [app serve List.length] in L. destruct (process p h d st x) as [[ans st1]| |] eqn:E; [|discriminate L|discriminate L].
    cbn [List.length] in L. destruct (IH b st1 ltac:(lia)) as [st' [answers [La [Lb H]]]].
    exists st', (ans :: answers). split; [cbn [List.length]; lia|]. split; [exact Lb|].
    intros c. cbn [app serve]. rewrite E, H. reflexivity.
Qed.
Lemma block_constant : forall p h d block st, Forall bytes_ok block -> no_menu p block ->
  List.length (serve p h d st block) = List.length block -> Forall (constant p h d st) block.
Proof.
  intros p h d block st B. induction B as [|c block Hc B IH]; intros N L; [constructor|].
  cbn [serve List.length] in L. destruct (process p h d st c) as [[ans st']| |] eqn:E; [|discriminate L|discriminate L].
  assert (Nc : forall m, ~ menu_request p c m) by (intros m; apply (N c); left; reflexivity).
  pose proof (process_other p h d c st ans st' Hc Nc E). subst st'.
  constructor; [exists ans; exact E|]. apply IH; [|cbn [List.length] in L; lia].
  intros c' m Hc'. apply N. right. exact Hc'.
Qed.

(** ** Discovery *)

Lemma add_permutation : forall ps ps' p, Permutation ps ps' -> NoDup (map pl_address ps) ->
  Permutation (add_or_update ps p) (add_or_update ps' p).
Proof.
  intros ps ps' p P. induction P; intros Nd.
  - apply Permutation_refl.
  - cbn [add_or_update]. cbn [map] in Nd. inversion Nd; subst. destruct (_ =? _); [constructor; exact P|].
    constructor. apply IHP. assumption.
  - cbn [add_or_update]. cbn [map] in Nd. inversion Nd as [|? ? Ny _]; subst.
    destruct (pl_address y =? pl_address p) eqn:Ey, (pl_address x =? pl_address p) eqn:Ex; try apply perm_swap.
    exfalso. apply N.eqb_eq in Ex, Ey. apply Ny. left. congruence.
  - eapply Permutation_trans; [apply IHP1; exact Nd|]. apply IHP2.
    eapply Permutation_NoDup; [apply Permutation_map; exact P1|exact Nd].
Qed.
Lemma update_address : forall q p, pl_address (player_update q p) = pl_address q.
Proof. intros [] []. reflexivity. Qed.
Lemma add_commutes : forall ps p q, pl_address p <> pl_address q ->
  Permutation (add_or_update (add_or_update ps p) q) (add_or_update (add_or_update ps q) p).
Proof.
  intros ps p q Ne. induction ps as [|r ps IH]; cbn [add_or_update].
  - rewrite (proj2 (N.eqb_neq _ _) Ne), (proj2 (N.eqb_neq _ _) (not_eq_sym Ne)). apply perm_swap.
  - destruct (pl_address r =? pl_address p) eqn:Ep, (pl_address r =? pl_address q) eqn:Eq.
    + apply N.eqb_eq in Ep, Eq. congruence.
    + cbn [add_or_update]. rewrite update_address, Eq, Ep. apply Permutation_refl.
    + cbn [add_or_update]. rewrite update_address, Eq, Ep. apply Permutation_refl.
    + cbn [add_or_update]. rewrite Eq, Ep. constructor. exact IH.
Qed.
Lemma add_nodup : forall ps p, NoDup (map pl_address ps) -> NoDup (map pl_address (add_or_update ps p)).
Proof.
  intros ps p Nd. rewrite add_or_update_address. destruct (known (pl_address p) ps) eqn:K; [exact Nd|].
  apply (Permutation_NoDup (l := pl_address p :: map pl_address ps)).
  - apply Permutation_cons_append.
  - constructor; [|exact Nd]. intros I. apply known_in in I. congruence.
Qed.
Lemma known_permutation : forall ip ps ps', Permutation ps ps' -> known ip ps = known ip ps'.
Proof.
  intros ip ps ps' P. destruct (known ip ps) eqn:A, (known ip ps') eqn:B; try reflexivity; exfalso.
  - apply known_in in A. apply (Permutation_in _ (Permutation_map pl_address P)) in A. apply known_in in A. congruence.
  - apply known_in in B. apply (Permutation_in _ (Permutation_map pl_address (Permutation_sym P))) in B. apply known_in in B. congruence.
Qed.
Lemma known_add : forall ip ps p, known ip (add_or_update ps p) = (known ip ps || (pl_address p =? ip))%bool.
Proof.
  intros ip ps p. induction ps as [|q ps IH]; cbn [add_or_update known existsb].
  - rewrite Bool.orb_false_r. reflexivity.
  - destruct (pl_address q =? pl_address p) eqn:E; cbn [existsb].
    + rewrite update_address. apply N.eqb_eq in E. rewrite E. fold (known ip ps).
      destruct (pl_address p =? ip), (known ip ps); reflexivity.
    + fold (known ip (add_or_update ps p)) (known ip ps). rewrite IH. destruct (pl_address q =? ip); reflexivity.
Qed.

(** Two worlds that differ at most in the order of the players. *)
Definition alike (w w' : world) : Prop :=
  st_linking (w_state w) = st_linking (w_state w') /\ st_discovery (w_state w) = st_discovery (w_state w') /\
  st_linked (w_state w) = st_linked (w_state w') /\ st_address (w_state w) = st_address (w_state w') /\
  Permutation (st_players (w_state w)) (st_players (w_state w')) /\ NoDup (map pl_address (st_players (w_state w))) /\
  w_poisoned w = w_poisoned w' /\ w_queue w = w_queue w' /\ w_listening w = w_listening w' /\
  w_broadcasting w = w_broadcasting w' /\ w_running w = w_running w'.

Lemma possible_alike : forall s s', st_linking s = st_linking s' -> Permutation (st_players s) (st_players s') ->
  is_linking_possible s = is_linking_possible s'.
Proof.
  intros s s' L P. unfold is_linking_possible. unfold len. rewrite (Permutation_length P), L. reflexivity.
Qed.

Lemma step_alike : forall w w' i, alike w w' ->
  alike (fst (step w i)) (fst (step w' i)) /\ snd (step w i) = snd (step w' i).
Proof.
  intros [[lk dc ld ad ps] po q li br ru] [[lk' dc' ld' ad' ps'] po' q' li' br' ru'] i H.
  unfold alike in H. cbn [w_state st_linking st_discovery st_linked st_address st_players w_poisoned w_queue w_listening w_broadcasting w_running] in H.
  destruct H as (<- & <- & <- & <- & P & Nd & <- & <- & <- & <- & <-).
  assert (Same : forall a b c d, alike (mkWorld (mkState lk dc ld ad ps) a b c d ru) (mkWorld (mkState lk dc ld ad ps') a b c d ru)).
  { intros. repeat split; assumption. }
  unfold step. cbn [w_running]. destruct ru; [|split; [apply Same|reflexivity]].
  destruct i as [d ifaces| |ok|ok].
  - cbn [w_listening]. destruct li; [|split; [apply Same|reflexivity]].
    unfold keepalive_turn. destruct (ka_receive d) as [packet| |]; [|split; [apply Same|reflexivity]|split; [apply Same|reflexivity]].
    destruct (event_status packet) as [[num ip]|]; [|split; [apply Same|reflexivity]].
    cbn [w_poisoned w_state]. destruct po; [split; [apply Same|reflexivity]|].
    unfold handle_keepalive_status. destruct (find_interface ifaces ip) as [n| |]; cbn [rbind];
      [|split; [apply Same|reflexivity]|split; [apply Same|reflexivity]].
    cbn [set_address set_players st_linking st_discovery st_linked st_address st_players w_queue w_listening w_broadcasting w_running].
    set (pl := player_new _ _ _). pose proof (add_permutation ps ps' pl P Nd) as Pa.
    replace (len ps' =? len (add_or_update ps' pl)) with (len ps =? len (add_or_update ps pl))
      by (unfold len; rewrite (Permutation_length P), (Permutation_length Pa); reflexivity).
    unfold set_address, set_players. cbn [st_linking st_discovery st_linked st_address st_players].
    rewrite (possible_alike (mkState lk dc ld n (add_or_update ps pl)) (mkState lk dc ld n (add_or_update ps' pl)) eq_refl Pa).
    split; [|reflexivity]. cbn [fst]. repeat (split; [first [reflexivity|exact Pa|apply add_nodup; exact Nd]|]). reflexivity.
  - split; [apply Same|reflexivity].
  - cbn [w_broadcasting]. destruct br; [|split; [apply Same|reflexivity]].
    unfold broadcast_turn. cbn [w_poisoned w_state st_address]. destruct po; [split; [apply Same|reflexivity]|].
    destruct ad as [a|]; [|split; [apply Same|reflexivity]].
    destruct (send_broadcast_payload _ _ _); split; first [apply Same|reflexivity].
  - unfold app_turn. cbn [w_queue]. destruct q as [|[|] q]; [split; [apply Same|reflexivity]| |].
    + unfold initiate_linking. cbn [w_state w_poisoned w_queue w_listening w_broadcasting w_running].
      destruct po; [split; [repeat split; assumption|reflexivity]|]. cbn [set_linking st_address].
      destruct ad as [a|]; [|split; [repeat split; assumption|reflexivity]].
      destruct (broadcast_messages _ _ _ _) as [os ok']. split; [repeat split; assumption|reflexivity].
    + cbn [w_state w_poisoned w_queue w_listening w_broadcasting w_running]. split; [apply Same|reflexivity].
Qed.

Lemma run_alike : forall is w w', alike w w' ->
  alike (fst (run_from w is)) (fst (run_from w' is)) /\ snd (run_from w is) = snd (run_from w' is).
Proof.
  induction is as [|i is IH]; intros w w' A; [split; [exact A|reflexivity]|]. cbn [run_from].
  destruct (step_alike w w' i A) as [A1 O]. destruct (step w i) as [w1 o], (step w' i) as [w1' o']. cbn [fst snd] in *.
  subst o'. destruct (IH w1 w1' A1) as [A2 O2]. destruct (run_from w1 is), (run_from w1' is). cbn [fst snd] in *.
  subst. split; [exact A2|reflexivity].
Qed.

Lemma run_nodup : forall is, NoDup (map pl_address (st_players (w_state (fst (run is))))).
Proof.
  intros is. assert (A : alike world_start world_start) by (repeat split; constructor).
  destruct (run_alike is _ _ A) as [(_ & _ & _ & _ & _ & Nd & _) _]. exact Nd.
Qed.

Lemma alike_refl : forall w, NoDup (map pl_address (st_players (w_state w))) -> alike w w.
Proof. intros w Nd. repeat split; try reflexivity. exact Nd. Qed.

(** The events of a status from an address. *)
Definition events_of (w : world) (ip : ipv4) : list app_event :=
  (if known ip (st_players (w_state w)) then [] else [DeviceChange]) ++
  (if st_linking (w_state w) then [] else [InitiateLink]).

Definition apart (d1 : bytes) (ifaces1 : list iface) (d2 : bytes) (ifaces2 : list iface) : Prop :=
  forall h1 h2, status_of d1 h1 -> status_of d2 h2 -> h_ip h1 <> h_ip h2 /\
     exists o, chosen ifaces1 (h_ip h1) o /\ chosen ifaces2 (h_ip h2) o.

Lemma steps_exchanged : forall w d1 ifaces1 d2 ifaces2,
  ifaces_typed ifaces1 -> ifaces_typed ifaces2 -> apart d1 ifaces1 d2 ifaces2 ->
  NoDup (map pl_address (st_players (w_state w))) ->
  let x := KaDatagram d1 ifaces1 in let y := KaDatagram d2 ifaces2 in
  let wx := fst (step w x) in let wy := fst (step w y) in
  let wxy := fst (step wx y) in let wyx := fst (step wy x) in
  snd (step wx y) = snd (step w y) /\ snd (step wy x) = snd (step w x) /\
  exists qx qy, w_queue wxy = w_queue w ++ qx ++ qy /\ w_queue wyx = w_queue w ++ qy ++ qx /\
    alike wxy (with_queue wyx (w_queue wxy)) /\
    (qx = [] \/ qy = [] \/ exists h1 h2, attentive w /\ status_of d1 h1 /\ status_of d2 h2 /\
       qx = events_of w (h_ip h1) /\ qy = events_of w (h_ip h2)).
Proof.
  intros w d1 ifaces1 d2 ifaces2 T1 T2 Ap Nd x y wx wy wxy wyx.
  assert (Nd' : forall i, NoDup (map pl_address (st_players (w_state (fst (step w i)))))).
  { intros i. destruct (step_alike w w i (alike_refl w Nd)) as [(_ & _ & _ & _ & _ & N & _) _]. exact N. }
  assert (Q : forall u, mkWorld (w_state u) (w_poisoned u) (w_queue u) (w_listening u) (w_broadcasting u) (w_running u) = u)
    by (intros []; reflexivity).
  assert (Grow : forall u d fs, ifaces_typed fs -> exists q, w_queue (fst (step u (KaDatagram d fs))) = w_queue u ++ q).
  { intros u d fs T. destruct (datagram_cases u d fs T) as [(h & o & _ & _ & _ & _ & E)|[(h & _ & _ & _ & E)|[_ E]]]; rewrite E.
    - eexists. reflexivity.
    - exists []. rewrite app_nil_r. reflexivity.
    - exists []. rewrite app_nil_r. reflexivity. }
  destruct (attentive_dec w) as [A|A].
  2: { subst wx wy wxy wyx x y. rewrite (step_inattentive w d1 ifaces1 A), (step_inattentive w d2 ifaces2 A). cbn [fst snd].
       rewrite (step_inattentive w d1 ifaces1 A), (step_inattentive w d2 ifaces2 A). cbn [fst snd].
       split; [reflexivity|]. split; [reflexivity|]. exists [], []. rewrite app_nil_r.
       split; [reflexivity|]. split; [reflexivity|]. split; [|left; reflexivity].
       unfold with_queue. rewrite Q. apply alike_refl. exact Nd. }
  destruct (status_of_dec d1) as [[h1 S1]|S1].
  2: { assert (X : forall u, step u x = (u, [])) by (intros u; apply step_noise; exact S1).
       subst wx wy wxy wyx. rewrite !X. cbn [fst snd]. split; [reflexivity|]. split; [reflexivity|].
       destruct (Grow w d2 ifaces2 T2) as [q Hq]. exists [], q. rewrite app_nil_r. cbn [app].
       split; [exact Hq|]. split; [exact Hq|]. split; [|left; reflexivity].
       unfold with_queue. rewrite Q. apply alike_refl. apply Nd'. }
  destruct (status_of_dec d2) as [[h2 S2]|S2].
  2: { assert (Y : forall u, step u y = (u, [])) by (intros u; apply step_noise; exact S2).
       subst wx wy wxy wyx. rewrite !Y. cbn [fst snd]. split; [reflexivity|]. split; [reflexivity|].
       destruct (Grow w d1 ifaces1 T1) as [q Hq]. exists q, []. rewrite app_nil_r. cbn [app].
       split; [exact Hq|]. split; [exact Hq|]. split; [|right; left; reflexivity].
       unfold with_queue. rewrite Q. apply alike_refl. apply Nd'. }
  destruct (Ap h1 h2 S1 S2) as [Ne [o [C1 C2]]].
  assert (X : forall u, attentive u -> step u x = accept u h1 o) by (intros u Au; apply step_accept; assumption).
  assert (Y : forall u, attentive u -> step u y = accept u h2 o) by (intros u Au; apply step_accept; assumption).
  assert (Ac : forall u h, attentive (fst (accept u h o))) by (intros; repeat split).
  subst wx wy wxy wyx. rewrite (X w A), (Y w A).
  rewrite (X _ (Ac w h2)), (Y _ (Ac w h1)).
  assert (K1 : known (h_ip h1) (st_players (w_state (fst (accept w h2 o)))) = known (h_ip h1) (st_players (w_state w))).
  { unfold accept. cbn [fst w_state st_players]. rewrite known_add. cbn [player_new pl_address].
    rewrite (proj2 (N.eqb_neq _ _) (not_eq_sym Ne)). apply Bool.orb_false_r. }
  assert (K2 : known (h_ip h2) (st_players (w_state (fst (accept w h1 o)))) = known (h_ip h2) (st_players (w_state w))).
  { unfold accept. cbn [fst w_state st_players]. rewrite known_add. cbn [player_new pl_address].
    rewrite (proj2 (N.eqb_neq _ _) Ne). apply Bool.orb_false_r. }
  split; [unfold accept at 1; cbn [snd]; rewrite K2; reflexivity|].
  split; [unfold accept at 1; cbn [snd]; rewrite K1; reflexivity|].
  exists (events_of w (h_ip h1)), (events_of w (h_ip h2)).
  split; [unfold accept at 1; cbn [fst w_queue]; rewrite K2; unfold accept; cbn [fst w_queue w_state st_linking]; rewrite <- app_assoc; reflexivity|].
  split; [unfold accept at 1; cbn [fst w_queue]; rewrite K1; unfold accept; cbn [fst w_queue w_state st_linking]; rewrite <- app_assoc; reflexivity|].
  split.
  - unfold with_queue, accept, alike. cbn [fst w_state w_poisoned w_queue w_listening w_broadcasting w_running st_linking st_discovery st_linked st_address st_players].
    repeat (split; [reflexivity|]). split; [apply add_commutes; exact Ne|].
    split; [apply add_nodup, add_nodup; exact Nd|]. repeat split.
  - right. right. exists h1, h2. repeat (split; [assumption|]). split; reflexivity.
Qed.
