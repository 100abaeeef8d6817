(** Property theorems C105: what harms the program, and that nothing else does. *)

From Verif Require Import Base Unicode MPackets MNetwork MServer MStatus MDb MDatabase MLib MRpc MRpcServer MNfs
  MSystem SUdp SNetwork SServer SRpc SRpcServer SNfs SDisk SSystem SUp LBase LServer LServer2 LStatus LRpc LRpc2 LRpcServer LNfs LNfs2
  LSystem PServer PRpcServer PDatabase PLib PNfs PSystem PDisk PMany PStranger.
From Coq Require Import ZArith Lia Arith String.
Open Scope list_scope.
Open Scope N_scope.

Lemma hears_total : forall d, bytes_ok d -> exists x, SNfs.hears d x.
Proof.
  intros d B. destruct (codec_cases d B) as [(m & c & _ & C & Bc)|[(_ & R & _)|(_ & N & R)]].
  - exists (Asked (rpc_xid m) (ca_procedure c)), m, c. auto.
  - exists Fatal. exact R.
  - exists Ignored. split; assumption.
Qed.

(** ** A file service *)

Lemma with_result : forall m (R : bytes -> bytes -> Prop) r a n, (forall fattr r', fattr_says fattr m -> R fattr r' -> len r' = n) ->
  with_attributes m R (Result r) -> with_attributes m R a -> exists r', a = Result r' /\ len r' = len r.
Proof.
  intros m R r a n L (T & fattr & F & H) A. destruct a as [r'| |]; cbn [with_attributes] in A; [|contradiction|contradiction].
  destruct A as (_ & fattr' & F' & H'). exists r'. split; [reflexivity|]. rewrite (L _ _ F H), (L _ _ F' H'). reflexivity.
Qed.
Lemma outcome_result : forall e hs o p r a, call_outcome e hs o p (Result r) -> call_outcome e hs o p a ->
  exists r', a = Result r' /\ len r' = len r.
Proof.
  intros e hs o p r a C A. destruct p; cbn [call_outcome] in C, A; try discriminate C.
  - destruct C as [(f & Hf & C)|[_ C]]; [|discriminate C].
    destruct A as [(f' & Hf' & A)|[N _]]; [|elim (N f Hf)]. rewrite <- (handle_functional _ _ _ _ _ Hf Hf') in A.
    unfold getattr_outcome in C, A. destruct (os_fstat o f) as [m|]; [|discriminate C].
    eapply with_result; [|exact C|exact A]. intros fattr r' F ->. unfold std_getattr_result.
    rewrite len_app, word_len, (LNfs2.fattr_len _ _ F). reflexivity.
  - unfold lookup_outcome in C, A. destruct (os_stat o _) as [m|]; [|discriminate C]. destruct (os_open o _); [|discriminate C].
    eapply with_result; [|exact C|exact A]. intros fattr r' F ->. exact (lookup_result_len _ _ _ F).
  - destruct C as [(f & Hf & C)|[_ C]]; [|discriminate C].
    destruct A as [(f' & Hf' & A)|[N _]]; [|elim (N f Hf)]. rewrite <- (handle_functional _ _ _ _ _ Hf Hf') in A.
    unfold read_outcome in C, A. destruct (os_content o f); [|discriminate C]. destruct (os_fstat o f) as [m|]; [|discriminate C].
    eapply with_result; [|exact C|exact A]. intros fattr r' F (data & -> & Ld & _). rewrite (read_result_len _ _ _ F), Ld. reflexivity.
Qed.
Lemma replies_same : forall e hs x to d o, replies e hs x (Some (to, d)) -> replies e hs x o ->
  exists d', o = Some (to, d') /\ len d' = len d.
Proof.
  intros e hs x to d o R O. unfold replies in R, O. destruct (snd x) as [|xid p|]; try discriminate R.
  destruct R as [(r & C & E)|[_ E]]; [|discriminate E]. injection E as -> ->.
  destruct O as [(r' & C' & ->)|[C' ->]]; destruct (outcome_result _ _ _ _ _ _ C C') as (q & Eq & L); [|discriminate Eq].
  injection Eq as ->. eexists. split; [reflexivity|]. rewrite !std_reply_len, L. reflexivity.
Qed.

Definition stuck (e : endian) (hs : history) (x : nfs_input * SNfs.heard) : Prop :=
  kills e hs x \/ exists to d, replies e hs x (Some (to, d)) /\ (ni_send (fst x) = false \/ 65507 < len d).

Lemma file_step : forall e hs x, history_ok (hs ++ [x]) -> sound (NfsUdp (fst (served e hs))) ->
  (sound (NfsUdp (fst (nfs_turn e (fst x) (fst (served e hs))))) <-> ~ stuck e hs x).
Proof.
  intros e hs x H (S1 & S2). apply history_snoc in H. destruct H as (H & B & Hx).
  destruct (served_state e hs H) as [[_ (n & En & I)]|[_ E]]; [|contradiction].
  destruct (fst (served e hs)) as [sn u]. cbn [sv_nfs sv_unsent] in *. subst sn u.
  destruct (turn_step e hs n None x I B Hx) as [(n' & d & K & _ & R & T)|(K & T)]; rewrite T; cbn [fst sound sv_nfs sv_unsent].
  - assert (P : fst (put None (fst x) d) = None <-> forall to b, d = Some (to, b) -> ni_send (fst x) = true /\ len b <= 65507).
    { destruct d as [[to b]|]; cbn [put]; [|split; [discriminate|reflexivity]].
      cbn [framed_send snd]. unfold send_to, max_datagram. destruct (N.leb_spec (len b) 65507), (ni_send (fst x)); cbn [andb fst];
        (split; [intros Z to' b' E; try discriminate Z; injection E as <- <-; auto|intros Z; destruct (Z to b eq_refl); try reflexivity; try discriminate; lia]). }
    split.
    + intros (_ & U) [Y|(to & b & R' & Y)]; [contradiction|].
      destruct (replies_same _ _ _ _ _ _ R' R) as (b' & -> & L). destruct (proj1 P U to b' eq_refl) as [P1 P2].
      destruct Y as [Y|Y]; [congruence|lia].
    + intros N. split; [discriminate|]. apply P. intros to b ->. split.
      * destruct (ni_send (fst x)) eqn:Se; [reflexivity|]. elim N. right. exists to, b. split; [exact R|left; exact Se].
      * destruct (N.le_gt_cases (len b) 65507) as [L|L]; [exact L|]. elim N. right. exists to, b. split; [exact R|right; exact L].
  - split; [intros (Z & _); elim Z; reflexivity|]. intros N. elim N. left. exact K.
Qed.

(** ** Services in the process *)

Lemma started_fresh : forall outs u port, start_services u outs port = u port \/
  start_services u outs port = NfsUdp service_new \/ start_services u outs port = MountUdp true.
Proof.
  intros outs. unfold start_services. induction outs as [|o outs IH]; intros u port; [left; reflexivity|]. cbn [fold_left].
  match goal with |- context [fold_left _ outs ?x] => specialize (IH x port) end.
  destruct IH as [IH|[IH|IH]]; rewrite IH; [|auto|auto].
  destruct o as [[|] q|]; auto; unfold at_key; destruct (port =? q); auto.
Qed.

Section Up.
Variables (e : endian) (p : profile) (h : hash_order) (d : database).
Notation sstep := (sys_step e p h d).
Notation after is := (fst (sys_run e p h d is (system_start true true true true))).

Lemma after_snoc : forall is i, after (is ++ [i]) = fst (sstep i (after is)).
Proof.
  intros is i. rewrite (srun_app e p h d). cbn [fst]. rewrite (srun_cons e p h d). reflexivity.
Qed.

Lemma files_served : forall is, Forall input_ok is ->
  forall port v, sy_udp (after is) port = NfsUdp v -> exists hs, history_ok hs /\ v = fst (served e hs).
Proof.
  intros is. induction is as [|i is IH] using rev_ind; intros F port v E; [discriminate E|].
  apply Forall_app in F. destruct F as [F Fi]. apply Forall_inv in Fi. specialize (IH F). rewrite after_snoc in E.
  set (s := after is) in *. clearbody s.
  assert (New : forall u outs, (forall q w, u q = NfsUdp w -> exists hs, history_ok hs /\ w = fst (served e hs)) ->
    start_services u outs port = NfsUdp v -> exists hs, history_ok hs /\ v = fst (served e hs)).
  { intros u outs U X. destruct (started_fresh outs u port) as [Y|[Y|Y]]; rewrite Y in X.
    - exact (U port v X).
    - injection X as <-. exists []. split; [constructor|reflexivity].
    - discriminate X. }
  destruct (w_running (sy_world s)) eqn:R; [|unfold sys_step in E; rewrite R in E; exact (IH port v E)].
  pose proof (step_shape e p h d i s R) as S.
  destruct i as [j|x|j|q j|ws|c chunk [q|]|c|x]; cbn beta iota in S.
  - rewrite S in E. exact (IH port v E).
  - rewrite S in E. destruct (sy_status s); [destruct (status_turn x)|]; exact (IH port v E).
  - rewrite S in E. destruct (sy_mapper s); [|exact (IH port v E)]. cbn [fst with_mapper sy_udp] in E. exact (New _ _ IH E).
  - destruct S as [S _]. rewrite S in E. cbn [with_udp sy_udp] in E. unfold at_key in E.
    destruct (N.eqb_spec port q) as [->|Nq]; [|exact (IH port v E)].
    unfold udp_turn in E. destruct (sy_udp s q) as [|w|[|]] eqn:Eq; cbn [fst] in E; try discriminate E.
    + destruct (IH q w Eq) as (hs & H & ->). destruct (hears_total _ Fi) as (x & Hx).
      exists (hs ++ [(j, x)]). split; [apply history_snoc; auto|]. rewrite served_snoc. cbn [fst].
      destruct (nfs_turn e j (fst (served e hs))) as [w' o]. cbn [fst] in E |- *. injection E as <-. reflexivity.
    + destruct (ms_turn _) as [b o]. discriminate E.
  - rewrite S in E. destruct (sy_joined s); [destruct (sy_mapper s)|]; exact (IH port v E).
  - rewrite S in E. destruct (sy_query s c); exact (IH port v E).
  - rewrite S in E. destruct (sy_query s c); exact (IH port v E).
  - rewrite S in E. exact (IH port v E).
  - destruct x; rewrite S in E; exact (IH port v E).
Qed.

Lemma world_typed : forall is, Forall input_ok is -> inputs_typed (world_inputs is).
Proof.
  intros is F dg fs I. unfold world_inputs in I. apply in_flat_map in I. destruct I as (i & Ii & I).
  destruct i as [j|x|j|q j|ws|c chunk o|c|x]; try contradiction. destruct I as [->|[]].
  exact (proj1 (Forall_forall _ _) F _ Ii).
Qed.

Lemma world_up : forall w j, attentive w -> w_broadcasting w = true ->
  (forall n, st_address (w_state w) = Some n -> net_ok n) ->
  (forall dg fs, j = KaDatagram dg fs -> ifaces_typed fs) ->
  (attentive (fst (step w j)) /\ w_broadcasting (fst (step w j)) = true <->
   ~ match j with
     | KaDatagram dg ifaces => exists h, status_of dg h /\ lookup_fails ifaces (h_ip h)
     | KaRecvError => False
     | BroadcastTurn ok => ok = false /\ st_address (w_state w) <> None
     | AppTurn ok => (exists q, w_queue w = InitiateLink :: q) /\
         (st_address (w_state w) = None \/ exists k, (k < 40)%nat /\ ok k = false)
     end).
Proof.
  intros w j A Bc Hn T. pose proof A as (Ar & Al & Ap).
  destruct j as [dg fs| |ok|ok].
  - destruct (datagram_cases w dg fs (T _ _ eq_refl)) as [(x & o & _ & S & C & F & E)|[(x & _ & S & F & E)|[N E]]]; rewrite E; cbn [fst].
    + split; [|intros _; unfold accept, attentive; cbn; auto].
      intros _ (x' & S' & F'). apply F. rewrite (status_of_functional _ _ _ S S'). exact F'.
    + split; [intros ((_ & Z & _) & _); discriminate Z|]. intros N. elim N. exists x. auto.
    + split; [|auto]. intros _ (x' & S' & _). destruct N as [N|N]; [exact (N A)|exact (N _ S')].
  - unfold step. rewrite Ar. cbn [fst]. tauto.
  - destruct (turn_cases w ok Hn) as [[C E]|(n & _ & _ & _ & Ea & [[Y E]|[Y E]])]; rewrite E; cbn [fst].
    + split; [|auto]. intros _ (_ & N). destruct C as [C|[C|[C|C]]]; congruence.
    + split; [|auto]. intros _ (Z & _). congruence.
    + split; [intros (_ & Z); discriminate Z|]. intros N. elim N. split; congruence.
  - destruct (app_cases w ok Ar Hn) as
      [[Eq E]|[(q & Eq & E)|(q & Eq & [(X & E)|[(_ & X & E)|[(n & Ep & Ea & Lk & E)|(n & k & _ & Ea & Lk & X & _ & E)]]])]];
      rewrite E; cbn [fst].
    + split; [|auto]. intros _ ((q & Z) & _). congruence.
    + split; [|unfold attentive; cbn; auto]. intros _ ((q' & Z) & _). congruence.
    + congruence.
    + split; [intros ((Z & _) & _); discriminate Z|]. intros N. elim N. eauto.
    + split; [|unfold attentive; cbn; auto]. intros _ (_ & [Z|(k & L & Z)]); [congruence|]. rewrite (Lk k L) in Z. discriminate Z.
    + split; [intros ((Z & _) & _); discriminate Z|]. intros N. elim N. split; [eauto|]. right. exists k. auto.
Qed.

Lemma up_step : forall is i, Forall input_ok (is ++ [i]) -> all_up (after is) ->
  (all_up (after (is ++ [i])) <-> ~ harmful e (after is) i).
Proof.
  intros is i F U. apply Forall_app in F. destruct F as [F Fi]. apply Forall_inv in Fi. rewrite after_snoc.
  assert (Hn : forall n, st_address (w_state (sy_world (after is))) = Some n -> net_ok n).
  { rewrite (start_runs e p h d true true). apply address_net_ok. apply world_typed. exact F. }
  pose proof (files_served is F) as Fs.
  set (s := after is) in *. clearbody s. destruct U as (U1 & U2 & U3 & U4 & U5 & U6 & U7 & U8).
  assert (U : all_up s) by (repeat split; assumption).
  pose proof (step_shape e p h d i s U1) as S.
  destruct i as [j|x|j|q j|ws|c chunk [q|]|c|x]; cbn beta iota in S; cbn [harmful].
  - rewrite S. unfold all_up. cbn [fst with_world sy_world sy_status sy_mapper sy_joined sy_udp].
    assert (K := world_up (sy_world s) j (conj U1 (conj U2 U4)) U3 Hn).
    assert (T : forall dg fs, j = KaDatagram dg fs -> ifaces_typed fs) by (intros dg fs ->; exact Fi).
    specialize (K T). unfold attentive in K.
    destruct j; cbn [network_known] in *; unfold network_known; rewrite <- K; tauto.
  - rewrite S, U5. destruct x as [ip port dg|].
    + split.
      * intros Z St. rewrite (status_turn_stop ip port dg St) in Z. cbn [fst] in Z. destruct Z as (_ & _ & _ & _ & Z & _). discriminate Z.
      * intros N. destruct (status_turn_answer (StatusDatagram ip port dg)) as (out & E & _).
        { intros ip' port' d' [X|[]]. injection X as _ _ <-. exact N. }
        rewrite E. exact U.
    + cbn. tauto.
  - rewrite S, U6. unfold all_up. cbn [fst with_mapper sy_world sy_status sy_mapper sy_joined sy_udp].
    destruct (pm_turn_cases j Fi) as [(A & N & _)|(A & N & _)]; rewrite A.
    + split; [tauto|]. intros _. repeat (split; [assumption || reflexivity|]). intros port.
      destruct (started_fresh (snd (pm_turn j)) (sy_udp s) port) as [E|[E|E]]; rewrite E; [apply U8| |reflexivity].
      split; [discriminate|reflexivity].
    + split; [intros (_ & _ & _ & _ & _ & Z & _); discriminate Z|contradiction].
  - destruct S as [S _]. rewrite S. unfold all_up. cbn [with_udp sy_world sy_status sy_mapper sy_joined sy_udp].
    assert (K : sound (fst (udp_turn e (sy_world s) q j (sy_udp s q))) <->
      ~ match sy_udp s q with
        | NoService => False
        | MountUdp _ => ms_stops (mkMsIn (ni_datagram j) (ni_from j) false (network_known s) (ni_send j))
        | NfsUdp v => harms_files e v j
        end).
    { specialize (U8 q). unfold udp_turn. destruct (sy_udp s q) as [|v|r] eqn:Eq.
      - cbn. tauto.
      - destruct (nfs_turn e j v) as [v' o] eqn:Ev. cbn [fst]. replace v' with (fst (nfs_turn e j v)) by (rewrite Ev; reflexivity). clear v' o Ev. split.
        + intros Z (hs & x & -> & H & St). exact (proj1 (file_step e hs (j, x) H U8) Z St).
        + intros N. destruct (Fs q v Eq) as (hs & H & ->). destruct (hears_total _ Fi) as (x & Hx).
          assert (H' : history_ok (hs ++ [(j, x)])) by (apply history_snoc; auto).
          apply (file_step e hs (j, x) H' U8). intros St. apply N. exists hs, x. split; [reflexivity|]. split; [exact H'|exact St].
      - cbn [sound] in U8. subst r. rewrite U4. fold (network_known s).
        set (mi := mkMsIn _ _ _ _ _). destruct (ms_turn_cases mi Fi) as [(A & N & _)|(A & N & _)];
          destruct (ms_turn mi) as [b o]; cbn [fst sound] in *; subst b; [tauto|split; [discriminate|contradiction]]. }
    rewrite <- K. split.
    + intros (_ & _ & _ & _ & _ & _ & _ & Z). specialize (Z q). unfold at_key in Z. rewrite N.eqb_refl in Z. exact Z.
    + intros Z. repeat (split; [assumption|]). intros port. unfold at_key. destruct (port =? q); [exact Z|apply U8].
  - rewrite S, U7, U6. split; [intros _ []|]. intros _. repeat (split; [assumption || reflexivity|]). exact U8.
  - rewrite S. split; [intros _ []|]. intros _. destruct (sy_query s c); exact U.
  - rewrite S. split; [intros _ []|]. intros _. destruct (sy_query s c); exact U.
  - rewrite S. split; [intros _ []|]. intros _. exact U.
  - split; [intros _ []|]. intros _. destruct x; rewrite S; exact U.
Qed.

Lemma up_all : forall is, Forall input_ok is ->
  ((forall k, all_up (after (firstn k is))) <->
   forall k i, nth_error is k = Some i -> ~ harmful e (after (firstn k is)) i).
Proof.
  intros is F.
  assert (N : forall k i, nth_error is k = Some i -> firstn (S k) is = firstn k is ++ [i]).
  { clear F. induction is as [|a is IH]; intros [|k] i Hk; try discriminate Hk; [injection Hk as <-; reflexivity|].
    cbn [firstn app]. f_equal. exact (IH k i Hk). }
  assert (Fk : forall k, Forall input_ok (firstn k is)).
  { intros k. apply Forall_forall. intros x I. apply (proj1 (Forall_forall _ _) F). rewrite <- (firstn_skipn k is). apply in_or_app. left. exact I. }
  split.
  - intros U k i Hk. pose proof (Fk (S k)) as Fi. pose proof (U (S k)) as Us. rewrite (N k i Hk) in Fi, Us.
    exact (proj1 (up_step _ _ Fi (U k)) Us).
  - intros H k. induction k as [|k IH].
    + cbn. repeat split.
    + destruct (nth_error is k) as [i|] eqn:Hk.
      * pose proof (Fk (S k)) as Fi. rewrite (N k i Hk) in Fi |- *. apply up_step; [exact Fi|exact IH|exact (H k i Hk)].
      * apply nth_error_None in Hk. rewrite firstn_all2 in IH |- * by lia. exact IH.
Qed.

Lemma up_attacks : forall is i, Forall input_ok (is ++ [i]) -> all_up (after is) -> machine_works i ->
  (harmful e (after is) i <-> attack e (after is) i).
Proof.
  intros is i F U W. apply Forall_app in F. destruct F as [F Fi]. apply Forall_inv in Fi.
  pose proof (files_served is F) as Fs.
  set (s := after is) in *. clearbody s.
  destruct i as [[dg fs| |ok|ok]|[ip port dg|]|j|q j|ws|c chunk o|c|x]; cbn [harmful attack machine_works] in *; try tauto.
  - split; [|intros []]. intros (x & _ & (before & n & rest & E & _)). rewrite E in W. apply Forall_app in W. destruct W as [_ W].
    apply Forall_inv in W. elim W. reflexivity.
  - split; [|intros []]. intros (Z & _). congruence.
  - split; [|tauto]. intros (Q & [Z|(k & _ & Z)]); [auto|]. rewrite W in Z. discriminate Z.
  - unfold pm_stops. split; [|tauto]. intros [R|(_ & [Z|Z])]; [exact R|tauto|]. destruct W. congruence.
  - destruct W as (Se & W1 & W2). destruct (sy_udp s q) as [|v|r] eqn:Eq; [tauto| |].
    + split.
      * intros (hs & x & Ev & H & St). apply history_snoc in H. destruct H as (H & B & Hx). cbn [fst snd] in B, Hx.
        assert (NoDeath : forall pr, ~ call_outcome e hs (ni_os j) pr Death).
        { intros pr C. destruct pr; cbn [call_outcome] in C; try discriminate C.
          - destruct C as [(f & _ & C)|[_ C]]; [|discriminate C]. unfold getattr_outcome in C.
            destruct (os_fstat (ni_os j) f) as [m|] eqn:Ef; [|discriminate C]. exact (C (W2 _ _ Ef)).
          - unfold lookup_outcome in C. destruct (os_stat (ni_os j) _) as [m|] eqn:Ef; [|discriminate C].
            destruct (os_open (ni_os j) _); [|discriminate C]. exact (C (W1 _ _ Ef)).
          - destruct C as [(f & _ & C)|[_ C]]; [|discriminate C]. unfold read_outcome in C.
            destruct (os_content (ni_os j) f); [|discriminate C].
            destruct (os_fstat (ni_os j) f) as [m|] eqn:Ef; [|discriminate C]. exact (C (W2 _ _ Ef)). }
        destruct St as [K|(to & dg & R & [Z|L])]; [|cbn [fst] in Z; congruence|].
        -- left. unfold kills in K. cbn [fst snd] in K. destruct x as [|xid pr|]; [contradiction|elim (NoDeath pr K)|exact Hx].
        -- right. unfold replies in R. cbn [fst snd] in R. destruct x as [|xid pr|]; try discriminate R.
           destruct R as [(r & C & E)|[_ E]]; [|discriminate E]. injection E as -> ->. rewrite std_reply_len in L.
           destruct pr as [| | | | | | |hd|lk|rd| | |]; cbn [call_outcome] in C; try discriminate C.
           ++ destruct C as [(f & _ & C)|[_ C]]; [|discriminate C]. unfold getattr_outcome in C.
              destruct (os_fstat (ni_os j) f); [|discriminate C]. destruct C as (_ & fattr & Fa & ->).
              unfold std_getattr_result in L. rewrite len_app, word_len, (LNfs2.fattr_len _ _ Fa) in L. lia.
           ++ unfold lookup_outcome in C. destruct (os_stat (ni_os j) _); [|discriminate C].
              destruct (os_open (ni_os j) _); [|discriminate C]. destruct C as (_ & fattr & Fa & ->).
              rewrite (lookup_result_len _ _ _ Fa) in L. lia.
           ++ destruct C as [(f & Hf & C)|[_ C]]; [|discriminate C]. exists hs, xid, rd, f.
              split; [exact Ev|]. split; [exact H|]. split; [exact Hx|]. split; [exact Hf|].
              unfold read_outcome in C. destruct (os_content (ni_os j) f); [|discriminate C].
              destruct (os_fstat (ni_os j) f); [|discriminate C]. split; [discriminate|]. split; [discriminate|].
              destruct C as (_ & fattr & Fa & data & -> & Ld & _). pose proof (read_fits fattr m data Fa) as Rf. lia.
      * intros [R|(hs & xid & rd & f & Ev & H & Hx & Hf & Oc & Of & L)].
        -- destruct (Fs q v Eq) as (hs & H & Ev). exists hs, Fatal. split; [exact Ev|]. split; [apply history_snoc; auto|].
           left. exact Logic.I.
        -- exists hs, (Asked xid (NfsRead rd)). split; [exact Ev|]. split; [apply history_snoc; auto|].
           assert (So : sound (NfsUdp v)) by (destruct U as (_ & _ & _ & _ & _ & _ & _ & U); specialize (U q); rewrite Eq in U; exact U).
           subst v. destruct So as (S1 & S2). destruct (served_state e hs H) as [[_ (n & En & I)]|[_ E]]; [|contradiction].
           destruct (turn_step e hs n None (j, Asked xid (NfsRead rd)) I Fi Hx) as [(n' & o & K & _ & R & _)|(K & _)]; [|left; exact K].
           right. unfold replies in R. cbn [fst snd] in R. destruct (os_content (ni_os j) f) as [content|] eqn:Ec; [|congruence].
           destruct (os_fstat (ni_os j) f) as [m|] eqn:Ef; [|congruence].
           assert (G : forall a, call_outcome e hs (ni_os j) (NfsRead rd) a -> exists r, a = Result r /\ 65483 < len r).
           { intros a [(f' & Hf' & C)|[N _]]; [|elim (N f Hf)]. rewrite <- (handle_functional _ _ _ _ _ Hf Hf') in C.
             unfold read_outcome in C. rewrite Ec, Ef in C. destruct a as [r| |]; cbn [with_attributes] in C; [|contradiction|elim (C (W2 f m Ef))].
             destruct C as (_ & fattr & Fa & data & -> & Ld & _). eexists. split; [reflexivity|].
             pose proof (read_fits fattr m data Fa). lia. }
           destruct R as [(r & C & E)|[C _]]; destruct (G _ C) as (r' & Er & Lr); [|discriminate Er]. injection Er as <-.
           exists (ni_from j), (std_reply xid r). split; [left; exists r; split; [exact C|reflexivity]|]. right. rewrite std_reply_len. lia.
    + unfold ms_stops. cbn [mi_datagram mi_send]. split.
      * intros [R|(m & c & C & Bo & [Na|Z])]; [left; exact R| |congruence]. right. exists m, c. split; [exact C|]. split; [exact Bo|]. split.
        -- intros paths E. apply Na. left. eauto.
        -- intros E. destruct (network_known s) as [n|] eqn:En; [|reflexivity]. elim Na. right. split; [exact E|]. split; [reflexivity|].
           exists n. reflexivity.
      * intros [R|(m & c & C & Bo & N1 & N2)]; [left; exact R|]. right. exists m, c. split; [exact C|]. split; [exact Bo|]. left.
        intros [(paths & E)|(E & _ & (n & En))]; [exact (N1 paths E)|]. cbn [mi_address] in En. rewrite (N2 E) in En. discriminate En.
Qed.

Lemma up_peace : forall is, Forall input_ok is -> Forall machine_works is ->
  ((forall k, all_up (after (firstn k is))) <->
   forall k i, nth_error is k = Some i -> ~ attack e (after (firstn k is)) i).
Proof.
  intros is F W.
  assert (Fk : forall k i, nth_error is k = Some i -> firstn (S k) is = firstn k is ++ [i] /\ Forall input_ok (firstn k is ++ [i])).
  { intros k i Hk. assert (N : firstn (S k) is = firstn k is ++ [i]).
    { clear F W. revert k Hk. induction is as [|a is IH]; intros [|k] Hk; try discriminate Hk; [injection Hk as <-; reflexivity|].
      cbn [firstn app]. f_equal. exact (IH k Hk). }
    split; [exact N|]. rewrite <- N. apply Forall_forall. intros x I. apply (proj1 (Forall_forall _ _) F).
    rewrite <- (firstn_skipn (S k) is). apply in_or_app. left. exact I. }
  assert (Wk : forall k i, nth_error is k = Some i -> machine_works i).
  { intros k i Hk. apply (proj1 (Forall_forall _ _) W). exact (nth_error_In _ _ Hk). }
  split.
  - intros U k i Hk A. destruct (Fk k i Hk) as [_ Fi].
    apply (proj1 (up_all is F) U k i Hk). apply (up_attacks _ _ Fi (U k) (Wk k i Hk)). exact A.
  - intros H k. induction k as [|k IH].
    + cbn. repeat split.
    + destruct (nth_error is k) as [i|] eqn:Hk.
      * destruct (Fk k i Hk) as [N Fi]. rewrite N. apply up_step; [exact Fi|exact IH|]. intros A.
        apply (H k i Hk). apply (up_attacks _ _ Fi IH (Wk k i Hk)). exact A.
      * apply nth_error_None in Hk. rewrite firstn_all2 in IH |- * by lia. exact IH.
Qed.
End Up.

(** ** C105 *)

(** As long as all of the program is up, the next thing that happens leaves all of it
    up exactly if it is none of those listed as harmful. *)
Theorem C105_harmful_exactly : forall e p h d is i,
  let after is := fst (sys_run e p h d is (system_start true true true true)) in
  Forall input_ok (is ++ [i]) -> all_up (after is) ->
  (all_up (after (is ++ [i])) <-> ~ harmful e (after is) i).
Proof. intros e p h d is i after. apply up_step. Qed.
Print Assumptions C105_harmful_exactly.

(** So all of the program is up from the start to the end of a history exactly if
    nothing in it was harmful when it came. *)
Theorem C105_up_exactly : forall e p h d is,
  let after is := fst (sys_run e p h d is (system_start true true true true)) in
  Forall input_ok is ->
  ((forall k, all_up (after (firstn k is))) <->
   forall k i, nth_error is k = Some i -> ~ harmful e (after (firstn k is)) i).
Proof. intros e p h d is after. apply up_all. Qed.
Print Assumptions C105_up_exactly.

(** If the machine does its part then what harms the program is exactly this: a link
    request taken while the last device heard is on none of the networks; a status
    datagram of unknown kind; at the port mapper and the services it starts a
    message of type 1; at a mount service a call other than mount, or export while
    no network is known; at a file service a read of more than 65404 bytes through
    a good handle. *)
Theorem C105_attacks : forall e p h d is i,
  let after is := fst (sys_run e p h d is (system_start true true true true)) in
  Forall input_ok (is ++ [i]) -> all_up (after is) -> machine_works i ->
  (harmful e (after is) i <-> attack e (after is) i).
Proof. intros e p h d is i after. apply up_attacks. Qed.
Print Assumptions C105_attacks.

(** If the machine does its part throughout then all of the program is up from the
    start to the end of a history exactly if none of these happened in it. *)
Theorem C105_peace : forall e p h d is,
  let after is := fst (sys_run e p h d is (system_start true true true true)) in
  Forall input_ok is -> Forall machine_works is ->
  ((forall k, all_up (after (firstn k is))) <->
   forall k i, nth_error is k = Some i -> ~ attack e (after (firstn k is)) i).
Proof. intros e p h d is after. apply up_peace. Qed.
Print Assumptions C105_peace.

(** The program after a stranger has fetched a file: all is up, and a message of
    type 1 to the port mapper would end that. *)
Definition up_history : list sys_input := SysMapper strange_getport :: strange_run.
Definition up_last : sys_input := SysMapper (mkPmIn [0; 0; 0; 0; 0; 0; 0; 1] 1 (Some 4002) true).
Example C105_case :
  let after is := fst (sys_run Little Checked reverse_order example_db is (system_start true true true true)) in
  Forall input_ok (up_history ++ [up_last]) /\ Forall machine_works (up_history ++ [up_last]) /\
  (forall k, all_up (after (firstn k up_history))) /\ sy_udp (after up_history) 4001 <> NoService /\
  harmful Little (after up_history) up_last /\ attack Little (after up_history) up_last /\
  ~ all_up (after (up_history ++ [up_last])).
Proof.
  intros after. assert (F : Forall input_ok (up_history ++ [up_last])).
  { repeat (apply Forall_cons; [apply demo_bytes; vm_compute; reflexivity|]). constructor. }
  assert (W : Forall machine_works (up_history ++ [up_last])).
  { assert (T : forall f, times_known (dk_info two_disk f)).
    { intros f. cbn [dk_info two_disk example_disk]. destruct (find _ _); repeat split; discriminate. }
    assert (K : forall x m, os_stat (os_on two_disk) x = Some m -> times_known m).
    { intros x m. unfold os_on, os_stat. destruct (dk_names two_disk x); [|discriminate]. intros [= <-]. apply T. }
    assert (L : forall x m, os_fstat (os_on two_disk) x = Some m -> times_known m).
    { intros x m [= <-]. apply T. }
    repeat (apply Forall_cons; [first [split; [discriminate|reflexivity] | split; [reflexivity|split; [exact K|exact L]]]|]). constructor. }
  assert (U : forall k, all_up (after (firstn k up_history))).
  { assert (Q : forall port, port <> 4001 -> forall k, (k <= 4)%nat -> sy_udp (after (firstn k up_history)) port = NoService).
    { intros port N k. induction k as [|k IH]; intros L; [reflexivity|]. specialize (IH ltac:(lia)).
      assert (Hk : exists i, nth_error up_history k = Some i /\ firstn (S k) up_history = firstn k up_history ++ [i]).
      { do 4 (destruct k as [|k]; [eexists; split; reflexivity|]). lia. }
      destruct Hk as (i & Hi & ->). unfold after. rewrite after_snoc. fold (after (firstn k up_history)).
      rewrite (proj1 (udp_step Little Checked reverse_order example_db i (after (firstn k up_history)) port
        ltac:(do 4 (destruct k as [|k]; [vm_compute; reflexivity|]); lia)
        ltac:(intros v H; do 4 (destruct k as [|k];
          [injection Hi as <-; vm_compute in H; repeat (destruct H as [H|H]; [try discriminate H; try (injection H as _ H; congruence)|]); exact H|]); lia))).
      do 4 (destruct k as [|k]; [injection Hi as <-; cbn beta iota delta [strange_run strange_events map];
        try (destruct (N.eqb_spec 4001 port); [congruence|]); exact IH|]). lia. }
    assert (B : forall k, (k <= 4)%nat -> all_up (after (firstn k up_history))).
    { intros k L. do 7 (split; [do 5 (destruct k as [|k]; [vm_compute; reflexivity|]); lia|]). intros port.
      destruct (N.eq_dec port 4001) as [->|N]; [|rewrite (Q port N k L); exact Logic.I].
      do 5 (destruct k as [|k]; [vm_compute; first [exact Logic.I | split; [discriminate|reflexivity]]|]). lia. }
    intros k. destruct (le_lt_dec k 4) as [L|L]; [exact (B k L)|].
    rewrite firstn_all2 by (cbn; lia). exact (B 4%nat (le_n _)). }
  assert (R : reply_type [0; 0; 0; 0; 0; 0; 0; 1]) by (split; [unfold reaches; cbn; lia|vm_compute; reflexivity]).
  split; [exact F|]. split; [exact W|]. split; [exact U|]. split; [vm_compute; discriminate|].
  split; [left; exact R|]. split; [exact R|]. vm_compute. intros (_ & _ & _ & _ & _ & Z & _). discriminate Z.
Qed.
