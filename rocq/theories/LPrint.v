(** Lemmas on what the process writes, and on the process that cannot. *)

From Verif Require Import Base Unicode MPackets MKeepalive MNetwork MServer MStatus MDb MDatabase MLib MRpc MRpcServer MNfs
  MSystem MPrint SUdp SRpc SRpcServer SServer SNfs SSystem SDb SLib SPrint
  LBase LUdp LStatus LStatus2 LRpc LRpc2 LRpcServer LServer LServer2 LNfs LDb LLib LLib2 LSystem PDb PUdp PServer PLib PNfs.
From Coq Require Import ZArith Lia String.
Open Scope list_scope.
Open Scope N_scope.

(** ** Who prints *)

Lemma codec_prints : forall d, bytes_ok d -> (decoding_prints d = true <-> rpc_noise d).
Proof.
  intros d B. unfold decoding_prints, rpc_noise.
  destruct (codec_cases d B) as [[m [c [E [C _]]]]|[[E [R Nc]]|[E [Nc Nr]]]].
  - rewrite E. split; [discriminate|]. intros [_ [N _]]. elim (N m C).
  - rewrite E. split; [discriminate|]. intros [_ [_ N]]. contradiction.
  - destruct d as [|b d].
    + cbn. split; [discriminate|]. intros [N _]. congruence.
    + assert (E' : codec_decode (b :: d) = Err).
      { destruct E as [E|E]; [exact E|]. exfalso. revert E. unfold codec_decode. cbn [List.length].
        destruct (rpc_try_from (b :: d)); discriminate. }
      rewrite E'. split; [|reflexivity]. intros _. split; [discriminate|]. split; assumption.
Qed.

Lemma ka_prints : forall d, match ka_receive d with Err => true | _ => false end = true <-> ~ ka_acceptable d.
Proof.
  intros d. pose proof (C24_accepted_exactly d) as A. pose proof (C24_no_panic d) as P.
  destruct (ka_receive d) as [q| |].
  - split; [discriminate|]. intros N. elim N. apply A. eauto.
  - split; [|reflexivity]. intros _ N. apply A in N. destruct N as [q N]. discriminate.
  - congruence.
Qed.

Lemma player_firstn : forall d, is_player_status (firstn 1024 d) <-> is_player_status d.
Proof.
  intros d. unfold is_player_status. rewrite status_header_firstn, octet_firstn, reaches_firstn by lia. reflexivity.
Qed.

Lemma status_silent_iff : forall x, status_prints x = false <-> status_expected x.
Proof.
  intros [ip port d|]; [|cbn; intuition discriminate].
  unfold status_prints, status_expected, status_recv_from.
  rewrite <- is_hello_firstn, <- is_link_query_firstn, <- player_firstn.
  set (e := firstn 1024 d). clearbody e.
  destruct (status_header_cases e) as [(H & s & _ & E)|[H E]]; rewrite E.
  2:{ cbn [rbind]. unfold is_hello, is_link_query, is_player_status. split; [discriminate|tauto]. }
  unfold is_hello, is_link_query, is_player_status.
  pose proof (kind_of_code_cases (octet 10 e)) as K.
  assert (L34 : (34 <= List.length e)%nat) by apply H.
  destruct (kind_of_code (octet 10 e)) eqn:Ek; cbn [status_decode_content] in *.
  - assert (Pl : reaches 49 e <-> exists c, status_fields e KCdj c).
    { split.
      - intros R. destruct (cdj_cases e L34 K) as [(c & r & F & _)|(F & D)]; [eauto|].
        exfalso. destruct (slot_in 38 e) as (sl & Hs & _); [unfold reaches in R; lia|].
        destruct (analyze_in 39 e) as (an & Ha & _); [unfold reaches in R; lia|].
        apply (F (SCdj (mkCdj (number_at 34 2 e) (number_at 36 2 e) sl an (number_at 41 4 e) (number_at 45 4 e)))).
        cbn -[number_at octet reaches]. repeat split; assumption.
      - intros [c F]. destruct c; cbn -[number_at octet reaches] in F; try contradiction. tauto. }
    destruct (cdj_cases e L34 K) as [(c & r & F & D)|(F & D)]; rewrite D; cbn [rbind sp_kind].
    + split; [|reflexivity]. intros _. right. right. split; [exact H|]. split; [exact K|].
      apply Pl. eauto.
    + split; [discriminate|]. intros [[_ X]|[[_ [X _]]|[_ [_ X]]]]; try congruence.
      apply Pl in X. destruct X as [c X]. elim (F c X).
  - cbn [rbind sp_kind]. split; [discriminate|]. intros [[_ X]|[[_ [X _]]|[_ [X _]]]]; congruence.
  - cbn [rbind]. split; [discriminate|]. intros [[_ X]|[[_ [X _]]|[_ [X _]]]]; congruence.
  - cbn [rbind]. split; [discriminate|]. intros [[_ X]|[[_ [X _]]|[_ [X _]]]]; congruence.
  - destruct (link_query_in e L34) as [(R & r & q & D)|(R & D)]; rewrite D; cbn [rbind sp_kind].
    + split; [|reflexivity]. intros _. right. left. auto.
    + split; [discriminate|]. intros [[_ X]|[[_ [_ X]]|[_ [X _]]]]; congruence || contradiction.
  - split.
    + intros F. exfalso. revert F. destruct (link_reply_decode (skipn 34 e)) as [[r c]| |]; discriminate.
    + intros [[_ X]|[[_ [X _]]|[_ [X _]]]]; congruence.
  - cbn [rbind sp_kind]. split; [|reflexivity]. intros _. left. auto.
  - cbn [rbind]. split; [discriminate|]. intros [[_ X]|[[_ [X _]]|[_ [X _]]]]; congruence.
  - cbn [rbind]. split; [discriminate|]. destruct K as [_ K].
    intros [[_ X]|[[_ [X _]]|[_ [X _]]]]; exfalso; apply K; rewrite X; cbn; tauto.
Qed.

Lemma status_prints_iff : forall x, status_prints x = true <-> ~ status_expected x.
Proof.
  intros x. rewrite <- status_silent_iff. destruct (status_prints x); split; try discriminate; try reflexivity.
  intros F. elim F. reflexivity.
Qed.

Lemma unsupported_iff : forall h d k tx code fs st,
  controller h d (mkMessage (mkField k tx) (request_type_new code) fs) st = None <-> ~ In code supported_codes.
Proof.
  intros h d k tx code fs st. split.
  - intros N I. unfold supported_codes in I.
    repeat (destruct I as [<-|I]; [cbn in N; discriminate|]). destruct I.
  - intros Hn. unfold controller. cbn [m_request_type].
    destruct (request_type_new code) eqn:Et; try reflexivity;
      (exfalso; apply Hn;
       match goal with
       | E : request_type_new code = ?t |- _ =>
         first [ replace code with 0x0000 by (symmetry; eapply type_code; [eassumption|reflexivity])
               | replace code with 0x1000 by (symmetry; eapply type_code; [eassumption|reflexivity])
               | replace code with 0x1002 by (symmetry; eapply type_code; [eassumption|reflexivity])
               | replace code with 0x1004 by (symmetry; eapply type_code; [eassumption|reflexivity])
               | replace code with 0x1102 by (symmetry; eapply type_code; [eassumption|reflexivity])
               | replace code with 0x1202 by (symmetry; eapply type_code; [eassumption|reflexivity])
               | replace code with 0x2002 by (symmetry; eapply type_code; [eassumption|reflexivity])
               | replace code with 0x2004 by (symmetry; eapply type_code; [eassumption|reflexivity])
               | replace code with 0x2102 by (symmetry; eapply type_code; [eassumption|reflexivity])
               | replace code with 0x2b04 by (symmetry; eapply type_code; [eassumption|reflexivity])
               | replace code with 0x3000 by (symmetry; eapply type_code; [eassumption|reflexivity]) ]
       end; cbn; tauto).
Qed.

Lemma chunk_prints_iff : forall p h d st c, bytes_ok c -> (chunk_prints p h d st c = true <-> chunk_noise p c).
Proof.
  intros p h d st c B. unfold chunk_prints, chunk_noise.
  destruct (len c =? 5) eqn:L; [apply N.eqb_eq in L; split; [discriminate|tauto]|apply N.eqb_neq in L].
  destruct (parse_message p c) as [[rest m]| |] eqn:E.
  - pose proof (parse_request _ _ _ _ B E) as (k & tx & code & fs & R & ->).
    pose proof (unsupported_iff h d k tx code fs st) as U.
    assert (X : ~ undecodable c).
    { intros F. apply (C06_error_iff p) in F. congruence. }
    destruct (controller _ _ _ _); (split; [intros|]); try discriminate; try reflexivity.
    + intros [_ [F|(k' & tx' & code' & fs' & R' & N)]]; [contradiction|].
      destruct (request_unique _ _ _ _ _ _ _ _ _ _ R R') as (_ & _ & <- & _).
      apply U in N. discriminate.
    + split; [exact L|]. right. exists k, tx, code, fs. split; [exact R|]. apply U. reflexivity.
  - split; [|reflexivity]. intros _. split; [exact L|]. left. apply (C06_error_iff p). exact E.
  - split; [discriminate|]. intros [_ [F|(k' & tx' & code' & fs' & R' & N)]].
    + apply (C06_error_iff p) in F. congruence.
    + apply request_parse in R'. destruct R' as [R' _]. congruence.
Qed.

Lemma outcome_none : forall e hs o p a, call_outcome e hs o p NoAnswer -> call_outcome e hs o p a -> a = NoAnswer.
Proof.
  intros e hs o p a. destruct p; cbn [call_outcome]; try (intros _ D; exact D).
  - intros [[f [H D]]|[Nf _]] [[f' [H' D']]|[Nf' E]]; try exact E; try (elim (Nf f' H')).
    pose proof (handle_functional _ _ _ _ _ H H'). subst f'. unfold getattr_outcome in *.
    destruct (os_fstat o f); [destruct D|exact D'].
  - unfold lookup_outcome. destruct (os_stat _ _); [|intros _ D; exact D].
    destruct (os_open _ _); [intros []|intros _ D; exact D].
  - intros [[f [H D]]|[Nf _]] [[f' [H' D']]|[Nf' E]]; try exact E; try (elim (Nf f' H')).
    pose proof (handle_functional _ _ _ _ _ H H'). subst f'. unfold read_outcome in *.
    destruct (os_content o f); [|exact D']. destruct (os_fstat o f); [destruct D|exact D'].
Qed.

Lemma nfs_prints_iff : forall e hs x, history_ok (hs ++ [x]) -> never_killed e hs ->
  (nfs_prints e (fst x) (fst (served e hs)) = true <-> rpc_noise (ni_datagram (fst x)) \/ call_fails e hs x).
Proof.
  intros e hs x Hok Nk. apply history_snoc in Hok. destruct Hok as [Hok [B H]].
  destruct (served_state e hs Hok) as [[_ [n [E I]]]|[F _]]; [|contradiction].
  unfold nfs_prints. rewrite E. pose proof (codec_prints _ B) as C. unfold decoding_prints in C.
  destruct (codec_cases _ B) as [[m [c [D [Cs Bc]]]]|[[D [R Nc]]|[D [Nc Nr]]]].
  - assert (Hx : snd x = Asked (rpc_xid m) (ca_procedure c)).
    { destruct (snd x) as [|xid p|]; cbn [hears] in H.
      - destruct H as [H _]. elim (H m Cs).
      - destruct H as [m' [c' [C' [Bc' [-> ->]]]]]. pose proof (call_functional _ _ _ Cs C'). subst m'. congruence.
      - destruct H as [_ T]. destruct Cs as [c' [_ [_ [_ [F _]]]]]. congruence. }
    rewrite D, Bc in *.
    destruct (call_step e hs n x _ _ I Hx (call_proc_ok _ _ _ B Cs Bc)) as [[a [O M]] _].
    assert (Nn : ~ rpc_noise (ni_datagram (fst x))) by (intros F; apply C in F; discriminate).
    assert (Cf : call_fails e hs x <-> a = NoAnswer).
    { split.
      - intros (xid & q & Hq & O'). rewrite Hx in Hq. injection Hq as <- <-. exact (outcome_none _ _ _ _ _ O' O).
      - intros ->. exists (rpc_xid m), (ca_procedure c). split; assumption. }
    rewrite Cf.
    destruct (snd (call_procedure e (ni_os (fst x)) (ca_procedure c) n)), a; cbn [matches] in M; try contradiction;
      (split; [try discriminate; auto|intros [F|F]; try contradiction; try discriminate; reflexivity]).
  - rewrite D in *. split; [discriminate|]. intros [F|(xid & q & Hq & _)].
    + apply C in F. discriminate.
    + rewrite Hq in H. cbn [hears] in H. destruct H as [m [c [Cs _]]]. elim (Nc m Cs).
  - assert (Nf : ~ call_fails e hs x).
    { intros (xid & q & Hq & _). rewrite Hq in H. cbn [hears] in H. destruct H as [m [c [Cs _]]]. elim (Nc m Cs). }
    destruct D as [D|D]; rewrite D in *; tauto.
Qed.

(** ** Runs *)

Section Mute.
Variables (e : endian) (p : profile) (h : hash_order) (d : database).
Notation mstep := (mute_step e p h d).
Notation mrun := (mute_run e p h d).
Notation sstep := (sys_step e p h d).

Lemma mrun_app : forall a b s,
  mrun (a ++ b) s =
  (fst (mrun b (fst (mrun a s))), snd (mrun a s) ++ snd (mrun b (fst (mrun a s)))).
Proof.
  induction a as [|i a IH]; intros b s; cbn [app mute_run fst snd].
  - destruct (mrun b s); reflexivity.
  - destruct (mstep i s) as [s1 o]. rewrite IH. destruct (mrun a s1) as [s2 os]. reflexivity.
Qed.

Lemma mrun_snoc : forall a i s,
  fst (mrun (a ++ [i]) s) = fst (mstep i (fst (mrun a s))) /\
  snd (mrun (a ++ [i]) s) = snd (mrun a s) ++ [snd (mstep i (fst (mrun a s)))].
Proof.
  intros a i s. rewrite mrun_app. cbn [fst snd mute_run].
  destruct (mstep i (fst (mrun a s))); split; reflexivity.
Qed.

Lemma mstep_stopped : forall i s, w_running (sy_world s) = false -> mstep i s = (s, []).
Proof.
  intros i s R. unfold mute_step, prints. rewrite R. cbn [andb]. unfold sys_step. rewrite R. reflexivity.
Qed.

Lemma mrun_stopped : forall is s, w_running (sy_world s) = false -> fst (mrun is s) = s.
Proof.
  induction is as [|i is IH]; intros s R; [reflexivity|].
  cbn [mute_run]. rewrite mstep_stopped by exact R. specialize (IH s R). destruct (mrun is s). exact IH.
Qed.

Lemma mrunning_before : forall i is s, w_running (sy_world (fst (mrun (i :: is) s))) = true ->
  w_running (sy_world s) = true /\ w_running (sy_world (fst (mrun is (fst (mstep i s))))) = true.
Proof.
  intros i is s H. split.
  - destruct (w_running (sy_world s)) eqn:R; [reflexivity|]. rewrite mrun_stopped in H by exact R. congruence.
  - cbn [mute_run] in H. destruct (mstep i s) as [s1 o]. cbn [fst]. destruct (mrun is s1). exact H.
Qed.

(** The world goes its own way here too. *)
Definition world_mute (w : world) (i : input) : world * list output :=
  if w_running w && world_prints w i then world_unprinted w i else step w i.

Lemma mute_world_step : forall i s,
  sy_world (fst (mstep i s)) = match i with SysWorld j => fst (world_mute (sy_world s) j) | _ => sy_world s end /\
  world_outputs (snd (mstep i s)) = match i with SysWorld j => snd (world_mute (sy_world s) j) | _ => [] end.
Proof.
  intros i s. unfold mute_step.
  destruct (prints e p h d i s) eqn:Pr.
  - unfold prints in Pr. apply andb_prop in Pr. destruct Pr as [R Pr].
    destruct i as [j|x|j|port j|ws|c chunk port|c|x]; cbn [unprinted].
    + unfold world_mute. rewrite R, Pr. cbn [andb]. destruct (world_unprinted (sy_world s) j) as [w os].
      cbn [fst snd]. split; [reflexivity|]. apply flat_map_map_id. reflexivity.
    + split; reflexivity.
    + split; reflexivity.
    + destruct (sy_udp s port); split; reflexivity.
    + split; [reflexivity|]. cbn [fst snd]. apply flat_map_map_nil. reflexivity.
    + discriminate.
    + discriminate.
    + destruct x; try discriminate. split; reflexivity.
  - pose proof (world_step e p h d i s) as [W O]. rewrite W, O.
    destruct i as [j|x|j|port j|ws|c chunk port|c|x]; try (split; reflexivity).
    unfold prints in Pr. unfold world_mute. rewrite Pr. split; reflexivity.
Qed.

(** *** The end of the process *)

(** The state of discovery before and after the first device. *)
Definition before_first (is : list input) (w : world) : Prop :=
  ~ device_heard is /\ w_queue w = [] /\ st_address (w_state w) = None /\ st_players (w_state w) = [] /\
  (alert is /\ w_listening w = true /\ w_poisoned w = false \/ ~ alert is /\ w_listening w = false).

Lemma alert_snoc : forall is i, alert (is ++ [i]) <-> alert is /\ alert [i].
Proof.
  intros is i. unfold alert. split.
  - intros A. split; intros d0 f I; apply A; apply in_or_app; [left|right]; exact I.
  - intros [A B] d0 f I. apply in_app_or in I. destruct I as [I|I]; auto.
Qed.
Lemma alert_other : forall i, (forall d0 f, i <> KaDatagram d0 f) -> alert [i].
Proof. intros i N d0 f [I|[]]. elim (N d0 f I). Qed.

Lemma device_snoc : forall is i, device_heard (is ++ [i]) <->
  device_heard is \/
  (alert is /\ exists d0 f h0, i = KaDatagram d0 f /\ status_of d0 h0 /\ ~ lookup_fails f (h_ip h0)).
Proof.
  intros is i. split.
  - intros (a & d0 & f & b & h0 & E & A & S & L).
    destruct (exists_last (l := KaDatagram d0 f :: b)) as [b' [x Eb]]; [discriminate|].
    rewrite Eb in E. rewrite app_assoc in E. apply app_inj_tail in E. destruct E as [E ->].
    destruct b' as [|y b'].
    + cbn in Eb. injection Eb as <- ->. rewrite app_nil_r in E. subst a. right. split; [exact A|]. eauto 6.
    + cbn in Eb. injection Eb as <- ->. left. exists a, d0, f, b', h0. auto.
  - intros [(a & d0 & f & b & h0 & -> & A & S & L)|[A (d0 & f & h0 & -> & S & L)]].
    + exists a, d0, f, (b ++ [i]), h0. rewrite <- app_assoc. auto.
    + exists is, d0, f, [], h0. auto.
Qed.

Lemma noticed_snoc : forall is i, noticed (is ++ [i]) <->
  noticed is \/ (device_heard is /\ exists ok, i = AppTurn ok).
Proof.
  intros is i. split.
  - intros (a & ok & b & E & D).
    destruct (exists_last (l := AppTurn ok :: b)) as [b' [x Eb]]; [discriminate|].
    rewrite Eb in E. rewrite app_assoc in E. apply app_inj_tail in E. destruct E as [E ->].
    destruct b' as [|y b'].
    + cbn in Eb. injection Eb as <- ->. rewrite app_nil_r in E. subst a. right. eauto.
    + cbn in Eb. injection Eb as <- ->. left. exists a, ok, b'. auto.
  - intros [(a & ok & b & -> & D)|[D [ok ->]]].
    + exists a, ok, (b ++ [i]). rewrite <- app_assoc. auto.
    + exists is, ok, []. auto.
Qed.

Definition discovery (is : list input) (w : world) : Prop :=
  noticed is /\ w_running w = false \/
  ~ noticed is /\ w_running w = true /\
    (device_heard is /\ w_queue w <> [] \/ before_first is w).

Lemma broadcast_keeps : forall w ok, w_running (fst (broadcast_turn w ok)) = w_running w /\
  w_queue (fst (broadcast_turn w ok)) = w_queue w.
Proof.
  intros w ok. unfold broadcast_turn. destruct (w_poisoned w); [split; reflexivity|].
  destruct (st_address (w_state w)); [|split; reflexivity]. destruct (send_broadcast_payload _ _ _); split; reflexivity.
Qed.

Lemma discovery_step : forall is i w, inputs_typed [i] -> discovery is w ->
  discovery (is ++ [i]) (fst (world_mute w i)).
Proof.
  intros is i w Ty [[No R]|[No [R X]]]; unfold world_mute; rewrite R; cbn [andb].
  { left. split; [apply noticed_snoc; left; exact No|]. unfold step. rewrite R. exact R. }
  destruct i as [d0 f| |ok|ok].
  - (* a datagram *)
    right. split; [rewrite noticed_snoc; intros [F|[_ [ok F]]]; [contradiction|discriminate]|].
    cbn [world_prints]. destruct (w_listening w) eqn:Li; cbn [andb].
    + pose proof (ka_prints d0) as K.
      destruct (match ka_receive d0 with Err => true | _ => false end).
      * assert (Na : ~ ka_acceptable d0) by (apply K; reflexivity).
        cbn [world_unprinted fst w_running w_queue w_state w_listening w_poisoned]. split; [exact R|].
        destruct X as [[Dh Q]|[Dh [Q [A [Pl C]]]]].
        -- left. split; [apply device_snoc; left; exact Dh|exact Q].
        -- right. unfold before_first. cbn [w_queue w_state w_listening w_poisoned].
           assert (Ns : forall h0, ~ status_of d0 h0).
           { intros h0 S. apply Na. apply status_of_iff in S. destruct S as (q & E & _).
             apply C24_accepted_exactly. eauto. }
           split. { rewrite device_snoc. intros [F|[_ (d1 & f1 & h1 & E & S & _)]]; [contradiction|].
                    injection E as <- <-. elim (Ns h1 S). }
           split; [exact Q|]. split; [exact A|]. split; [exact Pl|]. right. split; [|reflexivity].
           intros Al. apply alert_snoc in Al. destruct Al as [_ Al]. apply Na. apply (Al d0 f). left. reflexivity.
      * assert (Ac : ka_acceptable d0).
        { destruct (ka_receive d0) as [q| |] eqn:E; [apply C24_accepted_exactly; eauto| |].
          - exfalso. destruct K as [_ K]. pose proof (C24_accepted_exactly d0) as A.
            assert (Y : ~ ka_acceptable d0 -> False) by (intros Y; discriminate (K Y)).
            apply Y. intros Z. apply A in Z. destruct Z as [q Z]. congruence.
          - exfalso. exact (ka_receive_not_panic d0 E). }
        destruct (datagram_cases w d0 f (inputs_typed_one _ _ Ty)) as
          [(h0 & o & At & S & Ch & Lk & ->)|[(h0 & At & S & Lk & ->)|[Nn ->]]].
        -- unfold accept. cbn [fst w_running]. split; [reflexivity|]. cbn [w_queue].
           destruct X as [[Dh Q]|[Dh [Q [A [Pl C]]]]].
           ++ left. split; [apply device_snoc; left; exact Dh|]. destruct (w_queue w); [congruence|discriminate].
           ++ left. split.
              ** apply device_snoc. right. destruct C as [[Al _]|[_ F]]; [|congruence].
                 split; [exact Al|]. exists d0, f, h0. auto.
              ** rewrite Q, Pl. cbn. discriminate.
        -- cbn [fst w_running w_queue w_state w_listening w_poisoned]. split; [reflexivity|].
           destruct X as [[Dh Q]|[Dh [Q [A [Pl C]]]]].
           ++ left. split; [apply device_snoc; left; exact Dh|exact Q].
           ++ right. unfold before_first. cbn [w_queue w_state w_listening w_poisoned].
              split. { rewrite device_snoc. intros [F|[_ (d1 & f1 & h1 & E & S1 & L1)]]; [contradiction|].
                    injection E as <- <-. rewrite (status_of_functional _ _ _ S1 S) in L1. contradiction. }
              split; [exact Q|]. split; [exact A|]. split; [exact Pl|]. right. split; [|reflexivity].
              intros Al. apply alert_snoc in Al. destruct Al as [_ Al].
              destruct (Al d0 f) as [_ Z]; [left; reflexivity|]. exact (Z h0 S Lk).
        -- cbn [fst]. split; [exact R|]. destruct X as [[Dh Q]|[Dh [Q [A [Pl C]]]]].
           ++ left. split; [apply device_snoc; left; exact Dh|exact Q].
           ++ right. destruct C as [[Al [_ Po]]|[_ F]]; [|congruence].
              assert (Ns : forall h0, ~ status_of d0 h0).
              { destruct Nn as [Nn|Nn]; [|exact Nn]. exfalso. apply Nn. repeat split; assumption. }
              unfold before_first.
              split. { rewrite device_snoc. intros [F|[_ (d1 & f1 & h1 & E & S & _)]]; [contradiction|].
                    injection E as <- <-. elim (Ns h1 S). }
              split; [exact Q|]. split; [exact A|]. split; [exact Pl|]. left. split; [|split; assumption].
              apply alert_snoc. split; [exact Al|]. intros d1 f1 [E|[]]. injection E as <- <-.
              split; [exact Ac|]. intros h0 S. elim (Ns h0 S).
    + assert (E : step w (KaDatagram d0 f) = (w, [])) by (unfold step; rewrite R, Li; reflexivity).
      rewrite E. cbn [fst]. split; [exact R|]. destruct X as [[Dh Q]|[Dh [Q [A [Pl C]]]]].
      * left. split; [apply device_snoc; left; exact Dh|exact Q].
      * right. destruct C as [[_ [F _]]|[Na _]]; [congruence|]. unfold before_first.
        split. { rewrite device_snoc. intros [F|[F _]]; contradiction. }
        split; [exact Q|]. split; [exact A|]. split; [exact Pl|]. right. split; [|exact Li].
        intros Al. apply alert_snoc in Al. destruct Al. contradiction.
  - (* a failed receive *)
    cbn [world_prints]. unfold step. rewrite R. cbn [fst]. right.
    split; [rewrite noticed_snoc; intros [F|[_ [ok F]]]; [contradiction|discriminate]|]. split; [exact R|].
    destruct X as [[Dh Q]|[Dh [Q [A [Pl C]]]]]; [left; split; [apply device_snoc; left; exact Dh|exact Q]|].
    right. unfold before_first. split.
    { rewrite device_snoc. intros [F|[_ (d1 & f1 & h1 & E & _)]]; [contradiction|discriminate]. }
    split; [exact Q|]. split; [exact A|]. split; [exact Pl|].
    rewrite alert_snoc. destruct C as [[Al C]|[Na C]]; [left|right]; (split; [|exact C]).
    + split; [exact Al|]. apply alert_other. discriminate.
    + tauto.
  - (* an announcement *)
    cbn [world_prints]. right.
    split; [rewrite noticed_snoc; intros [F|[_ [ok' F]]]; [contradiction|discriminate]|].
    assert (Al' : alert (is ++ [BroadcastTurn ok]) <-> alert is).
    { rewrite alert_snoc. split; [tauto|]. intros Y. split; [exact Y|]. apply alert_other. discriminate. }
    assert (Dh' : device_heard (is ++ [BroadcastTurn ok]) <-> device_heard is).
    { rewrite device_snoc. split; [|tauto]. intros [F|[_ (d1 & f1 & h1 & E & _)]]; [exact F|discriminate]. }
    unfold step. rewrite R. destruct (w_broadcasting w).
    + destruct (broadcast_keeps w ok) as [B1 B2]. rewrite B1, B2. split; [exact R|].
      destruct X as [[Dh Q]|[Dh [Q [A [Pl C]]]]]; [left; tauto|]. right.
      assert (E : broadcast_turn w ok = (w, [])).
      { unfold broadcast_turn. rewrite A. destruct (w_poisoned w); reflexivity. }
      rewrite E. cbn [fst]. unfold before_first. rewrite Dh', Al'. tauto.
    + cbn [fst]. split; [exact R|]. destruct X as [[Dh Q]|[Dh [Q [A [Pl C]]]]]; [left; tauto|]. right.
      unfold before_first. rewrite Dh', Al'. tauto.
  - (* the main thread *)
    cbn [world_prints]. destruct X as [[Dh Q]|[Dh [Q [A [Pl C]]]]].
    + left. split; [apply noticed_snoc; right; eauto|].
      cbn [world_unprinted]. destruct (w_queue w) as [|x q]; [congruence|]. reflexivity.
    + right. split; [rewrite noticed_snoc; intros [F|[F _]]; contradiction|].
      rewrite Q. unfold step. rewrite R. unfold app_turn. rewrite Q. cbn [fst]. split; [exact R|]. right.
      unfold before_first. split.
      { rewrite device_snoc. intros [F|[_ (d1 & f1 & h1 & E & _)]]; [contradiction|discriminate]. }
      split; [exact Q|]. split; [exact A|]. split; [exact Pl|].
      rewrite alert_snoc. destruct C as [[Al C]|[Na C]]; [left|right]; (split; [|exact C]).
      * split; [exact Al|]. apply alert_other. discriminate.
      * tauto.
Qed.

Lemma world_inputs_app : forall a b, world_inputs (a ++ b) = world_inputs a ++ world_inputs b.
Proof. intros a b. apply flat_map_app. Qed.

Lemma discovery_run : forall is mp db, inputs_typed (world_inputs is) ->
  discovery (world_inputs is) (sy_world (fst (mrun is (system_start true true mp db)))).
Proof.
  intros is mp db.
  induction is as [|i is IH] using rev_ind; intros Ty.
  - cbn [mute_run fst system_start sy_world andb world_inputs flat_map]. right.
    split; [intros (a & ok & b & E & _); destruct a; discriminate|]. split; [reflexivity|]. right.
    unfold before_first. cbn [w_queue w_state w_listening w_poisoned state_default st_address st_players].
    split; [intros (a & d0 & f & b & h0 & E & _); destruct a; discriminate|].
    repeat (split; [reflexivity|]). left. split; [intros d0 f []|]. split; reflexivity.
  - rewrite world_inputs_app in Ty |- *. apply inputs_typed_app in Ty. destruct Ty as [T1 T2].
    specialize (IH T1). rewrite (proj1 (mrun_snoc is i _)).
    rewrite (proj1 (mute_world_step i _)).
    destruct i as [j|x|j|port j|ws|c chunk port|c|x];
      try (change (world_inputs [_]) with (@nil input); rewrite app_nil_r; exact IH).
    change (world_inputs [SysWorld j]) with [j] in *. apply discovery_step; assumption.
Qed.

(** *** The parts *)

Lemma step_keeps_status : forall i s, (forall x, i <> SysStatus x) -> sy_status (fst (mstep i s)) = sy_status s.
Proof.
  intros i s N. unfold mute_step. destruct (prints e p h d i s).
  - destruct i as [j|x|j|port j|ws|c chunk port|c|x]; cbn [unprinted]; try reflexivity.
    + destruct (world_unprinted (sy_world s) j). reflexivity.
    + elim (N x eq_refl).
    + destruct (sy_udp s port); reflexivity.
    + destruct x; reflexivity.
  - unfold sys_step. destruct (w_running (sy_world s)); [|reflexivity].
    destruct i as [j|x|j|port j|ws|c chunk [port|]|c|x].
    + destruct (step (sy_world s) j). reflexivity.
    + elim (N x eq_refl).
    + destruct (sy_mapper s); [destruct (pm_turn j)|]; reflexivity.
    + destruct (udp_turn e (sy_world s) port j (sy_udp s port)). reflexivity.
    + destruct (sy_joined s), (sy_mapper s); reflexivity.
    + destruct (sy_query s c); reflexivity.
    + destruct (sy_query s c); reflexivity.
    + reflexivity.
    + destruct x; try reflexivity;
        match goal with |- context [db_step ?a ?b ?c ?x ?y] => destruct (db_step a b c x y) end; reflexivity.
Qed.

Lemma step_keeps_mapper : forall i s, (forall x, i <> SysMapper x) -> sy_mapper (fst (mstep i s)) = sy_mapper s.
Proof.
  intros i s N. unfold mute_step. destruct (prints e p h d i s).
  - destruct i as [j|x|j|port j|ws|c chunk port|c|x]; cbn [unprinted]; try reflexivity.
    + destruct (world_unprinted (sy_world s) j). reflexivity.
    + elim (N j eq_refl).
    + destruct (sy_udp s port); reflexivity.
    + destruct x; reflexivity.
  - unfold sys_step. destruct (w_running (sy_world s)); [|reflexivity].
    destruct i as [j|x|j|port j|ws|c chunk [port|]|c|x].
    + destruct (step (sy_world s) j). reflexivity.
    + destruct (sy_status s); [destruct (status_turn x)|]; reflexivity.
    + elim (N j eq_refl).
    + destruct (udp_turn e (sy_world s) port j (sy_udp s port)). reflexivity.
    + destruct (sy_joined s), (sy_mapper s) eqn:M; exact M.
    + destruct (sy_query s c); reflexivity.
    + destruct (sy_query s c); reflexivity.
    + reflexivity.
    + destruct x; try reflexivity;
        match goal with |- context [db_step ?a ?b ?c ?x ?y] => destruct (db_step a b c x y) end; reflexivity.
Qed.

Lemma mapper_turn : forall i s, w_running (sy_world s) = true -> sy_mapper s = true -> bytes_ok (pi_datagram i) ->
  (sy_mapper (fst (mstep (SysMapper i) s)) = true <-> mapper_expected i).
Proof.
  intros i s R M B. unfold mute_step. unfold prints. rewrite R, M. cbn [andb].
  pose proof (codec_prints _ B) as C. unfold mapper_expected.
  destruct (decoding_prints (pi_datagram i)).
  - cbn [unprinted fst with_mapper sy_mapper]. split; [discriminate|].
    destruct C as [C _]. destruct (C eq_refl) as [C1 [C2 _]].
    intros [X|[[m X] _]]; [contradiction|]. elim (C2 m X).
  - unfold sys_step. rewrite R, M.
    destruct (codec_cases _ B) as [[m [c [E [Cs Bc]]]]|[[E [Rt Nc]]|[E [Nc Nr]]]].
    + destruct (pm_turn i) as [run outs] eqn:T. cbn [fst with_mapper sy_mapper].
      unfold pm_turn in T. rewrite E in T.
      destruct (pi_port i) as [port|].
      * rewrite getport_reply_datagram in T.
        assert (S : send_to (pi_send i) (std_reply (rpc_xid m) (std_getport_result port)) = pi_send i).
        { unfold send_to. rewrite std_reply_len. reflexivity. }
        rewrite S in T. destruct (pi_send i).
        -- injection T as <- _. split; [|reflexivity]. intros _. right. split; [eauto|]. split; [discriminate|reflexivity].
        -- injection T as <- _. split; [discriminate|]. intros [X|[_ [_ X]]]; [|discriminate].
           rewrite X in E. discriminate E.
      * injection T as <- _. split; [discriminate|]. intros [X|[_ [X _]]]; [|congruence].
        rewrite X in E. discriminate E.
    + unfold pm_turn. rewrite E. cbn [fst with_mapper sy_mapper]. split; [discriminate|].
      intros [X|[[m X] _]]; [rewrite X in E; discriminate E|elim (Nc m X)].
    + assert (Y : pm_turn i = (true, [])) by (unfold pm_turn; destruct E as [-> | ->]; reflexivity).
      rewrite Y. cbn [fst with_mapper sy_mapper]. split; [|reflexivity]. intros _. left.
      destruct (pi_datagram i) as [|b d'] eqn:Dg; [reflexivity|].
      destruct C as [_ C]. discriminate C. split; [discriminate|]. split; assumption.
Qed.

Lemma expected_alive : forall x, status_expected x -> exists out, status_turn x = Ok out.
Proof.
  intros x X. destruct (status_turn_answer x) as (out & T & _); [|eauto].
  intros ip port dg [E|[]] [_ N]. subst x. cbn [status_expected] in X. apply N. unfold status_kinds_known.
  destruct X as [[_ ->]|[[_ [-> _]]|[_ [-> _]]]]; cbn; tauto.
Qed.

Lemma status_turn_mute : forall x s, w_running (sy_world s) = true -> sy_status s = true ->
  (sy_status (fst (mstep (SysStatus x) s)) = true <-> status_expected x).
Proof.
  intros x s R M. unfold mute_step, prints. rewrite R, M. cbn [andb]. rewrite <- status_silent_iff.
  destruct (status_prints x) eqn:Sp.
  - cbn [unprinted fst with_status sy_status]. split; discriminate.
  - destruct (expected_alive x) as [out T]; [apply status_silent_iff; exact Sp|].
    unfold sys_step. rewrite R, M, T. cbn [fst]. tauto.
Qed.

Lemma status_run_mute : forall is s, w_running (sy_world (fst (mrun is s))) = true ->
  (sy_status (fst (mrun is s)) = true <-> sy_status s = true /\ Forall status_expected (status_inputs is)).
Proof.
  induction is as [|i is IH]; intros s R.
  - cbn. split; [intros E; split; [exact E|constructor]|tauto].
  - destruct (mrunning_before i is s R) as [R0 R1]. specialize (IH _ R1).
    assert (E : fst (mrun (i :: is) s) = fst (mrun is (fst (mstep i s)))).
    { cbn [mute_run]. destruct (mstep i s) as [s1 o]. cbn [fst]. destruct (mrun is s1). reflexivity. }
    rewrite E, IH. clear E IH.
    destruct i as [j|x|j|port j|ws|c chunk port|c|x];
      try (rewrite step_keeps_status by discriminate; reflexivity).
    change (status_inputs (SysStatus x :: is)) with (x :: status_inputs is). rewrite Forall_cons_iff.
    destruct (sy_status s) eqn:S.
    + rewrite (status_turn_mute x s R0 S). tauto.
    + unfold mute_step, prints, sys_step. rewrite R0, S. cbn [andb fst]. rewrite S. intuition discriminate.
Qed.

Lemma mapper_run_mute : forall is s, w_running (sy_world (fst (mrun is s))) = true ->
  Forall (fun i => bytes_ok (pi_datagram i)) (mapper_inputs is) ->
  (sy_mapper (fst (mrun is s)) = true <-> sy_mapper s = true /\ Forall mapper_expected (mapper_inputs is)).
Proof.
  induction is as [|i is IH]; intros s R B.
  - cbn. split; [intros E; split; [exact E|constructor]|tauto].
  - destruct (mrunning_before i is s R) as [R0 R1]. specialize (IH _ R1).
    assert (E : fst (mrun (i :: is) s) = fst (mrun is (fst (mstep i s)))).
    { cbn [mute_run]. destruct (mstep i s) as [s1 o]. cbn [fst]. destruct (mrun is s1). reflexivity. }
    rewrite E. clear E.
    destruct i as [j|x|j|port j|ws|c chunk port|c|x];
      try (rewrite IH by exact B; rewrite step_keeps_mapper by discriminate; reflexivity).
    change (mapper_inputs (SysMapper j :: is)) with (j :: mapper_inputs is) in *.
    rewrite Forall_cons_iff in *. destruct B as [B0 B]. rewrite IH by exact B.
    destruct (sy_mapper s) eqn:S.
    + rewrite (mapper_turn j s R0 S B0). tauto.
    + unfold mute_step, prints, sys_step. rewrite R0, S. cbn [andb fst]. rewrite S. intuition discriminate.
Qed.

(** *** Database connections *)

Lemma step_elsewhere : forall i s port,
  (forall c chunk, i <> SysQuery c chunk (Some port)) ->
  (forall x, i = SysDb x -> exists q, q <> port /\ (x = Connect q \/ (exists c, x = Chunk q c) \/ x = Close q) \/ exists c, x = Query q c) ->
  sy_db (fst (mstep i s)) port = sy_db s port /\ answers_at port (snd (mstep i s)) = [].
Proof.
  intros i s port Nq Nd. unfold mute_step. destruct (prints e p h d i s).
  - destruct i as [j|x|j|q j|ws|c chunk q|c|x]; cbn [unprinted]; try (split; reflexivity).
    + destruct (world_unprinted (sy_world s) j). cbn [fst snd]. split; [reflexivity|]. apply flat_map_map_nil. reflexivity.
    + destruct (sy_udp s q); split; reflexivity.
    + cbn [fst snd]. split; [reflexivity|]. apply flat_map_map_nil. reflexivity.
    + destruct x as [q c|q|q c|q]; try (split; reflexivity). cbn [fst snd with_db sy_db].
      destruct (Nd _ eq_refl) as [q' [[N [F|[[c' F]|F]]]|[c' F]]]; try discriminate. injection F as -> ->.
      unfold set_port. rewrite (proj2 (N.eqb_neq port q')) by congruence. split; reflexivity.
  - unfold sys_step. destruct (w_running (sy_world s)); [|split; reflexivity].
    destruct i as [j|x|j|q j|ws|c chunk [q|]|c|x].
    + destruct (step (sy_world s) j). cbn [fst snd]. split; [reflexivity|]. apply flat_map_map_nil. reflexivity.
    + destruct (sy_status s); [destruct (status_turn x)|]; try (split; reflexivity).
      cbn [fst snd]. split; [reflexivity|]. apply flat_map_map_nil. reflexivity.
    + destruct (sy_mapper s); [destruct (pm_turn j)|]; try (split; reflexivity).
      cbn [fst snd]. split; [reflexivity|]. apply flat_map_map_nil. reflexivity.
    + unfold udp_turn. destruct (sy_udp s q) as [|v|[|]]; try (split; reflexivity).
      * destruct (nfs_turn e j v). cbn [fst snd]. split; [reflexivity|]. apply flat_map_map_nil. reflexivity.
      * destruct (ms_turn _). cbn [fst snd]. split; [reflexivity|]. apply flat_map_map_nil. reflexivity.
    + destruct (sy_joined s), (sy_mapper s); cbn [fst snd]; split; try reflexivity. apply flat_map_map_nil. reflexivity.
    + destruct (sy_query s c); [|split; reflexivity]. cbn [db_step fst snd with_db sy_db map answers_at flat_map].
      split; [|reflexivity]. unfold set_port. rewrite (proj2 (N.eqb_neq port q)); [reflexivity|].
      intros <-. exact (Nq c chunk eq_refl).
    + destruct (sy_query s c); split; reflexivity.
    + split; reflexivity.
    + destruct (Nd x eq_refl) as [q [[N F]|[c F]]]; [|subst x; split; reflexivity].
      assert (X : forall y, set_port (sy_db s) q y port = sy_db s port).
      { intros y. unfold set_port. rewrite (proj2 (N.eqb_neq port q)) by congruence. reflexivity. }
      destruct F as [F|[[c F]|F]]; subst x; cbn [db_step].
      * destruct (sy_db s q); cbn [fst snd with_db sy_db map]; split; try reflexivity. apply X.
      * destruct (sy_db s q) as [| |st|]; try (split; reflexivity).
        destruct (process p h d st c) as [[a st']| |]; cbn [fst snd with_db sy_db map answers_at flat_map];
          rewrite ?X; split; try reflexivity.
        rewrite (proj2 (N.eqb_neq q port)) by exact N. reflexivity.
      * destruct (sy_db s q); cbn [fst snd with_db sy_db map]; split; try reflexivity. apply X.
Qed.

Lemma answers_app : forall port a b, answers_at port (a ++ b) = answers_at port a ++ answers_at port b.
Proof. intros. apply flat_map_app. Qed.

Lemma no_query_cons : forall port i is, no_query port (i :: is) ->
  (forall c chunk, i <> SysQuery c chunk (Some port)) /\ no_query port is.
Proof.
  intros port i is N. split.
  - intros c chunk ->. apply (N c chunk). left. reflexivity.
  - intros c chunk I. apply (N c chunk). right. exact I.
Qed.

(** Where an event is at the port. *)
Lemma at_port_dec : forall port i,
  (exists x, i = SysDb x /\ (x = Connect port \/ (exists c, x = Chunk port c) \/ x = Close port)) \/
  ((forall x, i = SysDb x -> exists q, q <> port /\ (x = Connect q \/ (exists c, x = Chunk q c) \/ x = Close q) \/ exists c, x = Query q c) /\
   (forall is, chunks_at port (i :: is) = chunks_at port is)).
Proof.
  intros port i. destruct i as [j|x|j|q j|ws|c chunk q|c|x]; try (right; split; [discriminate|reflexivity]).
  destruct x as [q c|q|q c|q].
  - right. split; [|reflexivity]. intros x E. injection E as <-. exists q. right. eauto.
  - destruct (N.eq_dec q port) as [->|N]; [left; exists (Connect port); auto|]. right. split; [|reflexivity].
    intros x E. injection E as <-. exists q. left. auto.
  - destruct (N.eq_dec q port) as [->|N]; [left; exists (Chunk port c); eauto|]. right. split.
    + intros x E. injection E as <-. exists q. left. eauto.
    + intros is. cbn [chunks_at]. rewrite (proj2 (N.eqb_neq q port)) by exact N. reflexivity.
  - destruct (N.eq_dec q port) as [->|N]; [left; exists (Close port); auto|]. right. split.
    + intros x E. injection E as <-. exists q. left. auto.
    + intros is. cbn [chunks_at]. rewrite (proj2 (N.eqb_neq q port)) by exact N. reflexivity.
Qed.

Lemma mrun_cons : forall i is s, snd (mrun (i :: is) s) = snd (mstep i s) :: snd (mrun is (fst (mstep i s))).
Proof. intros i is s. cbn [mute_run]. destruct (mstep i s) as [s1 o]. cbn [fst snd]. destruct (mrun is s1). reflexivity. Qed.

Lemma gone_mute : forall port is s, no_query port is -> sy_db s port = Gone ->
  answers_at port (List.concat (snd (mrun is s))) = [].
Proof.
  intros port. induction is as [|i is IH]; intros s N G; [reflexivity|].
  apply no_query_cons in N. destruct N as [N0 N]. rewrite mrun_cons. cbn [List.concat]. rewrite answers_app.
  assert (X : sy_db (fst (mstep i s)) port = Gone /\ answers_at port (snd (mstep i s)) = []).
  { destruct (at_port_dec port i) as [[x [-> Hx]]|[Hx _]].
    - unfold mute_step, prints. destruct (w_running (sy_world s)) eqn:R; cbn [andb].
      + destruct Hx as [->|[[c ->]| ->]]; rewrite ?G; unfold sys_step; rewrite R; cbn [db_step]; rewrite G; split; assumption || reflexivity.
      + unfold sys_step. rewrite R. destruct Hx as [->|[[c ->]| ->]]; split; assumption || reflexivity.
    - rewrite <- G. apply step_elsewhere; assumption. }
  destruct X as [X1 X2]. rewrite X2. apply IH; assumption.
Qed.

Lemma noise_dec : forall c, bytes_ok c -> chunk_noise p c \/ ~ chunk_noise p c.
Proof.
  intros c B. pose proof (chunk_prints_iff p h d None c B) as C.
  destruct (chunk_prints p h d None c); [left; apply C; reflexivity|right]. intros F. apply C in F. discriminate.
Qed.

Lemma quiet_exists : forall cs, Forall bytes_ok cs -> exists quiet, quiet_part p cs quiet.
Proof.
  induction cs as [|c cs IH]; intros B.
  - exists [], []. split; [reflexivity|]. split; [constructor|left; reflexivity].
  - apply Forall_cons_iff in B. destruct B as [B0 B]. destruct (noise_dec c B0) as [Nc|Nc].
    + exists [], (c :: cs). split; [reflexivity|]. split; [constructor|right; eauto].
    + destruct (IH B) as (q & rest & -> & F & T). exists (c :: q), rest. split; [reflexivity|]. split; [constructor; assumption|exact T].
Qed.

Lemma connection_mute : forall port is s st, sy_db s port = Serving st -> no_query port is ->
  w_running (sy_world (fst (mrun is s))) = true -> Forall bytes_ok (chunks_at port is) ->
  exists quiet, quiet_part p (chunks_at port is) quiet /\
    answers_at port (List.concat (snd (mrun is s))) = serve p h d st quiet.
Proof.
  intros port. induction is as [|i is IH]; intros s st G N R B.
  - exists []. split; [exists []; split; [reflexivity|]; split; [constructor|left; reflexivity]|reflexivity].
  - apply no_query_cons in N. destruct N as [N0 N].
    destruct (mrunning_before i is s R) as [R0 R1]. rewrite mrun_cons. cbn [List.concat]. rewrite answers_app.
    destruct (at_port_dec port i) as [[x [-> Hx]]|[Hx Hc]].
    + destruct Hx as [->|[[c ->]| ->]].
      * assert (X : mstep (SysDb (Connect port)) s = (with_db s (sy_db s), [])).
        { unfold mute_step, prints. rewrite R0. cbn [andb]. unfold sys_step. rewrite R0. cbn [db_step]. rewrite G. reflexivity. }
        rewrite X in *. cbn [fst snd answers_at flat_map app]. apply IH; assumption.
      * cbn [chunks_at] in *. rewrite N.eqb_refl in *. apply Forall_cons_iff in B. destruct B as [B0 B].
        pose proof (chunk_prints_iff p h d st c B0) as C.
        assert (X : mstep (SysDb (Chunk port c)) s =
          if chunk_prints p h d st c then (with_db s (set_port (sy_db s) port Gone), [])
          else match process p h d st c with
               | Ok (a, st') => (with_db s (set_port (sy_db s) port (Serving st')), [OutDb (Answer port a)])
               | _ => (with_db s (set_port (sy_db s) port Gone), [])
               end).
        { unfold mute_step, prints. rewrite R0, G. cbn [andb]. destruct (chunk_prints p h d st c); [reflexivity|].
          unfold sys_step. rewrite R0. cbn [db_step]. rewrite G. destruct (process p h d st c) as [[a st']| |]; reflexivity. }
        assert (Y : forall y, set_port (sy_db s) port y port = y) by (intros y; unfold set_port; rewrite N.eqb_refl; reflexivity).
        rewrite X in *. clear X. destruct (chunk_prints p h d st c).
        -- cbn [fst snd answers_at flat_map app]. exists []. split.
           ++ exists (c :: chunks_at port is). split; [reflexivity|]. split; [constructor|]. right. exists c, (chunks_at port is). split; [reflexivity|]. apply C. reflexivity.
           ++ apply gone_mute; [exact N|]. cbn [with_db sy_db]. apply Y.
        -- assert (Nc : ~ chunk_noise p c) by (intros F; apply C in F; discriminate).
           destruct (process p h d st c) as [[a st']| |] eqn:P; cbn [fst snd] in *.
           ++ destruct (IH (with_db s (set_port (sy_db s) port (Serving st'))) st' (Y _) N R1 B) as [quiet [(rest & E & F & T) A]].
              exists (c :: quiet). split.
              ** exists rest. rewrite E. split; [reflexivity|]. split; [constructor; assumption|exact T].
              ** rewrite A. cbn [serve]. rewrite P. cbn [answers_at flat_map]. rewrite N.eqb_refl. reflexivity.
           ++ destruct (quiet_exists _ B) as [quiet (rest & E & F & T)]. exists (c :: quiet). split.
              ** exists rest. rewrite E. split; [reflexivity|]. split; [constructor; assumption|exact T].
              ** cbn [serve]. rewrite P. cbn [answers_at flat_map app]. apply gone_mute; [exact N|]. cbn [with_db sy_db]. apply Y.
           ++ destruct (quiet_exists _ B) as [quiet (rest & E & F & T)]. exists (c :: quiet). split.
              ** exists rest. rewrite E. split; [reflexivity|]. split; [constructor; assumption|exact T].
              ** cbn [serve]. rewrite P. cbn [answers_at flat_map app]. apply gone_mute; [exact N|]. cbn [with_db sy_db]. apply Y.
      * cbn [chunks_at]. rewrite N.eqb_refl.
        assert (X : mstep (SysDb (Close port)) s = (with_db s (set_port (sy_db s) port Gone), [])).
        { unfold mute_step, prints. rewrite R0. cbn [andb]. unfold sys_step. rewrite R0. cbn [db_step]. rewrite G. reflexivity. }
        rewrite X. cbn [fst snd answers_at flat_map app]. exists []. split.
        -- exists []. split; [reflexivity|]. split; [constructor|left; reflexivity].
        -- apply gone_mute; [exact N|]. cbn [with_db sy_db]. unfold set_port. rewrite N.eqb_refl. reflexivity.
    + rewrite Hc in *. destruct (step_elsewhere i s port N0 Hx) as [X1 X2]. rewrite X2. cbn [app].
      apply IH; [congruence|assumption..].
Qed.

(** *** File services *)

Lemma start_elsewhere : forall outs u port,
  (forall v, ~ In (PmStart v port) outs) -> start_services u outs port = u port.
Proof.
  unfold start_services. induction outs as [|o outs IH]; intros u port N; [reflexivity|].
  cbn [fold_left]. rewrite IH by (intros v F; apply (N v); right; exact F).
  destruct o as [[|] q|to b]; try reflexivity; unfold at_key;
    (destruct (N.eqb_spec port q) as [->|]; [exfalso; eapply N; left; reflexivity|reflexivity]).
Qed.

Lemma pm_turn_starts : forall j v q, In (PmStart v q) (snd (pm_turn j)) -> pi_port j = Some q.
Proof.
  intros j v q. unfold pm_turn. destruct (codec_decode (pi_datagram j)) as [[m|]| |]; try (intros []).
  destruct (pi_port j) as [port|]; [|intros []].
  set (st := match rpc_body m with Call c => _ | Reply _ => _ end).
  assert (X : forall v q, In (PmStart v q) st -> Some port = Some q).
  { unfold st. intros v' q'. destruct (rpc_body m) as [c|]; [|intros []].
    destruct (ca_procedure c); try (intros []). destruct (gp_program g); (intros [F|[]]; injection F as _ ->; reflexivity). }
  destruct (send_to _ _); cbn [snd]; intros I; [|eapply X; exact I].
  apply in_app_or in I. destruct I as [I|[I|[]]]; [eapply X; exact I|discriminate].
Qed.

Lemma udp_elsewhere : forall i s port,
  (forall j, i = SysMapper j -> pi_port j <> Some port) -> (forall j, i <> SysUdp port j) ->
  sy_udp (fst (mstep i s)) port = sy_udp s port /\ udp_outputs port (snd (mstep i s)) = [].
Proof.
  intros i s port Nm Nu. unfold mute_step. destruct (prints e p h d i s).
  - destruct i as [j|x|j|q j|ws|c chunk q|c|x]; cbn [unprinted]; try (split; reflexivity).
    + destruct (world_unprinted (sy_world s) j). cbn [fst snd]. split; [reflexivity|]. apply flat_map_map_nil. reflexivity.
    + assert (N : port <> q) by (intros ->; exact (Nu j eq_refl)).
      destruct (sy_udp s q); cbn [fst snd with_udp sy_udp]; split; try reflexivity;
        unfold at_key; rewrite (proj2 (N.eqb_neq port q)) by exact N; reflexivity.
    + cbn [fst snd]. split; [reflexivity|]. apply flat_map_map_nil. reflexivity.
    + destruct x; split; reflexivity.
  - unfold sys_step. destruct (w_running (sy_world s)); [|split; reflexivity].
    destruct i as [j|x|j|q j|ws|c chunk [q|]|c|x].
    + destruct (step (sy_world s) j). cbn [fst snd]. split; [reflexivity|]. apply flat_map_map_nil. reflexivity.
    + destruct (sy_status s); [destruct (status_turn x)|]; try (split; reflexivity).
      cbn [fst snd]. split; [reflexivity|]. apply flat_map_map_nil. reflexivity.
    + destruct (sy_mapper s); [|split; reflexivity]. pose proof (pm_turn_starts j) as St.
      destruct (pm_turn j) as [r outs]. cbn [fst snd with_mapper sy_udp] in *. split.
      * apply start_elsewhere. intros v I. apply (Nm j eq_refl). apply (St v port I).
      * apply flat_map_map_nil. reflexivity.
    + assert (N : port <> q) by (intros ->; exact (Nu j eq_refl)).
      destruct (udp_turn e (sy_world s) q j (sy_udp s q)) as [v outs] eqn:T. cbn [fst snd with_udp sy_udp]. split.
      * unfold at_key. rewrite (proj2 (N.eqb_neq port q)) by exact N. reflexivity.
      * unfold udp_turn in T. destruct (sy_udp s q) as [|v0|[|]].
        -- injection T as _ <-. reflexivity.
        -- destruct (nfs_turn e j v0). injection T as _ <-. apply flat_map_map_nil.
           intros x. rewrite (proj2 (N.eqb_neq q port)) by congruence. reflexivity.
        -- destruct (ms_turn _). injection T as _ <-. apply flat_map_map_nil.
           intros x. rewrite (proj2 (N.eqb_neq q port)) by congruence. reflexivity.
        -- injection T as _ <-. reflexivity.
    + destruct (sy_joined s), (sy_mapper s); cbn [fst snd]; split; try reflexivity. apply flat_map_map_nil. reflexivity.
    + destruct (sy_query s c); [|split; reflexivity]. split; reflexivity.
    + destruct (sy_query s c); split; reflexivity.
    + split; reflexivity.
    + destruct x as [q c|q|q c|q]; [split; reflexivity| | |];
        match goal with |- context [db_step ?a ?b ?c ?x ?y] => destruct (db_step a b c x y) as [db outs] end;
        cbn [fst snd]; (split; [reflexivity|]); apply flat_map_map_nil; reflexivity.
Qed.

Lemma udp_at_dec : forall port i,
  (exists j, i = SysUdp port j) \/ ((forall j, i <> SysUdp port j) /\ forall is, udp_inputs port (i :: is) = udp_inputs port is).
Proof.
  intros port i. destruct i as [j|x|j|q j|ws|c chunk q|c|x]; try (right; split; [discriminate|reflexivity]).
  destruct (N.eq_dec q port) as [->|N]; [left; eauto|right]. split.
  - intros j' F. injection F as -> _. congruence.
  - intros is. cbn. rewrite (proj2 (N.eqb_neq q port)) by exact N. reflexivity.
Qed.

Lemma no_start_cons : forall port i is, no_start port (i :: is) ->
  (forall j, i = SysMapper j -> pi_port j <> Some port) /\ no_start port is.
Proof.
  intros port i is N. split.
  - intros j ->. apply N. left. reflexivity.
  - intros j I. apply N. right. exact I.
Qed.

Lemma udp_outputs_app : forall port a b, udp_outputs port (a ++ b) = udp_outputs port a ++ udp_outputs port b.
Proof. intros. apply flat_map_app. Qed.

Lemma ended_mute : forall port is s u, no_start port is -> sy_udp s port = NfsUdp (mkService None u) ->
  udp_outputs port (List.concat (snd (mrun is s))) = [].
Proof.
  intros port. induction is as [|i is IH]; intros s u N G; [reflexivity|].
  apply no_start_cons in N. destruct N as [N0 N]. rewrite mrun_cons. cbn [List.concat]. rewrite udp_outputs_app.
  assert (X : sy_udp (fst (mstep i s)) port = NfsUdp (mkService None u) /\ udp_outputs port (snd (mstep i s)) = []).
  { destruct (udp_at_dec port i) as [[j ->]|[Hx _]].
    - unfold mute_step, prints. rewrite G. cbn [nfs_prints sv_nfs].
      rewrite Bool.andb_false_r. unfold sys_step. destruct (w_running (sy_world s)); [|split; [exact G|reflexivity]].
      rewrite G. cbn [udp_turn nfs_turn sv_nfs fst snd with_udp sy_udp map]. split; [|reflexivity].
      unfold at_key. rewrite N.eqb_refl. reflexivity.
    - rewrite <- G. apply udp_elsewhere; assumption. }
  destruct X as [X1 X2]. rewrite X2. cbn [app]. apply (IH _ u); assumption.
Qed.

Lemma udp_turn_outputs : forall port (outs : list (peer * bytes)),
  udp_outputs port (map (fun o => OutUdp port (fst o) (snd o)) outs) = outs.
Proof.
  intros port outs. unfold udp_outputs. apply flat_map_map_id. intros [a b]. cbn. rewrite N.eqb_refl. reflexivity.
Qed.

Lemma never_killed_snoc_not : forall hs x, ~ never_killed e hs -> ~ never_killed e (hs ++ [x]).
Proof.
  intros hs x N K. apply N. intros k y Hk. specialize (K k y). rewrite nth_error_app1 in K by (apply nth_error_Some; congruence).
  specialize (K Hk). rewrite firstn_app in K. assert (L : (k <= List.length hs)%nat) by (apply Nat.lt_le_incl, nth_error_Some; congruence).
  replace (k - List.length hs)%nat with 0%nat in K by lia. cbn [firstn] in K. rewrite app_nil_r in K. exact K.
Qed.

Lemma served_nfs : forall hs, served e hs = nfs_run e (map fst hs) service_new.
Proof. reflexivity. Qed.

Lemma file_mute : forall port is s before hs,
  sy_udp s port = NfsUdp (fst (served e before)) -> never_killed e before ->
  no_start port is -> w_running (sy_world (fst (mrun is s))) = true ->
  map fst hs = udp_inputs port is -> history_ok (before ++ hs) ->
  exists quiet, quiet_calls e before hs quiet /\
    udp_outputs port (List.concat (snd (mrun is s))) =
    List.concat (snd (nfs_run e (map fst quiet) (fst (served e before)))).
Proof.
  intros port. induction is as [|i is IH]; intros s before hs G Nk N R M Hok.
  - destruct hs; [|discriminate]. exists []. split; [|reflexivity].
    exists []. split; [reflexivity|]. split; [intros k x F; destruct k; discriminate|left; reflexivity].
  - apply no_start_cons in N. destruct N as [N0 N].
    destruct (mrunning_before i is s R) as [R0 R1]. rewrite mrun_cons. cbn [List.concat]. rewrite udp_outputs_app.
    destruct (udp_at_dec port i) as [[j ->]|[Hx Hc]].
    2:{ rewrite Hc in M. destruct (udp_elsewhere i s port N0 Hx) as [X1 X2]. rewrite X2. cbn [app].
        apply IH; [congruence|assumption..]. }
    change (udp_inputs port (SysUdp port j :: is)) with ((if port =? port then [j] else []) ++ udp_inputs port is) in M.
    rewrite N.eqb_refl in M. destruct hs as [|x hs]; [discriminate|]. cbn [map app] in M. injection M as <- M.
    assert (Hx : history_ok (before ++ [x])).
    { unfold history_ok in *. rewrite !Forall_app in *. destruct Hok as [H1 H2]. apply Forall_cons_iff in H2. split; [exact H1|].
      constructor; [apply H2|constructor]. }
    assert (Ho2 : history_ok ((before ++ [x]) ++ hs)) by (rewrite <- app_assoc; exact Hok).
    pose proof (nfs_prints_iff e before x Hx Nk) as C.
    assert (X : mstep (SysUdp port (fst x)) s =
      if nfs_prints e (fst x) (fst (served e before))
      then (with_udp s (at_key (sy_udp s) port (NfsUdp (nfs_unprinted (fst (served e before))))), [])
      else (with_udp s (at_key (sy_udp s) port (NfsUdp (fst (nfs_turn e (fst x) (fst (served e before)))))),
            map (fun o => OutUdp port (fst o) (snd o)) (snd (nfs_turn e (fst x) (fst (served e before)))))).
    { unfold mute_step, prints. rewrite R0, G. cbn [andb unprinted]. rewrite G.
      destruct (nfs_prints e (fst x) (fst (served e before))); [reflexivity|].
      unfold sys_step. rewrite R0, G. cbn [udp_turn]. destruct (nfs_turn e (fst x) (fst (served e before))). reflexivity. }
    assert (Y : forall y, at_key (sy_udp s) port y port = y) by (intros y; unfold at_key; rewrite N.eqb_refl; reflexivity).
    assert (Sn : fst (served e (before ++ [x])) = fst (nfs_turn e (fst x) (fst (served e before)))).
    { rewrite served_snoc. reflexivity. }
    rewrite X in *. clear X.
    destruct (nfs_prints e (fst x) (fst (served e before))).
    + exists []. cbn [fst snd app udp_outputs flat_map map nfs_run List.concat]. split.
      * exists (x :: hs). split; [reflexivity|]. split; [intros k y F; destruct k; discriminate|]. right. left.
        exists x, hs. split; [reflexivity|]. rewrite app_nil_r. apply C. reflexivity.
      * apply (ended_mute port is _ (sv_unsent (fst (served e before)))); [exact N|]. cbn [with_udp sy_udp]. apply Y.
    + assert (Nc : ~ file_noise e before x) by (intros F; apply C in F; discriminate).
      cbn [fst snd] in R1 |- *. rewrite udp_turn_outputs.
      assert (Q : forall quiet, (forall k y, nth_error quiet k = Some y -> ~ file_noise e ((before ++ [x]) ++ firstn k quiet) y) ->
        forall k y, nth_error (x :: quiet) k = Some y -> ~ file_noise e (before ++ firstn k (x :: quiet)) y).
      { intros quiet H [|k] y F.
        - injection F as <-. cbn [firstn]. rewrite app_nil_r. exact Nc.
        - cbn [nth_error firstn] in *. specialize (H k y F). rewrite <- app_assoc in H. exact H. }
      destruct (served_state e _ Hx) as [[Nk' _]|[Kd Ed]].
      * destruct (IH (with_udp s (at_key (sy_udp s) port (NfsUdp (fst (served e (before ++ [x])))))) (before ++ [x]) hs)
          as [quiet [(rest & E & F & T) A]]; [apply Y|exact Nk'|exact N|rewrite Sn; exact R1|exact M|exact Ho2|].
        rewrite <- Sn. rewrite A. exists (x :: quiet). split.
        -- exists rest. split; [rewrite E; reflexivity|]. split; [apply Q; exact F|].
           rewrite <- app_assoc in T. exact T.
        -- cbn [map nfs_run]. rewrite Sn. destruct (nfs_turn e (fst x) (fst (served e before))) as [v out]. cbn [fst snd].
           destruct (nfs_run e (map fst quiet) v). reflexivity.
      * exists [x]. split.
        -- exists hs. split; [reflexivity|]. split; [|right; right; exact Kd].
           apply Q. intros k y F. destruct k; discriminate.
        -- cbn [map nfs_run]. destruct (nfs_turn e (fst x) (fst (served e before))) as [v out]. cbn [fst snd List.concat] in *.
           f_equal. rewrite Sn in Ed. destruct v as [vn u]. cbn [sv_nfs] in Ed. subst vn.
           apply (ended_mute port is _ u); [exact N|]. cbn [with_udp sy_udp]. apply Y.
Qed.

Lemma fold_key : forall cs (q : N -> bool) c,
  fold_left (fun q c => at_key q c true) cs q c = true <-> q c = true \/ In c cs.
Proof.
  induction cs as [|x cs IH]; intros q c; cbn [fold_left In]; [tauto|].
  rewrite IH. unfold at_key. destruct (N.eqb_spec c x) as [->|N]; [tauto|]. split; [tauto|].
  intros [H|[H|H]]; [tauto|congruence|tauto].
Qed.

Lemma accepted_first_split : forall ws, snd (accepted_first ws) = true ->
  exists rest, ws = map Some (fst (accepted_first ws)) ++ None :: rest.
Proof.
  induction ws as [|[c|] ws IH]; cbn [accepted_first]; intros F; [discriminate| |eexists; reflexivity].
  destruct (accepted_first ws) as [cs f]. cbn [fst snd] in *. destruct (IH F) as [rest E].
  exists rest. cbn [map app]. rewrite E. reflexivity.
Qed.

Lemma writer_only : forall i s, prints e p h d i s = true ->
  let s' := fst (mstep i s) in
  writer_gone i s' /\ others_same i s s' /\ nothing_sent i s s' (snd (mstep i s)).
Proof.
  intros i s P. cbv zeta. unfold mute_step. rewrite P. unfold prints in P. apply Bool.andb_true_iff in P. destruct P as [R P].
  destruct i as [j|x|j|q j|ws|c chunk q|c|x]; try discriminate.
  - destruct j as [d0 f| |ok|ok]; cbn [world_prints] in P; try discriminate.
    + cbn. split; [reflexivity|]. split; [|reflexivity].
      constructor; cbn; auto. intros N. elim (N d0 f eq_refl).
    + destruct (w_queue (sy_world s)) as [|x q] eqn:Q; [discriminate|]. cbn. rewrite Q. cbn. split; [reflexivity|].
      split; [|exists x; split; reflexivity]. constructor; cbn; auto. intros N. elim (N ok eq_refl).
  - cbn. split; [reflexivity|]. split; [|reflexivity]. constructor; cbn; auto. intros N. elim (N x eq_refl).
  - cbn. split; [reflexivity|]. split; [|reflexivity]. constructor; cbn; auto. intros N. elim (N j eq_refl).
  - cbn [unprinted]. destruct (sy_udp s q) as [|v|run] eqn:U; [discriminate| |]; cbn [fst snd].
    + split; [right; exists (sv_unsent v); cbn; unfold at_key; rewrite N.eqb_refl; reflexivity|].
      split; [|reflexivity]. constructor; cbn; auto. intros port N. unfold at_key.
      destruct (N.eqb_spec port q) as [->|]; [elim (N j eq_refl)|reflexivity].
    + split; [left; cbn; unfold at_key; rewrite N.eqb_refl; reflexivity|].
      split; [|reflexivity]. constructor; cbn; auto. intros port N. unfold at_key.
      destruct (N.eqb_spec port q) as [->|]; [elim (N j eq_refl)|reflexivity].
  - apply Bool.andb_true_iff in P. destruct P as [_ P]. cbn [unprinted fst snd]. split; [reflexivity|]. split.
    + constructor; cbn; auto; intros N; elim (N ws eq_refl).
    + destruct (accepted_first_split ws P) as [rest E]. exists (fst (accepted_first ws)), rest.
      split; [exact E|]. split; [reflexivity|]. intros c. cbn. apply fold_key.
  - destruct x as [q c|q|q c|q]; try discriminate. cbn. split; [unfold set_port; rewrite N.eqb_refl; reflexivity|].
    split; [|reflexivity]. constructor; cbn; auto. intros port N. unfold set_port.
    destruct (N.eqb_spec port q) as [->|]; [elim (N c eq_refl)|reflexivity].
Qed.

Lemma silent_same : forall is s,
  (forall k i, nth_error is k = Some i ->
     prints e p h d i (fst (sys_run e p h d (firstn k is) s)) = false) ->
  mrun is s = sys_run e p h d is s.
Proof.
  induction is as [|i is IH]; intros s H; [reflexivity|].
  cbn [mute_run sys_run]. unfold mute_step. pose proof (H 0%nat i eq_refl) as H0. cbn [firstn sys_run fst] in H0. rewrite H0.
  destruct (sys_step e p h d i s) as [s1 o] eqn:E. rewrite (IH s1); [reflexivity|].
  intros k j Hk. specialize (H (S k) j Hk). cbn [firstn sys_run] in H. rewrite E in H.
  destruct (sys_run e p h d (firstn k is) s1). exact H.
Qed.

Lemma mute_sends : forall w j from to port data, In (Sent from to port data) (snd (world_mute w j)) ->
  exists ok, j = BroadcastTurn ok /\ In (Sent from to port data) (snd (broadcast_turn w ok)).
Proof.
  intros w j from to port data I. unfold world_mute in I.
  destruct (w_running w) eqn:R; cbn [andb] in I.
  2:{ unfold step in I. rewrite R in I. destruct I. }
  destruct j as [d0 f| |ok|ok]; cbn [world_prints] in I.
  - assert (X : forall y : Prop, In (Sent from to port data) (snd (step w (KaDatagram d0 f))) -> y).
    { intros y. unfold step. rewrite R. destruct (w_listening w); [|intros []]. unfold keepalive_turn.
      destruct (ka_receive d0) as [q| |]; try (intros []). destruct (event_status q) as [[n ip]|]; [|intros []].
      destruct (w_poisoned w); [intros []|]. destruct (handle_keepalive_status _ _ _ _ _) as [[s' es]| |]; try (intros []).
      cbn [snd]. intros Z. apply in_map_iff in Z. destruct Z as [x [F _]]. discriminate. }
    destruct (w_listening w && _)%bool; [destruct I|]. apply X. exact I.
  - unfold step in I. rewrite R in I. destruct I.
  - unfold step in I. rewrite R in I. destruct (w_broadcasting w); [eauto|destruct I].
  - cbn [world_unprinted] in I. destruct (w_queue w) as [|x q] eqn:Q.
    + unfold step in I. rewrite R in I. unfold app_turn in I. rewrite Q in I. destruct I.
    + cbn [snd] in I. destruct I as [I|[]]. discriminate.
Qed.

Lemma mute_announces : forall is s from to port data,
  In (OutWorld (Sent from to port data)) (List.concat (snd (mrun is s))) ->
  exists n, data = status_bytes (pn_ip n) (pn_mac n) 1.
Proof.
  induction is as [|i is IH]; intros s from to port data I; [destruct I|].
  rewrite mrun_cons in I. cbn [List.concat] in I. apply in_app_or in I. destruct I as [I|I]; [|eapply IH; exact I].
  assert (J : In (Sent from to port data) (world_outputs (snd (mstep i s)))).
  { apply in_flat_map. exists (OutWorld (Sent from to port data)). split; [exact I|left; reflexivity]. }
  rewrite (proj2 (mute_world_step i s)) in J. destruct i as [j|x|j|q j|ws|c chunk q|c|x]; try (destruct J).
  apply mute_sends in J. destruct J as [ok [-> J]]. unfold broadcast_turn in J.
  destruct (w_poisoned (sy_world s)); [destruct J|].
  destruct (st_address (w_state (sy_world s))) as [n|]; [|destruct J].
  destruct (send_broadcast_payload n ok _) as [o| |] eqn:Sp; try (destruct J).
  2: destruct H. exists n. subst o. unfold send_broadcast_payload in Sp. destruct ok; [|discriminate].
  rewrite status_encoded in Sp. cbn [rbind] in Sp. injection Sp as _ _ _ <-. reflexivity.
Qed.
End Mute.
