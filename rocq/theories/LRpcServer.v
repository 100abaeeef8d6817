(** Lemmas about the port mapper and the mount service. *)

From Verif Require Import Base Unicode SUdp MRpc SRpc MNetwork MRpcServer SRpcServer LBase LUnicode LUdp LRpc LRpc2 PRpc LNetwork.
From Coq Require Import ZArith String.
Open Scope list_scope.
Open Scope N_scope.

(** ** Loops that end *)

Section Loop.
  Context {I O : Type} (turn : I -> bool * list O).
  Fixpoint loop (running : bool) (is : list I) : bool * list (list O) :=
    match is with
    | [] => (running, [])
    | i :: is =>
        let (running, outs) := if running then turn i else (false, []) in
        let (running, rest) := loop running is in
        (running, outs :: rest)
    end.

  Lemma loop_dead : forall is k, fst (loop false is) = false /\ nth k (snd (loop false is)) [] = [].
  Proof.
    induction is as [|i is IH]; intros k; cbn [loop].
    - split; [reflexivity|]. destruct k; reflexivity.
    - destruct (loop false is) as [r outs] eqn:E. cbn [fst snd] in *.
      split; [exact (proj1 (IH 0%nat))|]. destruct k; [reflexivity|]. cbn [nth]. exact (proj2 (IH k)).
  Qed.

  Lemma loop_running : forall is, fst (loop true is) = true <-> Forall (fun i => fst (turn i) = true) is.
  Proof.
    induction is as [|i is IH]; cbn [loop]; [split; intros; [constructor|reflexivity]|].
    destruct (turn i) as [[] outs] eqn:T.
    - destruct (loop true is) as [r rest]. cbn [fst] in *. rewrite IH. split; intros H.
      + constructor; [rewrite T; reflexivity|exact H].
      + inversion H; assumption.
    - destruct (loop_dead is 0) as [D _]. destruct (loop false is) as [r rest]. cbn [fst] in *.
      split; [congruence|]. intros H. inversion H as [|? ? H1 _]; subst. rewrite T in H1. discriminate H1.
  Qed.

  Lemma loop_outputs : forall is k i, nth_error is k = Some i ->
    Forall (fun i => fst (turn i) = true) (firstn k is) ->
    nth k (snd (loop true is)) [] = snd (turn i).
  Proof.
    induction is as [|j is IH]; intros k i H F; [destruct k; discriminate H|].
    cbn [loop]. destruct (turn j) as [b outs] eqn:T. destruct k as [|k].
    - injection H as <-. rewrite T. destruct (loop b is). reflexivity.
    - cbn [nth_error firstn] in *. inversion F as [|? ? F1 F2]; subst. rewrite T in F1. cbn [fst] in F1. subst b.
      specialize (IH k i H F2). destruct (loop true is). exact IH.
  Qed.

  Lemma loop_after : forall is k,
    Exists (fun i => fst (turn i) = false) (firstn k is) -> nth k (snd (loop true is)) [] = [].
  Proof.
    induction is as [|j is IH]; intros k E; [destruct k; inversion E|].
    destruct k as [|k]; [inversion E|]. cbn [firstn loop] in *.
    destruct (turn j) as [b outs] eqn:T. destruct b.
    - inversion E as [? ? E1|? ? E1]; subst; [rewrite T in E1; discriminate E1|].
      specialize (IH k E1). destruct (loop true is). exact IH.
    - destruct (loop_dead is k) as [_ D]. destruct (loop false is). exact D.
  Qed.
End Loop.

Lemma pm_run_loop : forall is r, pm_run r is = loop pm_turn r is.
Proof. induction is; intros r; [reflexivity|]. cbn [pm_run loop]. destruct (if r then pm_turn a else (false, [])). rewrite IHis. reflexivity. Qed.
Lemma ms_run_loop : forall is r, ms_run r is = loop ms_turn r is.
Proof. induction is; intros r; [reflexivity|]. cbn [ms_run loop]. destruct (if r then ms_turn a else (false, [])). rewrite IHis. reflexivity. Qed.

(** ** Datagrams *)

Lemma codec_cases : forall d, bytes_ok d ->
  (exists m c, codec_decode d = Ok (Some m) /\ call_says d m /\ rpc_body m = Call c)
  \/ codec_decode d = Panic /\ reply_type d /\ (forall m, ~ call_says d m)
  \/ (codec_decode d = Err \/ codec_decode d = Ok None) /\ (forall m, ~ call_says d m) /\ ~ reply_type d.
Proof.
  intros d Hd. destruct d as [|b d].
  - right. right. split; [right; reflexivity|]. split.
    + intros m [c [_ [R _]]]. unfold reaches in R. cbn in R. lia.
    + intros [R _]. unfold reaches in R. cbn in R. lia.
  - change (codec_decode (b :: d)) with (rmap Some (rpc_try_from (b :: d))).
    destruct (rpc_cases (b :: d) Hd) as [[m [E C]]|[[E [R T]]|[E [Nc Nr]]]]; rewrite E; cbn [rmap rbind].
    + left. pose proof C as [c [Bc _]]. eauto.
    + right. left. split; [reflexivity|]. split; [split; assumption|].
      intros m [c [_ [_ [_ [F _]]]]]. congruence.
    + right. right. split; [left; reflexivity|]. split; assumption.
Qed.

(** ** The port mapper *)

Lemma getport_reply_datagram : forall port xid,
  codec_encode (reply_to (PortmapGetportReply port) xid) = std_reply xid (std_getport_result port).
Proof. intros. apply (proj1 (C41_standard_results xid)). Qed.

Lemma pm_turn_cases : forall i, bytes_ok (pi_datagram i) ->
  (fst (pm_turn i) = true /\ ~ pm_stops i /\ pm_answers i (snd (pm_turn i)))
  \/ (fst (pm_turn i) = false /\ pm_stops i /\ forall to d, ~ In (PmReply to d) (snd (pm_turn i))).
Proof.
  intros i Hd. unfold pm_turn.
  destruct (codec_cases _ Hd) as [[m [c [E [C B]]]]|[[E [R Nc]]|[E [Nc Nr]]]].
  - rewrite E, B.
    assert (Nr : ~ reply_type (pi_datagram i)).
    { intros [_ T]. destruct C as [c' [_ [_ [_ [F _]]]]]. congruence. }
    destruct (pi_port i) as [port|] eqn:P.
    + rewrite getport_reply_datagram.
      assert (S : send_to (pi_send i) (std_reply (rpc_xid m) (std_getport_result port)) = pi_send i).
      { unfold send_to. rewrite std_reply_len. reflexivity. }
      rewrite S.
      destruct (pi_send i) eqn:Se.
      * left. split; [reflexivity|]. split.
        -- intros [F|[_ [F|F]]]; [contradiction|congruence|congruence].
        -- left. exists m, c, port. split; [exact C|]. split; [exact B|]. split; [exact P|].
           cbn [snd]. unfold pm_starts. reflexivity.
      * right. split; [reflexivity|]. split; [right; split; [eauto|right; exact Se]|].
        intros to d. cbn [snd].
        destruct (ca_procedure c); try (intros []).
        destruct (gp_program g); cbn [In]; intros [F|[]]; discriminate F.
    + right. split; [reflexivity|]. split; [right; split; [eauto|left; exact P]|]. intros to d [].
  - rewrite E. right. split; [reflexivity|]. split; [left; exact R|]. intros to d [].
  - left. assert (T : match codec_decode (pi_datagram i) with
      | Ok (Some m) => False | Panic => False | _ => True end) by (destruct E as [-> | ->]; exact I).
    destruct (codec_decode (pi_datagram i)) as [[m|]| |]; try contradiction;
      (split; [reflexivity|]; split; [intros [F|[[m F] _]]; [contradiction|exact (Nc m F)]|right; split; [exact Nc|reflexivity]]).
Qed.

(** ** Addresses as texts *)

Lemma u8_display_spec : forall x, x < 256 -> u8_display x = octet_text x.
Proof.
  intros x H. unfold u8_display, octet_text.
  destruct (N.leb_spec 100 x), (N.leb_spec 10 x), (N.ltb_spec x 10), (N.ltb_spec x 100); try lia; cbn [app].
  - rewrite (N.mod_small (x / 100)) by lia. reflexivity.
  - rewrite (N.mod_small (x / 10)) by lia. reflexivity.
  - rewrite (N.mod_small x) by lia. reflexivity.
Qed.

Lemma octet_text_ascii : forall x, x < 256 -> Forall (fun c => c < 128) (octet_text x) /\ len (octet_text x) <= 3.
Proof.
  intros x H. unfold octet_text.
  destruct (N.ltb_spec x 10); [split; [repeat constructor; lia|cbv; discriminate]|].
  destruct (N.ltb_spec x 100); (split; [repeat constructor; lia|cbv; discriminate]).
Qed.

Lemma ipv4_display_spec : forall ip, ipv4_display ip = ip_text ip.
Proof.
  intros ip. unfold ipv4_display, ip_text, dotted_text. rewrite <- word_be. unfold word.
  rewrite !u8_display_spec by (apply N.mod_lt; discriminate). reflexivity.
Qed.

Lemma ip_text_ascii : forall ip, Forall (fun c => c < 128) (ip_text ip) /\ len (ip_text ip) <= 15.
Proof.
  intros ip. unfold ip_text, dotted_text.
  destruct (octet_text_ascii (ip / 16777216 mod 256)) as [A1 L1]; [apply N.mod_lt; discriminate|].
  destruct (octet_text_ascii (ip / 65536 mod 256)) as [A2 L2]; [apply N.mod_lt; discriminate|].
  destruct (octet_text_ascii (ip / 256 mod 256)) as [A3 L3]; [apply N.mod_lt; discriminate|].
  destruct (octet_text_ascii (ip mod 256)) as [A4 L4]; [apply N.mod_lt; discriminate|].
  split.
  - rewrite !Forall_app. repeat split; try assumption; repeat constructor; reflexivity.
  - rewrite !len_app. change (len [46]) with 1. lia.
Qed.

Lemma ascii_utf8 : forall s, Forall (fun c => c < 128) s -> utf8_encode s = s /\ str_ok s.
Proof.
  induction 1 as [|c s H _ [IH1 IH2]]; [split; [reflexivity|constructor]|].
  rewrite utf8_encode_cons, IH1. split.
  - unfold utf8_char. destruct (N.ltb_spec c 128); [reflexivity|lia].
  - constructor; [|exact IH2]. apply scalar_iff. left. lia.
Qed.

(** ** The mount service *)

Lemma export_reply_good : forall a xid,
  let d := codec_encode (reply_to (MountExportReply
             [mkExport (lit "/") [ipv4_display (pn_ip a) ++ lit "/" ++ ipv4_display (pn_mask a)]]) xid) in
  len d <= max_datagram /\
  exists result padding rest, d = std_reply xid result ++ padding /\
    (net_prefix (pn_net a) <= 32 -> exports_in d = Some ([([47; 0], [network_text a])], rest)).
Proof.
  intros a xid d.
  assert (Nt : net_prefix (pn_net a) <= 32 -> network_text a = ip_text (pn_ip a) ++ [47] ++ ip_text (pn_mask a)).
  { intros Hp. unfold network_text, pn_mask, pn_ip. rewrite (mask_value _ Hp). reflexivity. }
  set (g := ip_text (pn_ip a) ++ [47] ++ ip_text (pn_mask a)).
  assert (G : ipv4_display (pn_ip a) ++ lit "/" ++ ipv4_display (pn_mask a) = g)
    by (rewrite !ipv4_display_spec; reflexivity).
  unfold d. rewrite G. clear d.
  destruct (ip_text_ascii (pn_ip a)) as [A1 L1]. destruct (ip_text_ascii (pn_mask a)) as [A2 L2].
  assert (Ag : Forall (fun c => c < 128) g).
  { unfold g. rewrite !Forall_app. repeat split; try assumption. repeat constructor. }
  assert (Lg : len g <= 31) by (unfold g; rewrite !len_app; change (len [47]) with 1; lia).
  destruct (ascii_utf8 g Ag) as [Ug Sg].
  assert (Sd : str_ok (lit "/")) by (repeat constructor).
  destruct (C42_one_export xid (lit "/") g Sd Sg) as [[_ H] _]; [reflexivity|rewrite Ug; unfold word_ok; lia|].
  destruct (H eq_refl) as [rest R]. rewrite Ug in R. change (utf16le (lit "/")) with [47; 0] in R.
  destruct (C41_standard_reply (MountExportReply [mkExport (lit "/") [g]]) xid) as [p [Hp [E _]]].
  split.
  - rewrite E, len_app, std_reply_len, len_repeat.
    cbn [reply_message_bytes]. unfold export_reply_bytes. cbn [flat_map]. unfold export_entry_bytes.
    cbn [ex_directory ex_groups flat_map]. rewrite Ug. rewrite !app_nil_r, !len_app, !be_len.
    unfold max_datagram. change (len [0; 0]) with 2. change (len [0; 0; 0; 1]) with 4. change (len [0; 0; 0; 0]) with 4.
    change (len (flat_map (le 2) (utf16_encode (lit "/")))) with 2. lia.
  - eexists. eexists. eexists. split; [exact E|]. intros Hpre. rewrite (Nt Hpre). exact R.
Qed.

Lemma ms_turn_cases : forall i, bytes_ok (mi_datagram i) ->
  (fst (ms_turn i) = true /\ ~ ms_stops i /\ ms_answers i (snd (ms_turn i)))
  \/ (fst (ms_turn i) = false /\ ms_stops i /\ snd (ms_turn i) = []).
Proof.
  intros i Hd. unfold ms_turn.
  destruct (codec_cases _ Hd) as [[m [c [E [C B]]]]|[[E [R Nc]]|[E [Nc Nr]]]].
  - rewrite E. unfold rpc_procedure_router. rewrite B.
    assert (Nr : ~ reply_type (mi_datagram i)).
    { intros [_ T]. destruct C as [c' [_ [_ [_ [F _]]]]]. congruence. }
    assert (Stop : ~ ms_answerable i (ca_procedure c) \/ mi_send i = false -> ms_stops i).
    { intros H. right. exists m, c. repeat split; assumption. }
    assert (Go : ms_answerable i (ca_procedure c) -> mi_send i = true -> ~ ms_stops i).
    { intros Ha Hs [F|[m' [c' [C' [B' F]]]]]; [contradiction|].
      rewrite <- (call_functional _ _ _ C C') in B'. rewrite B in B'. injection B' as <-.
      destruct F as [F|F]; [contradiction|congruence]. }
    assert (K : forall r, Ok r = (match ca_procedure c with
         | MountExport => mount_export_callback (mi_poisoned i) (mi_address i)
         | MountMnt data => mount_mnt_callback data | _ => Err end) ->
       ms_answerable i (ca_procedure c) ->
       len (codec_encode (reply_to r (rpc_xid m))) <= max_datagram ->
       ms_reply i (rpc_xid m) (ca_procedure c) (codec_encode (reply_to r (rpc_xid m))) ->
       let t := (if send_to (mi_send i) (codec_encode (reply_to r (rpc_xid m)))
                 then (true, [(mi_from i, codec_encode (reply_to r (rpc_xid m)))]) else (false, [])) in
       (fst t = true /\ ~ ms_stops i /\ ms_answers i (snd t)) \/ (fst t = false /\ ms_stops i /\ snd t = [])).
    { intros r _ Ha Hl Hr. cbv zeta. unfold send_to.
      destruct (N.leb_spec (len (codec_encode (reply_to r (rpc_xid m)))) max_datagram); [|lia].
      cbn [andb]. destruct (mi_send i) eqn:Se.
      - left. split; [reflexivity|]. split; [apply Go; [assumption|reflexivity]|].
        left. exists m, c, (codec_encode (reply_to r (rpc_xid m))). repeat split; assumption.
      - right. split; [reflexivity|]. split; [apply Stop; right; reflexivity|reflexivity]. }
    unfold on_event. destruct (ca_procedure c) eqn:P;
      try (right; split; [reflexivity|]; split; [|reflexivity]; apply Stop; left;
           intros [[? F]|[F _]]; discriminate F).
    + cbn [mount_mnt_callback]. apply K; [reflexivity|left; eauto| |].
      * rewrite (proj1 (proj2 (C41_standard_results (rpc_xid m)))) by reflexivity.
        rewrite std_reply_len. cbv. discriminate.
      * cbn [ms_reply]. apply (proj1 (proj2 (C41_standard_results (rpc_xid m)))). reflexivity.
    + unfold mount_export_callback in *. destruct (mi_poisoned i) eqn:Po.
      { right. split; [reflexivity|]. split; [|reflexivity]. apply Stop. left.
        intros [[? F]|[_ [F _]]]; [discriminate F|congruence]. }
      destruct (mi_address i) as [a|] eqn:Ad.
      * destruct (export_reply_good a (rpc_xid m)) as [L [result [padding [rest [X1 X2]]]]].
        apply K; [reflexivity|right; eauto|exact L|].
        exists a, result, padding, rest. repeat split; assumption.
      * right. split; [reflexivity|]. split; [|reflexivity]. apply Stop. left.
        intros [[? F]|[_ [_ [a F]]]]; [discriminate F|congruence].
  - rewrite E. right. split; [reflexivity|]. split; [left; exact R|reflexivity].
  - left. assert (T : match codec_decode (mi_datagram i) with
      | Ok (Some m) => False | Panic => False | _ => True end) by (destruct E as [-> | ->]; exact I).
    destruct (codec_decode (mi_datagram i)) as [[m|]| |]; try contradiction;
      (split; [reflexivity|]; split; [intros [F|[m [c [F _]]]]; [contradiction|exact (Nc m F)]|right; split; [exact Nc|reflexivity]]).
Qed.
