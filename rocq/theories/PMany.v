(** Property theorems C104: several loads at one file service. *)

From Verif Require Import Base Unicode MDatabase MRpc MRpcServer MNfs SUdp SRpc SRpcServer SNfs SDisk SMany
  MPath MDb MLib MNetwork MPackets MServer MStatus MSystem SSystem LBase LUdp LDatabase LRpc LRpc2 LRpcServer LNfs LNfs2 LLoad LOrder PNfs PSystem PDisk.
From Coq Require Import ZArith Lia Arith String.
Open Scope list_scope.
Open Scope N_scope.

(** ** Where the walk of the service is *)

Lemma position_from : forall (run : list event) here,
  let step := fun (here : bytes) (x : nfs_input * heard) =>
    match snd x with
    | Asked _ (NfsLookup l) => walk_to (ni_os (fst x)) here (lk_filename l)
    | _ => here
    end in
  fold_left step (map snd run) here = fold_left step (map snd (lookups run)) here.
Proof.
  intros run here step. revert here. induction run as [|[d x] run IH]; intros here; [reflexivity|].
  unfold lookups. cbn [map filter snd]. fold (lookups run).
  destruct (snd x) as [|xid p|] eqn:E; cbn [fold_left map]; unfold step at 2; cbn [fst snd]; rewrite E; try apply IH.
  destruct p; try apply IH. cbn [map fold_left snd]. unfold step at 3. rewrite E. apply IH.
Qed.
Lemma position_lookups : forall run : list event, position (map snd run) = position (map snd (lookups run)).
Proof. intros run. exact (position_from run [47]). Qed.

Lemma lookups_app : forall a b : list event, lookups (a ++ b) = lookups a ++ lookups b.
Proof. intros. apply filter_app. Qed.

Lemma firstn_snoc : forall A (l : list A) k a, nth_error l k = Some a -> firstn (S k) l = firstn k l ++ [a].
Proof.
  intros A l. induction l; intros k b H; [destruct k; discriminate H|].
  destruct k; [cbn in H; injection H as ->; reflexivity|]. cbn [firstn app]. f_equal. apply IHl. exact H.
Qed.

(** The disk answers every event. *)
Definition answered_by_disk (run : list event) : Prop := Forall (fun x => ni_os (fst (snd x)) = os_on (fst x)) run.
Lemma disk_answers : forall e run s d, on_disk e s d run -> answered_by_disk run.
Proof. intros e run. induction run as [|[d' x] run IH]; intros s d O; [constructor|]. inversion O; subst. constructor; [assumption|]. eapply IH; eassumption. Qed.
Lemma disk_times : forall e run s d, on_disk e s d run -> forall d' x p f, In (d', x) run -> dk_names d' p = Some f ->
  m_ino (dk_info d' f) < 2^64 /\ times_known (dk_info d' f).
Proof.
  intros e run. induction run as [|[d1 y] run IH]; intros s d O d' x p f I Hn; [destruct I|].
  inversion O as [|? ? ? ? ? [[B _] _] Os O']; subst. destruct I as [E|I]; [|eapply IH; eassumption].
  injection E as <- <-. apply B. right. exists p. exact Hn.
Qed.
Lemma lookups_sub : forall run x, In x (lookups run) -> In x run.
Proof. intros run x I. apply filter_In in I. apply I. Qed.

(** Part of the way along a walk that started at the root. *)
Lemma part_way : forall before names w k, position (map snd before) = [47] ->
  walks_along names w -> answered_by_disk (firstn k w) -> (k < List.length names)%nat ->
  position (map snd (before ++ firstn k w)) = match firstn k names with [] => [47] | _ => absolute (firstn k names) end.
Proof.
  intros before names w k P (Ne & Cn & Lw & H). induction k as [|k IH]; intros Ad Hk.
  - cbn [firstn]. rewrite app_nil_r. exact P.
  - destruct (nth_error names k) as [n|] eqn:En; [|apply nth_error_None in En; lia].
    destruct (nth_error w k) as [[d x]|] eqn:Ew; [|apply nth_error_None in Ew; lia].
    rewrite (firstn_snoc _ _ _ _ Ew) in Ad. apply Forall_app in Ad. destruct Ad as [Ad Ax]. specialize (IH Ad ltac:(lia)).
    assert (Ef : map snd (before ++ firstn (S k) w) = map snd (before ++ firstn k w) ++ [x]).
    { rewrite (firstn_snoc _ _ _ _ Ew), app_assoc, (map_app snd (before ++ firstn k w)). reflexivity. }
    rewrite Ef, position_snoc, IH.
    destruct (H k n _ En Ew) as ((xid & h & Ex) & G). cbn [snd fst] in *. rewrite Ex. cbn [lk_filename].
    destruct (G ltac:(lia)) as (g & Hn & Hf). unfold walk_to.
    assert (Cm : Forall component (firstn k names) /\ component n).
    { split; [|exact (proj1 (Forall_forall _ _) Cn n (nth_error_In _ _ En))].
      apply Forall_forall. intros y Hy. apply (proj1 (Forall_forall _ _) Cn).
      rewrite <- (firstn_skipn k names). apply in_or_app. left. exact Hy. }
    rewrite (resolve_component _ _ (proj1 Cm) (proj2 Cm)), <- (firstn_snoc _ _ _ _ En).
    assert (Eo : ni_os (fst x) = os_on d) by exact (Forall_inv Ax).
    rewrite Eo. cbn [os_on os_stat os_open]. replace (k + 1)%nat with (S k) in Hn by lia. rewrite Hn. cbn [option_map].
    rewrite Hf. rewrite (firstn_snoc _ _ _ _ En). destruct (firstn k names); reflexivity.
Qed.

(** The path the next lookup of the walk is about. *)
Lemma next_target : forall before names w k n, position (map snd before) = [47] ->
  walks_along names w -> answered_by_disk (firstn k w) -> nth_error names k = Some n ->
  resolve (position (map snd (before ++ firstn k w))) n = absolute (firstn (k + 1) names).
Proof.
  intros before names w k n P Wa Ad En. pose proof Wa as (Ne & Cn & _).
  assert (Hk : (k < List.length names)%nat) by (apply nth_error_Some; congruence).
  rewrite (part_way before names w k P Wa Ad Hk). replace (k + 1)%nat with (S k) by lia.
  rewrite (firstn_snoc _ _ _ _ En). apply resolve_component; [|exact (proj1 (Forall_forall _ _) Cn n (nth_error_In _ _ En))].
  apply Forall_forall. intros y Hy. apply (proj1 (Forall_forall _ _) Cn).
  rewrite <- (firstn_skipn k names). apply in_or_app. left. exact Hy.
Qed.

Lemma whole_walk : forall before names w f, position (map snd before) = [47] ->
  walks_along names w -> arrives names w f -> answered_by_disk w -> position (map snd (before ++ w)) = [47].
Proof.
  intros before names w f P Wa (x & Ex & Hf & Hr) Ad. pose proof Wa as (Ne & Cn & Lw & H).
  assert (L0 : (0 < List.length names)%nat) by (destruct names; [congruence|cbn; lia]).
  set (k := (List.length names - 1)%nat) in *.
  destruct (nth_error names k) as [n|] eqn:En; [|apply nth_error_None in En; lia].
  assert (Ew : w = firstn k w ++ [x]) by (rewrite <- (firstn_snoc _ _ _ _ Ex); symmetry; apply firstn_all2; lia).
  assert (Fn : firstn (k + 1) names = names) by (apply firstn_all2; lia).
  destruct x as [d x].
  assert (Ad' : answered_by_disk (firstn k w)) by (rewrite Ew in Ad; apply Forall_app in Ad; apply Ad).
  pose proof (next_target before names w k n P Wa Ad' En) as T. rewrite Fn in T.
  assert (Ef : map snd (before ++ w) = map snd (before ++ firstn k w) ++ [x]).
  { rewrite Ew at 1. rewrite app_assoc, (map_app snd (before ++ firstn k w)). reflexivity. }
  rewrite Ef, position_snoc.
  destruct (H k n _ En Ex) as ((xid & h & Exx) & _). cbn [snd fst] in *. rewrite Exx. cbn [lk_filename].
  unfold walk_to. rewrite T.
  assert (Eo : ni_os (fst x) = os_on d) by (apply (proj1 (Forall_forall _ _) Ad (d, x)); exact (nth_error_In _ _ Ex)).
  rewrite Eo. cbn [os_on os_stat os_open]. rewrite Hf. destruct f as [f|]; cbn [option_map]; [|reflexivity].
  rewrite (Hr f eq_refl). reflexivity.
Qed.

Lemma at_root : forall earlier, one_by_one earlier -> answered_by_disk earlier -> position (map snd earlier) = [47].
Proof.
  intros earlier O. induction O as [|earlier names w f _ IH Wa Ar]; intros Ad; [reflexivity|].
  apply Forall_app in Ad. destruct Ad as [A1 A2]. exact (whole_walk earlier names w f (IH A1) Wa Ar A2).
Qed.

(** ** A service on a disk goes well *)

Lemma outcome_bounded : forall e hs x, goes_well e hs ->
  bytes_ok (ni_datagram (fst x)) -> hears (ni_datagram (fst x)) (snd x) -> ni_send (fst x) = true ->
  ~ kills e hs x ->
  (forall xid p r, snd x = Asked xid p -> call_outcome e hs (ni_os (fst x)) p (Result r) -> len r <= 65483) ->
  goes_well e (hs ++ [x]).
Proof.
  intros e hs x (A & K & S) B Hh Se Nk L.
  split; [apply history_snoc; repeat split; assumption|].
  split; [apply never_snoc; split; assumption|apply sends_snoc; split; [exact S|split; [exact Se|]]].
  intros to d R. destruct (snd x) as [|xid p|] eqn:Hx; unfold replies in R; rewrite Hx in R; try discriminate R.
  destruct R as [[r [C E]]|[_ E]]; [|discriminate E]. injection E as _ ->. apply reply_fits. exact (L xid p r eq_refl C).
Qed.

Lemma on_disk_well : forall e d0 run, on_disk e service_new d0 run -> Forall fair run -> goes_well e (map snd run).
Proof.
  intros e d0 run. induction run as [|[d x] run IH] using rev_ind; intros O F.
  { split; [constructor|]. split; intros [|k] y E; discriminate E. }
  apply Forall_app in F. destruct F as [F Fx]. destruct (on_disk_app e _ _ _ _ O) as [O1 O2].
  specialize (IH O1 F). rewrite map_app. cbn [map snd].
  rewrite inputs_served in O2. inversion O2 as [|? ? ? ? ? [[Dk _] _] Os _]; subst.
  destruct (Forall_inv Fx) as (B & Hh & Se & C). cbn [snd fst] in B, Hh, Se, C.
  destruct (served_state e _ (proj1 IH)) as [[_ (n & En & I)]|[X _]]; [|exfalso; exact (X (proj1 (proj2 IH)))].
  assert (Known : forall h f, handle_of_file e (map snd run) h f -> times_known (dk_info d f)).
  { intros h f (ino & _ & La). apply I in La. apply Dk. left. eapply held_in; eassumption. }
  apply outcome_bounded; try assumption.
  - unfold kills. destruct (snd x) as [|xid p|] eqn:Hx; [intros []| |contradiction].
    destruct p; cbn [call_outcome]; try discriminate; rewrite Os.
    + intros [(f & Hf & D)|[_ D]]; [|discriminate D]. unfold getattr_outcome in D. cbn [os_on os_fstat] in D.
      exact (D (Known _ _ Hf)).
    + unfold lookup_outcome. cbn [os_on os_stat os_open]. destruct (dk_names d _) as [f|] eqn:Hn; cbn [option_map]; [|discriminate].
      intros D. apply D. apply Dk. right. eexists. exact Hn.
    + intros [(f & Hf & D)|[_ D]]; [|discriminate D]. unfold read_outcome in D. cbn [os_on os_fstat os_content] in D.
      exact (D (Known _ _ Hf)).
  - intros xid p r Hx. destruct p; cbn [call_outcome]; try discriminate; rewrite Os.
    + intros [(f & Hf & D)|[_ D]]; [|discriminate D]. unfold getattr_outcome in D. cbn [os_on os_fstat] in D.
      destruct D as (_ & fattr & Fa & ->). unfold std_getattr_result. rewrite len_app, word_len, (LNfs2.fattr_len _ _ Fa). lia.
    + unfold lookup_outcome. cbn [os_on os_stat os_open]. destruct (dk_names d _) as [f|] eqn:Hn; cbn [option_map]; [|discriminate].
      intros (_ & fattr & Fa & ->). rewrite (lookup_result_len _ _ _ Fa). lia.
    + intros [(f & Hf & D)|[_ D]]; [|discriminate D]. unfold read_outcome in D. cbn [os_on os_fstat os_content] in D.
      destruct D as (_ & fattr & Fa & data & -> & Ld & _). rewrite Hx in C. apply (read_fits _ _ _ Fa). lia.
Qed.

(** What a lookup is answered with, on a disk. *)
Lemma lookup_on_disk : forall e d0 a d x b xid name h, on_disk e service_new d0 (a ++ (d, x) :: b) ->
  Forall fair (a ++ (d, x) :: b) -> snd x = Asked xid (NfsLookup (mkLookup name h)) ->
  finds d x (dk_names d (resolve (position (map snd a)) name))
    (nth (List.length a) (snd (served e (map snd (a ++ (d, x) :: b)))) []).
Proof.
  intros e d0 a d x b xid name h O Fa Hx. pose proof (on_disk_well e d0 _ O Fa) as W. clear Fa.
  assert (Nx : nth_error (map snd (a ++ (d, x) :: b)) (List.length a) = Some x).
  { rewrite map_app. rewrite nth_error_app2 by (rewrite map_length; lia). rewrite map_length, Nat.sub_diag. reflexivity. }
  destruct (C51_history e _ _ _ W Nx) as (r & R & ->).
  assert (F : firstn (List.length a) (map snd (a ++ (d, x) :: b)) = map snd a).
  { rewrite map_app, firstn_app, map_length, Nat.sub_diag, firstn_all2 by (rewrite map_length; lia).
    cbn [firstn]. apply app_nil_r. }
  rewrite F in R. unfold replies in R. rewrite Hx in R. cbn [call_outcome lk_filename] in R.
  assert (Eo : ni_os (fst x) = os_on d).
  { apply (proj1 (Forall_forall _ _) (disk_answers _ _ _ _ O) (d, x)). apply in_or_app. right. left. reflexivity. }
  rewrite Eo in R. unfold lookup_outcome in R. cbn [os_on os_stat os_open] in R.
  destruct (dk_names d (resolve (position (map snd a)) name)) as [f|] eqn:Hn; cbn [option_map finds] in R |- *.
  - destruct (disk_times _ _ _ _ O d x _ f ltac:(apply in_or_app; right; left; reflexivity) Hn) as [_ T].
    destruct R as [(q & (_ & fattr & Fa & ->) & ->)|[[] _]]. exists xid, (NfsLookup (mkLookup name h)), fattr.
    split; [exact Hx|]. split; [exact Fa|reflexivity].
  - destruct R as [(q & Q & _)|[_ ->]]; [discriminate Q|reflexivity].
Qed.

(** ** C104 *)

(** Loads may share a file service.  If the lookups made so far are whole walks,
    one after the other, and then the first [j] of the walk of a player, then
    whatever else was asked in between, the player's next lookup is answered with
    what the names of its own path lead to. *)
Theorem C104_walks : forall e d0 before d x after earlier names w j,
  on_disk e service_new d0 (before ++ (d, x) :: after) -> Forall fair (before ++ (d, x) :: after) ->
  one_by_one earlier -> walks_along names w -> nth_error w j = Some (d, x) ->
  lookups before = earlier ++ firstn j w ->
  finds d x (dk_names d (absolute (firstn (j + 1) names)))
    (nth (List.length before) (snd (served e (map snd (before ++ (d, x) :: after)))) []).
Proof.
  intros e d0 before d x after earlier names w j O W Ob Wa Ej L.
  pose proof Wa as (Ne & Cn & Lw & H).
  destruct (nth_error names j) as [n|] eqn:En.
  2:{ apply nth_error_None in En. assert (j < List.length w)%nat by (apply nth_error_Some; congruence). lia. }
  destruct (H j n _ En Ej) as ((xid & h & Hx) & _). cbn [snd] in Hx.
  pose proof (lookup_on_disk e d0 before d x after xid n h O W Hx) as F.
  pose proof (disk_answers _ _ _ _ O) as Ad.
  assert (Al : answered_by_disk (earlier ++ firstn j w)).
  { rewrite <- L. apply Forall_forall. intros y I. apply lookups_sub in I.
    apply (proj1 (Forall_forall _ _) Ad). apply in_or_app. left. exact I. }
  assert (T : resolve (position (map snd before)) n = absolute (firstn (j + 1) names)).
  { rewrite position_lookups, L. apply Forall_app in Al. destruct Al as [A1 A2].
    exact (next_target earlier names w j n (at_root earlier Ob A1) Wa A2 En). }
  rewrite T in F. exact F.
Qed.
Print Assumptions C104_walks.

Lemma fair_reads : forall x, fair x -> bytes_ok (ni_datagram (fst (snd x))) /\
  hears (ni_datagram (fst (snd x))) (snd (snd x)) /\ ni_send (fst (snd x)) = true.
Proof. intros x (B & H & S & _). auto. Qed.

Lemma split_nth : forall A (l : list A) j a, nth_error l j = Some a -> exists r, l = firstn j l ++ a :: r.
Proof.
  intros A l. induction l as [|b l IH]; intros j a H; [destruct j; discriminate|].
  destruct j; [injection H as ->; exists l; reflexivity|]. destruct (IH j a H) as [r E]. exists r. cbn [firstn app]. congruence.
Qed.

(** Once a file is looked up, its pieces can be had. *)
Lemma pieces_given : forall d0 before d x after xl f cnt js content,
  on_disk Little service_new d0 (before ++ (d, x) :: after) -> Forall fair (before ++ (d, x) :: after) ->
  looks_up before d x xl f ->
  cnt <= 65404 -> asks_pieces (handle_for (m_ino (dk_info d f))) cnt after js ->
  (forall k j d' r, nth_error js k = Some j -> nth_error after j = Some (d', r) -> dk_content d' f = content) ->
  len content <= cnt * len js ->
  let answers := snd (served Little (map snd (before ++ (d, x) :: after))) in
  exists datas, List.length datas = List.length js /\
    (forall k j data, nth_error js k = Some j -> nth_error datas k = Some data ->
       exists d' r, nth_error after j = Some (d', r) /\ gives r data (nth (List.length before + 1 + j) answers [])) /\
    firstn (N.to_nat (len content)) (List.concat datas) = content.
Proof.
  intros d0 before d x after xl f cnt js content O F Lk Le As Ct Lc answers.
  assert (One : forall k j, nth_error js k = Some j -> exists d' r data, nth_error after j = Some (d', r) /\
    gives r data (nth (List.length before + 1 + j) answers []) /\ range_with_zeros content (cnt * N.of_nat k) cnt data).
  { intros k j Hk. destruct (As k j Hk) as (d' & r & xid & total & Hj & Hr').
    destruct (split_nth _ _ _ _ Hj) as [rest Er]. 
    assert (Eb : before ++ (d, x) :: after = (before ++ (d, x) :: firstn j after ++ [(d', r)]) ++ rest).
    { rewrite Er at 1. rewrite <- app_assoc. cbn [app]. rewrite <- app_assoc. reflexivity. }
    rewrite Eb in O, F.
    destruct (on_disk_app _ _ _ _ _ O) as [O1 _]. apply Forall_app in F. destruct F as [F1 _].
    assert (F2 : Forall fair (before ++ (d, x) :: firstn j after)).
    { apply Forall_app in F1. destruct F1 as [F1 F2]. apply Forall_app. split; [exact F1|].
      inversion F2; subst. constructor; [assumption|]. match goal with X : Forall fair (firstn _ _ ++ _) |- _ => apply Forall_app in X; apply X end. }
    assert (O2 : on_disk Little service_new d0 (before ++ (d, x) :: firstn j after)).
    { replace (before ++ (d, x) :: firstn j after ++ [(d', r)]) with ((before ++ (d, x) :: firstn j after) ++ [(d', r)]) in O1
        by (rewrite <- app_assoc; reflexivity). exact (proj1 (on_disk_app _ _ _ _ _ O1)). }
    assert (Fr : fair (d', r)).
    { apply Forall_app in F1. destruct F1 as [_ F1]. apply Forall_inv_tail, Forall_app in F1. exact (Forall_inv (proj2 F1)). }
    destruct (fair_reads _ Fr) as (Bo & Hh & Se). cbn [snd fst] in *.
    destruct (C89_handle_keeps_its_file d0 before d x xl f (firstn j after) d' r xid _ cnt total O1
      (on_disk_well _ _ _ O2 F2) Lk Bo Hh Hr' Se Le) as (_ & fattr & data & Fa & Rg & Nt).
    exists d', r, data. split; [exact Hj|].
    rewrite (Ct k j d' r Hk Hj) in Rg. split; [|exact Rg].
    exists xid, (NfsRead (mkRead (handle_for (m_ino (dk_info d f))) (cnt * N.of_nat k) cnt total)), fattr.
    split; [exact Hr'|]. split; [exact (LNfs2.fattr_len _ _ Fa)|].
    assert (Ln : (j < List.length after)%nat) by (apply nth_error_Some; rewrite Hj; discriminate).
    rewrite <- Nt. unfold answers.
    replace (List.length (before ++ (d, x) :: firstn j after)) with (List.length before + 1 + j)%nat
      by (rewrite app_length; cbn [List.length]; rewrite firstn_length; lia).
    rewrite Eb, map_app. apply served_prefix. rewrite map_length, app_length. cbn [List.length]. rewrite app_length, firstn_length.
    cbn [List.length]. lia. }
  assert (Ds : forall k0 js', (forall k j, nth_error js' k = Some j -> exists d' r data, nth_error after j = Some (d', r) /\
      gives r data (nth (List.length before + 1 + j) answers []) /\ range_with_zeros content (cnt * N.of_nat (k0 + k)) cnt data) ->
    exists datas, List.length datas = List.length js' /\
      (forall k j data, nth_error js' k = Some j -> nth_error datas k = Some data ->
        exists d' r, nth_error after j = Some (d', r) /\ gives r data (nth (List.length before + 1 + j) answers [])) /\
      (forall k data, nth_error datas k = Some data -> range_with_zeros content (cnt * N.of_nat (k0 + k)) cnt data)).
  { clear. intros k0 js'. revert k0. induction js' as [|j js' IH]; intros k0 H.
    - exists []. split; [reflexivity|]. split; intros [|k]; intros; discriminate.
    - destruct (IH (S k0)) as (datas & E & G & R).
      { intros k j' Hk. destruct (H (S k) j' Hk) as (d' & r & data & H1 & H2 & H3). exists d', r, data.
        replace (S k0 + k)%nat with (k0 + S k)%nat by lia. auto. }
      destruct (H 0%nat j eq_refl) as (d' & r & data & H1 & H2 & H3). exists (data :: datas).
      split; [cbn [List.length]; congruence|]. split.
      + intros [|k] j' dt Hk Hd; [injection Hk as <-; injection Hd as <-; eauto|exact (G k j' dt Hk Hd)].
      + intros [|k] dt Hd; [injection Hd as <-; exact H3|].
        replace (k0 + S k)%nat with (S k0 + k)%nat by lia. exact (R k dt Hd). }
  destruct (Ds 0%nat js) as (datas & Ld & G & R); [intros k j Hk; exact (One k j Hk)|].
  exists datas. split; [exact Ld|]. split; [exact G|].
  pose proof (pieces_join content cnt datas 0) as J. rewrite N.sub_0_r in J. apply J.
  - intros k data Hd. rewrite N.add_0_l. exact (R k data Hd).
  - unfold len in *. rewrite Ld. lia.
Qed.

(** After its walk, a player that asks for the pieces of the file, in any order and
    with anything in between (other walks too, even broken ones), gets its bytes. *)
Theorem C104_loads : forall d0 before d x after earlier names w f cnt js content,
  on_disk Little service_new d0 (before ++ (d, x) :: after) -> Forall fair (before ++ (d, x) :: after) ->
  one_by_one earlier -> lookups before = earlier ++ w ->
  walks_along names (w ++ [(d, x)]) -> arrives names (w ++ [(d, x)]) (Some f) ->
  cnt <= 65404 -> asks_pieces (handle_for (m_ino (dk_info d f))) cnt after js ->
  (forall k j d' r, nth_error js k = Some j -> nth_error after j = Some (d', r) -> dk_content d' f = content) ->
  len content <= cnt * len js ->
  let answers := snd (served Little (map snd (before ++ (d, x) :: after))) in
  finds d x (Some f) (nth (List.length before) answers []) /\
  exists datas, List.length datas = List.length js /\
    (forall k j data, nth_error js k = Some j -> nth_error datas k = Some data ->
       exists d' r, nth_error after j = Some (d', r) /\ gives r data (nth (List.length before + 1 + j) answers [])) /\
    firstn (N.to_nat (len content)) (List.concat datas) = content.
Proof.
  intros d0 before d x after earlier names w f cnt js content O F Ob L Wa Ar Le As Ct Lc answers.
  pose proof Wa as (Ne & Cn & Lw & H).
  assert (L0 : (0 < List.length names)%nat) by (destruct names; [congruence|cbn; lia]).
  assert (Lj : List.length w = (List.length names - 1)%nat) by (rewrite app_length in Lw; cbn [List.length] in Lw; lia).
  assert (Ex : nth_error (w ++ [(d, x)]) (List.length w) = Some (d, x)) by (rewrite nth_error_app2, Nat.sub_diag by lia; reflexivity).
  assert (Fw : firstn (List.length w) (w ++ [(d, x)]) = w) by (rewrite firstn_app, Nat.sub_diag, firstn_all; apply app_nil_r).
  assert (Fn : firstn (List.length w + 1) names = names) by (apply firstn_all2; lia).
  destruct Ar as (x' & Ex' & Hn & Hr). rewrite <- Lj, Ex in Ex'. injection Ex' as <-. cbn [fst] in Hn, Hr.
  destruct (nth_error names (List.length w)) as [n|] eqn:En; [|apply nth_error_None in En; lia].
  destruct (H _ n _ En Ex) as ((xl & h & Hx) & _). cbn [snd] in Hx.
  split.
  { pose proof (C104_walks Little d0 before d x after earlier names (w ++ [(d, x)]) (List.length w) O F Ob Wa Ex) as K.
    rewrite Fw, Fn, Hn in K. exact (K L). }
  pose proof (disk_answers _ _ _ _ O) as Ad.
  assert (Al : answered_by_disk (earlier ++ w)).
  { rewrite <- L. apply Forall_forall. intros y I. apply lookups_sub in I.
    apply (proj1 (Forall_forall _ _) Ad). apply in_or_app. left. exact I. }
  apply Forall_app in Al. destruct Al as [A1 A2].
  assert (T : resolve (position (map snd before)) n = absolute names).
  { rewrite position_lookups, L, <- Fn. rewrite <- Fw at 1.
    apply next_target; [exact (at_root _ Ob A1)|exact Wa|rewrite Fw; exact A2|exact En]. }
  assert (Lk : looks_up before d x xl f).
  { exists (mkLookup n h). cbn [lk_filename]. rewrite T. split; [exact Hx|]. split; [exact Hn|exact (Hr f eq_refl)]. }
  exact (pieces_given d0 before d x after xl f cnt js content O F Lk Le As Ct Lc).
Qed.
Print Assumptions C104_loads.

(** Walks must not be mixed.  A lookup [x] of a name that comes when another walk
    has gone [k] names along its way is answered with what has that name in the
    folder the other walk is in; and the next lookup after it, of a name [n], with
    what has that name inside what [x] found, if that is a folder, and otherwise
    with what has that name in the root. *)
Theorem C104_mixed : forall e d0 before d x middle d' y after earlier names w k name n xid h xid' h',
  on_disk e service_new d0 (before ++ (d, x) :: middle ++ (d', y) :: after) ->
  Forall fair (before ++ (d, x) :: middle ++ (d', y) :: after) ->
  one_by_one earlier -> walks_along names w -> (0 < k < List.length names)%nat ->
  lookups before = earlier ++ firstn k w -> lookups middle = [] ->
  snd x = Asked xid (NfsLookup (mkLookup name h)) -> component name ->
  snd y = Asked xid' (NfsLookup (mkLookup n h')) -> component n ->
  let answers := snd (served e (map snd (before ++ (d, x) :: middle ++ (d', y) :: after))) in
  let found := absolute (firstn k names) ++ 47 :: name in
  finds d x (dk_names d found) (nth (List.length before) answers []) /\
  finds d' y (dk_names d' match dk_names d found with
                          | Some g => if m_file (dk_info d g) then 47 :: n else found ++ 47 :: n
                          | None => 47 :: n
                          end) (nth (List.length before + 1 + List.length middle) answers []).
Proof.
  intros e d0 before d x middle d' y after earlier names w k name n xid h xid' h' O F Ob Wa Hk L Lm Hx Cx Hy Cy answers found.
  pose proof Wa as (Ne & Cn & Lw & H).
  pose proof (disk_answers _ _ _ _ O) as Ad.
  assert (Al : answered_by_disk (earlier ++ firstn k w)).
  { rewrite <- L. apply Forall_forall. intros z I. apply lookups_sub in I.
    apply (proj1 (Forall_forall _ _) Ad). apply in_or_app. left. exact I. }
  apply Forall_app in Al. destruct Al as [A1 A2].
  assert (Ck : Forall component (firstn k names)).
  { apply Forall_forall. intros z Hz. apply (proj1 (Forall_forall _ _) Cn).
    rewrite <- (firstn_skipn k names). apply in_or_app. left. exact Hz. }
  assert (Ef : absolute (firstn k names ++ [name]) = found).
  { rewrite absolute_app. unfold found. f_equal. unfold absolute. cbn [flat_map]. rewrite app_nil_r. reflexivity. }
  assert (T : resolve (position (map snd before)) name = found).
  { rewrite position_lookups, L, (part_way earlier names w k (at_root _ Ob A1) Wa A2 (proj2 Hk)).
    rewrite (resolve_component _ _ Ck Cx). exact Ef. }
  split.
  { pose proof (lookup_on_disk e d0 before d x _ xid name h O F Hx) as K. rewrite T in K. exact K. }
  assert (Ea : before ++ (d, x) :: middle ++ (d', y) :: after = (before ++ (d, x) :: middle) ++ (d', y) :: after)
    by (rewrite <- app_assoc; reflexivity).
  unfold answers. rewrite Ea in *. clear answers.
  pose proof (lookup_on_disk e d0 _ d' y _ xid' n h' O F Hy) as K.
  rewrite app_length in K. cbn [List.length] in K.
  replace (List.length before + 1 + List.length middle)%nat with (List.length before + S (List.length middle))%nat by lia.
  assert (P : position (map snd (before ++ (d, x) :: middle)) =
    match dk_names d found with Some g => if m_file (dk_info d g) then [47] else found | None => [47] end).
  { rewrite position_lookups, lookups_app. unfold lookups at 2. cbn [filter snd]. rewrite Hx. fold (lookups middle). rewrite Lm.
    rewrite map_app. cbn [map snd]. rewrite position_snoc, <- position_lookups, Hx. cbn [lk_filename].
    unfold walk_to. rewrite T. assert (Eo : ni_os (fst x) = os_on d).
    { apply (proj1 (Forall_forall _ _) Ad (d, x)). apply in_or_app. left. apply in_or_app. right. left. reflexivity. }
    rewrite Eo. cbn [os_on os_stat os_open]. destruct (dk_names d found) as [g|]; reflexivity. }
  assert (R1 : resolve [47] n = 47 :: n) by (rewrite (resolve_component [] n ltac:(constructor) Cy); unfold absolute; cbn [app flat_map]; rewrite app_nil_r; reflexivity).
  assert (R2 : resolve found n = found ++ 47 :: n).
  { rewrite <- Ef. pose proof (resolve_component (firstn k names ++ [name]) n) as Q.
    destruct (firstn k names ++ [name]) as [|c cs] eqn:Ec; [destruct (firstn k names); discriminate Ec|]. rewrite <- Ec in Q |- *.
    rewrite Q; [|apply Forall_app; split; [exact Ck|constructor; [exact Cx|constructor]]|exact Cy].
    rewrite (absolute_app (firstn k names ++ [name])). f_equal. unfold absolute. cbn [flat_map]. apply app_nil_r. }
  rewrite P in K. destruct (dk_names d found) as [g|]; [destruct (m_file (dk_info d g))|]; rewrite ?R1, ?R2 in K; exact K.
Qed.
Print Assumptions C104_mixed.

(** The same in the running process, at any file service the port mapper started,
    whatever the other services do meanwhile: so players with ports of their own
    do not have to mind each other at all. *)
Theorem C104_in_process : forall p h lib mp db start i run_on port d0 before d x after earlier names w f cnt js content,
  let s := fst (sys_run Little p h lib start (system_start true true mp db)) in
  let s' := fst (sys_step Little p h lib (SysMapper i) s) in
  let outs := snd (sys_run Little p h lib run_on s') in
  starts (snd (sys_step Little p h lib (SysMapper i) s)) NfsService port ->
  process_runs (start ++ SysMapper i :: run_on) ->
  (forall os v, In os outs -> ~ starts os v port) ->
  udp_inputs port run_on = map (fun y => fst (snd y)) (before ++ (d, x) :: after) ->
  on_disk Little service_new d0 (before ++ (d, x) :: after) -> Forall fair (before ++ (d, x) :: after) ->
  one_by_one earlier -> lookups before = earlier ++ w ->
  walks_along names (w ++ [(d, x)]) -> arrives names (w ++ [(d, x)]) (Some f) ->
  cnt <= 65404 -> asks_pieces (handle_for (m_ino (dk_info d f))) cnt after js ->
  (forall k j d' r, nth_error js k = Some j -> nth_error after j = Some (d', r) -> dk_content d' f = content) ->
  len content <= cnt * len js ->
  exists datas, List.length datas = List.length js /\
    (forall k j data, nth_error js k = Some j -> nth_error datas k = Some data ->
       exists d' r out, nth_error after j = Some (d', r) /\ gives r data [out] /\
         In out (udp_outputs port (List.concat outs))) /\
    firstn (N.to_nat (len content)) (List.concat datas) = content.
Proof.
  intros p h lib mp db start i run_on port d0 before d x after earlier names w f cnt js content s s' outs
    S R Ns U O F Ob L Wa Ar Le As Ct Lc.
  destruct (C104_loads d0 before d x after earlier names w f cnt js content O F Ob L Wa Ar Le As Ct Lc)
    as (_ & datas & Ld & G & J).
  exists datas. split; [exact Ld|]. split; [|exact J].
  intros k j data Hk Hd. destruct (G k j data Hk Hd) as (d' & r & Hj & (xid & q & fattr & Hr & Hl & Out)).
  exists d', r, (ni_from (fst r), std_reply xid (std_read_result fattr data)). split; [exact Hj|].
  split; [exists xid, q, fattr; repeat split; assumption|].
  unfold outs, s', s. rewrite (C63_nfs_service_alone Little p h lib mp db start i run_on port S R Ns), U.
  rewrite <- (map_map snd fst). fold (served Little (map snd (before ++ (d, x) :: after))).
  apply in_concat. exists [(ni_from (fst r), std_reply xid (std_read_result fattr data))]. split; [|left; reflexivity]. rewrite <- Out. apply nth_In.
  unfold served. rewrite run_length, !map_length, app_length. cbn [List.length].
  assert (j < List.length after)%nat by (apply nth_error_Some; rewrite Hj; discriminate). lia.
Qed.
Print Assumptions C104_in_process.

(** Two folders with a file of the same name each. *)
Definition two_disk : disk := example_disk
  [(lit "/a", (50, (true, 5))); (lit "/a/x", (70, (false, 7))); (lit "/b", (60, (true, 6))); (lit "/b/x", (80, (false, 8)))]
  (fun f => if f =? 70 then [1; 2; 3] else [9; 8; 7; 6]).
Definition two_lookup (xid : N) (name : str) : event := (two_disk, demo_lookup (os_on two_disk) xid name (repeat 0 32)).
Definition two_read (xid ino off cnt : N) : event := (two_disk, demo_read (os_on two_disk) xid (handle_for ino) off cnt).
Definition two_before : list event := [two_lookup 1 (lit "c"); two_lookup 2 (lit "a")].
Definition two_after : list event :=
  [two_read 4 7 2 2; two_lookup 5 (lit "b"); two_read 6 7 0 2; two_lookup 7 (lit "x"); two_read 8 8 0 4].


Lemma two_fair : Forall fair (two_before ++ two_lookup 3 (lit "x") :: two_after).
Proof.
  assert (Lk : forall xid name, word_ok xid -> str_ok name -> word_ok (len (utf16le name)) ->
    forallb (fun b => b <? 256) (ni_datagram (fst (snd (two_lookup xid name)))) = true -> fair (two_lookup xid name)).
  { intros xid name H1 H2 H3 H4. destruct (demo_lookup_heard (os_on two_disk) xid name (repeat 0 32) H1 eq_refl H2 H3 H4) as [A B].
    split; [exact A|]. split; [exact B|]. split; [reflexivity|exact I]. }
  assert (Rd : forall xid ino off cnt, word_ok xid -> word_ok off -> word_ok cnt -> cnt <= 65404 ->
    forallb (fun b => b <? 256) (ni_datagram (fst (snd (two_read xid ino off cnt)))) = true -> fair (two_read xid ino off cnt)).
  { intros xid ino off cnt H1 H2 H3 H4 H5.
    destruct (demo_read_heard (os_on two_disk) xid (handle_for ino) off cnt H1 (handle_for_len ino) H2 H3 H5) as [A B].
    split; [exact A|]. split; [exact B|]. split; [reflexivity|exact H4]. }
  unfold two_before, two_after. cbn [app].
  apply Forall_cons; [apply (Lk 1 (lit "c")); [reflexivity|repeat constructor; vm_compute; reflexivity|reflexivity|vm_compute; reflexivity]|].
  apply Forall_cons; [apply (Lk 2 (lit "a")); [reflexivity|repeat constructor; vm_compute; reflexivity|reflexivity|vm_compute; reflexivity]|].
  apply Forall_cons; [apply (Lk 3 (lit "x")); [reflexivity|repeat constructor; vm_compute; reflexivity|reflexivity|vm_compute; reflexivity]|].
  apply Forall_cons; [apply (Rd 4 7 2 2); [reflexivity|reflexivity|reflexivity|lia|vm_compute; reflexivity]|].
  apply Forall_cons; [apply (Lk 5 (lit "b")); [reflexivity|repeat constructor; vm_compute; reflexivity|reflexivity|vm_compute; reflexivity]|].
  apply Forall_cons; [apply (Rd 6 7 0 2); [reflexivity|reflexivity|reflexivity|lia|vm_compute; reflexivity]|].
  apply Forall_cons; [apply (Lk 7 (lit "x")); [reflexivity|repeat constructor; vm_compute; reflexivity|reflexivity|vm_compute; reflexivity]|].
  apply Forall_cons; [apply (Rd 8 8 0 4); [reflexivity|reflexivity|reflexivity|lia|vm_compute; reflexivity]|].
  constructor.
Qed.
Lemma two_on_disk : on_disk Little service_new two_disk (two_before ++ two_lookup 3 (lit "x") :: two_after).
Proof.
  assert (K : forall run s d, d = two_disk -> Forall (fun y => fst y = two_disk /\ ni_os (fst (snd y)) = os_on two_disk) run ->
    (forall k, In (open_files (fst (nfs_run Little (firstn k (map (fun y => fst (snd y)) run)) s))) [[]; [70]; [70; 80]]) ->
    on_disk Little s d run).
  { intros run. induction run as [|[d' y] run IH]; intros s d -> Hf Hs; [constructor|].
    inversion Hf as [|? ? [E1 E2] Hf']; subst. cbn [fst snd] in *. subst d'. constructor; [|exact E2|].
    - specialize (Hs 0%nat). cbn [firstn nfs_run fst In] in Hs.
      destruct Hs as [<-|[<-|[<-|[]]]]; good_change.
    - apply IH; [reflexivity|exact Hf'|]. intros k. specialize (Hs (S k)). cbn [map firstn] in Hs. rewrite run_step in Hs. exact Hs. }
  apply K; [reflexivity|repeat constructor|].
  intros k. do 8 (destruct k as [|k]; [vm_compute; tauto|]). destruct k; vm_compute; tauto.
Qed.

(** A walk to a name that is not there, a walk to "/a/x" and, while that file is
    read from its end, a walk to "/b/x": all get what they ask for. *)
Example C104_case :
  let run := two_before ++ two_lookup 3 (lit "x") :: two_after in
  on_disk Little service_new two_disk run /\ Forall fair run /\
  one_by_one [two_lookup 1 (lit "c")] /\
  lookups two_before = [two_lookup 1 (lit "c")] ++ [two_lookup 2 (lit "a")] /\
  walks_along [lit "a"; lit "x"] ([two_lookup 2 (lit "a")] ++ [two_lookup 3 (lit "x")]) /\
  arrives [lit "a"; lit "x"] ([two_lookup 2 (lit "a")] ++ [two_lookup 3 (lit "x")]) (Some 70) /\
  asks_pieces (handle_for (m_ino (dk_info two_disk 70))) 2 two_after [2; 0]%nat /\
  dk_content two_disk 70 = [1; 2; 3] /\
  map (@List.length _) (snd (served Little (map snd run))) = [0; 1; 1; 1; 1; 1; 1; 1]%nat.
Proof.
  intros run. split; [exact two_on_disk|]. split; [exact two_fair|]. split.
  { apply (obo_walk [] [lit "c"] [two_lookup 1 (lit "c")] None); [constructor| |].
    - split; [discriminate|]. split; [repeat constructor; [discriminate|vm_compute; intuition discriminate]|]. split; [reflexivity|].
      intros [|[|j]] name x Hn Hx; try discriminate. injection Hn as <-. injection Hx as <-.
      split; [do 2 eexists; reflexivity|]. cbn. lia.
    - eexists. split; [reflexivity|]. split; [vm_compute; reflexivity|discriminate]. }
  split; [reflexivity|]. split.
  { split; [discriminate|]. split; [repeat constructor; try discriminate; vm_compute; intuition discriminate|]. split; [reflexivity|].
    intros [|[|[|j]]] name x Hn Hx; try discriminate; injection Hn as <-; injection Hx as <-; (split; [do 2 eexists; reflexivity|]).
    - intros _. exists 50. split; vm_compute; reflexivity.
    - cbn. lia. }
  split.
  { eexists. split; [reflexivity|]. split; [vm_compute; reflexivity|]. intros g E. injection E as <-. vm_compute. reflexivity. }
  split.
  { intros [|[|k]] j Hk; try (destruct k; discriminate); injection Hk as <-; do 4 eexists; split; reflexivity. }
  split; [reflexivity|]. vm_compute. reflexivity.
Qed.

(** The walk to "/b/x" begins inside the one to "/a/x": neither gets there. *)
Example C104_case_mixed :
  let b := two_lookup 2 (lit "b") in let x := two_lookup 3 (lit "x") in
  let run := [two_lookup 1 (lit "a"); b; x] in
  lookups [two_lookup 1 (lit "a")] = [] ++ firstn 1 [two_lookup 1 (lit "a"); x] /\
  walks_along [lit "a"; lit "x"] [two_lookup 1 (lit "a"); x] /\
  component (lit "b") /\
  map (@List.length _) (snd (served Little (map snd run))) = [1; 0; 0]%nat.
Proof.
  intros b x run. split; [reflexivity|]. split; [|split; [split; [discriminate|vm_compute; intuition discriminate]|vm_compute; reflexivity]].
  split; [discriminate|]. split; [repeat constructor; try discriminate; vm_compute; intuition discriminate|]. split; [reflexivity|].
  intros [|[|[|j]]] name y Hn Hx; try discriminate; injection Hn as <-; injection Hx as <-; (split; [do 2 eexists; reflexivity|]).
  - intros _. exists 50. split; vm_compute; reflexivity.
  - cbn. lia.
Qed.
