(** Property theorems C102: the process runs out of file descriptors. *)

From Verif Require Import Base Unicode MPackets MKeepalive MNetwork MServer MStatus MDb MDatabase MLib MRpc MRpcServer MNfs
  MSystem MDescriptors SUdp SRpc SServer SRpcServer SNfs SSystem SHeld SScan SDescriptors LBase LDatabase LServer LServer2
  LRpc LRpcServer LNfs LSystem LDescriptors PServer PRpc PRpcServer PNfs PSystem PSession PDatabase PScan PEnd PHeld.
From Coq Require Import ZArith Lia Arith String.
Open Scope list_scope.
Open Scope N_scope.

Section Fd.
Variables (e : endian) (p : profile) (h : hash_order) (d : database).
Notation sstep := (sys_step e p h d).
Notation srun := (sys_run e p h d).

Lemma refused_opens : forall s port, sy_db s port = Listening ->
  forall x, open_in (fst (srun (fd_effects (FdRefused port)) s)) x = true -> open_in s x = true.
Proof.
  intros s port L x. cbn [fd_effects]. rewrite !(srun_cons e p h d). cbn [fst sys_run].
  destruct (w_running (sy_world s)) eqn:R.
  2:{ unfold sys_step. rewrite R. cbn [fst]. rewrite R. trivial. }
  pose proof (step_shape e p h d (SysDb (Connect port)) s R) as S. cbn [db_step] in S. rewrite L in S. rewrite S. cbn [fst].
  set (s1 := with_db s (set_port (sy_db s) port (Serving None))).
  assert (R1 : w_running (sy_world s1) = true) by exact R.
  pose proof (step_shape e p h d (SysDb (Close port)) s1 R1) as S1. cbn [db_step] in S1.
  assert (L1 : sy_db s1 port = Serving None) by (unfold s1; cbn [with_db sy_db]; unfold set_port; rewrite N.eqb_refl; reflexivity).
  rewrite L1 in S1. rewrite S1. cbn [fst]. unfold s1.
  destruct x as [| | | |c'|pt|pt|pt|pt ino]; try (intros H; exact H);
    cbn [open_in with_db sy_db]; unfold set_port; destruct (pt =? port); [discriminate|trivial|discriminate|trivial].
Qed.

Lemma obeys_bounded : forall limit s xs, obeys e p h d limit s xs -> forall n, has_open s n -> (n <= limit)%nat ->
  exists m, has_open (fst (srun (happens xs) s)) m /\ (m <= limit)%nat.
Proof.
  intros limit s xs O. induction O as [s|s x xs W Rf O IH]; intros n H L.
  - exists n. split; assumption.
  - unfold happens in *. cbn [flat_map]. rewrite (srun_app e p h d). cbn [fst]. destruct x as [i|port].
    + destruct (step_opens e p h d limit n s i (W n i H eq_refl) L) as (added & A & B).
      destruct (has_open_grows _ _ _ _ H A) as (m & Hm & Lm).
      cbn [fd_effects] in *. rewrite (srun_cons e p h d) in *. cbn [fst sys_run] in *. apply (IH m Hm). lia.
    + destruct (has_open_grows s (fst (srun (fd_effects (FdRefused port)) s)) n [] H) as (m & Hm & Lm).
      * intros x Hx. left. apply (refused_opens s port (Rf port eq_refl) x Hx).
      * apply (IH m Hm). cbn [List.length] in Lm. lia.
Qed.
End Fd.

Lemma start_open : forall ka st mp db, exists n, has_open (system_start ka st mp db) n /\ (n <= 4)%nat.
Proof.
  intros ka st mp db. set (s := system_start ka st mp db).
  set (xs := filter (open_in s) [DKeepalive; DStatus; DMapper; DDatabase]).
  exists (List.length xs). split.
  - exists xs. split; [|split; [|reflexivity]].
    + apply NoDup_filter. repeat constructor; cbn; intuition discriminate.
    + intros x. unfold xs. rewrite filter_In. split; [intros [_ H]; exact H|]. intros H. split; [|exact H].
      destruct x; cbn in H; try discriminate; cbn; auto.
  - unfold xs. cbn [filter]. repeat match goal with |- context [open_in s ?x] => destruct (open_in s x) end; cbn; lia.
Qed.

Definition own_list (s : system) : list descriptor :=
  filter (open_in s) [DKeepalive; DStatus; DMapper; DDatabase].
Lemma own_list_length : forall s, List.length (own_list s) = own_ports s.
Proof.
  intros s. unfold own_list, own_ports. cbn [filter open_in].
  destruct (w_listening (sy_world s)), (sy_status s), (sy_mapper s), (sy_joined s); reflexivity.
Qed.
Lemma own_list_nodup : forall s, NoDup (own_list s).
Proof. intros s. apply NoDup_filter. repeat constructor; cbn; intuition discriminate. Qed.
Lemma own_list_open : forall s x, In x (own_list s) -> open_in s x = true.
Proof. intros s x I. apply filter_In in I. apply I. Qed.
Lemma own_list_own : forall s x, In x (own_list s) -> x = DKeepalive \/ x = DStatus \/ x = DMapper \/ x = DDatabase.
Proof. intros s x I. apply filter_In in I. destruct I as [I _]. cbn in I. intuition congruence. Qed.

(** A process that is allowed so many descriptors has, after whatever happened,
    no more than that many sockets, connections and files: the number is finite
    and within the limit. *)
Theorem C102_bounded : forall e p h d ka st mp db limit xs, (4 <= limit)%nat ->
  obeys e p h d limit (system_start ka st mp db) xs ->
  exists n, has_open (fst (sys_run e p h d (happens xs) (system_start ka st mp db))) n /\ (n <= limit)%nat.
Proof.
  intros e p h d ka st mp db limit xs L O. destruct (start_open ka st mp db) as (n & H & B).
  apply (obeys_bounded e p h d limit _ _ O n H). lia.
Qed.
Print Assumptions C102_bounded.

(** So the ports given out, for the database and for services, exceed those whose
    handler or service has ended by no more than the limit, less the
    process's own ports. *)
Theorem C102_ports_given : forall e p h d ka st mp db limit xs given ended given' ended', (4 <= limit)%nat ->
  obeys e p h d limit (system_start ka st mp db) xs ->
  orderly e p h d tcp_held tcp_given (system_start ka st mp db) (happens xs) given ended ->
  orderly e p h d udp_held udp_given (system_start ka st mp db) (happens xs) given' ended' ->
  (given + given' + own_ports (fst (sys_run e p h d (happens xs) (system_start ka st mp db))) <= limit + ended + ended')%nat.
Proof.
  intros e p h d ka st mp db limit xs given ended given' ended' L O O1 O2.
  destruct (C102_bounded e p h d ka st mp db limit xs L O) as (n & H & B).
  destruct (C82_database_ports _ _ _ _ _ _ _ _ _ _ _ O1) as (ps & N1 & P1 & _ & -> & _).
  destruct (C82_service_ports _ _ _ _ _ _ _ _ _ _ _ O2) as (qs & N2 & P2 & _ & -> & _).
  set (s := fst (sys_run e p h d (happens xs) (system_start ka st mp db))) in *.
  assert (K : (List.length (own_list s ++ map DListener ps ++ map DService qs) <= n)%nat).
  { apply (sub_count s n); [exact H| |].
    - apply nodup_apart; [apply own_list_nodup| |].
      + apply nodup_apart.
        * apply FinFun.Injective_map_NoDup; [intros a b X; congruence|exact N1].
        * apply FinFun.Injective_map_NoDup; [intros a b X; congruence|exact N2].
        * intros x I J. apply in_map_iff in I, J. destruct I as (a & <- & _), J as (b & X & _). discriminate X.
      + intros x I J. apply own_list_own in I. apply in_app_iff in J. rewrite !in_map_iff in J.
        destruct J as [(a & <- & _)|(a & <- & _)]; intuition discriminate.
    - intros x I. rewrite !in_app_iff, !in_map_iff in I. destruct I as [I|[(a & <- & I)|(a & <- & I)]].
      + apply own_list_open, I.
      + apply P1 in I. exact I.
      + apply P2 in I. exact I. }
  rewrite !app_length, !map_length, own_list_length in K. lia.
Qed.
Print Assumptions C102_ports_given.

(** A service for files keeps every file it was ever asked for open, so it can
    have been asked for fewer different files than descriptors are allowed. *)
Theorem C102_files : forall e p h d mp db limit before j after port hs inos,
  let start := system_start true true mp db in
  let s := fst (sys_run e p h d (happens before) start) in
  let s' := fst (sys_step e p h d (SysMapper j) s) in
  let final := fst (sys_run e p h d (happens after) s') in
  (4 <= limit)%nat -> obeys e p h d limit start (before ++ FdStep (SysMapper j) :: after) ->
  process_runs (happens (before ++ FdStep (SysMapper j) :: after)) ->
  starts (snd (sys_step e p h d (SysMapper j) s)) NfsService port ->
  (forall os v, In os (snd (sys_run e p h d (happens after) s')) -> ~ starts os v port) ->
  map fst hs = udp_inputs port (happens after) -> history_ok hs -> never_killed e hs ->
  NoDup inos ->
  (forall ino, In ino inos -> exists k x f, nth_error hs k = Some x /\ opens (firstn k hs) x ino f) ->
  (List.length inos + 1 + own_ports final <= limit)%nat.
Proof.
  intros e p h d mp db limit before j after port hs inos start s s' final L O R S F Hi Ho Nk Nd Hop.
  destruct (C102_bounded e p h d true true mp db limit _ L O) as (n & H & B).
  assert (Fin : fst (sys_run e p h d (happens (before ++ FdStep (SysMapper j) :: after)) (system_start true true mp db)) = final).
  { unfold happens. rewrite flat_map_app, (srun_app e p h d). cbn [fst flat_map fd_effects app]. rewrite (srun_cons e p h d). reflexivity. }
  rewrite Fin in H.
  apply starts_step in S. destruct S as (R0 & M & j' & X & S). injection X as <-.
  assert (U : sy_udp final port = NfsUdp (fst (nfs_run e (udp_inputs port (happens after)) service_new))).
  { apply (nfs_srun e p h d (happens after) s' port service_new); [| |exact F].
    - unfold s'. pose proof (step_shape e p h d (SysMapper j) s R0) as E. cbn beta iota in E. rewrite M in E. rewrite E.
      exact (start_services_started j (sy_udp s) NfsService port S).
    - change (w_running (sy_world final) = true). rewrite <- Fin, (start_runs e p h d mp db). exact R. }
  rewrite <- Hi in U. destruct (C82_files_kept e hs Ho Nk) as (nf & E & _ & Fi). unfold served in E.
  assert (K : (List.length (own_list final ++ DService port :: map (DFile port) inos) <= n)%nat).
  { apply (sub_count final n); [exact H| |].
    - apply nodup_apart; [apply own_list_nodup| |].
      + constructor; [intros I; apply in_map_iff in I; destruct I as (a & X & _); discriminate X|].
        apply FinFun.Injective_map_NoDup; [intros a b X; congruence|exact Nd].
      + intros x I [<-|J]; apply own_list_own in I; [intuition discriminate|].
        apply in_map_iff in J. destruct J as (a & <- & _). intuition discriminate.
    - intros x I. rewrite in_app_iff in I. destruct I as [I|[<-|I]].
      + apply own_list_open, I.
      + unfold open_in. rewrite U, E. reflexivity.
      + apply in_map_iff in I. destruct I as (ino & <- & I). unfold open_in. rewrite U, E.
        apply Hop, Fi in I. destruct (hm_get ino (nf_files nf)) eqn:G; [reflexivity|].
        exfalso. revert I. apply hm_get_none. exact G. }
  rewrite app_length in K. cbn [List.length] in K. rewrite map_length, own_list_length in K. lia.
Qed.
Print Assumptions C102_files.

(** The descriptors of each kind among those open. *)
Definition query_of (x : descriptor) : list N := match x with DQuery c => [c] | _ => [] end.
Definition listener_of (x : descriptor) : list N := match x with DListener q => [q] | _ => [] end.
Definition client_of (x : descriptor) : list N := match x with DClient q => [q] | _ => [] end.
Definition service_of (x : descriptor) : list N := match x with DService q => [q] | _ => [] end.
Definition file_of (x : descriptor) : list (N * N) := match x with DFile q ino => [(q, ino)] | _ => [] end.
Definition own_of (x : descriptor) : list descriptor :=
  match x with DKeepalive | DStatus | DMapper | DDatabase => [x] | _ => [] end.

Lemma kinds_length : forall xs, List.length xs =
  (List.length (flat_map own_of xs) + List.length (flat_map query_of xs) + List.length (flat_map listener_of xs) +
   List.length (flat_map client_of xs) + List.length (flat_map service_of xs) + List.length (flat_map file_of xs))%nat.
Proof.
  induction xs as [|x xs IH]; [reflexivity|]. cbn [flat_map]. rewrite !app_length. cbn [List.length]. rewrite IH.
  destruct x; cbn [own_of query_of listener_of client_of service_of file_of List.length]; lia.
Qed.

Lemma kind_list : forall A (f : descriptor -> list A) (g : A -> descriptor) xs, NoDup xs ->
  (forall x a, In a (f x) <-> x = g a) -> (forall x, (List.length (f x) <= 1)%nat) ->
  NoDup (flat_map f xs) /\ forall a, In a (flat_map f xs) <-> In (g a) xs.
Proof.
  intros A f g xs N F L.
  assert (M : forall ys a, In a (flat_map f ys) <-> In (g a) ys).
  { intros ys a. rewrite in_flat_map. split; [intros (x & I & J); apply F in J; subst; exact I|].
    intros I. exists (g a). split; [exact I|]. apply F. reflexivity. }
  split; [|apply M]. induction N as [|x xs I N IH]; [constructor|]. cbn [flat_map]. apply nodup_apart; [|exact IH|].
  - specialize (L x). destruct (f x) as [|a [|b l]]; [constructor|repeat constructor; intros []|cbn in L; lia].
  - intros a J K. apply F in J. apply M in K. subst. contradiction.
Qed.

Ltac kind :=
  let x := fresh in intros x; destruct x; intros a; try destruct a as [? ?]; cbn; (split;
    [let E := fresh in intros E; try (destruct E as [E|[]]; congruence); destruct E
    |let E := fresh in intros E; first [discriminate E|left; congruence]]).

Lemma same_length : forall A (a b : list A), NoDup a -> NoDup b -> (forall x, In x a <-> In x b) -> List.length a = List.length b.
Proof.
  intros A a b Na Nb H. apply Nat.le_antisymm; apply NoDup_incl_length; try assumption; intros x I; apply H; exact I.
Qed.

(** Descriptors are neither lost nor forgotten: those open are the process's own
    ports, the connections to port 12523, one for every port given out whose user
    is not done, one more where a client is being served, and the files open. *)
Theorem C102_count : forall e p h d ka st mp db is given ended given' ended' n,
  let s := fst (sys_run e p h d is (system_start ka st mp db)) in
  orderly e p h d tcp_held tcp_given (system_start ka st mp db) is given ended ->
  orderly e p h d udp_held udp_given (system_start ka st mp db) is given' ended' ->
  has_open s n ->
  exists cs ss fs,
    NoDup cs /\ (forall c, In c cs <-> sy_query s c = true) /\
    NoDup ss /\ (forall q, In q ss <-> exists buffer, sy_db s q = Serving buffer) /\
    NoDup fs /\ (forall q ino, In (q, ino) fs <-> file_open s q ino) /\
    (n + ended + ended' =
     own_ports s + given + given' + List.length cs + List.length ss + List.length fs)%nat.
Proof.
  intros e p h d ka st mp db is given ended given' ended' n s O1 O2 (xs & N & X & <-).
  destruct (C82_database_ports _ _ _ _ _ _ _ _ _ _ _ O1) as (ps & N1 & P1 & _ & -> & _). fold s in P1.
  destruct (C82_service_ports _ _ _ _ _ _ _ _ _ _ _ O2) as (qs & N2 & P2 & _ & -> & _). fold s in P2.
  destruct (kind_list _ query_of DQuery xs N) as [Nq Mq]; [kind|intros []; cbn; lia|].
  destruct (kind_list _ listener_of DListener xs N) as [Nl Ml]; [kind|intros []; cbn; lia|].
  destruct (kind_list _ client_of DClient xs N) as [Nc Mc]; [kind|intros []; cbn; lia|].
  destruct (kind_list _ service_of DService xs N) as [Ns Ms]; [kind|intros []; cbn; lia|].
  destruct (kind_list _ file_of (fun x => DFile (fst x) (snd x)) xs N) as [Nf Mf]; [kind|intros []; cbn; lia|].
  exists (flat_map query_of xs), (flat_map client_of xs), (flat_map file_of xs).
  split; [exact Nq|]. split; [intros c; rewrite Mq, X; reflexivity|].
  split; [exact Nc|]. split.
  { intros q. rewrite Mc, X. cbn [open_in]. destruct (sy_db s q) as [| |b|]; split;
      try discriminate; try (intros [? ?]; discriminate); [intros _; eexists; reflexivity|reflexivity]. }
  split; [exact Nf|]. split.
  { intros q ino. rewrite Mf, X. cbn [fst snd open_in]. unfold file_open. split.
    - destruct (sy_udp s q) as [|v|]; try discriminate. destruct (sv_nfs v) as [nf|] eqn:E; [|discriminate].
      destruct (hm_get ino (nf_files nf)) as [f|] eqn:G; [|discriminate]. intros _. exists v, nf, f. auto.
    - intros (v & nf & f & -> & -> & ->). reflexivity. }
  rewrite (kinds_length xs).
  assert (Ow : List.length (flat_map own_of xs) = own_ports s).
  { rewrite <- own_list_length. apply same_length; [|apply own_list_nodup|].
    - clear - N. induction N as [|x xs I N IH]; [constructor|]. cbn [flat_map]. apply nodup_apart; [|exact IH|].
      + destruct x; cbn; repeat constructor; intros [].
      + intros y J K. apply in_flat_map in K. destruct K as (z & K & L).
        assert (y = x) by (destruct x; cbn in J; intuition congruence).
        assert (y = z) by (destruct z; cbn in L; intuition congruence). congruence.
    - intros x. rewrite in_flat_map. unfold own_list. rewrite filter_In. split.
      + intros (y & I & J). assert (y = x) by (destruct y; cbn in J; intuition congruence). subst y.
        split; [destruct x; cbn in J; intuition (subst; cbn; auto)|apply X; exact I].
      + intros [I J]. exists x. split; [apply X; exact J|]. cbn in I. intuition (subst; cbn; auto). }
  assert (Li : List.length (flat_map listener_of xs) = List.length ps)
    by (apply same_length; [exact Nl|exact N1|]; intros q; rewrite Ml, X, P1; reflexivity).
  assert (Se : List.length (flat_map service_of xs) = List.length qs)
    by (apply same_length; [exact Ns|exact N2|]; intros q; rewrite Ms, X, P2; reflexivity).
  lia.
Qed.
Print Assumptions C102_count.

(** A process at its limit announces nothing, links with no device, answers no
    GETPORT and starts no service, accepts no connection to port 12523 and gives
    out no port there. *)
Theorem C102_full_refuses : forall e p h d limit s i, has_open s limit -> obeys e p h d limit s [FdStep i] ->
  forall o, In o (snd (sys_step e p h d i s)) ->
  match o with
  | OutWorld (Sent _ _ _ _) | OutMapper _ | OutAccept _ | OutQuery _ _ => False
  | _ => True
  end.
Proof.
  intros e p h d limit s i H O o I. inversion O as [|? ? ? W _ _]; subst. specialize (W limit i H eq_refl). clear O.
  destruct (w_running (sy_world s)) eqn:R; [|unfold sys_step in I; rewrite R in I; destruct I].
  pose proof (step_shape e p h d i s R) as S. destruct i as [j|y|j|q j|ws|c chunk [port|]|c|y].
  - rewrite S in I. cbn [snd] in I. apply in_map_iff in I. destruct I as (x & <- & I). destruct x as [a b q x| |]; trivial.
    unfold step in I. rewrite R in I. destruct j as [dg ifs| |ok|ok].
    + destruct (w_listening (sy_world s)); [|destruct I]. unfold keepalive_turn in I.
      destruct (ka_receive dg) as [pk| |]; try (destruct I; fail).
      destruct (event_status pk) as [[pn ip]|]; [|destruct I]. destruct (w_poisoned (sy_world s)); [destruct I|].
      destruct (handle_keepalive_status _ _ _ _ _) as [[st es]| |]; [|destruct I..].
      cbn [snd] in I. apply in_map_iff in I. destruct I as (? & X & _). discriminate X.
    + destruct I.
    + destruct ok; [cbn in W; specialize (W eq_refl); lia|].
      destruct (w_broadcasting (sy_world s)); [|destruct I]. unfold broadcast_turn in I.
      destruct (w_poisoned (sy_world s)); [destruct I|]. destruct (st_address (w_state (sy_world s))); destruct I.
    + assert (N : forall k, ok k = false) by (intros k; destruct (ok k) eqn:E; [cbn in W; specialize (W k E); lia|reflexivity]).
      unfold app_turn in I. destruct (w_queue (sy_world s)) as [|[|] q']; [destruct I| |].
      * unfold initiate_linking in I. cbn [w_poisoned w_state] in I.
        destruct (w_poisoned (sy_world s)); [destruct I as [I|[]]; discriminate I|].
        destruct (st_address _); [|destruct I as [I|[]]; discriminate I].
        cbn [negotiation map app broadcast_messages] in I. unfold send_broadcast_payload in I. rewrite N in I.
        destruct I as [I|[]]; discriminate I.
      * destruct I as [I|[]]; discriminate I.
  - rewrite S in I. destruct (sy_status s); [|destruct I]. destruct (status_turn y); [|destruct I..].
    cbn [snd] in I. apply in_map_iff in I. destruct I as (x & <- & _). exact Logic.I.
  - rewrite S in I. destruct (sy_mapper s); [|destruct I]. cbn [snd] in I.
    destruct (pi_port j) eqn:P; [cbn in W; assert (limit < limit)%nat by (apply W; congruence); lia|].
    unfold pm_turn in I. rewrite P in I. destruct (codec_decode (pi_datagram j)) as [[m|]| |]; destruct I.
  - destruct S as [_ S]. rewrite S in I. unfold udp_turn in I. destruct (sy_udp s q) as [|v|[|]]; try (destruct I; fail).
    + destruct (nfs_turn e j v). cbn [snd] in I. apply in_map_iff in I. destruct I as (x & <- & _). exact Logic.I.
    + destruct (ms_turn _). cbn [snd] in I. apply in_map_iff in I. destruct I as (x & <- & _). exact Logic.I.
  - rewrite S in I. destruct (sy_joined s); [|destruct I]. destruct (sy_mapper s); [|destruct I]. cbn [snd] in I. cbn in W.
    destruct (accepted ws); [destruct I|cbn in W; lia].
  - assert (limit < limit)%nat by (apply W; discriminate). lia.
  - rewrite S in I. destruct (sy_query s c); destruct I.
  - rewrite S in I. destruct I.
  - assert (Z : forall l : list db_output, In o (map OutDb l) -> match o with OutWorld (Sent _ _ _ _) | OutMapper _ | OutAccept _ | OutQuery _ _ => False | _ => True end)
      by (intros l J; apply in_map_iff in J; destruct J as (x & <- & _); exact Logic.I).
    destruct y; rewrite S in I; [destruct I| | |]; cbn [snd] in I; apply Z in I; exact I.
Qed.
Print Assumptions C102_full_refuses.

(** Nor does it answer a call that looks up a name, though what is open already
    can still be read. *)
Theorem C102_full_lookup : forall e p h d limit s port j, has_open s limit ->
  obeys e p h d limit s [FdStep (SysUdp port j)] -> bytes_ok (ni_datagram j) -> asks_lookup j ->
  snd (sys_step e p h d (SysUdp port j) s) = [].
Proof.
  intros e p h d limit s port j H O B (m & c & l & C & Bo & Pr). inversion O as [|? ? ? W _ _]; subst. specialize (W limit _ H eq_refl). clear O.
  cbn in W. assert (N : forall path, os_open (ni_os j) path = None)
    by (intros path; destruct (os_open (ni_os j) path) eqn:E; [exfalso; specialize (W path ltac:(congruence)); lia|reflexivity]).
  destruct (w_running (sy_world s)) eqn:R; [|unfold sys_step; rewrite R; reflexivity].
  destruct (step_shape e p h d (SysUdp port j) s R) as [_ S]. rewrite S.
  assert (D : codec_decode (ni_datagram j) = Ok (Some m)).
  { destruct (codec_cases _ B) as [(m' & c' & E & C' & _)|[(_ & _ & X)|(_ & X & _)]]; [|destruct (X m C)..].
    rewrite E, (call_functional _ _ _ C C'). reflexivity. }
  unfold udp_turn. destruct (sy_udp s port) as [|v|[|]]; [reflexivity| | |reflexivity].
  - unfold nfs_turn. destruct (sv_nfs v); [|reflexivity]. rewrite D. cbn iota beta. rewrite Bo, Pr. unfold call_procedure, lookup, get_fhandle.
    destruct (os_stat _ _); [|reflexivity]. rewrite N. reflexivity.
  - unfold ms_turn. cbn [mi_datagram]. rewrite D. cbn iota beta. unfold rpc_procedure_router. rewrite Bo. cbn iota beta. unfold on_event. rewrite Pr. reflexivity.
Qed.
Print Assumptions C102_full_lookup.

(** At the limit the first call that reaches the port mapper, whatever it asks,
    ends it; and then port 12523 goes too. *)
Theorem C102_full_ends_mapper : forall e p h d limit s j m, has_open s limit ->
  obeys e p h d limit s [FdStep (SysMapper j)] -> w_running (sy_world s) = true ->
  bytes_ok (pi_datagram j) -> call_says (pi_datagram j) m ->
  let s' := fst (sys_step e p h d (SysMapper j) s) in
  sy_mapper s' = false /\ snd (sys_step e p h d (SysMapper j) s) = [] /\
  forall ws, sy_joined (fst (sys_step e p h d (SysJoin ws) s')) = false.
Proof.
  intros e p h d limit s j m H O R B C s'. inversion O as [|? ? ? W _ _]; subst. specialize (W limit _ H eq_refl). clear O.
  cbn in W. assert (P : pi_port j = None)
    by (destruct (pi_port j); [assert (limit < limit)%nat by (apply W; congruence); lia|reflexivity]).
  pose proof (step_shape e p h d (SysMapper j) s R) as S. cbn beta iota in S.
  assert (D : codec_decode (pi_datagram j) = Ok (Some m)).
  { destruct (codec_cases _ B) as [(m' & c' & E & C' & _)|[(_ & _ & X)|(_ & X & _)]]; [|destruct (X m C)..].
    rewrite E, (call_functional _ _ _ C C'). reflexivity. }
  assert (T : pm_turn j = (false, [])) by (unfold pm_turn; rewrite D, P; reflexivity).
  assert (M : sy_mapper s' = false).
  { unfold s'. rewrite S. destruct (sy_mapper s) eqn:M; [|exact M]. rewrite T. reflexivity. }
  split; [exact M|]. split.
  - rewrite S. destruct (sy_mapper s); [|reflexivity]. rewrite T. reflexivity.
  - intros ws. assert (R' : w_running (sy_world s') = true) by (unfold s'; rewrite S; destruct (sy_mapper s); exact R).
    pose proof (step_shape e p h d (SysJoin ws) s' R') as J. cbn beta iota in J. rewrite J.
    destruct (sy_joined s') eqn:Jo; [|exact Jo]. rewrite M. reflexivity.
Qed.
Print Assumptions C102_full_ends_mapper.

(** At the limit the next announcement, once the own address is known, leaves the
    shared state unusable; and a request to link ends the process. *)
Theorem C102_full_ends_discovery : forall e p h d limit s, has_open s limit -> w_running (sy_world s) = true ->
  (forall ok a, obeys e p h d limit s [FdStep (SysWorld (BroadcastTurn ok))] ->
     w_broadcasting (sy_world s) = true -> st_address (w_state (sy_world s)) = Some a ->
     w_poisoned (sy_world (fst (sys_step e p h d (SysWorld (BroadcastTurn ok)) s))) = true) /\
  (forall ok q, obeys e p h d limit s [FdStep (SysWorld (AppTurn ok))] -> w_queue (sy_world s) = InitiateLink :: q ->
     w_running (sy_world (fst (sys_step e p h d (SysWorld (AppTurn ok)) s))) = false).
Proof.
  intros e p h d limit s H R. split.
  - intros ok a O Br Ad. inversion O as [|? ? ? W _ _]; subst. specialize (W limit _ H eq_refl). cbn in W.
    destruct ok; [specialize (W eq_refl); lia|].
    rewrite (step_shape e p h d (SysWorld (BroadcastTurn false)) s R). cbn [fst with_world sy_world].
    unfold step. rewrite R, Br. unfold broadcast_turn. destruct (w_poisoned (sy_world s)) eqn:P; [exact P|]. rewrite Ad. reflexivity.
  - intros ok q O Q. inversion O as [|? ? ? W _ _]; subst. specialize (W limit _ H eq_refl). cbn in W.
    assert (N : forall k, ok k = false) by (intros k; destruct (ok k) eqn:E; [specialize (W k E); lia|reflexivity]).
    rewrite (step_shape e p h d (SysWorld (AppTurn ok)) s R). cbn [fst with_world sy_world].
    unfold step. rewrite R. unfold app_turn. rewrite Q. unfold initiate_linking. cbn [w_poisoned w_state].
    destruct (w_poisoned (sy_world s)); [reflexivity|]. destruct (st_address _); [|reflexivity].
    cbn [negotiation map app broadcast_messages]. unfold send_broadcast_payload. rewrite N. reflexivity.
Qed.
Print Assumptions C102_full_ends_discovery.

Section Getports.
Variables (e : endian) (p : profile) (h : hash_order) (d : database).
Notation sstep := (sys_step e p h d).
Notation srun := (sys_run e p h d).

Lemma getport_given : forall j s, bytes_ok (pi_datagram j) -> w_running (sy_world s) = true ->
  sy_mapper (fst (sstep (SysMapper j) s)) = true ->
  (asks_port j -> List.length (udp_given (SysMapper j) (snd (sstep (SysMapper j) s))) = 1%nat) /\
  (~ asks_port j -> udp_given (SysMapper j) (snd (sstep (SysMapper j) s)) = []).
Proof.
  intros j s B R M. pose proof (step_shape e p h d (SysMapper j) s R) as S. cbn beta iota in S. rewrite S in *.
  destruct (sy_mapper s) eqn:Ms; [|cbn in M; congruence]. cbn [fst snd with_mapper sy_mapper] in *.
  destruct (pm_turn_cases j B) as [(_ & _ & A)|(F & _)]; [|congruence].
  destruct A as [(m & c & port & C & Bo & P & ->)|(N & ->)].
  - unfold udp_given, pm_starts. split.
    + intros (m' & c' & g & C' & Bo' & Pr). rewrite (call_functional _ _ _ C' C) in Bo'. rewrite Bo in Bo'.
      injection Bo' as <-. rewrite Pr. destruct (gp_program g); reflexivity.
    + intros N. destruct (ca_procedure c) eqn:Pr; try reflexivity. exfalso. apply N. exists m, c, g. auto.
  - split; [|reflexivity]. intros (m & c & g & C & _). destruct (N m C).
Qed.

Lemma mapper_only_stops : forall is s, sy_mapper (fst (srun is s)) = true -> sy_mapper s = true.
Proof.
  induction is as [|i is IH]; intros s M; [exact M|]. rewrite (srun_cons e p h d) in M. cbn [fst] in M. apply IH in M.
  destruct (w_running (sy_world s)) eqn:R; [|unfold sys_step in M; rewrite R in M; exact M].
  pose proof (mapper_step e p h d i s R) as E. destruct i; try (rewrite (proj1 E) in M; exact M).
  rewrite (proj1 E) in M. apply andb_prop in M. apply M.
Qed.

Lemma none_given : forall i l, mapper_outputs l = [] -> udp_given i l = [].
Proof.
  intros i l. unfold udp_given, mapper_outputs. induction l as [|x l IH]; [reflexivity|]. cbn [flat_map].
  intros E. apply app_eq_nil in E. destruct E as [E1 E2]. rewrite (IH E2), app_nil_r. destruct x; try reflexivity; discriminate E1.
Qed.

Lemma getports_given : forall s is given ended, orderly e p h d udp_held udp_given s is given ended ->
  forall js, w_running (sy_world (fst (srun is s))) = true -> sy_mapper (fst (srun is s)) = true ->
  Forall (fun j => bytes_ok (pi_datagram j)) (mapper_inputs is) ->
  those asks_port (mapper_inputs is) js -> given = List.length js.
Proof.
  intros s is given ended O. induction O as [s|s i is given ended Hf O IH]; intros js R M B T.
  - inversion T. reflexivity.
  - pose proof (running_before e p h d i is s R) as [R0 R1]. rewrite (srun_cons e p h d) in M. cbn [fst] in M.
    pose proof (mapper_only_stops is _ M) as M0.
    assert (Oth : mapper_inputs (i :: is) = mapper_inputs is -> udp_given i (snd (sstep i s)) = [] ->
      (List.length (udp_given i (snd (sstep i s))) + given)%nat = List.length js).
    { intros X Y. rewrite X in B, T. rewrite Y. cbn [List.length Nat.add]. apply IH; assumption. }
    destruct i as [j|y|j|q j|ws|c chunk o|c|y].
    3:{ change (mapper_inputs (SysMapper j :: is)) with (j :: mapper_inputs is) in *. inversion B as [|? ? B0 B1]; subst.
        destruct (getport_given j s B0 R0 M0) as [G1 G2]. inversion T as [|? ? r A T1|? ? r A T1]; subst.
        - rewrite (G1 A). cbn [List.length Nat.add]. f_equal. apply IH; assumption.
        - rewrite (G2 A). cbn [List.length Nat.add]. apply IH; assumption. }
    all: apply Oth; [reflexivity|].
    all: apply none_given.
    all: match goal with |- mapper_outputs (snd (sys_step _ _ _ _ ?i ?t)) = [] =>
      match goal with R : w_running (sy_world t) = true |- _ => exact (proj2 (mapper_step _ _ _ _ i t R)) end end.
Qed.
End Getports.

(** Devices that keep asking for ports stop the port mapper: once more calls have
    asked for one than the limit allows, beyond the services that have ended, it
    no longer runs. *)
Theorem C102_getports_stop_mapper : forall e p h d mp db limit xs given ended js, (4 <= limit)%nat ->
  let start := system_start true true mp db in
  obeys e p h d limit start xs -> process_runs (happens xs) ->
  orderly e p h d udp_held udp_given start (happens xs) given ended ->
  Forall (fun j => bytes_ok (pi_datagram j)) (mapper_inputs (happens xs)) ->
  those asks_port (mapper_inputs (happens xs)) js ->
  (List.length js + 1 > limit + ended)%nat ->
  sy_mapper (fst (sys_run e p h d (happens xs) start)) = false.
Proof.
  intros e p h d mp db limit xs given ended js L start O R Or B T K.
  destruct (sy_mapper (fst (sys_run e p h d (happens xs) start))) eqn:M; [exfalso|reflexivity].
  assert (R' : w_running (sy_world (fst (sys_run e p h d (happens xs) start))) = true) by (unfold start; rewrite (start_runs e p h d mp db); exact R).
  pose proof (getports_given e p h d _ _ _ _ Or js R' M B T) as G.
  destruct (C102_bounded e p h d true true mp db limit xs L O) as (n & H & Bn). fold start in H.
  destruct (C82_service_ports _ _ _ _ _ _ _ _ _ _ _ Or) as (qs & N2 & P2 & _ & E2 & _). fold start in P2.
  set (s := fst (sys_run e p h d (happens xs) start)) in *.
  assert (Z : (List.length (DMapper :: map DService qs) <= n)%nat).
  { apply (sub_count s n); [exact H| |].
    - constructor; [intros I; apply in_map_iff in I; destruct I as (a & X & _); discriminate X|].
      apply FinFun.Injective_map_NoDup; [intros a b X; congruence|exact N2].
    - intros x [<-|I]; [exact M|]. apply in_map_iff in I. destruct I as (a & <- & I). apply P2 in I. exact I. }
  cbn [List.length] in Z. rewrite map_length in Z. lia.
Qed.
Print Assumptions C102_getports_stop_mapper.

(** A process with six descriptors: its four ports, a service and one file. The
    next file is on the disk and not answered for; then an announcement leaves the
    shared state unusable, and linking ends the process. *)
Definition full_os : os := mkOs (os_stat demo) (fun _ => None) (os_content demo) (os_fstat demo).
Definition fd_filling : list fd_input :=
  [FdStep (SysWorld (KaDatagram (status_datagram "XDJ-700" 3 192 168 10 52) one_iface));
   FdStep (SysMapper session_nfs); FdStep (SysUdp 4001 (fst open_a))].
Definition fd_full : list fd_input :=
  [FdStep (SysUdp 4001 (fst (demo_lookup full_os 2 (lit "/b/x") (repeat 0 32))));
   FdStep (SysWorld (BroadcastTurn false)); FdStep (SysWorld (AppTurn (fun _ => false))); FdStep (SysMapper (mkPmIn getport_nfs 1 None true));
   FdStep (SysWorld (AppTurn (fun _ => false)))].

Definition at_most (s : system) (n : nat) : Prop := exists m, has_open s m /\ (m <= n)%nat.
Lemma at_most_step : forall e p h d s i n b, at_most s n -> (n <= b)%nat -> (forall m, (m <= n)%nat -> within b m s i) ->
  at_most (fst (sys_run e p h d (fd_effects (FdStep i)) s)) b.
Proof.
  intros e p h d s i n b (m & H & L) B W. cbn [fd_effects]. rewrite (srun_cons e p h d). cbn [fst sys_run].
  destruct (step_opens e p h d b m s i (W m L)) as (added & A & Z); [lia|].
  destruct (has_open_grows _ _ _ _ H A) as (k & Hk & Lk). exists k. split; [exact Hk|lia].
Qed.
Lemma obeys_one : forall e p h d limit s i xs n, at_most s n -> (forall m, (m <= n)%nat -> within limit m s i) ->
  obeys e p h d limit (fst (sys_run e p h d (fd_effects (FdStep i)) s)) xs -> obeys e p h d limit s (FdStep i :: xs).
Proof.
  intros e p h d limit s i xs n (m & H & L) W O. apply obeys_cons; [|discriminate|exact O].
  intros k j Hk X. injection X as <-. apply W. rewrite (has_open_unique _ _ _ Hk H). exact L.
Qed.

Example C102_case :
  let start := system_start true true true true in
  let run xs s := sys_run Little Checked reverse_order example_found_db (happens xs) s in
  obeys Little Checked reverse_order example_found_db 6 start (fd_filling ++ fd_full) /\
  has_open (fst (run fd_filling start)) 6 /\
  snd (run fd_full (fst (run fd_filling start))) = [[]; []; [OutWorld (Took DeviceChange)]; []; [OutWorld (Took InitiateLink)]] /\
  asks_lookup (fst (demo_lookup full_os 2 (lit "/b/x") (repeat 0 32))) /\
  w_running (sy_world (fst (run fd_full (fst (run fd_filling start))))) = false.
Proof.
  cbv zeta.
  assert (A0 : at_most (system_start true true true true) 4).
  { destruct (start_open true true true true) as (n & H & L). exists n. auto. }
  assert (O : obeys Little Checked reverse_order example_found_db 6 (system_start true true true true) (fd_filling ++ fd_full)).
  { unfold fd_filling, fd_full. cbn [app].
    apply (obeys_one _ _ _ _ _ _ _ _ 4 A0); [intros; exact I|].
    assert (A1 := at_most_step Little Checked reverse_order example_found_db _
      (SysWorld (KaDatagram (status_datagram "XDJ-700" 3 192 168 10 52) one_iface)) 4 4 A0 ltac:(lia) ltac:(intros; exact I)).
    apply (obeys_one _ _ _ _ _ _ _ _ 4 A1); [intros m L _; lia|].
    assert (A2 := at_most_step Little Checked reverse_order example_found_db _ (SysMapper session_nfs) 4 5 A1 ltac:(lia) ltac:(intros m L _; lia)).
    apply (obeys_one _ _ _ _ _ _ _ _ 5 A2); [intros m L path _; lia|].
    assert (A3 := at_most_step Little Checked reverse_order example_found_db _ (SysUdp 4001 (fst open_a)) 5 6 A2 ltac:(lia) ltac:(intros m L path _; lia)).
    set (s3 := fst (sys_run _ _ _ _ _ _)) in A3 at 1 |- *. clearbody s3. clear A0 A1 A2.
    repeat (apply obeys_cons; [intros n i Hn X; injection X as <-; cbn [within pi_port fst demo_lookup ni_os os_open full_os]; try discriminate; congruence|discriminate|]).
    apply obeys_nil. }
  split; [exact O|]. split.
  - assert (O3 : obeys Little Checked reverse_order example_found_db 6 (system_start true true true true) fd_filling).
    { unfold fd_filling in *. cbn [app] in O. do 3 (inversion O as [|? ? ? W Rf O1]; subst; clear O; rename O1 into O; apply obeys_cons; [exact W|exact Rf|]; clear W Rf).
      apply obeys_nil. }
    destruct (C102_bounded Little Checked reverse_order example_found_db true true true true 6 fd_filling ltac:(lia) O3) as (n & H & L).
    replace 6%nat with n; [exact H|]. apply Nat.le_antisymm; [exact L|].
    apply (sub_count _ n [DKeepalive; DStatus; DMapper; DDatabase; DService 4001; DFile 4001 7] H).
    + repeat constructor; cbn; intuition discriminate.
    + intros x I. repeat (destruct I as [<-|I]; [vm_compute; reflexivity|]). destruct I.
  - split; [vm_compute; reflexivity|]. split; [|vm_compute; reflexivity].
    destruct open_b_heard as [_ (m & c & C & B & _ & P)]. exists m, c. eexists. split; [exact C|]. split; [exact B|symmetry; exact P].
Qed.

(** Five calls to a process with five descriptors: the first gets a service, the
    second ends the port mapper. *)
Example C102_case_getports :
  let call port := SysMapper (mkPmIn getport_nfs 1 port true) in
  let xs := map FdStep (call (Some 4001) :: repeat (call None) 4) in
  let start := system_start true true true true in
  obeys Little Checked reverse_order example_found_db 5 start xs /\ process_runs (happens xs) /\
  orderly Little Checked reverse_order example_found_db udp_held udp_given start (happens xs) 1 0 /\
  exists js, those asks_port (mapper_inputs (happens xs)) js /\ (List.length js + 1 > 5 + 0)%nat.
Proof.
  cbv zeta. split; [|split; [vm_compute; reflexivity|split]].
  - destruct (start_open true true true true) as (n & H & L). cbn [map repeat].
    apply (obeys_one _ _ _ _ _ _ _ _ 4); [exists n; auto|intros m Lm _; lia|].
    set (s := fst (sys_run _ _ _ _ _ _)). clearbody s.
    repeat (apply obeys_cons; [intros k i Hk X; injection X as <-; cbn [within pi_port]; congruence|discriminate|]).
    apply obeys_nil.
  - eapply orderly_eq; [|shelve..]. cbn [map repeat happens flat_map fd_effects app].
    repeat (apply ord_step; [intros port I; vm_compute in I; repeat (destruct I as [<-|I]; [split; vm_compute; reflexivity|]); destruct I|]);
    try apply ord_nil.
    Unshelve. all: vm_compute; reflexivity.
  - cbn [map repeat happens flat_map fd_effects app mapper_inputs].
    assert (G : exists m c g, call_says getport_nfs m /\ rpc_body m = Call c /\ ca_procedure c = PortmapGetport g).
    { assert (B : bytes_ok getport_nfs) by (apply demo_bytes; vm_compute; reflexivity).
      destruct (codec_cases getport_nfs B) as [[m [c [E [C Bc]]]]|[[E _]|[[E|E] _]]]; try (vm_compute in E; discriminate E).
      assert (X : match codec_decode getport_nfs with
                  | Ok (Some m) => match rpc_body m with Call c => match ca_procedure c with PortmapGetport _ => true | _ => false end | _ => false end
                  | _ => false end = true) by (vm_compute; reflexivity).
      rewrite E, Bc in X. exists m, c. destruct (ca_procedure c) eqn:P; try discriminate X. eexists. auto. }
    eexists. split; [repeat (apply those_yes; [exact G|]); apply those_nil|cbn [List.length]; lia].
Qed.

(** The same process up to its limit: its file service has opened one file. *)
Example C102_case_files :
  let start := system_start true true true true in
  let s := fst (sys_run Little Checked reverse_order example_found_db (happens (firstn 1 fd_filling)) start) in
  let s' := fst (sys_step Little Checked reverse_order example_found_db (SysMapper session_nfs) s) in
  fd_filling = firstn 1 fd_filling ++ FdStep (SysMapper session_nfs) :: skipn 2 fd_filling /\
  obeys Little Checked reverse_order example_found_db 6 start fd_filling /\ process_runs (happens fd_filling) /\
  starts (snd (sys_step Little Checked reverse_order example_found_db (SysMapper session_nfs) s)) NfsService 4001 /\
  (forall os v, In os (snd (sys_run Little Checked reverse_order example_found_db (happens (skipn 2 fd_filling)) s')) -> ~ starts os v 4001) /\
  map fst [open_a] = udp_inputs 4001 (happens (skipn 2 fd_filling)) /\ history_ok [open_a] /\ never_killed Little [open_a] /\
  opens [] open_a 7 70 /\
  (1 + 1 + own_ports (fst (sys_run Little Checked reverse_order example_found_db (happens (skipn 2 fd_filling)) s')) = 6)%nat.
Proof.
  cbv zeta. split; [reflexivity|]. split.
  { destruct C102_case as [O _]. unfold fd_filling in *. cbn [app] in O.
    do 3 (inversion O as [|? ? ? W Rf O1]; subst; clear O; rename O1 into O; apply obeys_cons; [exact W|exact Rf|]; clear W Rf).
    apply obeys_nil. }
  split; [vm_compute; reflexivity|]. split; [left; vm_compute; reflexivity|]. split.
  { intros os v I. vm_compute in I. destruct I as [<-|[]]. intros [X|[]]; discriminate X. }
  split; [reflexivity|]. destruct (open_a_well Little) as (A & K & _). split; [exact A|]. split; [exact K|]. split; [|vm_compute; reflexivity].
  exists 1, (mkLookup (lit "/a/x") (repeat 0 32)), (demo_meta false 7 3). repeat split; vm_compute; reflexivity.
Qed.
