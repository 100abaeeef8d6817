(** C107, continued: the memory of a file service and of a database connection. *)

From Verif Require Import Base Unicode SUdp MPath MDb MDatabase MLib SLib MRpc SRpc MNetwork MRpcServer SRpcServer MNfs SNfs SRemember2 MPackets MStatus MServer MSystem SUp SHarm
  LBase LUnicode LUdp LDatabase PDatabase LLib LLib2 PLib LRpc LRpc2 PRpc LRpcServer LNfs LNfs2 PNfs LRemember2.
From Coq Require Import ZArith String Lia.
Open Scope list_scope.
Open Scope N_scope.

Lemma served_path : forall e hs n, history_ok hs -> sv_nfs (fst (served e hs)) = Some n ->
  inv hs n /\ nf_path n <> [].
Proof.
  intros e hs n H E. destruct (served_state e hs H) as [[_ (m & Em & I)]|[_ F]]; [|congruence].
  rewrite E in Em. injection Em as <-. split; [exact I|]. rewrite (proj1 I). apply position_nonempty.
Qed.

(** A file service remembers exactly this of its past: the folder it is in, which
    open file each handle stands for, and the one reply it could not send; or that
    it will never answer again.  Two histories are told apart by some future
    exactly if they differ in that. *)
Theorem C107_files : forall e hs1 hs2, history_ok hs1 -> history_ok hs2 ->
  (files_alike e hs1 hs2 <-> same_files e hs1 hs2).
Proof.
  intros e hs1 hs2 H1 H2. unfold files_alike, same_files.
  pose proof (fun n => served_path e hs1 n H1) as Q1. pose proof (fun n => served_path e hs2 n H2) as Q2.
  split.
  - intros H. destruct (alike_same e _ _ (fun n E => proj2 (Q1 n E)) (fun n E => proj2 (Q2 n E)) H) as [(S1 & S2 & [(n1 & n2 & E1 & E2 & (_ & _ & P & F) & U)|[N1 _]])|R];
      [left|contradiction|right; exact R].
    destruct (Q1 n1 E1) as [[P1 F1] _], (Q2 n2 E2) as [[P2 F2] _]. rewrite P1, P2 in P.
    repeat (split; [assumption|]). intros h f.
    split; intros (ino & Nm & L); exists ino; (split; [exact Nm|]).
    + apply F2. rewrite <- (F ino (proj1 Nm)). apply F1. exact L.
    + apply F1. rewrite (F ino (proj1 Nm)). apply F2. exact L.
  - intros [(S1 & S2 & U & P & F)|R] is B; apply run_same; try exact B; [left|right; exact R].
    destruct (sv_nfs (fst (served e hs1))) as [n1|] eqn:E1; [|destruct S1; contradiction].
    destruct (sv_nfs (fst (served e hs2))) as [n2|] eqn:E2; [|destruct S2; contradiction].
    destruct (Q1 n1 eq_refl) as [[P1 F1] N1], (Q2 n2 eq_refl) as [[P2 F2] N2].
    exists n1, n2. split; [reflexivity|]. split; [reflexivity|]. split; [|exact U].
    split; [exact N1|]. split; [exact N2|]. split; [rewrite P1, P2; exact P|]. intros ino L.
    destruct (handle_to_ok e ino L) as (_ & _ & Nm).
    assert (X : forall f, hm_get ino (nf_files n1) = Some f <-> hm_get ino (nf_files n2) = Some f).
    { intros f. rewrite F1, F2. specialize (F (handle_to e ino) f). unfold handle_of_file in F. split; intros Z.
      - destruct (proj1 F (ex_intro _ ino (conj Nm Z))) as (j & Nj & Lj). rewrite (names_functional _ _ _ _ Nm Nj). exact Lj.
      - destruct (proj2 F (ex_intro _ ino (conj Nm Z))) as (j & Nj & Lj). rewrite (names_functional _ _ _ _ Nm Nj). exact Lj. }
    destruct (hm_get ino (nf_files n1)) as [f|].
    + symmetry. apply X. reflexivity.
    + destruct (hm_get ino (nf_files n2)) as [f|]; [|reflexivity]. apply X. reflexivity.
Qed.
Print Assumptions C107_files.

(** ** Connections *)

Lemma process_cases : forall p h d c, bytes_ok c ->
  (exists k tx fs, is_request p c k tx 0x3000 fs) \/
  (exists r, forall st, process p h d st c = r) \/
  (exists a, forall st, process p h d st c = Ok (a, st)).
Proof.
  intros p h d c B. unfold process. destruct (len c =? 5); [right; right; eauto|].
  destruct (parse_message p c) as [[rest m]| |] eqn:E; [|right; right; eauto|right; left; eauto].
  destruct (parse_request p c rest m B E) as (k & tx & code & fs & Hr & ->).
  destruct (request_type_new code) eqn:Et; unfold controller, album_by_artist_controller; cbn [m_request_type handle_sequence_requests];
    try (right; right; eexists; intros st; reflexivity); try (right; left; eexists; intros st; reflexivity).
  left. exists k, tx, fs. assert (code = 0x3000) by (eapply type_code; [exact Et|reflexivity]). subst code. exact Hr.
Qed.

Definition render_alike (p : profile) (h : hash_order) (d : database) (s1 s2 : client_state) : Prop :=
  forall r k tx fs, is_request p r k tx 0x3000 fs -> serve p h d s1 [r] = serve p h d s2 [r].

Lemma render_alike_run : forall p h d more s1 s2, Forall bytes_ok more -> render_alike p h d s1 s2 ->
  serve p h d s1 more = serve p h d s2 more.
Proof.
  intros p h d more. induction more as [|c more IH]; intros s1 s2 B A; [reflexivity|]. inversion B; subst. cbn [serve].
  destruct (process_cases p h d c H1) as [(k & tx & fs & Hr)|[(r & E)|(a & E)]].
  - pose proof (A c k tx fs Hr) as F. cbn [serve] in F.
    assert (X : forall st, match process p h d st c with Ok (_, st') => st' = st | _ => True end).
    { intros st. rewrite (process_render p h d st c k tx fs Hr). destruct st as [s|]; [|reflexivity].
      destruct (page_of h d _ s); exact I || reflexivity. }
    pose proof (X s1) as X1. pose proof (X s2) as X2.
    destruct (process p h d s1 c) as [[a1 t1]| |], (process p h d s2 c) as [[a2 t2]| |]; try discriminate F; try reflexivity.
    subst t1 t2. injection F as ->. f_equal. apply IH; assumption.
  - rewrite !E. reflexivity.
  - rewrite !E. f_equal. apply IH; assumption.
Qed.

(** A database connection remembers exactly what a render request shows: after two
    histories it answers alike, whatever is asked from there on, exactly if it
    answers every single render request alike. *)
Theorem C107_connection : forall p h d history1 history2, PLib.answered p h d history1 -> PLib.answered p h d history2 ->
  ((forall more, Forall bytes_ok more ->
      answers_after (serve p h d None) history1 more = answers_after (serve p h d None) history2 more) <->
   (forall r kind tx fs, is_request p r kind tx 0x3000 fs ->
      answers_after (serve p h d None) history1 [r] = answers_after (serve p h d None) history2 [r])).
Proof.
  intros p h d h1 h2 [B1 L1] [B2 L2]. unfold answers_after.
  destruct (serve_all p h d h1 None L1) as (s1 & _ & E1). destruct (serve_all p h d h2 None L2) as (s2 & _ & E2).
  assert (A : forall (a b : list bytes) n, List.length a = n -> skipn n (a ++ b) = b).
  { intros a b n <-. rewrite skipn_app, skipn_all, Nat.sub_diag. reflexivity. }
  split.
  - intros H r k tx fs Hr. apply H. apply Forall_cons; [exact (proj1 Hr)|apply Forall_nil].
  - intros H more B. rewrite E1, E2, (A _ _ _ L1), (A _ _ _ L2). apply render_alike_run; [exact B|].
    intros r k tx fs Hr. specialize (H r k tx fs Hr). rewrite E1, E2, (A _ _ _ L1), (A _ _ _ L2) in H. exact H.
Qed.
Print Assumptions C107_connection.

(** The status service, the port mapper and the mount services remember nothing:
    in any two states of the process in which such a service works it answers a
    datagram alike; a mount service if the shared state is alike. *)
Theorem C107_nothing : forall e p h d s1 s2 q x i port j,
  (works s1 StatusService -> works s2 StatusService ->
   snd (sys_step e p h d (SysStatus x) s1) = snd (sys_step e p h d (SysStatus x) s2)) /\
  (works s1 PortMapper -> works s2 PortMapper ->
   snd (sys_step e p h d (SysMapper i) s1) = snd (sys_step e p h d (SysMapper i) s2) /\
   (In (PmStart q port) (snd (pm_turn i)) ->
    exists v, sy_udp (fst (sys_step e p h d (SysMapper i) s1)) port = fresh v /\
              sy_udp (fst (sys_step e p h d (SysMapper i) s2)) port = fresh v)) /\
  (w_running (sy_world s1) = true -> w_running (sy_world s2) = true ->
   sy_udp s1 port = MountUdp true -> sy_udp s2 port = MountUdp true ->
   w_poisoned (sy_world s1) = w_poisoned (sy_world s2) -> network_known s1 = network_known s2 ->
   snd (sys_step e p h d (SysUdp port j) s1) = snd (sys_step e p h d (SysUdp port j) s2)).
Proof.
  intros e p h d s1 s2 q x i port j. unfold works. split; [|split].
  - intros [R1 W1] [R2 W2]. unfold sys_step. rewrite R1, R2, W1, W2. destruct (status_turn x); reflexivity.
  - intros [R1 W1] [R2 W2]. unfold sys_step. rewrite R1, R2, W1, W2. destruct (pm_turn i) as [r outs]. cbn [fst snd]. split; [reflexivity|].
    intros I. cbn [with_mapper sy_udp]. generalize (sy_udp s1) as u1, (sy_udp s2) as u2. revert I. unfold start_services.
    enough (X : forall u1 u2, (exists v, u1 port = fresh v /\ u2 port = fresh v) \/ In (PmStart q port) outs ->
      exists v, fold_left (fun u o => match o with PmStart NfsService port => at_key u port (NfsUdp service_new)
        | PmStart ProgramService port => at_key u port (MountUdp true) | PmReply _ _ => u end) outs u1 port = fresh v /\
        fold_left (fun u o => match o with PmStart NfsService port => at_key u port (NfsUdp service_new)
        | PmStart ProgramService port => at_key u port (MountUdp true) | PmReply _ _ => u end) outs u2 port = fresh v) by (intros I u1 u2; apply X; right; exact I).
    induction outs as [|o outs IH]; intros u1 u2 C; [destruct C as [C|[]]; exact C|].
    cbn [fold_left]. apply IH. destruct C as [(v & V1 & V2)|[-> | C]]; [left|left|right; exact C].
    + destruct o as [[|] k|]; unfold at_key; [| |eauto]; destruct (port =? k); [exists NfsService; auto|eauto|exists ProgramService; auto|eauto].
    + destruct q; unfold at_key; rewrite N.eqb_refl; [exists NfsService|exists ProgramService]; auto.
  - intros R1 R2 U1 U2 P A. unfold network_known in A. unfold sys_step. rewrite R1, R2, U1, U2. unfold udp_turn. rewrite P, A.
    destruct (ms_turn _). reflexivity.
Qed.
Print Assumptions C107_nothing.

(** Whether a folder was looked up with a slash at the end is forgotten, which folder
    it was is not. *)
Definition looked (name : string) : history := [demo_lookup (only_path (fun _ => true)) 1 (lit name) (repeat 0 32)].
Lemma looked_ok : forall name, (String.length name <= 10)%nat ->
  forallb (fun b => b <? 256) (ni_datagram (fst (demo_lookup (only_path (fun _ => true)) 1 (lit name) (repeat 0 32)))) = true ->
  str_ok (lit name) -> word_ok (len (utf16le (lit name))) -> history_ok (looked name).
Proof.
  intros name L F S W. apply Forall_cons; [|apply Forall_nil]. apply demo_lookup_heard; try assumption; reflexivity.
Qed.
Example C107_case_files :
  history_ok (looked "a") /\ history_ok (looked "a/") /\ history_ok (looked "b") /\
  position (looked "a") <> position (looked "a/") /\
  same_files Little (looked "a") (looked "a/") /\ files_alike Little (looked "a") (looked "a/") /\
  ~ files_alike Little (looked "a") (looked "b").
Proof.
  assert (Ka : history_ok (looked "a")) by (apply looked_ok; try (vm_compute; reflexivity); [cbn; lia|]; repeat (apply Forall_cons; [vm_compute; auto|]); apply Forall_nil).
  assert (Kb : history_ok (looked "a/")) by (apply looked_ok; try (vm_compute; reflexivity); [cbn; lia|]; repeat (apply Forall_cons; [vm_compute; auto|]); apply Forall_nil).
  assert (Kc : history_ok (looked "b")) by (apply looked_ok; try (vm_compute; reflexivity); [cbn; lia|]; repeat (apply Forall_cons; [vm_compute; auto|]); apply Forall_nil).
  assert (A : files_alike Little (looked "a") (looked "a/")).
  { intros is B. apply run_same; [exact B|]. left. eexists. eexists. split; [vm_compute; reflexivity|]. split; [vm_compute; reflexivity|].
    split; [|vm_compute; reflexivity]. split; [discriminate|]. split; [discriminate|]. split; [vm_compute; reflexivity|]. reflexivity. }
  split; [exact Ka|]. split; [exact Kb|]. split; [exact Kc|]. split; [vm_compute; discriminate|].
  split; [apply C107_files; assumption|]. split; [exact A|].
  rewrite (C107_files Little _ _ Ka Kc). intros [(_ & _ & _ & P & _)|[N _]]; [vm_compute in P; discriminate|].
  apply N. split; [vm_compute; discriminate|]. intros to d E. vm_compute in E. discriminate.
Qed.

(** Which artist's albums were asked for is forgotten; that it was albums is not. *)
Example C107_case_connection :
  PLib.answered Checked reverse_order example_db [client_request 1 0x1102 [0; 0; 5]] /\
  PLib.answered Checked reverse_order example_db [client_request 2 0x1102 [0; 0; 6]] /\
  (forall more, Forall bytes_ok more ->
    answers_after (serve Checked reverse_order example_db None) [client_request 1 0x1102 [0; 0; 5]] more =
    answers_after (serve Checked reverse_order example_db None) [client_request 2 0x1102 [0; 0; 6]] more) /\
  answers_after (serve Checked reverse_order example_db None) [client_request 1 0x1102 [0; 0; 5]] [client_request 3 0x3000 []] <>
  answers_after (serve Checked reverse_order example_db None) [client_request 1 0x1002 []] [client_request 3 0x3000 []].
Proof.
  assert (B : forall c, forallb (fun b => b <? 256) c = true -> Forall bytes_ok [c]).
  { intros c F. apply Forall_cons; [apply demo_bytes; exact F|apply Forall_nil]. }
  assert (A1 : PLib.answered Checked reverse_order example_db [client_request 1 0x1102 [0; 0; 5]]) by (split; [apply B; vm_compute; reflexivity|vm_compute; reflexivity]).
  assert (A2 : PLib.answered Checked reverse_order example_db [client_request 2 0x1102 [0; 0; 6]]) by (split; [apply B; vm_compute; reflexivity|vm_compute; reflexivity]).
  split; [exact A1|]. split; [exact A2|]. split; [|vm_compute; discriminate].
  apply (C107_connection Checked reverse_order example_db _ _ A1 A2). intros r k tx fs Hr. unfold answers_after.
  assert (X : forall c s, process Checked reverse_order example_db None c = Ok s ->
    skipn (List.length [c]) (serve Checked reverse_order example_db None ([c] ++ [r])) = serve Checked reverse_order example_db (snd s) [r]).
  { intros c [a s] E. cbn [app serve]. rewrite E. reflexivity. }
  rewrite (X (client_request 1 0x1102 [0; 0; 5]) _ ltac:(vm_compute; reflexivity)), (X (client_request 2 0x1102 [0; 0; 6]) _ ltac:(vm_compute; reflexivity)).
  cbn [snd serve]. rewrite !(process_render _ _ _ _ r k tx fs Hr). reflexivity.
Qed.

(** A process that has served files to two callers answers the mapper's callers, and
    the status port, as one just started does. *)
From Verif Require Import PStranger PUp.
Example C107_case_nothing :
  let start := system_start true true true true in
  let after := fst (sys_run Little Checked reverse_order example_db up_history start) in
  works start StatusService /\ works after StatusService /\ works start PortMapper /\ works after PortMapper /\
  sy_udp after 4001 <> sy_udp start 4001 /\
  snd (sys_step Little Checked reverse_order example_db (SysMapper strange_getport) after) =
  snd (sys_step Little Checked reverse_order example_db (SysMapper strange_getport) start) /\
  snd (sys_step Little Checked reverse_order example_db (SysMapper strange_getport) start) <> [] /\
  sy_udp (fst (sys_step Little Checked reverse_order example_db (SysMapper strange_getport) after)) 4001 = fresh NfsService.
Proof.
  intros start after. repeat split; try (vm_compute; reflexivity); vm_compute; discriminate.
Qed.
