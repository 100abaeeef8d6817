(** Lemmas for C107: the memory of a file service. *)

From Verif Require Import Base Unicode SUdp MPath MDatabase MRpc SRpc MNetwork MRpcServer SRpcServer MNfs SNfs SRemember2
  LBase LUnicode LUdp LDatabase LRpc LRpc2 PRpc LRpcServer LNfs LNfs2 PNfs.
From Coq Require Import ZArith String Lia.
Open Scope list_scope.
Open Scope N_scope.

Lemma resolve_folder : forall p q, resolve p [] = resolve q [] -> forall name, resolve p name = resolve q name.
Proof.
  intros p q H name.
  assert (X : forall r n, (forall t, n <> 47 :: t) -> resolve r n = resolve r [] ++ n).
  { intros r n Nn. destruct n as [|b n]; [rewrite (app_nil_r (resolve r [])); reflexivity|].
    assert (B : b <> 47) by (intros ->; exact (Nn n eq_refl)).
    assert (E : resolve r (b :: n) = if last r 0 =? 47 then r ++ b :: n else r ++ 47 :: b :: n).
    { unfold resolve. destruct b as [|b]; [reflexivity|]. do 6 (destruct b as [b|b|]; try reflexivity). congruence. }
    rewrite E. cbn [resolve]. destruct (last r 0 =? 47); rewrite <- ?app_assoc; reflexivity. }
  destruct name as [|b n]; [exact H|]. destruct (N.eq_dec b 47) as [->|B]; [reflexivity|].
  rewrite (X p), (X q), H; [reflexivity| |]; intros t F; congruence.
Qed.

Lemma hm_get_insert : forall A k v j (m : table A), hm_get j (hm_insert k v m) = if j =? k then Some v else hm_get j m.
Proof.
  intros A k v j m. induction m as [|[a b] m IH]; cbn [hm_insert hm_get].
  - reflexivity.
  - destruct (N.eqb_spec k a) as [->|Na]; cbn [hm_get].
    + destruct (j =? a); reflexivity.
    + rewrite IH. destruct (N.eqb_spec j a) as [->|Nj]; [|reflexivity]. destruct (N.eqb_spec a k); [congruence|reflexivity].
Qed.

(** The handlers of the same memory. *)
Definition same_nfs (n1 n2 : nfs) : Prop :=
  nf_path n1 <> [] /\ nf_path n2 <> [] /\ resolve (nf_path n1) [] = resolve (nf_path n2) [] /\
  forall ino, ino < 2^64 -> hm_get ino (nf_files n1) = hm_get ino (nf_files n2).

Lemma lookup_same : forall o l n1 n2, same_nfs n1 n2 ->
  same_nfs (fst (lookup o l n1)) (fst (lookup o l n2)) /\ snd (lookup o l n1) = snd (lookup o l n2).
Proof.
  intros o l n1 n2 (P1 & P2 & E & F). unfold lookup.
  assert (Et : path_push (nf_path n1) (lk_filename l) = path_push (nf_path n2) (lk_filename l)).
  { rewrite !resolve_spec by assumption. apply resolve_folder. exact E. }
  assert (Nt : path_push (nf_path n2) (lk_filename l) <> []).
  { rewrite resolve_spec by assumption. apply resolve_nonempty. assumption. }
  rewrite Et. set (t := path_push (nf_path n2) (lk_filename l)) in *. clearbody t.
  destruct (os_stat o t) as [m|].
  2: { cbn [fst snd]. split; [|reflexivity]. unfold same_nfs, reset_path. cbn [nf_path nf_files]. repeat split; try discriminate; assumption. }
  unfold get_fhandle. destruct (os_open o t) as [f|]; cbn [of_option rbind].
  2: { cbn [fst snd]. split; [|reflexivity]. repeat split; assumption. }
  cbn [fw_inode fw_file fw_encoded nf_path nf_files].
  destruct (m_file m); cbn [fst snd]; (split; [|reflexivity]).
  - unfold same_nfs, reset_path. cbn [nf_path nf_files]. split; [discriminate|]. split; [discriminate|]. split; [reflexivity|].
    intros ino L. rewrite !hm_get_insert, (F ino L). reflexivity.
  - repeat split; assumption.
Qed.

Lemma handle_ino_small : forall e h, bytes_ok h -> len h = 32 -> handle_ino e h < 2^64.
Proof.
  intros e h B L. destruct (proj2 (names_inode_iff e h (handle_ino e h) B ltac:(unfold len in L; lia)) eq_refl) as [X _]. exact X.
Qed.

Lemma procedure_same : forall e o p n1 n2, same_nfs n1 n2 -> proc_ok p ->
  same_nfs (fst (call_procedure e o p n1)) (fst (call_procedure e o p n2)) /\
  snd (call_procedure e o p n1) = snd (call_procedure e o p n2).
Proof.
  intros e o p n1 n2 Sn K. destruct p; cbn [call_procedure fst snd]; try (split; [exact Sn|reflexivity]).
  - split; [exact Sn|]. destruct K as [B L]. unfold getattr.
    rewrite (proj2 (proj2 (proj2 Sn)) _ (handle_ino_small e _ B L)). reflexivity.
  - apply lookup_same. exact Sn.
  - split; [exact Sn|]. destruct K as (B & L & _). unfold nfs_do_read.
    rewrite (proj2 (proj2 (proj2 Sn)) _ (handle_ino_small e _ B L)). reflexivity.
Qed.

Definition same_service (s1 s2 : nfs_service) : Prop :=
  (exists n1 n2, sv_nfs s1 = Some n1 /\ sv_nfs s2 = Some n2 /\ same_nfs n1 n2 /\ sv_unsent s1 = sv_unsent s2) \/
  (~ speaks s1 /\ ~ speaks s2).

Lemma mute_cases : forall s, speaks s \/ sv_nfs s = None \/ exists to d, sv_unsent s = Some (to, d) /\ 65507 < len d.
Proof.
  intros s. unfold speaks. destruct (sv_nfs s) as [n|] eqn:E; [|auto]. destruct (sv_unsent s) as [[to d]|].
  - destruct (N.le_gt_cases (len d) 65507) as [L|L]; [left|right; right; eauto].
    split; [discriminate|]. intros a b F. congruence.
  - left. split; [discriminate|]. intros a b F. discriminate.
Qed.

Lemma mute_silent : forall e is s, ~ speaks s -> snd (nfs_run e is s) = map (fun _ => []) is.
Proof.
  intros e is s N.
  assert (Z : forall outs, In outs (snd (nfs_run e is s)) -> outs = []).
  { destruct (mute_cases s) as [Sp|[D|(to & d & U & L)]]; [contradiction| |exact (stuck_run e is s to d U L)].
    intros outs I. destruct (In_nth _ _ [] I) as (k & _ & <-). apply dead_run. exact D. }
  pose proof (run_length e is s) as L. revert L Z. generalize (snd (nfs_run e is s)). clear.
  induction is as [|i is IH]; intros [|o os] L Z; try discriminate; [reflexivity|].
  cbn [map]. f_equal; [apply Z; left; reflexivity|]. apply IH; [injection L; auto|]. intros x I. apply Z. right. exact I.
Qed.

Lemma mute_stays : forall e i s, ~ speaks s -> ~ speaks (fst (nfs_turn e i s)).
Proof.
  intros e i s N (A & B). destruct (mute_cases s) as [Sp|[D|(to & d & U & L)]]; [contradiction| |].
  - unfold nfs_turn in A. rewrite D in A. contradiction.
  - revert A B.
    assert (Sf : forall b, send_to b d = false).
    { intros b. unfold send_to, max_datagram. destruct (N.leb_spec (len d) 65507); [lia|reflexivity]. }
    assert (T : sv_unsent (fst (nfs_turn e i s)) = Some (to, d)).
    { unfold nfs_turn. destruct (sv_nfs s); [|exact U].
      destruct (codec_decode (ni_datagram i)) as [[q|]| |]; try exact U.
      destruct (rpc_body q); [|exact U].
      destruct (call_procedure e (ni_os i) (ca_procedure c) n) as [n' [reply| |]]; try exact U.
      unfold framed_send. rewrite U. cbn [snd]. rewrite Sf. reflexivity. }
    intros _ B. specialize (B _ _ T). lia.
Qed.

Lemma turn_same : forall e i s1 s2, bytes_ok (ni_datagram i) -> same_service s1 s2 ->
  snd (nfs_turn e i s1) = snd (nfs_turn e i s2) /\ same_service (fst (nfs_turn e i s1)) (fst (nfs_turn e i s2)).
Proof.
  intros e i s1 s2 B [(n1 & n2 & E1 & E2 & Sn & U)|[N1 N2]].
  - unfold nfs_turn. rewrite E1, E2.
    assert (Same : same_service s1 s2) by (left; eauto 8).
    destruct (codec_cases _ B) as [[m [c [E [C Bc]]]]|[[E _]|[[E|E] _]]]; rewrite E.
    + rewrite Bc. destruct (procedure_same e (ni_os i) (ca_procedure c) n1 n2 Sn (call_proc_ok _ _ _ B C Bc)) as [Sn' Er].
      destruct (call_procedure e (ni_os i) (ca_procedure c) n1) as [n1' r1], (call_procedure e (ni_os i) (ca_procedure c) n2) as [n2' r2].
      cbn [fst snd] in Sn', Er. subst r2. rewrite U. destruct r1 as [reply| |].
      * destruct (framed_send _ _ _ _) as [u sent]. cbn [fst snd]. split; [reflexivity|]. left. exists n1', n2'. auto.
      * cbn [fst snd]. split; [reflexivity|]. left. exists n1', n2'. auto.
      * cbn [fst snd]. split; [reflexivity|]. right. split; intros [X _]; apply X; reflexivity.
    + cbn [fst snd]. split; [reflexivity|]. right. split; intros [X _]; apply X; reflexivity.
    + auto.
    + auto.
  - pose proof (mute_silent e [i] s1 N1) as M1. pose proof (mute_silent e [i] s2 N2) as M2.
    cbn [nfs_run map] in M1, M2. pose proof (mute_stays e i s1 N1). pose proof (mute_stays e i s2 N2).
    destruct (nfs_turn e i s1), (nfs_turn e i s2). cbn [fst snd] in *. split; [congruence|]. right. auto.
Qed.

Lemma run_same : forall e is s1 s2, Forall (fun i => bytes_ok (ni_datagram i)) is -> same_service s1 s2 ->
  snd (nfs_run e is s1) = snd (nfs_run e is s2).
Proof.
  intros e is. induction is as [|i is IH]; intros s1 s2 B Sm; [reflexivity|]. inversion B; subst.
  destruct (turn_same e i s1 s2 H1 Sm) as [E F]. cbn [nfs_run].
  destruct (nfs_turn e i s1) as [t1 o1], (nfs_turn e i s2) as [t2 o2]. cbn [fst snd] in *. specialize (IH t1 t2 H2 F).
  destruct (nfs_run e is t1), (nfs_run e is t2). cbn [snd] in *. congruence.
Qed.

(** ** Asking *)

Definition waiting_first (s : nfs_service) : list (peer * bytes) :=
  match sv_unsent s with Some x => [x] | None => [] end.

Lemma probe : forall e s n i xid p, sv_nfs s = Some n -> speaks s -> bytes_ok (ni_datagram i) ->
  hears (ni_datagram i) (Asked xid p) -> ni_resend i = true -> ni_send i = true ->
  match snd (call_procedure e (ni_os i) p n) with
  | Ok reply => len (codec_encode (reply_to reply xid)) <= 65507 ->
      snd (nfs_turn e i s) = waiting_first s ++ [(ni_from i, codec_encode (reply_to reply xid))]
  | _ => snd (nfs_turn e i s) = []
  end.
Proof.
  intros e s n i xid p E [_ Sp] B [m' [c' [C' [Bc' [-> ->]]]]] Hr Hs. unfold nfs_turn. rewrite E.
  destruct (codec_cases _ B) as [[m [c [Ed [C Bc]]]]|[[_ [_ Nc]]|[_ [Nc _]]]]; [|elim (Nc _ C')|elim (Nc _ C')].
  pose proof (call_functional _ _ _ C C'). subst m'. rewrite Ed, Bc. assert (c' = c) by congruence. subst c'.
  destruct (call_procedure e (ni_os i) (ca_procedure c) n) as [n' [reply| |]]; cbn [fst snd]; try reflexivity.
  intros L. unfold framed_send, waiting_first. rewrite Hr, Hs.
  assert (T : forall d, len d <= 65507 -> send_to true d = true).
  { intros d Ld. unfold send_to, max_datagram. destruct (N.leb_spec (len d) 65507); [reflexivity|lia]. }
  destruct (sv_unsent s) as [[to d]|]; cbn [snd].
  - rewrite (T d (Sp _ _ eq_refl)), (T _ L). reflexivity.
  - rewrite (T _ L). reflexivity.
Qed.

Definition folder_meta : meta := demo_meta true 5 0.
(** A machine on which only the path [t], or only the open file [g], can be asked about. *)
Definition only_path (t : bytes -> bool) : os :=
  mkOs (fun p => if t p then Some folder_meta else None) (fun _ => Some 1) (fun _ => None) (fun _ => None).
Definition only_file (g : fid) : os :=
  mkOs (fun _ => None) (fun _ => None) (fun _ => None) (fun f => if f =? g then Some folder_meta else None).
Definition ask_folder (t : bytes -> bool) : nfs_input * heard := demo_lookup (only_path t) 1 [] (repeat 0 32).
Definition ask_file (g : fid) (h : bytes) : nfs_input * heard :=
  (mkNfsIn (demo_call 1 1 h) 1 (only_file g) true true, Asked 1 (NfsGetAttr h)).

Lemma ask_folder_heard : forall t, bytes_ok (ni_datagram (fst (ask_folder t))) /\
  hears (ni_datagram (fst (ask_folder t))) (Asked 1 (NfsLookup (mkLookup [] (repeat 0 32)))).
Proof.
  intros t. apply (demo_lookup_heard (only_path t) 1 [] (repeat 0 32)); try reflexivity.
  - apply Forall_nil.
Qed.

Lemma ask_file_heard : forall g h, len h = 32 -> bytes_ok h -> bytes_ok (ni_datagram (fst (ask_file g h))) /\
  hears (ni_datagram (fst (ask_file g h))) (Asked 1 (NfsGetAttr h)).
Proof.
  intros g h L B. apply (demo_heard 1 (NfsGetAttr h) 1 h); [reflexivity|apply std_getattr; exact L|].
  unfold demo_call, std_call. rewrite !forallb_app. repeat (apply andb_true_intro; split); try reflexivity.
  apply forallb_forall. intros b I. apply N.ltb_lt. exact (proj1 (Forall_forall _ _) B b I).
Qed.

Lemma ask_folder_answer : forall e s n t, sv_nfs s = Some n -> speaks s -> nf_path n <> [] ->
  exists d, snd (nfs_turn e (fst (ask_folder t)) s) = (if t (resolve (nf_path n) []) then waiting_first s ++ [(1, d)] else []) /\
    d = codec_encode (reply_to (NfsLookupReply (encode_file_handler 5)
          (match attributes_from folder_meta with Ok a => a | _ => mkAttr TFile [] 0 0 0 0 0 0 0 0 0 0%Z 0%Z 0%Z end)) 1).
Proof.
  intros e s n t E Sp Nn. eexists. split; [|reflexivity]. destruct (ask_folder_heard t) as [B H].
  pose proof (probe e s n (fst (ask_folder t)) 1 _ E Sp B H eq_refl eq_refl) as P.
  cbn [ask_folder demo_lookup fst ni_os call_procedure] in P. unfold lookup in P. cbn [lk_filename] in P.
  rewrite (resolve_spec _ [] Nn) in P. cbn [only_path os_stat] in P.
  destruct (t (resolve (nf_path n) [])); [|exact P].
  unfold get_fhandle in P. cbn [os_open of_option rbind m_ino folder_meta demo_meta m_file negb snd fw_encoded] in P.
  change (attributes_from _) with (attributes_from folder_meta) in P.
  destruct (attributes_from folder_meta) as [a| |] eqn:A; try discriminate A. cbn [rbind] in P. etransitivity; [apply P|reflexivity].
  injection A as <-. vm_compute. discriminate.
Qed.

Lemma ask_file_answer : forall e s n g h, sv_nfs s = Some n -> speaks s -> bytes_ok h -> len h = 32 ->
  snd (nfs_turn e (fst (ask_file g h)) s) <> [] <-> hm_get (handle_ino e h) (nf_files n) = Some g.
Proof.
  intros e s n g h E Sp B L. destruct (ask_file_heard g h L B) as [Bd H].
  pose proof (probe e s n (fst (ask_file g h)) 1 _ E Sp Bd H eq_refl eq_refl) as P.
  cbn [ask_file fst ni_os call_procedure snd] in P. unfold getattr in P.
  destruct (hm_get (handle_ino e h) (nf_files n)) as [f|].
  - cbn [only_file os_fstat] in P. destruct (f =? g) eqn:Ef; [apply N.eqb_eq in Ef; subst f|apply N.eqb_neq in Ef].
    + cbn [of_option rbind] in P. change (attributes_from _) with (attributes_from folder_meta) in P.
      destruct (attributes_from folder_meta) as [a| |] eqn:A; try discriminate A. cbn [rbind] in P. split; [reflexivity|].
      intros _. unfold ask_file. cbn [fst]. rewrite P; [destruct (waiting_first s); discriminate|].
      injection A as <-. vm_compute. discriminate.
    + cbn [of_option rbind] in P. split; [intros X; elim X; exact P|congruence].
  - split; [intros X; elim X; exact P|discriminate].
Qed.

(** A handle for each inode number. *)
Definition handle_to (e : endian) (ino : N) : bytes :=
  match e with Little => handle_for ino | Big => rev (firstn 8 (handle_for ino)) ++ repeat 0 24 end.
Lemma handle_to_ok : forall e ino, ino < 2^64 ->
  bytes_ok (handle_to e ino) /\ len (handle_to e ino) = 32 /\ names_inode e (handle_to e ino) ino.
Proof.
  intros e ino L.
  assert (Bh : bytes_ok (handle_for ino)).
  { unfold handle_for. apply Forall_app. split.
    - repeat (apply Forall_cons; [apply N.mod_lt; discriminate|]). apply Forall_nil.
    - apply Forall_forall. intros b I. apply repeat_spec in I. subst b. reflexivity. }
  destruct e; cbn [handle_to].
  - split; [exact Bh|]. split; [apply handle_for_len|]. split; [exact L|reflexivity].
  - split; [apply Forall_app; split; [apply Forall_rev; apply bytes_ok_firstn; exact Bh|]|].
    + apply Forall_forall. intros b I. apply repeat_spec in I. subst b. reflexivity.
    + split; [reflexivity|]. split; [exact L|]. reflexivity.
Qed.

Lemma alike_same : forall e s1 s2, 
  (forall n, sv_nfs s1 = Some n -> nf_path n <> []) -> (forall n, sv_nfs s2 = Some n -> nf_path n <> []) ->
  (forall is, Forall (fun i => bytes_ok (ni_datagram i)) is -> snd (nfs_run e is s1) = snd (nfs_run e is s2)) ->
  (speaks s1 /\ speaks s2 /\ same_service s1 s2) \/ (~ speaks s1 /\ ~ speaks s2).
Proof.
  intros e s1 s2 P1 P2 H.
  assert (One : forall i, bytes_ok (ni_datagram i) -> snd (nfs_turn e i s1) = snd (nfs_turn e i s2)).
  { intros i B. specialize (H [i] ltac:(repeat constructor; exact B)). cbn [nfs_run] in H.
    destruct (nfs_turn e i s1), (nfs_turn e i s2). cbn [snd] in *. congruence. }
  assert (Mixed : forall v w, (forall n, sv_nfs v = Some n -> nf_path n <> []) -> speaks v -> ~ speaks w ->
    ~ snd (nfs_turn e (fst (ask_folder (fun _ => true))) v) = snd (nfs_turn e (fst (ask_folder (fun _ => true))) w)).
  { intros v w Pv Sv Nw F. destruct (sv_nfs v) as [n|] eqn:E; [|destruct Sv; contradiction].
    destruct (ask_folder_answer e v n (fun _ => true) E Sv (Pv n eq_refl)) as (d & A & _). rewrite A in F.
    pose proof (mute_silent e [fst (ask_folder (fun _ => true))] w Nw) as M. cbn [nfs_run map] in M.
    destruct (nfs_turn e (fst (ask_folder (fun _ => true))) w). cbn [snd] in *. injection M as ->.
    destruct (waiting_first v); discriminate. }
  pose proof (proj1 (ask_folder_heard (fun _ => true))) as Bt.
  destruct (mute_cases s1) as [S1|N1]; [|right].
  2: { assert (M1 : ~ speaks s1) by (intros [A B]; destruct N1 as [N1|(to & d & U & L)]; [contradiction|specialize (B _ _ U); lia]).
       split; [exact M1|]. intros S2. apply (Mixed s2 s1 P2 S2 M1). symmetry. apply One. exact Bt. }
  destruct (mute_cases s2) as [S2|N2].
  2: { assert (M2 : ~ speaks s2) by (intros [A B]; destruct N2 as [N2|(to & d & U & L)]; [contradiction|specialize (B _ _ U); lia]).
       elim (Mixed s1 s2 P1 S1 M2). apply One. exact Bt. }
  left. split; [exact S1|]. split; [exact S2|]. left.
  destruct (sv_nfs s1) as [n1|] eqn:E1; [|destruct S1; contradiction]. destruct (sv_nfs s2) as [n2|] eqn:E2; [|destruct S2; contradiction].
  specialize (P1 n1 eq_refl). specialize (P2 n2 eq_refl). exists n1, n2. split; [reflexivity|]. split; [reflexivity|]. split.
  - split; [exact P1|]. split; [exact P2|]. split.
    + set (t := fun p => if list_eq_dec N.eq_dec p (resolve (nf_path n1) []) then true else false).
      destruct (ask_folder_answer e s1 n1 t E1 S1 P1) as (d1 & A1 & _). destruct (ask_folder_answer e s2 n2 t E2 S2 P2) as (d2 & A2 & _).
      rewrite (One _ (proj1 (ask_folder_heard t))), A2 in A1. unfold t in A1.
      destruct (list_eq_dec N.eq_dec (resolve (nf_path n2) []) (resolve (nf_path n1) [])) as [F|F]; [congruence|].
      destruct (list_eq_dec N.eq_dec (resolve (nf_path n1) []) (resolve (nf_path n1) [])) as [_|F']; [|congruence].
      destruct (waiting_first s1); discriminate.
    + intros ino L. destruct (handle_to_ok e ino L) as (B & L32 & Nm).
      assert (Hi : handle_ino e (handle_to e ino) = ino) by (apply (names_inode_iff e _ ino B); [unfold len in L32; lia|exact Nm]).
      assert (X : forall g, hm_get ino (nf_files n1) = Some g <-> hm_get ino (nf_files n2) = Some g).
      { intros g. rewrite <- Hi. rewrite <- (ask_file_answer e s1 n1 g _ E1 S1 B L32), <- (ask_file_answer e s2 n2 g _ E2 S2 B L32).
        rewrite (One _ (proj1 (ask_file_heard g _ L32 B))). reflexivity. }
      destruct (hm_get ino (nf_files n1)) as [f|].
      * symmetry. apply X. reflexivity.
      * destruct (hm_get ino (nf_files n2)) as [f|]; [|reflexivity]. apply X. reflexivity.
  - destruct (ask_folder_answer e s1 n1 (fun _ => true) E1 S1 P1) as (d1 & A1 & D1). destruct (ask_folder_answer e s2 n2 (fun _ => true) E2 S2 P2) as (d2 & A2 & D2).
    rewrite (One _ Bt), A2, D1, D2 in A1. apply app_inv_tail in A1. unfold waiting_first in A1.
    destruct (sv_unsent s1), (sv_unsent s2); congruence.
Qed.
