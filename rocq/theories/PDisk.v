(** Property theorems C89: a handle and the file it was given for. *)

From Verif Require Import Base Unicode MDatabase MRpc MRpcServer MNfs SUdp SRpc SRpcServer SNfs SDisk
  LBase LDatabase LNfs LNfs2 LOrder PNfs.
From Coq Require Import ZArith Lia Arith String.
Open Scope list_scope.
Open Scope N_scope.

(** ** The table of open files *)

(** A turn leaves the table as it is or adds the file it looked up. *)
Lemma turn_table : forall e i s n', sv_nfs (fst (nfs_turn e i s)) = Some n' ->
  exists n, sv_nfs s = Some n /\
    (nf_files n' = nf_files n \/
     exists p m f, os_stat (ni_os i) p = Some m /\ os_open (ni_os i) p = Some f /\
       nf_files n' = hm_insert (m_ino m) f (nf_files n)).
Proof.
  intros e i s n' H. unfold nfs_turn in H. destruct (sv_nfs s) as [n|] eqn:E; [|cbn [fst] in H; congruence].
  exists n. split; [reflexivity|].
  destruct (codec_decode (ni_datagram i)) as [[m|]| |]; cbn [fst sv_nfs] in H;
    try (rewrite ?E in H; left; congruence).
  destruct (rpc_body m) as [c|]; cbn [fst] in H; [|left; congruence].
  destruct (call_procedure e (ni_os i) (ca_procedure c) n) as [n1 r] eqn:C.
  assert (n1 = n').
  { destruct r as [reply| |]; [destruct (framed_send _ _ _ _)| |]; cbn [fst sv_nfs] in H; congruence. }
  subst n1. clear H.
  unfold call_procedure in C. destruct (ca_procedure c) eqn:Pr; try (injection C as <- _; left; reflexivity).
  unfold lookup in C. destruct (os_stat _ _) as [mt|] eqn:St; [|injection C as <- _; left; reflexivity].
  unfold get_fhandle in C. destruct (os_open _ _) as [f|] eqn:Op; cbn [of_option rbind] in C; [|injection C as <- _; left; reflexivity].
  injection C as <- _. destruct (m_file mt); [|left; reflexivity].
  right. do 3 eexists. split; [exact St|]. split; [exact Op|]. reflexivity.
Qed.

(** Every entry of the table has the inode number of its file. *)
Definition tied (s : nfs_service) (d : disk) : Prop :=
  forall n ino f, sv_nfs s = Some n -> hm_get ino (nf_files n) = Some f -> m_ino (dk_info d f) = ino.

Lemma held_in : forall s n ino f, sv_nfs s = Some n -> hm_get ino (nf_files n) = Some f -> In f (open_files s).
Proof.
  intros s n ino f E G. unfold open_files. rewrite E. apply hm_get_in in G. apply (in_map snd) in G. exact G.
Qed.

Lemma turn_tied : forall e s d d' i, may_become (open_files s) d d' -> ni_os i = os_on d' -> tied s d ->
  tied (fst (nfs_turn e i s)) d' /\
  forall n n' ino f, sv_nfs s = Some n -> sv_nfs (fst (nfs_turn e i s)) = Some n' ->
    hm_get ino (nf_files n) = Some f -> hm_get ino (nf_files n') = Some f.
Proof.
  intros e s d d' i [[_ Uq] Kp] Os T.
  assert (K : forall n n' ino f, sv_nfs s = Some n -> sv_nfs (fst (nfs_turn e i s)) = Some n' ->
    hm_get ino (nf_files n) = Some f -> hm_get ino (nf_files n') = Some f).
  { intros n n' ino f E E' G. destruct (turn_table e i s n' E') as (n0 & E0 & [Tb|(p & m & g & St & Op & Tb)]).
    - rewrite Tb. congruence.
    - rewrite E in E0. injection E0 as <-. rewrite Tb, hm_get_insert. rewrite Os in St, Op. cbn [os_on os_stat os_open] in St, Op.
      rewrite Op in St. injection St as <-. destruct (N.eqb_spec ino (m_ino (dk_info d' g))) as [->|]; [|exact G].
      f_equal. apply Uq.
      + right. exists p. exact Op.
      + left. eapply held_in; eassumption.
      + rewrite (Kp f) by (eapply held_in; eassumption). symmetry. exact (T n _ f E G). }
  split; [|exact K].
  intros n' ino f E' G. destruct (turn_table e i s n' E') as (n & E & [Tb|(p & m & g & St & Op & Tb)]).
  - rewrite Tb in G. rewrite (Kp f) by (eapply held_in; eassumption). exact (T n ino f E G).
  - rewrite Tb, hm_get_insert in G. rewrite Os in St, Op. cbn [os_on os_stat os_open] in St, Op.
    rewrite Op in St. injection St as <-. destruct (N.eqb_spec ino (m_ino (dk_info d' g))) as [->|].
    + injection G as <-. reflexivity.
    + rewrite (Kp f) by (eapply held_in; eassumption). exact (T n ino f E G).
Qed.

Definition inputs (run : list (disk * (nfs_input * heard))) : list nfs_input := map (fun y => fst (snd y)) run.
Fixpoint last_disk (d : disk) (run : list (disk * (nfs_input * heard))) : disk :=
  match run with [] => d | (d', _) :: run => last_disk d' run end.
Lemma last_disk_app : forall a d d' x, last_disk d (a ++ [(d', x)]) = d'.
Proof. intros a. induction a as [|[d1 y] a IH]; intros d d' x; [reflexivity|apply IH]. Qed.

Lemma dead_stays : forall e is s, sv_nfs s = None -> sv_nfs (fst (nfs_run e is s)) = None.
Proof.
  intros e is. induction is as [|i is IH]; intros s E; [exact E|]. cbn [nfs_run].
  assert (T : nfs_turn e i s = (s, [])) by (unfold nfs_turn; rewrite E; reflexivity).
  rewrite T. specialize (IH s E). destruct (nfs_run e is s). exact IH.
Qed.
Lemma run_step : forall e i is s, fst (nfs_run e (i :: is) s) = fst (nfs_run e is (fst (nfs_turn e i s))).
Proof.
  intros. cbn [nfs_run]. destruct (nfs_turn e i s) as [s' o]. cbn [fst]. destruct (nfs_run e is s') as [s'' os]. reflexivity.
Qed.

Lemma run_tied : forall e run s d, on_disk e s d run -> tied s d ->
  tied (fst (nfs_run e (inputs run) s)) (last_disk d run) /\
  forall n n' ino f, sv_nfs s = Some n -> sv_nfs (fst (nfs_run e (inputs run) s)) = Some n' ->
    hm_get ino (nf_files n) = Some f -> hm_get ino (nf_files n') = Some f.
Proof.
  intros e run. induction run as [|[d' x] run IH]; intros s d O T.
  - split; [exact T|]. intros n n' ino f E E' G. cbn [inputs map nfs_run fst] in E'. congruence.
  - inversion O as [|? ? ? ? ? B Os O']; subst. destruct (turn_tied e s d d' (fst x) B Os T) as [T1 K1].
    destruct (IH _ _ O' T1) as [T2 K2].
    change (inputs ((d', x) :: run)) with (fst x :: inputs run). rewrite run_step. cbn [last_disk]. split; [exact T2|].
    intros n n' ino f E E' G. destruct (sv_nfs (fst (nfs_turn e (fst x) s))) as [n1|] eqn:E1.
    + apply (K2 n1 n' ino f eq_refl E'). exact (K1 n n1 ino f E eq_refl G).
    + rewrite (dead_stays e (inputs run) _ E1) in E'. discriminate E'.
Qed.

Lemma on_disk_app : forall e a b s d, on_disk e s d (a ++ b) ->
  on_disk e s d a /\ on_disk e (fst (nfs_run e (inputs a) s)) (last_disk d a) b.
Proof.
  intros e a b. induction a as [|[d' x] a IH]; intros s d O; [split; [constructor|exact O]|].
  cbn [app] in O. inversion O as [|? ? ? ? ? B Os O']; subst. destruct (IH _ _ O') as [A1 A2]. split.
  - constructor; assumption.
  - change (inputs ((d', x) :: a)) with (fst x :: inputs a). rewrite run_step. cbn [last_disk]. exact A2.
Qed.
Lemma tied_new : forall d, tied service_new d.
Proof. intros d n ino f E G. injection E as <-. discriminate G. Qed.
Lemma inputs_served : forall e run, nfs_run e (inputs run) service_new = served e (map snd run).
Proof. intros. unfold served, inputs. rewrite map_map. reflexivity. Qed.

(** After the lookup of a file, and for as long as the service lives, the file is
    in the table under the inode number it had. *)
Lemma kept : forall e d0 before d x xl f later,
  on_disk e service_new d0 (before ++ (d, x) :: later) ->
  goes_well e (map snd (before ++ (d, x) :: later)) -> looks_up before d x xl f ->
  m_ino (dk_info d f) < 2^64 /\ times_known (dk_info d f) /\
  m_ino (dk_info (last_disk d later) f) = m_ino (dk_info d f) /\
  In f (open_files (fst (served e (map snd (before ++ (d, x) :: later))))) /\
  latest_opened (map snd (before ++ (d, x) :: later)) (m_ino (dk_info d f)) f.
Proof.
  intros e d0 before d x xl f later O W (l & Hx & Hn & Hf).
  replace (before ++ (d, x) :: later) with ((before ++ [(d, x)]) ++ later) in * by (rewrite <- app_assoc; reflexivity).
  destruct (on_disk_app e _ _ _ _ O) as [O1 O2].
  destruct (on_disk_app e _ _ _ _ O1) as [_ O3]. inversion O3 as [|? ? ? ? ? Bc Os _]; subst.
  destruct (run_tied e _ _ _ O1 (tied_new d0)) as [T1 _].
  destruct (run_tied e _ _ _ O2 T1) as [T2 K2].
  rewrite last_disk_app in *.
  rewrite inputs_served in *. 
  rewrite map_app in W. assert (W1 := well_prefix _ _ _ W). rewrite <- map_app in W.
  destruct (served_state e _ (proj1 W1)) as [[_ (n1 & E1 & I1)]|[X _]]; [|exfalso; exact (X (proj1 (proj2 W1)))].
  destruct (served_state e _ (proj1 W)) as [[_ (n2 & E2 & I2)]|[X _]]; [|exfalso; exact (X (proj1 (proj2 W)))].
  assert (G1 : hm_get (m_ino (dk_info d f)) (nf_files n1) = Some f).
  { apply I1. rewrite map_app. cbn [map snd]. apply latest_snoc. left.
    exists xl, l, (dk_info d f). rewrite Os. cbn [os_on os_stat os_open]. rewrite Hn. repeat split; assumption. }
  assert (R : fst (nfs_run e (inputs later) (fst (served e (map snd (before ++ [(d, x)]))))) =
    fst (served e (map snd ((before ++ [(d, x)]) ++ later)))).
  { rewrite <- !inputs_served. unfold inputs. rewrite (map_app _ (before ++ [(d, x)]) later).
    rewrite run_app. destruct (nfs_run e (map _ (before ++ [(d, x)])) service_new) as [s1 o1]. cbn [fst].
    destruct (nfs_run e (map _ later) s1) as [s2 o2]. reflexivity. }
  rewrite R in T2, K2.
  assert (G2 := K2 n1 n2 _ _ E1 E2 G1).
  assert (Th : there (open_files (fst (served e (map snd before)))) d f) by (right; eexists; exact Hn).
  destruct Bc as [[Bd _] _]. destruct (Bd f Th) as [B1 B2].
  split; [exact B1|]. split; [exact B2|]. split; [exact (T2 n2 _ _ E2 G2)|]. split; [eapply held_in; eassumption|].
  apply I2. exact G2.
Qed.

(** ** C89 *)

(** A handle keeps meaning the file it was given for.  In a service that goes on
    and on a disk that may change in any way in between (the file be renamed,
    removed, replaced by another of the same name, written to), the lookup is
    answered with a handle, and any later read through it returns the bytes the
    same file has then. *)
Theorem C89_handle_keeps_its_file : forall d0 before d x xl f later d' r xid off cnt total,
  on_disk Little service_new d0 (before ++ (d, x) :: later ++ [(d', r)]) ->
  goes_well Little (map snd (before ++ (d, x) :: later)) ->
  looks_up before d x xl f ->
  bytes_ok (ni_datagram (fst r)) -> hears (ni_datagram (fst r)) (snd r) ->
  snd r = Asked xid (NfsRead (mkRead (handle_for (m_ino (dk_info d f))) off cnt total)) ->
  ni_send (fst r) = true -> cnt <= 65404 ->
  let answers := snd (served Little (map snd (before ++ (d, x) :: later ++ [(d', r)]))) in
  (exists fattr, fattr_says fattr (dk_info d f) /\
     nth (List.length before) answers [] =
     [(ni_from (fst x), std_reply xl (std_lookup_result (handle_for (m_ino (dk_info d f))) fattr))]) /\
  (exists fattr data, fattr_says fattr (dk_info d' f) /\ range_with_zeros (dk_content d' f) off cnt data /\
     nth (List.length (before ++ (d, x) :: later)) answers [] =
     [(ni_from (fst r), std_reply xid (std_read_result fattr data))]).
Proof.
  intros d0 before d x xl f later d' r xid off cnt total O W L B Hh Hr Se Le answers.
  assert (Ea : before ++ (d, x) :: later ++ [(d', r)] = (before ++ (d, x) :: later) ++ [(d', r)])
    by (rewrite <- app_assoc; reflexivity).
  unfold answers. clear answers. rewrite Ea in *. clear Ea.
  destruct (on_disk_app _ _ _ _ _ O) as [O1 O2]. inversion O2 as [|? ? ? ? ? Bc Os _]; subst.
  destruct (kept _ _ _ _ _ _ _ _ O1 W L) as (Li & Tk & _ & Hf & La).
  rewrite inputs_served in Bc. rewrite map_app. cbn [map snd]. split.
  - destruct L as (l & Hx & Hn & Hm).
    destruct (on_disk_app _ before _ _ _ O1) as [_ O3]. inversion O3 as [|? ? ? ? ? _ Osx _]; subst.
    set (hs := map snd (before ++ (d, x) :: later)) in *.
    assert (N : nth_error hs (List.length before) = Some x).
    { unfold hs. rewrite map_app, nth_error_app2 by (rewrite map_length; lia). rewrite map_length, Nat.sub_diag. reflexivity. }
    destruct (C51_history Little hs _ x W N) as (dd & Rp & An).
    assert (F : firstn (List.length before) hs = map snd before).
    { unfold hs. rewrite map_app. rewrite <- (map_length snd before). rewrite firstn_app, Nat.sub_diag, firstn_all. cbn [firstn]. apply app_nil_r. }
    rewrite F in Rp. unfold replies in Rp. rewrite Hx in Rp.
    assert (C : forall a, call_outcome Little (map snd before) (ni_os (fst x)) (NfsLookup l) a ->
       exists fattr, fattr_says fattr (dk_info d f) /\ a = Result (std_lookup_result (handle_for (m_ino (dk_info d f))) fattr)).
    { intros a C. cbn [call_outcome] in C. unfold lookup_outcome in C. rewrite Osx in C. cbn [os_on os_stat os_open] in C.
      rewrite Hn in C. cbn [option_map] in C. destruct a as [q| |]; cbn [with_attributes] in C; try contradiction.
      destruct C as (_ & fattr & Fs & ->). exists fattr. split; [exact Fs|reflexivity]. }
    rewrite (served_prefix Little hs [r]) by (unfold hs; rewrite map_length, app_length; cbn [List.length]; lia).
    rewrite An. destruct Rp as [(q & C' & ->)|[C' _]]; destruct (C _ C') as (fattr & Fs & Eq); [|discriminate Eq].
    injection Eq as ->. exists fattr. split; [exact Fs|reflexivity].
  - destruct (proj1 Bc) as [Bd _]. destruct (Bd f (or_introl Hf)) as [_ Tk'].
    rewrite <- (map_length snd (before ++ (d, x) :: later)).
    apply (C50_served Little _ r xid (handle_for (m_ino (dk_info d f))) off cnt total f); try assumption.
    + exists (m_ino (dk_info d f)). split; [split; [exact Li|reflexivity]|exact La].
    + rewrite Os. reflexivity.
    + rewrite Os. reflexivity.
Qed.
Print Assumptions C89_handle_keeps_its_file.

(** The same for attributes: they are those the same file has then. *)
Theorem C89_attributes : forall d0 before d x xl f later d' r xid,
  on_disk Little service_new d0 (before ++ (d, x) :: later ++ [(d', r)]) ->
  goes_well Little (map snd (before ++ (d, x) :: later ++ [(d', r)])) ->
  looks_up before d x xl f ->
  snd r = Asked xid (NfsGetAttr (handle_for (m_ino (dk_info d f)))) ->
  exists fattr, fattr_says fattr (dk_info d' f) /\
    nth (List.length (before ++ (d, x) :: later))
        (snd (served Little (map snd (before ++ (d, x) :: later ++ [(d', r)])))) [] =
    [(ni_from (fst r), std_reply xid (std_getattr_result fattr))].
Proof.
  intros d0 before d x xl f later d' r xid O W L Hr.
  assert (Ea : before ++ (d, x) :: later ++ [(d', r)] = (before ++ (d, x) :: later) ++ [(d', r)])
    by (rewrite <- app_assoc; reflexivity).
  rewrite Ea in *. clear Ea.
  destruct (on_disk_app _ _ _ _ _ O) as [O1 O2]. inversion O2 as [|? ? ? ? ? Bc Os _]; subst.
  rewrite map_app in W. cbn [map snd] in W. assert (W1 := well_prefix _ _ _ W).
  destruct (kept _ _ _ _ _ _ _ _ O1 W1 L) as (Li & _ & _ & Hf & La).
  rewrite map_app. cbn [map snd]. rewrite <- (map_length snd (before ++ (d, x) :: later)).
  set (hs := map snd (before ++ (d, x) :: later)) in *.
  destruct (firstn_snoc_eq _ hs r) as [F N].
  destruct (C51_history Little _ _ r W N) as (dd & Rp & An). rewrite F in Rp. rewrite An.
  assert (Ho : handle_of_file Little hs (handle_for (m_ino (dk_info d f))) f)
    by (exists (m_ino (dk_info d f)); split; [split; [exact Li|reflexivity]|exact La]).
  assert (C : forall a, call_outcome Little hs (ni_os (fst r)) (NfsGetAttr (handle_for (m_ino (dk_info d f)))) a -> a <> Death ->
     exists fattr, fattr_says fattr (dk_info d' f) /\ a = Result (std_getattr_result fattr)).
  { intros a C Nd. cbn [call_outcome] in C. destruct C as [(g & Hg & C)|[X _]]; [|exfalso; exact (X f Ho)].
    rewrite (handle_functional _ _ _ _ _ Hg Ho) in C. unfold getattr_outcome in C. rewrite Os in C. cbn [os_on os_fstat] in C.
    destruct a as [q| |]; cbn [with_attributes] in C; try contradiction; try (exfalso; exact (Nd eq_refl)).
    destruct C as (_ & fattr & Fs & ->). exists fattr. split; [exact Fs|reflexivity]. }
  unfold replies in Rp. rewrite Hr in Rp.
  destruct Rp as [(q & C' & ->)|[C' _]]; (destruct (C _ C') as (fattr & Fs & Eq); [discriminate|]); [|discriminate Eq].
  injection Eq as ->. exists fattr. split; [exact Fs|reflexivity].
Qed.
Print Assumptions C89_attributes.

(** Two lookups of regular files in one service, whenever made, got the same
    handle exactly if they found the same file. *)
Theorem C89_handles_tell_files_apart : forall d0 before d x xl f later d' r xl' f',
  on_disk Little service_new d0 (before ++ (d, x) :: later ++ [(d', r)]) ->
  goes_well Little (map snd (before ++ (d, x) :: later)) ->
  looks_up before d x xl f -> looks_up (before ++ (d, x) :: later) d' r xl' f' ->
  (handle_for (m_ino (dk_info d f)) = handle_for (m_ino (dk_info d' f')) <-> f = f').
Proof.
  intros d0 before d x xl f later d' r xl' f' O W L L'.
  assert (Ea : before ++ (d, x) :: later ++ [(d', r)] = (before ++ (d, x) :: later) ++ [(d', r)])
    by (rewrite <- app_assoc; reflexivity).
  rewrite Ea in *. clear Ea.
  destruct (on_disk_app _ _ _ _ _ O) as [O1 O2]. inversion O2 as [|? ? ? ? ? Bc Os _]; subst.
  destruct (kept _ _ _ _ _ _ _ _ O1 W L) as (Li & _ & Ei & Hf & La).
  rewrite inputs_served in Bc. destruct Bc as [[Bd Uq] Kp].
  assert (El : last_disk d0 (before ++ (d, x) :: later) = last_disk d later).
  { clear. revert d0. induction before as [|[d1 y] before IH]; intros d0; [reflexivity|apply IH]. }
  rewrite El in Kp. specialize (Kp f Hf).
  destruct L' as (l & _ & Hn & _).
  assert (Tf : there (open_files (fst (served Little (map snd (before ++ (d, x) :: later))))) d' f') by (right; eexists; exact Hn).
  destruct (Bd f' Tf) as [Li' _]. split.
  - intros E. apply (f_equal (handle_ino Little)) in E. rewrite <- !handle_for_spec, !handle_little in E by assumption.
    apply Uq; [left; exact Hf|exact Tf|]. congruence.
  - intros <-. congruence.
Qed.
Print Assumptions C89_handles_tell_files_apart.

(** ** Cases and limits *)

(** Moments of a disk: at first "/x" is file 70 and "/d" a folder; then "/x" has
    been replaced by file 80 while file 70 was written to; or, file 70 being gone
    for good, the new file has its inode number; or the folder is gone and a new
    file "/y" has the folder's inode number. *)
Definition example_disk (names : list (bytes * (fid * (bool * N)))) (content : fid -> bytes) : disk :=
  mkDisk (fun p => match find (fun q => if list_eq_dec N.eq_dec p (fst q) then true else false) names with
                   | Some q => Some (fst (snd q)) | None => None end)
         (fun f => match find (fun q => f =? fst (snd q)) names with
                   | Some q => demo_meta (fst (snd (snd q))) (snd (snd (snd q))) (len (content f))
                   | None => demo_meta false 7 (len (content f))
                   end)
         content.
Definition disk1 : disk := example_disk [(lit "/x", (70, (false, 7))); (lit "/d", (50, (true, 5)))] (fun f => if f =? 70 then [1; 2; 3] else [9; 9; 9; 9]).
Definition disk2 : disk := example_disk [(lit "/x", (80, (false, 8))); (lit "/d", (50, (true, 5)))] (fun f => if f =? 70 then [4; 4] else [9; 9; 9; 9]).
Definition disk3 : disk := example_disk [(lit "/x", (80, (false, 7))); (lit "/d", (50, (true, 5)))] (fun f => [9; 9; 9; 9]).
Definition disk4 : disk := example_disk [(lit "/x", (70, (false, 7))); (lit "/y", (90, (false, 5)))] (fun f => [9; 9; 9; 9]).

Lemma example_there : forall held names content f, there held (example_disk names content) f ->
  In f (held ++ map (fun q => fst (snd q)) names).
Proof.
  intros held names content f [H|[p H]]; apply in_or_app; [left; exact H|right].
  cbn [example_disk dk_names] in H. match type of H with match ?e with _ => _ end = _ => destruct e as [q|] eqn:F end; [|discriminate H].
  injection H as <-. apply find_some in F. apply in_map_iff. exists q. split; [reflexivity|exact (proj1 F)].
Qed.
Ltac among H := apply example_there in H; cbn [app map fst snd] in H;
  repeat (destruct H as [<-|H]; [|]); try (exfalso; exact H).
Ltac good_disk := split;
  [let f := fresh "f" in let H := fresh "H" in intros f H; among H; (split; [vm_compute; reflexivity|repeat split; vm_compute; discriminate])
  |let f := fresh "f" in let g := fresh "g" in let H := fresh "H" in let G := fresh "G" in let E := fresh "E" in
   intros f g H G E; among H; among G; vm_compute in E; (reflexivity || discriminate E)].
Ltac good_change := split; [good_disk|let f := fresh "f" in let H := fresh "H" in
  intros f H; cbn [In] in H; repeat (destruct H as [<-|H]; [vm_compute; reflexivity|]); contradiction].

Ltac at_byte n := match goal with |- exists fattr, nth ?k ?l ?d = _ =>
  exists (firstn 68 (skipn n (snd (hd (0, []) (nth k l d))))); vm_compute; reflexivity end.

Definition find_x (d : disk) (xid : N) : nfs_input * heard := demo_lookup (os_on d) xid (lit "/x") (repeat 0 32).
Definition find_y (d : disk) (xid : N) : nfs_input * heard := demo_lookup (os_on d) xid (lit "/y") (repeat 0 32).
Definition find_d (d : disk) (xid : N) : nfs_input * heard := demo_lookup (os_on d) xid (lit "/d") (repeat 0 32).

(** File 70 is looked up as "/x"; then "/x" is another file, which gets another
    handle, and the old handle still reads file 70, with what has been written to
    it since. *)
Example C89_case :
  let run := [(disk1, find_x disk1 1); (disk2, find_x disk2 2); (disk2, demo_read (os_on disk2) 3 (handle_for 7) 0 3)] in
  on_disk Little service_new disk1 run /\ goes_well Little (map snd (firstn 2 run)) /\
  looks_up [] disk1 (find_x disk1 1) 1 70 /\ looks_up [(disk1, find_x disk1 1)] disk2 (find_x disk2 2) 2 80 /\
  exists fattr, nth 2 (snd (served Little (map snd run))) [] = [(1, std_reply 3 (std_read_result fattr [4; 4; 0]))].
Proof.
  intros run.
  assert (E1 : open_files service_new = []) by reflexivity.
  assert (E2 : open_files (fst (nfs_turn Little (fst (find_x disk1 1)) service_new)) = [70]) by (vm_compute; reflexivity).
  assert (E3 : open_files (fst (nfs_turn Little (fst (find_x disk2 2)) (fst (nfs_turn Little (fst (find_x disk1 1)) service_new)))) = [70; 80])
    by (vm_compute; reflexivity).
  assert (H1 := demo_lookup_heard (os_on disk1) 1 (lit "/x") (repeat 0 32) eq_refl eq_refl
    ltac:(repeat constructor; vm_compute; reflexivity) eq_refl ltac:(vm_compute; reflexivity)).
  assert (H2 := demo_lookup_heard (os_on disk2) 2 (lit "/x") (repeat 0 32) eq_refl eq_refl
    ltac:(repeat constructor; vm_compute; reflexivity) eq_refl ltac:(vm_compute; reflexivity)).
  assert (L1 : looks_up [] disk1 (find_x disk1 1) 1 70) by (eexists; split; [reflexivity|split; vm_compute; reflexivity]).
  assert (L2 : looks_up [(disk1, find_x disk1 1)] disk2 (find_x disk2 2) 2 80) by (eexists; split; [reflexivity|split; vm_compute; reflexivity]).
  split; [|split; [|split; [exact L1|split; [exact L2|]]]].
  - constructor; [rewrite E1; good_change|reflexivity|]. constructor; [rewrite E2; good_change|reflexivity|].
    constructor; [rewrite E3; good_change|reflexivity|constructor].
  - cbn [firstn run map snd].
    assert (W1 := proj1 (lookup_answered Little [] (find_x disk1 1) 1 (mkLookup (lit "/x") (repeat 0 32)) (dk_info disk1 70) 70
      (demo_well_nil Little) (proj1 H1) (proj2 H1) eq_refl eq_refl eq_refl eq_refl (demo_times _ _ _))).
    exact (proj1 (lookup_answered Little [find_x disk1 1] (find_x disk2 2) 2 (mkLookup (lit "/x") (repeat 0 32)) (dk_info disk2 80) 80
      W1 (proj1 H2) (proj2 H2) eq_refl eq_refl eq_refl eq_refl (demo_times _ _ _))).
  - at_byte 28%nat.
Qed.

(** The attributes of file 70 are asked for through the same handle. *)
Definition demo_getattr (o : os) (xid : N) (h : bytes) : nfs_input * heard :=
  (mkNfsIn (demo_call xid 1 h) 1 o true true, Asked xid (NfsGetAttr h)).
Example C89_case_attributes :
  let run := [(disk1, find_x disk1 1); (disk2, find_x disk2 2); (disk2, demo_getattr (os_on disk2) 3 (handle_for 7))] in
  on_disk Little service_new disk1 run /\ goes_well Little (map snd run) /\
  looks_up [] disk1 (find_x disk1 1) 1 70 /\
  exists fattr, nth 2 (snd (served Little (map snd run))) [] = [(1, std_reply 3 (std_getattr_result fattr))].
Proof.
  cbv zeta.
  assert (E1 : open_files service_new = []) by reflexivity.
  assert (E2 : open_files (fst (nfs_turn Little (fst (find_x disk1 1)) service_new)) = [70]) by (vm_compute; reflexivity).
  assert (E3 : open_files (fst (nfs_turn Little (fst (find_x disk2 2)) (fst (nfs_turn Little (fst (find_x disk1 1)) service_new)))) = [70; 80])
    by (vm_compute; reflexivity).
  assert (H1 := demo_lookup_heard (os_on disk1) 1 (lit "/x") (repeat 0 32) eq_refl eq_refl
    ltac:(repeat constructor; vm_compute; reflexivity) eq_refl ltac:(vm_compute; reflexivity)).
  assert (H2 := demo_lookup_heard (os_on disk2) 2 (lit "/x") (repeat 0 32) eq_refl eq_refl
    ltac:(repeat constructor; vm_compute; reflexivity) eq_refl ltac:(vm_compute; reflexivity)).
  assert (H3 := demo_heard 3 (NfsGetAttr (handle_for 7)) 1 (handle_for 7) eq_refl ltac:(constructor; reflexivity) ltac:(vm_compute; reflexivity)).
  assert (L1 : looks_up [] disk1 (find_x disk1 1) 1 70) by (eexists; split; [reflexivity|split; vm_compute; reflexivity]).
  split; [|split; [|split; [exact L1|]]].
  - constructor; [rewrite E1; good_change|reflexivity|]. constructor; [rewrite E2; good_change|reflexivity|].
    constructor; [rewrite E3; good_change|reflexivity|constructor].
  - cbn [map snd].
    assert (W1 := proj1 (lookup_answered Little [] (find_x disk1 1) 1 (mkLookup (lit "/x") (repeat 0 32)) (dk_info disk1 70) 70
      (demo_well_nil Little) (proj1 H1) (proj2 H1) eq_refl eq_refl eq_refl eq_refl (demo_times _ _ _))).
    assert (W2 := proj1 (lookup_answered Little [find_x disk1 1] (find_x disk2 2) 2 (mkLookup (lit "/x") (repeat 0 32)) (dk_info disk2 80) 80
      W1 (proj1 H2) (proj2 H2) eq_refl eq_refl eq_refl eq_refl (demo_times _ _ _))).
    cbn [app] in W2.
    assert (O2 : on_disk Little service_new disk1 ([] ++ (disk1, find_x disk1 1) :: [(disk2, find_x disk2 2)])).
    { constructor; [rewrite E1; good_change|reflexivity|]. constructor; [rewrite E2; good_change|reflexivity|]. constructor. }
    destruct (kept _ _ _ _ _ _ _ _ O2 W2 L1) as (Li & _ & _ & _ & La). cbn [app map snd] in La.
    assert (Ho : handle_of_file Little [find_x disk1 1; find_x disk2 2] (handle_for 7) 70)
      by (exists 7; split; [split; [exact Li|reflexivity]|exact La]).
    refine (proj1 (well_snoc Little [find_x disk1 1; find_x disk2 2] (demo_getattr (os_on disk2) 3 (handle_for 7)) 3 _
      W2 (proj1 H3) (proj2 H3) eq_refl eq_refl _)).
    intros a C. cbn [call_outcome] in C. destruct C as [(g & Hg & C)|[X _]]; [|exfalso; exact (X 70 Ho)].
    rewrite (handle_functional _ _ _ _ _ Hg Ho) in C.
    assert (F : os_fstat (ni_os (fst (demo_getattr (os_on disk2) 3 (handle_for 7)))) 70 = Some (dk_info disk2 70)) by reflexivity.
    unfold getattr_outcome in C. rewrite F in C.
    destruct a as [q| |]; cbn [with_attributes] in C; [|contradiction|exfalso; apply C; apply demo_times].
    destruct C as (_ & fattr & Fs & ->). eexists. split; [reflexivity|].
    unfold std_getattr_result. rewrite len_app, (fattr_len _ _ Fs). vm_compute. discriminate.
  - at_byte 28%nat.
Qed.

(** The handle is good only in the service that gave it out.  When the service is
    gone its files are closed, and another file may get the inode number: in the
    service started next, the old handle reads that file. *)
Theorem C89_handle_after_restart_refuted : exists d d' x y r,
  on_disk Little service_new d [(d, x)] /\ looks_up [] d x 1 70 /\
  may_become [] d d' /\
  on_disk Little service_new d' [(d', y); (d', r)] /\ looks_up [] d' y 2 80 /\
  snd r = Asked 3 (NfsRead (mkRead (handle_for (m_ino (dk_info d 70))) 0 4 0)) /\
  dk_content d 70 = [1; 2; 3] /\ dk_content d' 80 = [9; 9; 9; 9] /\
  exists fattr, nth 1 (snd (served Little [y; r])) [] = [(1, std_reply 3 (std_read_result fattr (dk_content d' 80)))].
Proof.
  exists disk1, disk3, (find_x disk1 1), (find_x disk3 2), (demo_read (os_on disk3) 3 (handle_for 7) 0 4).
  assert (E2 : open_files (fst (nfs_turn Little (fst (find_x disk3 2)) service_new)) = [80]) by (vm_compute; reflexivity).
  split; [constructor; [change (open_files service_new) with (@nil fid); good_change|reflexivity|constructor]|].
  split; [eexists; split; [reflexivity|split; vm_compute; reflexivity]|].
  split; [good_change|].
  split; [constructor; [change (open_files service_new) with (@nil fid); good_change|reflexivity|];
          constructor; [rewrite E2; good_change|reflexivity|constructor]|].
  split; [eexists; split; [reflexivity|split; vm_compute; reflexivity]|].
  split; [reflexivity|]. split; [reflexivity|]. split; [reflexivity|].
  at_byte 28%nat.
Qed.
Print Assumptions C89_handle_after_restart_refuted.

(** The handle of a folder is not kept: folders are not held open.  When the folder
    is removed and its inode number used again, its handle reads the file that has
    it, in the same service. *)
Theorem C89_folder_handle_refuted : exists d d' x y r,
  on_disk Little service_new d [(d, x); (d', y); (d', r)] /\
  dk_names d (lit "/d") = Some 50 /\ m_dir (dk_info d 50) = true /\
  (exists fattr, nth 0 (snd (served Little [x; y; r])) [] =
     [(1, std_reply 1 (std_lookup_result (handle_for (m_ino (dk_info d 50))) fattr))]) /\
  looks_up [(d, x)] d' y 2 90 /\
  snd r = Asked 3 (NfsRead (mkRead (handle_for (m_ino (dk_info d 50))) 0 4 0)) /\
  exists fattr, nth 2 (snd (served Little [x; y; r])) [] = [(1, std_reply 3 (std_read_result fattr (dk_content d' 90)))].
Proof.
  exists disk1, disk4, (find_d disk1 1), (find_y disk4 2), (demo_read (os_on disk4) 3 (handle_for 5) 0 4).
  assert (E2 : open_files (fst (nfs_turn Little (fst (find_d disk1 1)) service_new)) = []) by (vm_compute; reflexivity).
  assert (E3 : open_files (fst (nfs_turn Little (fst (find_y disk4 2)) (fst (nfs_turn Little (fst (find_d disk1 1)) service_new)))) = [90])
    by (vm_compute; reflexivity).
  split; [constructor; [change (open_files service_new) with (@nil fid); good_change|reflexivity|];
          constructor; [rewrite E2; good_change|reflexivity|]; constructor; [rewrite E3; good_change|reflexivity|constructor]|].
  split; [vm_compute; reflexivity|]. split; [vm_compute; reflexivity|].
  split; [at_byte 60%nat|].
  split; [eexists; split; [reflexivity|split; vm_compute; reflexivity]|].
  split; [reflexivity|]. at_byte 28%nat.
Qed.
Print Assumptions C89_folder_handle_refuted.

(** A lookup looks twice, at the attributes and then at the file.  If the name is
    given to another file between the two, the answer is the handle and the
    attributes of the first file, and the handle reads the second. *)
Theorem C89_raced_lookup_refuted : exists d d' x r,
  disk_ok [] d /\ may_become [] d d' /\
  ni_os (fst x) = mkOs (os_stat (os_on d)) (os_open (os_on d')) (os_content (os_on d')) (os_fstat (os_on d')) /\
  ni_os (fst r) = os_on d' /\
  snd x = Asked 1 (NfsLookup (mkLookup (lit "/x") (repeat 0 32))) /\
  dk_names d (lit "/x") = Some 70 /\ dk_names d' (lit "/x") = Some 80 /\
  m_ino (dk_info d 70) <> m_ino (dk_info d' 80) /\
  (exists fattr, nth 0 (snd (served Little [x; r])) [] =
     [(1, std_reply 1 (std_lookup_result (handle_for (m_ino (dk_info d 70))) fattr))]) /\
  snd r = Asked 3 (NfsRead (mkRead (handle_for (m_ino (dk_info d 70))) 0 4 0)) /\
  dk_content d' 80 = [9; 9; 9; 9] /\
  exists fattr, nth 1 (snd (served Little [x; r])) [] = [(1, std_reply 3 (std_read_result fattr (dk_content d' 80)))].
Proof.
  exists disk1, disk2, (demo_lookup (mkOs (os_stat (os_on disk1)) (os_open (os_on disk2)) (os_content (os_on disk2)) (os_fstat (os_on disk2)))
    1 (lit "/x") (repeat 0 32)), (demo_read (os_on disk2) 3 (handle_for 7) 0 4).
  split; [good_disk|]. split; [good_change|]. split; [reflexivity|]. split; [reflexivity|]. split; [reflexivity|].
  split; [vm_compute; reflexivity|]. split; [vm_compute; reflexivity|]. split; [vm_compute; discriminate|].
  split; [at_byte 60%nat|]. split; [reflexivity|]. split; [reflexivity|].
  at_byte 28%nat.
Qed.
Print Assumptions C89_raced_lookup_refuted.
