(** Property theorems C67: loading a track that was shown. *)

From Verif Require Import Base Unicode MPath MDb MDatabase MScan MLib SDb SDatabase SLib SScan SEnd
  SUdp MRpc SRpc MNetwork MRpcServer SRpcServer MNfs SNfs SLoad MPackets MServer MStatus MSystem SSystem
  LBase LUnicode LScan LDatabase LEnd LNfs LLoad PDatabase PLib PScan PNfs PEnd PSystem.
From Coq Require Import ZArith Arith String.
Open Scope list_scope.
Open Scope N_scope.

(** ** C67 *)

(** The path a player is given is an absolute path with exactly one list of
    parts, and these are the names of a music file. *)
Theorem C67_path_parts : forall p h root rname tree l d q t path size rnames,
  indexed_folder p h root rname tree l d -> short_page l (TrackMountInfo t) -> asking_ok p h d q -> str_ok path ->
  gives_path p h d q t path size -> root = absolute rnames -> Forall component rnames ->
  exists cs, parts path cs /\ (forall cs', parts path cs' -> cs' = cs) /\ cs <> [] /\
    exists names s, music root rname tree names s /\ s_size s = size /\
      map utf8_encode cs = rnames ++ names.
Proof.
  intros p h root rname tree l d q t path size rnames Ix Sh Q Sp G Er Cr.
  pose proof Ix as (_ & Ht & _ & Hn & Hr & Hs & Hl & _).
  pose proof (scan_is_music p root rname tree l Ht Hn Hr Hs) as M.
  apply (gives_path_iff p h root rname tree l d Ix q t path size Sh Q Sp) in G.
  destruct G as (s & T & Ep & Ez).
  assert (Is : In s l) by (apply track_in; exists t; assumption).
  destruct (proj1 (M s) Is) as [names Mu]. pose proof Mu as (f & If & _ & _ & (z & _ & _ & P & _)).
  assert (Cn : Forall component (rnames ++ names)).
  { apply Forall_app. split; [exact Cr|]. eapply Forall_impl; [|exact (files_names_ok tree Ht names f If)].
    intros n (N1 & N2 & _). split; assumption. }
  assert (Ea : utf8_encode path = absolute (rnames ++ names)).
  { rewrite <- Ep, P, Er. unfold below, absolute. rewrite flat_map_app. reflexivity. }
  destruct (parts_of_bytes path _ Sp Cn Ea) as (cs & Pc & Mc & _).
  exists cs. split; [exact Pc|]. split; [intros cs' Pc'; exact (parts_unique _ _ _ Pc' Pc)|]. split.
  - intros ->. cbn [map] in Mc. destruct rnames as [|r0 rn]; [|discriminate]. cbn in Er. subst root.
    destruct Hr as [<-|[par E]]; [destruct Hn as [Hn _]; congruence|destruct par; discriminate].
  - exists names, s. auto.
Qed.
Print Assumptions C67_path_parts.

(** Walking and reading, each piece from what the file then holds. *)
Lemma load_each : forall p h root rname tree l d q t path size rnames before walk reads ino f contents cnt,
  indexed_folder p h root rname tree l d -> short_page l (TrackMountInfo t) -> asking_ok p h d q -> str_ok path ->
  gives_path p h d q t path size -> root = absolute rnames -> Forall component rnames ->
  goes_well Little before -> position before = [47] -> looks_up path walk ->
  exists names s, music root rname tree names s /\ s_size s = size /\ below root names = utf8_encode path /\
  (on_disk (rnames ++ names) walk ino f ->
   reads_pieces (handle_for ino) cnt reads -> has_contents f contents reads ->
   cnt <= 65404 ->
   exists found got,
     snd (served Little (before ++ walk ++ reads)) =
       snd (served Little before) ++ map (fun o => [o]) found ++ map (fun g => [snd g]) got /\
     (exists to xid fattr, last found (0, []) = (to, std_reply xid (std_lookup_result (handle_for ino) fattr))) /\
     List.length found = List.length walk /\
     Forall2 (fun x g => data_reply x (fst g) (snd g)) reads got /\
     forall k g c, nth_error got k = Some g -> nth_error contents k = Some c -> range_with_zeros c (cnt * N.of_nat k) cnt (fst g)).
Proof.
  intros p h root rname tree l d q t path size rnames before walk reads ino f contents cnt Ix Sh Q Sp G Er Cr W P0 Lk.
  destruct (C67_path_parts p h root rname tree l d q t path size rnames Ix Sh Q Sp G Er Cr)
    as (cs & Pc & Pu & Nc & names & s & Mu & Ez & Mc).
  exists names, s. split; [exact Mu|]. split; [exact Ez|]. split.
  { destruct Pc as [Ep _]. rewrite Ep, utf8_parts, Mc. unfold below. rewrite Er. unfold absolute. rewrite flat_map_app. reflexivity. }
  intros (Li & Od) Rp Hc Le.
  destruct Lk as (cs' & Pc' & F2). rewrite (Pu _ Pc') in F2. pose proof (walks_of _ _ F2) as Wk. rewrite Mc in Wk.
  assert (Ln : List.length (rnames ++ names) = List.length walk).
  { clear -Wk. unfold walks in Wk. induction Wk; cbn [List.length]; congruence. }
  assert (Ne : rnames ++ names <> []) by (rewrite <- Mc; destruct cs; [congruence|discriminate]).
  assert (Cn : Forall component (rnames ++ names)).
  { apply Forall_app. split; [exact Cr|]. destruct Ix as (_ & Ht & _). destruct Mu as (f0 & If & _).
    eapply Forall_impl; [|exact (files_names_ok tree Ht names f0 If)]. intros n (N1 & N2 & _). split; assumption. }
  destruct (C48_walk Little before (rnames ++ names) walk W P0 Cn Ne Wk) as (W1 & P1 & Rs & La).
  { intros j x Hj. destruct (Od j x Hj) as (m & f' & H1 & H2 & H3 & H4 & _). exists m, f'. auto. }
  assert (K : exists x0, nth_error walk (List.length walk - 1) = Some x0).
  { destruct (nth_error walk (List.length walk - 1)) eqn:E; [eauto|]. apply nth_error_None in E.
    destruct walk; [|cbn [List.length] in E; lia]. destruct (rnames ++ names); [congruence|discriminate]. }
  destruct K as [x0 K].
  assert (Lw : (List.length walk - 1 + 1)%nat = List.length walk).
  { destruct walk; [destruct (rnames ++ names); [congruence|discriminate]|cbn [List.length]; lia]. }
  destruct (Od _ _ K) as (m0 & f0 & St & Op & Tk & _ & Fi). rewrite Lw, <- Ln in Fi. destruct (Fi eq_refl) as [Ei ->].
  assert (Fn : firstn (List.length walk - 1 + 1) (rnames ++ names) = rnames ++ names) by (rewrite Lw, <- Ln; apply firstn_all).
  rewrite Fn in St, Op. rewrite Ln in La. pose proof (La x0 m0 f K St Op) as L. rewrite Ei in L.
  destruct (reads_answered (before ++ walk) ino f contents cnt reads W1 L Li Le Rp Hc) as (_ & _ & got & Fg & Og & Rg).
  (* the replies of the walk *)
  assert (Ow : exists found, List.length found = List.length walk /\
     snd (served Little (before ++ walk)) = snd (served Little before) ++ map (fun o => [o]) found /\
     exists to xid fattr, last found (0, []) = (to, std_reply xid (std_lookup_result (handle_for ino) fattr))).
  { unfold served at 1. rewrite map_app, run_app. cbn [snd]. fold (served Little before).
    set (o2 := snd (nfs_run Little (map fst walk) (fst (served Little before)))).
    assert (Lo : List.length o2 = List.length walk) by (unfold o2; rewrite run_length, map_length; reflexivity).
    assert (Nw : forall j x, nth_error walk j = Some x -> exists to xid m fattr,
       nth j o2 [] = [(to, std_reply xid (std_lookup_result (handle_for (m_ino m)) fattr))] /\
       os_stat (ni_os (fst x)) (absolute (firstn (j + 1) (rnames ++ names))) = Some m).
    { intros j x Hj. destruct (Od j x Hj) as (m & f' & H1 & _).
      assert (exists xid pr, snd x = Asked xid pr) as (xid & pr & Ex).
      { clear -F2 Hj. revert j Hj. induction F2 as [|c y cs walk (hh & A) _ IH]; intros [|j] Hj; try discriminate.
        - injection Hj as ->. destruct (asks_heard _ _ A) as (_ & _ & _ & xid & E). eauto.
        - exact (IH j Hj). }
      destruct (Rs j x xid pr m Hj Ex H1) as (fattr & _ & O).
      exists (ni_from (fst x)), xid, m, fattr. split; [|exact H1].
      unfold served at 1 in O. rewrite map_app, run_app in O. cbn [snd] in O. fold (served Little before) in O. fold o2 in O.
      rewrite app_nth2 in O by (unfold served; rewrite run_length, map_length; lia).
      replace (List.length before + j - List.length (snd (served Little before)))%nat with j in O
        by (unfold served; rewrite run_length, map_length; lia). exact O. }
    clearbody o2. exists (map (fun o => hd (0, []) o) o2). split; [rewrite map_length; exact Lo|]. split.
    - f_equal. rewrite map_map. rewrite <- (map_id o2) at 1. apply map_ext_in. intros o I.
      destruct (In_nth_error _ _ I) as [j Hj].
      assert (Hx : (j < List.length walk)%nat) by (rewrite <- Lo; apply nth_error_Some; intros Z; discriminate (eq_trans (eq_sym Hj) Z)).
      apply nth_error_Some in Hx. destruct (nth_error walk j) as [x|] eqn:Ex; [|congruence].
      destruct (Nw j x Ex) as (to & xid & m & fattr & E & _). apply nth_error_nth with (d := []) in Hj. pose proof (eq_trans (eq_sym Hj) E) as Eo.
      rewrite Eo. reflexivity.
    - destruct (Nw _ _ K) as (to & xid & m & fattr & E & St'). rewrite Fn, St in St'. injection St' as <-.
      exists to, xid, fattr. rewrite <- Ei.
      assert (Nz : o2 <> []) by (intros Z; rewrite Z in Lo; cbn [List.length] in Lo; lia).
      destruct (exists_last Nz) as (o3 & z & Eo). rewrite Eo, map_app. cbn [map]. rewrite last_last.
      rewrite Eo in Lo, E. rewrite app_length in Lo. cbn [List.length] in Lo.
      rewrite app_nth2 in E by lia. replace (List.length walk - 1 - List.length o3)%nat with 0%nat in E by lia.
      cbn [nth] in E. rewrite E. reflexivity. }
  destruct Ow as (found & Lf & Of & Lastf). exists found, got.
  rewrite app_assoc, Og, Of, <- app_assoc. split; [reflexivity|]. split; [exact Lastf|]. split; [exact Lf|]. split; [exact Fg|exact Rg].
Qed.

(** A player that walks along the path it was given and reads the file in pieces,
    after any earlier calls that went well and left no walk unfinished, gets the
    file's handle and then exactly its bytes. *)
Theorem C67_load : forall p h root rname tree l d q t path size rnames before walk reads ino f content cnt,
  indexed_folder p h root rname tree l d -> short_page l (TrackMountInfo t) -> asking_ok p h d q -> str_ok path ->
  gives_path p h d q t path size -> root = absolute rnames -> Forall component rnames ->
  goes_well Little before -> position before = [47] -> looks_up path walk ->
  exists names s, music root rname tree names s /\ s_size s = size /\ below root names = utf8_encode path /\
  (on_disk (rnames ++ names) walk ino f ->
   reads_pieces (handle_for ino) cnt reads -> has_content f content reads ->
   cnt <= 65404 -> len content = size -> size <= cnt * len reads ->
   exists found got,
     snd (served Little (before ++ walk ++ reads)) =
       snd (served Little before) ++ map (fun o => [o]) found ++ map (fun g => [snd g]) got /\
     (exists to xid fattr, last found (0, []) = (to, std_reply xid (std_lookup_result (handle_for ino) fattr))) /\
     List.length found = List.length walk /\
     Forall2 (fun x g => data_reply x (fst g) (snd g)) reads got /\
     firstn (N.to_nat size) (List.concat (map fst got)) = content).
Proof.
  intros p h root rname tree l d q t path size rnames before walk reads ino f content cnt Ix Sh Q Sp G Er Cr W P0 Lk.
  destruct (load_each p h root rname tree l d q t path size rnames before walk reads ino f
              (repeat content (List.length reads)) cnt Ix Sh Q Sp G Er Cr W P0 Lk)
    as (names & s & Mu & Ez & Eb & H).
  exists names, s. split; [exact Mu|]. split; [exact Ez|]. split; [exact Eb|]. intros Od Rp Hc Le Lc Lr.
  destruct (H Od Rp (same_contents _ _ _ Hc) Le) as (found & got & O & La & Lf & F & Rg).
  exists found, got. split; [exact O|]. split; [exact La|]. split; [exact Lf|]. split; [exact F|].
  assert (Lg : List.length got = List.length reads) by (clear -F; induction F; cbn [List.length]; congruence).
  pose proof (pieces_join content cnt (map fst got) 0) as J. rewrite N.sub_0_r, Lc in J. apply J.
  - intros k data Hk. rewrite N.add_0_l. rewrite nth_error_map in Hk. destruct (nth_error got k) as [g|] eqn:Eg; [|discriminate].
    injection Hk as <-. apply (Rg k g content Eg). rewrite nth_error_repeat; [reflexivity|].
    rewrite <- Lg. apply nth_error_Some. congruence.
  - unfold len in *. rewrite map_length, Lg. lia.
Qed.
Print Assumptions C67_load.

(** The same in the running process, whatever its other parts do meanwhile: the
    datagrams an NFS service has received since it was started are earlier calls,
    the walk and the reads. *)
Theorem C67_load_in_process : forall p h root rname tree l d q t path size rnames before walk reads ino f content cnt
    mp db start j run_on port,
  indexed_folder p h root rname tree l d -> short_page l (TrackMountInfo t) -> asking_ok p h d q -> str_ok path ->
  gives_path p h d q t path size -> root = absolute rnames -> Forall component rnames ->
  goes_well Little before -> position before = [47] -> looks_up path walk ->
  let s := fst (sys_run Little p h d start (system_start true true mp db)) in
  let s' := fst (sys_step Little p h d (SysMapper j) s) in
  let outs := snd (sys_run Little p h d run_on s') in
  starts (snd (sys_step Little p h d (SysMapper j) s)) NfsService port ->
  process_runs (start ++ SysMapper j :: run_on) ->
  (forall os v, In os outs -> ~ starts os v port) ->
  udp_inputs port run_on = map fst (before ++ walk ++ reads) ->
  exists names sc, music root rname tree names sc /\ s_size sc = size /\ below root names = utf8_encode path /\
  (on_disk (rnames ++ names) walk ino f ->
   reads_pieces (handle_for ino) cnt reads -> has_content f content reads ->
   cnt <= 65404 -> len content = size -> size <= cnt * len reads ->
   exists earlier got,
     udp_outputs port (List.concat outs) = earlier ++ map snd got /\
     Forall2 (fun x g => data_reply x (fst g) (snd g)) reads got /\
     firstn (N.to_nat size) (List.concat (map fst got)) = content).
Proof.
  intros p h root rname tree l d q t path size rnames before walk reads ino f content cnt mp db start j run_on port
    Ix Sh Q Sp G Er Cr W P0 Lk s s' outs S R Ns U.
  destruct (C67_load p h root rname tree l d q t path size rnames before walk reads ino f content cnt Ix Sh Q Sp G Er Cr W P0 Lk)
    as (names & sc & Mu & Ez & Eb & H).
  exists names, sc. split; [exact Mu|]. split; [exact Ez|]. split; [exact Eb|]. intros Od Rp Hc Le Lc Lr.
  destruct (H Od Rp Hc Le Lc Lr) as (found & got & O & _ & _ & F & D).
  exists (List.concat (snd (served Little before)) ++ found), got. split; [|split; [exact F|exact D]].
  unfold outs, s', s. rewrite (C63_nfs_service_alone Little p h d mp db start j run_on port S R Ns).
  rewrite U. fold (served Little (before ++ walk ++ reads)). rewrite O, !concat_app, <- app_assoc. f_equal.
  assert (C : forall A (l : list A), List.concat (map (fun o => [o]) l) = l).
  { clear. intros A l. induction l as [|a l IH]; [reflexivity|]. cbn [map List.concat app]. congruence. }
  rewrite C. f_equal. rewrite <- (map_map snd (fun o => [o])). apply C.
Qed.
Print Assumptions C67_load_in_process.

(** The example folder on a disk, loaded in two pieces. *)
Definition example_os : os :=
  let file p := if list_eq_dec N.eq_dec p (lit "/home") then Some (demo_meta true 2 4096, 20)
           else if list_eq_dec N.eq_dec p (lit "/home/TermDJ") then Some (demo_meta true 3 4096, 30)
           else if list_eq_dec N.eq_dec p (lit "/home/TermDJ/sub") then Some (demo_meta true 4 4096, 40)
           else if list_eq_dec N.eq_dec p (lit "/home/TermDJ/sub/five.old.mp3") then Some (demo_meta false 5 7, 50)
           else None in
  mkOs (fun p => option_map fst (file p)) (fun p => option_map snd (file p))
       (fun f => if f =? 50 then Some [1; 2; 3; 4; 5; 6; 7] else None)
       (fun f => if f =? 50 then Some (demo_meta false 5 7) else None).
Definition example_walk : history :=
  [demo_lookup example_os 1 (lit "home") (repeat 0 32); demo_lookup example_os 2 (lit "TermDJ") (repeat 0 32);
   demo_lookup example_os 3 (lit "sub") (repeat 0 32); demo_lookup example_os 4 (lit "five.old.mp3") (repeat 0 32)].
Definition example_reads : history := [demo_read example_os 5 (handle_for 5) 0 4; demo_read example_os 6 (handle_for 5) 4 4].

Lemma demo_asks : forall xid p proc args o, word_ok xid -> std_args p Nfs proc args ->
  forallb (fun b => b <? 256) (demo_call xid proc args) = true ->
  asks p (mkNfsIn (demo_call xid proc args) 1 o true true, Asked xid p).
Proof.
  intros xid p proc args o Hx A H. exists xid. split; [|split; reflexivity].
  exists 2, 2, 0, 0, 0, proc, args. repeat (split; [try assumption; reflexivity|]).
  split; [exact (demo_bytes _ H)|]. reflexivity.
Qed.

Example C67_case :
  looks_up (lit "/home/TermDJ/sub/five.old.mp3") example_walk /\
  on_disk ([lit "home"; lit "TermDJ"] ++ [lit "sub"; lit "five.old.mp3"]) example_walk 5 50 /\
  reads_pieces (handle_for 5) 4 example_reads /\ has_content 50 [1; 2; 3; 4; 5; 6; 7] example_reads /\
  lit "/home/TermDJ" = absolute [lit "home"; lit "TermDJ"] /\ goes_well Little [].
Proof.
  split; [|split; [|split; [|split; [|split; [reflexivity|]]]]].
  - exists [lit "home"; lit "TermDJ"; lit "sub"; lit "five.old.mp3"]. split; [split; [reflexivity|]|].
    + repeat constructor; try discriminate; vm_compute; intuition discriminate.
    + repeat constructor; exists (repeat 0 32); apply demo_asks; try reflexivity; constructor; try reflexivity; apply ascii_ok; reflexivity.
  - split; [reflexivity|]. intros [|[|[|[|j]]]] x Hx; try (destruct j; discriminate); injection Hx as <-;
      do 2 eexists; (split; [vm_compute; reflexivity|]); (split; [vm_compute; reflexivity|]);
      (split; [repeat split; discriminate|]); split; try reflexivity; intros E; try discriminate E; split; reflexivity.
  - intros [|[|k]] x Hx; try (destruct k; discriminate); injection Hx as <-; exists 0; apply demo_asks; try reflexivity;
      constructor; reflexivity.
  - repeat constructor; exists (demo_meta false 5 7); repeat split; discriminate.
  - split; [constructor|]. split; intros [|k] x E; discriminate.
Qed.
