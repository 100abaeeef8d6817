(** Property theorems C92: what reaches a client of the database over a connection
    that can fail. *)

From Verif Require Import Base Unicode MDb MDatabase MFixtures MLib MStream SDb SLib SStream LBase LDb PDatabase PLib.
From Coq Require Import ZArith String Lia.
Open Scope N_scope.
Open Scope list_scope.

Lemma flush_split : forall f b w k ok, flush f b = (w, k, ok) -> b = w ++ k.
Proof.
  intros f b w k ok H. unfold flush in H. destruct b as [|x b]; [inversion H; reflexivity|].
  destruct f as [n|]; inversion H; subst.
  - symmetry. apply firstn_skipn.
  - symmetry. apply app_nil_r.
Qed.

Lemma send_split : forall f s a b w k ok, framed_send f s a b = (w, k, ok) ->
  (b ++ a = w ++ k) \/ (8192 <= len b /\ f <> None /\ b = w ++ k).
Proof.
  intros f s a b w k ok H. unfold framed_send in H. destruct (N.leb_spec 8192 (len b)).
  - destruct (flush f b) as [[w1 k1] ok1] eqn:F. pose proof (flush_split _ _ _ _ _ F) as E. destruct ok1.
    + destruct (flush s (k1 ++ a)) as [[w2 k2] ok2] eqn:G. apply flush_split in G. inversion H; subst.
      left. rewrite <- !app_assoc, G. reflexivity.
    + right. inversion H; subst. split; [assumption|]. split; [|reflexivity].
      intros ->. unfold flush in F. destruct (w ++ k); inversion F.
  - left. eapply flush_split. exact H.
Qed.

(** After a failure that lasts nothing more is written. *)
Lemma broken : forall A S (g : S -> A -> res (bytes * S)) es c, (forall c' f s, In (Arrives c' f s) es -> f = Some 0 /\ s = Some 0) ->
  List.concat (snd (stream_turns g c es)) = [].
Proof.
  intros A S g. induction es as [|e es IH]; intros c B; cbn [stream_turns]; [reflexivity|].
  destruct (stream_turn g c e) as [c' w] eqn:T.
  specialize (IH c' (fun x f s I => B x f s (or_intror I))).
  destruct (stream_turns g c' es) as [c'' ws]. cbn [snd List.concat] in *. rewrite IH, app_nil_r.
  assert (Z : forall b, fst (fst (flush (Some 0) b)) = []) by (intros [|x b]; reflexivity).
  unfold stream_turn in T. destruct c as [[st buf]|]; [|inversion T; reflexivity].
  destruct e as [chunk f s|ends|]; try (inversion T; reflexivity).
  destruct (g st chunk) as [[a st']| |]; try (inversion T; reflexivity).
  destruct (B chunk f s (or_introl eq_refl)) as [-> ->].
  unfold framed_send in T. destruct (8192 <=? len buf).
  - pose proof (Z buf) as Zb. destruct (flush (Some 0) buf) as [[w1 k1] ok1] eqn:F. cbn [fst] in Zb. subst w1.
    destruct ok1.
    + pose proof (Z (k1 ++ a)) as Zc. destruct (flush (Some 0) (k1 ++ a)) as [[w2 k2] ok2]. cbn [fst] in Zc. subst w2.
      inversion T; reflexivity.
    + inversion T; reflexivity.
  - pose proof (Z (buf ++ a)) as Zc. destruct (flush (Some 0) (buf ++ a)) as [[w2 k2] ok2]. cbn [fst] in Zc. subst w2.
    inversion T; reflexivity.
Qed.

Lemma snd_cons : forall S (t : option (S * bytes) * list bytes) w, snd (let (c, ws) := t in (c, w :: ws)) = w :: snd t.
Proof. intros S [? ?] w. reflexivity. Qed.

Lemma fst_cons : forall S (t : option (S * bytes) * list bytes) w, fst (let (c, ws) := t in (c, w :: ws)) = fst t.
Proof. intros S [? ?] w. reflexivity. Qed.

Lemma failure_lasts_tail : forall A (e : stream_event A) es, failure_lasts (e :: es) -> failure_lasts es.
Proof.
  intros A e es H before c f s after -> Hs. apply (H (e :: before) c f s after); [reflexivity|exact Hs].
Qed.

Lemma ended : forall A S (g : S -> A -> res (bytes * S)) es, List.concat (snd (stream_turns g None es)) = [].
Proof.
  intros A S g. induction es as [|e es IH]; cbn [stream_turns stream_turn]; [reflexivity|].
  destruct (stream_turns g None es). exact IH.
Qed.

(** What is handed to the connection, chunk after chunk. *)
Fixpoint replies {A S} (g : S -> A -> res (bytes * S)) (st : S) (xs : list A) : list bytes :=
  match xs with
  | [] => []
  | x :: xs => match g st x with Ok (a, st) => a :: replies g st xs | _ => [] end
  end.

Lemma serve_replies : forall p h d chunks st, serve p h d st chunks = replies (process p h d) st chunks.
Proof.
  intros p h d. induction chunks as [|c chunks IH]; intros st; cbn [serve replies]; [reflexivity|].
  destruct (process p h d st c) as [[a st']| |]; [rewrite IH|..]; reflexivity.
Qed.

Lemma in_order : forall A S (g : S -> A -> res (bytes * S)) es st, failure_lasts es ->
  exists missing, List.concat (replies g st (arrived es)) =
    List.concat (snd (stream_turns g (Some (st, [])) es)) ++ missing.
Proof.
  intros A S g.
  induction es as [|e es IH]; intros st L; cbn [stream_turns arrived]; [exists []; reflexivity|].
  pose proof (failure_lasts_tail _ _ _ L) as Lt. destruct e as [chunk f s|[|]|]; cbn [stream_turn].
  - cbn [replies]. destruct (g st chunk) as [[a st']| |].
    2,3: pose proof (ended _ _ g es) as E; destruct (stream_turns g None es); cbn [snd] in *;
         exists []; cbn [List.concat]; rewrite E; reflexivity.
    unfold framed_send. change (8192 <=? len (@nil N)) with false. cbn [app].
    destruct s as [n|].
    + destruct (flush (Some n) a) as [[w k] ok] eqn:F. pose proof (flush_split _ _ _ _ _ F) as E.
      assert (Br : List.concat (snd (stream_turns g (Some (st', k)) es)) = []).
      { apply broken. apply (L [] chunk f (Some n) es); [reflexivity|discriminate]. }
      destruct (stream_turns g (Some (st', k)) es) as [c' ws]. cbn [snd List.concat] in *. rewrite Br, app_nil_r, E.
      eexists. rewrite <- app_assoc. reflexivity.
    + assert (F : flush None a = (a, [], true)) by (destruct a; reflexivity). rewrite F.
      destruct (IH st' Lt) as [m M]. rewrite snd_cons. cbn [List.concat]. rewrite M. exists m. rewrite app_assoc. reflexivity.
  - pose proof (ended _ _ g es) as E. destruct (stream_turns g None es). cbn [snd] in *. exists []. cbn. rewrite E. reflexivity.
  - destruct (IH st Lt) as [m M]. rewrite snd_cons. exists m. exact M.
  - pose proof (ended _ _ g es) as E. destruct (stream_turns g None es). cbn [snd] in *. exists []. cbn. rewrite E. reflexivity.
Qed.

(** If a failure of the connection lasts, as failures of TCP do, a client has at
    any time received the answers to its chunks, one after the other, up to some
    byte: none is lost or doubled or late. *)
Theorem C92_received_in_order : forall p h d es, failure_lasts es ->
  exists missing, List.concat (serve p h d None (arrived es)) = List.concat (snd (stream_run p h d es)) ++ missing.
Proof. intros p h d es L. rewrite serve_replies. apply in_order. exact L. Qed.
Print Assumptions C92_received_in_order.

Lemma all_received : forall A S (g : S -> A -> res (bytes * S)) es st, no_write_fails es ->
  filter (fun w => negb (len w =? 0)) (snd (stream_turns g (Some (st, [])) es)) =
  filter (fun w => negb (len w =? 0)) (replies g st (arrived es)).
Proof.
  intros A S g.
  assert (Ended : forall es, filter (fun w => negb (len w =? 0)) (snd (stream_turns g None es)) = []).
  { clear. induction es as [|e es IH]; cbn [stream_turns stream_turn]; [reflexivity|].
    destruct (stream_turns g None es). exact IH. }
  induction es as [|e es IH]; intros st L; cbn [stream_turns arrived]; [reflexivity|].
  assert (Lt : no_write_fails es) by (intros c f s I; apply (L c f s); right; exact I).
  destruct e as [chunk f s|[|]|]; cbn [stream_turn].
  - cbn [replies]. destruct (g st chunk) as [[a st']| |].
    2,3: specialize (Ended es); destruct (stream_turns g None es); exact Ended.
    destruct (L chunk f s (or_introl eq_refl)) as [-> ->].
    unfold framed_send. change (8192 <=? len (@nil N)) with false. cbn [app].
    assert (F : flush None a = (a, [], true)) by (destruct a; reflexivity). rewrite F.
    specialize (IH st' Lt). rewrite snd_cons. cbn [filter]. destruct (negb (len a =? 0)); [f_equal|]; exact IH.
  - specialize (Ended es). destruct (stream_turns g None es). exact Ended.
  - specialize (IH st Lt). rewrite snd_cons. exact IH.
  - specialize (Ended es). destruct (stream_turns g None es). exact Ended.
Qed.


(** If no write fails, the answers have arrived: to each chunk its own, at once.
    Reads that fail without ending the stream change nothing. *)
Theorem C92_all_received : forall p h d es, no_write_fails es ->
  filter (fun w => negb (len w =? 0)) (snd (stream_run p h d es)) =
  filter (fun w => negb (len w =? 0)) (serve p h d None (arrived es)).
Proof. intros p h d es L. rewrite serve_replies. apply all_received. exact L. Qed.
Print Assumptions C92_all_received.

Lemma received_some : forall A S (g : S -> A -> res (bytes * S)) es st buf,
  exists kept waiting, some_of kept (replies g st (arrived es)) /\
    buf ++ List.concat kept = List.concat (snd (stream_turns g (Some (st, buf)) es)) ++ waiting /\
    (forall st' b, fst (stream_turns g (Some (st, buf)) es) = Some (st', b) -> waiting = b) /\
    (len buf + len (List.concat (replies g st (arrived es))) < 8192 -> kept = replies g st (arrived es)).
Proof.
  intros A S g. induction es as [|e es IH]; intros st buf; cbn [stream_turns arrived].
  { exists [], buf. cbn [replies]. split; [constructor|]. split; [apply app_nil_r|]. split; [|reflexivity].
    intros st' b H. inversion H. reflexivity. }
  assert (Gone : forall w, (exists kept waiting, some_of kept (@nil bytes) /\
      buf ++ List.concat kept = List.concat (snd (let (c, ws) := stream_turns g None es in (c, w :: ws))) ++ waiting /\
      (forall st' b, fst (let (c, ws) := stream_turns g None es in (c, w :: ws)) = Some (st', b) -> waiting = b) /\
      (len buf + len (List.concat (@nil bytes)) < 8192 -> kept = [])) \/ w <> []).
  { intros w. destruct w; [left|right; discriminate].
    assert (G : forall es, fst (stream_turns g None es) = None).
    { clear. induction es as [|e es IH]; cbn [stream_turns stream_turn]; [reflexivity|].
      destruct (stream_turns g None es). exact IH. }
    pose proof (ended _ _ g es) as E. specialize (G es). destruct (stream_turns g None es) as [c ws]. cbn [fst snd] in *.
    exists [], buf. split; [constructor|]. split; [cbn [List.concat app]; rewrite E; apply app_nil_r|]. split; [congruence|reflexivity]. }
  destruct (Gone []) as [Go|F]; [|contradiction]. clear Gone.
  destruct e as [chunk f s|[|]|]; cbn [stream_turn].
  - cbn [replies]. destruct (g st chunk) as [[a st']| |]; [|exact Go|exact Go].
    destruct (framed_send f s a buf) as [[w k] ok] eqn:Sp. apply send_split in Sp.
    destruct (IH st' k) as (kept & waiting & K1 & K2 & K3 & K4).
    rewrite snd_cons, fst_cons. cbn [List.concat].
    destruct Sp as [Sp|(S1 & S2 & S3)].
    + exists (a :: kept), waiting. split; [constructor; assumption|]. split; [|split; [assumption|]].
      * cbn [List.concat]. rewrite app_assoc, Sp, <- app_assoc, K2, app_assoc. reflexivity.
      * intros Lt. rewrite K4; [reflexivity|]. rewrite len_app in Lt.
        assert (len buf + len a = len w + len k) by (rewrite <- !len_app, Sp; reflexivity). lia.
    + exists kept, waiting. split; [constructor; assumption|]. split; [|split; [assumption|]].
      * rewrite S3, <- app_assoc, K2, app_assoc. reflexivity.
      * intros Lt. exfalso. lia.
  - exact Go.
  - destruct (IH st buf) as (kept & waiting & K1 & K2 & K3 & K4).
    rewrite snd_cons, fst_cons. cbn [List.concat app].
    exists kept, waiting. tauto.
  - exact Go.
Qed.

(** However writes fail and succeed again: what was written, with what still waits
    to be, are some of the answers, whole and in order; all of them as long as they
    are less than 8192 bytes together. *)
Theorem C92_whole_answers : forall p h d es,
  exists kept waiting, some_of kept (serve p h d None (arrived es)) /\
    List.concat kept = List.concat (snd (stream_run p h d es)) ++ waiting /\
    (forall st b, fst (stream_run p h d es) = Some (st, b) -> waiting = b) /\
    (len (List.concat (serve p h d None (arrived es))) < 8192 -> kept = serve p h d None (arrived es)).
Proof. intros p h d es. rewrite serve_replies. exact (received_some _ _ (process p h d) es None []). Qed.
Print Assumptions C92_whole_answers.

(** A send that reports success has written everything that waited and all of the
    answer; it reports a failure exactly if the system failed a write that it had to
    make: of what waited, if that is 8192 bytes or more, or of all there is. *)
Theorem C92_send_reports : forall first second item buffer,
  let '(written, kept, ok) := MStream.framed_send first second item buffer in
  (ok = true -> written = buffer ++ item /\ kept = []) /\
  (ok = false <->
   (8192 <= len buffer /\ first <> None) \/
   (8192 <= len buffer /\ first = None /\ second <> None /\ item <> []) \/
   (len buffer < 8192 /\ second <> None /\ buffer ++ item <> [])).
Proof.
  intros f s a b. unfold MStream.framed_send.
  assert (F : forall o x, let '(w, k, ok) := flush o x in
    (ok = true -> w = x /\ k = []) /\ (ok = false <-> o <> None /\ x <> [])).
  { intros [n|] [|y x]; cbn [flush]; repeat split; intros; try discriminate; try reflexivity;
      try (destruct H as [H H']; contradiction). }
  destruct (N.leb_spec 8192 (len b)) as [L|L].
  - pose proof (F f b) as F1. destruct (flush f b) as [[w1 k1] ok1]. destruct F1 as [T1 E1]. destruct ok1.
    + destruct (T1 eq_refl) as [-> ->]. cbn [app]. pose proof (F s a) as F2. destruct (flush s a) as [[w2 k2] ok2].
      destruct F2 as [T2 E2].
      assert (f = None) as ->.
      { destruct f; [|reflexivity]. assert (true = false); [|discriminate]. apply E1. split; [discriminate|].
        intros ->. cbn in L. lia. }
      split; [intros H; destruct (T2 H) as [-> ->]; split; reflexivity|]. rewrite E2. split.
      * intros [H1 H2]. right; left. auto.
      * intros [[_ H]|[(_ & _ & H)|[H _]]]; [contradiction|exact H|lia].
    + split; [discriminate|]. split; [|reflexivity]. intros _. left. split; [exact L|]. apply E1. reflexivity.
  - pose proof (F s (b ++ a)) as F2. destruct (flush s (b ++ a)) as [[w2 k2] ok2]. destruct F2 as [T2 E2].
    split; [exact T2|]. rewrite E2. split.
    + intros [H1 H2]. right; right. auto.
    + intros [[H _]|[(H & _)|(_ & H)]]; [lia|lia|exact H].
Qed.
Print Assumptions C92_send_reports.
Example C92_case_reports :
  MStream.framed_send None (Some 3) [1; 2] [9; 9] = ([9; 9; 1], [2], false) /\
  MStream.framed_send None None [1; 2] [9; 9] = ([9; 9; 1; 2], [], true).
Proof. split; reflexivity. Qed.

(** The claim "what is written later makes up for what could not be written" is
    false: with more than that waiting, an answer is lost for good although every
    other is written in the end and the connection lives on. *)
Definition stuck (k : N) : stream_event bytes := Arrives (client_request k 0x1000 []) None (Some 0).

(** The claim that an answer lost to a failed write is made up for later is false. *)
Theorem C92_made_up_refuted : exists es before lost after st,
  serve Checked reverse_order db_empty None (arrived es) = before ++ lost :: after /\ lost <> [] /\
  fst (stream_run Checked reverse_order db_empty es) = Some (st, []) /\
  List.concat (snd (stream_run Checked reverse_order db_empty es)) = List.concat before ++ List.concat after /\
  List.concat before ++ List.concat after <> List.concat (before ++ lost :: after).
Proof.
  set (es := map stuck (repeat 7 196) ++
    [Arrives (client_request 8 0x1000 []) (Some 3) None; Arrives (client_request 9 0x1000 []) None None]).
  set (answers := serve Checked reverse_order db_empty None (arrived es)).
  exists es, (firstn 196 answers), (nth 196 answers []), (skipn 197 answers).
  eexists. split; [vm_compute; reflexivity|]. split; [vm_compute; discriminate|].
  split; [vm_compute; reflexivity|]. split; [vm_compute; reflexivity|]. vm_compute. discriminate.
Qed.
Print Assumptions C92_made_up_refuted.

(** A connection that breaks in the middle of the second answer. *)
Example C92_case :
  let es := [Arrives [1; 2; 3; 4; 5] None None; ReadFails false; Arrives (client_request 1 0x1000 []) None (Some 10);
             Arrives (client_request 2 0x1000 []) (Some 0) (Some 0); Ends] in
  failure_lasts es /\
  map (@List.length _) (snd (stream_run Checked reverse_order db_empty es)) = [5; 0; 10; 0; 0]%nat /\
  map (@List.length _) (serve Checked reverse_order db_empty None (arrived es)) = [5; 42; 42]%nat /\
  no_write_fails (firstn 2 es).
Proof.
  cbv zeta. split; [|split; [reflexivity|split; [reflexivity|]]].
  - intros before c f s after E Hs c' f' s' I.
    destruct before as [|x before]; [inversion E; subst; contradiction|].
    destruct before as [|y before]; [inversion E|].
    destruct before as [|z before].
    { inversion E; subst. cbn [In] in I. destruct I as [I|[I|[]]]; inversion I; subst. auto. }
    destruct before as [|u before].
    { inversion E; subst. cbn [In] in I. destruct I as [I|[]]; inversion I. }
    destruct before as [|v before]; [inversion E|]. inversion E. destruct before; discriminate.
  - intros c f s I. cbn [firstn In] in I. destruct I as [I|[I|[]]]; inversion I; subst; auto.
Qed.

(** ** The connection to port 12523 *)

Lemma port_replies : forall xs opened, replies port_answer opened xs = map (be 2) (given_ports xs).
Proof.
  induction xs as [|[q|] xs IH]; intros opened; cbn [replies port_answer given_ports map]; [reflexivity| |reflexivity].
  rewrite IH. reflexivity.
Qed.

Lemma ports_opened : forall es opened buf st b,
  fst (stream_turns port_answer (Some (opened, buf)) es) = Some (st, b) -> st = opened ++ given_ports (arrived es).
Proof.
  assert (Gone : forall es, fst (stream_turns port_answer None es) = None).
  { induction es as [|e es IH]; cbn [stream_turns stream_turn]; [reflexivity|].
    destruct (stream_turns port_answer None es). exact IH. }
  induction es as [|e es IH]; intros opened buf st b H; cbn [stream_turns arrived] in *.
  { inversion H. cbn [given_ports]. rewrite app_nil_r. reflexivity. }
  destruct e as [[q|] f s|[|]|]; cbn [stream_turn port_answer] in H.
  - destruct (framed_send f s (be 2 q) buf) as [[w k] ok]. rewrite fst_cons in H. apply IH in H. rewrite H.
    cbn [given_ports]. rewrite <- app_assoc. reflexivity.
  - rewrite fst_cons, Gone in H. discriminate.
  - rewrite fst_cons, Gone in H. discriminate.
  - rewrite fst_cons in H. apply IH in H. exact H.
  - rewrite fst_cons, Gone in H. discriminate.
Qed.

(** On a connection to port 12523 every chunk opens one port, whether or not its
    number gets through.  What the client reads are the numbers of the ports opened
    for it, in order, two bytes each, up to some byte; all of them if no write
    fails.  If writes fail and succeed again the numbers are in order still, whole,
    and complete as long as they are fewer than 4096. *)
Theorem C92_ports : forall es,
  (failure_lasts es -> exists missing,
    flat_map (be 2) (given_ports (arrived es)) = List.concat (snd (port_run es)) ++ missing) /\
  (no_write_fails es ->
    List.concat (snd (port_run es)) = flat_map (be 2) (given_ports (arrived es))) /\
  (exists told waiting, some_of told (given_ports (arrived es)) /\
    flat_map (be 2) told = List.concat (snd (port_run es)) ++ waiting /\
    (len (given_ports (arrived es)) < 4096 -> told = given_ports (arrived es))) /\
  (forall opened b, fst (port_run es) = Some (opened, b) -> opened = given_ports (arrived es)).
Proof.
  intros es.
  assert (FM : forall l, List.concat (map (be 2) l) = flat_map (be 2) l) by (intros l; symmetry; apply flat_map_concat_map).
  split; [|split; [|split]].
  - intros L. destruct (in_order _ _ port_answer es [] L) as [m M]. rewrite port_replies, FM in M. exists m. exact M.
  - intros L. pose proof (all_received _ _ port_answer es [] L) as E. rewrite port_replies in E.
    assert (CF : forall l : list bytes, List.concat (filter (fun w => negb (len w =? 0)) l) = List.concat l).
    { induction l as [|w l IH]; [reflexivity|]. cbn [filter List.concat]. destruct w as [|x w]; [exact IH|].
      replace (negb (len (x :: w) =? 0)) with true.
      - cbn [List.concat]. rewrite IH. reflexivity.
      - symmetry. apply negb_true_iff, N.eqb_neq. unfold len. cbn [List.length]. lia. }
    unfold port_run. rewrite <- CF, E, CF. apply FM.
  - destruct (received_some _ _ port_answer es [] []) as (kept & waiting & K1 & K2 & K3 & K4).
    rewrite port_replies in K1, K4. cbn [app] in K2.
    assert (U : forall l k, some_of k (map (be 2) l) -> exists told, some_of told l /\ k = map (be 2) told).
    { induction l as [|x l IH]; intros k H; cbn [map] in H; inversion H; subst.
      - exists []. split; [constructor|reflexivity].
      - match goal with H : some_of _ (map _ l) |- _ => destruct (IH _ H) as (t & T1 & T2) end.
        exists (x :: t). subst. split; [constructor; assumption|reflexivity].
      - match goal with H : some_of _ (map _ l) |- _ => destruct (IH _ H) as (t & T1 & T2) end.
        exists t. split; [constructor; assumption|assumption]. }
    destruct (U _ _ K1) as (told & T1 & ->). rewrite FM in K2.
    exists told, waiting. split; [exact T1|]. split; [exact K2|]. intros Lt.
    assert (Same : map (be 2) told = map (be 2) (given_ports (arrived es))).
    { apply K4. rewrite FM. assert (F : forall l, len (flat_map (be 2) l) = 2 * len l).
      { induction l as [|x l IH]; [reflexivity|]. cbn [flat_map]. rewrite len_app, IH, be_len. unfold len. cbn [List.length]. lia. }
      rewrite F. change (len []) with 0. lia. }
    assert (SL : forall A (k l : list A), some_of k l -> (List.length k <= List.length l)%nat /\ (List.length k = List.length l -> k = l)).
    { intros A k l H. induction H as [|x k l H [I1 I2]|x k l H [I1 I2]]; cbn [List.length].
      - split; [lia|reflexivity].
      - split; [lia|]. intros E. rewrite I2 by lia. reflexivity.
      - split; [lia|]. intros E. lia. }
    apply SL; [exact T1|]. apply (f_equal (@List.length _)) in Same. rewrite !map_length in Same. exact Same.
  - intros opened b H. apply ports_opened in H. exact H.
Qed.
Print Assumptions C92_ports.

(** A port is opened though its number never gets through; the client has read one
    number and half of the next. *)
Example C92_case_ports :
  let es := [Arrives (Some 40000) None None; Arrives (Some 40001) None (Some 1); Arrives (Some 40002) (Some 0) (Some 0)] in
  List.concat (snd (port_run es)) = [156; 64; 156] /\
  fst (port_run es) = Some ([40000; 40001; 40002], [65; 156; 66]) /\ no_write_fails (firstn 1 es).
Proof.
  split; [reflexivity|]. split; [reflexivity|]. intros c f s I. cbn [firstn In] in I. destruct I as [I|[]]; inversion I; auto.
Qed.
