(** Property theorems C82: ports are held until their user is done. *)

From Verif Require Import Base Unicode MPackets MNetwork MServer MStatus MDb MDatabase MLib MRpc MRpcServer MNfs
  MSystem SUdp SRpc SServer SRpcServer SNfs SSystem SHeld LBase LDatabase LServer LServer2 LRpcServer LNfs LSystem
  PRpcServer PNfs PSystem PSession PDatabase PScan PEnd.
From Coq Require Import ZArith Lia Arith String.
Open Scope list_scope.
Open Scope N_scope.

(** A set of held ports that gains what is given and loses what is freed. *)
Definition listing (held : N -> bool) (l : list N) : Prop :=
  NoDup l /\ forall q, In q l <-> held q = true.

Lemma listing_same : forall f g l, listing f l -> (forall q, f q = g q) -> listing g l.
Proof. intros f g l [N H] E. split; [assumption|]. intros q. rewrite <- E. apply H. Qed.

Lemma listing_add : forall f g l port, listing f l -> f port = false ->
  (forall q, g q = if q =? port then true else f q) -> listing g (port :: l).
Proof.
  intros f g l port [N H] F E. split.
  - constructor; [|assumption]. rewrite H. congruence.
  - intros q. rewrite E. destruct (N.eqb_spec q port) as [->|X]; cbn; [tauto|]. rewrite <- H.
    split; [intros [Y|Y]; [congruence|assumption]|auto].
Qed.

Lemma listing_remove : forall f g l port, listing f l -> f port = true ->
  (forall q, g q = if q =? port then false else f q) -> exists l', listing g l' /\ List.length l = S (List.length l').
Proof.
  intros f g l port [N H] F E. assert (I : In port l) by (apply H; assumption).
  apply in_split in I. destruct I as (a & b & ->). exists (a ++ b). split.
  - split; [apply (NoDup_remove_1 a b port N)|]. intros q. rewrite E.
    pose proof (NoDup_remove_2 a b port N) as Z. specialize (H q).
    destruct (N.eqb_spec q port) as [->|X].
    + split; [contradiction|discriminate].
    + rewrite <- H, !in_app_iff. cbn. split; [tauto|]. intros [Y|[Y|Y]]; [auto|congruence|auto].
  - rewrite !app_length. cbn. lia.
Qed.

Lemma listing_bound : forall f l m, listing f l -> (forall q, f q = true -> q < m) -> len l <= m.
Proof.
  intros f l m [N H] B.
  assert (X : incl (map N.to_nat l) (seq 0 (N.to_nat m))).
  { intros k I. apply in_map_iff in I. destruct I as (q & <- & I). apply in_seq. apply H, B in I. lia. }
  apply NoDup_incl_length in X; [rewrite map_length, seq_length in X; unfold len; lia|].
  apply FinFun.Injective_map_NoDup; [|assumption]. intros a b. apply N2Nat.inj.
Qed.

Section Held.
Variables (e : endian) (p : profile) (h : hash_order) (d : database).
Notation sstep := (sys_step e p h d).

(** How a step may change what is held. *)
Definition tame (held : system -> N -> bool) (give : sys_input -> list sys_output -> list N) : Prop :=
  forall s i,
    (give i (snd (sstep i s)) = [] /\ freed held s (fst (sstep i s)) i = 0%nat /\ forall q, held (fst (sstep i s)) q = held s q) \/
    (exists port, give i (snd (sstep i s)) = [port] /\ freed held s (fst (sstep i s)) i = 0%nat /\
       forall q, held (fst (sstep i s)) q = if q =? port then true else held s q) \/
    (exists port, give i (snd (sstep i s)) = [] /\ freed held s (fst (sstep i s)) i = 1%nat /\ held s port = true /\
       forall q, held (fst (sstep i s)) q = if q =? port then false else held s q).

Lemma orderly_balance : forall held give, tame held give ->
  forall s is given ended, orderly e p h d held give s is given ended ->
  forall l, listing (held s) l -> (forall q, held s q = true -> q < 65536) ->
  exists l', listing (held (fst (sys_run e p h d is s))) l' /\
    (forall q, held (fst (sys_run e p h d is s)) q = true -> q < 65536) /\
    (List.length l + given = List.length l' + ended)%nat.
Proof.
  intros held give T s is given ended O. induction O as [s|s i is given ended Hf O IH]; intros l L B.
  - exists l. cbn [sys_run fst]. split; [assumption|]. split; [assumption|lia].
  - rewrite (srun_cons e p h d). cbn [fst].
    destruct (T s i) as [(G & F & E)|[(port & G & F & E)|(port & G & F & P & E)]]; rewrite G, F in *.
    + destruct (IH l) as (l' & L' & B' & X).
      * apply (listing_same _ _ _ L). intros q. symmetry. apply E.
      * intros q. rewrite E. apply B.
      * exists l'. split; [assumption|]. split; [assumption|]. cbn. lia.
    + destruct (Hf port (or_introl eq_refl)) as [H1 H2].
      destruct (IH (port :: l)) as (l' & L' & B' & X).
      * apply (listing_add (held s)); assumption.
      * intros q. rewrite E. destruct (N.eqb_spec q port) as [->|_]; [intros _; assumption|apply B].
      * exists l'. split; [assumption|]. split; [assumption|]. cbn in *. lia.
    + destruct (listing_remove _ _ l port L P E) as (l1 & L1 & K).
      destruct (IH l1 L1) as (l' & L' & B' & X).
      * intros q. rewrite E. destruct (N.eqb_spec q port) as [->|_]; [discriminate|apply B].
      * exists l'. split; [assumption|]. split; [assumption|]. cbn in *. lia.
Qed.

Lemma tame_tcp : tame tcp_held tcp_given.
Proof.
  intros s i. destruct (w_running (sy_world s)) eqn:R.
  2:{ left. unfold sys_step. rewrite R. cbn [fst snd].
      split; [destruct i as [| | | | |? ? [|]| |]; reflexivity|]. split; [|reflexivity].
      destruct i as [| | | | | | |[| | |]]; cbn [freed]; try reflexivity;
        match goal with |- context [tcp_held s ?q] => destruct (tcp_held s q) end; reflexivity. }
  pose proof (step_shape e p h d i s R) as S.
  destruct i as [j|y|j|q j|ws|c chunk [port|]|c|y].
  - left. rewrite S. repeat split.
  - left. rewrite S. destruct (sy_status s); [destruct (status_turn y)|]; repeat split.
  - left. rewrite S. destruct (sy_mapper s); repeat split.
  - left. destruct S as [S1 S2]. rewrite S1, S2. split; [reflexivity|]. split; [|reflexivity].
    cbn [freed]. change (tcp_held (with_udp _ _) q) with (tcp_held s q). destruct (tcp_held s q); reflexivity.
  - left. rewrite S. destruct (sy_joined s); [destruct (sy_mapper s)|]; repeat split.
  - rewrite S. destruct (sy_query s c); [|left; repeat split].
    right. left. exists port. split; [reflexivity|]. split; [reflexivity|].
    intros q. cbn [fst db_step]. unfold tcp_held, with_db, sy_db, set_port. destruct (q =? port); reflexivity.
  - left. rewrite S. destruct (sy_query s c); repeat split.
  - left. rewrite S. repeat split.
  - assert (Z : forall q x, sy_db s q = x -> 
       (match x with Listening | Serving _ => true | NoHandler | Gone => false end) = tcp_held s q)
      by (intros q x <-; reflexivity).
    destruct y as [q ch|q|q ch|q].
    + left. rewrite S. repeat split.
    + rewrite S. cbn [fst snd db_step]. destruct (sy_db s q) eqn:E; cbn [fst snd].
      1, 3, 4: left; (split; [reflexivity|]); (split; [|reflexivity]); cbn [freed];
        change (tcp_held (with_db s (sy_db s)) q) with (tcp_held s q); destruct (tcp_held s q); reflexivity.
      left. split; [reflexivity|]. split.
      * cbn [freed]. unfold tcp_held, with_db, sy_db, set_port. rewrite N.eqb_refl, andb_false_r. reflexivity.
      * intros q'. unfold tcp_held at 1. unfold with_db, sy_db, set_port. destruct (N.eqb_spec q' q) as [->|X]; [|reflexivity].
        apply (Z q _ E).
    + rewrite S. cbn [fst snd db_step]. destruct (sy_db s q) as [| |st|] eqn:E; cbn [fst snd].
      1, 2, 4: left; (split; [reflexivity|]); (split; [|reflexivity]); cbn [freed];
        change (tcp_held (with_db s (sy_db s)) q) with (tcp_held s q); destruct (tcp_held s q); reflexivity.
      destruct (process p h d st ch) as [[an st']| |]; cbn [fst snd].
      * left. split; [reflexivity|]. split.
        -- cbn [freed]. unfold tcp_held, with_db, sy_db, set_port. rewrite N.eqb_refl, andb_false_r. reflexivity.
        -- intros q'. unfold tcp_held at 1. unfold with_db, sy_db, set_port. destruct (N.eqb_spec q' q) as [->|X]; [|reflexivity].
           apply (Z q _ E).
      * right. right. exists q. split; [reflexivity|]. rewrite <- (Z q _ E). split; [|split; [reflexivity|]].
        -- cbn [freed]. rewrite <- (Z q _ E). unfold tcp_held, with_db, sy_db, set_port. rewrite N.eqb_refl. reflexivity.
        -- intros q'. unfold tcp_held at 1. unfold with_db, sy_db, set_port. destruct (q' =? q); reflexivity.
      * right. right. exists q. split; [reflexivity|]. rewrite <- (Z q _ E). split; [|split; [reflexivity|]].
        -- cbn [freed]. rewrite <- (Z q _ E). unfold tcp_held, with_db, sy_db, set_port. rewrite N.eqb_refl. reflexivity.
        -- intros q'. unfold tcp_held at 1. unfold with_db, sy_db, set_port. destruct (q' =? q); reflexivity.
    + rewrite S. cbn [fst snd db_step]. destruct (sy_db s q) as [| |st|] eqn:E; cbn [fst snd].
      1, 2, 4: left; (split; [reflexivity|]); (split; [|reflexivity]); cbn [freed];
        change (tcp_held (with_db s (sy_db s)) q) with (tcp_held s q); destruct (tcp_held s q); reflexivity.
      right. right. exists q. split; [reflexivity|]. rewrite <- (Z q _ E). split; [|split; [reflexivity|]].
      -- cbn [freed]. rewrite <- (Z q _ E). unfold tcp_held, with_db, sy_db, set_port. rewrite N.eqb_refl. reflexivity.
      -- intros q'. unfold tcp_held at 1. unfold with_db, sy_db, set_port. destruct (q' =? q); reflexivity.
Qed.

Definition live (v : udp_service) : bool :=
  match v with
  | NfsUdp v => match sv_nfs v with Some _ => true | None => false end
  | MountUdp running => running
  | NoService => false
  end.

(** A turn revives nothing. *)
Lemma udp_turn_live : forall w q j v, live v = false -> live (fst (udp_turn e w q j v)) = false.
Proof.
  intros w q j v H. unfold udp_turn. destruct v as [|v|[|]]; try assumption; try discriminate.
  cbn [live] in H. unfold nfs_turn. destruct (sv_nfs v) eqn:E; [discriminate|]. cbn [fst live]. rewrite E. reflexivity.
Qed.

Lemma tame_udp : tame udp_held udp_given.
Proof.
  intros s i. destruct (w_running (sy_world s)) eqn:R.
  2:{ left. unfold sys_step. rewrite R. cbn [fst snd].
      split; [reflexivity|]. split; [|reflexivity].
      destruct i as [| | | | | | |[| | |]]; cbn [freed]; try reflexivity;
        match goal with |- context [udp_held s ?q] => destruct (udp_held s q) end; reflexivity. }
  pose proof (step_shape e p h d i s R) as S.
  assert (Z : forall A (f : A -> sys_output) l, (forall a, match f a with OutMapper (PmStart _ port) => [port] | _ => [] end = []) ->
    flat_map (fun o => match o with OutMapper (PmStart _ port) => [port] | _ => [] end) (map f l) = []).
  { intros A f l H. induction l; cbn; [reflexivity|]. rewrite H, IHl. reflexivity. }
  destruct i as [j|y|j|q j|ws|c chunk [port|]|c|y].
  - left. rewrite S. split; [apply Z; reflexivity|]. repeat split.
  - left. rewrite S. destruct (sy_status s); [destruct (status_turn y)|]; cbn [fst snd];
      (split; [first [reflexivity|apply Z; reflexivity]|repeat split]).
  - rewrite S. destruct (sy_mapper s); [|left; repeat split]. cbn [fst snd].
    assert (K : (udp_given (SysMapper j) (map OutMapper (snd (pm_turn j))) = [] /\
                 start_services (sy_udp s) (snd (pm_turn j)) = sy_udp s) \/
                exists v port, udp_given (SysMapper j) (map OutMapper (snd (pm_turn j))) = [port] /\
                  live v = true /\ start_services (sy_udp s) (snd (pm_turn j)) = at_key (sy_udp s) port v).
    { unfold pm_turn. destruct (codec_decode (pi_datagram j)) as [[m|]| |]; try (left; split; reflexivity).
      destruct (pi_port j) as [pt|]; [|left; split; reflexivity].
      destruct (rpc_body m) as [c|]; [|destruct (send_to _ _); left; split; reflexivity].
      destruct (ca_procedure c); try (destruct (send_to _ _); left; split; reflexivity).
      destruct (gp_program _); destruct (send_to _ _); right; do 2 eexists; (split; [reflexivity|]);
        (split; [|reflexivity]); reflexivity. }
    destruct K as [[K1 K2]|(v & port & K1 & Kv & K2)]; rewrite K1, K2.
    + left. repeat split.
    + right. left. exists port. split; [reflexivity|]. split; [reflexivity|].
      intros q. unfold udp_held. cbn [with_mapper sy_udp]. unfold at_key. destruct (q =? port); [exact Kv|reflexivity].
  - destruct S as [S1 S2]. rewrite S1.
    assert (G : udp_given (SysUdp q j) (snd (sstep (SysUdp q j) s)) = []).
    { rewrite S2. unfold udp_given. apply flat_map_nil. intros o I. apply udp_turn_outs in I. destruct I as (? & ? & ->). reflexivity. }
    rewrite G. set (v' := fst (udp_turn e (sy_world s) q j (sy_udp s q))).
    assert (H' : forall x, udp_held (with_udp s (at_key (sy_udp s) q v')) x = if x =? q then live v' else udp_held s x).
    { intros x. unfold udp_held at 1. cbn [with_udp sy_udp]. unfold at_key. destruct (x =? q); reflexivity. }
    assert (H0 : udp_held s q = live (sy_udp s q)) by reflexivity.
    destruct (udp_held s q) eqn:E, (live v') eqn:E'.
    + left. split; [reflexivity|]. split.
      * cbn [freed]. rewrite H', N.eqb_refl, andb_false_r. reflexivity.
      * intros x. rewrite H'. destruct (N.eqb_spec x q) as [->|X]; congruence.
    + right. right. exists q. split; [reflexivity|]. split; [|split; [assumption|]].
      * cbn [freed]. rewrite H', N.eqb_refl, E. reflexivity.
      * exact H'.
    + unfold v' in E'. rewrite udp_turn_live in E' by congruence. discriminate.
    + left. split; [reflexivity|]. split.
      * cbn [freed]. rewrite E. reflexivity.
      * intros x. rewrite H'. destruct (N.eqb_spec x q) as [->|X]; congruence.
  - left. rewrite S. destruct (sy_joined s); [destruct (sy_mapper s)|]; cbn [fst snd];
      (split; [first [reflexivity|apply Z; reflexivity]|repeat split]).
  - left. rewrite S. destruct (sy_query s c); repeat split.
  - left. rewrite S. destruct (sy_query s c); repeat split.
  - left. rewrite S. repeat split.
  - left. assert (U : forall db x, udp_held (with_db s db) x = udp_held s x) by reflexivity.
    destruct y as [q ch|q|q ch|q]; rewrite S; [repeat split| | |]; cbn [fst snd];
      (split; [apply Z; reflexivity|]); (split; [|reflexivity]); cbn [freed]; rewrite U; destruct (udp_held s q); reflexivity.
Qed.

End Held.

(** ** C82 *)

Lemma orderly_start : forall e p h d ka st mp db is held give given ended,
  held = tcp_held /\ give = tcp_given \/ held = udp_held /\ give = udp_given ->
  orderly e p h d held give (system_start ka st mp db) is given ended ->
  exists ports, NoDup ports /\
    (forall q, In q ports <-> held (fst (sys_run e p h d is (system_start ka st mp db))) q = true) /\
    (forall q, In q ports -> q < 65536) /\ given = (List.length ports + ended)%nat /\ len ports <= 65536.
Proof.
  intros e p h d ka st mp db is held give given ended K O.
  assert (T : tame e p h d held give) by (destruct K as [[-> ->]|[-> ->]]; [apply tame_tcp|apply tame_udp]).
  assert (Z : forall q, held (system_start ka st mp db) q = false) by (destruct K as [[-> _]|[-> _]]; reflexivity).
  destruct (orderly_balance e p h d held give T _ _ _ _ O []) as (l & L & B & X).
  - split; [constructor|]. intros q. rewrite Z. split; [intros []|discriminate].
  - intros q. rewrite Z. discriminate.
  - exists l. split; [apply L|]. split; [apply L|]. split; [intros q I; apply B, L; exact I|].
    split; [cbn in X; lia|]. apply (listing_bound _ _ _ L B).
Qed.

(** Every port handed out on port 12523 is held until its one client is done with
    it: what is held is what was given minus what has ended, so that, with ports
    being finitely many, only ended conversations make room for new ones. *)
Theorem C82_database_ports : forall e p h d ka st mp db is given ended,
  orderly e p h d tcp_held tcp_given (system_start ka st mp db) is given ended ->
  exists ports, NoDup ports /\
    (forall q, In q ports <-> tcp_held (fst (sys_run e p h d is (system_start ka st mp db))) q = true) /\
    (forall q, In q ports -> q < 65536) /\ given = (List.length ports + ended)%nat /\ len ports <= 65536.
Proof. intros e p h d ka st mp db is given ended. apply orderly_start. left. split; reflexivity. Qed.
Print Assumptions C82_database_ports.

(** The same for the services the port mapper starts. *)
Theorem C82_service_ports : forall e p h d ka st mp db is given ended,
  orderly e p h d udp_held udp_given (system_start ka st mp db) is given ended ->
  exists ports, NoDup ports /\
    (forall q, In q ports <-> udp_held (fst (sys_run e p h d is (system_start ka st mp db))) q = true) /\
    (forall q, In q ports -> q < 65536) /\ given = (List.length ports + ended)%nat /\ len ports <= 65536.
Proof. intros e p h d ka st mp db is given ended. apply orderly_start. right. split; reflexivity. Qed.
Print Assumptions C82_service_ports.

Section Kept.
Variables (e : endian) (p : profile) (h : hash_order) (d : database).
Notation sstep := (sys_step e p h d).

(** Something happens at the port. *)
Definition touches (i : sys_input) (q : N) : Prop :=
  match i with
  | SysDb (Connect port) | SysDb (Chunk port _) | SysDb (Close port) | SysUdp port _ => port = q
  | _ => False
  end.

Lemma step_kept : forall held give, tame e p h d held give -> forall s i q,
  held s q = true -> ~ touches i q -> held (fst (sstep i s)) q = true.
Proof.
  intros held give T s i q H N.
  destruct (T s i) as [(_ & _ & E)|[(port & _ & _ & E)|(port & _ & F & P & E)]].
  - rewrite E. assumption.
  - rewrite E. destruct (q =? port); [reflexivity|assumption].
  - rewrite E. destruct (N.eqb_spec q port) as [->|X]; [exfalso|assumption]. apply N.
    assert (K : forall r, (if held s r && negb (held (fst (sstep i s)) r) then 1%nat else 0%nat) = 1%nat -> r = port).
    { intros r K. destruct (held s r) eqn:A, (held (fst (sstep i s)) r) eqn:B; cbn in K; try discriminate.
      rewrite E in B. destruct (N.eqb_spec r port); congruence. }
    unfold freed in F.
    destruct i as [j|y|j|r j|ws|c chunk o|c|[r ch|r|r ch|r]]; try discriminate F; cbn [touches]; apply K; exact F.
Qed.

Lemma run_kept : forall held give, tame e p h d held give -> forall is s q,
  held s q = true -> (forall i, In i is -> ~ touches i q) -> held (fst (sys_run e p h d is s)) q = true.
Proof.
  intros held give T is. induction is as [|i is IH]; intros s q H N; [assumption|].
  rewrite (srun_cons e p h d). cbn [fst]. apply IH.
  - apply (step_kept held give T); [assumption|]. apply N. left. reflexivity.
  - intros j I. apply N. right. assumption.
Qed.
End Kept.

(** A port that nobody uses is never given back. *)
Theorem C82_idle_ports_kept : forall e p h d ka st mp db before i after port,
  let s := fst (sys_run e p h d before (system_start ka st mp db)) in
  let s' := fst (sys_run e p h d (i :: after) s) in
  (forall j, In j after -> ~ touches j port) ->
  (In port (tcp_given i (snd (sys_step e p h d i s))) -> tcp_held s' port = true) /\
  (In port (udp_given i (snd (sys_step e p h d i s))) -> udp_held s' port = true).
Proof.
  intros e p h d ka st mp db before i after port s s' N. unfold s'. rewrite (srun_cons e p h d). cbn [fst]. split; intros I.
  - apply (run_kept e p h d _ _ (tame_tcp e p h d)); [|assumption].
    destruct (tame_tcp e p h d s i) as [(G & _)|[(q & G & _ & E)|(q & G & _)]]; rewrite G in I;
      [destruct I| |destruct I]. destruct I as [->|[]]. rewrite E, N.eqb_refl. reflexivity.
  - apply (run_kept e p h d _ _ (tame_udp e p h d)); [|assumption].
    destruct (tame_udp e p h d s i) as [(G & _)|[(q & G & _ & E)|(q & G & _)]]; rewrite G in I;
      [destruct I| |destruct I]. destruct I as [->|[]]. rewrite E, N.eqb_refl. reflexivity.
Qed.
Print Assumptions C82_idle_ports_kept.

(** ** Open files *)

Lemma opens_dec : forall hs x ino, (exists f, opens hs x ino f) \/ (forall f, ~ opens hs x ino f).
Proof.
  intros hs [i k] ino. unfold opens. cbn [fst snd].
  destruct k as [|xid pr|]; try (right; intros f (? & ? & ? & X & _); discriminate).
  assert (D : (exists l, pr = NfsLookup l) \/ (forall l, pr <> NfsLookup l))
    by (destruct pr; first [left; eexists; reflexivity|right; intros; discriminate]).
  destruct D as [[l ->]|D]; [|right; intros f (? & ? & ? & X & _); injection X as _ X; exact (D _ X)].
  destruct (os_stat (ni_os i) (resolve (position hs) (lk_filename l))) as [m|] eqn:S;
    [|right; intros f (? & ? & ? & X & Y & _); injection X as _ <-; congruence];
    destruct (os_open (ni_os i) (resolve (position hs) (lk_filename l))) as [g|] eqn:O;
    [|right; intros f (? & ? & ? & X & _ & Y & _); injection X as _ <-; congruence];
    destruct (m_file m) eqn:F;
    [|right; intros f (? & ? & ? & X & Y & _ & Z & _); injection X as _ <-; congruence];
    destruct (N.eq_dec (m_ino m) ino) as [E|E];
    [left; exists g, xid, l, m; repeat split; assumption|
     right; intros f (? & ? & ? & X & Y & _ & _ & Z); injection X as _ <-; congruence].
Qed.

Lemma latest_exists : forall hs ino, (exists f, latest_opened hs ino f) <->
  exists j x f, nth_error hs j = Some x /\ opens (firstn j hs) x ino f.
Proof.
  intros hs ino. split.
  - intros (f & j & x & A & B & _). exists j, x, f. auto.
  - revert ino. induction hs as [|y hs IH] using rev_ind; intros ino (j & x & f & A & B); [destruct j; discriminate|].
    destruct (opens_dec hs y ino) as [[g G]|G].
    + exists g. apply latest_snoc. left. assumption.
    + destruct (Nat.lt_trichotomy j (List.length hs)) as [L|[L|L]].
      * rewrite nth_error_app1 in A by assumption. rewrite firstn_app in B.
        replace (j - List.length hs)%nat with 0%nat in B by lia. cbn [firstn] in B. rewrite app_nil_r in B.
        destruct (IH ino) as [g' G']; [exists j, x, f; auto|]. exists g'. apply latest_snoc. right. auto.
      * exfalso. subst j. rewrite nth_error_app2, Nat.sub_diag in A by lia. injection A as <-.
        rewrite firstn_app, Nat.sub_diag, firstn_all in B. cbn [firstn] in B. rewrite app_nil_r in B. exact (G f B).
      * exfalso. assert (X : nth_error (hs ++ [y]) j = None) by (apply nth_error_None; rewrite app_length; cbn; lia).
        congruence.
Qed.

Lemma hm_insert_nodup : forall A k (v : A) m, NoDup (map fst m) -> NoDup (map fst (hm_insert k v m)).
Proof.
  intros A k v m N. destruct (in_dec N.eq_dec k (map fst m)) as [I|I].
  - replace (map fst (hm_insert k v m)) with (map fst m); [assumption|]. clear N.
    induction m as [|[k' v'] m IH]; [destruct I|]. cbn [hm_insert]. destruct (N.eqb_spec k k') as [->|X]; [reflexivity|].
    cbn [map fst]. f_equal. apply IH. destruct I as [I|I]; [cbn in I; congruence|assumption].
  - rewrite hm_insert_fresh, map_app by assumption. cbn [map fst].
    apply (Permutation.Permutation_NoDup (l := k :: map fst m)); [apply Permutation.Permutation_cons_append|].
    constructor; assumption.
Qed.

Lemma nfs_turn_nodup : forall e i s, (forall n, sv_nfs s = Some n -> NoDup (map fst (nf_files n))) ->
  forall n, sv_nfs (fst (nfs_turn e i s)) = Some n -> NoDup (map fst (nf_files n)).
Proof.
  intros e i s H n. unfold nfs_turn. destruct (sv_nfs s) as [n0|] eqn:E; [|cbn [fst]; congruence].
  specialize (H n0 eq_refl).
  destruct (codec_decode (ni_datagram i)) as [[m|]| |]; cbn [fst]; try (rewrite ?E; cbn [sv_nfs]; congruence).
  destruct (rpc_body m) as [c|]; cbn [fst]; [|congruence].
  destruct (call_procedure e (ni_os i) (ca_procedure c) n0) as [n1 r] eqn:C.
  assert (K : NoDup (map fst (nf_files n1))).
  { assert (L : forall l, NoDup (map fst (nf_files (fst (lookup (ni_os i) l n0))))).
    { intros l. unfold lookup. destruct (os_stat _ _) as [mt|]; [|exact H].
      destruct (get_fhandle _ _ _) as [w| |]; try exact H. cbn [fst]. destruct (m_file mt); [|exact H].
      cbn [reset_path nf_files]. apply hm_insert_nodup. exact H. }
    unfold call_procedure in C. destruct (ca_procedure c); try (injection C as <- _; exact H).
    match type of C with lookup _ ?l _ = _ => specialize (L l) end. rewrite C in L. exact L. }
  destruct r as [reply| |]; [destruct (framed_send _ _ _ _)| |]; cbn [fst sv_nfs]; congruence.
Qed.

(** A file service keeps one open file for each file ever looked up, and closes
    none of them while it runs. *)
Theorem C82_files_kept : forall e hs, history_ok hs -> never_killed e hs ->
  exists n, sv_nfs (fst (served e hs)) = Some n /\ NoDup (map fst (nf_files n)) /\
    forall ino, In ino (map fst (nf_files n)) <->
      exists j x f, nth_error hs j = Some x /\ opens (firstn j hs) x ino f.
Proof.
  intros e hs Ho Nk. destruct (served_state e hs Ho) as [[_ (n & E & I)]|[X _]]; [|contradiction].
  exists n. split; [assumption|]. split.
  - clear I. revert n E. clear Ho Nk. induction hs as [|x hs IH] using rev_ind; intros n E.
    + injection E as <-. constructor.
    + rewrite served_snoc in E. cbn [fst] in E. revert E. apply nfs_turn_nodup. exact IH.
  - intros ino. rewrite <- latest_exists. destruct I as [_ I]. split.
    + intros H. destruct (hm_get ino (nf_files n)) as [f|] eqn:G.
      * exists f. apply I. assumption.
      * apply hm_get_none in G. contradiction.
    + intros [f H]. apply I in H. apply hm_get_in in H. apply (in_map fst) in H. exact H.
Qed.
Print Assumptions C82_files_kept.

Lemma orderly_eq : forall e p h d held give s is g n g' n',
  orderly e p h d held give s is g n -> g = g' -> n = n' -> orderly e p h d held give s is g' n'.
Proof. intros. subst. assumption. Qed.

Definition held_run : list sys_input :=
  [SysJoin [Some 1]; SysQuery 1 [0; 0; 0; 15] (Some 5000); SysQuery 1 [0; 0; 0; 15] (Some 5001);
   SysDb (Connect 5000); SysDb (Close 5000); SysQuery 1 [] (Some 5000); SysMapper session_nfs].
Example C82_case :
  orderly Little Checked reverse_order example_found_db tcp_held tcp_given (system_start true true true true) held_run 3 1 /\
  orderly Little Checked reverse_order example_found_db udp_held udp_given (system_start true true true true) held_run 1 0.
Proof.
  split; (eapply orderly_eq; [|shelve..]); unfold held_run;
    repeat (apply ord_step; [intros port I; vm_compute in I; repeat (destruct I as [<-|I]; [split; vm_compute; reflexivity|]); destruct I|]);
    try apply ord_nil.
  Unshelve. all: vm_compute; reflexivity.
Qed.
Example C82_case_files :
  history_ok ([open_a] ++ [open_b]) /\ never_killed Little ([open_a] ++ [open_b]) /\
  option_map (fun n => List.length (nf_files n)) (sv_nfs (fst (served Little ([open_a] ++ [open_b])))) = Some 2%nat.
Proof.
  destruct (open_ab_well Little) as (A & B & _). split; [exact A|]. split; [exact B|]. vm_compute. reflexivity.
Qed.
