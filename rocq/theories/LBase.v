(** Lemmas about bytes, numbers and the nom combinators. *)

From Verif Require Import Base.
From Coq Require Export Lia ZifyBool ZifyNat ZifyN Permutation.
From Coq Require Import ZArith.
Open Scope N_scope.
Ltac Zify.zify_post_hook ::= Z.div_mod_to_equations.

Lemma len_nil : forall A, len (@nil A) = 0.
Proof. reflexivity. Qed.

Lemma len_cons : forall A (x : A) l, len (x :: l) = 1 + len l.
Proof. intros. unfold len. cbn [length]. lia. Qed.

Lemma len_app : forall A (a b : list A), len (a ++ b) = len a + len b.
Proof. intros. unfold len. rewrite app_length. lia. Qed.

Lemma len_repeat : forall A (x : A) n, len (repeat x n) = N.of_nat n.
Proof. intros. unfold len. rewrite repeat_length. reflexivity. Qed.

Lemma len_map : forall A B (f : A -> B) l, len (map f l) = len l.
Proof. intros. unfold len. rewrite map_length. reflexivity. Qed.

Lemma len_firstn : forall A n (l : list A), len (firstn n l) = N.min (N.of_nat n) (len l).
Proof. intros. unfold len. rewrite firstn_length. lia. Qed.

Lemma len_skipn : forall A n (l : list A), len (skipn n l) = len l - N.of_nat n.
Proof. intros. unfold len. rewrite skipn_length. lia. Qed.

Lemma len_0 : forall A (l : list A), len l = 0 -> l = [].
Proof. intros A [|x l]; [reflexivity|]. rewrite len_cons. lia. Qed.

Lemma to_nat_len : forall A (l : list A), N.to_nat (len l) = length l.
Proof. intros. unfold len. lia. Qed.

Lemma perm_len : forall A (a b : list A), Permutation a b -> len a = len b.
Proof. intros A a b H. unfold len. rewrite (Permutation_length H). reflexivity. Qed.

(** ** Endianness *)

Lemma be_length : forall n x, length (be n x) = n.
Proof.
  induction n; intros; cbn [be]; [reflexivity|].
  rewrite app_length, IHn. cbn. lia.
Qed.

Lemma be_len : forall n x, len (be n x) = N.of_nat n.
Proof. intros. unfold len. rewrite be_length. reflexivity. Qed.

Lemma le_length : forall n x, length (le n x) = n.
Proof. induction n; intros; cbn; [reflexivity|]. now rewrite IHn. Qed.

Lemma be_ok : forall n x, bytes_ok (be n x).
Proof.
  induction n; intros; cbn [be]; [constructor|].
  apply Forall_app; split; [apply IHn|]. repeat constructor. unfold is_byte. lia.
Qed.

Lemma le_ok : forall n x, bytes_ok (le n x).
Proof.
  induction n; intros; cbn [le]; constructor; [unfold is_byte; lia|apply IHn].
Qed.

Lemma of_be_app : forall a b, of_be (a ++ [b]) = of_be a * 256 + b.
Proof. intros. unfold of_be. rewrite fold_left_app. reflexivity. Qed.

Lemma pow256_S : forall n, 256 ^ N.of_nat (S n) = 256 * 256 ^ N.of_nat n.
Proof. intros. rewrite Nnat.Nat2N.inj_succ, N.pow_succ_r'. reflexivity. Qed.

Lemma pow256_pos : forall n, 0 < 256 ^ n.
Proof. intros. apply N.neq_0_lt_0, N.pow_nonzero. lia. Qed.

Lemma of_be_be : forall n x, of_be (be n x) = x mod 256 ^ N.of_nat n.
Proof.
  induction n; intros.
  - cbn. rewrite N.mod_1_r. reflexivity.
  - cbn [be]. rewrite of_be_app, IHn, pow256_S.
    pose proof (pow256_pos (N.of_nat n)). rewrite N.mod_mul_r by lia. lia.
Qed.

Lemma of_be_be_small : forall n x, x < 256 ^ N.of_nat n -> of_be (be n x) = x.
Proof. intros. rewrite of_be_be. apply N.mod_small. assumption. Qed.

Lemma of_be_bound : forall l, bytes_ok l -> of_be l < 256 ^ len l.
Proof.
  intros l. induction l as [|b l IH] using rev_ind; intros H.
  - cbn. lia.
  - apply Forall_app in H. destruct H as [Hl Hb]. inversion Hb; subst.
    rewrite of_be_app, len_app. specialize (IH Hl).
    change (len [b]) with 1. rewrite N.add_1_r, N.pow_succ_r'.
    unfold is_byte in *. nia.
Qed.

Lemma be_of_be : forall l, bytes_ok l -> be (length l) (of_be l) = l.
Proof.
  intros l. induction l as [|b l IH] using rev_ind; intros H; [reflexivity|].
  apply Forall_app in H. destruct H as [Hl Hb]. inversion Hb; subst.
  rewrite app_length, of_be_app. cbn [length]. rewrite Nat.add_1_r. cbn [be].
  unfold is_byte in *.
  replace ((of_be l * 256 + b) / 256) with (of_be l) by lia.
  replace ((of_be l * 256 + b) mod 256) with b by lia.
  rewrite IH by assumption. reflexivity.
Qed.

Lemma of_le_le : forall n x, of_le (le n x) = x mod 256 ^ N.of_nat n.
Proof.
  induction n; intros.
  - cbn. rewrite N.mod_1_r. reflexivity.
  - cbn [le of_le]. pose proof (pow256_pos (N.of_nat n)).
    rewrite IHn, pow256_S, N.mod_mul_r by lia. lia.
Qed.

Lemma of_le_le_small : forall n x, x < 256 ^ N.of_nat n -> of_le (le n x) = x.
Proof. intros. rewrite of_le_le. apply N.mod_small. assumption. Qed.

Lemma le_of_le : forall l, bytes_ok l -> le (length l) (of_le l) = l.
Proof.
  induction l as [|b l IH]; intros H; [reflexivity|].
  inversion H; subst. cbn [length of_le le]. unfold is_byte in *.
  replace ((b + 256 * of_le l) / 256) with (of_le l) by lia.
  replace ((b + 256 * of_le l) mod 256) with b by lia.
  rewrite IH by assumption. reflexivity.
Qed.

Lemma of_le_rev : forall l, of_le l = of_be (rev l).
Proof.
  induction l as [|b l IH]; [reflexivity|].
  cbn [of_le rev]. rewrite of_be_app, IH. lia.
Qed.

Lemma le_rev_be : forall n x, le n x = rev (be n x).
Proof.
  induction n; intros; cbn [le be]; [reflexivity|].
  rewrite rev_app_distr, IHn. reflexivity.
Qed.

Lemma be_inj : forall n x y, x < 256 ^ N.of_nat n -> y < 256 ^ N.of_nat n ->
  be n x = be n y -> x = y.
Proof.
  intros n x y Hx Hy H. rewrite <- (of_be_be_small n x Hx), <- (of_be_be_small n y Hy).
  congruence.
Qed.

Lemma bytes_eqb_spec : forall a b, bytes_eqb a b = true <-> a = b.
Proof.
  induction a as [|x a IH]; destruct b as [|y b]; cbn; split; intro H; try congruence.
  - apply andb_true_iff in H. destruct H as [H1 H2].
    apply N.eqb_eq in H1. apply IH in H2. congruence.
  - inversion H; subst. rewrite N.eqb_refl. cbn. apply IH. reflexivity.
Qed.

Lemma bytes_eqb_refl : forall a, bytes_eqb a a = true.
Proof. intros. apply bytes_eqb_spec. reflexivity. Qed.

(** ** Results *)

Lemma rbind_ok : forall A B (r : res A) (f : A -> res B) b,
  rbind r f = Ok b <-> exists a, r = Ok a /\ f a = Ok b.
Proof.
  intros A B [a| |] f b; cbn; split; intro H.
  - eauto.
  - destruct H as [a' [H1 H2]]. congruence.
  - discriminate.
  - destruct H as [a' [H1 _]]. discriminate.
  - discriminate.
  - destruct H as [a' [H1 _]]. discriminate.
Qed.

(** Split a [rbind r f = Ok b] hypothesis. *)
Ltac inv_bind H :=
  let a := fresh "a" in let H1 := fresh H in
  apply rbind_ok in H; destruct H as [a [H1 H]].

(** ** take, tag, numbers *)

Lemma take_app : forall n (a b : bytes), len a = n -> take n (a ++ b) = Ok (b, a).
Proof.
  intros n a b H. unfold take. rewrite len_app.
  destruct (N.ltb_spec (len a + len b) n); [lia|].
  subst n. rewrite to_nat_len.
  rewrite skipn_app, skipn_all, Nat.sub_diag. cbn.
  rewrite firstn_app, firstn_all, Nat.sub_diag. cbn. rewrite app_nil_r. reflexivity.
Qed.

Lemma take_short : forall n (i : bytes), len i < n -> take n i = Err.
Proof. intros. unfold take. destruct (N.ltb_spec (len i) n); [reflexivity|lia]. Qed.

Lemma take_long : forall n (i : bytes), n <= len i ->
  take n i = Ok (skipn (N.to_nat n) i, firstn (N.to_nat n) i).
Proof. intros. unfold take. destruct (N.ltb_spec (len i) n); [lia|reflexivity]. Qed.

Lemma take_ok : forall n i r d,
  take n i = Ok (r, d) <-> i = d ++ r /\ len d = n.
Proof.
  intros. split.
  - unfold take. destruct (N.ltb_spec (len i) n); [discriminate|].
    intro H0. inversion H0; subst. split.
    + symmetry. apply firstn_skipn.
    + rewrite len_firstn. lia.
  - intros [-> H]. apply take_app. assumption.
Qed.

Lemma take_cases : forall n i,
  (len i < n /\ take n i = Err) \/
  (n <= len i /\ exists d r, i = d ++ r /\ len d = n /\ take n i = Ok (r, d)).
Proof.
  intros. destruct (N.lt_ge_cases (len i) n) as [H|H].
  - left. split; [assumption|]. apply take_short. assumption.
  - right. split; [assumption|]. exists (firstn (N.to_nat n) i), (skipn (N.to_nat n) i).
    split; [symmetry; apply firstn_skipn|]. split; [rewrite len_firstn; lia|].
    apply take_long. assumption.
Qed.

Lemma take_no_panic : forall n i, take n i <> Panic.
Proof. intros. unfold take. destruct (len i <? n); discriminate. Qed.

Lemma tag_ok : forall t i r u, tag t i = Ok (r, u) <-> i = t ++ r.
Proof.
  induction t as [|x t IH]; intros; cbn.
  - split; intro H; [inversion H; reflexivity|destruct u; subst; reflexivity].
  - destruct i as [|y i]; [split; discriminate|].
    destruct (N.eqb_spec x y) as [->|Hn].
    + rewrite IH. split; intro H; [now subst|congruence].
    + split; intro H; [discriminate|congruence].
Qed.

Lemma tag_app : forall t r, tag t (t ++ r) = Ok (r, tt).
Proof. intros. apply tag_ok. reflexivity. Qed.

Lemma tag_no_panic : forall t i, tag t i <> Panic.
Proof.
  induction t as [|x t IH]; intros; cbn; [discriminate|].
  destruct i as [|y i]; [discriminate|]. destruct (x =? y); [apply IH|discriminate].
Qed.

Lemma tag_cases : forall t i,
  (exists r, i = t ++ r /\ tag t i = Ok (r, tt)) \/
  ((forall r, i <> t ++ r) /\ tag t i = Err).
Proof.
  intros. destruct (tag t i) as [[r []]| |] eqn:E.
  - left. exists r. split; [apply tag_ok in E; assumption|reflexivity].
  - right. split; [|reflexivity]. intros r ->. rewrite tag_app in E. discriminate.
  - exfalso. eapply tag_no_panic; eassumption.
Qed.

Lemma be_uint_app : forall n a b, len a = n -> be_uint n (a ++ b) = Ok (b, of_be a).
Proof. intros. unfold be_uint. rewrite take_app by assumption. reflexivity. Qed.

Lemma be_uint_be : forall n x b, x < 256 ^ N.of_nat n ->
  be_uint (N.of_nat n) (be n x ++ b) = Ok (b, x).
Proof.
  intros. rewrite be_uint_app by apply be_len. rewrite of_be_be_small by assumption.
  reflexivity.
Qed.

Lemma be_u8_cons : forall x b, be_u8 (x :: b) = Ok (b, x).
Proof. intros. change (x :: b) with ([x] ++ b). unfold be_u8. now rewrite be_uint_app. Qed.

Lemma be_u16_be : forall x b, x < 65536 -> be_u16 (be 2 x ++ b) = Ok (b, x).
Proof. intros. apply (be_uint_be 2). assumption. Qed.

Lemma be_u32_be : forall x b, x < 4294967296 -> be_u32 (be 4 x ++ b) = Ok (b, x).
Proof. intros. apply (be_uint_be 4). assumption. Qed.

Lemma be_u64_be : forall x b, x < 18446744073709551616 -> be_u64 (be 8 x ++ b) = Ok (b, x).
Proof. intros. apply (be_uint_be 8). assumption. Qed.

Lemma be_uint_short : forall n i, len i < n -> be_uint n i = Err.
Proof. intros. unfold be_uint. rewrite take_short by assumption. reflexivity. Qed.

Lemma be_uint_ok : forall n i r v,
  be_uint n i = Ok (r, v) <-> exists d, i = d ++ r /\ len d = n /\ v = of_be d.
Proof.
  intros. unfold be_uint. rewrite rbind_ok. split.
  - intros [[r' d] [H1 H2]]. apply take_ok in H1. inversion H2; subst.
    exists d. intuition.
  - intros [d [-> [H ->]]]. exists (r, d). split; [now apply take_app|reflexivity].
Qed.

Lemma be_uint_no_panic : forall n i, be_uint n i <> Panic.
Proof.
  intros. unfold be_uint. destruct (take n i) as [[? ?]| |] eqn:E; cbn; try discriminate.
  exfalso. eapply take_no_panic; eassumption.
Qed.

Lemma be_uint_cases : forall n i,
  (len i < n /\ be_uint n i = Err) \/
  (n <= len i /\ exists d r, i = d ++ r /\ len d = n /\ be_uint n i = Ok (r, of_be d)).
Proof.
  intros. unfold be_uint. destruct (take_cases n i) as [[H E]|[H [d [r [-> [Hd E]]]]]].
  - left. rewrite E. auto.
  - right. split; [assumption|]. exists d, r. rewrite E. auto.
Qed.

Lemma bytes_ok_app : forall a b, bytes_ok (a ++ b) <-> bytes_ok a /\ bytes_ok b.
Proof. intros. apply Forall_app. Qed.

Lemma bytes_ok_firstn : forall n l, bytes_ok l -> bytes_ok (firstn n l).
Proof.
  intros n l H. rewrite <- (firstn_skipn n l) in H. apply bytes_ok_app in H. tauto.
Qed.

Lemma bytes_ok_skipn : forall n l, bytes_ok l -> bytes_ok (skipn n l).
Proof.
  intros n l H. rewrite <- (firstn_skipn n l) in H. apply bytes_ok_app in H. tauto.
Qed.

Lemma bytes_ok_repeat0 : forall n, bytes_ok (repeat 0 n).
Proof. induction n; cbn; constructor; auto. unfold is_byte; lia. Qed.

Lemma app_inj_len : forall A (a b c d : list A), len a = len c -> a ++ b = c ++ d ->
  a = c /\ b = d.
Proof.
  intros A a b c d H E. unfold len in H. apply Nnat.Nat2N.inj in H.
  revert c H E. induction a as [|x a IH]; intros [|y c] H E; cbn in *; try discriminate.
  - auto.
  - inversion E; subst. inversion H. destruct (IH c H1 H2). subst. auto.
Qed.
