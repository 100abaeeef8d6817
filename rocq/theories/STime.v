(** Specification for the pauses: how far apart actions are, and what it means
    that no thread is left waiting. *)

From Verif Require Import Base MNetwork MServer MThreads MTime SThreads.
Open Scope list_scope.
Open Scope N_scope.

(** The times of the actions of some kind. *)
Definition moments (kind : action -> bool) (acts : list (N * action)) : list N :=
  map fst (filter (fun x => kind (snd x)) acts).

(** Each time is at least [d] after every earlier one. *)
Definition apart (d : N) (times : list N) : Prop :=
  forall before s between s' after, times = before ++ s :: between ++ s' :: after -> s + d <= s'.

(** The kinds of action there are pauses between. *)
Definition receives (a : action) : bool := match a with KaReceives _ | KaFails => true | _ => false end.
Definition announces (a : action) : bool := match a with BcSends _ => true | _ => false end.
Definition hands_over (a : action) : bool := match a with AppSendsNext _ => true | _ => false end.
Definition takes (a : action) : bool := match a with AppTakes => true | _ => false end.

(** How long a thread that has made [a] sleeps, at the least, if [a'] is what it
    makes next. *)
Definition rest (a a' : action) : N :=
  match a, a' with
  | _, (KaReceives _ | KaFails) => 250
  | _, BcAcquires => 500
  | _, AppTakes => 150
  | AppSendsNext _, AppSendsNext _ => 100
  | AppSendsNext _, AppReleases => 50
  | _, _ => 0
  end.

(** Each thread sleeps that long between each action and its next. *)
Definition rested (acts : list (N * action)) : Prop :=
  forall pre s a mid s' a' post, acts = pre ++ (s, a) :: mid ++ (s', a') :: post ->
    thread_of a = thread_of a' -> (forall x, In x mid -> thread_of (snd x) <> thread_of a') ->
    s + rest a a' <= s'.

(** The actions of the other threads that need the shared state. *)
Definition uses_state (a : action) : bool :=
  match a with
  | KaAcquires | KaLooksUp _ | KaQueues | KaReleases | BcAcquires | BcSends _ | BcReleases => true
  | _ => false
  end.

(** How many datagrams are sent from time [s] to time [s + d]. *)
Definition sent_within (s d : N) (os : list (N * output)) : nat :=
  List.length (datagrams (map snd (filter (fun x => (s <=? fst x) && (fst x <=? s + d))%bool os))).

(** The thread has something to do, and nothing hinders it but its sleep. *)
Definition able (c : clocked) (w : thread) : Prop :=
  has_work (ck_threads c) w /\ can_act (ck_threads c) w.

(** No thread is left waiting for longer than [d] ms: if a thread is able to go on
    from the end of [pre] to the end of [mid], and does not, then the next action
    of all comes at most [d] ms after it was both able and awake. *)
Definition prompt (d : N) (acts : list (N * action)) : Prop :=
  forall pre mid s a post w, acts = pre ++ mid ++ (s, a) :: post ->
    (forall m1 m2, mid = m1 ++ m2 -> exists c os, timed (pre ++ m1) = Some (c, os) /\ able c w) ->
    (forall x, In x mid -> thread_of (snd x) <> w) ->
    forall c os, timed pre = Some (c, os) -> s <= N.max (ck_now c) (ck_until c w) + d.

(** The program knows its network, and no thread has panicked with the shared state. *)
Definition in_order (c : clocked) : Prop :=
  st_address (th_state (ck_threads c)) <> None /\ th_poisoned (ck_threads c) = false.
