(** Model of the pauses of the three threads of MThreads.v.  Every action has a
    time in milliseconds.  [thread::sleep] lasts at least as long as asked for, so
    it is modelled as the earliest time of the next action of the thread; all else
    takes any time. *)

From Verif Require Import Base MNetwork MServer MThreads.
Open Scope list_scope.
Open Scope N_scope.

(** The threads (server.rs:180-206, component/mod.rs:27-34), the time of the last action, and the time until which each
    thread sleeps. *)
Record clocked := mkClocked {
  ck_threads : threads;
  ck_now : N;
  ck_ka : N;
  ck_bc : N;
  ck_app : N
}.

(** server.rs:63-99 and component/mod.rs:27-31: no thread begins with a pause. *)
Definition clocked_start : clocked := mkClocked threads_start 0 0 0 0.

(** The time until which a thread sleeps; it models nothing by itself. *)
Definition ck_until (c : clocked) (w : thread) : N :=
  match w with KaThread => ck_ka c | BcThread => ck_bc c | AppThread => ck_app c end.

(** keepalive.rs:116-121: 250 ms once [recv_from] is done with. *)
Definition ka_pause (t : threads) : N := match th_ka t with KaIdle => 250 | _ => 0 end.

(** server.rs:192-205: 500 ms once the mutex is released, or found poisoned. *)
Definition bc_pause (t : threads) : N := match th_bc t with BcIdle => 500 | _ => 0 end.

(** component/mod.rs:30-33: 150 ms once [next] is done with.  server.rs:104, 118,
    129 and 154 with 72: 50 ms after each datagram of the handshake, and 50 ms more
    after each but the last. *)
Definition app_pause (t : threads) : N :=
  match th_app t with
  | AppIdle => 150
  | AppSends _ (S k) => if Nat.ltb k 39 then 50 + 50 else 50
  | _ => 0
  end.

(** The action is made at time [s] and leads to [t]: the thread that made it
    sleeps.  The pauses are those cited above. *)
Definition pause (c : clocked) (s : N) (a : action) (t : threads) : clocked :=
  match thread_of a with
  | KaThread => mkClocked t s (s + ka_pause t) (ck_bc c) (ck_app c)
  | BcThread => mkClocked t s (ck_ka c) (s + bc_pause t) (ck_app c)
  | AppThread => mkClocked t s (ck_ka c) (ck_bc c) (s + app_pause t)
  end.

(** One action at a time that is not in the past and at which its thread is
    awake; [None] if it is not possible.  The pauses are those cited above. *)
Definition timed_act (c : clocked) (s : N) (a : action) : option (clocked * list (N * output)) :=
  if ((ck_now c <=? s) && (ck_until c (thread_of a) <=? s))%bool then
    match act (ck_threads c) a with
    | Some (t, os) => Some (pause c s a t, map (pair s) os)
    | None => None
    end
  else None.

(** A schedule with times, and the outputs with theirs. *)
Fixpoint timed_from (c : clocked) (acts : list (N * action)) : option (clocked * list (N * output)) :=
  match acts with
  | [] => Some (c, [])
  | (s, a) :: acts =>
      match timed_act c s a with
      | Some (c, o) =>
          match timed_from c acts with
          | Some (c, os) => Some (c, o ++ os)
          | None => None
          end
      | None => None
      end
  end.

(** The same from the start (component/mod.rs:27-34). *)
Definition timed (acts : list (N * action)) : option (clocked * list (N * output)) :=
  timed_from clocked_start acts.
