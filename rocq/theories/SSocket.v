(** Specification for the socket of the keep-alive service: what came, at which
    pace, and what it means that the thread is not kept from receiving. *)

From Verif Require Import Base MNetwork MServer MThreads MTime STime MSocket.
Open Scope list_scope.
Open Scope N_scope.

(** The datagrams that came, in order. *)
Fixpoint arrivals (xs : list (N * happening)) : list arrival :=
  match xs with
  | [] => []
  | (t, Arrives from d) :: xs => mkArrival t from d :: arrivals xs
  | _ :: xs => arrivals xs
  end.

(** [l] is made of [a] and [b], each in its order. *)
Inductive made_of {A} : list A -> list A -> list A -> Prop :=
| MadeNil : made_of [] [] []
| MadeLeft : forall x a b l, made_of a b l -> made_of (x :: a) b (x :: l)
| MadeRight : forall x a b l, made_of a b l -> made_of a (x :: b) (x :: l).

(** Those that came in the [p] ms from [t] on. *)
Definition came_within (t p : N) (l : list arrival) : list arrival :=
  filter (fun a => (t <=? ar_time a) && (ar_time a <? t + p))%bool l.

(** Up to [until], at least [n] datagrams come in any [p] ms. *)
Definition at_least (n p until : N) (l : list arrival) : Prop :=
  forall t, t + p <= until -> n <= len (came_within t p l).

(** No more than [n] datagrams come in any [p] ms. *)
Definition at_most (n p : N) (l : list arrival) : Prop :=
  forall t, len (came_within t p l) <= n.

(** What a list of datagrams costs in all, if [cost] is what each does. *)
Definition work (cost : arrival -> N) (l : list arrival) : N := fold_right (fun a n => cost a + n) 0 l.

(** The datagrams that come in any [p] ms never cost more than [w]. *)
Definition never_more (cost : arrival -> N) (w p : N) (l : list arrival) : Prop :=
  forall t, work cost (came_within t p l) <= w.

(** The datagrams of one sender. *)
Definition of_sender (from : N) (l : list arrival) : list arrival :=
  filter (fun a => ar_from a =? from) l.

(** The sum of the first [k] of a sequence. *)
Fixpoint total (f : nat -> N) (k : nat) : N :=
  match k with O => 0 | S k => total f k + f k end.

(** When the datagram at the head of the queue could be received at the earliest:
    once it is there, and 250 ms after the one before. *)
Definition could_receive (s : socketed) (a : arrival) : N :=
  match rev (so_received s) with
  | (r, _) :: _ => N.max (ar_time a) (r + 250)
  | [] => ar_time a
  end.

(** The thread receives each datagram at most [e] ms after it could, but for what
    holds it up: [extra k] ms before the datagram number [k].  Nothing at all
    happens later than that while the datagram still waits. *)
Definition attentive (room : nat) (e : N) (extra : nat -> N) (xs : list (N * happening)) : Prop :=
  forall pre t x post s os a w, xs = pre ++ (t, x) :: post -> so_run room pre = Some (s, os) ->
    so_waiting s = a :: w -> t <= could_receive s a + e + extra (List.length (so_received s)).

(** The operating system leaves no thread waiting for longer than [d] ms: not one
    that is able to go on (C74), and not the keep-alive thread, once its pause is
    over, for a datagram that is there.  Nothing at all, not even the coming of a
    datagram, is later than that. *)
Definition served (room : nat) (d : N) (xs : list (N * happening)) : Prop :=
  forall pre t x post s os, xs = pre ++ (t, x) :: post -> so_run room pre = Some (s, os) ->
    (forall a, prompt d (so_acts s ++ [(t, a)])) /\
    (forall a w, so_waiting s = a :: w -> th_ka (ck_threads (so_clock s)) = KaIdle ->
       t <= N.max (ar_time a) (ck_ka (so_clock s)) + d).
