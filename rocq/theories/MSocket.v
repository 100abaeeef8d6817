(** Model of the socket of the keep-alive service: the datagrams the operating
    system holds for it until the thread asks for the next.  Everything else is
    MTime.v. *)

From Verif Require Import Base MNetwork MServer MThreads MTime.
Open Scope list_scope.
Open Scope N_scope.

(** A datagram that came: when, from whom, what (keepalive.rs:129: [recv_from]
    yields the bytes and the sender). *)
Record arrival := mkArrival { ar_time : N; ar_from : N; ar_data : bytes }.

(** The threads (server.rs:180-206) with the socket of keepalive.rs:97-100: the
    datagrams that wait there.  The last three fields only record what happened:
    the datagrams received and when, those the operating system dropped, and the
    actions of the threads. *)
Record socketed := mkSocketed {
  so_clock : clocked;
  so_now : N;
  so_waiting : list arrival;
  so_received : list (N * arrival);
  so_lost : list arrival;
  so_acts : list (N * action)
}.

(** keepalive.rs:104-113: a socket just bound holds nothing. *)
Definition socketed_start : socketed := mkSocketed clocked_start 0 [] [] [] [].

(** What can happen: a datagram comes, the keep-alive thread gets the next one
    (keepalive.rs:129), or any thread does anything else (MThreads.v). *)
Inductive happening := Arrives (from : N) (d : bytes) | Receives | Acts (a : action).

(** An action of a thread, recorded; it models no code of its own. *)
Definition so_act (s : socketed) (t : N) (a : action) (waiting : list arrival) (received : list (N * arrival)) :
  option (socketed * list (N * output)) :=
  match timed_act (so_clock s) t a with
  | Some (c, os) => Some (mkSocketed c t waiting received (so_lost s) (so_acts s ++ [(t, a)]), os)
  | None => None
  end.

(** keepalive.rs:126-137 with what the operating system does: it keeps what comes,
    up to [room] datagrams, drops the rest, and hands out what came first.
    Simplified: the room is a number of datagrams, not of bytes. *)
Definition so_step (room : nat) (s : socketed) (t : N) (x : happening) : option (socketed * list (N * output)) :=
  if so_now s <=? t then
    match x with
    | Arrives from d =>
        let a := mkArrival t from d in
        if Nat.ltb (List.length (so_waiting s)) room
        then Some (mkSocketed (so_clock s) t (so_waiting s ++ [a]) (so_received s) (so_lost s) (so_acts s), [])
        else Some (mkSocketed (so_clock s) t (so_waiting s) (so_received s) (so_lost s ++ [a]) (so_acts s), [])
    | Receives =>
        match so_waiting s with
        | a :: w => so_act s t (KaReceives (ar_data a)) w (so_received s ++ [(t, a)])
        | [] => None
        end
    | Acts (KaReceives _) => None
    | Acts a => so_act s t a (so_waiting s) (so_received s)
    end
  else None.

(** A run (keepalive.rs:116-121 and the other threads). *)
Fixpoint so_run_from (room : nat) (s : socketed) (xs : list (N * happening)) : option (socketed * list (N * output)) :=
  match xs with
  | [] => Some (s, [])
  | (t, x) :: xs =>
      match so_step room s t x with
      | Some (s, o) =>
          match so_run_from room s xs with
          | Some (s, os) => Some (s, o ++ os)
          | None => None
          end
      | None => None
      end
  end.

(** The same from the start (server.rs:63-99). *)
Definition so_run (room : nat) (xs : list (N * happening)) : option (socketed * list (N * output)) :=
  so_run_from room socketed_start xs.
