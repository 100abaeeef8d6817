(** Model of the pause of src/rekordbox/status_event_server.rs.  Times are in
    milliseconds; as in MTime.v, [thread::sleep] lasts at least as long as asked
    for. *)

From Verif Require Import Base MPackets MStatus.
Open Scope list_scope.
Open Scope N_scope.

(** The status thread (server.rs:158-170): whether it is alive, and the time until which it sleeps. *)
Record status_clock := mkStClock { sc_alive : bool; sc_until : N }.

(** server.rs:158-170: it begins without a pause. *)
Definition status_clock_start : status_clock := mkStClock true 0.

(** status_event_server.rs:107-122 with 46-48: one turn of [run], whose
    [recv_from] is done with at time [s], then 150 ms of sleep.  [None] if the
    thread sleeps or has panicked.  The time from receiving to sending is
    neglected. *)
Definition status_timed_turn (c : status_clock) (s : N) (i : status_input)
  : option (status_clock * list (N * sent)) :=
  if (sc_alive c && (sc_until c <=? s))%bool then
    match status_turn i with
    | Ok out => Some (mkStClock true (s + 150), map (pair s) out)
    | _ => Some (mkStClock false s, [])
    end
  else None.

(** The loop of status_event_server.rs:107-122, from a state of the thread. *)
Fixpoint status_timed_from (c : status_clock) (ts : list (N * status_input))
  : option (status_clock * list (N * sent)) :=
  match ts with
  | [] => Some (c, [])
  | (s, i) :: ts =>
      match status_timed_turn c s i with
      | Some (c, o) =>
          match status_timed_from c ts with
          | Some (c, os) => Some (c, o ++ os)
          | None => None
          end
      | None => None
      end
  end.

(** The same from the start (server.rs:158-170). *)
Definition status_timed (ts : list (N * status_input)) : option (status_clock * list (N * sent)) :=
  status_timed_from status_clock_start ts.
