(** Specification of the pace of the status service: datagrams that wait at its
    socket, and what it means that they are taken without delay. *)

From Verif Require Import Base MPackets MStatus MStatusTime.
Open Scope list_scope.
Open Scope N_scope.

(** What is sent from time [s] to time [s + d]. *)
Definition replies_within (s d : N) (os : list (N * sent)) : list (N * sent) :=
  filter (fun x => (s <=? fst x) && (fst x <=? s + d))%bool os.

(** The times at which the datagrams arrive, in order; each is received after it
    has arrived. *)
Definition after_arrival (arrivals : list N) (ts : list (N * status_input)) : Prop :=
  forall k a s i, nth_error arrivals k = Some a -> nth_error ts k = Some (s, i) -> a <= s.

(** A datagram is received at most [d] ms after it has arrived and the previous
    one was received 150 ms ago. *)
Definition received_promptly (d : N) (arrivals : list N) (ts : list (N * status_input)) : Prop :=
  forall k a s i, nth_error arrivals k = Some a -> nth_error ts k = Some (s, i) ->
    match k with
    | O => s <= a + d
    | S k => forall s' i', nth_error ts k = Some (s', i') -> s <= N.max a (s' + 150) + d
    end.
