(** Specification of what reaches a client over a connection that can fail. *)

From Verif Require Import Base MLib MStream.
Open Scope list_scope.
Open Scope N_scope.

(** The chunks that arrive before the stream has ended. *)
Fixpoint arrived {A} (es : list (stream_event A)) : list A :=
  match es with
  | Arrives x _ _ :: es => x :: arrived es
  | ReadFails false :: es => arrived es
  | _ => []
  end.

(** No write fails. *)
Definition no_write_fails {A} (es : list (stream_event A)) : Prop :=
  forall c first second, In (Arrives c first second) es -> first = None /\ second = None.

(** Once a write has failed no later one takes a byte, as on a TCP connection. *)
Definition failure_lasts {A} (es : list (stream_event A)) : Prop :=
  forall before c first second after, es = before ++ Arrives c first second :: after -> second <> None ->
    forall c' first' second', In (Arrives c' first' second') after -> first' = Some 0 /\ second' = Some 0.

(** Some elements of a list, in its order. *)
Inductive some_of {A} : list A -> list A -> Prop :=
| so_nil : some_of [] []
| so_keep : forall x l l', some_of l l' -> some_of (x :: l) (x :: l')
| so_drop : forall x l l', some_of l l' -> some_of l (x :: l').

(** The ports given before the first that could not be. *)
Fixpoint given_ports (l : list (option N)) : list N :=
  match l with
  | Some q :: l => q :: given_ports l
  | _ => []
  end.
