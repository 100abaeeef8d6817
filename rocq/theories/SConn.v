(** Independent specification of what concerns one database connection among
    many: its events, and the answers sent on it. *)

From Verif Require Import Base MLib.

(** The event is about the handler on port [q]. *)
Definition about (q : N) (e : db_event) : bool :=
  match e with
  | Query port _ => port =? q
  | Connect port => port =? q
  | Chunk port _ => port =? q
  | Close port => port =? q
  end.

(** The answers sent on the connection to port [q], in order. *)
Definition answers_on (q : N) (o : list db_output) : list bytes :=
  flat_map (fun x => match x with Answer port b => if port =? q then [b] else [] | _ => [] end) o.

(** The port numbers announced on the query port, in order. *)
Definition announced_ports (o : list db_output) : list bytes :=
  flat_map (fun x => match x with PortAnswer b => [b] | _ => [] end) o.

(** The ports the operating system handed out, in order. *)
Definition handed_out (es : list db_event) : list N :=
  flat_map (fun e => match e with Query port _ => [port] | _ => [] end) es.

(** The chunks that belong to the connection served on a port, in a history of
    the port since it was handed out: those from the first connection on, until
    it is closed.  Further attempts to connect do not count. *)
Fixpoint chunks_served (es : list db_event) : list bytes :=
  match es with
  | Chunk _ c :: es => c :: chunks_served es
  | Close _ :: _ => []
  | _ :: es => chunks_served es
  | [] => []
  end.
Fixpoint chunks_connected (es : list db_event) : list bytes :=
  match es with
  | Connect _ :: es => chunks_served es
  | _ :: es => chunks_connected es
  | [] => []
  end.
