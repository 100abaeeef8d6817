(** Model of the connection of one client of the database with a network that can
    fail: src/rekordbox/library.rs, [spawn_library_client_handler].  MLib treats an
    answer as given when it is handed to the stream; here are the bytes that get
    through. *)

From Verif Require Import Base MDb MDatabase MLib.
Open Scope list_scope.
Open Scope N_scope.

(** tokio-util 0.6, [FramedImpl::poll_flush]: the operating system takes all of the
    write buffer ([None]), or some bytes of it before a write fails.  The bytes
    written, those that stay in the buffer, and whether the flush succeeded; an
    empty buffer needs no write. *)
Definition flush (fails_after : option N) (buffer : bytes) : bytes * bytes * bool :=
  match buffer, fails_after with
  | [], _ => ([], [], true)
  | _, None => (buffer, [], true)
  | _, Some n => (firstn (N.to_nat n) buffer, skipn (N.to_nat n) buffer, false)
  end.

(** [SinkExt::send] on [Framed] with [BytesCodec] (tokio-util 0.6): with 8192 bytes
    or more left over from sends that failed, [poll_ready] flushes these first, and
    its failure is the failure of the send, before the item is in the buffer;
    [start_send] puts the item into the buffer, and the rest is flushed. *)
Definition framed_send (first second : option N) (item buffer : bytes) : bytes * bytes * bool :=
  if 8192 <=? len buffer then
    let '(written, kept, ok) := flush first buffer in
    if ok then let '(more, kept, ok) := flush second (kept ++ item) in (written ++ more, kept, ok)
    else (written, kept, false)
  else flush second (buffer ++ item).

(** What happens on a connection (library.rs:710-724 and 750-776): a chunk [x] arrives (with the outcomes of the at
    most two flushes its answer needs), a read fails (the stream then ends or goes
    on, which differs among the versions of tokio-util), the stream ends. *)
Inductive stream_event A :=
| Arrives (x : A) (first second : option N)
| ReadFails (ends : bool)
| Ends.
Arguments Arrives {A} x first second.
Arguments ReadFails {A} ends.
Arguments Ends {A}.

(** The loops of library.rs:710-725 and of 749-779 over a connection: [answer] is
    what is done with a chunk, in a state of the task; a panic in it ends the task.
    Errors of reading and of sending are printed or ignored and the loop goes on.
    The state of the task and the write buffer; [None] when the task has ended, by a
    panic or with the stream.  What was left in the buffer is then lost. *)
Definition stream_turn {A S} (answer : S -> A -> res (bytes * S)) (c : option (S * bytes)) (e : stream_event A)
  : option (S * bytes) * bytes :=
  match c with
  | None => (None, [])
  | Some (st, buffer) =>
      match e with
      | Arrives x first second =>
          match answer st x with
          | Ok (item, st) =>
              let '(written, kept, _) := framed_send first second item buffer in (Some (st, kept), written)
          | _ => (None, [])
          end
      | ReadFails ends => (if ends then None else c, [])
      | Ends => (None, [])
      end
  end.

(** The bytes written in each turn of these loops (library.rs:710-725, 749-779). *)
Fixpoint stream_turns {A S} (answer : S -> A -> res (bytes * S)) (c : option (S * bytes)) (es : list (stream_event A))
  : option (S * bytes) * list bytes :=
  match es with
  | [] => (c, [])
  | e :: es =>
      let (c, w) := stream_turn answer c e in
      let (c, ws) := stream_turns answer c es in
      (c, w :: ws)
  end.

(** library.rs:700-729, [spawn_library_client_handler]: a connection at a handler's
    port starts with a fresh context and an empty buffer. *)
Definition stream_run (p : profile) (h : hash_order) (d : database) (es : list (stream_event bytes))
  : option (client_state * bytes) * list bytes :=
  stream_turns (process p h d) (Some (None, [])) es.

(** library.rs:752-772, a chunk on a connection to port 12523: [given] is the port
    the system gives ([None]: the bind fails and the [unwrap] of line 758 is a
    panic).  The handler of the new listener is spawned before its port is sent. *)
Definition port_answer (opened : list N) (given : option N) : res (bytes * list N) :=
  match given with
  | Some port => Ok (be 2 port, opened ++ [port])
  | None => Panic
  end.

(** library.rs:746-780: such a connection from its start; the state are the ports
    opened so far for it. *)
Definition port_run (es : list (stream_event (option N))) : option (list N * bytes) * list bytes :=
  stream_turns port_answer (Some ([], [])) es.
