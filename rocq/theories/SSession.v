(** Specification of what one player does in the running process: its
    conversations over database connections and what it reads in them. *)

From Verif Require Import Base Unicode MDb MDatabase MLib MSystem SConn SDb SLib SSystem.
Open Scope list_scope.
Open Scope N_scope.

(** What happens at a database port, and what is sent there. *)
Definition db_inputs (port : N) (is : list sys_input) : list db_event :=
  flat_map (fun i => match i with
    | SysDb (Connect q) => if q =? port then [Connect q] else []
    | SysDb (Chunk q c) => if q =? port then [Chunk q c] else []
    | SysDb (Close q) => if q =? port then [Close q] else []
    | _ => [] end) is.
Definition db_answers (port : N) (os : list sys_output) : list bytes :=
  flat_map (fun o => match o with OutDb (Answer q b) => if q =? port then [b] else [] | _ => [] end) os.

(** The operating system hands out [port] for a query. *)
Definition hands_out (i : sys_input) (port : N) : Prop := exists c chunk, i = SysQuery c chunk (Some port).

(** In a run, [port] was given to somebody who asked for it on a connection to the
    database port; then, before it was handed out again, if it was, the first
    client to connect to it sent [chunks], and [answers] were sent there. *)
Definition conversation (tr : trace) (port : N) (chunks answers : list bytes) : Prop :=
  exists before c query os during later,
    tr = before ++ (SysQuery c query (Some port), os) :: during ++ later /\
    os = [OutQuery c (be 2 port)] /\
    (forall i os', In (i, os') during -> ~ hands_out i port) /\
    chunks = chunks_connected (db_inputs port (map fst during)) /\
    answers = db_answers port (List.concat (map snd during)).

(** In a conversation the player asks, as its messages number [k] and [k + 1], for
    a menu (transaction [tx], request code [code], arguments [args]) and to have it
    rendered (transaction [tx']), and reads the messages [ms]. *)
Definition reads_at (chunks answers : list bytes) (k : nat) (tx tx' code : N) (args : list N) (ms : list cmsg) : Prop :=
  tx < 2 ^ 32 /\ tx' < 2 ^ 32 /\
  nth_error chunks k = Some (client_request tx code args) /\
  nth_error chunks (S k) = Some (client_request tx' 0x3000 []) /\
  exists b, nth_error answers (S k) = Some b /\ read_stream b = Some ms.

(** It reads, in some conversation of the run, of an artist with id [a] and name
    [n]; of a track of [a] with id [t] and title [x]; that [t] is to be loaded from
    [path] and has [size] bytes. *)
Definition sees_artist (tr : trace) (a : N) (n : str) : Prop :=
  exists port chunks answers k tx tx' ms,
    conversation tr port chunks answers /\ Forall bytes_ok chunks /\
    reads_at chunks answers k tx tx' 0x1002 [] ms /\ In (row tx' a n 7) (items ms).
Definition sees_track (tr : trace) (a t : N) (x : str) : Prop :=
  a < 2 ^ 32 /\
  exists port chunks answers k tx tx' ms,
    conversation tr port chunks answers /\ Forall bytes_ok chunks /\
    reads_at chunks answers k tx tx' 0x1202 [0; 0; a] ms /\ In (row tx' t x 4) (items ms).
Definition sees_path (tr : trace) (t : N) (path : str) (size : N) : Prop :=
  t < 2 ^ 32 /\
  exists port chunks answers k tx tx' ms,
    conversation tr port chunks answers /\ Forall bytes_ok chunks /\
    reads_at chunks answers k tx tx' 0x2102 [0; t] ms /\ In (item tx' size 5 path [] 0 0 0) (items ms).

(** It asks so, everything before having been answered. *)
Definition asks_at (chunks answers : list bytes) (k : nat) (tx tx' code : N) (args : list N) : Prop :=
  tx < 2 ^ 32 /\ tx' < 2 ^ 32 /\ (k <= List.length answers)%nat /\
  nth_error chunks k = Some (client_request tx code args) /\
  nth_error chunks (S k) = Some (client_request tx' 0x3000 []).

(** In every conversation of the run in which it asks so, it reads [item tx']. *)
Definition always_reads (tr : trace) (code : N) (args : list N) (item : N -> cmsg) : Prop :=
  forall port chunks answers k tx tx', conversation tr port chunks answers -> Forall bytes_ok chunks ->
    asks_at chunks answers k tx tx' code args ->
    exists ms, reads_at chunks answers k tx tx' code args ms /\ In (item tx') (items ms).
