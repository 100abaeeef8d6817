(** Specification of the whole way from the music folder to the player: the music
    of a folder, what a player sees of it, and the parts of a path. *)

From Verif Require Import Base Unicode MPath MDb MDatabase MScan MLib SDb SDatabase SLib SScan.
From Coq Require Import String.
Open Scope list_scope.
Open Scope N_scope.

(** ** The folder *)

(** Below the folder [root], whose own name is [rname], the names [names] lead to
    a visible mp3 file, recorded as [s]. *)
Definition music (root rname : bytes) (tree : node) (names : list bytes) (s : scanned) : Prop :=
  exists f, In (names, f) (all_files tree) /\
    (forall n, In n (rname :: names) -> ~ dotted n) /\ mp3_name (last names rname) /\
    recorded f (below root names) s.

(** The texts of the tags are Unicode text, as their type says. *)
Definition tags_ok (tree : node) : Prop :=
  forall names f, In (names, f) (all_files tree) ->
    (forall t x, fi_v2 f = Some t -> v2_artist t = Some x \/ v2_title t = Some x -> str_ok x) /\
    (forall t, fi_v1 f = Some t -> str_ok (v1_artist t) /\ str_ok (v1_title t)).

(** No two files have the same names. *)
Definition distinct_files (tree : node) : Prop := NoDup (map fst (all_files tree)).

(** The program has scanned the folder [root] and indexed what it found. *)
Definition indexed_folder (p : profile) (h : hash_order) (root rname : bytes) (tree : node)
  (l : list scanned) (d : database) : Prop :=
  order_ok h /\ tree_ok tree /\ tags_ok tree /\ name_ok rname /\
  (root = rname \/ exists parent, root = parent ++ lit "/" ++ rname) /\
  scan_folder p root tree = Ok l /\ len l < 2 ^ 32 - 1 /\ db_new p h l = Ok d.

(** The titles and paths of the tracks of the artist [n] are short. *)
Definition short_tracks (l : list scanned) (n : str) : Prop :=
  forall s, In s l -> s_artist s = n -> short (s_title s) /\
    forall path, str_ok path -> s_path s = utf8_encode path -> short path.

(** ** The player *)

(** On a connection with the history [history] of answered chunks, the player
    asks for a menu (transaction [tx], request code [code], arguments [args]) and
    has it rendered (transaction [tx']); both are answered and it reads [ms]. *)
Definition shows (p : profile) (h : hash_order) (d : database) (history : list bytes)
  (tx tx' code : N) (args : list N) (ms : list cmsg) : Prop :=
  exists a b,
    serve p h d None (history ++ [client_request tx code args; client_request tx' 0x3000 []])
    = serve p h d None history ++ [a; b] /\
    read_stream b = Some ms.

(** One such question on a connection: what went before, and the two transaction
    ids. *)
Record asking := mkAsking { ask_history : list bytes; ask_tx : N; ask_tx' : N }.
Definition asking_ok (p : profile) (h : hash_order) (d : database) (q : asking) : Prop :=
  Forall bytes_ok (ask_history q) /\
  List.length (serve p h d None (ask_history q)) = List.length (ask_history q) /\
  ask_tx q < 2 ^ 32 /\ ask_tx' q < 2 ^ 32.
Definition asked (p : profile) (h : hash_order) (d : database) (q : asking) (code : N) (args : list N)
  (ms : list cmsg) : Prop :=
  shows p h d (ask_history q) (ask_tx q) (ask_tx' q) code args ms.

(** The list of artists has an artist with id [a] and name [n]. *)
Definition lists_artist p h d q (a : N) (n : str) : Prop :=
  exists ms, asked p h d q 0x1002 [] ms /\ In (row (ask_tx' q) a n 7) (items ms).
(** The titles of the artist with id [a] have a track with id [t] and title [x]. *)
Definition lists_track p h d q (a t : N) (x : str) : Prop :=
  a < 2 ^ 32 /\
  exists ms, asked p h d q 0x1202 [0; 0; a] ms /\ In (row (ask_tx' q) t x 4) (items ms).
(** The track with id [t] is to be loaded from [path] and has [size] bytes. *)
Definition gives_path p h d q (t : N) (path : str) (size : N) : Prop :=
  t < 2 ^ 32 /\
  exists ms, asked p h d q 0x2102 [0; t] ms /\ In (item (ask_tx' q) size 5 path [] 0 0 0) (items ms).
(** The track with id [t] has the title [x], the artist [n] and the tempo [b]. *)
Definition gives_metadata p h d q (t : N) (x n : str) (b : N) : Prop :=
  t < 2 ^ 32 /\
  exists ms, asked p h d q 0x2002 [0; t] ms /\
    In (item (ask_tx' q) 1 5 x [] 4 0 256) (items ms) /\
    In (item (ask_tx' q) 1 1 n [] 7 0 0) (items ms) /\
    In (item (ask_tx' q) 0 b [] [] 0x0d 0 0) (items ms).
