(** Specification for C91: what the two builds of the program, with and without
    overflow checks, make of the same bytes. *)

From Verif Require Import Base Unicode MDb SDb MLib MSystem STraffic.
Open Scope list_scope.
Open Scope N_scope.

(** The arguments of a request, with the type codes [cs], and the same arguments
    with the announced sizes of texts corrected: a size of 0 or of more than 2^31,
    whose double does not fit in 32 bits, is off by 2^31 from the size the text
    has.  The flag tells whether there is such a text. *)
Inductive corrected : list N -> bytes -> bytes -> bool -> Prop :=
| co_nil : forall r, corrected [] r r false
| co_number : forall c k cs t d r r' b, In (c, k) [(4, 1); (5, 2); (6, 4)] -> len d = k ->
    corrected cs r r' b -> corrected (c :: cs) (t :: d ++ r) (t :: d ++ r') b
| co_text : forall cs t s d z r r' b, len s = 4 -> len z = 2 -> 1 <= number s -> len d = 2 * (number s - 1) ->
    corrected cs r r' b -> number s <= 2 ^ 31 ->
    corrected (2 :: cs) (t :: s ++ d ++ z ++ r) (t :: s ++ d ++ z ++ r') b
| co_wrong_text : forall cs t s s' d z r r' b, len s = 4 -> len s' = 4 -> len z = 2 ->
    number s = 0 \/ 2 ^ 31 < number s -> number s' = (number s + 2 ^ 31) mod 2 ^ 32 ->
    len d = 2 * (number s' - 1) -> corrected cs r r' b ->
    corrected (2 :: cs) (t :: s ++ d ++ z ++ r) (t :: s' ++ d ++ z ++ r') true
| co_blob : forall cs s d r r' b, len s = 4 -> len d = number s -> corrected cs r r' b ->
    corrected (3 :: cs) (s ++ d ++ r) (s ++ d ++ r') b
| co_no_blob : forall cs r r' b, len r < 4 -> corrected cs r r' b -> corrected (3 :: cs) r r' b.

(** A request with at least one such text, and the request with all sizes right. *)
Definition oversized (chunk right : bytes) : Prop :=
  exists tag tx code n types args args' j1 j2 j3 j5,
    chunk = request_bytes tag tx code n types args j1 j2 j3 j5 /\
    right = request_bytes tag tx code n types args' j1 j2 j3 j5 /\
    In tag known_tags /\ len tx = 4 /\ len code = 2 /\ len types = 12 /\ len j5 = 5 /\ n <= 12 /\
    bytes_ok right /\ corrected (firstn (N.to_nat n) types) args args' true.

(** No such request arrives from there. *)
Definition well_sized (is : list sys_input) (x : correspondent) : Prop :=
  forall port c right, x = DbPeer port -> In (SysDb (Chunk port c)) is -> bytes_ok c /\ ~ oversized c right.
