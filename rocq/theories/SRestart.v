(** Specification for C85: answers of two runs of the program compared. *)

From Coq Require Import Permutation.
From Verif Require Import Base Unicode MDb SDb SLib.
Open Scope list_scope.
Open Scope N_scope.

(** The same answer, or the same page with its rows in another order. *)
Definition same_but_for_order (a b : bytes) : Prop :=
  a = b \/
  exists header rows rows' footer, Permutation rows rows' /\
    a = messages_encode ([header] ++ rows ++ [footer]) /\
    b = messages_encode ([header] ++ rows' ++ [footer]).

(** The request asks for a list whose order is not fixed: the artists, or the
    titles of an artist. *)
Definition asks_for_list (p : profile) (chunk : bytes) : Prop :=
  exists k tx fs, is_request p chunk k tx 0x1002 fs \/ is_request p chunk k tx 0x1202 fs.
