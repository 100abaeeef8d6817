(** Specification for C107, continued: the memory of a file service and of a
    database connection. *)

From Verif Require Import Base Unicode SUdp MDb MDatabase MRpc SRpc MNetwork MRpcServer SRpcServer MNfs SNfs.
Open Scope list_scope.
Open Scope N_scope.

(** After two histories a file service answers alike, whatever comes from there on. *)
Definition files_alike (e : endian) (hs1 hs2 : history) : Prop :=
  forall is, Forall (fun i => bytes_ok (ni_datagram i)) is ->
    snd (nfs_run e is (fst (served e hs1))) = snd (nfs_run e is (fst (served e hs2))).

(** The service can still answer: it was not killed, and the reply it could not
    send, if there is one, is not too long ever to be sent. *)
Definition speaks (s : nfs_service) : Prop :=
  sv_nfs s <> None /\ forall to d, sv_unsent s = Some (to, d) -> len d <= 65507.

(** Two histories leave the same memory: after both the service can answer, with
    the same reply not yet sent, in the same folder (a slash at the end makes no
    difference), and the same handles stand for the same open files; or after
    neither it can. *)
Definition same_files (e : endian) (hs1 hs2 : history) : Prop :=
  let s1 := fst (served e hs1) in let s2 := fst (served e hs2) in
  (speaks s1 /\ speaks s2 /\ sv_unsent s1 = sv_unsent s2 /\
   resolve (position hs1) [] = resolve (position hs2) [] /\
   forall h f, handle_of_file e hs1 h f <-> handle_of_file e hs2 h f) \/
  (~ speaks s1 /\ ~ speaks s2).

(** What a connection is answered to [more] after [history]. *)
Definition answers_after (serve : list bytes -> list bytes) (history more : list bytes) : list bytes :=
  skipn (List.length history) (serve (history ++ more)).
