(** Specification for C104: several loads at one file service. *)

From Verif Require Import Base Unicode MRpc MRpcServer MNfs SUdp SRpc SNfs SDisk.
Open Scope list_scope.
Open Scope N_scope.

(** A datagram the file service receives, with the disk as it is then. *)
Notation event := (disk * (nfs_input * heard))%type.

(** The datagram is heard as it says, is not of the kind that ends the service, asks
    for no more than fits into an answer, and the answer can be sent. *)
Definition fair (x : event) : Prop :=
  let i := fst (snd x) in
  bytes_ok (ni_datagram i) /\ hears (ni_datagram i) (snd (snd x)) /\ ni_send i = true /\
  match snd (snd x) with
  | Fatal => False
  | Asked _ (NfsRead r) => rd_count r <= 65404
  | _ => True
  end.

(** The lookups among what was received, in their order, whoever made them. *)
Definition lookups (run : list event) : list event :=
  filter (fun x => match snd (snd x) with Asked _ (NfsLookup _) => true | _ => false end) run.

(** The lookups [w] are those of the names one after the other, and each name but
    the last leads, at its time, from folder to folder. *)
Definition walks_along (names : list bytes) (w : list event) : Prop :=
  names <> [] /\ Forall component names /\ List.length w = List.length names /\
  forall j name x, nth_error names j = Some name -> nth_error w j = Some x ->
    (exists xid h, snd (snd x) = Asked xid (NfsLookup (mkLookup name h))) /\
    ((j + 1 < List.length names)%nat -> exists g,
       dk_names (fst x) (absolute (firstn (j + 1) names)) = Some g /\ m_file (dk_info (fst x) g) = false).

(** At the last lookup the names lead to the regular file [f], or to nothing. *)
Definition arrives (names : list bytes) (w : list event) (f : option fid) : Prop :=
  exists x, nth_error w (List.length names - 1) = Some x /\ dk_names (fst x) (absolute names) = f /\
    forall g, f = Some g -> m_file (dk_info (fst x) g) = true.

(** Walks one after the other, each of them made to its end: a regular file, or a
    name that is not there. *)
Inductive one_by_one : list event -> Prop :=
| obo_none : one_by_one []
| obo_walk : forall earlier names w f, one_by_one earlier -> walks_along names w -> arrives names w f ->
    one_by_one (earlier ++ w).

(** The answer to a lookup that found, on the disk [d], the file [f] or nothing. *)
Definition finds (d : disk) (x : nfs_input * heard) (f : option fid) (out : list (peer * bytes)) : Prop :=
  match f with
  | Some f => exists xid p fattr, snd x = Asked xid p /\ fattr_says fattr (dk_info d f) /\
      out = [(ni_from (fst x), std_reply xid (std_lookup_result (handle_for (m_ino (dk_info d f))) fattr))]
  | None => out = []
  end.

(** Among what was received, the datagrams number [js] ask for the first, second,
    ... piece of [cnt] bytes through the handle [h]. *)
Definition asks_pieces (h : bytes) (cnt : N) (run : list event) (js : list nat) : Prop :=
  forall k j, nth_error js k = Some j -> exists d r xid total,
    nth_error run j = Some (d, r) /\ snd r = Asked xid (NfsRead (mkRead h (cnt * N.of_nat k) cnt total)).

(** The reply to the read [x] carries [data]. *)
Definition gives (x : nfs_input * heard) (data : bytes) (out : list (peer * bytes)) : Prop :=
  exists xid p fattr, snd x = Asked xid p /\ len fattr = 68 /\
    out = [(ni_from (fst x), std_reply xid (std_read_result fattr data))].
