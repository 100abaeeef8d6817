(** Property theorem C92 in the running process. *)

From Verif Require Import Base Unicode MDb MDatabase MLib MStream MRpc MRpcServer MNfs MSystem SConn SDb SLib SSystem SSession SStream
  PDatabase PLib PScan PEnd PStream PSession.
Open Scope list_scope.
Open Scope N_scope.

(** In the running process, whatever the other players and the rest of the program
    do: over a connection whose failure lasts, the client at a port that was given
    out has received the answers the process makes there, one after the other, up to
    some byte; all of them, if no write fails. *)
Theorem C92_in_process : forall e p h d mp db is port es answers, process_runs is ->
  conversation (combine is (snd (sys_run e p h d is (system_start true true mp db)))) port (arrived es) answers ->
  (failure_lasts es -> exists missing, List.concat answers = List.concat (snd (stream_run p h d es)) ++ missing) /\
  (no_write_fails es -> List.concat answers = List.concat (snd (stream_run p h d es))).
Proof.
  intros e p h d mp db is port es answers R C.
  rewrite (C79_conversation e p h d mp db is port (arrived es) answers R C). split.
  - apply C92_received_in_order.
  - intros N. pose proof (C92_all_received p h d es N) as E.
    assert (K : forall ws : list bytes, List.concat (filter (fun w => negb (len w =? 0)) ws) = List.concat ws).
    { intros ws. induction ws as [|w ws IH]; [reflexivity|]. cbn [filter List.concat].
      destruct w as [|b w]; cbn [len List.length]; [exact IH|]. 
      replace (negb (len (b :: w) =? 0)) with true by reflexivity. cbn [List.concat]. rewrite IH. reflexivity. }
    rewrite <- K, <- E, K. reflexivity.
Qed.
Print Assumptions C92_in_process.

(** The session of C80, with a connection that breaks in the middle of the fourth
    answer. *)
Definition lossy_chunks : list bytes :=
  map (fun i => match i with SysDb (Chunk _ c) => c | _ => [] end)
    (session_ask 0x1002 [] 1 ++ session_ask 0x1202 [0; 0; 3] 3 ++ session_ask 0x2102 [0; 3] 5).
Definition lossy_events : list (stream_event bytes) :=
  map (fun c => Arrives c None None) (firstn 3 lossy_chunks) ++
  map (fun c => Arrives c None (Some 10)) (firstn 1 (skipn 3 lossy_chunks)) ++
  map (fun c => Arrives c (Some 0) (Some 0)) (skipn 4 lossy_chunks).
Example C92_case_process :
  let is := session_start ++ SysMapper session_nfs :: session_rest in
  process_runs is /\
  conversation (combine is (snd (sys_run Little Checked reverse_order example_found_db is (system_start true true true true))))
    5000 (arrived lossy_events) (db_answers 5000 (List.concat (map snd session_run))) /\
  failure_lasts lossy_events /\
  len (List.concat (snd (stream_run Checked reverse_order example_found_db lossy_events))) = 374.
Proof.
  intros is. split; [vm_compute; reflexivity|].
  split; [replace (arrived lossy_events) with lossy_chunks by (vm_compute; reflexivity); exact session_conversation|].
  split; [|vm_compute; reflexivity].
  intros before c first second after E Ns c' first' second' I.
  unfold lossy_events, lossy_chunks in E. cbn [map firstn skipn app session_ask] in E.
  do 3 (destruct before as [|? before]; [injection E as _ _ <- _; congruence|injection E as _ E]).
  destruct before as [|? before].
  - injection E as _ _ _ <-. destruct I as [I|[I|[]]]; injection I as _ <- <-; auto.
  - injection E as _ E. destruct before as [|? before].
    + injection E as _ _ _ <-. destruct I as [I|[]]; injection I as _ <- <-; auto.
    + injection E as _ E. destruct before as [|? before]; [injection E as _ _ _ <-; destruct I|].
      injection E as _ E. destruct before; discriminate E.
Qed.
