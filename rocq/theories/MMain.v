(** Model of src/main.rs and src/component/mod.rs [App::new]: the program from its
    start. *)

From Verif Require Import Base Unicode MPath MNetwork MPackets MDatabase MScan MServer MStatus MDb MLib MRpc MRpcServer
  MNfs MSystem.
From Coq Require Import String.
Open Scope list_scope.
Open Scope N_scope.

(** main.rs:11: the folder, written into the program. *)
Definition music_path : bytes := lit "/home/jonas/Music/TermDJ".

(** What the system has at the path of main.rs:11: a folder, a file, or nothing ([NBad]); or a
    symbolic link to one of these. *)
Inductive place :=
| Place (n : node)
| LinkTo (target : node).

(** src/library.rs:122-127, [scan_folder], on either. *)
Definition scan_place (p : profile) (root : bytes) (pl : place) : res (list scanned) :=
  match pl with
  | Place n => scan_folder p root n
  | LinkTo n => scan_link p root n
  end.

(** component/mod.rs:13-25, [App::new], with rekordbox/library/database.rs
    [Database::new]: scan, then index.  [Server::new] only stores its arguments. *)
Definition app_new (p : profile) (h : hash_order) (path : bytes) (pl : place) : res database :=
  do l <- scan_place p path pl; db_new p h l.

(** main.rs:9-15 with component/mod.rs:27-34: the folder is scanned before
    anything is bound; a panic there ends the process.  The flags are those of
    [system_start].  What is sent in answer to each input. *)
Definition program (e : endian) (p : profile) (h : hash_order) (pl : place)
  (keepalive_ok status_ok mapper_ok db_ok : bool) (is : list sys_input) : list (list sys_output) :=
  match app_new p h music_path pl with
  | Ok d => snd (sys_run e p h d is (system_start keepalive_ok status_ok mapper_ok db_ok))
  | _ => map (fun _ => []) is
  end.
