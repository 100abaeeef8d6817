(** Model of std's [Path]/[PathBuf] on Unix; no code of the repository here. *)

From Verif Require Import Base.
Open Scope N_scope.

(** The separator of std; no code of the repository. *)
Definition slash : N := 47.
(** The byte of hidden names and extensions (library.rs:16, 25). *)
Definition dot : N := 46.

(** [PathBuf::push] (and [Path::join], [fs::DirEntry::path]): an absolute path
    replaces, otherwise a separator is added if needed. *)
Definition path_push (p c : bytes) : bytes :=
  match c with
  | b :: _ => if b =? slash then c
              else match rev p with
                   | [] => c
                   | x :: _ => if x =? slash then p ++ c else p ++ [slash] ++ c
                   end
  | [] => match rev p with
          | [] => []
          | x :: _ => if x =? slash then p else p ++ [slash]
          end
  end.

(** The pieces of a path between separators. *)
Fixpoint path_split (cur l : bytes) : list bytes :=
  match l with
  | [] => [rev cur]
  | b :: r => if b =? slash then rev cur :: path_split [] r else path_split (b :: cur) r
  end.

(** [Path::components], without the root and a leading ".": empty pieces and
    "." are dropped. *)
Definition path_names (p : bytes) : list bytes :=
  filter (fun c => negb (bytes_eqb c [] || bytes_eqb c [dot])) (path_split [] p).

(** [Path::file_name]: the last component unless it is ".." or there is none. *)
Definition path_file_name (p : bytes) : option bytes :=
  match rev (path_names p) with
  | [] => None
  | c :: _ => if bytes_eqb c [dot; dot] then None else Some c
  end.

(** std's [rsplit_file_at_dot]: (before, after) the last dot, searching from the
    end; [acc] is what follows. *)
Fixpoint rsplit_dot (acc revname : bytes) : option (bytes * bytes) :=
  match revname with
  | [] => None
  | b :: r => if b =? dot then Some (rev r, acc) else rsplit_dot (b :: acc) r
  end.

(** [Path::extension]. *)
Definition path_extension (p : bytes) : option bytes :=
  match path_file_name p with
  | None => None
  | Some n =>
      match rsplit_dot [] (rev n) with
      | Some ([], _) => None
      | Some (_, after) => Some after
      | None => None
      end
  end.
