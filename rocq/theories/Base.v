(** Bytes, results, machine integers and the nom combinators used by the code.

    Everything here models the Rust language, its standard library or the nom
    crate; there is no code of the repository in this file. *)

From Coq Require Export List NArith Bool.
Export ListNotations.
Open Scope N_scope.
Set Implicit Arguments.

(** ** Bytes *)

(** [u8] values are numbers below 256; [Bytes], [BytesMut], [Vec<u8>] and
    [&[u8]] are all lists of them. *)
Definition bytes := list N.
Definition is_byte (b : N) : Prop := b < 256.
Definition bytes_ok (l : bytes) : Prop := Forall is_byte l.

(** [l.len()] as a number. *)
Definition len {A} (l : list A) : N := N.of_nat (length l).

(** [vec![x; n]]. *)
Definition fill {A} (n : nat) (x : A) : list A := repeat x n.

(** Big-endian bytes of a number: [x.to_be_bytes()] of an [n]-byte integer. *)
Fixpoint be (n : nat) (x : N) : bytes :=
  match n with
  | O => []
  | S k => be k (x / 256) ++ [x mod 256]
  end.

(** Little-endian bytes: [x.to_le_bytes()]. *)
Fixpoint le (n : nat) (x : N) : bytes :=
  match n with
  | O => []
  | S k => (x mod 256) :: le k (x / 256)
  end.

(** [uN::from_be_bytes] and [uN::from_le_bytes]. *)
Definition of_be (l : bytes) : N := fold_left (fun a b => a * 256 + b) l 0.
Fixpoint of_le (l : bytes) : N :=
  match l with
  | [] => 0
  | b :: r => b + 256 * of_le r
  end.

Fixpoint bytes_eqb (a b : bytes) : bool :=
  match a, b with
  | [], [] => true
  | x :: a', y :: b' => (x =? y) && bytes_eqb a' b'
  | _, _ => false
  end.

(** ** Results *)

(** Outcome of a Rust call: a value, an error value, or a panic. *)
Inductive res (A : Type) : Type :=
| Ok (a : A)
| Err
| Panic.
Arguments Ok {A} a.
Arguments Err {A}.
Arguments Panic {A}.

Definition rbind {A B} (r : res A) (f : A -> res B) : res B :=
  match r with
  | Ok a => f a
  | Err => Err
  | Panic => Panic
  end.

Definition rmap {A B} (f : A -> B) (r : res A) : res B := rbind r (fun a => Ok (f a)).

(** [Result::unwrap]: an error becomes a panic. *)
Definition unwrap {A} (r : res A) : res A :=
  match r with
  | Ok a => Ok a
  | _ => Panic
  end.

(** [Option::unwrap]. *)
Definition unwrap_opt {A} (o : option A) : res A :=
  match o with
  | Some a => Ok a
  | None => Panic
  end.

Notation "'do' x <- r ; k" := (rbind r (fun x => k))
  (at level 200, x pattern, r at level 100, k at level 200).

(** ** Machine integers *)

(** Build profile: [Checked] is a build with overflow checks (cargo's default
    debug profile), [Wrapping] one without (release). *)
Inductive profile := Checked | Wrapping.

Definition u8_max1 : N := 256.
Definition u32_max1 : N := 4294967296.

(** [x as u8], [x as u32]: truncation. *)
Definition as_u8 (x : N) : N := x mod u8_max1.
Definition as_u32 (x : N) : N := x mod u32_max1.

(** [a + b], [a - b], [a * b] on [u32]. *)
Definition u32_add (p : profile) (a b : N) : res N :=
  if a + b <? u32_max1 then Ok (a + b)
  else match p with Checked => Panic | Wrapping => Ok (as_u32 (a + b)) end.
Definition u32_sub (p : profile) (a b : N) : res N :=
  if b <=? a then Ok (a - b)
  else match p with Checked => Panic | Wrapping => Ok (as_u32 (a + u32_max1 - b)) end.
Definition u32_mul (p : profile) (a b : N) : res N :=
  if a * b <? u32_max1 then Ok (a * b)
  else match p with Checked => Panic | Wrapping => Ok (as_u32 (a * b)) end.

(** ** nom (complete, version 6) *)

(** [IResult<&[u8], A>]: remaining input and value. *)
Definition parser (A : Type) := bytes -> res (bytes * A).

(** [take(n)]. *)
Definition take (n : N) : parser bytes := fun i =>
  if len i <? n then Err
  else Ok (skipn (N.to_nat n) i, firstn (N.to_nat n) i).

(** [tag(t)]. *)
Fixpoint tag (t : bytes) : parser unit := fun i =>
  match t with
  | [] => Ok (i, tt)
  | x :: t' =>
      match i with
      | [] => Err
      | y :: i' => if x =? y then tag t' i' else Err
      end
  end.

(** [be_u8] .. [be_u64], [le_u16]. *)
Definition be_uint (n : N) : parser N := fun i =>
  do (i, d) <- take n i; Ok (i, of_be d).
Definition be_u8 := be_uint 1.
Definition be_u16 := be_uint 2.
Definition be_u32 := be_uint 4.
Definition be_u64 := be_uint 8.
Definition le_u16 : parser N := fun i =>
  do (i, d) <- take 2 i; Ok (i, of_le d).

(** [count(f, n)]. *)
Fixpoint count {A} (f : parser A) (n : nat) : parser (list A) := fun i =>
  match n with
  | O => Ok (i, [])
  | S k =>
      do (i, x) <- f i;
      do (i, xs) <- count f k i;
      Ok (i, x :: xs)
  end.
