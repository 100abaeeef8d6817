(** UTF-8 and UTF-16 as implemented by Rust's standard library.  A Rust
    [String] is modelled by the list of its [char]s, i.e. of Unicode scalar
    values. *)

From Verif Require Import Base.

(** [char]: any code point except the surrogates. *)
Definition scalar_b (c : N) : bool :=
  (c <? 0xD800) || ((0xE000 <=? c) && (c <? 0x110000)).
Definition is_scalar (c : N) : Prop := scalar_b c = true.
Definition str := list N.
Definition str_ok (s : str) : Prop := Forall is_scalar s.

(** ** UTF-8 *)

(** [char::encode_utf8]. *)
Definition utf8_char (c : N) : bytes :=
  if c <? 0x80 then [c]
  else if c <? 0x800 then [0xC0 + c / 0x40; 0x80 + c mod 0x40]
  else if c <? 0x10000 then
    [0xE0 + c / 0x1000; 0x80 + (c / 0x40) mod 0x40; 0x80 + c mod 0x40]
  else
    [0xF0 + c / 0x40000; 0x80 + (c / 0x1000) mod 0x40;
     0x80 + (c / 0x40) mod 0x40; 0x80 + c mod 0x40].

(** [str::as_bytes]. *)
Definition utf8_encode (s : str) : bytes := flat_map utf8_char s.

Definition cont (b : N) : bool := (0x80 <=? b) && (b <? 0xC0).

(** [String::from_utf8] / [str::from_utf8]: only shortest-form sequences of
    scalar values are accepted. *)
Fixpoint utf8_decode (l : bytes) : option str :=
  match l with
  | [] => Some []
  | b1 :: r1 =>
      if b1 <? 0x80 then option_map (cons b1) (utf8_decode r1)
      else
      match r1 with
      | [] => None
      | b2 :: r2 =>
          if (0xC2 <=? b1) && (b1 <? 0xE0) then
            if cont b2
            then option_map (cons ((b1 - 0xC0) * 0x40 + (b2 - 0x80))) (utf8_decode r2)
            else None
          else
          match r2 with
          | [] => None
          | b3 :: r3 =>
              if (0xE0 <=? b1) && (b1 <? 0xF0) then
                let c := (b1 - 0xE0) * 0x1000 + (b2 - 0x80) * 0x40 + (b3 - 0x80) in
                if cont b2 && cont b3 && (0x800 <=? c) && scalar_b c
                then option_map (cons c) (utf8_decode r3)
                else None
              else
              match r3 with
              | [] => None
              | b4 :: r4 =>
                  if (0xF0 <=? b1) && (b1 <? 0xF8) then
                    let c := (b1 - 0xF0) * 0x40000 + (b2 - 0x80) * 0x1000
                             + (b3 - 0x80) * 0x40 + (b4 - 0x80) in
                    if cont b2 && cont b3 && cont b4 && (0x10000 <=? c) && scalar_b c
                    then option_map (cons c) (utf8_decode r4)
                    else None
                  else None
              end
          end
      end
  end.

(** ** UTF-16 *)

(** [char::encode_utf16]. *)
Definition utf16_char (c : N) : list N :=
  if c <? 0x10000 then [c]
  else [0xD800 + (c - 0x10000) / 0x400; 0xDC00 + (c - 0x10000) mod 0x400].

(** [str::encode_utf16]. *)
Definition utf16_encode (s : str) : list N := flat_map utf16_char s.

(** [String::from_utf16]: unpaired surrogates are an error. *)
Fixpoint utf16_decode (l : list N) : option str :=
  match l with
  | [] => Some []
  | u :: r =>
      if (u <? 0xD800) || (0xE000 <=? u) then option_map (cons u) (utf16_decode r)
      else if 0xDC00 <=? u then None
      else
        match r with
        | [] => None
        | v :: r' =>
            if (0xDC00 <=? v) && (v <? 0xE000)
            then option_map
                   (cons (0x10000 + (u - 0xD800) * 0x400 + (v - 0xDC00)))
                   (utf16_decode r')
            else None
        end
  end.

(** UTF-16 code units as big-endian bytes, the idiom
    [flat_map(|item| item.to_be_bytes().to_vec())]. *)
Definition utf16_be (s : str) : bytes := flat_map (be 2) (utf16_encode s).

(** Rust string literals: ASCII text as scalar values. *)
From Coq Require Import String Ascii.
Fixpoint lit (s : string) : list N :=
  match s with
  | EmptyString => []
  | String c r => N_of_ascii c :: lit r
  end.
