(** Independent specification of the remote-DB wire format, as a client of the
    protocol reads it, and of the byte layout of requests.  Nothing here uses
    the encoders or parsers of the model. *)

From Verif Require Import Base MDb.

(** ** Well-formed argument values *)

(** A number argument has the number of bytes of its type; a text argument is a
    sequence of 16-bit units.  Binary arguments are treated separately. *)
Definition simple_arg (f : field) : Prop :=
  match f_kind f with
  | FU8 => len (f_value f) = 1
  | FU16 => len (f_value f) = 2
  | FU32 => len (f_value f) = 4
  | FString => len (f_value f) mod 2 = 0
  | FBinary => False
  end.

(** At most 127 UTF-16 code units, i.e. 254 bytes. *)
Definition short_text (f : field) : Prop :=
  f_kind f = FString -> len (f_value f) / 2 <= 127.

(** The fourteen request types with a code in both directions. *)
Definition two_way_types : list request_type :=
  [ Setup; RootMenuRequest; ArtistRequest; AlbumByArtistRequest;
    TitleByArtistAlbumRequest; MetadataRequest; PreviewWaveformRequest;
    MountInfoRequest; LoadTrackRequest; RenderRequest; Success; MenuHeader;
    MenuItem; MenuFooter ].
Definition two_way_codes : list N :=
  [ 0x0000; 0x1000; 0x1002; 0x1102; 0x1202; 0x2002; 0x2004; 0x2102; 0x2b04;
    0x3000; 0x4000; 0x4001; 0x4101; 0x4201 ].

(** ** The client's reader *)

(** A value as a client sees it: a number with its width, a text given by its
    UTF-16 code units, or a blob. *)
Inductive cvalue :=
| CNum (width : N) (v : N)
| CText (units : list N)
| CBlob (data : bytes).

(** A message as a client sees it. *)
Record cmsg := mkCmsg { c_tx : N; c_code : N; c_args : list cvalue }.

(** The first [n] bytes and the rest, if there are that many. *)
Definition cut (n : N) (l : bytes) : option (bytes * bytes) :=
  if n <=? len l then Some (firstn (N.to_nat n) l, skipn (N.to_nat n) l) else None.

(** Big-endian value of a byte string. *)
Definition number (l : bytes) : N := fold_left (fun a b => a * 256 + b) l 0.

(** A byte string as 16-bit big-endian units. *)
Fixpoint units_of (l : bytes) : list N :=
  match l with
  | hi :: lo :: r => (hi * 256 + lo) :: units_of r
  | _ => []
  end.

(** One tagged value: 0x0f, 0x10, 0x11 are 1, 2, 4 byte numbers; 0x26 is a text
    with a 32-bit count of code units including the terminating zero unit; 0x14
    is a blob with a 32-bit byte count. *)
Definition read_value (l : bytes) : option (cvalue * bytes) :=
  match l with
  | 0x0f :: r => match cut 1 r with Some (d, r) => Some (CNum 1 (number d), r) | None => None end
  | 0x10 :: r => match cut 2 r with Some (d, r) => Some (CNum 2 (number d), r) | None => None end
  | 0x11 :: r => match cut 4 r with Some (d, r) => Some (CNum 4 (number d), r) | None => None end
  | 0x26 :: r =>
      match cut 4 r with
      | Some (c, r) =>
          match cut (2 * (number c - 1)) r with
          | Some (d, 0 :: 0 :: r) => if 0 <? number c then Some (CText (units_of d), r) else None
          | _ => None
          end
      | None => None
      end
  | 0x14 :: r =>
      match cut 4 r with
      | Some (c, r) =>
          match cut (number c) r with Some (d, r) => Some (CBlob d, r) | None => None end
      | None => None
      end
  | _ => None
  end.

(** Does a value have the type announced in the type table? *)
Definition has_code (code : N) (v : cvalue) : bool :=
  match code, v with
  | 4, CNum 1 _ | 5, CNum 2 _ | 6, CNum 4 _ | 2, CText _ | 3, CBlob _ => true
  | _, _ => false
  end.

(** The arguments announced by a type table.  [prev] is the previous argument:
    an empty blob, announced by a preceding zero, is not transmitted. *)
Fixpoint read_args (codes : list N) (prev : cvalue) (l : bytes)
  : option (list cvalue * bytes) :=
  match codes with
  | [] => Some ([], l)
  | c :: codes' =>
      let omitted := (c =? 3) && (match prev with CNum _ 0 => true | _ => false end) in
      match (if omitted then Some (CBlob [], l) else read_value l) with
      | Some (v, l') =>
          if has_code c v then
            match read_args codes' v l' with
            | Some (vs, l'') => Some (v :: vs, l'')
            | None => None
            end
          else None
      | None => None
      end
  end.

(** One message: magic, transaction id, code, argument count, a 12-byte type
    table, the arguments. *)
Definition read_message (l : bytes) : option (cmsg * bytes) :=
  match read_value l with
  | Some (CNum 4 0x872349ae, l) =>
      match read_value l with
      | Some (CNum 4 tx, l) =>
          match read_value l with
          | Some (CNum 2 code, l) =>
              match read_value l with
              | Some (CNum 1 n, l) =>
                  match read_value l with
                  | Some (CBlob types, l) =>
                      if (len types =? 12) && (n <=? 12) then
                        match read_args (firstn (N.to_nat n) types) (CNum 0 1) l with
                        | Some (args, l) => Some (mkCmsg tx code args, l)
                        | None => None
                        end
                      else None
                  | _ => None
                  end
              | _ => None
              end
          | _ => None
          end
      | _ => None
      end
  | _ => None
  end.

(** A stream of messages, to the last byte. *)
Fixpoint read_stream_fuel (fuel : nat) (l : bytes) : option (list cmsg) :=
  match l, fuel with
  | [], _ => Some []
  | _, O => None
  | _, S k =>
      match read_message l with
      | Some (m, r) =>
          match read_stream_fuel k r with Some ms => Some (m :: ms) | None => None end
      | None => None
      end
  end.
Definition read_stream (l : bytes) : option (list cmsg) := read_stream_fuel (length l) l.

(** ** Layout of requests *)

(** The bytes of one argument of each type in a request, as the server accepts
    them.  A text whose announced size is [s] is accepted if [(s-1)*2], computed
    in 32 bits, is the number of text bytes (in a checked build only if that
    computation does not overflow). *)
Definition text_bytes (p : profile) (s n : N) : Prop :=
  match p with
  | Checked => 1 <= s /\ n = (s - 1) * 2 /\ n < 4294967296
  | Wrapping => n = ((s + 4294967295) mod 4294967296) * 2 mod 4294967296
  end.

Inductive args_layout (p : profile) : list N -> bytes -> list field -> Prop :=
| lay_nil : forall r, args_layout p [] r []
| lay_u8 : forall cs t d r fs, len d = 1 -> args_layout p cs r fs ->
    args_layout p (4 :: cs) (t :: d ++ r) (mkField FU8 d :: fs)
| lay_u16 : forall cs t d r fs, len d = 2 -> args_layout p cs r fs ->
    args_layout p (5 :: cs) (t :: d ++ r) (mkField FU16 d :: fs)
| lay_u32 : forall cs t d r fs, len d = 4 -> args_layout p cs r fs ->
    args_layout p (6 :: cs) (t :: d ++ r) (mkField FU32 d :: fs)
| lay_text : forall cs t s d z r fs, len s = 4 -> len z = 2 ->
    text_bytes p (number s) (len d) -> args_layout p cs r fs ->
    args_layout p (2 :: cs) (t :: s ++ d ++ z ++ r) (mkField FString d :: fs)
| lay_blob : forall cs s d r fs, len s = 4 -> len d = number s -> args_layout p cs r fs ->
    args_layout p (3 :: cs) (s ++ d ++ r) (mkField FBinary d :: fs)
| lay_no_blob : forall cs r fs, len r < 4 -> args_layout p cs r fs ->
    args_layout p (3 :: cs) r (mkField FBinary [] :: fs).

(** The tag of each type of value. *)
Definition tag_of (k : field_type) : N :=
  match k with
  | FU8 => 0x0f
  | FU16 => 0x10
  | FU32 => 0x11
  | FBinary => 0x14
  | FString => 0x26
  end.

(** Known transaction tags. *)
Definition known_tags : list N := [0x0f; 0x10; 0x11; 0x14; 0x26].

(** The fixed part of a request: any byte, the magic, the transaction tag and 4
    bytes, any byte, the code, any byte, the argument count, any 5 bytes, the 12
    type codes. *)
Definition request_bytes (tag : N) (tx code : bytes) (n : N) (types rest : bytes)
  (junk1 junk2 junk3 : N) (junk5 : bytes) : bytes :=
  [junk1] ++ [0x87; 0x23; 0x49; 0xae] ++ [tag] ++ tx ++ [junk2] ++ code
  ++ [junk3; n] ++ junk5 ++ types ++ rest.
