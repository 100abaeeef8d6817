(** What the original software was recorded to say, as the repository keeps it in
    src/rekordbox/fixtures.rs, and how a sender writes a message of the remote-DB
    protocol.  Nothing here uses the encoders or parsers of the model: the recorded
    bytes are copied from the fixtures, which the program itself does not use. *)

From Verif Require Import Base Unicode MDb MDatabase SDb SDatabase SLib.
From Coq Require Import String.
Open Scope N_scope.
Open Scope list_scope.

(** ** Writing a message *)

(** One value: its tag and its bytes; an empty blob is not written. *)
Definition write_value (v : cvalue) : bytes :=
  match v with
  | CNum 1 n => 0x0f :: be 1 n
  | CNum 2 n => 0x10 :: be 2 n
  | CNum _ n => 0x11 :: be 4 n
  | CText units => 0x26 :: be 4 (len units + 1) ++ flat_map (be 2) units ++ [0; 0]
  | CBlob [] => []
  | CBlob data => 0x14 :: be 4 (len data) ++ data
  end.

(** The entry of a value in the type table. *)
Definition type_entry (v : cvalue) : N :=
  match v with
  | CNum 1 _ => 4
  | CNum 2 _ => 5
  | CNum _ _ => 6
  | CText _ => 2
  | CBlob _ => 3
  end.

(** The magic number, the transaction, the code, the number of arguments, the type
    table of twelve entries and the arguments. *)
Definition write_message (m : cmsg) : bytes :=
  write_value (CNum 4 0x872349ae)
  ++ write_value (CNum 4 (c_tx m))
  ++ write_value (CNum 2 (c_code m))
  ++ write_value (CNum 1 (len (c_args m)))
  ++ write_value (CBlob (map type_entry (c_args m) ++ repeat 0 (12 - List.length (c_args m))))
  ++ flat_map write_value (c_args m).

Definition write_messages (ms : list cmsg) : bytes := flat_map write_message ms.

(** A message with another transaction: its bytes 6 to 9. *)
Definition for_transaction (tx message : bytes) : bytes :=
  firstn 6 message ++ tx ++ skipn 10 message.

(** ** Recorded messages kept as bytes *)

(** fixtures.rs:262-269: the answer to a setup request, transaction 0xfffffffe. *)
Definition recorded_setup_answer : bytes :=
  [ 0x11; 0x87; 0x23; 0x49; 0xae; 0x11; 0xff; 0xff; 0xff; 0xfe; 0x10; 0x40;
    0x00; 0x0f; 0x02; 0x14; 0x00; 0x00; 0x00; 0x0c; 0x06; 0x06; 0x00; 0x00;
    0x00; 0x00; 0x00; 0x00; 0x00; 0x00; 0x00; 0x00; 0x11; 0x00; 0x00; 0x00;
    0x00; 0x11; 0x00; 0x00; 0x00; 0x11 ].

(** fixtures.rs:845-852: the request sent at loading track 5, transaction 0x05800021. *)
Definition recorded_load_request : bytes :=
  [ 0x11; 0x87; 0x23; 0x49; 0xae; 0x11; 0x05; 0x80; 0x00; 0x21; 0x10; 0x2b;
    0x04; 0x0f; 0x03; 0x14; 0x00; 0x00; 0x00; 0x0c; 0x06; 0x06; 0x06; 0x00;
    0x00; 0x00; 0x00; 0x00; 0x00; 0x00; 0x00; 0x00; 0x11; 0x02; 0x08; 0x04;
    0x01; 0x11; 0x00; 0x00; 0x00; 0x05; 0x11; 0x00; 0x00; 0x00; 0x00 ].

(** fixtures.rs:853-861: its answer. *)
Definition recorded_load_answer : bytes :=
  [ 0x11; 0x87; 0x23; 0x49; 0xae; 0x11; 0x05; 0x80; 0x00; 0x21; 0x10; 0x4e;
    0x02; 0x0f; 0x05; 0x14; 0x00; 0x00; 0x00; 0x0c; 0x06; 0x06; 0x06; 0x03;
    0x06; 0x00; 0x00; 0x00; 0x00; 0x00; 0x00; 0x00; 0x11; 0x00; 0x00; 0x2b;
    0x04; 0x11; 0x00; 0x00; 0x00; 0x01; 0x11; 0x00; 0x00; 0x00; 0x00; 0x11;
    0x00; 0x00; 0x00; 0x00 ].

(** fixtures.rs:867-875: the request for a waveform preview of track 5, transaction 0x0580001e. *)
Definition recorded_preview_request : bytes :=
  [ 0x11; 0x87; 0x23; 0x49; 0xae; 0x11; 0x05; 0x80; 0x00; 0x1e; 0x10; 0x20;
    0x04; 0x0f; 0x05; 0x14; 0x00; 0x00; 0x00; 0x0c; 0x06; 0x06; 0x06; 0x06;
    0x03; 0x00; 0x00; 0x00; 0x00; 0x00; 0x00; 0x00; 0x11; 0x02; 0x08; 0x04;
    0x01; 0x11; 0x00; 0x00; 0x00; 0x04; 0x11; 0x00; 0x00; 0x00; 0x05; 0x11;
    0x00; 0x00; 0x00; 0x00 ].

(** fixtures.rs:876-997: its answer, with the 904 bytes of the waveform. *)
Definition recorded_preview_answer : bytes :=
  [ 0x11; 0x87; 0x23; 0x49; 0xae; 0x11; 0x05; 0x80; 0x00; 0x1e; 0x10; 0x44;
    0x02; 0x0f; 0x04; 0x14; 0x00; 0x00; 0x00; 0x0c; 0x06; 0x06; 0x06; 0x03;
    0x00; 0x00; 0x00; 0x00; 0x00; 0x00; 0x00; 0x00; 0x11; 0x00; 0x00; 0x20;
    0x04; 0x11; 0x00; 0x00; 0x00; 0x00; 0x11; 0x00; 0x00; 0x03; 0x88; 0x14;
    0x00; 0x00; 0x03; 0x88; 0x18; 0x00; 0x15; 0x00; 0x16; 0x00; 0x18; 0x00;
    0x14; 0x00; 0x0d; 0x00; 0x18; 0x00; 0x15; 0x00; 0x17; 0x00; 0x17; 0x00;
    0x15; 0x00; 0x17; 0x00; 0x18; 0x00; 0x17; 0x00; 0x18; 0x00; 0x17; 0x00;
    0x15; 0x01; 0x0d; 0x01; 0x17; 0x00; 0x17; 0x00; 0x17; 0x00; 0x17; 0x00;
    0x17; 0x00; 0x15; 0x00; 0x18; 0x00; 0x15; 0x00; 0x16; 0x00; 0x18; 0x00;
    0x11; 0x01; 0x11; 0x01; 0x17; 0x00; 0x17; 0x00; 0x15; 0x00; 0x17; 0x00;
    0x18; 0x00; 0x16; 0x00; 0x15; 0x00; 0x15; 0x00; 0x16; 0x03; 0x15; 0x03;
    0x12; 0x03; 0x13; 0x03; 0x0b; 0x05; 0x0f; 0x05; 0x14; 0x03; 0x12; 0x03;
    0x12; 0x03; 0x12; 0x03; 0x13; 0x02; 0x13; 0x02; 0x13; 0x03; 0x15; 0x03;
    0x16; 0x03; 0x12; 0x03; 0x0f; 0x05; 0x08; 0x05; 0x15; 0x03; 0x14; 0x03;
    0x12; 0x03; 0x12; 0x03; 0x13; 0x00; 0x16; 0x00; 0x12; 0x03; 0x13; 0x03;
    0x15; 0x03; 0x13; 0x03; 0x12; 0x03; 0x13; 0x03; 0x08; 0x05; 0x0e; 0x05;
    0x16; 0x03; 0x12; 0x03; 0x12; 0x02; 0x13; 0x02; 0x16; 0x03; 0x0d; 0x03;
    0x13; 0x03; 0x15; 0x03; 0x0e; 0x05; 0x10; 0x05; 0x12; 0x03; 0x13; 0x03;
    0x13; 0x03; 0x13; 0x03; 0x12; 0x03; 0x12; 0x03; 0x13; 0x00; 0x16; 0x00;
    0x12; 0x03; 0x13; 0x03; 0x12; 0x05; 0x08; 0x05; 0x13; 0x03; 0x12; 0x03;
    0x13; 0x03; 0x14; 0x03; 0x16; 0x03; 0x0d; 0x03; 0x13; 0x02; 0x15; 0x02;
    0x10; 0x03; 0x15; 0x03; 0x13; 0x03; 0x15; 0x03; 0x09; 0x05; 0x12; 0x05;
    0x12; 0x03; 0x13; 0x03; 0x13; 0x03; 0x13; 0x03; 0x0d; 0x02; 0x13; 0x02;
    0x15; 0x03; 0x14; 0x03; 0x13; 0x03; 0x13; 0x03; 0x0b; 0x05; 0x0f; 0x05;
    0x13; 0x03; 0x0f; 0x03; 0x12; 0x03; 0x16; 0x03; 0x13; 0x02; 0x12; 0x02;
    0x13; 0x03; 0x15; 0x03; 0x10; 0x03; 0x14; 0x03; 0x0f; 0x05; 0x0b; 0x05;
    0x15; 0x03; 0x13; 0x03; 0x0f; 0x03; 0x12; 0x03; 0x16; 0x03; 0x13; 0x03;
    0x0e; 0x02; 0x13; 0x02; 0x15; 0x03; 0x16; 0x03; 0x0d; 0x02; 0x11; 0x02;
    0x05; 0x05; 0x0f; 0x05; 0x11; 0x03; 0x0f; 0x03; 0x12; 0x03; 0x0f; 0x03;
    0x13; 0x02; 0x0e; 0x02; 0x12; 0x03; 0x12; 0x03; 0x0e; 0x03; 0x12; 0x03;
    0x0e; 0x05; 0x09; 0x05; 0x11; 0x03; 0x14; 0x03; 0x12; 0x03; 0x12; 0x03;
    0x0e; 0x02; 0x14; 0x02; 0x0d; 0x03; 0x11; 0x03; 0x13; 0x03; 0x13; 0x03;
    0x04; 0x05; 0x0c; 0x05; 0x10; 0x03; 0x12; 0x03; 0x11; 0x03; 0x0f; 0x03;
    0x14; 0x02; 0x15; 0x02; 0x12; 0x02; 0x0a; 0x02; 0x11; 0x03; 0x12; 0x03;
    0x06; 0x05; 0x0e; 0x05; 0x10; 0x03; 0x10; 0x03; 0x12; 0x03; 0x12; 0x03;
    0x0e; 0x02; 0x11; 0x02; 0x10; 0x03; 0x14; 0x03; 0x0a; 0x03; 0x13; 0x03;
    0x0a; 0x03; 0x11; 0x03; 0x10; 0x03; 0x13; 0x03; 0x10; 0x03; 0x11; 0x03;
    0x12; 0x03; 0x0d; 0x03; 0x12; 0x02; 0x12; 0x02; 0x13; 0x03; 0x0e; 0x03;
    0x0d; 0x05; 0x06; 0x05; 0x12; 0x03; 0x0f; 0x03; 0x0d; 0x03; 0x15; 0x03;
    0x10; 0x03; 0x0a; 0x03; 0x03; 0x05; 0x04; 0x05; 0x02; 0x05; 0x03; 0x05;
    0x02; 0x05; 0x02; 0x05; 0x02; 0x05; 0x0e; 0x05; 0x02; 0x05; 0x02; 0x05;
    0x02; 0x05; 0x05; 0x05; 0x02; 0x05; 0x02; 0x05; 0x02; 0x05; 0x02; 0x05;
    0x0b; 0x05; 0x04; 0x05; 0x04; 0x05; 0x03; 0x05; 0x03; 0x05; 0x02; 0x05;
    0x02; 0x05; 0x02; 0x05; 0x06; 0x05; 0x09; 0x05; 0x02; 0x05; 0x02; 0x05;
    0x02; 0x05; 0x05; 0x05; 0x02; 0x05; 0x02; 0x05; 0x02; 0x05; 0x0a; 0x05;
    0x04; 0x05; 0x04; 0x05; 0x03; 0x05; 0x03; 0x05; 0x02; 0x05; 0x02; 0x05;
    0x02; 0x05; 0x04; 0x05; 0x08; 0x05; 0x02; 0x05; 0x02; 0x05; 0x02; 0x05;
    0x05; 0x05; 0x02; 0x05; 0x02; 0x05; 0x02; 0x05; 0x05; 0x05; 0x06; 0x05;
    0x02; 0x05; 0x02; 0x05; 0x02; 0x05; 0x04; 0x05; 0x02; 0x05; 0x02; 0x05;
    0x02; 0x05; 0x0a; 0x05; 0x02; 0x05; 0x02; 0x05; 0x02; 0x05; 0x05; 0x05;
    0x02; 0x05; 0x02; 0x05; 0x02; 0x05; 0x02; 0x05; 0x15; 0x02; 0x13; 0x02;
    0x14; 0x03; 0x15; 0x03; 0x13; 0x03; 0x15; 0x03; 0x14; 0x02; 0x12; 0x02;
    0x10; 0x05; 0x0f; 0x05; 0x17; 0x02; 0x17; 0x02; 0x0b; 0x05; 0x11; 0x05;
    0x15; 0x03; 0x11; 0x03; 0x17; 0x03; 0x13; 0x03; 0x16; 0x03; 0x14; 0x03;
    0x16; 0x00; 0x15; 0x00; 0x14; 0x05; 0x0c; 0x05; 0x15; 0x03; 0x15; 0x03;
    0x15; 0x03; 0x15; 0x03; 0x0f; 0x03; 0x15; 0x03; 0x16; 0x03; 0x15; 0x03;
    0x11; 0x02; 0x16; 0x02; 0x12; 0x05; 0x10; 0x05; 0x17; 0x02; 0x17; 0x02;
    0x09; 0x05; 0x13; 0x05; 0x12; 0x03; 0x16; 0x03; 0x15; 0x03; 0x14; 0x03;
    0x16; 0x02; 0x14; 0x02; 0x15; 0x03; 0x15; 0x03; 0x11; 0x05; 0x0c; 0x05;
    0x12; 0x03; 0x16; 0x03; 0x14; 0x03; 0x13; 0x03; 0x14; 0x03; 0x15; 0x03;
    0x0f; 0x00; 0x16; 0x00; 0x0c; 0x03; 0x12; 0x03; 0x17; 0x02; 0x17; 0x02;
    0x0a; 0x03; 0x11; 0x03; 0x15; 0x03; 0x10; 0x03; 0x16; 0x03; 0x14; 0x03;
    0x15; 0x02; 0x13; 0x02; 0x15; 0x05; 0x08; 0x05; 0x17; 0x02; 0x17; 0x02;
    0x0a; 0x05; 0x10; 0x05; 0x14; 0x03; 0x17; 0x03; 0x11; 0x03; 0x15; 0x03;
    0x14; 0x03; 0x15; 0x03; 0x14; 0x00; 0x17; 0x00; 0x11; 0x03; 0x16; 0x03;
    0x12; 0x05; 0x0a; 0x05; 0x16; 0x03; 0x14; 0x03; 0x11; 0x03; 0x14; 0x03;
    0x15; 0x03; 0x16; 0x03; 0x14; 0x02; 0x10; 0x02; 0x16; 0x03; 0x14; 0x03;
    0x15; 0x03; 0x14; 0x03; 0x0a; 0x05; 0x11; 0x05; 0x0f; 0x03; 0x17; 0x03;
    0x0d; 0x04; 0x05; 0x04; 0x02; 0x05; 0x02; 0x05; 0x02; 0x05; 0x02; 0x05;
    0x02; 0x05; 0x02; 0x05; 0x02; 0x05; 0x02; 0x05; 0x02; 0x05; 0x02; 0x05;
    0x02; 0x05; 0x02; 0x05; 0x02; 0x05; 0x02; 0x05; 0x02; 0x03; 0x02; 0x05;
    0x0e; 0x0e; 0x0f; 0x0f; 0x0e; 0x0f; 0x0f; 0x0e; 0x0f; 0x0e; 0x0c; 0x0e;
    0x0e; 0x0c; 0x0e; 0x0e; 0x0c; 0x0e; 0x0e; 0x0c; 0x0e; 0x0e; 0x0c; 0x0e;
    0x0e; 0x0c; 0x0e; 0x0e; 0x0c; 0x0e; 0x0e; 0x0c; 0x0e; 0x0c; 0x0e; 0x0d;
    0x0d; 0x0c; 0x0e; 0x0e; 0x0c; 0x0d; 0x0e; 0x0d; 0x0d; 0x0d; 0x0c; 0x0e;
    0x0d; 0x0c; 0x0d; 0x0e; 0x08; 0x02; 0x07; 0x04; 0x05; 0x02; 0x07; 0x04;
    0x02; 0x05; 0x02; 0x07; 0x04; 0x05; 0x04; 0x05; 0x05; 0x05; 0x0e; 0x0e;
    0x0e; 0x0d; 0x0e; 0x0d; 0x0e; 0x0e; 0x0e; 0x0c; 0x0e; 0x0e; 0x0c; 0x0e;
    0x0e; 0x0d; 0x0e; 0x0d; 0x0e; 0x0e; 0x0e; 0x0c; 0x0e; 0x0e; 0x0d; 0x0e;
    0x02; 0x01; 0x01; 0x01; 0x9e; 0xeb; 0x78; 0x10 ].

(** fixtures.rs:532-539: the request for the metadata of track 5, transaction 0x0580001f. *)
Definition recorded_metadata_request : bytes :=
  [ 0x11; 0x87; 0x23; 0x49; 0xae; 0x11; 0x05; 0x80; 0x00; 0x1f; 0x10; 0x20;
    0x02; 0x0f; 0x02; 0x14; 0x00; 0x00; 0x00; 0x0c; 0x06; 0x06; 0x00; 0x00;
    0x00; 0x00; 0x00; 0x00; 0x00; 0x00; 0x00; 0x00; 0x11; 0x02; 0x01; 0x04;
    0x01; 0x11; 0x00; 0x00; 0x00; 0x05 ].

(** fixtures.rs:548-557: the Render request that follows, transaction 0x05800020. *)
Definition recorded_metadata_render : bytes :=
  [ 0x11; 0x87; 0x23; 0x49; 0xae; 0x11; 0x05; 0x80; 0x00; 0x20; 0x10; 0x30;
    0x00; 0x0f; 0x06; 0x14; 0x00; 0x00; 0x00; 0x0c; 0x06; 0x06; 0x06; 0x06;
    0x06; 0x06; 0x00; 0x00; 0x00; 0x00; 0x00; 0x00; 0x11; 0x02; 0x01; 0x04;
    0x01; 0x11; 0x00; 0x00; 0x00; 0x00; 0x11; 0x00; 0x00; 0x00; 0x0a; 0x11;
    0x00; 0x00; 0x00; 0x00; 0x11; 0x00; 0x00; 0x00; 0x0a; 0x11; 0x00; 0x00;
    0x00; 0x00 ].

(** fixtures.rs:558-702: the page of the track "Demo Track 1" by "Loopmasters", 128 beats per minute, 172 seconds, with a comment. *)
Definition recorded_metadata_page : bytes :=
  [ 0x11; 0x87; 0x23; 0x49; 0xae; 0x11; 0x05; 0x80; 0x00; 0x20; 0x10; 0x40;
    0x01; 0x0f; 0x02; 0x14; 0x00; 0x00; 0x00; 0x0c; 0x06; 0x06; 0x00; 0x00;
    0x00; 0x00; 0x00; 0x00; 0x00; 0x00; 0x00; 0x00; 0x11; 0x00; 0x00; 0x00;
    0x01; 0x11; 0x00; 0x00; 0x00; 0x00; 0x11; 0x87; 0x23; 0x49; 0xae; 0x11;
    0x05; 0x80; 0x00; 0x20; 0x10; 0x41; 0x01; 0x0f; 0x0c; 0x14; 0x00; 0x00;
    0x00; 0x0c; 0x06; 0x06; 0x06; 0x02; 0x06; 0x02; 0x06; 0x06; 0x06; 0x06;
    0x06; 0x06; 0x11; 0x00; 0x00; 0x00; 0x01; 0x11; 0x00; 0x00; 0x00; 0x05;
    0x11; 0x00; 0x00; 0x00; 0x1a; 0x26; 0x00; 0x00; 0x00; 0x0d; 0x00; 0x44;
    0x00; 0x65; 0x00; 0x6d; 0x00; 0x6f; 0x00; 0x20; 0x00; 0x54; 0x00; 0x72;
    0x00; 0x61; 0x00; 0x63; 0x00; 0x6b; 0x00; 0x20; 0x00; 0x31; 0x00; 0x00;
    0x11; 0x00; 0x00; 0x00; 0x02; 0x26; 0x00; 0x00; 0x00; 0x01; 0x00; 0x00;
    0x11; 0x00; 0x00; 0x00; 0x04; 0x11; 0x00; 0x00; 0x00; 0x00; 0x11; 0x00;
    0x00; 0x00; 0x00; 0x11; 0x00; 0x00; 0x00; 0x00; 0x11; 0x00; 0x00; 0x01;
    0x00; 0x11; 0x00; 0x00; 0x00; 0x00; 0x11; 0x87; 0x23; 0x49; 0xae; 0x11;
    0x05; 0x80; 0x00; 0x20; 0x10; 0x41; 0x01; 0x0f; 0x0c; 0x14; 0x00; 0x00;
    0x00; 0x0c; 0x06; 0x06; 0x06; 0x02; 0x06; 0x02; 0x06; 0x06; 0x06; 0x06;
    0x06; 0x06; 0x11; 0x00; 0x00; 0x00; 0x01; 0x11; 0x00; 0x00; 0x00; 0x01;
    0x11; 0x00; 0x00; 0x00; 0x18; 0x26; 0x00; 0x00; 0x00; 0x0c; 0x00; 0x4c;
    0x00; 0x6f; 0x00; 0x6f; 0x00; 0x70; 0x00; 0x6d; 0x00; 0x61; 0x00; 0x73;
    0x00; 0x74; 0x00; 0x65; 0x00; 0x72; 0x00; 0x73; 0x00; 0x00; 0x11; 0x00;
    0x00; 0x00; 0x02; 0x26; 0x00; 0x00; 0x00; 0x01; 0x00; 0x00; 0x11; 0x00;
    0x00; 0x00; 0x07; 0x11; 0x00; 0x00; 0x00; 0x00; 0x11; 0x00; 0x00; 0x00;
    0x00; 0x11; 0x00; 0x00; 0x00; 0x00; 0x11; 0x00; 0x00; 0x00; 0x00; 0x11;
    0x00; 0x00; 0x00; 0x00; 0x11; 0x87; 0x23; 0x49; 0xae; 0x11; 0x05; 0x80;
    0x00; 0x20; 0x10; 0x41; 0x01; 0x0f; 0x0c; 0x14; 0x00; 0x00; 0x00; 0x0c;
    0x06; 0x06; 0x06; 0x02; 0x06; 0x02; 0x06; 0x06; 0x06; 0x06; 0x06; 0x06;
    0x11; 0x00; 0x00; 0x00; 0x01; 0x11; 0x00; 0x00; 0x00; 0x00; 0x11; 0x00;
    0x00; 0x00; 0x02; 0x26; 0x00; 0x00; 0x00; 0x01; 0x00; 0x00; 0x11; 0x00;
    0x00; 0x00; 0x02; 0x26; 0x00; 0x00; 0x00; 0x01; 0x00; 0x00; 0x11; 0x00;
    0x00; 0x00; 0x02; 0x11; 0x00; 0x00; 0x00; 0x00; 0x11; 0x00; 0x00; 0x00;
    0x00; 0x11; 0x00; 0x00; 0x00; 0x00; 0x11; 0x00; 0x00; 0x00; 0x00; 0x11;
    0x00; 0x00; 0x00; 0x00; 0x11; 0x87; 0x23; 0x49; 0xae; 0x11; 0x05; 0x80;
    0x00; 0x20; 0x10; 0x41; 0x01; 0x0f; 0x0c; 0x14; 0x00; 0x00; 0x00; 0x0c;
    0x06; 0x06; 0x06; 0x02; 0x06; 0x02; 0x06; 0x06; 0x06; 0x06; 0x06; 0x06;
    0x11; 0x00; 0x00; 0x00; 0x00; 0x11; 0x00; 0x00; 0x00; 0xac; 0x11; 0x00;
    0x00; 0x00; 0x02; 0x26; 0x00; 0x00; 0x00; 0x01; 0x00; 0x00; 0x11; 0x00;
    0x00; 0x00; 0x02; 0x26; 0x00; 0x00; 0x00; 0x01; 0x00; 0x00; 0x11; 0x00;
    0x00; 0x00; 0x0b; 0x11; 0x00; 0x00; 0x00; 0x00; 0x11; 0x00; 0x00; 0x00;
    0x00; 0x11; 0x00; 0x00; 0x00; 0x00; 0x11; 0x00; 0x00; 0x00; 0x00; 0x11;
    0x00; 0x00; 0x00; 0x00; 0x11; 0x87; 0x23; 0x49; 0xae; 0x11; 0x05; 0x80;
    0x00; 0x20; 0x10; 0x41; 0x01; 0x0f; 0x0c; 0x14; 0x00; 0x00; 0x00; 0x0c;
    0x06; 0x06; 0x06; 0x02; 0x06; 0x02; 0x06; 0x06; 0x06; 0x06; 0x06; 0x06;
    0x11; 0x00; 0x00; 0x00; 0x00; 0x11; 0x00; 0x00; 0x32; 0x00; 0x11; 0x00;
    0x00; 0x00; 0x02; 0x26; 0x00; 0x00; 0x00; 0x01; 0x00; 0x00; 0x11; 0x00;
    0x00; 0x00; 0x02; 0x26; 0x00; 0x00; 0x00; 0x01; 0x00; 0x00; 0x11; 0x00;
    0x00; 0x00; 0x0d; 0x11; 0x00; 0x00; 0x00; 0x00; 0x11; 0x00; 0x00; 0x00;
    0x00; 0x11; 0x00; 0x00; 0x00; 0x00; 0x11; 0x00; 0x00; 0x00; 0x00; 0x11;
    0x00; 0x00; 0x00; 0x00; 0x11; 0x87; 0x23; 0x49; 0xae; 0x11; 0x05; 0x80;
    0x00; 0x20; 0x10; 0x41; 0x01; 0x0f; 0x0c; 0x14; 0x00; 0x00; 0x00; 0x0c;
    0x06; 0x06; 0x06; 0x02; 0x06; 0x02; 0x06; 0x06; 0x06; 0x06; 0x06; 0x06;
    0x11; 0x00; 0x00; 0x00; 0x00; 0x11; 0x00; 0x00; 0x00; 0x05; 0x11; 0x00;
    0x00; 0x00; 0x3c; 0x26; 0x00; 0x00; 0x00; 0x1e; 0x00; 0x54; 0x00; 0x72;
    0x00; 0x61; 0x00; 0x63; 0x00; 0x6b; 0x00; 0x73; 0x00; 0x20; 0x00; 0x62;
    0x00; 0x79; 0x00; 0x20; 0x00; 0x77; 0x00; 0x77; 0x00; 0x77; 0x00; 0x2e;
    0x00; 0x6c; 0x00; 0x6f; 0x00; 0x6f; 0x00; 0x70; 0x00; 0x6d; 0x00; 0x61;
    0x00; 0x73; 0x00; 0x74; 0x00; 0x65; 0x00; 0x72; 0x00; 0x73; 0x00; 0x2e;
    0x00; 0x63; 0x00; 0x6f; 0x00; 0x6d; 0x00; 0x00; 0x11; 0x00; 0x00; 0x00;
    0x02; 0x26; 0x00; 0x00; 0x00; 0x01; 0x00; 0x00; 0x11; 0x00; 0x00; 0x00;
    0x23; 0x11; 0x00; 0x00; 0x00; 0x00; 0x11; 0x00; 0x00; 0x00; 0x00; 0x11;
    0x00; 0x00; 0x00; 0x00; 0x11; 0x00; 0x00; 0x00; 0x00; 0x11; 0x00; 0x00;
    0x00; 0x00; 0x11; 0x87; 0x23; 0x49; 0xae; 0x11; 0x05; 0x80; 0x00; 0x20;
    0x10; 0x41; 0x01; 0x0f; 0x0c; 0x14; 0x00; 0x00; 0x00; 0x0c; 0x06; 0x06;
    0x06; 0x02; 0x06; 0x02; 0x06; 0x06; 0x06; 0x06; 0x06; 0x06; 0x11; 0x00;
    0x00; 0x00; 0x01; 0x11; 0x00; 0x00; 0x00; 0x00; 0x11; 0x00; 0x00; 0x00;
    0x02; 0x26; 0x00; 0x00; 0x00; 0x01; 0x00; 0x00; 0x11; 0x00; 0x00; 0x00;
    0x02; 0x26; 0x00; 0x00; 0x00; 0x01; 0x00; 0x00; 0x11; 0x00; 0x00; 0x00;
    0x0f; 0x11; 0x00; 0x00; 0x00; 0x00; 0x11; 0x00; 0x00; 0x00; 0x00; 0x11;
    0x00; 0x00; 0x00; 0x00; 0x11; 0x00; 0x00; 0x00; 0x00; 0x11; 0x00; 0x00;
    0x00; 0x00; 0x11; 0x87; 0x23; 0x49; 0xae; 0x11; 0x05; 0x80; 0x00; 0x20;
    0x10; 0x41; 0x01; 0x0f; 0x0c; 0x14; 0x00; 0x00; 0x00; 0x0c; 0x06; 0x06;
    0x06; 0x02; 0x06; 0x02; 0x06; 0x06; 0x06; 0x06; 0x06; 0x06; 0x11; 0x00;
    0x00; 0x00; 0x00; 0x11; 0x00; 0x00; 0x00; 0x00; 0x11; 0x00; 0x00; 0x00;
    0x02; 0x26; 0x00; 0x00; 0x00; 0x01; 0x00; 0x00; 0x11; 0x00; 0x00; 0x00;
    0x02; 0x26; 0x00; 0x00; 0x00; 0x01; 0x00; 0x00; 0x11; 0x00; 0x00; 0x00;
    0x0a; 0x11; 0x00; 0x00; 0x00; 0x00; 0x11; 0x00; 0x00; 0x00; 0x00; 0x11;
    0x00; 0x00; 0x00; 0x00; 0x11; 0x00; 0x00; 0x00; 0x00; 0x11; 0x00; 0x00;
    0x00; 0x00; 0x11; 0x87; 0x23; 0x49; 0xae; 0x11; 0x05; 0x80; 0x00; 0x20;
    0x10; 0x41; 0x01; 0x0f; 0x0c; 0x14; 0x00; 0x00; 0x00; 0x0c; 0x06; 0x06;
    0x06; 0x02; 0x06; 0x02; 0x06; 0x06; 0x06; 0x06; 0x06; 0x06; 0x11; 0x00;
    0x00; 0x00; 0x00; 0x11; 0x00; 0x00; 0x00; 0x00; 0x11; 0x00; 0x00; 0x00;
    0x02; 0x26; 0x00; 0x00; 0x00; 0x01; 0x00; 0x00; 0x11; 0x00; 0x00; 0x00;
    0x02; 0x26; 0x00; 0x00; 0x00; 0x01; 0x00; 0x00; 0x11; 0x00; 0x00; 0x00;
    0x13; 0x11; 0x00; 0x00; 0x00; 0x00; 0x11; 0x00; 0x00; 0x00; 0x00; 0x11;
    0x00; 0x00; 0x00; 0x00; 0x11; 0x00; 0x00; 0x00; 0x00; 0x11; 0x00; 0x00;
    0x00; 0x00; 0x11; 0x87; 0x23; 0x49; 0xae; 0x11; 0x05; 0x80; 0x00; 0x20;
    0x10; 0x41; 0x01; 0x0f; 0x0c; 0x14; 0x00; 0x00; 0x00; 0x0c; 0x06; 0x06;
    0x06; 0x02; 0x06; 0x02; 0x06; 0x06; 0x06; 0x06; 0x06; 0x06; 0x11; 0x00;
    0x00; 0x00; 0x00; 0x11; 0x00; 0x00; 0x00; 0x00; 0x11; 0x00; 0x00; 0x00;
    0x02; 0x26; 0x00; 0x00; 0x00; 0x01; 0x00; 0x00; 0x11; 0x00; 0x00; 0x00;
    0x02; 0x26; 0x00; 0x00; 0x00; 0x01; 0x00; 0x00; 0x11; 0x00; 0x00; 0x00;
    0x06; 0x11; 0x00; 0x00; 0x00; 0x00; 0x11; 0x00; 0x00; 0x00; 0x00; 0x11;
    0x00; 0x00; 0x00; 0x00; 0x11; 0x00; 0x00; 0x00; 0x00; 0x11; 0x00; 0x00;
    0x00; 0x00; 0x11; 0x87; 0x23; 0x49; 0xae; 0x11; 0x05; 0x80; 0x00; 0x20;
    0x10; 0x42; 0x01; 0x0f; 0x00; 0x14; 0x00; 0x00; 0x00; 0x0c; 0x00; 0x00;
    0x00; 0x00; 0x00; 0x00; 0x00; 0x00; 0x00; 0x00; 0x00; 0x00 ].

(** fixtures.rs:708-715: the mount info request for track 5, transaction 0x05800022. *)
Definition recorded_mount_request : bytes :=
  [ 0x11; 0x87; 0x23; 0x49; 0xae; 0x11; 0x05; 0x80; 0x00; 0x22; 0x10; 0x21;
    0x02; 0x0f; 0x02; 0x14; 0x00; 0x00; 0x00; 0x0c; 0x06; 0x06; 0x00; 0x00;
    0x00; 0x00; 0x00; 0x00; 0x00; 0x00; 0x00; 0x00; 0x11; 0x02; 0x08; 0x04;
    0x01; 0x11; 0x00; 0x00; 0x00; 0x05 ].

(** fixtures.rs:716-723: the six items announced. *)
Definition recorded_mount_answer : bytes :=
  [ 0x11; 0x87; 0x23; 0x49; 0xae; 0x11; 0x05; 0x80; 0x00; 0x22; 0x10; 0x40;
    0x00; 0x0f; 0x02; 0x14; 0x00; 0x00; 0x00; 0x0c; 0x06; 0x06; 0x00; 0x00;
    0x00; 0x00; 0x00; 0x00; 0x00; 0x00; 0x00; 0x00; 0x11; 0x00; 0x00; 0x21;
    0x02; 0x11; 0x00; 0x00; 0x00; 0x06 ].

(** fixtures.rs:724-733: the Render request that follows, transaction 0x05800023. *)
Definition recorded_mount_render : bytes :=
  [ 0x11; 0x87; 0x23; 0x49; 0xae; 0x11; 0x05; 0x80; 0x00; 0x23; 0x10; 0x30;
    0x00; 0x0f; 0x06; 0x14; 0x00; 0x00; 0x00; 0x0c; 0x06; 0x06; 0x06; 0x06;
    0x06; 0x06; 0x00; 0x00; 0x00; 0x00; 0x00; 0x00; 0x11; 0x02; 0x08; 0x04;
    0x01; 0x11; 0x00; 0x00; 0x00; 0x00; 0x11; 0x00; 0x00; 0x00; 0x06; 0x11;
    0x00; 0x00; 0x00; 0x00; 0x11; 0x00; 0x00; 0x00; 0x06; 0x11; 0x00; 0x00;
    0x00; 0x00 ].

(** fixtures.rs:734-839: the page, with the path and the size of the file. *)
Definition recorded_mount_page : bytes :=
  [ 0x11; 0x87; 0x23; 0x49; 0xae; 0x11; 0x05; 0x80; 0x00; 0x23; 0x10; 0x40;
    0x01; 0x0f; 0x02; 0x14; 0x00; 0x00; 0x00; 0x0c; 0x06; 0x06; 0x00; 0x00;
    0x00; 0x00; 0x00; 0x00; 0x00; 0x00; 0x00; 0x00; 0x11; 0x00; 0x00; 0x00;
    0x01; 0x11; 0x00; 0x00; 0x00; 0x00; 0x11; 0x87; 0x23; 0x49; 0xae; 0x11;
    0x05; 0x80; 0x00; 0x23; 0x10; 0x41; 0x01; 0x0f; 0x0c; 0x14; 0x00; 0x00;
    0x00; 0x0c; 0x06; 0x06; 0x06; 0x02; 0x06; 0x02; 0x06; 0x06; 0x06; 0x06;
    0x06; 0x06; 0x11; 0x00; 0x00; 0x00; 0x00; 0x11; 0x00; 0x00; 0x00; 0x01;
    0x11; 0x00; 0x00; 0x00; 0x02; 0x26; 0x00; 0x00; 0x00; 0x01; 0x00; 0x00;
    0x11; 0x00; 0x00; 0x00; 0x02; 0x26; 0x00; 0x00; 0x00; 0x01; 0x00; 0x00;
    0x11; 0x00; 0x00; 0x00; 0x04; 0x11; 0x00; 0x00; 0x00; 0x00; 0x11; 0x00;
    0x00; 0x00; 0x00; 0x11; 0x00; 0x00; 0x00; 0x00; 0x11; 0x00; 0x00; 0x01;
    0x00; 0x11; 0x00; 0x00; 0x00; 0x00; 0x11; 0x87; 0x23; 0x49; 0xae; 0x11;
    0x05; 0x80; 0x00; 0x23; 0x10; 0x41; 0x01; 0x0f; 0x0c; 0x14; 0x00; 0x00;
    0x00; 0x0c; 0x06; 0x06; 0x06; 0x02; 0x06; 0x02; 0x06; 0x06; 0x06; 0x06;
    0x06; 0x06; 0x11; 0x00; 0x00; 0x00; 0x00; 0x11; 0x00; 0x00; 0x00; 0xac;
    0x11; 0x00; 0x00; 0x00; 0x02; 0x26; 0x00; 0x00; 0x00; 0x01; 0x00; 0x00;
    0x11; 0x00; 0x00; 0x00; 0x02; 0x26; 0x00; 0x00; 0x00; 0x01; 0x00; 0x00;
    0x11; 0x00; 0x00; 0x00; 0x0b; 0x11; 0x00; 0x00; 0x00; 0x00; 0x11; 0x00;
    0x00; 0x00; 0x00; 0x11; 0x00; 0x00; 0x00; 0x00; 0x11; 0x00; 0x00; 0x00;
    0x00; 0x11; 0x00; 0x00; 0x00; 0x00; 0x11; 0x87; 0x23; 0x49; 0xae; 0x11;
    0x05; 0x80; 0x00; 0x23; 0x10; 0x41; 0x01; 0x0f; 0x0c; 0x14; 0x00; 0x00;
    0x00; 0x0c; 0x06; 0x06; 0x06; 0x02; 0x06; 0x02; 0x06; 0x06; 0x06; 0x06;
    0x06; 0x06; 0x11; 0x00; 0x00; 0x00; 0x00; 0x11; 0x00; 0x00; 0x32; 0x00;
    0x11; 0x00; 0x00; 0x00; 0x02; 0x26; 0x00; 0x00; 0x00; 0x01; 0x00; 0x00;
    0x11; 0x00; 0x00; 0x00; 0x02; 0x26; 0x00; 0x00; 0x00; 0x01; 0x00; 0x00;
    0x11; 0x00; 0x00; 0x00; 0x0d; 0x11; 0x00; 0x00; 0x00; 0x00; 0x11; 0x00;
    0x00; 0x00; 0x00; 0x11; 0x00; 0x00; 0x00; 0x00; 0x11; 0x00; 0x00; 0x00;
    0x00; 0x11; 0x00; 0x00; 0x00; 0x00; 0x11; 0x87; 0x23; 0x49; 0xae; 0x11;
    0x05; 0x80; 0x00; 0x23; 0x10; 0x41; 0x01; 0x0f; 0x0c; 0x14; 0x00; 0x00;
    0x00; 0x0c; 0x06; 0x06; 0x06; 0x02; 0x06; 0x02; 0x06; 0x06; 0x06; 0x06;
    0x06; 0x06; 0x11; 0x00; 0x00; 0x00; 0x00; 0x11; 0x00; 0x00; 0x00; 0x00;
    0x11; 0x00; 0x00; 0x00; 0x3c; 0x26; 0x00; 0x00; 0x00; 0x1e; 0x00; 0x54;
    0x00; 0x72; 0x00; 0x61; 0x00; 0x63; 0x00; 0x6b; 0x00; 0x73; 0x00; 0x20;
    0x00; 0x62; 0x00; 0x79; 0x00; 0x20; 0x00; 0x77; 0x00; 0x77; 0x00; 0x77;
    0x00; 0x2e; 0x00; 0x6c; 0x00; 0x6f; 0x00; 0x6f; 0x00; 0x70; 0x00; 0x6d;
    0x00; 0x61; 0x00; 0x73; 0x00; 0x74; 0x00; 0x65; 0x00; 0x72; 0x00; 0x73;
    0x00; 0x2e; 0x00; 0x63; 0x00; 0x6f; 0x00; 0x6d; 0x00; 0x00; 0x11; 0x00;
    0x00; 0x00; 0x02; 0x26; 0x00; 0x00; 0x00; 0x01; 0x00; 0x00; 0x11; 0x00;
    0x00; 0x00; 0x23; 0x11; 0x00; 0x00; 0x00; 0x00; 0x11; 0x00; 0x00; 0x00;
    0x00; 0x11; 0x00; 0x00; 0x00; 0x00; 0x11; 0x00; 0x00; 0x00; 0x00; 0x11;
    0x00; 0x00; 0x00; 0x00; 0x11; 0x87; 0x23; 0x49; 0xae; 0x11; 0x05; 0x80;
    0x00; 0x23; 0x10; 0x41; 0x01; 0x0f; 0x0c; 0x14; 0x00; 0x00; 0x00; 0x0c;
    0x06; 0x06; 0x06; 0x02; 0x06; 0x02; 0x06; 0x06; 0x06; 0x06; 0x06; 0x06;
    0x11; 0x00; 0x69; 0x47; 0xa8; 0x11; 0x00; 0x00; 0x00; 0x05; 0x11; 0x00;
    0x00; 0x00; 0x7a; 0x26; 0x00; 0x00; 0x00; 0x3d; 0x00; 0x43; 0x00; 0x3a;
    0x00; 0x2f; 0x00; 0x55; 0x00; 0x73; 0x00; 0x65; 0x00; 0x72; 0x00; 0x73;
    0x00; 0x2f; 0x00; 0x53; 0x00; 0x6e; 0x00; 0x61; 0x00; 0x61; 0x00; 0x6a;
    0x00; 0x66; 0x00; 0x2f; 0x00; 0x4d; 0x00; 0x75; 0x00; 0x73; 0x00; 0x69;
    0x00; 0x63; 0x00; 0x2f; 0x00; 0x50; 0x00; 0x69; 0x00; 0x6f; 0x00; 0x6e;
    0x00; 0x65; 0x00; 0x65; 0x00; 0x72; 0x00; 0x44; 0x00; 0x4a; 0x00; 0x2f;
    0x00; 0x44; 0x00; 0x65; 0x00; 0x6d; 0x00; 0x6f; 0x00; 0x20; 0x00; 0x54;
    0x00; 0x72; 0x00; 0x61; 0x00; 0x63; 0x00; 0x6b; 0x00; 0x73; 0x00; 0x2f;
    0x00; 0x44; 0x00; 0x65; 0x00; 0x6d; 0x00; 0x6f; 0x00; 0x20; 0x00; 0x54;
    0x00; 0x72; 0x00; 0x61; 0x00; 0x63; 0x00; 0x6b; 0x00; 0x20; 0x00; 0x31;
    0x00; 0x2e; 0x00; 0x6d; 0x00; 0x70; 0x00; 0x33; 0x00; 0x00; 0x11; 0x00;
    0x00; 0x00; 0x02; 0x26; 0x00; 0x00; 0x00; 0x01; 0x00; 0x00; 0x11; 0x00;
    0x00; 0x00; 0x00; 0x11; 0x00; 0x00; 0x00; 0x00; 0x11; 0x00; 0x00; 0x00;
    0x00; 0x11; 0x00; 0x00; 0x00; 0x00; 0x11; 0x00; 0x00; 0x00; 0x00; 0x11;
    0x00; 0x00; 0x00; 0x00; 0x11; 0x87; 0x23; 0x49; 0xae; 0x11; 0x05; 0x80;
    0x00; 0x23; 0x10; 0x41; 0x01; 0x0f; 0x0c; 0x14; 0x00; 0x00; 0x00; 0x0c;
    0x06; 0x06; 0x06; 0x02; 0x06; 0x02; 0x06; 0x06; 0x06; 0x06; 0x06; 0x06;
    0x11; 0x00; 0x00; 0x00; 0x00; 0x11; 0x00; 0x00; 0x00; 0x01; 0x11; 0x00;
    0x00; 0x00; 0x02; 0x26; 0x00; 0x00; 0x00; 0x01; 0x00; 0x00; 0x11; 0x00;
    0x00; 0x00; 0x02; 0x26; 0x00; 0x00; 0x00; 0x01; 0x00; 0x00; 0x11; 0x00;
    0x00; 0x00; 0x2f; 0x11; 0x00; 0x00; 0x00; 0x00; 0x11; 0x00; 0x00; 0x00;
    0x00; 0x11; 0x00; 0x00; 0x00; 0x00; 0x11; 0x00; 0x00; 0x00; 0x00; 0x11;
    0x00; 0x00; 0x00; 0x00; 0x11; 0x87; 0x23; 0x49; 0xae; 0x11; 0x05; 0x80;
    0x00; 0x23; 0x10; 0x42; 0x01; 0x0f; 0x00; 0x14; 0x00; 0x00; 0x00; 0x0c;
    0x00; 0x00; 0x00; 0x00; 0x00; 0x00; 0x00; 0x00; 0x00; 0x00; 0x00; 0x00 ].

(** ** Recorded messages kept argument by argument, for any transaction *)

(** fixtures.rs:284-291: the answer to a request for the main menu. *)
Definition recorded_root_answer (tx : N) : cmsg := mkCmsg tx 0x4000 [CNum 4 0x1000; CNum 4 8].

(** fixtures.rs:307-450: the main menu. *)
Definition recorded_root_page (tx : N) : list cmsg :=
  let entry id size text type :=
    mkCmsg tx 0x4101
      [ CNum 4 0; CNum 4 id; CNum 4 size; CText (utf16_encode text); CNum 4 2; CText [];
        CNum 4 type; CNum 4 0; CNum 4 0; CNum 4 0; CNum 4 0; CNum 4 0 ] in
  [ mkCmsg tx 0x4001 [CNum 4 1; CNum 4 0];
    entry 2 18 ([0xfffa] ++ lit "ARTIST" ++ [0xfffb]) 0x81;
    entry 3 16 ([0xfffa] ++ lit "ALBUM" ++ [0xfffb]) 0x82;
    entry 4 16 ([0xfffa] ++ lit "TRACK" ++ [0xfffb]) 0x83;
    entry 12 12 ([0xfffa] ++ lit "KEY" ++ [0xfffb]) 0x8b;
    entry 5 22 ([0xfffa] ++ lit "PLAYLIST" ++ [0xfffb]) 0x84;
    entry 22 20 ([0xfffa] ++ lit "HISTORY" ++ [0xfffb]) 0x95;
    entry 18 18 ([0xfffa] ++ lit "SEARCH" ++ [0xfffb]) 0x91;
    mkCmsg tx 0x4201 [CNum 4 1; CNum 4 1] ].

(** A list of rows as it was recorded: the header, a row for each id, text size and
    text, all of one type, and a footer. *)
Definition recorded_rows (tx type : N) (rows : list (N * N * str)) : list cmsg :=
  mkCmsg tx 0x4001 [CNum 4 1; CNum 4 0] ::
  map (fun '(id, size, text) =>
         mkCmsg tx 0x4101
           [ CNum 4 0; CNum 4 id; CNum 4 size; CText (utf16_encode text); CNum 4 2; CText [];
             CNum 4 type; CNum 4 0; CNum 4 0; CNum 4 0; CNum 4 0; CNum 4 0 ]) rows
  ++ [mkCmsg tx 0x4201 []].

(** fixtures.rs:494-526: the artists of a library with the one artist "Loopmasters". *)
Definition recorded_artists_page (tx : N) : list cmsg :=
  recorded_rows tx 7 [(1, 24, lit "Loopmasters")].

(** fixtures.rs:192-200 and 215-247: the answer to a request for the albums of that
    artist, who has two tracks without an album, and the page. *)
Definition recorded_albums_answer (tx : N) : cmsg := mkCmsg tx 0x4000 [CNum 4 0x1102; CNum 4 1].
Definition recorded_albums_page (tx : N) : list cmsg :=
  recorded_rows tx 2 [(0, 16, lit "Unknown")].

(** fixtures.rs:102-109 and 123-173: the answer to a request for the titles of that
    artist, and the page. *)
Definition recorded_titles_answer (tx : N) : cmsg := mkCmsg tx 0x4000 [CNum 4 0x1202; CNum 4 2].
Definition recorded_titles_page (tx : N) : list cmsg :=
  recorded_rows tx 4 [(5, 26, lit "Demo Track 1"); (6, 26, lit "Demo Track 2")].

(** fixtures.rs:540-547: the answer to a request for the metadata of a track. *)
Definition recorded_metadata_answer (tx : N) : cmsg := mkCmsg tx 0x4000 [CNum 4 0x2002; CNum 4 10].

(** ** The recorded pages about one track, for any track *)

(** The metadata page as recorded, for another title, artist, tempo (in hundredths),
    duration (in seconds) and comment, each text with its size. *)
Definition metadata_like (tx : N) (title artist : str) (tempo duration : N) (comment : str)
  : list cmsg :=
  let line parent id text type flags :=
    mkCmsg tx 0x4101
      [ CNum 4 parent; CNum 4 id; CNum 4 (byte_size text); CText (utf16_encode text);
        CNum 4 2; CText []; CNum 4 type; CNum 4 0; CNum 4 0; CNum 4 0; CNum 4 flags; CNum 4 0 ] in
  [ mkCmsg tx 0x4001 [CNum 4 1; CNum 4 0];
    line 1 5 title 4 256;
    line 1 1 artist 7 0;
    line 1 0 [] 2 0;
    line 0 duration [] 11 0;
    line 0 tempo [] 13 0;
    line 0 5 comment 35 0;
    line 1 0 [] 15 0;
    line 0 0 [] 10 0;
    line 0 0 [] 19 0;
    line 0 0 [] 6 0;
    mkCmsg tx 0x4201 [] ].

(** The mount info page as recorded, for another size and path of the file, tempo,
    duration and comment; [flags] is the eleventh argument of its first item. *)
Definition mount_like (tx size : N) (path : str) (tempo duration : N) (comment : str) (flags : N)
  : list cmsg :=
  let line parent id text type flags :=
    mkCmsg tx 0x4101
      [ CNum 4 parent; CNum 4 id; CNum 4 (byte_size text); CText (utf16_encode text);
        CNum 4 2; CText []; CNum 4 type; CNum 4 0; CNum 4 0; CNum 4 0; CNum 4 flags; CNum 4 0 ] in
  [ mkCmsg tx 0x4001 [CNum 4 1; CNum 4 0];
    line 0 1 [] 4 flags;
    line 0 duration [] 11 0;
    line 0 tempo [] 13 0;
    line 0 0 comment 35 0;
    line size 5 path 0 0;
    line 0 1 [] 47 0;
    mkCmsg tx 0x4201 [] ].

(** ** Messages every client can read back *)

(** Numbers of four bytes and texts of 16-bit units that fit their announced size. *)
Definition plain_value (v : cvalue) : Prop :=
  match v with
  | CNum w n => w = 4 /\ n < 2 ^ 32
  | CText u => Forall (fun x => x < 65536) u /\ len u < 2 ^ 32 - 1
  | CBlob _ => False
  end.

Definition plain_message (m : cmsg) : Prop :=
  c_tx m < 2 ^ 32 /\ c_code m < 65536 /\ (List.length (c_args m) <= 12)%nat /\
  Forall plain_value (c_args m).

(** ** How many items the answer to a menu request announces *)

Definition announced (l : list scanned) (m : menu) : N :=
  match m with
  | RootMenu => 8
  | ArtistMenu => len (artist_names l)
  | TitleMenu => 0
  | AlbumsOfArtist a | TitlesOfArtist a => len (tracks_of_artist l a)
  | TrackMetadata _ => 10
  | TrackMountInfo _ => 6
  end.
