(** Specification for C90: datagrams of the real software and of players, as recorded
    in the documents of the repository (docs/rekordbox).  The bytes are copied from
    there. *)

From Verif Require Import Base.
Open Scope list_scope.
Open Scope N_scope.

(** docs/rekordbox/network_inspection.md:115-159, the 3 + 36 datagrams of the
    discovery. *)
Definition recorded_discovery : list bytes :=
  [[0x51; 0x73; 0x70; 0x74; 0x31; 0x57; 0x6d; 0x4a; 0x4f; 0x4c; 0x00; 0x00; 0x72; 0x65; 0x6b; 0x6f; 0x72; 0x64; 0x62; 0x6f; 0x78; 0x00; 0x00; 0x00; 0x00; 0x00; 0x00; 0x00; 0x00; 0x00; 0x00; 0x00; 0x01; 0x03; 0x00; 0x2c; 0x01; 0x04; 0xac; 0x87; 0xa3; 0x35; 0xbc; 0x4d];
   [0x51; 0x73; 0x70; 0x74; 0x31; 0x57; 0x6d; 0x4a; 0x4f; 0x4c; 0x00; 0x00; 0x72; 0x65; 0x6b; 0x6f; 0x72; 0x64; 0x62; 0x6f; 0x78; 0x00; 0x00; 0x00; 0x00; 0x00; 0x00; 0x00; 0x00; 0x00; 0x00; 0x00; 0x01; 0x03; 0x00; 0x2c; 0x02; 0x04; 0xac; 0x87; 0xa3; 0x35; 0xbc; 0x4d];
   [0x51; 0x73; 0x70; 0x74; 0x31; 0x57; 0x6d; 0x4a; 0x4f; 0x4c; 0x00; 0x00; 0x72; 0x65; 0x6b; 0x6f; 0x72; 0x64; 0x62; 0x6f; 0x78; 0x00; 0x00; 0x00; 0x00; 0x00; 0x00; 0x00; 0x00; 0x00; 0x00; 0x00; 0x01; 0x03; 0x00; 0x2c; 0x03; 0x04; 0xac; 0x87; 0xa3; 0x35; 0xbc; 0x4d];
   [0x51; 0x73; 0x70; 0x74; 0x31; 0x57; 0x6d; 0x4a; 0x4f; 0x4c; 0x02; 0x00; 0x72; 0x65; 0x6b; 0x6f; 0x72; 0x64; 0x62; 0x6f; 0x78; 0x00; 0x00; 0x00; 0x00; 0x00; 0x00; 0x00; 0x00; 0x00; 0x00; 0x00; 0x01; 0x03; 0x00; 0x32; 0xa9; 0xfe; 0x30; 0xe7; 0xac; 0x87; 0xa3; 0x35; 0xbc; 0x4d; 0x11; 0x01; 0x04; 0x01];
   [0x51; 0x73; 0x70; 0x74; 0x31; 0x57; 0x6d; 0x4a; 0x4f; 0x4c; 0x02; 0x00; 0x72; 0x65; 0x6b; 0x6f; 0x72; 0x64; 0x62; 0x6f; 0x78; 0x00; 0x00; 0x00; 0x00; 0x00; 0x00; 0x00; 0x00; 0x00; 0x00; 0x00; 0x01; 0x03; 0x00; 0x32; 0xa9; 0xfe; 0x30; 0xe7; 0xac; 0x87; 0xa3; 0x35; 0xbc; 0x4d; 0x12; 0x01; 0x04; 0x01];
   [0x51; 0x73; 0x70; 0x74; 0x31; 0x57; 0x6d; 0x4a; 0x4f; 0x4c; 0x02; 0x00; 0x72; 0x65; 0x6b; 0x6f; 0x72; 0x64; 0x62; 0x6f; 0x78; 0x00; 0x00; 0x00; 0x00; 0x00; 0x00; 0x00; 0x00; 0x00; 0x00; 0x00; 0x01; 0x03; 0x00; 0x32; 0xa9; 0xfe; 0x30; 0xe7; 0xac; 0x87; 0xa3; 0x35; 0xbc; 0x4d; 0x29; 0x01; 0x04; 0x01];
   [0x51; 0x73; 0x70; 0x74; 0x31; 0x57; 0x6d; 0x4a; 0x4f; 0x4c; 0x02; 0x00; 0x72; 0x65; 0x6b; 0x6f; 0x72; 0x64; 0x62; 0x6f; 0x78; 0x00; 0x00; 0x00; 0x00; 0x00; 0x00; 0x00; 0x00; 0x00; 0x00; 0x00; 0x01; 0x03; 0x00; 0x32; 0xa9; 0xfe; 0x30; 0xe7; 0xac; 0x87; 0xa3; 0x35; 0xbc; 0x4d; 0x2a; 0x01; 0x04; 0x01];
   [0x51; 0x73; 0x70; 0x74; 0x31; 0x57; 0x6d; 0x4a; 0x4f; 0x4c; 0x02; 0x00; 0x72; 0x65; 0x6b; 0x6f; 0x72; 0x64; 0x62; 0x6f; 0x78; 0x00; 0x00; 0x00; 0x00; 0x00; 0x00; 0x00; 0x00; 0x00; 0x00; 0x00; 0x01; 0x03; 0x00; 0x32; 0xa9; 0xfe; 0x30; 0xe7; 0xac; 0x87; 0xa3; 0x35; 0xbc; 0x4d; 0x2b; 0x01; 0x04; 0x01];
   [0x51; 0x73; 0x70; 0x74; 0x31; 0x57; 0x6d; 0x4a; 0x4f; 0x4c; 0x02; 0x00; 0x72; 0x65; 0x6b; 0x6f; 0x72; 0x64; 0x62; 0x6f; 0x78; 0x00; 0x00; 0x00; 0x00; 0x00; 0x00; 0x00; 0x00; 0x00; 0x00; 0x00; 0x01; 0x03; 0x00; 0x32; 0xa9; 0xfe; 0x30; 0xe7; 0xac; 0x87; 0xa3; 0x35; 0xbc; 0x4d; 0x2c; 0x01; 0x04; 0x01];
   [0x51; 0x73; 0x70; 0x74; 0x31; 0x57; 0x6d; 0x4a; 0x4f; 0x4c; 0x02; 0x00; 0x72; 0x65; 0x6b; 0x6f; 0x72; 0x64; 0x62; 0x6f; 0x78; 0x00; 0x00; 0x00; 0x00; 0x00; 0x00; 0x00; 0x00; 0x00; 0x00; 0x00; 0x01; 0x03; 0x00; 0x32; 0xa9; 0xfe; 0x30; 0xe7; 0xac; 0x87; 0xa3; 0x35; 0xbc; 0x4d; 0x11; 0x02; 0x04; 0x01];
   [0x51; 0x73; 0x70; 0x74; 0x31; 0x57; 0x6d; 0x4a; 0x4f; 0x4c; 0x02; 0x00; 0x72; 0x65; 0x6b; 0x6f; 0x72; 0x64; 0x62; 0x6f; 0x78; 0x00; 0x00; 0x00; 0x00; 0x00; 0x00; 0x00; 0x00; 0x00; 0x00; 0x00; 0x01; 0x03; 0x00; 0x32; 0xa9; 0xfe; 0x30; 0xe7; 0xac; 0x87; 0xa3; 0x35; 0xbc; 0x4d; 0x12; 0x02; 0x04; 0x01];
   [0x51; 0x73; 0x70; 0x74; 0x31; 0x57; 0x6d; 0x4a; 0x4f; 0x4c; 0x02; 0x00; 0x72; 0x65; 0x6b; 0x6f; 0x72; 0x64; 0x62; 0x6f; 0x78; 0x00; 0x00; 0x00; 0x00; 0x00; 0x00; 0x00; 0x00; 0x00; 0x00; 0x00; 0x01; 0x03; 0x00; 0x32; 0xa9; 0xfe; 0x30; 0xe7; 0xac; 0x87; 0xa3; 0x35; 0xbc; 0x4d; 0x29; 0x02; 0x04; 0x01];
   [0x51; 0x73; 0x70; 0x74; 0x31; 0x57; 0x6d; 0x4a; 0x4f; 0x4c; 0x02; 0x00; 0x72; 0x65; 0x6b; 0x6f; 0x72; 0x64; 0x62; 0x6f; 0x78; 0x00; 0x00; 0x00; 0x00; 0x00; 0x00; 0x00; 0x00; 0x00; 0x00; 0x00; 0x01; 0x03; 0x00; 0x32; 0xa9; 0xfe; 0x30; 0xe7; 0xac; 0x87; 0xa3; 0x35; 0xbc; 0x4d; 0x2a; 0x02; 0x04; 0x01];
   [0x51; 0x73; 0x70; 0x74; 0x31; 0x57; 0x6d; 0x4a; 0x4f; 0x4c; 0x02; 0x00; 0x72; 0x65; 0x6b; 0x6f; 0x72; 0x64; 0x62; 0x6f; 0x78; 0x00; 0x00; 0x00; 0x00; 0x00; 0x00; 0x00; 0x00; 0x00; 0x00; 0x00; 0x01; 0x03; 0x00; 0x32; 0xa9; 0xfe; 0x30; 0xe7; 0xac; 0x87; 0xa3; 0x35; 0xbc; 0x4d; 0x2b; 0x02; 0x04; 0x01];
   [0x51; 0x73; 0x70; 0x74; 0x31; 0x57; 0x6d; 0x4a; 0x4f; 0x4c; 0x02; 0x00; 0x72; 0x65; 0x6b; 0x6f; 0x72; 0x64; 0x62; 0x6f; 0x78; 0x00; 0x00; 0x00; 0x00; 0x00; 0x00; 0x00; 0x00; 0x00; 0x00; 0x00; 0x01; 0x03; 0x00; 0x32; 0xa9; 0xfe; 0x30; 0xe7; 0xac; 0x87; 0xa3; 0x35; 0xbc; 0x4d; 0x2c; 0x02; 0x04; 0x01];
   [0x51; 0x73; 0x70; 0x74; 0x31; 0x57; 0x6d; 0x4a; 0x4f; 0x4c; 0x02; 0x00; 0x72; 0x65; 0x6b; 0x6f; 0x72; 0x64; 0x62; 0x6f; 0x78; 0x00; 0x00; 0x00; 0x00; 0x00; 0x00; 0x00; 0x00; 0x00; 0x00; 0x00; 0x01; 0x03; 0x00; 0x32; 0xa9; 0xfe; 0x30; 0xe7; 0xac; 0x87; 0xa3; 0x35; 0xbc; 0x4d; 0x11; 0x03; 0x04; 0x01];
   [0x51; 0x73; 0x70; 0x74; 0x31; 0x57; 0x6d; 0x4a; 0x4f; 0x4c; 0x02; 0x00; 0x72; 0x65; 0x6b; 0x6f; 0x72; 0x64; 0x62; 0x6f; 0x78; 0x00; 0x00; 0x00; 0x00; 0x00; 0x00; 0x00; 0x00; 0x00; 0x00; 0x00; 0x01; 0x03; 0x00; 0x32; 0xa9; 0xfe; 0x30; 0xe7; 0xac; 0x87; 0xa3; 0x35; 0xbc; 0x4d; 0x12; 0x03; 0x04; 0x01];
   [0x51; 0x73; 0x70; 0x74; 0x31; 0x57; 0x6d; 0x4a; 0x4f; 0x4c; 0x02; 0x00; 0x72; 0x65; 0x6b; 0x6f; 0x72; 0x64; 0x62; 0x6f; 0x78; 0x00; 0x00; 0x00; 0x00; 0x00; 0x00; 0x00; 0x00; 0x00; 0x00; 0x00; 0x01; 0x03; 0x00; 0x32; 0xa9; 0xfe; 0x30; 0xe7; 0xac; 0x87; 0xa3; 0x35; 0xbc; 0x4d; 0x29; 0x03; 0x04; 0x01];
   [0x51; 0x73; 0x70; 0x74; 0x31; 0x57; 0x6d; 0x4a; 0x4f; 0x4c; 0x02; 0x00; 0x72; 0x65; 0x6b; 0x6f; 0x72; 0x64; 0x62; 0x6f; 0x78; 0x00; 0x00; 0x00; 0x00; 0x00; 0x00; 0x00; 0x00; 0x00; 0x00; 0x00; 0x01; 0x03; 0x00; 0x32; 0xa9; 0xfe; 0x30; 0xe7; 0xac; 0x87; 0xa3; 0x35; 0xbc; 0x4d; 0x2a; 0x03; 0x04; 0x01];
   [0x51; 0x73; 0x70; 0x74; 0x31; 0x57; 0x6d; 0x4a; 0x4f; 0x4c; 0x02; 0x00; 0x72; 0x65; 0x6b; 0x6f; 0x72; 0x64; 0x62; 0x6f; 0x78; 0x00; 0x00; 0x00; 0x00; 0x00; 0x00; 0x00; 0x00; 0x00; 0x00; 0x00; 0x01; 0x03; 0x00; 0x32; 0xa9; 0xfe; 0x30; 0xe7; 0xac; 0x87; 0xa3; 0x35; 0xbc; 0x4d; 0x2b; 0x03; 0x04; 0x01];
   [0x51; 0x73; 0x70; 0x74; 0x31; 0x57; 0x6d; 0x4a; 0x4f; 0x4c; 0x02; 0x00; 0x72; 0x65; 0x6b; 0x6f; 0x72; 0x64; 0x62; 0x6f; 0x78; 0x00; 0x00; 0x00; 0x00; 0x00; 0x00; 0x00; 0x00; 0x00; 0x00; 0x00; 0x01; 0x03; 0x00; 0x32; 0xa9; 0xfe; 0x30; 0xe7; 0xac; 0x87; 0xa3; 0x35; 0xbc; 0x4d; 0x2c; 0x03; 0x04; 0x01];
   [0x51; 0x73; 0x70; 0x74; 0x31; 0x57; 0x6d; 0x4a; 0x4f; 0x4c; 0x02; 0x00; 0x72; 0x65; 0x6b; 0x6f; 0x72; 0x64; 0x62; 0x6f; 0x78; 0x00; 0x00; 0x00; 0x00; 0x00; 0x00; 0x00; 0x00; 0x00; 0x00; 0x00; 0x01; 0x03; 0x00; 0x32; 0xa9; 0xfe; 0x30; 0xe7; 0xac; 0x87; 0xa3; 0x35; 0xbc; 0x4d; 0x11; 0x04; 0x04; 0x01];
   [0x51; 0x73; 0x70; 0x74; 0x31; 0x57; 0x6d; 0x4a; 0x4f; 0x4c; 0x02; 0x00; 0x72; 0x65; 0x6b; 0x6f; 0x72; 0x64; 0x62; 0x6f; 0x78; 0x00; 0x00; 0x00; 0x00; 0x00; 0x00; 0x00; 0x00; 0x00; 0x00; 0x00; 0x01; 0x03; 0x00; 0x32; 0xa9; 0xfe; 0x30; 0xe7; 0xac; 0x87; 0xa3; 0x35; 0xbc; 0x4d; 0x12; 0x04; 0x04; 0x01];
   [0x51; 0x73; 0x70; 0x74; 0x31; 0x57; 0x6d; 0x4a; 0x4f; 0x4c; 0x02; 0x00; 0x72; 0x65; 0x6b; 0x6f; 0x72; 0x64; 0x62; 0x6f; 0x78; 0x00; 0x00; 0x00; 0x00; 0x00; 0x00; 0x00; 0x00; 0x00; 0x00; 0x00; 0x01; 0x03; 0x00; 0x32; 0xa9; 0xfe; 0x30; 0xe7; 0xac; 0x87; 0xa3; 0x35; 0xbc; 0x4d; 0x29; 0x04; 0x04; 0x01];
   [0x51; 0x73; 0x70; 0x74; 0x31; 0x57; 0x6d; 0x4a; 0x4f; 0x4c; 0x02; 0x00; 0x72; 0x65; 0x6b; 0x6f; 0x72; 0x64; 0x62; 0x6f; 0x78; 0x00; 0x00; 0x00; 0x00; 0x00; 0x00; 0x00; 0x00; 0x00; 0x00; 0x00; 0x01; 0x03; 0x00; 0x32; 0xa9; 0xfe; 0x30; 0xe7; 0xac; 0x87; 0xa3; 0x35; 0xbc; 0x4d; 0x2a; 0x04; 0x04; 0x01];
   [0x51; 0x73; 0x70; 0x74; 0x31; 0x57; 0x6d; 0x4a; 0x4f; 0x4c; 0x02; 0x00; 0x72; 0x65; 0x6b; 0x6f; 0x72; 0x64; 0x62; 0x6f; 0x78; 0x00; 0x00; 0x00; 0x00; 0x00; 0x00; 0x00; 0x00; 0x00; 0x00; 0x00; 0x01; 0x03; 0x00; 0x32; 0xa9; 0xfe; 0x30; 0xe7; 0xac; 0x87; 0xa3; 0x35; 0xbc; 0x4d; 0x2b; 0x04; 0x04; 0x01];
   [0x51; 0x73; 0x70; 0x74; 0x31; 0x57; 0x6d; 0x4a; 0x4f; 0x4c; 0x02; 0x00; 0x72; 0x65; 0x6b; 0x6f; 0x72; 0x64; 0x62; 0x6f; 0x78; 0x00; 0x00; 0x00; 0x00; 0x00; 0x00; 0x00; 0x00; 0x00; 0x00; 0x00; 0x01; 0x03; 0x00; 0x32; 0xa9; 0xfe; 0x30; 0xe7; 0xac; 0x87; 0xa3; 0x35; 0xbc; 0x4d; 0x2c; 0x04; 0x04; 0x01];
   [0x51; 0x73; 0x70; 0x74; 0x31; 0x57; 0x6d; 0x4a; 0x4f; 0x4c; 0x02; 0x00; 0x72; 0x65; 0x6b; 0x6f; 0x72; 0x64; 0x62; 0x6f; 0x78; 0x00; 0x00; 0x00; 0x00; 0x00; 0x00; 0x00; 0x00; 0x00; 0x00; 0x00; 0x01; 0x03; 0x00; 0x32; 0xa9; 0xfe; 0x30; 0xe7; 0xac; 0x87; 0xa3; 0x35; 0xbc; 0x4d; 0x11; 0x05; 0x04; 0x01];
   [0x51; 0x73; 0x70; 0x74; 0x31; 0x57; 0x6d; 0x4a; 0x4f; 0x4c; 0x02; 0x00; 0x72; 0x65; 0x6b; 0x6f; 0x72; 0x64; 0x62; 0x6f; 0x78; 0x00; 0x00; 0x00; 0x00; 0x00; 0x00; 0x00; 0x00; 0x00; 0x00; 0x00; 0x01; 0x03; 0x00; 0x32; 0xa9; 0xfe; 0x30; 0xe7; 0xac; 0x87; 0xa3; 0x35; 0xbc; 0x4d; 0x12; 0x05; 0x04; 0x01];
   [0x51; 0x73; 0x70; 0x74; 0x31; 0x57; 0x6d; 0x4a; 0x4f; 0x4c; 0x02; 0x00; 0x72; 0x65; 0x6b; 0x6f; 0x72; 0x64; 0x62; 0x6f; 0x78; 0x00; 0x00; 0x00; 0x00; 0x00; 0x00; 0x00; 0x00; 0x00; 0x00; 0x00; 0x01; 0x03; 0x00; 0x32; 0xa9; 0xfe; 0x30; 0xe7; 0xac; 0x87; 0xa3; 0x35; 0xbc; 0x4d; 0x29; 0x05; 0x04; 0x01];
   [0x51; 0x73; 0x70; 0x74; 0x31; 0x57; 0x6d; 0x4a; 0x4f; 0x4c; 0x02; 0x00; 0x72; 0x65; 0x6b; 0x6f; 0x72; 0x64; 0x62; 0x6f; 0x78; 0x00; 0x00; 0x00; 0x00; 0x00; 0x00; 0x00; 0x00; 0x00; 0x00; 0x00; 0x01; 0x03; 0x00; 0x32; 0xa9; 0xfe; 0x30; 0xe7; 0xac; 0x87; 0xa3; 0x35; 0xbc; 0x4d; 0x2a; 0x05; 0x04; 0x01];
   [0x51; 0x73; 0x70; 0x74; 0x31; 0x57; 0x6d; 0x4a; 0x4f; 0x4c; 0x02; 0x00; 0x72; 0x65; 0x6b; 0x6f; 0x72; 0x64; 0x62; 0x6f; 0x78; 0x00; 0x00; 0x00; 0x00; 0x00; 0x00; 0x00; 0x00; 0x00; 0x00; 0x00; 0x01; 0x03; 0x00; 0x32; 0xa9; 0xfe; 0x30; 0xe7; 0xac; 0x87; 0xa3; 0x35; 0xbc; 0x4d; 0x2b; 0x05; 0x04; 0x01];
   [0x51; 0x73; 0x70; 0x74; 0x31; 0x57; 0x6d; 0x4a; 0x4f; 0x4c; 0x02; 0x00; 0x72; 0x65; 0x6b; 0x6f; 0x72; 0x64; 0x62; 0x6f; 0x78; 0x00; 0x00; 0x00; 0x00; 0x00; 0x00; 0x00; 0x00; 0x00; 0x00; 0x00; 0x01; 0x03; 0x00; 0x32; 0xa9; 0xfe; 0x30; 0xe7; 0xac; 0x87; 0xa3; 0x35; 0xbc; 0x4d; 0x2c; 0x05; 0x04; 0x01];
   [0x51; 0x73; 0x70; 0x74; 0x31; 0x57; 0x6d; 0x4a; 0x4f; 0x4c; 0x02; 0x00; 0x72; 0x65; 0x6b; 0x6f; 0x72; 0x64; 0x62; 0x6f; 0x78; 0x00; 0x00; 0x00; 0x00; 0x00; 0x00; 0x00; 0x00; 0x00; 0x00; 0x00; 0x01; 0x03; 0x00; 0x32; 0xa9; 0xfe; 0x30; 0xe7; 0xac; 0x87; 0xa3; 0x35; 0xbc; 0x4d; 0x11; 0x06; 0x04; 0x01];
   [0x51; 0x73; 0x70; 0x74; 0x31; 0x57; 0x6d; 0x4a; 0x4f; 0x4c; 0x02; 0x00; 0x72; 0x65; 0x6b; 0x6f; 0x72; 0x64; 0x62; 0x6f; 0x78; 0x00; 0x00; 0x00; 0x00; 0x00; 0x00; 0x00; 0x00; 0x00; 0x00; 0x00; 0x01; 0x03; 0x00; 0x32; 0xa9; 0xfe; 0x30; 0xe7; 0xac; 0x87; 0xa3; 0x35; 0xbc; 0x4d; 0x12; 0x06; 0x04; 0x01];
   [0x51; 0x73; 0x70; 0x74; 0x31; 0x57; 0x6d; 0x4a; 0x4f; 0x4c; 0x02; 0x00; 0x72; 0x65; 0x6b; 0x6f; 0x72; 0x64; 0x62; 0x6f; 0x78; 0x00; 0x00; 0x00; 0x00; 0x00; 0x00; 0x00; 0x00; 0x00; 0x00; 0x00; 0x01; 0x03; 0x00; 0x32; 0xa9; 0xfe; 0x30; 0xe7; 0xac; 0x87; 0xa3; 0x35; 0xbc; 0x4d; 0x29; 0x06; 0x04; 0x01];
   [0x51; 0x73; 0x70; 0x74; 0x31; 0x57; 0x6d; 0x4a; 0x4f; 0x4c; 0x02; 0x00; 0x72; 0x65; 0x6b; 0x6f; 0x72; 0x64; 0x62; 0x6f; 0x78; 0x00; 0x00; 0x00; 0x00; 0x00; 0x00; 0x00; 0x00; 0x00; 0x00; 0x00; 0x01; 0x03; 0x00; 0x32; 0xa9; 0xfe; 0x30; 0xe7; 0xac; 0x87; 0xa3; 0x35; 0xbc; 0x4d; 0x2a; 0x06; 0x04; 0x01];
   [0x51; 0x73; 0x70; 0x74; 0x31; 0x57; 0x6d; 0x4a; 0x4f; 0x4c; 0x02; 0x00; 0x72; 0x65; 0x6b; 0x6f; 0x72; 0x64; 0x62; 0x6f; 0x78; 0x00; 0x00; 0x00; 0x00; 0x00; 0x00; 0x00; 0x00; 0x00; 0x00; 0x00; 0x01; 0x03; 0x00; 0x32; 0xa9; 0xfe; 0x30; 0xe7; 0xac; 0x87; 0xa3; 0x35; 0xbc; 0x4d; 0x2b; 0x06; 0x04; 0x01];
   [0x51; 0x73; 0x70; 0x74; 0x31; 0x57; 0x6d; 0x4a; 0x4f; 0x4c; 0x02; 0x00; 0x72; 0x65; 0x6b; 0x6f; 0x72; 0x64; 0x62; 0x6f; 0x78; 0x00; 0x00; 0x00; 0x00; 0x00; 0x00; 0x00; 0x00; 0x00; 0x00; 0x00; 0x01; 0x03; 0x00; 0x32; 0xa9; 0xfe; 0x30; 0xe7; 0xac; 0x87; 0xa3; 0x35; 0xbc; 0x4d; 0x2c; 0x06; 0x04; 0x01]].

(** network_inspection.md:75-84, "Rekordbox broadcast", the same machine with one
    device; sent after the 39, lines 102-106. *)
Definition recorded_broadcast : bytes :=
  [0x51; 0x73; 0x70; 0x74; 0x31; 0x57; 0x6d; 0x4a; 0x4f; 0x4c; 0x06; 0x00; 0x72; 0x65; 0x6b; 0x6f; 0x72; 0x64; 0x62; 0x6f; 0x78; 0x00; 0x00; 0x00; 0x00; 0x00; 0x00; 0x00; 0x00; 0x00; 0x00; 0x00; 0x01; 0x03; 0x00; 0x36; 0x11; 0x01; 0xac; 0x87; 0xa3; 0x35; 0xbc; 0x4d; 0xa9; 0xfe; 0x30; 0xe7; 0x01; 0x01; 0x00; 0x00; 0x04; 0x08].

(** The addresses of the machine that was recorded. *)
Definition recorded_mac : bytes := [0xac; 0x87; 0xa3; 0x35; 0xbc; 0x4d].
Definition recorded_ip : N := 0xa9fe30e7.

(** The same datagram sent by a machine with other addresses: they stand at fixed
    places for each of the three kinds, as the columns of the tables show. *)
Definition sent_by (m : bytes) (ip : N) (d : bytes) : bytes :=
  match nth 10 d 0 with
  | 0x00 => firstn 38 d ++ m ++ skipn 44 d
  | 0x02 => firstn 36 d ++ be 4 ip ++ m ++ skipn 46 d
  | _ => firstn 38 d ++ m ++ be 4 ip ++ skipn 48 d
  end.

(** network_inspection.md:33-44, "Player broadcast": the bytes before and after the
    player's number and addresses. *)
Definition recorded_player (number : N) (m : bytes) (ip : N) : bytes :=
  [0x51; 0x73; 0x70; 0x74; 0x31; 0x57; 0x6d; 0x4a; 0x4f; 0x4c; 0x06; 0x00; 0x58; 0x44; 0x4a; 0x2d; 0x37; 0x30; 0x30; 0x00; 0x00; 0x00; 0x00; 0x00; 0x00; 0x00; 0x00; 0x00; 0x00; 0x00; 0x00; 0x00; 0x01; 0x02; 0x00; 0x36]
  ++ [number; 0x01] ++ m ++ be 4 ip
  ++ [0x02; 0x00; 0x00; 0x00; 0x01; 0x00].

(** player_linking.md:9 and 21: what players 1 and 2 send to port 50002 after the
    discovery, and unknown.md:15, the answer of the recorded software. *)
Definition recorded_hello (number : N) : bytes :=
  [0x51; 0x73; 0x70; 0x74; 0x31; 0x57; 0x6d; 0x4a; 0x4f; 0x4c; 0x10; 0x58; 0x44; 0x4a; 0x2d; 0x37; 0x30; 0x30; 0x00; 0x00; 0x00; 0x00; 0x00; 0x00; 0x00; 0x00; 0x00; 0x00; 0x00; 0x00; 0x00; 0x01; 0x00] ++ [number; 0x00; 0x00].
Definition recorded_hello_answer : bytes :=
  [0x51; 0x73; 0x70; 0x74; 0x31; 0x57; 0x6d; 0x4a; 0x4f; 0x4c; 0x11; 0x72; 0x65; 0x6b; 0x6f; 0x72; 0x64; 0x62; 0x6f; 0x78; 0x00; 0x00; 0x00; 0x00; 0x00; 0x00; 0x00; 0x00; 0x00; 0x00; 0x00; 0x01; 0x01; 0x11; 0x01; 0x04; 0x11; 0x01; 0x00; 0x00; 0x00; 0x4a; 0x00; 0x6f; 0x00; 0x6e; 0x00; 0x61; 0x00; 0x73; 0x00; 0x73; 0x00; 0x2d; 0x00; 0x4d; 0x00; 0x42; 0x00; 0x50; 0x00; 0x2d; 0x00; 0x32; 0x00; 0x00; 0x00; 0x00; 0x00; 0x00; 0x00; 0x00; 0x00; 0x00; 0x00; 0x00; 0x00; 0x00; 0x00; 0x00; 0x00; 0x00; 0x00; 0x00; 0x00; 0x00; 0x00; 0x00; 0x00; 0x00; 0x00; 0x00; 0x00; 0x00; 0x00; 0x00; 0x00; 0x00; 0x00; 0x00; 0x00; 0x00; 0x00; 0x00; 0x00; 0x00; 0x00; 0x00; 0x00; 0x00; 0x00; 0x00; 0x00; 0x00; 0x00; 0x00; 0x00; 0x00; 0x00; 0x00; 0x00; 0x00; 0x00; 0x00; 0x00; 0x00; 0x00; 0x00; 0x00; 0x00; 0x00; 0x00; 0x00; 0x00; 0x00; 0x00; 0x00; 0x00; 0x00; 0x00; 0x00; 0x00; 0x00; 0x00; 0x00; 0x00; 0x00; 0x00; 0x00; 0x00; 0x00; 0x00; 0x00; 0x00; 0x00; 0x00; 0x00; 0x00; 0x00; 0x00; 0x00; 0x00; 0x00; 0x00; 0x00; 0x00; 0x00; 0x00; 0x00; 0x00; 0x00; 0x00; 0x00; 0x00; 0x00; 0x00; 0x00; 0x00; 0x00; 0x00; 0x00; 0x00; 0x00; 0x00; 0x00; 0x00; 0x00; 0x00; 0x00; 0x00; 0x00; 0x00; 0x00; 0x00; 0x00; 0x00; 0x00; 0x00; 0x00; 0x00; 0x00; 0x00; 0x00; 0x00; 0x00; 0x00; 0x00; 0x00; 0x00; 0x00; 0x00; 0x00; 0x00; 0x00; 0x00; 0x00; 0x00; 0x00; 0x00; 0x00; 0x00; 0x00; 0x00; 0x00; 0x00; 0x00; 0x00; 0x00; 0x00; 0x00; 0x00; 0x00; 0x00; 0x00; 0x00; 0x00; 0x00; 0x00; 0x00; 0x00; 0x00; 0x00; 0x00; 0x00; 0x00; 0x00; 0x00; 0x00; 0x00; 0x00; 0x00; 0x00; 0x00; 0x00; 0x00; 0x00; 0x00; 0x00; 0x00; 0x00; 0x00; 0x00; 0x00; 0x00; 0x00; 0x00; 0x00; 0x00; 0x00; 0x00; 0x00; 0x00; 0x00; 0x00; 0x00; 0x00; 0x00; 0x00; 0x00; 0x00; 0x00; 0x00; 0x00; 0x00; 0x00; 0x00; 0x00; 0x00; 0x00; 0x00; 0x00; 0x00; 0x00; 0x00; 0x00; 0x00].

(** player_linking.md:38: the answer of 192 bytes to the 48 bytes of a player. *)
Definition recorded_link_answer : bytes :=
  [0x51; 0x73; 0x70; 0x74; 0x31; 0x57; 0x6d; 0x4a; 0x4f; 0x4c; 0x06; 0x72; 0x65; 0x6b; 0x6f; 0x72; 0x64; 0x62; 0x6f; 0x78; 0x00; 0x00; 0x00; 0x00; 0x00; 0x00; 0x00; 0x00; 0x00; 0x00; 0x00; 0x01; 0x01; 0x11; 0x00; 0x9c; 0x00; 0x00; 0x00; 0x11; 0x00; 0x00; 0x00; 0x04; 0x00; 0x72; 0x00; 0x65; 0x00; 0x6b; 0x00; 0x6f; 0x00; 0x72; 0x00; 0x64; 0x00; 0x62; 0x00; 0x6f; 0x00; 0x78; 0x00; 0x00; 0x00; 0x00; 0x00; 0x00; 0x00; 0x00; 0x00; 0x00; 0x00; 0x00; 0x00; 0x00; 0x00; 0x00; 0x00; 0x00; 0x00; 0x00; 0x00; 0x00; 0x00; 0x00; 0x00; 0x00; 0x00; 0x00; 0x00; 0x00; 0x00; 0x00; 0x00; 0x00; 0x00; 0x00; 0x00; 0x00; 0x00; 0x00; 0x00; 0x00; 0x00; 0x00; 0x00; 0x00; 0x00; 0x00; 0x00; 0x00; 0x00; 0x00; 0x00; 0x00; 0x00; 0x00; 0x00; 0x00; 0x00; 0x00; 0x00; 0x00; 0x00; 0x00; 0x00; 0x00; 0x00; 0x00; 0x00; 0x00; 0x00; 0x00; 0x00; 0x00; 0x00; 0x00; 0x00; 0x00; 0x00; 0x00; 0x00; 0x00; 0x00; 0x00; 0x00; 0x00; 0x00; 0x00; 0x00; 0x00; 0x00; 0x00; 0x00; 0x00; 0x00; 0x00; 0x00; 0x00; 0x00; 0x00; 0x00; 0x00; 0x00; 0x00; 0x04; 0x1b; 0x00; 0x00; 0x01; 0x01; 0x00; 0x00; 0x00; 0x5e; 0x00; 0x00; 0x00; 0x00; 0x00; 0x00; 0x00; 0x00; 0x00; 0x00; 0x00; 0x00; 0x00; 0x00; 0x00; 0x00].

(** portmapping.md:7-21, the recorded call for the port of the mount service, and
    26-35, the answer; 54-62, the call for the export list, and 98-110, the answer. *)
Definition recorded_credentials (stamp : N) : bytes :=
  [0x00; 0x00; 0x00; 0x01; 0x00; 0x00; 0x00; 0x14] ++ be 4 stamp ++
  [0x00; 0x00; 0x00; 0x00; 0x00; 0x00; 0x00; 0x00; 0x00; 0x00; 0x00; 0x00; 0x00; 0x00; 0x00; 0x00;
   0x00; 0x00; 0x00; 0x00; 0x00; 0x00; 0x00; 0x00].
Definition recorded_getport (xid stamp : N) : bytes :=
  be 4 xid ++
  [0x00; 0x00; 0x00; 0x00; 0x00; 0x00; 0x00; 0x02; 0x00; 0x01; 0x86; 0xa0; 0x00; 0x00; 0x00; 0x02; 0x00; 0x00; 0x00; 0x03] ++
  recorded_credentials stamp ++
  [0x00; 0x01; 0x86; 0xa5; 0x00; 0x00; 0x00; 0x01; 0x00; 0x00; 0x00; 0x11; 0x00; 0x00; 0x00; 0x00].
Definition recorded_reply (xid : N) : bytes :=
  be 4 xid ++
  [0x00; 0x00; 0x00; 0x01; 0x00; 0x00; 0x00; 0x00; 0x00; 0x00; 0x00; 0x00; 0x00; 0x00; 0x00; 0x00; 0x00; 0x00; 0x00; 0x00].
Definition recorded_getport_answer (xid port : N) : bytes := recorded_reply xid ++ be 4 port.
Definition recorded_export (xid stamp : N) : bytes :=
  be 4 xid ++
  [0x00; 0x00; 0x00; 0x00; 0x00; 0x00; 0x00; 0x02; 0x00; 0x01; 0x86; 0xa5; 0x00; 0x00; 0x00; 0x01; 0x00; 0x00; 0x00; 0x05] ++
  recorded_credentials stamp.
Definition recorded_export_answer (xid : N) : bytes := recorded_reply xid ++ [0x00; 0x00; 0x00; 0x00].
