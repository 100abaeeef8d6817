(** The repository's own unit tests, run on the model.

    These are examples, not theorems about all inputs: each one restates a test
    of the repository with the same bytes, and shows that the model computes the
    value the test asks for.  They check the model against what its authors
    recorded of the program; the claims are in the P files.

    The tests left out: [test_controller_trait] (library.rs) is about a
    controller defined in the test; the three dialogs in library.rs need music in
    ./test/music, which is not in the repository (their requests are below: on
    the model they cannot pass whatever the music is); [it_can_insert_artists]
    (database.rs) and [build_discovery_sequence] (packets.rs) assert nothing;
    [export_mount_service] (rpc/server.rs) is not marked as a test. *)

From Verif Require Import Base Unicode MDb MDatabase MFixtures MLib MPackets MKeepalive MNetwork
  MServer MRpc.
From Coq Require Import String ZArith.
Open Scope string_scope.
Open Scope list_scope.
Open Scope N_scope.

(** src/rekordbox/packets.rs:746-751, [extract_magic_from_db_message]. The model returns no value for the matched bytes; they are the constant one. *)
Example test_extract_magic_from_db_message :
  parse_magic [0x11; 0x87; 0x23; 0x49; 0xae; 0x11] = Ok ([0x11], tt).
Proof. vm_compute; reflexivity. Qed.

(** src/rekordbox/packets.rs:754-767, [parse_transaction_id]. *)
Example test_parse_transaction_id :
  parse_transaction_id [0x11; 0x00; 0x00; 0x00; 0x01; 0x20]
    = Ok ([0x20], field_of_4 [0x00; 0x00; 0x00; 0x01])
  /\ parse_transaction_id [0x11; 0x00; 0x00; 0x01; 0x00; 0x20]
    = Ok ([0x20], mkField FU32 [0x00; 0x00; 0x01; 0x00])
  /\ parse_transaction_id [0x11; 0x05; 0x80; 0x00; 0x32; 0x20; 0x21]
    = Ok ([0x20; 0x21], mkField FU32 [0x05; 0x80; 0x00; 0x32]).
Proof. vm_compute; repeat split. Qed.

(** src/rekordbox/packets.rs:770-787, [parse_request_types]. *)
Example test_parse_request_types :
  parse_request_type [0x10; 0x00; 0x00] = Ok ([], Setup)
  /\ parse_request_type [0x10; 0x00; 0x00; 0x00] = Ok ([0x00], Setup)
  /\ parse_request_type [0x10; 0x00; 0xff] = Ok ([], UnknownRequest 255).
Proof. vm_compute; repeat split. Qed.

(** src/rekordbox/packets.rs:790-795, [verify_title_request_parsing]. *)
Example test_verify_title_request_parsing :
  parse_request_type [0x10; 0x10; 0x04] = Ok ([], TitleRequest).
Proof. vm_compute; reflexivity. Qed.

(** src/rekordbox/packets.rs:798-803, [verify_album_by_artist_request]. *)
Example test_verify_album_by_artist_request :
  parse_request_type [0x10; 0x11; 0x02] = Ok ([], AlbumByArtistRequest).
Proof. vm_compute; reflexivity. Qed.

(** src/rekordbox/fixtures.rs:251-270, [setup_request_packet] and
    [setup_response_packet]. *)
Definition setup_request : bytes :=
    [17; 135; 35; 73; 174; 17; 255; 255; 255; 254; 16; 0; 0; 15; 1; 20; 0; 0; 0; 12; 6;
     0; 0; 0; 0; 0; 0; 0; 0; 0; 0; 0; 17; 0; 0; 0; 2].
Definition setup_response : bytes :=
    [17; 135; 35; 73; 174; 17; 255; 255; 255; 254; 16; 64; 0; 15; 2; 20; 0; 0; 0; 12;
     6; 6; 0; 0; 0; 0; 0; 0; 0; 0; 0; 0; 17; 0; 0; 0; 0; 17; 0; 0; 0; 17].

(** src/rekordbox/packets.rs:806-809, [dbmessage_setup_request_and_response]. *)
Example test_dbmessage_setup_request_and_response :
  exists m, parse_message Checked setup_request = Ok ([], m) /\ m_request_type m = Setup.
Proof. vm_compute; eexists; split; reflexivity. Qed.

(** src/rekordbox/packets.rs:812-817, [parse_test_library_handler]. The model does not keep what an error says. *)
Example test_parse_test_library_handler :
  parse_message Checked [0x11; 0x00; 0x00; 0x00; 0x01] = Err.
Proof. vm_compute; reflexivity. Qed.

(** src/rekordbox/packets.rs:820-833, [parse_dbmessage]. *)
Example test_parse_dbmessage :
  let m := mkMessage (field_of_4 [0x05; 0x80; 0x00; 0x32]) RootMenuRequest
             [field_of_4 [0x02; 0x01; 0x04; 0x01]; field_of_u32 0;
              field_of_4 [0x00; 0xff; 0xff; 0xff]] in
  parse_message Checked (message_encode m) = Ok ([], m).
Proof. vm_compute; reflexivity. Qed.

(** src/rekordbox/packets.rs:836-844, [try_parse_dbmessage_with_broken_magic]. *)
Example test_try_parse_dbmessage_with_broken_magic :
  parse_message Checked [0x49; 0xae; 0x11; 0x05; 0x80] = Err.
Proof. vm_compute; reflexivity. Qed.

(** src/rekordbox/packets.rs:847-854, [encode_db_field_to_bytes]. *)
Example test_encode_db_field_to_bytes :
  field_as_bytes (field_of_u8 0x32) = [0x0f; 0x32]
  /\ field_as_bytes (field_of_2 [0x12; 0x13]) = [0x10; 0x12; 0x13]
  /\ field_as_bytes (field_of_4 [0x00; 0x00; 0x00; 0x01]) = [0x11; 0x00; 0x00; 0x00; 0x01].
Proof. vm_compute; repeat split. Qed.

(** src/rekordbox/packets.rs:857-884, [test_binary_parsing]. *)
Example test_test_binary_parsing :
  parse_message Checked
    [17; 135; 35; 73; 174; 17; 5; 128; 0; 30; 16; 32; 4; 15; 1; 20; 0; 0; 0; 12; 3; 0;
     0; 0; 0; 0; 0; 0; 0; 0; 0; 0; 0; 0; 0; 56; 56; 0; 0; 0; 0; 0; 1; 0; 0; 0; 232; 3;
     155; 42; 1; 0; 255; 255; 255; 255; 0; 0; 0; 0; 0; 0; 0; 0; 0; 0; 0; 0; 255; 255;
     255; 255; 0; 0; 0; 0; 0; 0; 0; 0; 0; 0; 0; 0; 0; 0; 0; 0; 0; 0; 0; 0]
  = Ok ([], mkMessage (field_of_4 [0x05; 0x80; 0x00; 0x1e]) PreviewWaveformRequest
              [field_of_binary
                 [56; 0; 0; 0; 0; 0; 1; 0; 0; 0; 232; 3; 155; 42; 1; 0; 255; 255; 255;
                  255; 0; 0; 0; 0; 0; 0; 0; 0; 0; 0; 0; 0; 255; 255; 255; 255; 0; 0; 0;
                  0; 0; 0; 0; 0; 0; 0; 0; 0; 0; 0; 0; 0; 0; 0; 0; 0]]).
Proof. vm_compute; reflexivity. Qed.

(** src/rekordbox/packets.rs:887-911, [parse_packet_with_missing_binary_argument]. *)
Example test_parse_packet_with_missing_binary_argument :
  parse_message Checked
    [17; 135; 35; 73; 174; 17; 5; 128; 0; 81; 16; 32; 4; 15; 5; 20; 0; 0; 0; 12; 6; 6;
     6; 6; 3; 0; 0; 0; 0; 0; 0; 0; 17; 1; 8; 4; 1; 17; 0; 0; 0; 4; 17; 0; 0; 0; 5; 17;
     0; 0; 0; 0]
  = Ok ([], mkMessage (field_of_4 [0x05; 0x80; 0x00; 0x51]) PreviewWaveformRequest
              [field_of_4 [0x01; 0x08; 0x04; 0x01]; field_of_4 [0x00; 0x00; 0x00; 0x04];
               field_of_4 [0x00; 0x00; 0x00; 0x05]; field_of_4 [0x00; 0x00; 0x00; 0x00];
               field_of_binary []]).
Proof. vm_compute; reflexivity. Qed.

(** src/rekordbox/packets.rs:914-926, [decode_link_query]. *)
Example test_decode_link_query :
  status_packet_decode
    [81; 115; 112; 116; 49; 87; 109; 74; 79; 76; 5; 88; 68; 74; 45; 55; 48; 48; 0; 0;
     0; 0; 0; 0; 0; 0; 0; 0; 0; 0; 0; 1; 0; 1; 0; 12; 192; 168; 10; 58; 0; 0; 0; 17; 0;
     0; 0; 4]
  = Ok ([], mkStatusPacket KLinkQuery (lit "XDJ-700") 0 1
              (SLinkQuery (mkLinkQuery (of_be [192; 168; 10; 58]) 17 SlotRekordbox))).
Proof. vm_compute; reflexivity. Qed.

(** src/rekordbox/packets.rs:929-937, [decode_rekordbox_hello]. *)
Example test_decode_rekordbox_hello :
  status_packet_decode
    [81; 115; 112; 116; 49; 87; 109; 74; 79; 76; 16; 88; 68; 74; 45; 55; 48; 48; 0; 0;
     0; 0; 0; 0; 0; 0; 0; 0; 0; 0; 0; 1; 0; 1]
  = Ok ([], mkStatusPacket KRekordboxHello (lit "XDJ-700") 0 1 SRekordboxHello).
Proof. vm_compute; reflexivity. Qed.

(** src/rekordbox/packets.rs:940-991, [encode_rekordbox_reply]. *)
Example test_encode_rekordbox_reply :
  status_packet_encode
    (mkStatusPacket KRekordboxReply (lit "Linux") 1 1 (SRekordboxReply (lit "Term DJ")))
  = Ok
    [81; 115; 112; 116; 49; 87; 109; 74; 79; 76; 17; 76; 105; 110; 117; 120; 0; 0; 0;
     0; 0; 0; 0; 0; 0; 0; 0; 0; 0; 0; 0; 1; 1; 17; 1; 4; 17; 1; 0; 0; 0; 84; 0; 101; 0;
     114; 0; 109; 0; 32; 0; 68; 0; 74; 0; 0; 0; 0; 0; 0; 0; 0; 0; 0; 0; 0; 0; 0; 0; 0;
     0; 0; 0; 0; 0; 0; 0; 0; 0; 0; 0; 0; 0; 0; 0; 0; 0; 0; 0; 0; 0; 0; 0; 0; 0; 0; 0;
     0; 0; 0; 0; 0; 0; 0; 0; 0; 0; 0; 0; 0; 0; 0; 0; 0; 0; 0; 0; 0; 0; 0; 0; 0; 0; 0;
     0; 0; 0; 0; 0; 0; 0; 0; 0; 0; 0; 0; 0; 0; 0; 0; 0; 0; 0; 0; 0; 0; 0; 0; 0; 0; 0;
     0; 0; 0; 0; 0; 0; 0; 0; 0; 0; 0; 0; 0; 0; 0; 0; 0; 0; 0; 0; 0; 0; 0; 0; 0; 0; 0;
     0; 0; 0; 0; 0; 0; 0; 0; 0; 0; 0; 0; 0; 0; 0; 0; 0; 0; 0; 0; 0; 0; 0; 0; 0; 0; 0;
     0; 0; 0; 0; 0; 0; 0; 0; 0; 0; 0; 0; 0; 0; 0; 0; 0; 0; 0; 0; 0; 0; 0; 0; 0; 0; 0;
     0; 0; 0; 0; 0; 0; 0; 0; 0; 0; 0; 0; 0; 0; 0; 0; 0; 0; 0; 0; 0; 0; 0; 0; 0; 0; 0;
     0; 0; 0; 0; 0; 0; 0; 0; 0; 0; 0; 0; 0; 0; 0; 0; 0; 0; 0; 0; 0; 0; 0; 0; 0; 0; 0;
     0; 0; 0; 0; 0; 0; 0; 0; 0; 0].
Proof. vm_compute; reflexivity. Qed.

(** src/rekordbox/packets.rs:1008-1053, [encode_linking_reply]. *)
Example test_encode_linking_reply :
  status_packet_encode
    (mkStatusPacket KLinkReply (lit "rekordbox") 1 1
       (SLinkReply (mkLinkReply 0x11 SlotRekordbox (mkFixed (lit "rekordbox") 64)
                      (mkFixed (lit "") 24) (mkFixed (lit "") 32) 1051 0 257 94 0 0)))
  = Ok
    [81; 115; 112; 116; 49; 87; 109; 74; 79; 76; 6; 114; 101; 107; 111; 114; 100; 98;
     111; 120; 0; 0; 0; 0; 0; 0; 0; 0; 0; 0; 0; 1; 1; 17; 0; 156; 0; 0; 0; 17; 0; 0; 0;
     4; 0; 114; 0; 101; 0; 107; 0; 111; 0; 114; 0; 100; 0; 98; 0; 111; 0; 120; 0; 0; 0;
     0; 0; 0; 0; 0; 0; 0; 0; 0; 0; 0; 0; 0; 0; 0; 0; 0; 0; 0; 0; 0; 0; 0; 0; 0; 0; 0;
     0; 0; 0; 0; 0; 0; 0; 0; 0; 0; 0; 0; 0; 0; 0; 0; 0; 0; 0; 0; 0; 0; 0; 0; 0; 0; 0;
     0; 0; 0; 0; 0; 0; 0; 0; 0; 0; 0; 0; 0; 0; 0; 0; 0; 0; 0; 0; 0; 0; 0; 0; 0; 0; 0;
     0; 0; 0; 0; 0; 0; 0; 0; 0; 0; 0; 0; 0; 0; 0; 0; 0; 0; 0; 0; 4; 27; 0; 0; 1; 1; 0;
     0; 0; 94; 0; 0; 0; 0; 0; 0; 0; 0; 0; 0; 0; 0; 0; 0; 0; 0].
Proof. vm_compute; reflexivity. Qed.

(** src/rekordbox/packets.rs:1056-1069, [build_term_dj_status_message]. *)
Example test_build_term_dj_status_message :
  exists p, status_packet_try_from
    [81; 115; 112; 116; 49; 87; 109; 74; 79; 76; 41; 114; 101; 107; 111; 114; 100; 98;
     111; 120; 0; 0; 0; 0; 0; 0; 0; 0; 0; 0; 0; 1; 1; 17; 0; 56; 17; 0; 0; 192; 0; 16;
     0; 0; 0; 0; 0; 0; 0; 16; 0; 0; 0; 9; 255; 0]
  = Ok p.
Proof. vm_compute; eexists; reflexivity. Qed.

(** src/rekordbox/packets.rs:1072-1097, [it_can_decode_arguments_into_argument_collection]. *)
Example test_it_can_decode_arguments_into_argument_collection :
  item_fields (mkItem 1 2 3 0 (lit "Loopmasters") (lit "") ARTIST)
  = [field_of_u32 1; field_of_u32 2; field_of_u32 0x18; field_of_str (lit "Loopmasters");
     field_of_u32 2; field_of_str (lit ""); field_of_u32 ARTIST; field_of_u32 0;
     field_of_u32 3; field_of_u32 0; field_of_u32 0; field_of_u32 0].
Proof. vm_compute; reflexivity. Qed.

(** src/rekordbox/packets.rs:1100-1127, [it_can_build_mount_info_package]. *)
Example test_it_can_build_mount_info_package :
  exists r, parse_message Checked
    [17; 135; 35; 73; 174; 17; 5; 128; 4; 82; 16; 65; 1; 15; 12; 20; 0; 0; 0; 12; 6; 6;
     6; 2; 6; 2; 6; 6; 6; 6; 6; 6; 17; 0; 86; 216; 211; 17; 0; 0; 0; 107; 17; 0; 0; 0;
     250; 38; 0; 0; 0; 125; 0; 47; 0; 86; 0; 111; 0; 108; 0; 117; 0; 109; 0; 101; 0;
     115; 0; 47; 0; 109; 0; 117; 0; 122; 0; 105; 0; 107; 0; 97; 0; 47; 0; 105; 0; 84;
     0; 117; 0; 110; 0; 101; 0; 115; 0; 47; 0; 105; 0; 84; 0; 117; 0; 110; 0; 101; 0;
     115; 0; 32; 0; 77; 0; 101; 0; 100; 0; 105; 0; 97; 0; 47; 0; 77; 0; 117; 0; 115; 0;
     105; 0; 99; 0; 47; 0; 83; 0; 119; 0; 101; 0; 100; 0; 105; 0; 115; 0; 104; 0; 32;
     0; 72; 0; 111; 0; 117; 0; 115; 0; 101; 0; 32; 0; 77; 0; 97; 0; 102; 0; 105; 0; 97;
     0; 32; 0; 118; 0; 115; 0; 32; 0; 75; 0; 110; 0; 105; 0; 102; 0; 101; 0; 32; 0; 80;
     0; 97; 0; 114; 0; 116; 0; 121; 0; 47; 0; 78; 0; 111; 0; 119; 0; 32; 0; 84; 0; 104;
     0; 97; 0; 116; 0; 39; 0; 115; 0; 32; 0; 87; 0; 104; 0; 97; 0; 116; 0; 32; 0; 73;
     0; 32; 0; 67; 0; 97; 0; 108; 0; 108; 0; 32; 0; 77; 0; 117; 0; 115; 0; 105; 0; 99;
     0; 32; 0; 56; 0; 49; 0; 47; 0; 51; 0; 49; 0; 32; 0; 65; 0; 110; 0; 116; 0; 105; 0;
     100; 0; 111; 0; 116; 0; 101; 0; 46; 0; 109; 0; 112; 0; 51; 0; 0; 17; 0; 0; 0; 2;
     38; 0; 0; 0; 1; 0; 0; 17; 0; 0; 0; 0; 17; 0; 0; 0; 0; 17; 0; 0; 0; 0; 17; 0; 0; 0;
     0; 17; 0; 0; 0; 0; 17; 0; 0; 0; 0]
  = Ok r.
Proof. vm_compute; eexists; reflexivity. Qed.

(** src/rpc/packets.rs:1046-1087, [test_decoding_portmap_nfs_call]. *)
Example test_test_decoding_portmap_nfs_call :
  rpc_decode
    [0; 0; 1; 3; 0; 0; 0; 0; 0; 0; 0; 2; 0; 1; 134; 160; 0; 0; 0; 2; 0; 0; 0; 3; 0; 0;
     0; 1; 0; 0; 0; 20; 37; 55; 145; 44; 0; 0; 0; 0; 0; 0; 0; 0; 0; 0; 0; 0; 0; 0; 0;
     0; 0; 0; 0; 0; 0; 0; 0; 0; 0; 1; 134; 163; 0; 0; 0; 2; 0; 0; 0; 17; 0; 0; 0; 0]
  = Ok ([], mkRpc 259 (Call (mkCall 2 Portmap 2
              (PortmapGetport (mkGetport 2 Nfs ProtoUdp 0))
              (mkCred 1 20 624398636 0 0 0 0) AuthNull))).
Proof. vm_compute; reflexivity. Qed.

(** src/rpc/packets.rs:1090-1131, [test_decoding_portmap_getport_call]. *)
Example test_test_decoding_portmap_getport_call :
  rpc_decode
    [0; 0; 0; 21; 0; 0; 0; 0; 0; 0; 0; 2; 0; 1; 134; 160; 0; 0; 0; 2; 0; 0; 0; 3; 0; 0;
     0; 1; 0; 0; 0; 20; 254; 201; 152; 17; 0; 0; 0; 0; 0; 0; 0; 0; 0; 0; 0; 0; 0; 0; 0;
     0; 0; 0; 0; 0; 0; 0; 0; 0; 0; 1; 134; 165; 0; 0; 0; 1; 0; 0; 0; 17; 0; 0; 0; 0]
  = Ok ([], mkRpc 21 (Call (mkCall 2 Portmap 2
              (PortmapGetport (mkGetport 1 Mount ProtoUdp 0))
              (mkCred 1 20 4274624529 0 0 0 0) AuthNull))).
Proof. vm_compute; reflexivity. Qed.

(** src/rpc/packets.rs:1134-1155, [test_encoding_portmap_getport_reply]. *)
Example test_test_encoding_portmap_getport_reply :
  rpc_bytes (mkRpc 21 (Reply (mkReply AuthNull (PortmapGetportReply 36251))))
  =
    [0; 0; 0; 21; 0; 0; 0; 1; 0; 0; 0; 0; 0; 0; 0; 0; 0; 0; 0; 0; 0; 0; 0; 0; 0; 0;
     141; 155].
Proof. vm_compute; reflexivity. Qed.

(** src/rpc/packets.rs:1158-1183, [test_decoding_mount_export_call]. *)
Example test_test_decoding_mount_export_call :
  rpc_decode
    [0; 0; 0; 12; 0; 0; 0; 0; 0; 0; 0; 2; 0; 1; 134; 165; 0; 0; 0; 1; 0; 0; 0; 5; 0; 0;
     0; 1; 0; 0; 0; 20; 176; 182; 49; 20; 0; 0; 0; 0; 0; 0; 0; 0; 0; 0; 0; 0; 0; 0; 0;
     0; 0; 0; 0; 0; 0; 0; 0; 0]
  = Ok ([], mkRpc 12 (Call (mkCall 2 Mount 1
              MountExport
              (mkCred 1 20 2964730132 0 0 0 0) AuthNull))).
Proof. vm_compute; reflexivity. Qed.

(** src/rpc/packets.rs:1187-1222, [test_encoding_mount_export_reply]. *)
Example test_test_encoding_mount_export_reply :
  rpc_bytes (mkRpc 22 (Reply (mkReply AuthNull
     (MountExportReply [mkExport (lit "/C/") [lit "192.168.10.5/255.255.255.0"]]))))
  =
    [0; 0; 0; 22; 0; 0; 0; 1; 0; 0; 0; 0; 0; 0; 0; 0; 0; 0; 0; 0; 0; 0; 0; 0; 0; 0; 0;
     1; 0; 0; 0; 6; 47; 0; 67; 0; 47; 0; 0; 0; 0; 0; 0; 1; 0; 0; 0; 26; 49; 57; 50; 46;
     49; 54; 56; 46; 49; 48; 46; 53; 47; 50; 53; 53; 46; 50; 53; 53; 46; 50; 53; 53;
     46; 48; 0; 0; 0; 0; 0; 0; 0; 0; 0; 0].
Proof. vm_compute; reflexivity. Qed.

(** src/rpc/packets.rs:1225-1254, [test_decoding_mount_mnt_call]. *)
Example test_test_decoding_mount_mnt_call :
  rpc_decode
    [0; 0; 0; 22; 0; 0; 0; 0; 0; 0; 0; 2; 0; 1; 134; 165; 0; 0; 0; 1; 0; 0; 0; 1; 0; 0;
     0; 1; 0; 0; 0; 20; 176; 140; 225; 4; 0; 0; 0; 0; 0; 0; 0; 0; 0; 0; 0; 0; 0; 0; 0;
     0; 0; 0; 0; 0; 0; 0; 0; 0; 0; 0; 0; 6; 47; 0; 67; 0; 47; 0; 0; 17]
  = Ok ([], mkRpc 22 (Call (mkCall 2 Mount 1
              (MountMnt [lit "/C/"])
              (mkCred 1 20 2962022660 0 0 0 0) AuthNull))).
Proof. vm_compute; reflexivity. Qed.

(** src/rpc/packets.rs:1257-1283, [test_encoding_mount_mnt_reply]. *)
Example test_test_encoding_mount_mnt_reply :
  rpc_bytes (mkRpc 25 (Reply (mkReply AuthNull (MountMntReply 0 (repeat 0 32)))))
  =
    [0; 0; 0; 25; 0; 0; 0; 1; 0; 0; 0; 0; 0; 0; 0; 0; 0; 0; 0; 0; 0; 0; 0; 0; 0; 0; 0;
     0; 0; 0; 0; 0; 0; 0; 0; 0; 0; 0; 0; 0; 0; 0; 0; 0; 0; 0; 0; 0; 0; 0; 0; 0; 0; 0;
     0; 0; 0; 0; 0; 0].
Proof. vm_compute; reflexivity. Qed.

(** src/rpc/packets.rs:1286-1290, [it_can_decode_lookup_call]. *)
Example test_it_can_decode_lookup_call :
  exists r, rpc_decode
    [0; 0; 0; 34; 0; 0; 0; 0; 0; 0; 0; 2; 0; 1; 134; 163; 0; 0; 0; 2; 0; 0; 0; 4; 0; 0;
     0; 1; 0; 0; 0; 20; 240; 188; 113; 7; 0; 0; 0; 0; 0; 0; 0; 0; 0; 0; 0; 0; 0; 0; 0;
     0; 0; 0; 0; 0; 0; 0; 0; 0; 0; 0; 0; 0; 0; 0; 0; 0; 0; 0; 0; 0; 3; 1; 0; 0; 0; 0;
     27; 88; 0; 0; 0; 0; 17; 4; 1; 0; 0; 0; 0; 5; 0; 0; 0; 10; 85; 0; 115; 0; 101; 0;
     114; 0; 115; 0; 0; 0]
  = Ok r.
Proof. vm_compute; eexists; reflexivity. Qed.

(** src/rpc/packets.rs:1293-1303, [it_can_encode_nfs_lookup_reply]. The times are the moment the test runs. *)
Example test_it_can_encode_nfs_lookup_reply :
  forall atime mtime ctime, len (reply_message_bytes (NfsLookupReply (repeat 0 32)
    (mkAttr TFile [0; 0; 0; 0] 0 0 0 0 0 0 0 0 0 atime mtime ctime))) = 104.
Proof.
  intros. cbn [reply_message_bytes]. unfold len, attributes_bytes, time_bytes.
  repeat rewrite app_length. cbn [at_atime at_mtime at_ctime].
  destruct (0 <=? atime)%Z, (0 <=? mtime)%Z, (0 <=? ctime)%Z;
    repeat rewrite app_length; repeat rewrite skipn_length; reflexivity.
Qed.

(** src/rekordbox/db_message_argument.rs:219-229, [PARTIAL_RAW_MESSAGE], and the
    fields it stands for. *)
Definition partial_raw_message : bytes :=
    [15; 7; 20; 0; 0; 0; 12; 6; 5; 4; 6; 6; 6; 2; 0; 0; 0; 0; 0; 17; 2; 2; 4; 1; 16; 0;
     0; 15; 0; 17; 0; 0; 0; 1; 17; 0; 0; 0; 2; 17; 0; 0; 0; 3; 38; 0; 0; 0; 8; 0; 85;
     0; 110; 0; 107; 0; 110; 0; 111; 0; 119; 0; 110; 0; 0].
Definition unknown_text : bytes := [0; 0x55; 0; 0x6e; 0; 0x6b; 0; 0x6e; 0; 0x6f; 0; 0x77; 0; 0x6e].
Definition partial_fields : list field :=
  [mkField FU32 [2; 2; 4; 1]; mkField FU16 [0; 0]; mkField FU8 [0]; mkField FU32 [0; 0; 0; 1];
   mkField FU32 [0; 0; 0; 2]; mkField FU32 [0; 0; 0; 3]; mkField FString unknown_text].

(** src/rekordbox/db_message_argument.rs:233-247, [test_decoding_string_argument]. *)
Example test_test_decoding_string_argument :
  argument_decode Checked FString
    [0x26; 0x00; 0x00; 0x00; 0x08; 0x00; 0x55; 0x00; 0x6e; 0x00; 0x6b; 0x00;
     0x6e; 0x00; 0x6f; 0x00; 0x77; 0x00; 0x6e; 0x00; 0x00]
  = Ok ([], mkField FString unknown_text).
Proof. vm_compute; reflexivity. Qed.

(** src/rekordbox/db_message_argument.rs:250-269, [test_decoding_from_raw_data_to_argument_collection]. *)
Example test_test_decoding_from_raw_data_to_argument_collection :
  arguments_decode Checked partial_raw_message = Ok ([], partial_fields).
Proof. vm_compute; reflexivity. Qed.

(** src/rekordbox/db_message_argument.rs:272-293, [test_encode_from_argument_collection_to_raw_bytes]. *)
Example test_test_encode_from_argument_collection_to_raw_bytes :
  arguments_encode partial_fields = partial_raw_message.
Proof. vm_compute; reflexivity. Qed.

(** src/rekordbox/db_field.rs:155-167, [string_decode_and_encode]. *)
Example test_string_decode_and_encode :
  field_of_str (lit "Loopmasters") = mkField FString
    [0; 76; 0; 111; 0; 111; 0; 112; 0; 109; 0; 97; 0; 115; 0; 116; 0; 101; 0; 114; 0;
     115]
  /\ field_as_bytes (field_of_str (lit "Loopmasters")) =
    [38; 0; 0; 0; 12; 0; 76; 0; 111; 0; 111; 0; 112; 0; 109; 0; 97; 0; 115; 0; 116; 0;
     101; 0; 114; 0; 115; 0; 0].
Proof. vm_compute; split; reflexivity. Qed.

(** src/rekordbox/db_field.rs:170-182, [string_artist_argument]. *)
Example test_string_artist_argument :
  field_of_str ([0xfffa] ++ lit "ARTIST" ++ [0xfffb]) = mkField FString
    [255; 250; 0; 65; 0; 82; 0; 84; 0; 73; 0; 83; 0; 84; 255; 251]
  /\ field_as_bytes (field_of_str ([0xfffa] ++ lit "ARTIST" ++ [0xfffb])) =
    [38; 0; 0; 0; 9; 255; 250; 0; 65; 0; 82; 0; 84; 0; 73; 0; 83; 0; 84; 255; 251; 0; 0].
Proof. vm_compute; split; reflexivity. Qed.

(** src/rekordbox/db_field.rs:185-197, [string_history_argument]. *)
Example test_string_history_argument :
  field_of_str ([0xfffa] ++ lit "HISTORY" ++ [0xfffb]) = mkField FString
    [255; 250; 0; 72; 0; 73; 0; 83; 0; 84; 0; 79; 0; 82; 0; 89; 255; 251]
  /\ field_as_bytes (field_of_str ([0xfffa] ++ lit "HISTORY" ++ [0xfffb])) =
    [38; 0; 0; 0; 10; 255; 250; 0; 72; 0; 73; 0; 83; 0; 84; 0; 79; 0; 82; 0; 89; 255;
     251; 0; 0].
Proof. vm_compute; split; reflexivity. Qed.

(** src/rekordbox/db_field.rs:200-204, [empty_string_argument]. *)
Example test_empty_string_argument :
  field_of_str (lit "") = mkField FString
    []
  /\ field_as_bytes (field_of_str (lit "")) =
    [38; 0; 0; 0; 1; 0; 0].
Proof. vm_compute; split; reflexivity. Qed.

(** src/rekordbox/db_field.rs:207-230, [binary_to_dbfield]. *)
Example test_binary_to_dbfield :
  forall fixture, fixture =
    [56; 0; 0; 0; 0; 0; 1; 0; 0; 0; 232; 3; 155; 42; 1; 0; 255; 255; 255; 255; 0; 0; 0;
     0; 0; 0; 0; 0; 0; 0; 0; 0; 255; 255; 255; 255; 0; 0; 0; 0; 0; 0; 0; 0; 0; 0; 0; 0;
     0; 0; 0; 0; 0; 0; 0; 0] ->
  field_as_bytes (field_of_binary fixture) = [0x14; 0x00; 0x00; 0x00; 0x38] ++ fixture.
Proof. intros; subst; reflexivity. Qed.

(** src/rekordbox/keepalive.rs:703-726, [test_mac_iteration]. *)
Example test_test_mac_iteration :
  ka_encode (mkKa KaMac SubMac (lit "rekordbox") 1 DevRekordbox
               (CMac 1 4 [0xac; 0x87; 0xa3; 0x35; 0xbc; 0x4d]))
  = Ok
    [81; 115; 112; 116; 49; 87; 109; 74; 79; 76; 0; 0; 114; 101; 107; 111; 114; 100;
     98; 111; 120; 0; 0; 0; 0; 0; 0; 0; 0; 0; 0; 0; 1; 3; 0; 44; 1; 4; 172; 135; 163;
     53; 188; 77].
Proof. vm_compute; reflexivity. Qed.

(** src/rekordbox/keepalive.rs:729-750, [test_keepalive_status_packet]. *)
Example test_test_keepalive_status_packet :
  exists b, ka_encode (mkKa KaStatus SubStatus (lit "Linux") 1 DevRekordbox
              (CStatus 17 1 [0xff; 0xff; 0xff; 0xff; 0xff; 0xff] (of_be [192; 168; 10; 50]) 1 4 1))
            = Ok b /\ len b = 54.
Proof. vm_compute; eexists; split; reflexivity. Qed.

(** src/rekordbox/keepalive.rs:753-777, [test_decode_keepalive_ip_package]. *)
Example test_test_decode_keepalive_ip_package :
  exists rest, ka_decode
    [81; 115; 112; 116; 49; 87; 109; 74; 79; 76; 2; 0; 114; 101; 107; 111; 114; 100;
     98; 111; 120; 0; 0; 0; 0; 0; 0; 0; 0; 0; 0; 0; 1; 3; 0; 50; 192; 168; 10; 47; 156;
     182; 208; 238; 255; 9; 44; 6; 4; 1]
  = Ok (rest, mkKa KaIp SubIp (lit "rekordbox") 1 DevRekordbox
               (CIp (of_be [192; 168; 10; 47]) [0x9c; 0xb6; 0xd0; 0xee; 0xff; 0x09] 44 6 AssignAuto)).
Proof. vm_compute; eexists; reflexivity. Qed.

(** src/rekordbox/player.rs:115-125, [it_support_pushing]. The program pushes only through [add_or_update]. *)
Example test_it_support_pushing :
  len (add_or_update [] (mkPlayer (lit "XDJ-700") (of_be [1; 0; 0; 1]) 1 false)) = 1.
Proof. vm_compute; reflexivity. Qed.

(** src/rekordbox/player.rs:128-165, [it_can_update_matching_players]. *)
Example test_it_can_update_matching_players :
  let xdj ip n l := mkPlayer (lit "XDJ-700") (of_be ip) n l in
  let p1 := [xdj [1; 0; 0; 1] 1 false] in
  let p2 := add_or_update p1 (xdj [1; 0; 0; 1] 2 false) in
  let p3 := add_or_update p2 (xdj [1; 0; 0; 1] 2 true) in
  let p4 := add_or_update p3 (xdj [1; 0; 0; 5] 3 false) in
  (len p2 = 1 /\ map pl_number p2 = [2])
  /\ (len p3 = 1 /\ map pl_linking p3 = [true])
  /\ (len p4 = 2 /\ map pl_number p4 = [2; 3]).
Proof. vm_compute; repeat split. Qed.

(** src/utils/network.rs:67-125, [interfaces]. *)
Definition test_interfaces : list iface :=
  [mkIface (Some [0; 0x45; 0xcb; 0x9a; 0xa5; 0x0b])
     [V4 (mkNet (of_be [0xc0; 0xa8; 0x0a; 0x32]) 24); V6];
   mkIface (Some [0; 0x45; 0xcb; 0x9a; 0xa5; 0x0c]) [V4 (mkNet (of_be [0xc0; 0xa8; 0x0b; 0x32]) 24)];
   mkIface (Some [0; 0x45; 0xcb; 0x9a; 0xa5; 0x0c]) [V4 (mkNet (of_be [0xc0; 0xa8; 0x0c; 0x32]) 25)];
   mkIface (Some [0; 0x45; 0xcb; 0x9a; 0xa5; 0x0c]) [V4 (mkNet (of_be [0xc0; 0xa8; 0x0c; 0xc8]) 25)];
   mkIface (Some [0; 0x45; 0xcb; 0x9a; 0xa5; 0x10]) [V4 (mkNet (of_be [169; 254; 21; 48]) 16)]].

(** src/utils/network.rs:128-142, [it_finds_local_address_based_on_remote_address]. *)
Example test_it_finds_local_address_based_on_remote_address :
  match_interface test_interfaces (of_be [192; 168; 10; 52])
  = Ok (Some (mkNetwork (mkNet (of_be [192; 168; 10; 50]) 24) [0; 0x45; 0xcb; 0x9a; 0xa5; 0x0b])).
Proof. vm_compute; reflexivity. Qed.

(** src/utils/network.rs:145-159, [it_find_network_in_a_smaller_cidr]. *)
Example test_it_find_network_in_a_smaller_cidr :
  let local remote := rmap (option_map pn_ip) (match_interface test_interfaces (of_be remote)) in
  local [192; 168; 12; 230] = Ok (Some (of_be [192; 168; 12; 200]))
  /\ local [192; 168; 12; 24] = Ok (Some (of_be [192; 168; 12; 50])).
Proof. vm_compute; split; reflexivity. Qed.

(** src/rekordbox/library.rs:837-849, [test_setup_request_handling]. *)
Example test_test_setup_request_handling :
  exists m, parse_message Checked setup_request = Ok ([], m)
            /\ setup_controller m = setup_response.
Proof. vm_compute; eexists; split; reflexivity. Qed.

(** src/rekordbox/library.rs:852-863, [test_album_by_artist_dialog], and 866-893,
    the two title dialogs, with the requests of fixtures.rs:15-27, 90-102 and
    177-191.  The tests expect artist 0 to be remembered.  The model remembers the
    third argument, which is 1, whatever the library: the recorded expectations are
    older than the code, and the tests fail on it. *)
Definition test_remembers (request_type : request_type) (arguments : list bytes) (st : client_state) : Prop :=
  forall p h d, rmap snd (process p h d None
    (message_encode (mkMessage (mkField FU32 [0x05; 0x80; 0x00; 0x14]) request_type (map (mkField FU32) arguments)))) = Ok st.
Example test_test_album_by_artist_dialog :
  test_remembers AlbumByArtistRequest [[2; 2; 4; 1]; be 4 0; be 4 1] (Some (SAlbumByArtist 1)).
Proof. intros [] h d; vm_compute; reflexivity. Qed.
Example test_test_title_by_artist_dialog :
  test_remembers TitleByArtistAlbumRequest [[2; 2; 4; 1]; be 4 0; be 4 1; be 4 0] (Some (STitleByArtistAlbum 1)).
Proof. intros [] h d; vm_compute; reflexivity. Qed.
Example test_test_title_by_artist_dialog_single_track :
  test_remembers TitleByArtistAlbumRequest [[2; 3; 4; 1]; be 4 0; be 4 1; be 4 0] (Some (STitleByArtistAlbum 1)).
Proof. intros [] h d; vm_compute; reflexivity. Qed.
