(** Model of the UDP part of src/rekordbox/packets.rs (lines 202-734): device
    names, fixed-width strings and the status packets of port 50002. *)

From Verif Require Import Base Unicode.
From Coq Require Import String.
Open Scope list_scope.
Open Scope N_scope.

(** [Ipv4Addr] is modelled by its 32-bit number; [Ipv4Addr::octets] is [be 4],
    [Ipv4Addr::new] and [Ipv4Addr::from(u32)] read the number back (keepalive.rs:606
    and 613, packets.rs:666). *)
Definition ipv4 := N.
(** [MacAddr]: six octets (keepalive.rs:597-602). *)
Definition mac := bytes.

(** packets.rs:202, [UDP_MAGIC]. *)
Definition UDP_MAGIC : bytes := [0x51; 0x73; 0x70; 0x74; 0x31; 0x57; 0x6d; 0x4a; 0x4f; 0x4c].

(** packets.rs:295-303, [UdpMagic::decode]; 305-309 encode it as the constant. *)
Definition magic_decode : parser unit := tag UDP_MAGIC.

(** [str::trim_end_matches('\u{0}')] (packets.rs:231). *)
Fixpoint trim_nuls (s : str) : str :=
  match s with
  | [] => []
  | c :: r =>
      match trim_nuls r with
      | [] => if c =? 0 then [] else [c]
      | t => c :: t
      end
  end.

(** packets.rs:221-234, [ModelName::decode]; a model name is its text. *)
Definition model_decode : parser str := fun i =>
  do (i, m) <- take 20 i;
  match utf8_decode m with
  | Some s => Ok (i, trim_nuls s)
  | None => Err
  end.

(** [vec![0x00; a - b]] on [usize], as in packets.rs:238-240, 494 and 729.  With
    overflow checks the subtraction panics when [b] exceeds [a]; without them it
    wraps to a number above [isize::MAX], for which [vec!] panics with
    "capacity overflow".  The result is the same in both profiles. *)
Definition zeros_up_to (a b : N) : res bytes :=
  if b <=? a then Ok (fill (N.to_nat (a - b)) 0) else Panic.

(** packets.rs:236-244, [ModelName::encode]. *)
Definition model_encode (s : str) : res bytes :=
  let model := utf8_encode s in
  do padding <- zeros_up_to 20 (len model);
  Ok (model ++ padding).

(** packets.rs:257-265, [enum PlayerSlot]. *)
Inductive player_slot := SlotEmpty | SlotCd | SlotSd | SlotUsb | SlotRekordbox | SlotUnknown (v : N).

(** packets.rs:267-280, [PlayerSlot::decode]. *)
Definition slot_decode : parser player_slot := fun i =>
  do (i, v) <- be_u8 i;
  Ok (i, match v with
         | 0 => SlotEmpty
         | 1 => SlotCd
         | 2 => SlotSd
         | 3 => SlotUsb
         | 4 => SlotRekordbox
         | v => SlotUnknown v
         end).

(** packets.rs:282-293, [From<PlayerSlot> for Bytes]. *)
Definition slot_encode (s : player_slot) : bytes :=
  [match s with
   | SlotEmpty => 0
   | SlotCd => 1
   | SlotSd => 2
   | SlotUsb => 3
   | SlotRekordbox => 4
   | SlotUnknown v => v
   end].

(** packets.rs:396-407, [enum StatusPacketType]. *)
Inductive status_kind :=
| KCdj | KDjm | KLoadCmd | KLoadCmdReply | KLinkQuery | KLinkReply
| KRekordboxHello | KRekordboxReply | KUnknown (v : N).

(** packets.rs:410-424, [StatusPacketType::decode]. *)
Definition status_kind_decode : parser status_kind := fun i =>
  do (i, k) <- take 1 i;
  Ok (i, match nth 0 k 0 with
         | 0x0a => KCdj
         | 0x29 => KDjm
         | 0x19 => KLoadCmd
         | 0x1a => KLoadCmdReply
         | 0x05 => KLinkQuery
         | 0x06 => KLinkReply
         | 0x10 => KRekordboxHello
         | 0x11 => KRekordboxReply
         | v => KUnknown v
         end).

(** packets.rs:442-456, [From<StatusPacketType> for Bytes]. *)
Definition status_kind_encode (k : status_kind) : bytes :=
  [match k with
   | KCdj => 0x0a
   | KDjm => 0x29
   | KLoadCmd => 0x19
   | KLoadCmdReply => 0x1a
   | KLinkQuery => 0x05
   | KLinkReply => 0x06
   | KRekordboxHello => 0x10
   | KRekordboxReply => 0x11
   | KUnknown v => v
   end].

(** packets.rs:458-470, [struct Utf16FixedString] and its [new]. *)
Record utf16_fixed := mkFixed { fx_value : str; fx_capacity : N }.

(** packets.rs:472-484, [Utf16FixedString::decode]. *)
Definition fixed_decode (capacity : N) : parser utf16_fixed := fun i =>
  do (i, v) <- count be_u16 (N.to_nat (capacity / 2)) i;
  match utf16_decode v with
  | Some s => Ok (i, mkFixed s capacity)
  | None => Err
  end.

(** packets.rs:487-498, [From<Utf16FixedString> for Bytes]. *)
Definition fixed_encode (f : utf16_fixed) : res bytes :=
  let encoded := utf16_be (fx_value f) in
  do padding <- zeros_up_to (fx_capacity f) (len encoded);
  Ok (encoded ++ padding).

(** packets.rs:500-506, [enum TrackAnalyzeType]. *)
Inductive analyze_type := AUnknown | ARekordbox | AFile | ACd.

(** packets.rs:508-525, [TrackAnalyzeType::decode]. *)
Definition analyze_decode : parser analyze_type := fun i =>
  do (i, v) <- be_u8 i;
  Ok (i, match v with
         | 0 => AUnknown
         | 1 => ARekordbox
         | 2 => AFile
         | 5 => ACd
         | _ => AUnknown
         end).

(** packets.rs:527-535, [struct Cdj]. *)
Record cdj := mkCdj {
  cdj_activity : N;
  cdj_loaded_player_number : N;
  cdj_loaded_slot : player_slot;
  cdj_track_analyze_type : analyze_type;
  cdj_track_id : N;
  cdj_track_number : N
}.

(** packets.rs:579-592, [struct LinkReply]. *)
Record link_reply := mkLinkReply {
  lr_source_player_number : N;
  lr_slot : player_slot;
  lr_name : utf16_fixed;
  lr_date : utf16_fixed;
  lr_unknown5 : utf16_fixed;
  lr_track_count : N;
  lr_unknown6 : N;
  lr_unknown7 : N;
  lr_playlist_count : N;
  lr_bytes_total : N;
  lr_bytes_free : N
}.

(** packets.rs:649-654, [struct LinkQuery]. *)
Record link_query := mkLinkQuery {
  lq_source_ip : ipv4;
  lq_remote_player_number : N;
  lq_slot : player_slot
}.

(** packets.rs:685-696, [enum StatusContentType]; 569-570 [Djm] has no fields
    and 708-711 [RekordboxReply] only a name. *)
Inductive status_content :=
| SCdj (c : cdj)
| SDjm
| SLoadCmd
| SLoadCmdReply
| SLinkQuery (q : link_query)
| SLinkReply (r : link_reply)
| SRekordboxHello
| SRekordboxReply (name : str)
| SUnknown (v : N).

(** packets.rs:543-567, [Cdj::decode]. *)
Definition cdj_decode : parser status_content := fun i =>
  do (i, activity) <- be_u16 i;
  do (i, loaded_player_number) <- be_u16 i;
  do (i, loaded_slot) <- slot_decode i;
  do (i, track_analyze_type) <- analyze_decode i;
  do (i, _) <- take 1 i;
  do (i, track_id) <- be_u32 i;
  do (i, track_number) <- be_u32 i;
  Ok (i, SCdj (mkCdj activity loaded_player_number loaded_slot track_analyze_type
                     track_id track_number)).

(** packets.rs:572-577, [Djm::decode]. *)
Definition djm_decode : parser status_content := fun i => Ok (i, SDjm).

(** packets.rs:594-624, [LinkReply::decode]. *)
Definition link_reply_decode : parser status_content := fun i =>
  do (i, slot) <- slot_decode i;
  do (i, name) <- fixed_decode 64 i;
  do (i, date) <- fixed_decode 24 i;
  do (i, unknown5) <- fixed_decode 32 i;
  do (i, track_count) <- be_u32 i;
  do (i, unknown6) <- be_u16 i;
  do (i, unknown7) <- be_u16 i;
  do (i, playlist_count) <- be_u32 i;
  do (i, bytes_total) <- be_u64 i;
  do (i, bytes_free) <- be_u64 i;
  Ok (i, SLinkReply (mkLinkReply 0x11 slot name date unknown5 track_count unknown6
                                 unknown7 playlist_count bytes_total bytes_free)).

(** packets.rs:626-647, [From<LinkReply> for Bytes]. *)
Definition link_reply_encode (r : link_reply) : res bytes :=
  do name <- fixed_encode (lr_name r);
  do date <- fixed_encode (lr_date r);
  do unknown5 <- fixed_encode (lr_unknown5 r);
  Ok (be 2 156
      ++ [0x00; 0x00; 0x00]
      ++ [lr_source_player_number r]
      ++ [0x00; 0x00; 0x00]
      ++ slot_encode (lr_slot r)
      ++ name
      ++ date
      ++ unknown5
      ++ be 4 (lr_track_count r)
      ++ be 2 (lr_unknown6 r)
      ++ be 2 (lr_unknown7 r)
      ++ be 4 (lr_playlist_count r)
      ++ be 8 (lr_bytes_total r)
      ++ be 8 (lr_bytes_free r)).

(** packets.rs:656-676, [LinkQuery::decode]. *)
Definition link_query_decode : parser status_content := fun i =>
  do (i, _) <- be_u16 i;
  do (i, source_ip) <- take 4 i;
  do (i, _) <- take 3 i;
  do (i, remote_player_number) <- be_u8 i;
  do (i, _) <- take 3 i;
  do (i, slot) <- slot_decode i;
  Ok (i, SLinkQuery (mkLinkQuery (of_be source_ip) remote_player_number slot)).

(** packets.rs:678-683, [RekordboxHello::decode]. *)
Definition rekordbox_hello_decode : parser status_content := fun i =>
  Ok (i, SRekordboxHello).

(** packets.rs:713-734, [From<RekordboxReply> for Bytes]. *)
Definition rekordbox_reply_encode (name : str) : res bytes :=
  let encoded_name := utf16_be name in
  do padding <- zeros_up_to 256 (len encoded_name);
  Ok ([0x01; 0x04; 0x11; 0x01; 0x00; 0x00] ++ encoded_name ++ padding).

(** packets.rs:426-439, [StatusPacketType::decode_content]; line 435 is
    [unimplemented!()]. *)
Definition status_decode_content (k : status_kind) : parser status_content := fun i =>
  match k with
  | KLinkQuery => link_query_decode i
  | KRekordboxHello => rekordbox_hello_decode i
  | KLinkReply => link_reply_decode i
  | KCdj => cdj_decode i
  | KDjm => djm_decode i
  | _ => Panic
  end.

(** packets.rs:698-706, [From<StatusContentType> for Bytes]; line 703 is
    [unimplemented!()]. *)
Definition status_content_encode (c : status_content) : res bytes :=
  match c with
  | SRekordboxReply name => rekordbox_reply_encode name
  | SLinkReply r => link_reply_encode r
  | _ => Panic
  end.

(** packets.rs:311-318, [struct StatusPacket]. *)
Record status_packet := mkStatusPacket {
  sp_kind : status_kind;
  sp_model : str;
  sp_unknown1 : N;
  sp_player_number : N;
  sp_content : status_content
}.

(** packets.rs:321-334, [StatusPacket::new]. *)
Definition status_packet_new (kind : status_kind) (unknown1 player_number : N)
    (content : status_content) : status_packet :=
  mkStatusPacket kind (lit "Linux") unknown1 player_number content.

(** packets.rs:336-352, [StatusPacket::decode]. *)
Definition status_packet_decode : parser status_packet := fun i =>
  do (i, _) <- magic_decode i;
  do (i, kind) <- status_kind_decode i;
  do (i, model) <- model_decode i;
  do (i, _) <- be_u8 i;
  do (i, unknown1) <- be_u8 i;
  do (i, player_number) <- be_u8 i;
  do (i, content) <- status_decode_content kind i;
  Ok (i, mkStatusPacket kind model unknown1 player_number content).

(** packets.rs:359-375, [From<StatusPacket> for Bytes]. *)
Definition status_packet_encode (p : status_packet) : res bytes :=
  do model <- model_encode (sp_model p);
  do content <- status_content_encode (sp_content p);
  Ok (UDP_MAGIC
      ++ status_kind_encode (sp_kind p)
      ++ model
      ++ [0x01; sp_unknown1 p; 0x11]
      ++ content).

(** packets.rs:377-394, [TryFrom<Bytes>] and [TryFrom<&[u8]> for StatusPacket]. *)
Definition status_packet_try_from (message : bytes) : res status_packet :=
  do (_, p) <- status_packet_decode message; Ok p.
