(** Model of src/rekordbox/keepalive.rs: the announcements of port 50000. *)

From Verif Require Import Base Unicode MPackets.
From Coq Require Import String.
Open Scope list_scope.
Open Scope N_scope.

(** keepalive.rs:229-234, [enum DeviceType]. *)
Inductive device_type := DevDjm | DevCdj | DevRekordbox.

(** keepalive.rs:236-247, [DeviceType::decode]. *)
Definition device_type_decode : parser device_type := fun i =>
  do (i, v) <- be_u8 i;
  match v with
  | 1 => Ok (i, DevDjm)
  | 2 => Ok (i, DevCdj)
  | 3 => Ok (i, DevRekordbox)
  | _ => Err
  end.

(** keepalive.rs:249-261, [From<DeviceType> for Bytes]. *)
Definition device_type_encode (d : device_type) : bytes :=
  [match d with DevDjm => 1 | DevCdj => 2 | DevRekordbox => 3 end].

(** keepalive.rs:263-271, [enum KeepAlivePacketType]. *)
Inductive ka_kind := KaHello | KaNumber | KaMac | KaIp | KaStatus | KaChange.

(** keepalive.rs:273-287, [KeepAlivePacketType::decode]. *)
Definition ka_kind_decode : parser ka_kind := fun i =>
  do (i, k) <- take 1 i;
  match nth 0 k 0 with
  | 0x0a => Ok (i, KaHello)
  | 0x04 => Ok (i, KaNumber)
  | 0x00 => Ok (i, KaMac)
  | 0x02 => Ok (i, KaIp)
  | 0x06 => Ok (i, KaStatus)
  | 0x08 => Ok (i, KaChange)
  | _ => Err
  end.

(** keepalive.rs:304-320, [From<KeepAlivePacketType> for Bytes]. *)
Definition ka_kind_encode (k : ka_kind) : bytes :=
  [match k with
   | KaHello => 0x0a
   | KaNumber => 0x04
   | KaMac => 0x00
   | KaIp => 0x02
   | KaStatus => 0x06
   | KaChange => 0x08
   end].

(** keepalive.rs:617-627, [enum KeepAlivePacketSubType]. *)
Inductive ka_sub :=
| SubHello | SubNumber | SubMac | SubIp | SubStatus | SubChange | SubStatusMixer
| SubUnknown (v : N).

(** keepalive.rs:629-647, [KeepAlivePacketSubType::decode]. *)
Definition ka_sub_decode : parser ka_sub := fun i =>
  do (i, k) <- take 1 i;
  Ok (i, match nth 0 k 0 with
         | 0x25 => SubHello
         | 0x26 => SubNumber
         | 0x2c => SubMac
         | 0x32 => SubIp
         | 0x36 => SubStatus
         | 0x29 => SubChange
         | 0x00 => SubStatusMixer
         | v => SubUnknown v
         end).

(** keepalive.rs:649-662, [From<KeepAlivePacketSubType> for Bytes]. *)
Definition ka_sub_encode (s : ka_sub) : bytes :=
  [match s with
   | SubHello => 0x25
   | SubNumber => 0x26
   | SubMac => 0x2c
   | SubIp => 0x32
   | SubStatus => 0x36
   | SubChange => 0x29
   | SubStatusMixer => 0x00
   | SubUnknown v => v
   end].

(** keepalive.rs:358-362, [enum PlayerNumberAssignment]. *)
Inductive assignment := AssignAuto | AssignManual.

(** keepalive.rs:364-373, [PlayerNumberAssignment::decode]. *)
Definition assignment_decode : parser assignment := fun i =>
  do (i, v) <- be_u8 i;
  match v with
  | 1 => Ok (i, AssignAuto)
  | 2 => Ok (i, AssignManual)
  | _ => Err
  end.

(** keepalive.rs:375-385, [From<PlayerNumberAssignment> for Bytes]. *)
Definition assignment_encode (a : assignment) : bytes :=
  [match a with AssignAuto => 1 | AssignManual => 2 end].

(** keepalive.rs:322-327, 387-395, 451-455, 483-487, 510-513, 529-538 and
    664-672, [enum KeepAliveContentType] with the structs it carries. *)
Inductive ka_content :=
| CHello (unknown2 : N)
| CNumber (proposed_player_number iteration : N)
| CMac (iteration unknown2 : N) (mac_addr : mac)
| CIp (ip_addr : ipv4) (mac_addr : mac) (iteration index : N)
      (player_number_assignment : assignment)
| CStatus (player_number unknown2 : N) (mac_addr : mac) (ip_addr : ipv4)
          (device_count unknown3 unknown4 : N)
| CChange (old_player_number : N) (ip_addr : ipv4).

(** keepalive.rs:597-603, [MacAddr::decode]. *)
Definition mac_decode : parser mac := fun i => count be_u8 6 i.

(** keepalive.rs:609-615, [Ipv4Addr::decode]. *)
Definition ipv4_decode : parser ipv4 := fun i => be_u32 i.

(** keepalive.rs:605-607, [ip_addr_to_bytes]. *)
Definition ip_addr_to_bytes (ip : ipv4) : bytes := be 4 ip.

(** keepalive.rs:329-344, [Mac::decode]. *)
Definition ka_mac_decode : parser ka_content := fun i =>
  do (i, iteration) <- be_u8 i;
  do (i, unknown2) <- be_u8 i;
  do (i, mac_addr) <- mac_decode i;
  Ok (i, CMac iteration unknown2 mac_addr).

(** keepalive.rs:415-435, [Ip::decode]. *)
Definition ka_ip_decode : parser ka_content := fun i =>
  do (i, ip_addr) <- ipv4_decode i;
  do (i, mac_addr) <- mac_decode i;
  do (i, iteration) <- be_u8 i;
  do (i, index) <- be_u8 i;
  do (i, _) <- be_u8 i;
  do (i, a) <- assignment_decode i;
  Ok (i, CIp ip_addr mac_addr iteration index a).

(** keepalive.rs:457-470, [Change::decode]. *)
Definition ka_change_decode : parser ka_content := fun i =>
  do (i, old_player_number) <- be_u8 i;
  do (i, ip_addr) <- ipv4_decode i;
  Ok (i, CChange old_player_number ip_addr).

(** keepalive.rs:489-502, [Number::decode]. *)
Definition ka_number_decode : parser ka_content := fun i =>
  do (i, proposed_player_number) <- be_u8 i;
  do (i, iteration) <- be_u8 i;
  Ok (i, CNumber proposed_player_number iteration).

(** keepalive.rs:515-521, [Hello::decode]. *)
Definition ka_hello_decode : parser ka_content := fun i =>
  do (i, unknown2) <- be_u8 i;
  Ok (i, CHello unknown2).

(** keepalive.rs:550-574, [Status::decode]. *)
Definition ka_status_decode : parser ka_content := fun i =>
  do (i, player_number) <- be_u8 i;
  do (i, unknown2) <- be_u8 i;
  do (i, mac_addr) <- mac_decode i;
  do (i, ip_addr) <- ipv4_decode i;
  do (i, device_count) <- be_u8 i;
  do (i, _) <- take 2 i;
  do (i, unknown3) <- be_u16 i;
  do (i, unknown4) <- be_u8 i;
  Ok (i, CStatus player_number unknown2 mac_addr ip_addr device_count unknown3 unknown4).

(** keepalive.rs:289-302, [KeepAlivePacketType::decode_content]. *)
Definition ka_decode_content (k : ka_kind) : parser ka_content := fun i =>
  match k with
  | KaStatus => ka_status_decode i
  | KaHello => ka_hello_decode i
  | KaChange => ka_change_decode i
  | KaNumber => ka_number_decode i
  | KaMac => ka_mac_decode i
  | KaIp => ka_ip_decode i
  end.

(** keepalive.rs:397-413, [Ip::map_sequence_byte]. *)
Definition map_sequence_byte (index : N) : N :=
  if index =? 1 then 0x11
  else if index =? 2 then 0x12
  else if index =? 3 then 0x29
  else if index =? 4 then 0x2a
  else if index =? 5 then 0x2b
  else 0x2c.

(** keepalive.rs:346-356 ([Mac]), 437-449 ([Ip]), 472-481 ([Change]), 504-508
    ([Number]), 523-527 ([Hello]), 576-591 ([Status]) and 674-685
    ([From<KeepAliveContentType> for Bytes]).  [BytesMut] grows on demand, so
    the capacities given there have no effect. *)
Definition ka_content_encode (c : ka_content) : bytes :=
  match c with
  | CHello unknown2 => [unknown2]
  | CNumber proposed iteration => [proposed; iteration]
  | CMac iteration unknown2 m => [iteration] ++ [unknown2] ++ m
  | CIp ip m iteration index a =>
      ip_addr_to_bytes ip ++ m ++ [map_sequence_byte index] ++ [iteration] ++ [4]
      ++ assignment_encode a
  | CStatus player_number unknown2 m ip device_count unknown3 _ =>
      [player_number] ++ [unknown2] ++ m ++ ip_addr_to_bytes ip ++ [device_count]
      ++ [1] ++ [0] ++ be 2 unknown3 ++ [8]
  | CChange old_player_number ip => [old_player_number] ++ ip_addr_to_bytes ip
  end.

(** keepalive.rs:150-158, [struct KeepAlivePacket]. *)
Record ka_packet := mkKa {
  ka_kind_of : ka_kind;
  ka_subkind : ka_sub;
  ka_model : str;
  ka_unknown1 : N;
  ka_device : device_type;
  ka_content_of : ka_content
}.

(** keepalive.rs:174-198, [KeepAlivePacket::decode]. *)
Definition ka_decode : parser ka_packet := fun i =>
  do (i, _) <- magic_decode i;
  do (i, kind) <- ka_kind_decode i;
  do (i, _) <- take 1 i;
  do (i, model) <- model_decode i;
  do (i, unknown1) <- be_u8 i;
  do (i, device) <- device_type_decode i;
  do (i, _) <- take 1 i;
  do (i, subkind) <- ka_sub_decode i;
  do (i, content) <- ka_decode_content kind i;
  Ok (i, mkKa kind subkind model unknown1 device content).

(** keepalive.rs:200-216, [From<KeepAlivePacket> for Bytes]. *)
Definition ka_encode (p : ka_packet) : res bytes :=
  do model <- model_encode (ka_model p);
  Ok (UDP_MAGIC
      ++ ka_kind_encode (ka_kind_of p)
      ++ [0x00]
      ++ model
      ++ [ka_unknown1 p]
      ++ device_type_encode (ka_device p)
      ++ [0]
      ++ ka_sub_encode (ka_subkind p)
      ++ ka_content_encode (ka_content_of p)).

(** keepalive.rs:218-227, [TryFrom<Bytes> for KeepAlivePacket]. *)
Definition ka_try_from (message : bytes) : res ka_packet :=
  do (_, p) <- ka_decode message; Ok p.

(** keepalive.rs:123-127, [KeepAliveServer::recv_from]: the datagram is received
    into a buffer of 1024 bytes, the rest of a longer one is discarded. *)
Definition ka_receive (datagram : bytes) : res ka_packet :=
  ka_try_from (firstn 1024 datagram).

(** keepalive.rs:18-34, [KeepAliveMacPackage::new]. *)
Definition ka_mac_package (iteration : N) (m : mac) : ka_packet :=
  mkKa KaMac SubMac (lit "rekordbox") 1 DevRekordbox (CMac iteration 4 m).

(** keepalive.rs:36-54, [KeepAliveIpPackage::new]. *)
Definition ka_ip_package (iteration index : N) (ip : ipv4) (m : mac) : ka_packet :=
  mkKa KaIp SubIp (lit "rekordbox") 1 DevRekordbox (CIp ip m iteration index AssignAuto).

(** keepalive.rs:56-81, [KeepAliveStatusPackage::new]. *)
Definition ka_status_package (ip : ipv4) (m : mac) (unknown3 unknown4 : N) : ka_packet :=
  mkKa KaStatus SubStatus (lit "rekordbox") 1 DevRekordbox
       (CStatus 17 1 m ip 1 unknown3 unknown4).
