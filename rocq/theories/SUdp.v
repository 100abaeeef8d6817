(** Independent specification of the UDP datagrams: byte ranges at fixed
    offsets, as tabulated in descriptions of the players' protocol.  Nothing
    here uses the encoders or parsers of the model. *)

From Verif Require Import Base Unicode MPackets MKeepalive.
From Verif Require MStatus.
From Coq Require Import String.
Open Scope list_scope.
Open Scope N_scope.

(** [n] bytes from offset [o], and the byte at offset [o]. *)
Definition slice (o n : nat) (d : bytes) : bytes := firstn n (skipn o d).
Definition octet (o : nat) (d : bytes) : N := nth o d 0.
(** Big-endian number of [n] bytes at offset [o]. *)
Definition number_at (o n : nat) (d : bytes) : N :=
  fold_left (fun a b => a * 256 + b) (slice o n d) 0.

(** The datagram reaches offset [n]. *)
Definition reaches (n : nat) (d : bytes) : Prop := (n <= List.length d)%nat.

(** [b] holds the text [s] padded with NULs; [s] itself does not end in one. *)
Definition name_field (b : bytes) (s : str) : Prop :=
  str_ok s /\ (forall t, s <> t ++ [0]) /\
  exists padding, b = utf8_encode s ++ repeat 0 padding.

(** [b] is a UTF-8 text. *)
Definition utf8_text (b : bytes) : Prop := exists s, str_ok s /\ utf8_encode s = b.

(** ** Keep-alive datagrams *)

Definition kind_code (k : ka_kind) : N :=
  match k with
  | KaMac => 0x00 | KaIp => 0x02 | KaNumber => 0x04 | KaStatus => 0x06
  | KaChange => 0x08 | KaHello => 0x0a
  end.

Definition device_code (d : device_type) : N :=
  match d with DevDjm => 1 | DevCdj => 2 | DevRekordbox => 3 end.

(** Meaning of the length byte at offset 35. *)
Definition sub_means (v : N) (s : ka_sub) : Prop :=
  match s with
  | SubHello => v = 0x25
  | SubNumber => v = 0x26
  | SubMac => v = 0x2c
  | SubIp => v = 0x32
  | SubStatus => v = 0x36
  | SubChange => v = 0x29
  | SubStatusMixer => v = 0x00
  | SubUnknown w => w = v /\ ~ In v [0x25; 0x26; 0x2c; 0x32; 0x36; 0x29; 0x00]
  end.

(** The fields of each kind, from offset 36. *)
Definition ka_fields (d : bytes) (k : ka_kind) (c : ka_content) : Prop :=
  match k, c with
  | KaHello, CHello u => reaches 37 d /\ u = octet 36 d
  | KaNumber, CNumber n it => reaches 38 d /\ n = octet 36 d /\ it = octet 37 d
  | KaMac, CMac it u m =>
      reaches 44 d /\ it = octet 36 d /\ u = octet 37 d /\ m = slice 38 6 d
  | KaIp, CIp ip m it ix a =>
      reaches 50 d /\ ip = number_at 36 4 d /\ m = slice 40 6 d /\
      it = octet 46 d /\ ix = octet 47 d /\
      octet 49 d = match a with AssignAuto => 1 | AssignManual => 2 end
  | KaStatus, CStatus n u m ip count u3 u4 =>
      reaches 54 d /\ n = octet 36 d /\ u = octet 37 d /\ m = slice 38 6 d /\
      ip = number_at 44 4 d /\ count = octet 48 d /\ u3 = number_at 51 2 d /\
      u4 = octet 53 d
  | KaChange, CChange n ip => reaches 41 d /\ n = octet 36 d /\ ip = number_at 37 4 d
  | _, _ => False
  end.

(** The datagram [d] says [p]. *)
Definition ka_says (d : bytes) (p : ka_packet) : Prop :=
  slice 0 10 d = lit "Qspt1WmJOL" /\
  octet 10 d = kind_code (ka_kind_of p) /\
  name_field (slice 12 20 d) (ka_model p) /\
  octet 32 d = ka_unknown1 p /\
  octet 33 d = device_code (ka_device p) /\
  sub_means (octet 35 d) (ka_subkind p) /\
  ka_fields d (ka_kind_of p) (ka_content_of p).

(** Number of bytes of a datagram of each kind. *)
Definition kind_size (code : N) : option nat :=
  match code with
  | 0x0a => Some 37%nat
  | 0x04 => Some 38%nat
  | 0x00 => Some 44%nat
  | 0x02 => Some 50%nat
  | 0x06 => Some 54%nat
  | 0x08 => Some 41%nat
  | _ => None
  end.

(** What makes a datagram acceptable, in terms of its bytes alone. *)
Definition ka_acceptable (d : bytes) : Prop :=
  slice 0 10 d = lit "Qspt1WmJOL" /\
  (exists n, kind_size (octet 10 d) = Some n /\ reaches n d) /\
  utf8_text (slice 12 20 d) /\
  1 <= octet 33 d <= 3 /\
  (octet 10 d = 0x02 -> 1 <= octet 49 d <= 2).

(** A packet whose fields have the Rust types. *)
Definition content_typed (c : ka_content) : Prop :=
  match c with
  | CHello u => u < 256
  | CNumber n it => n < 256 /\ it < 256
  | CMac it u m => it < 256 /\ u < 256 /\ len m = 6 /\ bytes_ok m
  | CIp ip m it ix a =>
      ip < 4294967296 /\ len m = 6 /\ bytes_ok m /\ it < 256 /\ ix < 256
  | CStatus n u m ip count u3 u4 =>
      n < 256 /\ u < 256 /\ len m = 6 /\ bytes_ok m /\ ip < 4294967296 /\
      count < 256 /\ u3 < 65536 /\ u4 < 256
  | CChange n ip => n < 256 /\ ip < 4294967296
  end.
Definition ka_typed (p : ka_packet) : Prop :=
  str_ok (ka_model p) /\ ka_unknown1 p < 256 /\
  match ka_subkind p with SubUnknown v => v < 256 | _ => True end /\
  content_typed (ka_content_of p).

(** The packets that survive a round trip. *)
Definition ka_consistent (p : ka_packet) : Prop :=
  len (utf8_encode (ka_model p)) <= 20 /\
  (forall t, ka_model p <> t ++ [0]) /\
  match ka_subkind p with
  | SubUnknown v => ~ In v [0x25; 0x26; 0x2c; 0x32; 0x36; 0x29; 0x00]
  | _ => True
  end /\
  match ka_kind_of p, ka_content_of p with
  | KaHello, CHello _ => True
  | KaNumber, CNumber _ _ => True
  | KaMac, CMac _ _ _ => True
  | KaIp, CIp _ _ iteration index _ => iteration = 0x2c /\ index = 0x2c
  | KaStatus, CStatus _ _ _ _ _ _ u4 => u4 = 8
  | KaChange, CChange _ _ => True
  | _, _ => False
  end.

(** ** Status datagrams *)

(** The common header of port 50002: magic, kind at 10, device name at 11,
    three bytes at 31. *)
Definition status_header (d : bytes) : Prop :=
  slice 0 10 d = lit "Qspt1WmJOL" /\ reaches 34 d /\ utf8_text (slice 11 20 d).

(** Kinds the server can decode. *)
Definition status_kinds_known : list N := [0x0a; 0x29; 0x05; 0x06; 0x10].

(** A text in [n] bytes of UTF-16BE, padded with zeros. *)
Definition utf16_padded (n : nat) (s : str) : bytes :=
  utf16_be s ++ repeat 0 (n - List.length (utf16_be s)).
(** An ASCII text in [n] bytes, padded with zeros. *)
Definition ascii_padded (n : nat) (s : string) : bytes :=
  lit s ++ repeat 0 (n - String.length s).

(** The two replies of the status service, byte by byte. *)
Definition hello_reply : bytes :=
  lit "Qspt1WmJOL" ++ [0x11] ++ ascii_padded 20 "Linux" ++ [0x01; 0x01; 0x11]
  ++ [0x01; 0x04; 0x11; 0x01; 0x00; 0x00] ++ utf16_padded 256 (lit "Term DJ").
Definition link_answer (echo : N) : bytes :=
  lit "Qspt1WmJOL" ++ [0x06] ++ ascii_padded 20 "Linux" ++ [0x01; echo; 0x11]
  ++ [0x00; 0x9c; 0x00; 0x00; 0x00; 0x11; 0x00; 0x00; 0x00; 0x04]
  ++ utf16_padded 64 (lit "Term DJ")
  ++ repeat 0 24                       (* date *)
  ++ repeat 0 32
  ++ [0x00; 0x00; 0x04; 0x1b]          (* 1051 tracks *)
  ++ [0x00; 0x00; 0x01; 0x01]
  ++ [0x00; 0x00; 0x00; 0x5e]          (* 94 playlists *)
  ++ repeat 0 16.                      (* bytes total and free *)

(** The two kinds of datagram that are answered. *)
Definition is_hello (d : bytes) : Prop := status_header d /\ octet 10 d = 0x10.
Definition is_link_query (d : bytes) : Prop :=
  status_header d /\ octet 10 d = 0x05 /\ reaches 48 d.
(** The datagrams that end the service. *)
Definition stops_status (d : bytes) : Prop :=
  status_header d /\ ~ In (octet 10 d) status_kinds_known.

(** Fields of a link reply with their Rust types. *)
Definition fixed_typed (f : utf16_fixed) : Prop := str_ok (fx_value f).
Definition link_reply_typed (r : link_reply) : Prop :=
  lr_source_player_number r < 256 /\
  match lr_slot r with SlotUnknown v => v < 256 | _ => True end /\
  fixed_typed (lr_name r) /\ fixed_typed (lr_date r) /\ fixed_typed (lr_unknown5 r) /\
  lr_track_count r < 4294967296 /\ lr_unknown6 r < 65536 /\ lr_unknown7 r < 65536 /\
  lr_playlist_count r < 4294967296 /\
  lr_bytes_total r < 18446744073709551616 /\ lr_bytes_free r < 18446744073709551616.

(** The one link reply whose bytes repeat with period nine, so that reading its
    fields nine bytes early makes no difference. *)
Definition periodic_reply : link_reply :=
  mkLinkReply 0x11 SlotEmpty
    (mkFixed [39936; 0; 4352; 0; 156; 0; 17; 0; 0; 39936; 0; 4352; 0; 156; 0; 17; 0; 0;
              39936; 0; 4352; 0; 156; 0; 17; 0; 0; 39936; 0; 4352; 0; 156] 64)
    (mkFixed [0; 17; 0; 0; 39936; 0; 4352; 0; 156; 0; 17; 0] 24)
    (mkFixed [0; 39936; 0; 4352; 0; 156; 0; 17; 0; 0; 39936; 0; 4352; 0; 156; 0] 32)
    1114112 0 39936 4352 670014898193 2617245696.

(** [out] is the right answer to the input [e]: one datagram for a hello or a
    link query, sent to the address it came from (whatever its port), port
    50002; nothing otherwise. *)
Definition status_answer (e : MStatus.status_input) (out : list MStatus.sent) : Prop :=
  match e with
  | MStatus.StatusRecvError => out = []
  | MStatus.StatusDatagram ip _ d =>
      (is_hello d -> out = [(ip, 50002, hello_reply)]) /\
      (is_link_query d -> out = [(ip, 50002, link_answer (octet 32 d))]) /\
      (~ is_hello d -> ~ is_link_query d -> out = [])
  end.

(** No datagram of the history ends the service. *)
Definition none_stops (es : list MStatus.status_input) : Prop :=
  forall ip port d, In (MStatus.StatusDatagram ip port d) es -> ~ stops_status d.

(** The byte naming a media slot, when one is sent. *)
Definition slot_byte (s : player_slot) : N :=
  match s with
  | SlotEmpty => 0
  | SlotCd => 1
  | SlotSd => 2
  | SlotUsb => 3
  | SlotRekordbox => 4
  | SlotUnknown v => v
  end.

(** Meaning of the byte naming a media slot, when one is received, and of that naming how a track was
    analysed. *)
Definition slot_means (v : N) (s : player_slot) : Prop :=
  match s with
  | SlotEmpty => v = 0
  | SlotCd => v = 1
  | SlotSd => v = 2
  | SlotUsb => v = 3
  | SlotRekordbox => v = 4
  | SlotUnknown w => w = v /\ 4 < v
  end.
Definition analyze_means (v : N) (a : analyze_type) : Prop :=
  match a with
  | ARekordbox => v = 1
  | AFile => v = 2
  | ACd => v = 5
  | AUnknown => ~ In v [1; 2; 5]
  end.

(** The bytes [b] are the text [f], which fills them. *)
Definition utf16_field (b : bytes) (f : utf16_fixed) : Prop :=
  fx_capacity f = len b /\ str_ok (fx_value f) /\ utf16_be (fx_value f) = b.

(** The fields of each kind of status datagram that is decoded, from offset 34. *)
Definition status_fields (d : bytes) (k : status_kind) (c : status_content) : Prop :=
  match k, c with
  | KCdj, SCdj c =>
      octet 10 d = 0x0a /\ reaches 49 d /\
      cdj_activity c = number_at 34 2 d /\ cdj_loaded_player_number c = number_at 36 2 d /\
      slot_means (octet 38 d) (cdj_loaded_slot c) /\
      analyze_means (octet 39 d) (cdj_track_analyze_type c) /\
      cdj_track_id c = number_at 41 4 d /\ cdj_track_number c = number_at 45 4 d
  | KDjm, SDjm => octet 10 d = 0x29
  | KLinkQuery, SLinkQuery q =>
      octet 10 d = 0x05 /\ reaches 48 d /\
      lq_source_ip q = number_at 36 4 d /\ lq_remote_player_number q = octet 43 d /\
      slot_means (octet 47 d) (lq_slot q)
  | KLinkReply, SLinkReply r =>
      octet 10 d = 0x06 /\ reaches 183 d /\ lr_source_player_number r = 17 /\
      slot_means (octet 34 d) (lr_slot r) /\
      utf16_field (slice 35 64 d) (lr_name r) /\ utf16_field (slice 99 24 d) (lr_date r) /\
      utf16_field (slice 123 32 d) (lr_unknown5 r) /\
      lr_track_count r = number_at 155 4 d /\ lr_unknown6 r = number_at 159 2 d /\
      lr_unknown7 r = number_at 161 2 d /\ lr_playlist_count r = number_at 163 4 d /\
      lr_bytes_total r = number_at 167 8 d /\ lr_bytes_free r = number_at 175 8 d
  | KRekordboxHello, SRekordboxHello => octet 10 d = 0x10
  | _, _ => False
  end.

(** The status datagram [d] says [p]. *)
Definition status_says (d : bytes) (p : status_packet) : Prop :=
  slice 0 10 d = lit "Qspt1WmJOL" /\ reaches 34 d /\
  name_field (slice 11 20 d) (sp_model p) /\
  sp_unknown1 p = octet 32 d /\ sp_player_number p = octet 33 d /\
  status_fields d (sp_kind p) (sp_content p).

(** The kinds of status datagrams and their codes. *)
Definition status_kind_codes : list (N * status_kind) :=
  [(0x0a, KCdj); (0x29, KDjm); (0x19, KLoadCmd); (0x1a, KLoadCmdReply); (0x05, KLinkQuery); (0x06, KLinkReply);
   (0x10, KRekordboxHello); (0x11, KRekordboxReply)].
Definition names_kind (b : N) (k : status_kind) : Prop :=
  In (b, k) status_kind_codes \/ (k = KUnknown b /\ ~ In b (map fst status_kind_codes)).

(** The bytes [b] are the text [t], filled up with zeros to [n] bytes. *)
Definition filled_up (n : N) (t b : bytes) : Prop := exists k, b = t ++ repeat 0 k /\ len b = n.

(** The status packet [p] is written as [d]: common header, then the content of
    one of the two kinds that have one. *)
Definition status_written (p : status_packet) (d : bytes) : Prop :=
  exists code model content,
    (In (code, sp_kind p) status_kind_codes \/ sp_kind p = KUnknown code) /\
    filled_up 20 (utf8_encode (sp_model p)) model /\
    d = lit "Qspt1WmJOL" ++ [code] ++ model ++ [0x01; sp_unknown1 p; 0x11] ++ content /\
    match sp_content p with
    | SRekordboxReply name =>
        exists t, filled_up 256 (utf16_be name) t /\ content = [0x01; 0x04; 0x11; 0x01; 0x00; 0x00] ++ t
    | SLinkReply r =>
        exists name date unknown,
          filled_up (fx_capacity (lr_name r)) (utf16_be (fx_value (lr_name r))) name /\
          filled_up (fx_capacity (lr_date r)) (utf16_be (fx_value (lr_date r))) date /\
          filled_up (fx_capacity (lr_unknown5 r)) (utf16_be (fx_value (lr_unknown5 r))) unknown /\
          content = [0x00; 0x9c; 0x00; 0x00; 0x00; lr_source_player_number r; 0x00; 0x00; 0x00; slot_byte (lr_slot r)]
            ++ name ++ date ++ unknown
            ++ be 4 (lr_track_count r) ++ be 2 (lr_unknown6 r) ++ be 2 (lr_unknown7 r)
            ++ be 4 (lr_playlist_count r) ++ be 8 (lr_bytes_total r) ++ be 8 (lr_bytes_free r)
    | _ => False
    end.
