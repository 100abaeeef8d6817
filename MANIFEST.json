{
 "claims": [
  {
   "property": "C01",
   "status": "proved",
   "theorems": [
    "C01_arguments_roundtrip",
    "C01_arguments_injective",
    "C01_numbers_read",
    "C01_blob_read"
   ],
   "note": "C01_arguments_roundtrip: Decoding what was encoded (with anything behind it) returns the same arguments exactly if there are at most 12 and every text is short. C01_arguments_injective: Two different lists within the limits never have the same encoding, not even as prefixes of longer inputs. C01_numbers_read: The number a field is made from is the number a client reads, with the width of its type; so are the bytes. C01_blob_read: A byte string made into an argument is read as that byte string, unless it is empty: then nothing at all is written."
  },
  {
   "property": "C02",
   "status": "proved",
   "theorems": [
    "C02_message_roundtrip",
    "C02_suffix_irrelevant"
   ],
   "note": "C02_message_roundtrip: A written message is read back, whatever follows, exactly if its type is one both directions know, it has at most 12 arguments and its texts are short. C02_suffix_irrelevant: A suffix never changes what is parsed."
  },
  {
   "property": "C03",
   "status": "proved",
   "theorems": [
    "C03_text_layout",
    "C03_text_read",
    "C03_every_text_refuted"
   ],
   "note": "The natural stronger claim is false: C03_every_text_refuted gives a witness. The other theorems say what holds. C03_text_layout: Layout: tag, 32-bit number of code units plus one, text, terminator. C03_text_read: A client reads the same text and finds the bytes behind it. C03_every_text_refuted: Claim \"every title is read back\" refuted."
  },
  {
   "property": "C04",
   "status": "proved",
   "theorems": [
    "C04_code_roundtrip",
    "C04_other_codes_zero",
    "C04_codes_distinct"
   ],
   "note": "C04_code_roundtrip: The codes that are written as they were read are exactly those listed. C04_other_codes_zero: All others are written as zero. C04_codes_distinct: Different codes are never read as the same request."
  },
  {
   "property": "C05",
   "status": "proved",
   "theorems": [
    "C05_binary_never_parses",
    "C05_binary_message_never_parses",
    "C05_empty_binary_last",
    "C05_empty_binary_not_last",
    "C05_any_arguments"
   ],
   "note": "C05_binary_never_parses: A list with a non-empty binary argument, after arguments that can be read, is a panic for its own decoder. C05_binary_message_never_parses: The same for whole messages. C05_empty_binary_last: An empty binary argument at the very end is read back. C05_empty_binary_not_last: An empty binary argument before another (4-byte or text) argument, as in the server's own answer to a load-track request, does not parse. C05_any_arguments: For arguments of every kind: a list is read back exactly if it has at most 12, texts are short and binary arguments are harmless."
  },
  {
   "property": "C06",
   "status": "proved",
   "theorems": [
    "C06_error_iff",
    "C06_success_iff",
    "C06_panic_iff",
    "C06_announced_count"
   ],
   "note": "C06_error_iff: Which bytes are an error. C06_success_iff: Which bytes are a message, and which. C06_panic_iff: Which bytes are a panic. C06_announced_count: A layout has as many arguments as were announced."
  },
  {
   "property": "C07",
   "status": "proved",
   "theorems": [
    "C07_greeting_echoed",
    "C07_undecodable"
   ],
   "note": "C07_greeting_echoed: The greeting is echoed and changes nothing; it is the length that counts. C07_undecodable: Every other chunk that is not a request is answered with the text \"panic\", and changes nothing."
  },
  {
   "property": "C08",
   "status": "proved",
   "theorems": [
    "C08_transaction_ids",
    "C08_title_exception"
   ],
   "note": "C08_transaction_ids: In any conversation, all messages a client reads from the answer to a request carry the request's transaction id; only a render without a menu gets none. C08_title_exception: The exception: the title request is answered with a bare header, which is no message."
  },
  {
   "property": "C09",
   "status": "proved",
   "theorems": [
    "C09_last_menu",
    "C09_no_menu",
    "C09_cases"
   ],
   "note": "C09_last_menu: After any answered history with the last menu request [c], the answer to Render is the one a new connection gives to Render after [c] alone. C09_no_menu: Without a menu request the answer is empty. C09_cases: One of the two cases always applies."
  },
  {
   "property": "C10",
   "status": "proved",
   "theorems": [
    "C10_announced_rows"
   ],
   "note": "C10_announced_rows: The number announced in the answer to the menu request against the number of items of the page that a Render then delivers."
  },
  {
   "property": "C11",
   "status": "proved",
   "theorems": [
    "C11_pages",
    "C11_pages_exactly"
   ],
   "note": "C11_pages: The page delivered after any answered history, read by the client's reader to its last byte. C11_pages_exactly: Exactly: the client reads the page if and only if every text on it has at most 127 UTF-16 units (texts of 4 GiB and more aside). One long title spoils the whole page it is on, and no other page."
  },
  {
   "property": "C12",
   "status": "proved",
   "theorems": [
    "C12_metadata",
    "C12_unknown_track",
    "C12_item_id_refuted"
   ],
   "note": "The natural stronger claim is false: C12_item_id_refuted gives a witness. The other theorems say what holds. C12_metadata: After asking for a track's metadata, render shows this track. C12_unknown_track: An unknown track ends the connection: no answer to the Render or to anything after it. C12_item_id_refuted: The ids inside the items do not name the track: for no track but the one with id 5 does the title item carry the id that was asked for."
  },
  {
   "property": "C13",
   "status": "proved",
   "theorems": [
    "C13_mount_info",
    "C13_no_path"
   ],
   "note": "C13_mount_info: After asking for a track's mount info, render shows its path and size. C13_no_path: A path that is not text, or an unknown track, ends the connection."
  },
  {
   "property": "C14",
   "status": "proved",
   "theorems": [
    "C14_conforming_answered",
    "C14_fatal_exactly"
   ],
   "note": "C14_conforming_answered: A client that keeps to the protocol gets an answer to each of its chunks. C14_fatal_exactly: The exact condition: which chunk, after which history, ends a connection."
  },
  {
   "property": "C15",
   "status": "proved",
   "theorems": [
    "C15_connections_independent",
    "C15_served_as_alone",
    "C15_one_connection_per_port"
   ],
   "note": "C15_connections_independent: With any interleaving of events, what one connection receives depends on the events on its own port only. C15_served_as_alone: In particular: if the events on port [q] are its allocation, one connection and some chunks, the answers are those of the chunks on a connection served alone - whatever the others do, including ending by a panic. C15_one_connection_per_port: Each port handed out serves one connection: whatever else happens on the port, the answers are those of the chunks from the first connection to its end; a second connection neither takes over nor gets answers of its own."
  },
  {
   "property": "C16",
   "status": "proved",
   "theorems": [
    "C16_segmentation_refuted",
    "C16_same_messages",
    "C16_tail_ignored"
   ],
   "note": "The natural stronger claim is false: C16_segmentation_refuted gives a witness. The other theorems say what holds. C16_segmentation_refuted: The claim that the answers depend on the byte stream only is false: the same five bytes in one chunk or in two give different answers. C16_same_messages: Chunk by chunk, only the message counts: two sequences of requests with the same contents get the same answers. C16_tail_ignored: Bytes behind a request in the same chunk - a second request, say - are ignored."
  },
  {
   "property": "C17",
   "status": "proved",
   "theorems": [
    "C17_unsupported"
   ],
   "note": "C17_unsupported: An unsupported request is acknowledged and does not change what follows."
  },
  {
   "property": "C18",
   "status": "proved",
   "theorems": [
    "C18_tracks_retrievable"
   ],
   "note": "C18_tracks_retrievable: The track scanned at place i has the id i + 2 and keeps title, path, size and tempo; no other id has a track."
  },
  {
   "property": "C19",
   "status": "proved",
   "theorems": [
    "C19_artists_deduplicated"
   ],
   "note": "C19_artists_deduplicated: The artists are the distinct names, each once and under one id, and the artist of every track resolves."
  },
  {
   "property": "C20",
   "status": "proved",
   "theorems": [
    "C20_titles_of_artist",
    "C20_exactly_one_artist"
   ],
   "note": "C20_titles_of_artist: The numbers and titles listed for an artist are, as a multiset, those of the scanned tracks with that artist's name; unknown artists have none. C20_exactly_one_artist: Every track is listed under exactly one artist."
  },
  {
   "property": "C21",
   "status": "proved",
   "theorems": [
    "C21_ids_stable",
    "C21_exhausted_checked",
    "C21_exhausted_wrapping",
    "C21_wrapping_overwrites_first"
   ],
   "note": "C21_ids_stable: No reuse below the limit: ids are the pairwise different numbers of C18; the id of track [i] does not depend on what is indexed after it. C21_exhausted_checked: With overflow checks the track that would exceed the ids is a panic. C21_exhausted_wrapping: Without them it gets the id 0 and changes nothing else. C21_wrapping_overwrites_first: Two insertions later the first track is replaced."
  },
  {
   "property": "C22",
   "status": "proved",
   "theorems": [
    "C22_finds_exactly",
    "C22_otherwise_panics",
    "C22_dot_folders_are_empty",
    "C22_linked_folder",
    "C22_trailing_separator",
    "C22_whole_file_system",
    "C22_no_dotted_name_refuted"
   ],
   "note": "The natural stronger claim is false: C22_no_dotted_name_refuted gives a witness. The other theorems say what holds. C22_finds_exactly: The root folder is given by a path that ends in the name [rname]. The scan returns the records, in traversal order, of exactly those files of the tree of which no name, from the root on, starts with a dot (and is a text), and whose own name ends in \".mp3\". C22_otherwise_panics: The only other outcome, see C23. C22_dot_folders_are_empty: Scanning the folder under the name \".\" or \"..\" finds nothing. C22_linked_folder: A folder given by a symbolic link is scanned as the folder it leads to, under the path of the link; the name of the link itself does not matter, not even when it starts with a dot. A link to a file is not a folder, and the file is not found. C22_trailing_separator: A separator behind the name of the folder changes nothing. C22_whole_file_system: The whole file system: everything visible below \"/\", under its full path. C22_no_dotted_name_refuted: The claim that no file with a dotted name is found is false: names that are not UTF-8 do not count as hidden."
  },
  {
   "property": "C23",
   "status": "proved",
   "theorems": [
    "C23_tempo",
    "C23_panics_exactly",
    "C23_number_unique"
   ],
   "note": "C23_tempo: The tempo recorded for a file with an ID3v2 tag. C23_panics_exactly: Reading a file panics exactly if its tempo is too large. C23_number_unique: A text is a number in at most one way; and every number below 2^32 has one."
  },
  {
   "property": "C24",
   "status": "proved",
   "theorems": [
    "C24_decoded_by_offsets",
    "C24_no_panic",
    "C24_accepted_exactly",
    "C24_tail_ignored"
   ],
   "note": "C24_decoded_by_offsets: A datagram is decoded to [p] exactly if its bytes, at fixed offsets, say [p]. C24_no_panic: No datagram makes the decoder panic. C24_accepted_exactly: The datagrams that are accepted, in terms of their bytes. C24_tail_ignored: Bytes behind the first 54, cut off by the receive buffer or not, never matter."
  },
  {
   "property": "C25",
   "status": "proved",
   "theorems": [
    "C25_roundtrip_exactly",
    "C25_ip_claims_not_returned"
   ],
   "note": "C25_roundtrip_exactly: A packet is read back from its bytes exactly if it is consistent. C25_ip_claims_not_returned: The Ip claims the server sends, iterations and indices 1 to 6, are never decoded to themselves; what comes out has the sequence byte for iteration and the iteration for index."
  },
  {
   "property": "C26",
   "status": "proved",
   "theorems": [
    "C26_mac_claim",
    "C26_ip_claim",
    "C26_status"
   ],
   "note": "C26_mac_claim: The first kind of announcement, byte by byte. C26_ip_claim: The second kind. C26_status: The third kind."
  },
  {
   "property": "C27",
   "status": "proved",
   "theorems": [
    "C27_decode",
    "C27_decode_fails",
    "C27_encode"
   ],
   "note": "C27_decode: A name is read from 20 bytes, which are then consumed, exactly if they hold it. C27_decode_fails: It never panics and fails exactly if there are fewer than 20 bytes or they are not UTF-8. C27_encode: Encoding: 20 bytes that decode to the name without its trailing NULs, or a panic if the name is longer."
  },
  {
   "property": "C28",
   "status": "proved",
   "theorems": [
    "C28_hears_one_list",
    "C28_players_are_the_heard",
    "C28_frozen_afterwards",
    "C28_every_history"
   ],
   "note": "C28_hears_one_list: Every history hears exactly one list of devices. C28_players_are_the_heard: The player list is the list of the devices heard, by first appearance, with their first model and their last number. C28_frozen_afterwards: When the program no longer takes notice, the list stays as it was. C28_every_history: Together, for every history: the list is that of a prefix of the history, which is the whole of it or ends just before the program stops taking notice."
  },
  {
   "property": "C29",
   "status": "proved",
   "theorems": [
    "C29_as_many_changes_as_players",
    "C29_changed_by_first_mention"
   ],
   "note": "C29_as_many_changes_as_players: In all, as many device changes are queued as there are players. C29_changed_by_first_mention: A datagram queues a device change exactly if it is a status that is taken notice of, from an address not heard before."
  },
  {
   "property": "C30",
   "status": "proved",
   "theorems": [
    "C30_no_network_before",
    "C30_follows_last_status",
    "C30_frozen_afterwards",
    "C30_sent_on_that_network",
    "C30_periodic_announcement"
   ],
   "note": "C30_no_network_before: Before any status is heard there is no network; afterwards it is the one chosen for the last status taken notice of. C30_follows_last_status: The network is the one of the last status heard. C30_frozen_afterwards: It stays as it was once the program no longer listens. C30_sent_on_that_network: Everything sent is a broadcast on that network, port 50000, and is one of its announcements. C30_periodic_announcement: A turn of the broadcaster announces exactly once if a network is known."
  },
  {
   "property": "C31",
   "status": "proved",
   "theorems": [
    "C31_never_undone",
    "C31_linking_exactly",
    "C31_first_in_first_out",
    "C31_requested_exactly",
    "C31_handshake",
    "C31_handshake_content"
   ],
   "note": "C31_never_undone: Once made, the handshake is never forgotten. C31_linking_exactly: Linking is on exactly once a link request has been handled. C31_first_in_first_out: Events are handled in the order in which they were queued. C31_requested_exactly: A link request is queued exactly by a status taken notice of before the first link request has been handled. C31_handshake: The handling of a link request with all sockets available. C31_handshake_content: Its content: forty datagrams; the number of each kind, iteration and index."
  },
  {
   "property": "C32",
   "status": "proved",
   "theorems": [
    "C32_no_effect",
    "C32_rekordbox_is_no_status",
    "C32_own_datagrams_ignored"
   ],
   "note": "C32_no_effect: A datagram that is not the status of another device has no effect at all. C32_rekordbox_is_no_status: A datagram with the name rekordbox is no status of another device. C32_own_datagrams_ignored: Whatever the program sends itself has no effect when it comes back."
  },
  {
   "property": "C33",
   "status": "proved",
   "theorems": [
    "C33_terminates_exactly",
    "C33_one_datagram_suffices",
    "C33_no_datagram_ends_it_refuted",
    "C33_safe_once_linked"
   ],
   "note": "The natural stronger claim is false: C33_no_datagram_ends_it_refuted gives a witness. The other theorems say what holds. C33_terminates_exactly: The step that ends the program. C33_one_datagram_suffices: Before linking, one status naming an address on none of the local networks ends the program as soon as the application has worked off its queue. C33_no_datagram_ends_it_refuted: The claim that no datagram can end the program is false. C33_safe_once_linked: Once a link request has been handled and none is left, nothing ends it."
  },
  {
   "property": "C34",
   "status": "proved",
   "theorems": [
    "C34_first_containing",
    "C34_none_only_if_none_contains",
    "C34_panics_exactly",
    "C34_no_other_outcome"
   ],
   "note": "C34_first_containing: The network found is the first in interface order that contains the address. C34_none_only_if_none_contains: No interface is found exactly if every network is passed over. C34_panics_exactly: The lookup is a panic exactly if a network without a hardware address comes before one that contains the address. C34_no_other_outcome: It never returns an error."
  },
  {
   "property": "C35",
   "status": "proved",
   "theorems": [
    "C35_contains",
    "C35_broadcast_is_largest",
    "C35_mask"
   ],
   "note": "C35_contains: A network contains an address exactly if they agree in the leading bits, that is, lie in the same block. C35_broadcast_is_largest: The broadcast address is in the network, and no address of it is larger. C35_mask: The mask has exactly the leading bits set."
  },
  {
   "property": "C36",
   "status": "proved",
   "theorems": [
    "C36_stopped_exactly",
    "C36_silent_afterwards",
    "C36_unstoppable_refuted"
   ],
   "note": "The natural stronger claim is false: C36_unstoppable_refuted gives a witness. The other theorems say what holds. C36_stopped_exactly: The service is alive after a history exactly if no datagram of it stops it. C36_silent_afterwards: After a stopping datagram nothing is ever sent again. C36_unstoppable_refuted: 34 bytes of an unknown kind suffice, for every kind byte not understood."
  },
  {
   "property": "C37",
   "status": "proved",
   "theorems": [
    "C37_answers",
    "C37_reply_layout",
    "C37_reply_count"
   ],
   "note": "C37_answers: Over a history without a stopping datagram, each input is answered as specified, in order. C37_reply_layout: The replies have the documented sizes and the reader of the fixed offsets finds the fields in them. C37_reply_count: Number of replies: as many as hellos and link queries."
  },
  {
   "property": "C38",
   "status": "proved",
   "theorems": [
    "C38_encode",
    "C38_decode_encoded",
    "C38_decode"
   ],
   "note": "C38_encode: A text that fits is padded with zeros to the width; one that does not is a panic. C38_decode_encoded: Decoding an encoded text gives the text followed by NULs up to the capacity; it is the text itself exactly if it fills the capacity. C38_decode: Decoding in general, and that it never panics."
  },
  {
   "property": "C39",
   "status": "proved",
   "theorems": [
    "C39_only_periodic",
    "C39_nine_bytes_early"
   ],
   "note": "C39_only_periodic: Of all status packets, only link replies with the content [periodic_reply] from player 17 survive a round trip. C39_nine_bytes_early: The decoder reads every field nine bytes before the place where the encoder puts it."
  },
  {
   "property": "C40",
   "status": "proved",
   "theorems": [
    "C40_accepted_exactly",
    "C40_standard_calls_followed",
    "C40_standard_calls_understood",
    "C40_without_credentials_rejected",
    "C40_lookup_without_credentials_refuted",
    "C40_longer_credentials_refuted"
   ],
   "note": "The natural stronger claim is false: C40_lookup_without_credentials_refuted, C40_longer_credentials_refuted give witnesses. The other theorems say what holds. C40_accepted_exactly: A datagram is taken as the call [m] exactly if its bytes say so. C40_standard_calls_followed: A standard call with a 20-byte AUTH_UNIX credential (no machine name, no supplementary groups) and an empty null verifier is read as that call, whatever follows it. Mount paths of an even number of units are C43. C40_standard_calls_understood: Calls as the RFCs write them, with empty machine name and groups, are decoded to what they say. C40_without_credentials_rejected: A client that sends no credentials is not understood: none of its standard calls is accepted, as long as the names in them have no U+0000. C40_lookup_without_credentials_refuted: With U+0000 in the name it can be misread: a standard lookup of the root folder, sent without credentials, is taken for a lookup of another name. C40_longer_credentials_refuted: With any other AUTH_UNIX credential the call can be misread without notice: here a standard read of 100 bytes at offset 8, from a client that is in one group, is taken for a read of 8 bytes at another offset through another handle."
  },
  {
   "property": "C41",
   "status": "proved",
   "theorems": [
    "C41_standard_reply",
    "C41_standard_results"
   ],
   "note": "C41_standard_reply: The datagram of a reply is the standard accepted reply to the call's xid, padded with fewer than four zero bytes to a multiple of four. C41_standard_results: The whole datagrams: the results are the standard ones, apart from the export list (C42)."
  },
  {
   "property": "C42",
   "status": "proved",
   "theorems": [
    "C42_every_list",
    "C42_told_apart",
    "C42_told_apart_refuted",
    "C42_one_export",
    "C42_no_groups",
    "C42_longer_lists_refuted",
    "C42_server_export"
   ],
   "note": "The natural stronger claim is false: C42_told_apart_refuted, C42_longer_lists_refuted give witnesses. The other theorems say what holds. C42_every_list: Of all export lists that fit a datagram, a standard reader finds exactly these: the empty one, one export without groups, and one export with one group whose path has an odd number of UTF-16 units. C42_told_apart: Two lists of exports without empty texts that are sent as the same datagram are the same list. C42_told_apart_refuted: With empty texts the claim is false: six empty groups are sent as one empty group and three exports of an empty path. C42_one_export: A standard reader finds the export, with its group, exactly if the path has an odd number of UTF-16 units; it is at the end of the datagram afterwards exactly if, moreover, the length of the group name is 1 or 2 modulo 4. C42_no_groups: Without groups it is always found. C42_longer_lists_refuted: The claim for longer lists is false: two exports, or two groups, are not read although every length is chosen well. C42_server_export: The export list the server sends is read right by a standard reader for every address and mask (C42 for the actual server)."
  },
  {
   "property": "C43",
   "status": "proved",
   "theorems": [
    "C43_mount_accepted_exactly",
    "C43_standard_mount"
   ],
   "note": "C43_mount_accepted_exactly: A mount request is accepted exactly if at least two more bytes follow the path. C43_standard_mount: In standard form: exactly the paths of an odd number of units."
  },
  {
   "property": "C44",
   "status": "proved",
   "theorems": [
    "C44_panics_exactly",
    "C44_running_exactly",
    "C44_no_datagram_stops_it_refuted"
   ],
   "note": "The natural stronger claim is false: C44_no_datagram_stops_it_refuted gives a witness. The other theorems say what holds. C44_panics_exactly: Decoding panics exactly on datagrams of at least 8 bytes with message type 1. C44_running_exactly: The port mapper is still running after a history exactly if no input was of the kinds in [pm_stops]. C44_no_datagram_stops_it_refuted: The claim that no datagram can stop it is false: after these eight bytes nothing is ever answered, whatever comes and whoever sends."
  },
  {
   "property": "C45",
   "status": "proved",
   "theorems": [
    "C45_history",
    "C45_every_port_served_refuted"
   ],
   "note": "The natural stronger claim is false: C45_every_port_served_refuted gives a witness. The other theorems say what holds. C45_history: While it runs, every call gets exactly one reply, to its sender and with its transaction id, announcing the freshly allocated port; a service is started behind that port exactly for GETPORT; other datagrams get nothing. The input that stops it gets no reply, and nothing later gets anything. C45_every_port_served_refuted: The claim that every announced port is served is false: a standard DUMP call is answered with the port of a socket nobody serves."
  },
  {
   "property": "C46",
   "status": "proved",
   "theorems": [
    "C46_history",
    "C46_running_exactly"
   ],
   "note": "C46_history: The mount service answers each mount and export call, in order, to its sender and with its transaction id; it ends at the first input of the kinds in [ms_stops], without answering it, and answers nothing afterwards. C46_running_exactly: It is running after a history exactly if nothing in it stopped it."
  },
  {
   "property": "C47",
   "status": "proved",
   "theorems": [
    "C47_handle_layout",
    "C47_little_endian",
    "C47_big_endian_exactly"
   ],
   "note": "C47_handle_layout: The handle of an inode is its little-endian bytes and zeros, 32 bytes. C47_little_endian: On a little-endian host it reads back as the inode, for every 64-bit inode; handles of different inodes are different. C47_big_endian_exactly: On a big-endian host it does so exactly for the inodes whose eight bytes are a palindrome."
  },
  {
   "property": "C48",
   "status": "proved",
   "theorems": [
    "C48_walk",
    "C48_walk_then_read"
   ],
   "note": "C48_walk: From a fresh or reset position: looking up the names of a path in turn, where every proper prefix exists and the whole path is a readable regular file, answers every step with the handle and attributes of the prefix; the last handle stands for the opened file, and the position is reset. C48_walk_then_read: And a read through that handle, on a little-endian host, returns the bytes of the file (see C50)."
  },
  {
   "property": "C49",
   "status": "proved",
   "theorems": [
    "C49_handle_ignored",
    "C49_independent_walks_refuted",
    "C49_failed_lookup_harmless_refuted"
   ],
   "note": "The natural stronger claim is false: C49_independent_walks_refuted, C49_failed_lookup_harmless_refuted give witnesses. The other theorems say what holds. C49_handle_ignored: Histories that differ only in the handles sent with lookups are answered the same, whatever the state. C49_independent_walks_refuted: Two walks, to \"/a/x\" and to \"/b/x\", are each answered when made one after the other, and when interleaved neither reaches its file: the second lookup of the interleaving is made in the directory of the other walk. C49_failed_lookup_harmless_refuted: The claim that a lookup that gets no answer changes nothing is false: \"/c\" exists but cannot be opened, and afterwards \"a\" is sought in \"/c\"."
  },
  {
   "property": "C50",
   "status": "proved",
   "theorems": [
    "C50_range",
    "C50_served",
    "C50_short_read_refuted"
   ],
   "note": "The natural stronger claim is false: C50_short_read_refuted gives a witness. The other theorems say what holds. C50_range: A read of [cnt] bytes at [start] always gives [cnt] bytes: those of the file where it has them, zeros after its end. (One read call of Linux returns at most 2147479552 bytes; past them there are zeros as well.) C50_served: Over the network: a read of at most 65404 bytes through a handle of an open file is answered with exactly these bytes, in any history. C50_short_read_refuted: The standard's short read at the end of the file never happens: a read that reaches past the end returns more bytes than the file has left."
  },
  {
   "property": "C51",
   "status": "proved",
   "theorems": [
    "C51_heard",
    "C51_standard_calls_heard",
    "C51_history"
   ],
   "note": "C51_heard: Every datagram is heard in exactly one way. C51_standard_calls_heard: Standard calls of the NFS procedures are heard as such. C51_history: In a history in which the service is not killed and every reply can be sent, every input is answered as [replies] says: a lookup through the file system at the current position, a read or attribute request only through a handle whose inode number was given out for a regular file opened earlier in the same session, and then from the file most recently opened for it; other procedures, unknown handles and failures of the file system get no reply."
  },
  {
   "property": "C52",
   "status": "proved",
   "theorems": [
    "C52_attributes",
    "C52_size_exactly",
    "C52_large_file_refuted"
   ],
   "note": "The natural stronger claim is false: C52_large_file_refuted gives a witness. The other theorems say what holds. C52_attributes: Attributes are made exactly if the three times are known, and are then the 68 bytes of the standard, every number reduced modulo 2^32. C52_size_exactly: The size (as the other counts) is right exactly below 2^32. C52_large_file_refuted: A file of 4 GiB is announced as empty."
  },
  {
   "property": "C53",
   "status": "proved",
   "theorems": [
    "C53_distinct_inodes",
    "C53_handles_identify_files_refuted"
   ],
   "note": "The natural stronger claim is false: C53_handles_identify_files_refuted gives a witness. The other theorems say what holds. C53_distinct_inodes: Whatever is looked up after a file, as long as the inode numbers differ, reads through its handle still return its bytes. C53_handles_identify_files_refuted: Handles do not identify files: with equal inode numbers (7, on two devices), after both lookups a read through the first handle returns the bytes of the second file."
  },
  {
   "property": "C54",
   "status": "proved",
   "theorems": [
    "C54_accepts_exactly",
    "C54_none_after_failure",
    "C54_discovery_continues",
    "C54_status_continues",
    "C54_connections_continue",
    "C54_port_mapper_alone"
   ],
   "note": "C54_accepts_exactly: A connection to port 12523 is accepted exactly if the ports could be bound at the start, the process is running, the port mapper has received nothing that stops it, and the listener gets its turn. C54_none_after_failure: In particular none is, ever after something has stopped the port mapper. C54_discovery_continues: Discovery and linking go on as if nothing else existed. C54_status_continues: So does the status service, while the process runs. C54_connections_continue: Connections accepted before, and the ports given out on them, are served as if nothing else existed; there is one history of events at them. C54_port_mapper_alone: The port mapper does not depend on the listener, nor on anything else."
  },
  {
   "property": "C55",
   "status": "proved",
   "theorems": [
    "C55_utf8_lossless",
    "C55_utf8_only_encodings",
    "C55_utf16_lossless",
    "C55_utf16_only_encodings"
   ],
   "note": "C55_utf8_lossless: Every text is decoded from its UTF-8 form. C55_utf8_only_encodings: Nothing but the UTF-8 form of a text decodes to it. C55_utf16_lossless: Every text is decoded from its UTF-16 form. C55_utf16_only_encodings: Nothing but the UTF-16 form of a text decodes to it."
  },
  {
   "property": "C56",
   "status": "proved",
   "theorems": [
    "C56_window_ignored",
    "C56_limit_refuted"
   ],
   "note": "The natural stronger claim is false: C56_limit_refuted gives a witness. The other theorems say what holds. C56_window_ignored: The answer to Render does not depend on its arguments. C56_limit_refuted: The claim that a Render for a window of [limit] rows (third argument) gets at most that many is false."
  },
  {
   "property": "C57",
   "status": "proved",
   "theorems": [
    "C57_ports_announced",
    "C57_fresh_handler"
   ],
   "note": "C57_ports_announced: Every chunk on the query port is answered, in order, with the two bytes of the port handed out for it. C57_fresh_handler: The announced bytes name the port, and behind it a connection starts afresh, whatever happened before."
  },
  {
   "property": "C58",
   "status": "proved",
   "theorems": [
    "C58_poisoned_exactly",
    "C58_silent_afterwards"
   ],
   "note": "C58_poisoned_exactly: The mutex is poisoned exactly by a failing interface lookup, a failing socket of the broadcaster, or a failing socket of the handshake. C58_silent_afterwards: Afterwards it stays poisoned, nothing is sent and nothing queued, players and network stay as they were, and handling a link request ends the program."
  },
  {
   "property": "C59",
   "status": "proved",
   "theorems": [
    "C59_requests_by_inputs",
    "C59_requests_exactly",
    "C59_only_once_refuted"
   ],
   "note": "The natural stronger claim is false: C59_only_once_refuted gives a witness. The other theorems say what holds. C59_requests_by_inputs: No input queues two requests. C59_requests_exactly: The number of requests queued in a history is the number of statuses heard before the first request is handled (or before the program stops taking notice): [before] is all of the history up to that point. C59_only_once_refuted: The claim that the handshake is made at most once is false: it is made as often as statuses are queued before it is first handled."
  },
  {
   "property": "C60",
   "status": "proved",
   "theorems": [
    "C60_oversized_read_silences_refuted",
    "C60_delivery"
   ],
   "note": "The natural stronger claim is false: C60_oversized_read_silences_refuted gives a witness. The other theorems say what holds. C60_oversized_read_silences_refuted: One read of more than 65404 bytes through a valid handle silences the service for good: neither it nor anything later is answered, whatever is asked and whoever asks. C60_delivery: Whatever sends fail: the datagrams sent, in order and each at most once, are some of the replies of the history. If every reply fits in a datagram and a repeated send works, none is lost: each is sent in order, the last perhaps still waiting."
  },
  {
   "property": "C61",
   "status": "proved",
   "theorems": [
    "C61_any_file",
    "C61_whole_file",
    "C61_stranger"
   ],
   "note": "C61_any_file: Lookups are not confined: in any state of the walk, a lookup of an absolute path of a readable file opens that file, and its handle then gives its bytes. C61_whole_file: A lookup of the absolute path of a readable regular file, wherever walks have gone before, and then reads of its pieces in any order with anything in between, give the whole file. C61_stranger: So anybody who can reach the machine can fetch any file the program can read, with no password and without being known as a device: a call to the port mapper starts a file service and tells its port, and that service gives the file."
  },
  {
   "property": "C62",
   "status": "proved",
   "theorems": [
    "C62_running_exactly",
    "C62_silent_after",
    "C62_killers"
   ],
   "note": "C62_running_exactly: The service runs after a history exactly if it was never killed: by a type-1 datagram, or by needing attributes of a file one of whose times is unknown. C62_silent_after: Once killed, nothing is answered any more. C62_killers: The inputs that kill: exactly type-1 datagrams, and calls that succeed but for a missing time."
  },
  {
   "property": "C63",
   "status": "proved",
   "theorems": [
    "C63_nfs_service_alone",
    "C63_mount_service",
    "C63_silent_before_start"
   ],
   "note": "C63_nfs_service_alone: An NFS service answers as if it were alone from the moment it was started; neither the other services nor the end of the port mapper touch it. C63_mount_service: A mount service depends on nothing but its datagrams and what discovery and linking have found by the time of each. C63_silent_before_start: At a port nobody was given, nothing is answered."
  },
  {
   "property": "C64",
   "status": "proved",
   "theorems": [
    "C64_export_reply",
    "C64_export_before_discovery"
   ],
   "note": "C64_export_reply: The answer to an EXPORT call: the network found for the last device heard. Without one, or once the shared state is unusable, there is no answer and the service is gone. C64_export_before_discovery: Before any device has been heard an EXPORT call ends the service."
  },
  {
   "property": "C65",
   "status": "proved",
   "theorems": [
    "C65_ends_exactly",
    "C65_nothing_after"
   ],
   "note": "C65_ends_exactly: The end of the process: exactly in a turn of the application that takes a link request and finds the shared state unusable, no network or no socket; nothing received on any port ends it at once. C65_nothing_after: After it nothing is sent or accepted on any port; nor is anything ever if the port of the keep-alive or of the status service could not be bound."
  },
  {
   "property": "C66",
   "status": "proved",
   "theorems": [
    "C66_browsing",
    "C66_metadata",
    "C66_listed_once"
   ],
   "note": "C66_browsing: Browsing from the artists over their titles to the file, with any questions asked before on any connections, shows exactly the music of the folder. C66_metadata: The metadata page of a track is that of the file it is loaded from. C66_listed_once: A file is listed once: under one artist, with one id."
  },
  {
   "property": "C67",
   "status": "proved",
   "theorems": [
    "C67_path_parts",
    "C67_load",
    "C67_load_in_process"
   ],
   "note": "C67_path_parts: The path a player is given is an absolute path with exactly one list of parts, and these are the names of a music file. C67_load: A player that walks along the path it was given and reads the file in pieces, after any earlier calls that went well and left no walk unfinished, gets the file's handle and then exactly its bytes. C67_load_in_process: The same in the running process, whatever its other parts do meanwhile: the datagrams an NFS service has received since it was started are earlier calls, the walk and the reads."
  },
  {
   "property": "C68",
   "status": "proved",
   "theorems": [
    "C68_schedules_are_histories",
    "C68_ends_are_histories",
    "C68_histories_are_schedules",
    "C68_players_are_the_heard"
   ],
   "note": "C68_schedules_are_histories: Whenever no thread is in the middle of its turn, the state is that of a history of whole turns with the same datagrams received, the same datagrams sent and the same events queued and taken. C68_ends_are_histories: The action that ends the main thread ends such a history as well. C68_histories_are_schedules: And every history is the work of some schedule. C68_players_are_the_heard: So the players known between turns are those of the datagrams received so far, whatever the threads did in between."
  },
  {
   "property": "C69",
   "status": "proved",
   "theorems": [
    "C69_never_torn",
    "C69_one_per_request",
    "C69_silent_after_failure"
   ],
   "note": "C69_never_torn: What has been sent consists of periodic announcements and whole handshakes, each on one network; only the last handshake can be unfinished: it is under way, or the main thread has panicked in it. C69_one_per_request: One handshake for each link request taken, once it has been dealt with. C69_silent_after_failure: After a panic within the handshake nothing more is sent, even if the other threads go on."
  },
  {
   "property": "C70",
   "status": "proved",
   "theorems": [
    "C70_one_at_a_time",
    "C70_no_deadlock",
    "C70_lets_go",
    "C70_fairness_refuted"
   ],
   "note": "The natural stronger claim is false: C70_fairness_refuted gives a witness. The other theorems say what holds. C70_one_at_a_time: The shared state is used by one thread at a time. C70_no_deadlock: Every thread with work to do can go on, or waits for one that can. C70_lets_go: A thread that uses the state lets go of it within 41 of its own actions; then nobody uses it, and whoever waits can have it. C70_fairness_refuted: But it is not guaranteed which thread gets it: a status announcement can wait for any number of turns of the broadcast thread."
  },
  {
   "property": "C71",
   "status": "proved",
   "theorems": [
    "C71_setup",
    "C71_preview_waveform",
    "C71_load_track"
   ],
   "note": "C71_setup: The setup request is answered with the two numbers 0 and 17 (0x11, rekordbox's place among the player numbers). C71_preview_waveform: The preview of a waveform is the same for every track and every request: one blob of 904 bytes, announced with its size. C71_load_track: The request sent when a track is loaded is answered with an empty blob."
  },
  {
   "property": "C72",
   "status": "proved",
   "theorems": [
    "C72_decoded_by_offsets",
    "C72_at_most_one",
    "C72_kinds",
    "C72_written"
   ],
   "note": "C72_decoded_by_offsets: A status datagram is decoded to [p] exactly if its bytes, at fixed offsets, say [p]. C72_at_most_one: Every datagram is decoded, refused, or makes the decoder panic (C36), and says at most one packet. C72_kinds: The kind of a status datagram is read from its code and written as its code; a code without a kind is kept. C72_written: What a status packet is written as, exactly; any other packet makes the encoder panic."
  },
  {
   "property": "C73",
   "status": "proved",
   "theorems": [
    "C73_pauses",
    "C73_rate",
    "C73_handshake_takes",
    "C73_all_schedules",
    "C73_possible_times"
   ],
   "note": "C73_pauses: Datagrams are received at least 250 ms apart, periodic announcements sent at least 500 ms apart, events taken at least 150 ms apart, and the datagrams of handshakes sent at least 100 ms apart. C73_rate: So in any [d] ms no more than [d/100 + d/500 + 2] datagrams are sent. C73_handshake_takes: A handshake that comes to its end takes at least 3.95 s, in which no other thread gets at the shared state: no announcement is sent and no status noted. C73_all_schedules: The pauses exclude none of the schedules of C68-C70. C73_possible_times: And nothing else delays a thread: the possible times are exactly those in order that leave each thread its rests, from the very start."
  },
  {
   "property": "C74",
   "status": "proved",
   "theorems": [
    "C74_once",
    "C74_bound_is_sharp"
   ],
   "note": "C74_once: If no thread is left waiting for longer than 16 ms, the handshake is asked for at most once, and made at most once. C74_bound_is_sharp: With a delay of 17 ms it can be made twice."
  },
  {
   "property": "C75",
   "status": "proved",
   "theorems": [
    "C75_linked_in_time"
   ],
   "note": "C75_linked_in_time: And the whole handshake has been sent, exactly once, at most 4.786 s after a status has been handled, unless the main thread has panicked or a thread has panicked with the shared state."
  },
  {
   "property": "C76",
   "status": "proved",
   "theorems": [
    "C76_announces_again"
   ],
   "note": "C76_announces_again: If no thread is left waiting for longer than 16 ms, then after an announcement the next one is sent within 5.38 s, handshakes and statuses notwithstanding, as long as the program knows its network and no thread has panicked with the shared state."
  },
  {
   "property": "C77",
   "status": "proved",
   "theorems": [
    "C77_schedules_are_histories",
    "C77_answers_are_those_of_histories",
    "C77_histories_are_schedules"
   ],
   "note": "C77_schedules_are_histories: Whatever the threads and the services do at the same time, when no thread is in the middle of its turn everything is as after some history of whole turns: the same happened at the services, each of them sent the same at once, and they are in the same state; the threads received, sent, queued and took the same, and the shared state is the same. C77_answers_are_those_of_histories: At any other moment before the main thread panics, the services have still answered as in some history of whole turns; at most the last datagram received by the keep-alive service has had no effect yet. C77_histories_are_schedules: And every history of whole turns the process survives is the work of some schedule."
  },
  {
   "property": "C78",
   "status": "proved",
   "theorems": [
    "C78_only_export_waits",
    "C78_not_within_handshake",
    "C78_waits_for_one_turn",
    "C78_export_reply"
   ],
   "note": "C78_only_export_waits: Of all that can arrive at the services only an EXPORT call can have to wait, and it waits exactly while one of the threads uses the shared state. C78_not_within_handshake: An EXPORT call is never answered within a handshake: what has been sent by then consists of announcements and whole handshakes. C78_waits_for_one_turn: It waits at most for 41 actions of the thread that uses the shared state: within them there is a moment at which any EXPORT call is taken at once. C78_export_reply: The answer names the network chosen for the last device whose status has been handled, whatever else is going on; without one the service ends in silence."
  },
  {
   "property": "C79",
   "status": "proved",
   "theorems": [
    "C79_conversation",
    "C79_not_given_out"
   ],
   "note": "C79_conversation: At a port that was given out, the first client to connect is answered as if it were alone with the database: each chunk, in order, from the state its own earlier chunks have left. C79_not_given_out: At a port that was not given out, nobody is answered."
  },
  {
   "property": "C80",
   "status": "proved",
   "theorems": [
    "C80_only_music",
    "C80_all_music",
    "C80_session"
   ],
   "note": "C80_only_music: What a player sees in the running process, going from the artists over the titles to the file on any connections, is music of the folder. C80_all_music: Every music file of the folder with a path in Unicode can be seen so: its artist, title and file have ids under which they are in every page a player asks for, whenever and on whatever connection it asks. C80_session: A player that has picked an artist and a title from the pages it was shown, and loads the file it was given over an NFS service of the same process, gets the bytes of a file with that artist and that title."
  },
  {
   "property": "C81",
   "status": "proved",
   "theorems": [
    "C81_no_more_than_asked",
    "C81_addressed",
    "C81_announcements",
    "C81_silent",
    "C81_sizes"
   ],
   "note": "C81_no_more_than_asked: No correspondent is ever sent more than it has sent. C81_addressed: Whatever goes out is an announcement or goes to a correspondent. C81_announcements: Announcements: one for a turn of the broadcast thread, and forty for a status heard on port 50000, at most. C81_silent: Nothing at all goes out, whoever connects or listens and however long it runs, as long as no player has announced itself and nobody has asked for anything. C81_sizes: And nothing that goes out is larger than its kind allows, whatever came in."
  },
  {
   "property": "C82",
   "status": "proved",
   "theorems": [
    "C82_database_ports",
    "C82_service_ports",
    "C82_idle_ports_kept",
    "C82_files_kept"
   ],
   "note": "C82_database_ports: Every port handed out on port 12523 is held until its one client is done with it: what is held is what was given minus what has ended, so that, with ports being finitely many, only ended conversations make room for new ones. C82_service_ports: The same for the services the port mapper starts. C82_idle_ports_kept: A port that nobody uses is never given back. C82_files_kept: A file service keeps one open file for each file ever looked up, and closes none of them while it runs."
  },
  {
   "property": "C83",
   "status": "proved",
   "theorems": [
    "C83_rate",
    "C83_same_answers",
    "C83_waiting",
    "C83_at_once",
    "C83_schedules",
    "C83_all_histories"
   ],
   "note": "C83_rate: The service receives no two datagrams within less than 150 ms of each other, and so replies at most [d/150 + 1] times in [d] ms, however many ask. C83_same_answers: The pauses change neither what is answered nor what ends the service. C83_waiting: A datagram waits for those before it: 150 ms for each, and hardly longer. C83_at_once: Datagrams that come slowly enough are answered at once. C83_schedules: Nothing else delays it: any times of receipt that far apart are possible, from the very start, as long as no datagram but the last ends the service. C83_all_histories: Every history of datagrams can be served at some times."
  },
  {
   "property": "C84",
   "status": "proved",
   "theorems": [
    "C84_one_entry_each",
    "C84_entry",
    "C84_iterate",
    "C84_index",
    "C84_codec_roundtrip",
    "C84_codec_empties",
    "C84_codec_waits_iff",
    "C84_codec_outcome",
    "C84_codec_second_lost",
    "C84_argument_encode",
    "C84_procedure",
    "C84_verifier",
    "C84_tracks_listed_iff",
    "C84_state",
    "C84_players_seen",
    "C84_array",
    "C84_name",
    "C84_lookup_default",
    "C84_getattr_reply"
   ],
   "note": "C84_one_entry_each: Every reported address is listed once, in the order of the first reports. C84_entry: After any calls, an entry has the name of the first report, the number of the last, and is linking exactly when it was reported or marked so and no one unmarked it since. C84_iterate: A loop over the players sees each of them once, the newest first, however often it may call on, and the number announced beforehand is the number of items that come. C84_index: An index answers exactly when it is below the length. C84_codec_roundtrip: What was encoded into an empty buffer is decoded, and nothing stays. C84_codec_empties: Every decode empties the buffer, whatever it held. C84_codec_waits_iff: An empty buffer is the only one that asks for more input: half a message is an error and not a reason to wait. C84_codec_outcome: Which bytes the decoder takes, which it refuses, and on which it panics: the same as those of the library's own parser (C06), but for the empty buffer. C84_codec_second_lost: Of two messages that arrive together the second is dropped. C84_argument_encode: The encoder of one argument writes what the encoder of a field writes, except that the bytes of a binary argument carry no length. C84_procedure: A procedure number is read as RFC 1094 names it, four bytes are consumed, and every other number and a shorter input are errors. C84_verifier: A verifier is written as two words, its flavour and a length of zero. Only the null flavour can be read back: every other is written as 16, which the reader refuses. C84_tracks_listed_iff: The claim \"the list of tracks is the tracks of the database\" holds only of a database that has none. C84_state: Each of the three fields is what the last call about it said, and at first no linking, no discovery and no network; the players and the field that nothing reads are not touched. C84_players_seen: What the running program hears is what can be read from the shared state: its list of players, in the order of the first datagrams. C84_array: A slice is copied into an array exactly if it is as long, and otherwise panics. C84_name: The name is \"TermDJ\" in UTF-16, most significant byte first. C84_lookup_default: The default lookup reply reads as success, the handle of zeros and a directory of which only the times are known. C84_getattr_reply: The attributes of a file are turned into a reply that reads as them, and panic exactly if one of its times is unknown."
  },
  {
   "property": "C85",
   "status": "proved",
   "theorems": [
    "C85_same_ids",
    "C85_same_answers",
    "C85_same_bytes",
    "C85_one_file_more",
    "C85_ids_last_refuted"
   ],
   "note": "The natural stronger claim is false: C85_ids_last_refuted gives a witness. The other theorems say what holds. C85_same_ids: After a restart every id names the same track and the same artist, and the lists have the same rows. C85_same_answers: Any conversation with the program, repeated after a restart, goes the same way: as many answers, each the same but for the order of rows. C85_same_bytes: If it never asks for one of the two lists, the answers are the same to the byte. C85_one_file_more: A file that is new in the folder, at any place of the scan, takes the id of the one that was there; that one and all behind it move up by one id, those before it keep theirs, and all keep title, path, size, tempo and artist. C85_ids_last_refuted: The claim \"an id names the same file after the next start\" is false as soon as a file was added before it: the id then leads to another file."
  },
  {
   "property": "C86",
   "status": "proved",
   "theorems": [
    "C86_starts_or_panics",
    "C86_not_started",
    "C86_link",
    "C86_room_for_path",
    "C86_only_songs",
    "C86_all_songs",
    "C86_no_songs",
    "C86_session"
   ],
   "note": "C86_starts_or_panics: The program starts, or it panics before it has bound a port; and it panics exactly if, in a checked build, a visible mp3 file in the folder has a tempo that does not fit. C86_not_started: If it panics, nothing is ever answered. C86_link: A link to the folder is as good as the folder. C86_room_for_path: The built-in part of a path takes 25 of the 127 units a text can have. C86_only_songs: Whatever happens in the process, an artist, a title and a path that a player reads belong to a song of the folder; C86_all_songs: and every song with a path in Unicode is shown wherever a player asks. C86_no_songs: If there is no song, not even a folder, the program runs all the same: every list of artists asked for is an empty page. C86_session: A player that has picked an artist and a title from the pages it was shown, walks along the path it was given and reads the file in pieces, gets the bytes of a song of the folder with that artist, title and size."
  },
  {
   "property": "C87",
   "status": "proved",
   "theorems": [
    "C87_calls_again",
    "C87_lookup_again",
    "C87_repeated_lookup_harmless_refuted",
    "C87_two_tries",
    "C87_mount_again",
    "C87_getport_again",
    "C87_request_again",
    "C87_request_lost",
    "C87_heard_again",
    "C87_status_again"
   ],
   "note": "The natural stronger claim is false: C87_repeated_lookup_harmless_refuted gives a witness. The other theorems say what holds. C87_calls_again: After a history that went well, a call other than a lookup, for example a read, can be repeated and can be lost: the copy gets the same answer, and all other answers, before and after, are the same with two, one and no copies. C87_lookup_again: A lookup cannot. The copy of the lookup of a name is a lookup elsewhere: of the name inside the folder that was found, or, if a file was found, of the name in the root. C87_repeated_lookup_harmless_refuted: The claim that a lookup may be repeated without harm is false: the next one fails or finds another file. C87_two_tries: Starting over helps. Wherever lost and repeated lookups have left the service, in a file system in which everything can be opened: a client that looks up the names of a file one by one gets an answer to each, or, having been left without an answer once, gets the right answer to each the second time. C87_mount_again: A datagram that does not end the mount service can be repeated and lost. C87_getport_again: Every copy of a request for a port starts one more service, on a port of its own: the claim that asking again changes nothing is false. C87_request_again: A request that was answered can be made again: the answer is the same, and so are all other answers. C87_request_lost: A request that asks for no menu can also be left out. C87_heard_again: In any state, a keep-alive datagram that comes twice in a row changes what is known as if it had come once; the copy announces no new device, and asks for a link exactly if the first one did. C87_status_again: A status datagram that does not end the service is answered each time it comes, and has no effect on the others."
  },
  {
   "property": "C88",
   "status": "proved",
   "theorems": [
    "C88_calls_in_any_order",
    "C88_call_and_lookup",
    "C88_lookups_in_any_order_refuted",
    "C88_requests_in_any_order",
    "C88_mount_in_any_order",
    "C88_portmap_in_any_order",
    "C88_status_in_any_order",
    "C88_devices_exchanged",
    "C88_devices_exchanged_for_good",
    "C88_devices_in_any_order_refuted"
   ],
   "note": "The natural stronger claim is false: C88_lookups_in_any_order_refuted, C88_devices_in_any_order_refuted give witnesses. The other theorems say what holds. C88_calls_in_any_order: After a history that went well, a block of calls without lookups, for example the reads of a file, can arrive in any order: every call of the block gets the same answer, and the answers to everything else are the same. C88_call_and_lookup: A call without a lookup can also change places with the lookup that comes after it, unless that lookup opens a file of the inode the call is about. C88_lookups_in_any_order_refuted: Two lookups cannot: the lookups of a folder and of a file in it, exchanged, look up the file in the root and leave the service in the folder. Nor can a lookup and a read of the file it opens. C88_requests_in_any_order: On a connection, a block of answered requests that ask for no menu, for example for the pages of one, can arrive in any order. C88_mount_in_any_order: Datagrams that do not end the service can arrive in any order: each gets the answers it gets alone. C88_portmap_in_any_order: Calls to the port mapper, in any order, get the same answers each. C88_status_in_any_order: Datagrams at the status service, in any order, get the same answers each. C88_devices_exchanged: Two keep-alive datagrams in a row, at most one of which is a status, or both of different devices on one network, can change places: the events of each are the same, the devices known are the same in another order, and so is the network. C88_devices_exchanged_for_good: If moreover both devices were known before, or neither, the program goes on in the same way whatever comes after. C88_devices_in_any_order_refuted: Without this condition it may not: with a status of a known and one of a new device exchanged, the application takes another event at its third turn, and sends another handshake or does not. And two statuses of one device leave its number as the last of them says."
  },
  {
   "property": "C89",
   "status": "proved",
   "theorems": [
    "C89_handle_keeps_its_file",
    "C89_attributes",
    "C89_handles_tell_files_apart",
    "C89_handle_after_restart_refuted",
    "C89_folder_handle_refuted",
    "C89_raced_lookup_refuted"
   ],
   "note": "The natural stronger claim is false: C89_handle_after_restart_refuted, C89_folder_handle_refuted, C89_raced_lookup_refuted give witnesses. The other theorems say what holds. C89_handle_keeps_its_file: A handle keeps meaning the file it was given for. In a service that goes on and on a disk that may change in any way in between (the file be renamed, removed, replaced by another of the same name, written to), the lookup is answered with a handle, and any later read through it returns the bytes the same file has then. C89_attributes: The same for attributes: they are those the same file has then. C89_handles_tell_files_apart: Two lookups of regular files in one service, whenever made, got the same handle exactly if they found the same file. C89_handle_after_restart_refuted: The handle is good only in the service that gave it out. When the service is gone its files are closed, and another file may get the inode number: in the service started next, the old handle reads that file. C89_folder_handle_refuted: The handle of a folder is not kept: folders are not held open. When the folder is removed and its inode number used again, its handle reads the file that has it, in the same service. C89_raced_lookup_refuted: A lookup looks twice, at the attributes and then at the file. If the name is given to another file between the two, the answer is the handle and the attributes of the first file, and the handle reads the second."
  },
  {
   "property": "C90",
   "status": "proved",
   "theorems": [
    "C90_discovery",
    "C90_announcement",
    "C90_player_heard",
    "C90_hello_answered",
    "C90_link_answered",
    "C90_getport_answered",
    "C90_export_answered_refuted"
   ],
   "note": "The natural stronger claim is false: C90_export_answered_refuted gives a witness. The other theorems say what holds. C90_discovery: Handling a link request sends exactly the forty recorded datagrams, in the recorded order, with the addresses of the machine in place of those recorded. C90_announcement: The announcement repeated afterwards is the recorded one but for one number, the two bytes at 51, which is 4 on record and 1 here. C90_player_heard: The announcement of a player, as recorded, makes the player known, whatever its number and its addresses. C90_hello_answered: A recorded datagram of a player to the status service is answered with the recorded answer, but for the two names: the program is called \"Linux\" in place of \"rekordbox\", the machine \"Term DJ\". C90_link_answered: A link query from a player that names its byte 1, as the recorded answer does, gets the recorded answer, again but for the names. C90_getport_answered: The recorded question for the port of the mount service starts one and gets the recorded answer with its port, for every transaction and stamp. C90_export_answered_refuted: The recorded question for the export list is answered, but never with the recorded answer: rekordbox lists no export, the program lists one."
  },
  {
   "property": "C91",
   "status": "proved",
   "theorems": [
    "C91_same_index",
    "C91_read_differently",
    "C91_conversation",
    "C91_process",
    "C91_same_process"
   ],
   "note": "C91_same_index: If the checked build starts, the other starts with the same index. C91_read_differently: The builds read a chunk differently exactly if a text in it announces 0 or more than 2^31 units: the checked build then panics, and the other reads the request that both read with the size right. C91_conversation: Whatever a client sends, the checked build gives the answers of the other, up to the chunk at which it panics. C91_process: In the whole process: if the checked build starts, then nobody but the client of a database connection who sends such a text can tell the builds apart: every other correspondent is sent the same messages at the same moments, and the same announcements go out. C91_same_process: Without such texts the two are the same."
  },
  {
   "property": "C92",
   "status": "proved",
   "theorems": [
    "C92_in_process",
    "C92_received_in_order",
    "C92_all_received",
    "C92_whole_answers",
    "C92_send_reports",
    "C92_made_up_refuted",
    "C92_ports"
   ],
   "note": "The natural stronger claim is false: C92_made_up_refuted gives a witness. The other theorems say what holds. C92_in_process: In the running process, whatever the other players and the rest of the program do: over a connection whose failure lasts, the client at a port that was given out has received the answers the process makes there, one after the other, up to some byte; all of them, if no write fails. C92_received_in_order: If a failure of the connection lasts, as failures of TCP do, a client has at any time received the answers to its chunks, one after the other, up to some byte: none is lost or doubled or late. C92_all_received: If no write fails, the answers have arrived: to each chunk its own, at once. Reads that fail without ending the stream change nothing. C92_whole_answers: However writes fail and succeed again: what was written, with what still waits to be, are some of the answers, whole and in order; all of them as long as they are less than 8192 bytes together. C92_send_reports: A send that reports success has written everything that waited and all of the answer; it reports a failure exactly if the system failed a write that it had to make: of what waited, if that is 8192 bytes or more, or of all there is. C92_made_up_refuted: The claim that an answer lost to a failed write is made up for later is false. C92_ports: On a connection to port 12523 every chunk opens one port, whether or not its number gets through. What the client reads are the numbers of the ports opened for it, in order, two bytes each, up to some byte; all of them if no write fails. If writes fail and succeed again the numbers are in order still, whole, and complete as long as they are fewer than 4096."
  },
  {
   "property": "C93",
   "status": "proved",
   "theorems": [
    "C93_status_answer",
    "C93_mapper_answer",
    "C93_mount_answer",
    "C93_file_answer",
    "C93_amplification"
   ],
   "note": "C93_status_answer: The status service answers a datagram with at most one, to its sender, of 296 bytes for a greeting of at least 34 or of 192 bytes for a media query of at least 48. C93_mapper_answer: The port mapper answers with 28 bytes at most once, and only a datagram of at least 60. C93_mount_answer: The mount service answers with at most one datagram, to the sender: 60 bytes for a mount call of at least 66, or 72 to 88 bytes for an export call of at least 60. C93_file_answer: The file service, with no reply waiting to be sent again, answers a datagram with at most one, to its sender: 96 bytes of attributes for at least 92, 128 for a lookup of at least 96; for a read of at least 104 as many as it asks for, whatever the file contains. C93_amplification: Nobody can use the program to send somebody else much more than they send to it: the status service sends an address no more than 296 bytes for every 34 from there, the port mapper no more than 28 for every 60, and an RPC service no more than 65504 for every 104; only 88 for every 60 if none of the datagrams at its port is a read."
  },
  {
   "property": "C94",
   "status": "proved",
   "theorems": [
    "C94_decoding",
    "C94_too_much",
    "C94_own_size_refuted",
    "C94_reading",
    "C94_bound",
    "C94_kept"
   ],
   "note": "The natural stronger claim is false: C94_own_size_refuted gives a witness. The other theorems say what holds. C94_decoding: While a datagram is decoded, by any of the RPC services, room is set aside for the 32 bytes of a handle, and for as many bytes as the datagram announces for a text; for nothing else, and each once. C94_too_much: If there are fewer bytes than announced, nothing comes of the datagram: it is an error, and the port mapper, the mount service and the file services go on as if it had not come. C94_own_size_refuted: The claim that a datagram claims at most its own size is false. C94_reading: A file service that has seen the history [hs] and is running sets aside, beside that, the number of bytes that a read asks for, if its handle is one of a file opened before; not what the file has. C94_bound: So no allocation announced by a datagram reaches 2^32 bytes. C94_kept: Between datagrams a file service holds at most one reply, one it could not send: of 96 or 128 bytes, or a header and as many bytes as a read asked for."
  },
  {
   "property": "C95",
   "status": "proved",
   "theorems": [
    "C95_written_exactly",
    "C95_written_by_file_service",
    "C95_same_while_silent",
    "C95_ends_only_the_writer",
    "C95_ends_exactly",
    "C95_never_links",
    "C95_status_service",
    "C95_port_mapper",
    "C95_connection",
    "C95_file_service",
    "C95_granted",
    "C95_refused",
    "C95_refused_port",
    "C95_refused_announcement",
    "C95_output_does_not_matter_refuted"
   ],
   "note": "The natural stronger claim is false: C95_output_does_not_matter_refuted gives a witness. The other theorems say what holds. C95_written_exactly: The steps that write a line, in terms of the bytes received. C95_written_by_file_service: A file service writes a line for what it cannot read and for every call it does not answer. C95_same_while_silent: As long as nothing would be written, nothing differs. C95_ends_only_the_writer: A line that cannot be written ends whoever writes it, before anything is sent, and nobody else. C95_ends_exactly: The process that cannot write ends exactly when its main thread notices the first device. C95_never_links: It never takes part in the link handshake: all it ever sends is its periodic announcement. C95_status_service: The status service is there exactly as long as it gets nothing but complete statuses of players, hellos and link queries. C95_port_mapper: The port mapper: nothing but calls that can be answered, and empty datagrams. C95_connection: A database connection answers as ever up to the first chunk that it cannot read or has no controller for, and nothing from there on. C95_file_service: A file service answers as ever up to the first datagram that it cannot read or call that it does not answer, and nothing from there on. C95_granted: A step whose answer the system does not refuse is as before; so is one that sends nothing, or only as an RPC service. C95_refused: An answer that is refused while nothing can be written does what some other input would have done: it ends its service, without an answer; an announcement takes the shared state with it. C95_refused_port: A port number that is refused ends the connection that asked for it as if the client had closed it; the database port it named has been opened all the same. C95_refused_announcement: Without output, a refused announcement is the last: from then on nothing is announced and no device or network is recorded, whatever happens. C95_output_does_not_matter_refuted: The claim that the process does not depend on what becomes of its output is false: with one status of a player on the network it goes on for ever, and ends without its output."
  },
  {
   "property": "C96",
   "status": "proved",
   "theorems": [
    "C96_read_what_was_written",
    "C96_answers_written",
    "C96_fixed_answers",
    "C96_menu_answers",
    "C96_pages_written",
    "C96_root_page",
    "C96_albums_page",
    "C96_albums_answer_refuted",
    "C96_artists_page",
    "C96_titles_page",
    "C96_metadata_page",
    "C96_mount_page",
    "C96_metadata_refuted",
    "C96_mount_refuted",
    "C96_artists_refuted"
   ],
   "note": "The natural stronger claim is false: C96_albums_answer_refuted, C96_metadata_refuted, C96_mount_refuted, C96_artists_refuted give witnesses. The other theorems say what holds. C96_read_what_was_written: The writer and the reader of the specification fit together. C96_answers_written: Every answer but the one to a title request is, to the byte, what the protocol writes for the messages a client reads in it. C96_fixed_answers: A setup request, the request sent at loading a track and the request for a waveform are answered with the recorded bytes, but for the transaction. C96_menu_answers: The answer to the request for a menu, byte for byte. C96_pages_written: The page that a Render delivers, byte for byte. C96_root_page: The main menu and the albums of an artist are the recorded pages. C96_albums_page: The page of albums has the bytes of the recorded one. C96_albums_answer_refuted: The announced number of albums is the recorded one only for an artist with a single track; the recorded artist has two. C96_artists_page: The artists and the titles of an artist are rows of the recorded form, one for each, in some order. C96_titles_page: The page of an artist's titles has the bytes of a recorded one with these rows. C96_metadata_page: The pages about one track are the recorded ones for that track, except for what the program does not know: the duration is 195 seconds whatever the track, the metadata page has no comment, the mount info page always the recorded one, and the first item of the mount info page lacks the 256 of the recording. C96_mount_page: The mount info has the bytes of a recorded one, apart from three items that are fixed here. C96_metadata_refuted: So no metadata page shows the duration or the comment of its track, and no mount info page the duration. C96_mount_refuted: It is a recorded one exactly only for a duration of 195 seconds and flags of zero. C96_artists_refuted: The recorded artist has the id 1, which the program gives to none."
  },
  {
   "property": "C97",
   "status": "proved",
   "theorems": [
    "C97_lists_are_a_snapshot",
    "C97_pieces_are_current",
    "C97_loaded",
    "C97_large_file",
    "C97_removed",
    "C97_one_version_refuted"
   ],
   "note": "The natural stronger claim is false: C97_one_version_refuted gives a witness. The other theorems say what holds. C97_lists_are_a_snapshot: What players are shown and told is what it was when the program started: two histories that differ only in what the disk answers get the same, step by step, from everything but the file services. C97_pieces_are_current: What a player loads is current: each piece it reads is that piece of what the file holds at that moment, with zeros past its end. C97_loaded: A player reads as many bytes as it was told the file has. It gets the file if it still has that size, its first part if it has grown, and the file followed by zeros if it has shrunk. C97_large_file: So a file of 4 GiB or more is cut, also when it has not changed. C97_removed: A track whose file is gone is still shown with its path. The lookup of the file is not answered, and the next load starts from a service as good as new. C97_one_version_refuted: So the bytes of one load need not be any version of the file."
  },
  {
   "property": "C98",
   "status": "proved",
   "theorems": [
    "C98_folders",
    "C98_unseen_stays",
    "C98_looks_same",
    "C98_albums_stay",
    "C98_told",
    "C98_exactly"
   ],
   "note": "C98_folders: Two folders whose songs look the same, one by one in the order in which they are found, are the same to everybody: the program, started on either, sends the same whatever happens. C98_unseen_stays: So nothing can be learned, except through the file services, about what else is in the folder: files and folders whose name starts with a dot, files that are not mp3, and files that cannot be read can come, go and change. C98_looks_same: With libraries that look the same, the whole program does the same. C98_albums_stay: The albums of the files never leave the program, whatever the order of rows. C98_told: Everything else is told: libraries no client can tell apart look the same. C98_exactly: So a client can tell two libraries apart exactly if they do not look the same."
  },
  {
   "property": "C99",
   "status": "proved",
   "theorems": [
    "C99_announcements_ignored",
    "C99_as_alone",
    "C99_what_ends",
    "C99_no_echo",
    "C99_harmless_refuted"
   ],
   "note": "The natural stronger claim is false: C99_harmless_refuted gives a witness. The other theorems say what holds. C99_announcements_ignored: What a copy announces has no effect on any copy. C99_as_alone: A copy that hears the announcements of copies does what it would do alone. C99_what_ends: What any datagram of a copy does to a copy it reaches: nothing is sent, and only services can end: the status service by the answer to a greeting, the port mapper or one of its services by any answer of theirs. C99_no_echo: No datagram of a copy makes a copy send anything: there are no endless exchanges among copies, whoever delivers their datagrams and wherever. C99_harmless_refuted: Copies can do harm all the same if a sender is forged: somebody greets a copy in the name of another one, or asks it for a port, and the answer silences the status service there, or the port mapper and the listener on port 12523."
  },
  {
   "property": "C100",
   "status": "proved",
   "theorems": [
    "C100_no_effect",
    "C100_without_noise",
    "C100_noise_exactly"
   ],
   "note": "C100_no_effect: Noise has no effect whatever, in any state. C100_without_noise: Leaving noise out of a history changes neither what is sent nor the state. C100_noise_exactly: Nothing else is without effect: a datagram that is never noticed, in any state the process can reach, is noise."
  },
  {
   "property": "C101",
   "status": "proved",
   "theorems": [
    "C101_same_answers",
    "C101_answers_are_those_of_histories",
    "C101_one_is_enough",
    "C101_who_waits",
    "C101_waits_exactly",
    "C101_enough_workers",
    "C101_goes_exactly",
    "C101_all_go",
    "C101_stalled",
    "C101_stall_lasts",
    "C101_others_unaffected_refuted"
   ],
   "note": "The natural stronger claim is false: C101_others_unaffected_refuted gives a witness. The other theorems say what holds. C101_same_answers: Whatever the number of workers, the process does what it does without a limit on them: the threads act as before, what is sent is the same, and each service handles what it has taken, in that order, but for the call that still waits there. C101_answers_are_those_of_histories: With C77: until the main thread panics, what the services have sent is what they send in some history of whole turns. C101_one_is_enough: And even with one worker it can do all that. C101_who_waits: Who waits: EXPORT calls, at most one at each port, only at ports given out for other services than the file service, and no more than there are workers. C101_waits_exactly: What cannot be taken: what is for a service that waits itself, and, while there are as many calls waiting as workers, everything but the datagrams for the status service. C101_enough_workers: With more workers than ports have been given out for the mount service, only a service that waits itself takes nothing. C101_goes_exactly: A call that waits is let go exactly when no thread uses the shared state. C101_all_go: That happens within 41 actions of the thread that uses it; then all calls that wait can go, one after the other, and after them everything can be taken. C101_stalled: While as many calls wait as there are workers and some thread uses the shared state, nothing is served but the status service: whatever happens is an action of a thread or a status datagram, and nothing else is sent. C101_stall_lasts: A handshake that comes to its end takes at least 3.95 s, and a call taken meanwhile that waits is not let go before; so once as many wait as there are workers, for the rest of that time nothing but the status service takes anything. C101_others_unaffected_refuted: It is not true that a handshake leaves the other services alone: for every number of workers there is a history in which as many EXPORT calls arrive while the handshake is sent, after which no service but the status service takes anything."
  },
  {
   "property": "C102",
   "status": "proved",
   "theorems": [
    "C102_bounded",
    "C102_ports_given",
    "C102_files",
    "C102_count",
    "C102_full_refuses",
    "C102_full_lookup",
    "C102_full_ends_mapper",
    "C102_full_ends_discovery",
    "C102_getports_stop_mapper"
   ],
   "note": "C102_bounded: A process that is allowed so many descriptors has, after whatever happened, no more than that many sockets, connections and files: the number is finite and within the limit. C102_ports_given: So the ports given out, for the database and for services, exceed those whose handler or service has ended by no more than the limit, less the process's own ports. C102_files: A service for files keeps every file it was ever asked for open, so it can have been asked for fewer different files than descriptors are allowed. C102_count: Descriptors are neither lost nor forgotten: those open are the process's own ports, the connections to port 12523, one for every port given out whose user is not done, one more where a client is being served, and the files open. C102_full_refuses: A process at its limit announces nothing, links with no device, answers no GETPORT and starts no service, accepts no connection to port 12523 and gives out no port there. C102_full_lookup: Nor does it answer a call that looks up a name, though what is open already can still be read. C102_full_ends_mapper: At the limit the first call that reaches the port mapper, whatever it asks, ends it; and then port 12523 goes too. C102_full_ends_discovery: At the limit the next announcement, once the own address is known, leaves the shared state unusable; and a request to link ends the process. C102_getports_stop_mapper: Devices that keep asking for ports stop the port mapper: once more calls have asked for one than the limit allows, beyond the services that have ended, it no longer runs."
  },
  {
   "property": "C103",
   "status": "proved",
   "theorems": [
    "C103_same_program",
    "C103_any_schedule",
    "C103_in_order",
    "C103_waits_behind",
    "C103_too_many",
    "C103_overflows",
    "C103_few_enough",
    "C103_in_time",
    "C103_devices",
    "C103_noted",
    "C103_senders"
   ],
   "note": "C103_same_program: Whatever comes at the socket, what the threads do and send is a schedule as in C73. C103_any_schedule: And every schedule of C73 comes about: by datagrams each of which comes when it is received. C103_in_order: What comes is received in the order it came, each at the time and with the bytes of an action of the keep-alive thread, except for what is lost; and lost is exactly what comes while [room] datagrams wait. C103_waits_behind: A datagram that comes while [q] others wait is received no sooner than [250 * q] ms later, whatever happens then. C103_too_many: No more than four datagrams are received in a second: where at least [n] come in any [p] ms, and [250 * n] is more than [p], what waits or is lost grows without end, by [n/p - 1/250] per millisecond. C103_overflows: So, whatever room there is, datagrams are lost from some time on. C103_few_enough: Where no more than [n] datagrams come in any [p] ms, and the thread could receive [n] in that time, nothing is lost and each datagram is received within the time [n] of them take, and whatever held the thread up; one that still waits came no longer ago than that. C103_in_time: Let the operating system leave no thread waiting for longer than 16 ms, and set aside 266 ms for each datagram and 394 ms for each that announces a device other than rekordbox. If no more than [w] ms are set aside for what comes in any [p] ms, and [w <= p], then nothing is lost and each datagram is received within [w + 4.772] s of its coming, less what is set aside for itself; one that still waits came no longer ago than that. The 4.772 s are for the one handshake. C103_devices: So, where in any [p] ms no more than [n] announcements of devices come, and no more than [m] other datagrams, and [394 * n + 266 * m <= p], every announcement of every device is received. C103_noted: And every device that announced itself longer than [394 * n + 266 * m + 4506] ms ago is among the players the program knows. C103_senders: The pace of the whole is made of those of the senders: [m] each in any [p] ms."
  },
  {
   "property": "C104",
   "status": "proved",
   "theorems": [
    "C104_walks",
    "C104_loads",
    "C104_mixed",
    "C104_in_process"
   ],
   "note": "C104_walks: Loads may share a file service. If the lookups made so far are whole walks, one after the other, and then the first [j] of the walk of a player, then whatever else was asked in between, the player's next lookup is answered with what the names of its own path lead to. C104_loads: After its walk, a player that asks for the pieces of the file, in any order and with anything in between (other walks too, even broken ones), gets its bytes. C104_mixed: Walks must not be mixed. A lookup [x] of a name that comes when another walk has gone [k] names along its way is answered with what has that name in the folder the other walk is in; and the next lookup after it, of a name [n], with what has that name inside what [x] found, if that is a folder, and otherwise with what has that name in the root. C104_in_process: The same in the running process, at any file service the port mapper started, whatever the other services do meanwhile: so players with ports of their own do not have to mind each other at all."
  },
  {
   "property": "C105",
   "status": "proved",
   "theorems": [
    "C105_harmful_exactly",
    "C105_up_exactly",
    "C105_attacks",
    "C105_peace"
   ],
   "note": "C105_harmful_exactly: As long as all of the program is up, the next thing that happens leaves all of it up exactly if it is none of those listed as harmful. C105_up_exactly: So all of the program is up from the start to the end of a history exactly if nothing in it was harmful when it came. C105_attacks: If the machine does its part then what harms the program is exactly this: a link request taken while the last device heard is on none of the networks; a status datagram of unknown kind; at the port mapper and the services it starts a message of type 1; at a mount service a call other than mount, or export while no network is known; at a file service a read of more than 65404 bytes through a good handle. C105_peace: If the machine does its part throughout then all of the program is up from the start to the end of a history exactly if none of these happened in it."
  },
  {
   "property": "C106",
   "status": "proved",
   "theorems": [
    "C106_taken_exactly",
    "C106_for_good",
    "C106_port_for_good",
    "C106_anew"
   ],
   "note": "C106_taken_exactly: In a running process a part that works goes on working exactly unless something happens that takes it down, after any history and whatever of the rest is down. C106_for_good: Whatever is down stays down, but for the services at the ports the port mapper has given out. C106_port_for_good: Such a service stays down too, until the port mapper starts one there again. C106_anew: While the process runs and the port mapper works, a service is started at a port whenever the port mapper is called for one and can bind that port; the service is a fresh one and works, whatever was at that port before."
  },
  {
   "property": "C107",
   "status": "proved",
   "theorems": [
    "C107_discovery",
    "C107_files",
    "C107_connection",
    "C107_nothing",
    "C107_process",
    "C107_parts"
   ],
   "note": "C107_discovery: The discovery part remembers exactly this of its past: whether it still takes notice of announcements; if so the addresses it has heard from, the network in use, whether a link has been begun and the events waiting; if not the events left over. Two histories are told apart by some future exactly if they differ in that. C107_files: A file service remembers exactly this of its past: the folder it is in, which open file each handle stands for, and the one reply it could not send; or that it will never answer again. Two histories are told apart by some future exactly if they differ in that. C107_connection: A database connection remembers exactly what a render request shows: after two histories it answers alike, whatever is asked from there on, exactly if it answers every single render request alike. C107_nothing: The status service, the port mapper and the mount services remember nothing: in any two states of the process in which such a service works it answers a datagram alike; a mount service if the shared state is alike. C107_process: The whole process remembers no more than its parts: two processes whose parts have the same memory do alike for good, whatever happens and in whatever order; the names, numbers and order of the devices, and all that the services and connections have forgotten by themselves, are forgotten by the process. C107_parts: And it forgets none of what its parts remember: if two running processes do alike for good, so do their discovery parts, the file services at each port, and the database connections at each port; and each still has the services that answer."
  }
 ]
}