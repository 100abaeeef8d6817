{"id": "C01", "title": "Database-protocol argument lists survive encode/decode exactly within the wire limits", "statement": "Encoding a list of number and text arguments and decoding the bytes gives back the same list if and only if there are at most 12 arguments and every text has at most 127 UTF-16 code units. Outside those limits the same list is never returned. A number made into an argument is read by a protocol client as that number in the width of its type. A non-empty byte string shorter than 2^32 made into an argument is read as that byte string; an empty one writes nothing.", "quantifier": "every list (any length) of U8/U16/U32/String arguments with any values; both overflow profiles", "why_tests_cant": "The limits come from a length byte and a 12-slot type table; a test samples a few short strings, the claim is an equivalence over unbounded lists and texts.", "anchors": ["src/rekordbox/db_message_argument.rs: ArgumentCollection::decode, From<ArgumentCollection> for Bytes", "src/rekordbox/db_field.rs: DBField::as_bytes"]}
{"id": "C02", "title": "Database-protocol messages survive encode/parse", "statement": "Parsing the bytes of a message built from a transaction id, a request type and arguments gives back that message exactly when the arguments round-trip (C01) and the request type is one with both a decoder and an encoder code; a trailing suffix after the message never changes what is parsed.", "quantifier": "every transaction id, every request type, every argument list, every suffix", "why_tests_cant": "Covers all argument lists and every request type, including the unknown codes, rather than the captured packets.", "anchors": ["src/rekordbox/packets.rs: DBMessage::parse, From<DBMessage> for Bytes", "src/rekordbox/db_request_type.rs: DBRequestType::new, DBRequestType::value"]}
{"id": "C03", "title": "Text fields carry the length a protocol client reads", "statement": "For every text, the bytes sent for a text field are: tag 0x26, the number of UTF-16 code units plus one as a 32-bit big-endian number, the UTF-16BE text, a 16-bit terminator - if and only if the text has at most 127 code units. A client that frames by that length reads back the same text and the following bytes; for longer text it does not.", "quantifier": "every Unicode text of any length, followed by any bytes", "why_tests_cant": "The truncation only shows at 128 code units; the claim is about every text and every continuation of the stream.", "anchors": ["src/rekordbox/db_field.rs: DBField::as_bytes, From<&str> for DBField"]}
{"id": "C04", "title": "Request codes are never confused", "statement": "Decoding a 16-bit request code and re-encoding it gives the same code exactly for the fourteen codes the server answers with its encoder; every other code is re-encoded as zero, and no two different codes decode to the same request.", "quantifier": "all 65536 request codes", "why_tests_cant": "Exhaustive over the code space and proved, not sampled; the encoder silently maps whole families to zero.", "anchors": ["src/rekordbox/db_request_type.rs: DBRequestType::new, DBRequestType::value"]}
{"id": "C05", "title": "Binary arguments are write-only", "statement": "A message containing a non-empty binary argument after numbers and short texts, encoded by the server's own encoder, can never be parsed back by the server's own parser: parsing panics (for messages below 320 MiB). An empty binary argument round-trips if it is the last argument and fewer than four bytes follow it. For lists of arguments of every kind (below 240 MiB, nothing behind them): the same list comes back if and only if there are at most 12 arguments, every text has at most 127 code units, every binary argument is empty, and the arguments after a binary argument are written in fewer than four bytes.", "quantifier": "every list of arguments of every kind, every binary payload, every following bytes; both overflow profiles", "why_tests_cant": "The only binary test in the project covers encoding; the mismatch concerns all payloads and positions.", "anchors": ["src/rekordbox/db_message_argument.rs: Argument::decode", "src/rekordbox/db_field.rs: DBField::as_bytes"]}
{"id": "C06", "title": "Arbitrary bytes are classified exactly by the message parser", "statement": "For any bytes: parsing reports an error exactly if the magic is missing, or fewer than 10 bytes are there, or fewer than 32 bytes are there and the transaction tag is a known one; parsing panics exactly if the transaction tag is unknown or some announced argument is beyond the 12th slot, has an unknown type code or is truncated; otherwise it succeeds with as many arguments as announced.", "quantifier": "every byte string; both overflow profiles", "why_tests_cant": "Needs all byte strings: the failure of one connection task on attacker-chosen bytes is exactly what tests with captured packets cannot exclude.", "anchors": ["src/rekordbox/packets.rs: DBMessage::parse", "src/rekordbox/db_message_argument.rs: ArgumentCollection::decode, ArgumentType::new"]}
{"id": "C07", "title": "Greeting is echoed, undecodable chunks are answered with 'panic'", "statement": "Any five-byte chunk on a database connection is answered with the same five bytes and has no effect on later answers. Every other chunk without the magic or with an incomplete header is answered with the text 'panic' and has no effect either.", "quantifier": "every chunk of five bytes, every undecodable chunk, in every connection state, before any continuation", "why_tests_cant": "Ranges over all connection histories.", "anchors": ["src/rekordbox/library.rs: process, spawn_library_client_handler"]}
{"id": "C08", "title": "Every message of every answer carries the transaction id of its request", "statement": "Every answer to a well-formed request is a sequence of complete protocol messages, each carrying the protocol magic and exactly the transaction id of the request (the known exception, the Title request, is shown to send a bare 10-byte header; a Render without previous menu sends nothing). A rendered page is such a sequence if the texts shown on that page have at most 127 UTF-16 units.", "quantifier": "every database content, hash order, connection state, transaction id and request", "why_tests_cant": "Quantifies over all databases and requests; a client matches answers by this id.", "anchors": ["src/rekordbox/library.rs: get_controller and the controllers it returns, process", "src/rekordbox/packets.rs: DBMessage::to_response"]}
{"id": "C09", "title": "Render answers the last menu asked for", "statement": "After any history of chunks on one connection, a Render request is answered with the page of the most recent menu-type request in that history (root menu, artist, title, albums of artist, titles of artist/album, metadata, mount info), with that request's ids, whatever other requests came in between; with no such request it is answered with nothing.", "quantifier": "every history of requests of any length", "why_tests_cant": "History property: unit tests only drive two-step dialogs.", "anchors": ["src/rekordbox/library.rs: RenderController, handle_sequence_requests, ClientState"]}
{"id": "C10", "title": "Announced number of rows equals the rendered number of rows", "statement": "For the artist list, the titles of an artist, track metadata and mount info, the number announced in the answer to the menu request equals the number of items of the following Render, whenever the texts shown on that page are readable (at most 127 UTF-16 units), whatever else the library contains and for every hash order. For the root menu 8 rows are announced and 7 rendered; for the albums of an artist the number of the artist's tracks is announced and one row rendered.", "quantifier": "every database content up to id exhaustion, every hash-map iteration order, every id", "why_tests_cant": "Relates two answers for all databases.", "anchors": ["src/rekordbox/library.rs: ArtistController, MetadataController, MountInfoController, TitleByArtistAlbum, RenderController", "src/rekordbox/library/helper.rs"]}
{"id": "C11", "title": "A rendered page, read by a protocol client, is header, items, footer with the library's contents, exactly if its texts are short", "statement": "Splitting the answer to Render with an independent client-side reader yields exactly one header, then one item per row with the row's id, text and item type, then one footer, and no bytes left, if and only if every text shown on that page has at most 127 UTF-16 code units: one longer title, name or path makes the page it is on unreadable and no other page. For the artist page the rows are exactly the distinct artists; for the titles of an artist exactly that artist's tracks.", "quantifier": "every scan result (texts below 4 GiB for the only-if part), hash order, earlier history of the connection, menu, transaction id", "why_tests_cant": "Stream framing over arbitrarily many rows and arbitrary texts.", "anchors": ["src/rekordbox/library.rs: RenderController, build_message_item", "src/rekordbox/packets.rs: Arguments, ManyDBMessages"]}
{"id": "C12", "title": "Track metadata page shows the indexed track", "statement": "For every indexed track, a metadata request naming its id followed by Render yields ten items in a fixed order of item types, in which the title item carries the track's title, the artist item the name of its artist and the tempo item the indexed tempo; asking for an id that is not indexed terminates the connection task instead of answering. The ids inside the items are constants: the claim that the title item names the track's own id is refuted.", "quantifier": "every scan result, every indexed track, every unknown id", "why_tests_cant": "Needs all libraries and all ids.", "anchors": ["src/rekordbox/library.rs: MetadataController, render metadata", "src/rekordbox/library/database.rs"]}
{"id": "C13", "title": "Mount info gives the player the indexed path and size", "statement": "For every indexed track whose path is valid UTF-8, the mount-info page carries exactly that path and the file size; a path that is not UTF-8 terminates the connection task.", "quantifier": "every scan result, track and path", "why_tests_cant": "Non-UTF-8 paths and arbitrary paths are not in the fixtures.", "anchors": ["src/rekordbox/library.rs: QueryMountInfoController, RenderController, render mount info"]}
{"id": "C14", "title": "Conforming clients never crash their connection", "statement": "A connection whose chunks are greetings, undecodable headers or complete requests with the arguments their type needs, naming only tracks that exist (with UTF-8 paths for mount info), is answered every time: no chunk in any such history makes the connection task panic. Exactly which chunk after which history ends a connection is characterised: a malformed request, a request lacking its id argument, or a Render of metadata or mount info of an unknown track (or a path that is not UTF-8).", "quantifier": "every history of conforming chunks, every database with UTF-8 paths", "why_tests_cant": "Absence of panics over all histories.", "anchors": ["src/rekordbox/library.rs: process, get_controller"]}
{"id": "C15", "title": "Connections do not influence each other", "statement": "With any number of database connections and any interleaving of their chunks, the answers each connection receives are those it would receive alone, and a connection whose task panics leaves the others' answers unchanged. Each announced port serves one connection: further attempts to connect to it neither take over nor receive answers.", "quantifier": "every number of connections, every interleaving, including panics", "why_tests_cant": "Schedules are unbounded.", "anchors": ["src/rekordbox/library.rs: DBLibraryServer, spawn_library_client_handler, ClientState"]}
{"id": "C16", "title": "Answers depend on TCP segmentation", "statement": "The server treats each received chunk as one message: two segmentations of the same byte stream can produce different answers (the property that they never do is refuted), and bytes behind a request in the same chunk are ignored; the answers to a sequence of one-request chunks depend only on the requests' contents.", "quantifier": "every stream and segmentation", "why_tests_cant": "TCP segmentation is outside a test's control.", "anchors": ["src/rekordbox/library.rs: spawn_library_client_handler (BytesCodec)"]}
{"id": "C17", "title": "Unsupported requests are acknowledged and harmless", "statement": "A well-formed request of a type without a controller is answered with a Success message with no arguments and the same transaction id, and does not change any later answer.", "quantifier": "every unsupported request code, arguments and state", "why_tests_cant": "All 65 thousand codes, all states.", "anchors": ["src/rekordbox/library.rs: get_controller, RequestHandler::respond_to"]}
{"id": "C18", "title": "Every scanned track is retrievable unchanged under a unique id", "statement": "After indexing any list of fewer than 2^32-1 scanned tracks, the i-th track has id i+2, looking it up returns its title, tempo, path and size unchanged, and every other id finds nothing.", "quantifier": "every list of scanned tracks", "why_tests_cant": "Unbounded lists.", "anchors": ["src/rekordbox/library/database.rs: Database::index, Database::get_track, Sequence"]}
{"id": "C19", "title": "Artists are deduplicated and references always resolve", "statement": "After indexing any list of tracks: the artist names are exactly the distinct artist names of the tracks, each under one id; every track's artist reference resolves to the artist name it was scanned with.", "quantifier": "every list of scanned tracks, every hash order", "why_tests_cant": "Unbounded lists and hash orders.", "anchors": ["src/rekordbox/library/database.rs: ArtistTable::insert, Database::get_artist, Database::artists"]}
{"id": "C20", "title": "Each track is listed under exactly one artist", "statement": "For every artist id, the titles listed are exactly (as a multiset) the tracks scanned with that artist's name; every track appears in exactly one artist's list.", "quantifier": "every list of scanned tracks, every hash order", "why_tests_cant": "Unbounded lists.", "anchors": ["src/rekordbox/library/database.rs: Database::title_by_artist"]}
{"id": "C21", "title": "Id exhaustion", "statement": "Indexing never reuses an id while fewer than 2^32-1 rows were inserted; the next insertion panics in a checked build, and in an unchecked build gets id 0.", "quantifier": "every table size", "why_tests_cant": "2^32 inserts cannot be run in a unit test.", "anchors": ["src/rekordbox/library/database.rs: Sequence"]}
{"id": "C22", "title": "The scan finds exactly the visible mp3 files", "statement": "Scanning a directory tree yields, in traversal order, exactly the regular files whose name ends in '.mp3', whose tags are readable and none of whose names on the path from the root (the root included) is a text starting with a dot; scanning the folder as '.' or '..' yields nothing; a folder given by a symbolic link is scanned as the folder it leads to, whatever the link is called; a separator behind the folder's name changes nothing; scanning '/' finds everything visible in the file system; a dotted name that is not UTF-8 is not hidden (refutation of the plain claim).", "quantifier": "every directory tree of any depth and width, unreadable entries included", "why_tests_cant": "Unbounded trees.", "anchors": ["src/library.rs: mp3_files_iterator, is_hidden, has_mp3_extension, metadata_extractor, scan_folder"]}
{"id": "C23", "title": "Tempo extraction", "statement": "A BPM tag text that is a decimal number n (an optional plus sign, digits, below 2^32) is reported as 100*n when that is below 2^32; a text that is not such a number is reported as no tempo; for larger n reading the file, and with it the scan, panics (checked) or the tempo wraps (unchecked).", "quantifier": "every tag text", "why_tests_cant": "All texts.", "anchors": ["src/library.rs: extract_bpm"]}
{"id": "C24", "title": "Any keep-alive datagram is decoded without a panic, by fixed offsets", "statement": "Decoding never panics; it succeeds exactly on datagrams with the magic, a known kind, a UTF-8 device name, a known device type, and enough bytes for the kind's fields, and each field is the byte range at its fixed offset. Receiving into a 1024-byte buffer never changes the decoded packet.", "quantifier": "every datagram", "why_tests_cant": "All datagrams; unit tests use captured packets.", "anchors": ["src/rekordbox/keepalive.rs: KeepAlivePacket::decode, KeepAliveServer"]}
{"id": "C25", "title": "Keep-alive packets round-trip exactly on the consistent ones", "statement": "Encoding a packet and decoding it returns the same packet if and only if the content matches the kind, the name fits 20 bytes without trailing NUL, Status packets have their constant byte 8 and Ip packets are the single self-dual pair; in particular the Ip packets the server sends are never decoded to themselves.", "quantifier": "every packet value", "why_tests_cant": "All packets.", "anchors": ["src/rekordbox/keepalive.rs: KeepAlivePacket::decode, From<KeepAlivePacket> for Bytes"]}
{"id": "C26", "title": "Announcements have the layout players expect", "statement": "Every Mac, Ip and Status announcement the server sends has the length field 0x2c, 0x32, 0x36, which equals the datagram's length, carries the magic, its kind and the padded name 'rekordbox', and the interface's MAC and IP address at the fixed offsets of its kind.", "quantifier": "every MAC, IP, index and iteration", "why_tests_cant": "All addresses.", "anchors": ["src/rekordbox/keepalive.rs: KeepAliveMacPackage::new, KeepAliveIpPackage::new, KeepAliveStatusPackage::new", "src/rekordbox/server.rs: initiate_mac_ip_negotiation, broadcast_sender_handler"]}
{"id": "C27", "title": "Device names", "statement": "Decoding a 20-byte device name yields the text before the trailing NULs, or fails if it is not UTF-8; encoding a name of at most 20 bytes gives 20 bytes and decodes to the name with its trailing NULs removed; a longer name panics.", "quantifier": "every 20-byte string and every text", "why_tests_cant": "All names.", "anchors": ["src/rekordbox/packets.rs: ModelName"]}
{"id": "C28", "title": "The player list is the set of devices heard from", "statement": "After any history of datagrams, the player list holds each address that sent a valid non-rekordbox status exactly once, in order of first appearance, with the number of its latest status and the model of its first; once the keep-alive side has died (poisoned state, failed lookup, terminated program) the list stays as it was.", "quantifier": "every datagram history", "why_tests_cant": "History property.", "anchors": ["src/rekordbox/player.rs: PlayerCollection::add_or_update", "src/rekordbox/server.rs: KeepaliveEventHandler::on_event, handle_keepalive_status"]}
{"id": "C29", "title": "One device-change event per new device", "statement": "Over any history, the number of device-change events queued equals the number of players, and each is queued by the datagram that first mentions the address.", "quantifier": "every datagram history", "why_tests_cant": "History property.", "anchors": ["src/rekordbox/server.rs: handle_keepalive_status"]}
{"id": "C30", "title": "Broadcasts follow the last player heard", "statement": "The network used for broadcasts is the first local network containing the address of the most recent accepted status (none if there is no such network), and every broadcast datagram is sent from the local address of that network to its broadcast address, port 50000.", "quantifier": "every history and interface configuration", "why_tests_cant": "History property with changing interfaces.", "anchors": ["src/rekordbox/server.rs: handle_keepalive_status, broadcast_sender_handler, send_broadcast_payload", "src/utils/network.rs: find_interface"]}
{"id": "C31", "title": "Linking handshake", "statement": "Linking, once started, is never undone; a link request is queued exactly by a valid status that arrives before linking; each handled link request sends exactly 3 Mac claims (iterations 1..3), 36 Ip claims (each index 1..6 for each iteration 1..6) and one Status, in that order, all to the network's broadcast address.", "quantifier": "every history of datagrams, ticks and handled events", "why_tests_cant": "History and schedule.", "anchors": ["src/rekordbox/server.rs: initiate_mac_ip_negotiation, is_linking_possible", "src/component/mod.rs: App::next"]}
{"id": "C32", "title": "Own announcements are ignored", "statement": "Datagrams that do not decode, are not status packets, or name the device 'rekordbox' never change the server state and never queue an event; in particular the server's own announcements looped back.", "quantifier": "every such datagram in every state", "why_tests_cant": "All datagrams and states.", "anchors": ["src/rekordbox/server.rs: KeepaliveEventHandler::on_event"]}
{"id": "C33", "title": "The application terminates exactly when a link request is handled without a network", "statement": "In any history the application terminates exactly when it handles a link request while the last accepted status came from an address on no local network (or the shared state is poisoned, or sending fails); one spoofed status datagram suffices (the claim that no datagram can terminate it is refuted).", "quantifier": "every history and schedule", "why_tests_cant": "Schedule between two threads.", "anchors": ["src/component/mod.rs: App::initiate_linking, App::next", "src/rekordbox/server.rs: initiate_mac_ip_negotiation"]}
{"id": "C34", "title": "Network interface choice", "statement": "The chosen network is the first IPv4 network, in interface order, that contains the address; none is chosen only if no network contains it; the lookup panics exactly when some IPv4 network up to and including the first containing one (any of them if none contains the address) belongs to an interface without MAC address.", "quantifier": "every interface list and address", "why_tests_cant": "All configurations.", "anchors": ["src/utils/network.rs: match_interface, PioneerNetwork::contains"]}
{"id": "C35", "title": "Broadcast address and mask arithmetic", "statement": "For every network with prefix p: an address is contained exactly if its first p bits agree; the broadcast address is the largest contained address; mask has exactly the first p bits set.", "quantifier": "every address and every prefix 0..32", "why_tests_cant": "2^32 addresses.", "anchors": ["src/utils/network.rs: PioneerNetwork (ipnetwork crate)"]}
{"id": "C36", "title": "Status datagrams that stop the status server, exactly", "statement": "A datagram of at least the header length, with magic and UTF-8 name and kind other than Cdj, Djm, LinkQuery, LinkReply, RekordboxHello terminates the status server; every other datagram leaves it serving. The claim that no datagram can stop it is refuted.", "quantifier": "every datagram", "why_tests_cant": "All datagrams.", "anchors": ["src/rekordbox/packets.rs: StatusPacket::decode, StatusContentType::decode", "src/rekordbox/status_event_server.rs: StatusEventServer::run"]}
{"id": "C37", "title": "Who gets a status reply, and which", "statement": "Over any datagram history without a stopping datagram, each RekordboxHello gets exactly one 296-byte reply, each LinkQuery exactly one 192-byte reply, addressed to the sender's IP at port 50002, in order; nothing else gets any. Replies have the fixed layout with the local device name padded.", "quantifier": "every datagram history", "why_tests_cant": "History property.", "anchors": ["src/rekordbox/status_event_server.rs: process_packet, send_to, run", "src/rekordbox/packets.rs: StatusPacket encode"]}
{"id": "C38", "title": "Fixed-width UTF-16 strings", "statement": "Encoding a text into a fixed capacity gives exactly the capacity in bytes if its UTF-16 form fits and panics otherwise; decoding gives back the text followed by the padding NULs - equal to the text exactly if it fills the capacity.", "quantifier": "every text and capacity", "why_tests_cant": "All texts.", "anchors": ["src/rekordbox/packets.rs: Utf16FixedString"]}
{"id": "C39", "title": "Link replies are not decodable by their own decoder", "statement": "The decoder for link replies reads the fields nine bytes before the place where the encoder puts them. Of all status packets, encoding and then decoding returns the same packet exactly for link replies of player 17 whose content is one particular nine-byte-periodic value (and whose name fits); in particular no link reply the server sends is decoded to itself.", "quantifier": "every status packet", "why_tests_cant": "All packets.", "anchors": ["src/rekordbox/packets.rs: LinkReply encode/decode"]}
{"id": "C40", "title": "RPC calls from a standard client are understood", "statement": "A datagram is decoded to a call exactly if it says that call at fixed offsets, with seven words of credentials. Hence every call laid out per ONC RPC with a supported program and procedure and a 20-byte AUTH_UNIX credential (empty machine name, no groups) is decoded to exactly that call, whatever bytes follow it. The same call with empty credentials is rejected if nothing follows it, as long as a name in it has no U+0000; a lookup with such a name can be taken for a lookup of another name (refuted by a witness), and with longer credentials a call can be misread as a different one (refuted by a witness).", "quantifier": "every xid, version, procedure and argument", "why_tests_cant": "All calls.", "anchors": ["src/rpc/packets.rs: RpcMessage::decode, RpcCall::decode, RpcProcedure"]}
{"id": "C41", "title": "RPC replies are standard accepted replies to the same xid", "statement": "Every reply sent is the call's xid, then message type 1, accepted, null verifier, success, then the result, and the datagram is padded with fewer than four zero bytes to a multiple of four.", "quantifier": "every call and reply", "why_tests_cant": "All replies.", "anchors": ["src/rpc/packets.rs: From<RpcReply> for Bytes", "src/rpc/codec.rs: RpcBytesCodec::encode", "src/rpc/server.rs: serialize_rpc_reply_message"]}
{"id": "C42", "title": "Which export lists a standard client can read", "statement": "Of all export lists that fit a datagram an independent XDR reader reads exactly these as they are: the empty list, one export without groups, and one export with one group whose path has an odd number of UTF-16 units; no list of two or more exports, and no export with two or more groups, is ever read back. For one export with one group the list ends exactly at the end of the datagram exactly if also the group name's byte length is 1 or 2 modulo 4, and an export with no group is characterised likewise. The list the server really sends (its one folder, the address of the client) is always read as that one export. Different lists without empty texts are never sent as the same datagram; with empty texts they can be (refuted by a witness).", "quantifier": "every list of exports, of any paths and groups, and every transaction id", "why_tests_cant": "All lengths.", "anchors": ["src/rpc/packets.rs: ExportListEntry, MountExportReply"]}
{"id": "C43", "title": "Mount paths", "statement": "A mount request is accepted exactly if the announced number of whole UTF-16 units is there, is valid UTF-16, and at least two more bytes follow. A standard mount request with nothing after it is therefore accepted exactly if the path has an odd number of units.", "quantifier": "every path", "why_tests_cant": "All paths.", "anchors": ["src/rpc/packets.rs: MountMnt::decode"]}
{"id": "C44", "title": "One datagram can stop the port mapper", "statement": "Decoding a datagram panics exactly if it has at least 8 bytes and message type 1 (reply). The port mapper is still running after a history exactly if it received no such datagram, no port allocation failed and no reply failed to be sent. The claim that no datagram can stop it is refuted: eight bytes silence it for good.", "quantifier": "every datagram", "why_tests_cant": "All datagrams.", "anchors": ["src/rpc/packets.rs: RpcMessage::decode, RpcReply::decode", "src/rpc/server.rs: PortmapServer::run"]}
{"id": "C45", "title": "Port mapper answers", "statement": "Every decoded call gets exactly one reply with its xid and the freshly allocated port. A server is started behind that port exactly for GETPORT calls; for every other call the announced port is dead (claim that every announced port is served is refuted).", "quantifier": "every call history", "why_tests_cant": "History property.", "anchors": ["src/rpc/server.rs: PortmapServer::run"]}
{"id": "C46", "title": "The mount service ends at the first call it cannot answer", "statement": "Over any history of datagrams, the mount service ignores datagrams that cannot be decoded, answers each supported call in order to its sender with its xid, and ends at the first unsupported or failing call, failed send or type-1 message; after it nothing is answered.", "quantifier": "every history", "why_tests_cant": "History property.", "anchors": ["src/rpc/server.rs: rpc_program_server, rpc_procedure_router", "src/rekordbox/rpc.rs: EventHandler"]}
{"id": "C47", "title": "File handles identify inodes on little-endian hosts", "statement": "Encoding an inode as a file handle and reading it back gives the inode on a little-endian host, for every inode; on a big-endian host this fails exactly for the inodes whose byte reversal differs.", "quantifier": "every 64-bit inode, both byte orders", "why_tests_cant": "2^64 inodes and two architectures.", "anchors": ["src/rpc/fs.rs: encode_file_handler", "src/rpc/packets.rs: FileHandle::ino"]}
{"id": "C48", "title": "Looking up a path component by component reaches the file", "statement": "In any history that went well and left the lookup position at the root (also a fresh service): looking up the components of a path in order, where every proper prefix exists and the whole path is a readable regular file, answers every step with the handle and the attributes of that prefix and leaves the position at the root; a read through the last handle then returns the bytes of the file.", "quantifier": "every path of any depth, every file system state containing it", "why_tests_cant": "Unbounded depth and file systems.", "anchors": ["src/rpc/nfs_program.rs: lookup, reset_path, read, run"]}
{"id": "C49", "title": "Lookups ignore the handle and share one position", "statement": "Histories of datagrams that differ only in the handles sent with lookups are answered identically. Two interleaved walks therefore interfere (the claim that walks are independent is refuted by a witness), and a lookup whose file exists but cannot be opened gets no answer yet moves the position (the claim that a failed lookup changes nothing is refuted).", "quantifier": "every handle, every interleaving", "why_tests_cant": "Interleavings.", "anchors": ["src/rpc/nfs_program.rs: lookup"]}
{"id": "C50", "title": "Reads return exactly the requested bytes inside the file", "statement": "A read of n bytes at offset o through a handle of an open file returns n bytes: the bytes of the file where it has them and zeros after its end, never an error; over the network this is the reply for every n up to 65404. The standard short read at the end of the file never happens (refuted).", "quantifier": "every file content, offset and count", "why_tests_cant": "All files and ranges.", "anchors": ["src/rpc/fs.rs: read_file_range", "src/rpc/nfs_program.rs: read"]}
{"id": "C51", "title": "Only looked-up files can be read, and every call is answered by its outcome", "statement": "Over any history of datagrams in which the service is not killed and every reply can be sent: each lookup, attribute and read call is answered to its sender with its xid according to the file system at that moment; a read or attribute request is answered only through a handle whose inode was looked up earlier as a regular file in the same session, and then from the file most recently opened for it; other procedures, other datagrams, unknown handles and failures get no reply and leave the service running.", "quantifier": "every history of datagrams, file system answers at each moment, both byte orders", "why_tests_cant": "History property.", "anchors": ["src/rpc/nfs_program.rs: RpcNfsProgramHandler::run, call_procedure"]}
{"id": "C52", "title": "File attributes layout and truncation", "statement": "Attributes are sent exactly if the three times of the file are known, and are then 17 big-endian 32-bit words with type, a constant mode, link count, owner, size, block counts and times, each reduced modulo 2^32 (times before 1970 as 0); the size is right exactly below 4 GiB.", "quantifier": "every file metadata", "why_tests_cant": "All sizes and times.", "anchors": ["src/rpc/packets.rs: NfsFileAttributes, system_time_to_bytes"]}
{"id": "C53", "title": "Handles of files on different devices collide", "statement": "Two looked-up files with the same inode number on different devices share one handle, and reads through the first handle return the second file (the claim that handles identify files is refuted); as long as no later lookup opens a file of the same inode number, reads through a handle keep returning the file it was given for.", "quantifier": "every file system and history", "why_tests_cant": "History and file system.", "anchors": ["src/rpc/nfs_program.rs: lookup, read"]}
{"id": "C54", "title": "A port mapper failure takes the database listener down", "statement": "Over any schedule, a connection to the database port is accepted exactly if the ports could be bound at the start, the process is running and nothing received so far has stopped the port mapper; after such a datagram no new connection is ever accepted, while discovery, the status service, the connections accepted before and the ports given out on them, and the RPC services go on exactly as if they were alone. A failure of the database listener does not touch the port mapper.", "quantifier": "every schedule of events on all ports and every pattern of bind failures at the start", "why_tests_cant": "Schedules.", "anchors": ["src/rekordbox/server.rs: Server::run", "src/rekordbox/rpc.rs: server"]}
{"id": "C55", "title": "Text codecs are lossless", "statement": "UTF-16BE and UTF-8 encoding followed by decoding gives back every text, and decoding succeeds only on encodings.", "quantifier": "every Unicode text and byte string", "why_tests_cant": "All texts.", "anchors": ["src/rekordbox/db_field.rs: From<&str> for DBField", "src/rekordbox/packets.rs: ModelName, Utf16FixedString"]}
{"id": "C56", "title": "Render ignores the requested window", "statement": "The answer to Render does not depend on its offset and limit arguments; a client that asks for a window of n rows of a longer artist list receives the whole list (the claim that at most the requested number of rows is sent is refuted).", "quantifier": "every Render request, database", "why_tests_cant": "All databases and windows.", "anchors": ["src/rekordbox/library.rs: RenderController"]}
{"id": "C57", "title": "Database port service", "statement": "Every non-empty chunk received on the database port is answered with two bytes: the big-endian number of a port on which a new, fresh-state connection handler is listening.", "quantifier": "every chunk history and port allocation", "why_tests_cant": "History property.", "anchors": ["src/rekordbox/library.rs: DBLibraryServer"]}
{"id": "C58", "title": "A failed lookup or send silences discovery for good", "statement": "The shared state becomes unusable exactly when the interface lookup for a heard status fails, the periodic announcement cannot be sent, or a handshake datagram cannot be sent; from then on nothing is sent and no event is queued, the player list and the network stay as they were, and handling a link request ends the program.", "quantifier": "every history of datagrams, ticks and handled events, every interface list and every pattern of socket failures", "why_tests_cant": "Depends on the point of the history at which the failure strikes and on everything that follows it.", "anchors": ["src/rekordbox/server.rs: run, broadcast_sender_handler, handle_keepalive_status", "src/component/mod.rs: App::initiate_linking"]}
{"id": "C59", "title": "How often the handshake is made", "statement": "The handshake is requested once for each status accepted before the first request is handled; the claim that it is made at most once is refuted, for every number n+1 there is a history in which it is made n+1 times.", "quantifier": "every history and schedule", "why_tests_cant": "The number depends on the schedule between the listener and the application loop.", "anchors": ["src/rekordbox/server.rs: handle_keepalive_status, is_linking_possible", "src/component/mod.rs: App::next"]}
{"id": "C60", "title": "One large read silences the file service", "statement": "Whatever sends fail, the datagrams sent are some of the replies in order, each at most once; if every reply fits and repeated sends work, none is lost. But a read of more than 65404 bytes through a valid handle makes a reply that can never be sent, and from then on the service answers nothing at all, to anyone.", "quantifier": "every history, every pattern of send failures, every later history", "why_tests_cant": "The claim is about everything that can follow.", "anchors": ["src/rpc/nfs_program.rs: RpcNfsProgramHandler::run", "src/rpc/codec.rs: RpcBytesCodec::encode", "src/rpc/fs.rs: read_file_range"]}
{"id": "C61", "title": "Lookups are not confined to the music folder", "statement": "In any history that went well, wherever the lookup position is, a lookup of an absolute path of any readable regular file is answered with its handle, and a read through it returns its bytes. Asking for the pieces one after the other or in any order, with anything in between, gives the whole file. In the running process anybody can do this, without a password and without being known as a device: a GETPORT call to the port mapper starts a file service of its own and tells its port, and that service gives every regular file the program can open.", "quantifier": "every history, path and file content, every order of the reads, every schedule of the process", "why_tests_cant": "All paths and states.", "anchors": ["src/rpc/nfs_program.rs: lookup, read", "src/rpc/server.rs: PortmapServer::run, rpc_program_server"]}
{"id": "C62", "title": "What kills the file service", "statement": "The NFS service is running after a history exactly if it received no datagram of message type 1 and no call that succeeds except that the file's access, modification or creation time is unknown on the platform; once killed it answers nothing.", "quantifier": "every history and file system", "why_tests_cant": "Every history; depends on platforms without creation times.", "anchors": ["src/rpc/nfs_program.rs: run, lookup, getattr, read", "src/rpc/packets.rs: From<Metadata> for NfsFileAttributes, RpcMessage::decode"]}
{"id": "C63", "title": "RPC services do not disturb each other", "statement": "From the moment the port mapper starts an NFS service on a port, what that port sends is what one NFS service alone would send for the datagrams arriving there, whatever happens on the other ports and even after the port mapper has failed; a mount service depends on nothing but its own datagrams and what discovery has found by the time of each; a port nobody was given stays silent.", "quantifier": "every schedule of events on all ports, every started service", "why_tests_cant": "Every interleaving of datagrams to several services with the failures of others.", "anchors": ["src/rpc/server.rs: PortmapServer::run, rpc_program_server", "src/rekordbox/server.rs: Server::run"]}
{"id": "C64", "title": "Exports name the network of the last device heard", "statement": "An EXPORT call to a running mount service is answered with the directory / for the address and mask of the interface chosen for the device whose status was taken notice of last; if there is none (no device heard, or none of the networks contains it) or the shared state has become unusable, there is no answer and that service answers nothing any more.", "quantifier": "every schedule of status datagrams, calls and other events", "why_tests_cant": "The answer depends on the whole history of another service and on when it failed.", "anchors": ["src/rekordbox/rpc.rs: mount_export_rpc_callback", "src/rekordbox/server.rs: handle_keepalive_status"]}
{"id": "C65", "title": "What ends the process, and what ends with it", "statement": "The process ends exactly in a turn of the application that takes a link request while the shared state is unusable, no network is known or a socket cannot be opened; no datagram, chunk or connection on any port ends it by itself; from then on nothing is sent or accepted on any port. Nor is anything ever sent or accepted if the port of the keep-alive service or of the status service cannot be bound at the start.", "quantifier": "every schedule of events on all ports", "why_tests_cant": "All schedules.", "anchors": ["src/component/mod.rs: App::run, initiate_linking", "src/rekordbox/server.rs: Server::run"]}
{"id": "C66", "title": "Browsing shows exactly the music of the folder", "statement": "A player that goes from the list of artists over the titles of an artist to the file of a track sees exactly the visible mp3 files of the scanned folder whose size and tags could be read, each with its recorded artist, title, path and size; each file is listed under one artist with one track id, and the metadata page of a track shows the title, artist and tempo recorded for the file it is loaded from.", "quantifier": "every folder tree in which the artist names, and the titles and paths of the artist in question, fit the protocol's short text fields, every order of hash maps, every history of earlier requests on the three connections and all transaction ids", "why_tests_cant": "All trees and all histories; it composes scanner, index, wire format and sessions.", "anchors": ["src/library.rs: scan_folder, metadata_extractor", "src/rekordbox/library/database.rs: Database::new", "src/rekordbox/library.rs: get_controller, RenderController", "src/rekordbox/db_field.rs"]}
{"id": "C67", "title": "A track that is shown can be loaded", "statement": "The path given for a track splits into exactly one list of parts, which are the names leading to the file on disk. A player that looks these parts up one after the other over NFS and then reads the file piece by piece through the handle it gets (at most 65404 bytes at a time) receives, in order, data whose first bytes, as many as the announced size, are exactly the content of the file, after any earlier calls that went well and left no walk unfinished, and whatever the other services of the process do meanwhile.", "quantifier": "every folder tree with an absolute root, every file, every earlier history of the NFS service, every schedule of the process, every piece size", "why_tests_cant": "All files, histories and schedules; it composes scan, index, menus, text encodings, path walking and reading.", "anchors": ["src/library.rs: scan_folder", "src/rekordbox/library.rs: QueryMountInfoController, RenderController", "src/rpc/nfs_program.rs: lookup, read", "src/rpc/fs.rs: read_file_range"]}
{"id": "C68", "title": "Threads act as if turn by turn", "statement": "However the keep-alive thread, the broadcast thread and the main thread interleave their single actions (taking and releasing the mutex, queueing and taking an event, sending one datagram), whenever none of them is in the middle of its turn the shared state, the queue, and the sequences of datagrams sent, events queued and events taken are those of some history of whole turns with the same datagrams received; the same holds at the action that ends the main thread, and every history of whole turns is the work of some schedule. So the players known are those of the datagrams received, under every schedule.", "quantifier": "every schedule of the three threads at the granularity of lock, queue and socket operations, every datagram, every interface list, every socket failure", "why_tests_cant": "Schedules are not under a test's control and there are unboundedly many.", "anchors": ["src/rekordbox/server.rs: KeepaliveEventHandler::on_event, handle_keepalive_status, broadcast_sender_handler, initiate_mac_ip_negotiation", "src/component/mod.rs: App::next", "src/rekordbox/keepalive.rs: KeepAliveServer::recv_from"]}
{"id": "C69", "title": "A handshake is never torn", "statement": "At every moment of every schedule, the datagrams sent so far are a sequence of periodic announcements and whole handshakes, each handshake on one network and without anything in between, followed by at most one unfinished handshake; an unfinished one is under way or was cut off by the panic that ends the process, after which nothing more is sent even if other threads still run. Between link requests there has been exactly one whole handshake for each link request taken.", "quantifier": "every schedule of the three threads, every point in it", "why_tests_cant": "All interleavings of forty datagrams with two other threads, and all failure points.", "anchors": ["src/rekordbox/server.rs: initiate_mac_ip_negotiation, broadcast_sender_handler"]}
{"id": "C70", "title": "No deadlock over the shared state", "statement": "The shared state is used by one thread at a time; every thread that has work to do can proceed or waits for a thread that can; a thread that uses the state lets go of it within 41 of its own actions, after which every waiting thread can proceed. It is not guaranteed that a waiting thread gets its turn: a status announcement can wait for any number of turns of the broadcast thread.", "quantifier": "every reachable state of every schedule", "why_tests_cant": "Absence of deadlock ranges over all schedules.", "anchors": ["src/rekordbox/server.rs: ServerState mutex, on_event, broadcast_sender_handler, initiate_mac_ip_negotiation"]}
{"id": "C71", "title": "Fixed answers", "statement": "A setup request is answered with the numbers 0 and 17; a request for a waveform preview with one and the same 904-byte blob, announced with its size, whatever the track; the request sent at loading a track with an empty blob. Each answer is one message that carries the request's transaction number, and none of these requests changes how later requests are answered.", "quantifier": "every transaction number, every argument list of the request, every database content, every connection state and every later chunk", "why_tests_cant": "The answers must not depend on the unboundedly many arguments, libraries and connection histories.", "anchors": ["src/rekordbox/library.rs: SetupController, PreviewWaveformController, LoadTrackController"]}
{"id": "C72", "title": "Status packets are read at fixed offsets", "statement": "A status datagram is decoded to a packet exactly if its bytes say that packet: magic, kind, device name, two header bytes, and for players, link queries and link replies each field at its fixed offset, with slot and analysis bytes given their documented meaning and texts valid UTF-16. No datagram says two packets. Kinds are read from and written as their codes, a code without a kind being kept; and a packet is written exactly as its layout says, every other packet making the encoder panic.", "quantifier": "every datagram and packet", "why_tests_cant": "The offsets and meanings must hold for every byte value and every length, in both directions.", "anchors": ["src/rekordbox/packets.rs: StatusPacket::decode, Cdj::decode, LinkQuery::decode, LinkReply::decode, PlayerSlot::decode, TrackAnalyzeType::decode"]}
{"id": "C73", "title": "Pauses and rates", "statement": "Keep-alive datagrams are received at least 250 ms apart, periodic announcements sent at least 500 ms apart, application events taken at least 150 ms apart and the datagrams of a handshake sent at least 100 ms apart, so in any d ms at most d/100 + d/500 + 2 datagrams are sent. A handshake that comes to its end takes at least 3.95 s, during which no announcement is sent and no status is noted. The pauses rule out none of the schedules of the threads, and nothing else delays a thread: any times in order that leave each thread its rests (250 ms before it receives again, 500 ms before it announces again, 150 ms before it takes an event, 100 ms between datagrams of a handshake and 50 ms after the last) are possible.", "quantifier": "every schedule of the threads with any times that respect the sleeps, every instant and every length of time", "why_tests_cant": "It ranges over all interleavings and all delays of the scheduler.", "anchors": ["src/rekordbox/server.rs: initiate_mac_ip_negotiation, broadcast_message, broadcast_sender_handler", "src/rekordbox/keepalive.rs: KeepAliveServer::run", "src/component/mod.rs: App::run"]}
{"id": "C74", "title": "One handshake if threads are not delayed", "statement": "If no thread that is awake and able to go on is left waiting for longer than 16 ms, the link handshake is asked for at most once and begun at most once. With 17 ms it can be asked for twice.", "quantifier": "every timed schedule in which no thread is left waiting for longer than the bound", "why_tests_cant": "A race between the sleeps of three threads; tests cannot cover all delays up to the bound.", "anchors": ["src/rekordbox/server.rs: KeepaliveEventHandler::on_event, initiate_mac_ip_negotiation", "src/component/mod.rs: App::next"]}
{"id": "C75", "title": "Linked in time", "statement": "If no thread that is awake and able to go on is left waiting for longer than 16 ms, then 4.786 s after a status announcement of a player has been handled the complete handshake has been sent, exactly once, unless the application has ended or a thread has panicked while it held the shared state.", "quantifier": "every timed schedule in which no thread is left waiting for longer than 16 ms, every handled announcement", "why_tests_cant": "A real-time bound over all interleavings and delays.", "anchors": ["src/rekordbox/server.rs: KeepaliveEventHandler::on_event, initiate_mac_ip_negotiation", "src/component/mod.rs: App::run, App::next"]}
{"id": "C76", "title": "Announcements go on", "statement": "If no thread that is awake and able to go on is left waiting for longer than 16 ms, then after each periodic announcement the next one is sent within 5.38 s, whatever statuses arrive and handshakes are made, as long as the network is known and no thread has panicked while it held the shared state.", "quantifier": "every timed schedule in which no thread is left waiting for longer than 16 ms, every announcement in it", "why_tests_cant": "A real-time bound over all interleavings, delays and incoming traffic.", "anchors": ["src/rekordbox/server.rs: broadcast_sender_handler, initiate_mac_ip_negotiation"]}
{"id": "C77", "title": "The whole process behaves as if each part took whole turns", "statement": "Threads and services run at the same time. Still, whenever no thread is in the middle of its turn, the process is as after some history in which discovery, announcements, handshakes and the turns of the services happen one after the other: every service was sent the same, answered the same at once and is in the same state, the threads received, sent and queued the same. At any other moment before the main thread panics the services have answered as in such a history, with at most the last discovery datagram not yet taken into account. Every such history is the work of some schedule.", "quantifier": "every schedule of single actions of the threads and turns of the services, every history", "why_tests_cant": "Interleavings of threads, mutex and service tasks cannot be enumerated; the claim relates every one of them to a sequential history.", "anchors": ["src/rekordbox/server.rs: Server::run, keepalive_server, broadcast_sender_handler, initiate_mac_ip_negotiation", "src/rekordbox/rpc.rs: server, mount_export_rpc_callback", "src/component/mod.rs: App::run", "src/rpc/server.rs: PortmapServer::run"]}
{"id": "C78", "title": "Only export queries have to wait for the shared state, and not for long", "statement": "Of everything that can arrive at the services only an EXPORT call to the mount service itself waits for discovery and linking: exactly while one of the threads uses the shared state. (How far calls that wait hold up other services is C101.) It is never answered in the middle of a handshake, and the thread it waits for lets go within 41 of its own actions. Its answer names the network found for the last device whose status was handled; if there is none the service ends in silence.", "quantifier": "every schedule of the process, every input of the services, every EXPORT call", "why_tests_cant": "Which thread holds the mutex when a call arrives depends on the schedule.", "anchors": ["src/rekordbox/rpc.rs: mount_export_rpc_callback, EventHandler::on_event", "src/rekordbox/server.rs: initiate_mac_ip_negotiation, KeepaliveEventHandler::on_event", "src/rpc/server.rs: rpc_program_server"]}
{"id": "C79", "title": "A database connection in the running process", "statement": "Once a port has been given out on the port-query connection, the first client to connect there is answered chunk by chunk exactly as if it were alone with the database: each answer depends on the database and on that client's own earlier chunks only, whatever the other players, discovery, linking, file services and failed services do meanwhile, and nobody else is answered there. At a port that was never given out nothing is ever answered.", "quantifier": "every history of the whole process while it runs, every port, every sequence of chunks", "why_tests_cant": "The claim ranges over all interleavings of the connection with everything else the process does, including failures of other services.", "anchors": ["src/rekordbox/library.rs: DBLibraryServer::spawn, spawn_library_client_handler, process", "src/rekordbox/server.rs: Server::run"]}
{"id": "C80", "title": "A player's whole session", "statement": "In the running process a player that reads an artist, then a title listed for that artist, then the path and size for that title, on any connections and in any order with other questions, has been shown a real visible mp3 file of the music folder with these tags, path and size; and every such file (with a path in Unicode and short texts) has an artist id and a track id under which it appears in every page the player asks for. If it then walks along that path and reads the file in pieces at an NFS service the port mapper started, it receives exactly the bytes of that file.", "quantifier": "every music folder, every history of the whole process, every player's questions and file pieces", "why_tests_cant": "It connects scanning, indexing, both protocols and all interleavings of the process in one statement about every folder and every history.", "anchors": ["src/library.rs: scan_folder, metadata_extractor", "src/rekordbox/library.rs: DBLibraryServer::spawn, spawn_library_client_handler, process, RenderController", "src/rekordbox/library/database.rs: Database::new", "src/rpc/server.rs: PortmapServer::run", "src/rpc/nfs_program.rs: lookup, read"]}
{"id": "C81", "title": "Nothing is sent unasked", "statement": "In every run of the process, no correspondent (an address at the status port, at the port mapper or at one of its services, a connection to port 12523, the client of a database port) is ever sent more messages than it has sent; everything else that goes out is an announcement on port 50000, at most one for each turn of the broadcast thread and forty for each status heard. A process that has heard no player and been asked nothing sends nothing. Announcements have 44, 50 or 54 bytes, status replies at most 296, port mapper replies 28, port answers 2.", "quantifier": "every start, every history of everything that happens to the process, every correspondent, every message", "why_tests_cant": "That nothing unasked is sent, and no reply is ever sent twice or to a third party, is a statement about all histories, including retries of replies that could not be sent.", "anchors": ["src/rekordbox/server.rs: Server::run", "src/rekordbox/status_event_server.rs: run, send_to", "src/rpc/server.rs: PortmapServer::run, rpc_program_server", "src/rpc/nfs_program.rs: run", "src/rekordbox/library.rs: DBLibraryServer::spawn, spawn_library_client_handler"]}
{"id": "C82", "title": "Ports and files are held until their user is done", "statement": "If the operating system hands out only free ports, the database ports held at any moment are exactly those given out on port 12523 minus those whose one conversation has ended, and the ports of the RPC services are those the port mapper gave out minus those whose service has died: both are at most 65536, so without an ending no 65537th is ever given out. A port that nobody uses is never given back while the process runs. A file service keeps one file open for each file that was ever looked up in it and closes none while it lives.", "quantifier": "every start, every history of the process with an operating system that hands out only free ports; every history of a file service", "why_tests_cant": "A leak shows after tens of thousands of requests, and that nothing but the end of a conversation frees a port concerns every history.", "anchors": ["src/rekordbox/library.rs: DBLibraryServer::spawn, spawn_library_client_handler", "src/rpc/server.rs: PortmapServer::run", "src/rpc/nfs_program.rs: RpcNfsProgramHandler, lookup"]}
{"id": "C83", "title": "The pace of the status service", "statement": "The status service receives no two datagrams within less than 150 ms and replies at most d/150+1 times in any d milliseconds, however many players ask. A datagram waits 150 ms for each one that arrived before it and is still waiting, and if the thread is never held up by more than e ms it waits hardly longer (150+e for each, plus e); datagrams that come at least 150+e ms apart are received within e ms. Nothing else delays it: any times of receipt at least 150 ms apart, from the very start, are possible as long as no datagram but the last ends the service. The pauses change neither the answers nor what ends the service.", "quantifier": "every history of datagrams, all times of arrival and receipt, every window of time", "why_tests_cant": "Bounds on rates and waiting times concern all arrival patterns and all delays of the scheduler.", "anchors": ["src/rekordbox/status_event_server.rs: run, sleep, recv_from, send_to"]}
{"id": "C84", "title": "The public parts the program does not use keep their contracts", "statement": "For every history of reports and marks a player collection lists each reported address once, in the order of first reports, with the name of its first report and the number of its last, and it is linking exactly when it was reported or marked so and not unmarked since; iterating yields every player once, the newest first, and announces the right count; an index panics exactly when it is out of range. The database message codec gives back what was encoded (for the messages that survive a round trip at all), empties its buffer on every decode, asks for more input only when the buffer is empty, accepts, refuses and panics on the same bytes as the library's own parser, and so loses the second of two messages that arrive together. The encoder of one argument agrees with the encoder of a field except that binary arguments carry no length. The NFS procedure decoder follows the numbering of RFC 1094, rejects every other number and never panics. A verifier is always written as two words, and only the null verifier can be read back. The list of all tracks is always empty. In the shared state the linking mark, the discovery mark and the network are what the last call about each of them set, at first unset, and no such call touches the players; the players that can be read from it are those heard, in the order of their first datagrams. A slice is copied into an array exactly if it is as long as the array, and panics otherwise. The program's own name is written as TermDJ in big-endian UTF-16. A default lookup reply reads as success with a handle of zeros and a directory without attributes but its times; the reply made from the attributes of a file reads as them, and panics exactly if one of its times is unknown.", "quantifier": "all histories of calls, collections, buffers, messages, arguments, slices, files, inputs and databases", "why_tests_cant": "The histories, buffers and inputs are unbounded; the tests of the repository check three updates of two players and never run the codec.", "anchors": ["src/rekordbox/player.rs: PlayerCollection, PlayerIter, set_linking", "src/rekordbox/library/codec.rs: DbBytesCodec", "src/rekordbox/db_message_argument.rs: Argument::encode", "src/rpc/packets.rs: NfsProcedure, RpcAuth", "src/rekordbox/library/database.rs: tracks", "src/rekordbox/server.rs: set_linking, set_discovery, set_address, players", "src/rekordbox/util.rs: clone_into_array", "src/rekordbox/packets.rs: term_dj", "src/rpc/packets.rs: default, NfsGetAttrReply"]}
{"id": "C85", "title": "What a player remembers holds after a restart", "statement": "When the program is started again on an unchanged folder, every track id and artist id names what it named before, and any conversation repeated with it gets as many answers, each the same except for the order of rows; if it asks for neither the artist list nor an artist's titles, the answers are the same to the byte. When the folder has one file more, the new file takes the id of the one at its place in the scan, that one and all behind it move up by one id, and every file keeps title, path, size, tempo and artist name. So an id remembered from before can lead to a different file.", "quantifier": "every scan, every place of the new file, every conversation, every order in which the hash maps of either run are walked", "why_tests_cant": "The order of hash maps differs from process to process, and a test sees one of them; the conversations and folders are unbounded.", "anchors": ["src/rekordbox/library/database.rs: Database, new, get_track, get_artist, artists, title_by_artist", "src/rekordbox/library.rs: process, RenderController"]}
{"id": "C86", "title": "The program from its start", "statement": "The program scans the folder /home/jonas/Music/TermDJ, given directly or by a link, before it binds a port. It starts, or, exactly if a checked build meets a visible mp3 file with a tempo tag above 42949672, it panics and never answers anything. Once started, whatever happens in the process, every artist, title and path a player reads belong to one song of that folder, every song with a path in Unicode is in every page a player asks for, and a player that loads the path it was given gets that song's bytes. Without a folder or songs it runs all the same and every list of artists is an empty page. A path has room for 102 UTF-16 units below the folder.", "quantifier": "every content of the folder (fewer than 2^32-1 files, texts that fit the protocol), every build profile and hash order, every history of the whole process", "why_tests_cant": "It is a statement about all folders and all histories of the composed program, and the program reads a fixed path of one machine.", "anchors": ["src/main.rs: main", "src/component/mod.rs: App, new, run", "src/library.rs: scan_folder", "src/rekordbox/library/database.rs: new"]}
{"id": "C87", "title": "Which messages may be repeated or lost", "statement": "Datagrams can be doubled, lost or sent again by a client that missed the answer. A file service call other than a lookup (after a history that went well), a datagram to the mount service or the status service that does not end it, and any answered database request can come twice: the copy gets the same answer and no other answer changes; the same calls (of database requests those that ask for no menu) can be lost without any effect on the other answers. A keep-alive datagram that comes twice in a row leaves the program's knowledge as one did, announces no new device, and asks for a link exactly if the first did. But the copy of a lookup is a lookup in another place, so a walk with a doubled lookup ends nowhere or at a wrong file, and every copy of a request for a port starts one more service on a port of its own. From any such state, in a file system in which everything can be opened, a client that looks up a path name by name and starts over once when left without an answer gets an answer to every name, and on the second try the right ones.", "quantifier": "every history before, every datagram and every later history; every path and file system", "why_tests_cant": "It ranges over every position of a repeated or lost datagram in every history; a test can repeat one datagram in one place.", "anchors": ["src/rpc/nfs_program.rs: lookup, getattr, read, call_procedure, run", "src/rpc/server.rs: run", "src/rekordbox/rpc.rs: EventHandler", "src/rekordbox/status_event_server.rs: run", "src/rekordbox/server.rs: handle_keepalive_status", "src/rekordbox/library.rs: process"]}
{"id": "C88", "title": "The order of messages: what may be reordered", "statement": "Networks reorder datagrams. File-service calls other than lookups (reads, attribute calls) that follow a history which went well may arrive in any order: each gets the same answer, and everything before and after them is answered the same. Such a call may also change places with the lookup after it, unless that lookup opens a file of the inode the call is about. Two lookups may not change places. On a database connection, answered requests that ask for no menu (pages of a menu, for instance) may arrive in any order. Datagrams that do not end the mount service, the port mapper or the status service may arrive in any order, and each gets the answers it would get alone. Two keep-alive messages in a row of different devices on one network may change places: each causes the same events, the devices known are the same in another order, and if both devices or neither were known before, everything that follows is the same; otherwise it may not be.", "quantifier": "all histories before and after, all blocks of calls or requests and all their permutations, all pairs of neighbouring keep-alive datagrams and all interfaces, all file systems, databases, hash orders and both byte orders", "why_tests_cant": "A test shows two orders of a few messages; the claims are about every permutation of every block in every state, and about all that follows.", "anchors": ["src/rpc/nfs_program.rs: lookup, getattr, read, call_procedure, run", "src/rpc/server.rs: run", "src/rekordbox/rpc.rs: EventHandler", "src/rekordbox/status_event_server.rs: run", "src/rekordbox/server.rs: handle_keepalive_status", "src/rekordbox/player.rs: add_or_update", "src/rekordbox/library.rs: process"]}
{"id": "C89", "title": "A file handle means the same file on a disk that changes", "statement": "Files are renamed, replaced, written and removed while the service runs, and inode numbers of removed files are used again. As long as files that are there at the same time have different inode numbers, and a file held open keeps its own, the handle answered for a regular file goes on meaning that file in the same service: reads through it return the bytes that file has then and attribute calls its attributes then, whatever its name has come to mean; and two lookups of regular files got the same handle exactly if they found the same file. A handle does not survive the service: in the service started next it may read another file. The handle of a folder is not kept this way even within one service. A name given to another file between the two looks of one lookup yields the first file's handle and the second file's bytes.", "quantifier": "all disks and all changes of them between calls that keep inode numbers of files that are there apart, all histories of calls that went well, all files, names, offsets, counts", "why_tests_cant": "A test renames or removes one file once; the claim is about every sequence of changes between every two calls, including reuse of inode numbers, which a test cannot bring about at will.", "anchors": ["src/rpc/nfs_program.rs: lookup, getattr, read, RpcNfsProgramHandler", "src/rpc/packets.rs: FileHandle, NfsFileAttributes"]}
{"id": "C90", "title": "The program speaks as the recorded software does", "statement": "Against the traffic of the real software recorded in the project's documents: handling a link request sends exactly the forty recorded discovery datagrams in the recorded order, with the machine's own hardware and network address in place of the recorded ones; the announcement repeated afterwards differs from the recorded one in one two-byte number only (1 instead of 4); the recorded announcement of a player makes a player of that address, number and model known, whatever the number and addresses; the recorded status datagram of a player and a link query for slot 1 get the recorded answers but for the two names in them; the recorded call for the port of the mount service gets the recorded answer with the port just opened. The recorded call for the export list does not get the recorded answer: there the list is empty, here it has the entry \"/\".", "quantifier": "all histories of the server that reach a link request, all machine and player addresses, player numbers, transaction numbers, stamps, ports and networks; the recorded datagrams themselves are constants", "why_tests_cant": "A test compares one datagram for one machine address; the claim is the whole exchange for every address, number, port and transaction after every history.", "anchors": ["docs/rekordbox/network_inspection.md", "docs/rekordbox/player_linking.md", "docs/rekordbox/portmapping.md", "src/rekordbox/server.rs: initiate_mac_ip_negotiation, broadcast_sender_handler", "src/rekordbox/packets.rs", "src/rpc/server.rs"]}
{"id": "C91", "title": "Debug and release builds behave alike", "statement": "A build with overflow checks (cargo's debug profile) and one without (release) differ only as follows. If the checked build starts at all, the other starts with the same index. They read a database request differently exactly if a text in it announces a size of 0 or more than 2^31 (so that doubling it overflows 32 bits) and has the text the wrapped size asks for: the checked build then drops the connection, the other answers as if the size were right. On any connection the checked build gives the answers of the other up to such a chunk. In the whole process nobody but the client of that connection can tell: every other correspondent is sent the same messages at the same moments and the same announcements go out; without such texts the two builds behave identically.", "quantifier": "every music folder, every chunk of bytes, every conversation, every history of everything that happens to the process, every correspondent", "why_tests_cant": "Tests run in one profile; the claim compares the two builds for every history, and says for which of all byte strings they differ.", "anchors": ["src/rekordbox/db_message_argument.rs: Argument::decode", "src/library.rs: extract_bpm", "src/rekordbox/library/database.rs: Sequence::increment", "src/rekordbox/library.rs: process, spawn_library_client_handler"]}
{"id": "C92", "title": "What reaches a client over a connection that can fail", "statement": "Errors of reading or writing on a database connection are ignored by the program, and the bytes a client receives are nevertheless in order: if a failure of the connection lasts (as failures of TCP do), it has at any time received the answers to its chunks one after the other up to some byte, none lost, doubled or late; if no write fails it has received all of them, whatever reads have failed. Even if writes fail and succeed again, what was written together with what still waits are whole answers in order, all of them as long as they are less than 8192 bytes together. A write is reported as done only if everything that waited and the whole answer were written, and as failed exactly if the system failed a write that had to be made. With more than that waiting an answer can be lost for good although the connection lives on and every other answer is written. On a connection to port 12523 the same holds of the numbers of ports: every chunk opens one port whether or not its number gets through, and what the client has read are the numbers of ports opened for it, in order, two bytes each, up to some byte. In the running process this holds of every client at a port that was given out, whatever the other players and the rest of the program do meanwhile.", "quantifier": "every database, every sequence of chunks, failed reads and partial writes, every number of bytes the system takes before a failure; every sequence of ports the system gives; every history of the process", "why_tests_cant": "The tests never fail a write; the claim ranges over every point at which a write can stop, between any two bytes, and everything that follows.", "anchors": ["src/rekordbox/library.rs: spawn_library_client_handler, process, DBLibraryServer", "Cargo.toml: tokio-util"]}
{"id": "C93", "title": "How much larger an answer is than its question", "statement": "No address is sent much more than comes from it, so that a forged sender gains little, with one exception. Over any run: the status service sends an address at most 296 bytes for every 34 received from it, the port mapper at most 28 for every 60, an RPC service at most 88 for every 60 as long as nobody asks it to read; with reads it is 65504 for every 104. Each datagram is answered by at most one (apart from one reply that could not be sent before), of a size fixed by its kind: 296 (greeting of at least 34 bytes), 192 (media query, 48), 28 (port, 60), 60 (mount, 66), 72 to 88 (exports, 60), 96 (attributes, 92), 128 (lookup, 96); a read is answered with as many bytes as it asks for, whatever the file contains.", "quantifier": "every run of the process from its start, every correspondent, every datagram of any length and content, every answer of the file system", "why_tests_cant": "The bound is over all datagrams and all sequences of them; a test shows the sizes of a few answers.", "anchors": ["src/rekordbox/status_event_server.rs: StatusEventServer::process_packet, run", "src/rpc/server.rs: PortmapServer::run, rpc_program_server", "src/rpc/nfs_program.rs: RpcNfsProgramHandler::run, read", "src/rpc/codec.rs: RpcBytesCodec::encode", "src/rpc/packets.rs: RpcCall::decode", "src/rekordbox/packets.rs: StatusPacket"]}
{"id": "C94", "title": "How much memory a datagram can claim", "statement": "Decoding a datagram, at the port mapper or at any RPC service, sets aside room for the 32 bytes of a handle and for as many bytes as the datagram announces for the name of a lookup or the path of a mount, before looking whether they are there; for nothing else announced. It is not bounded by the size of the datagram: 64 bytes can claim four gigabytes. If fewer bytes follow than announced the datagram is an error and every service goes on as if it had not come. A file service also sets aside what a read asks for, whatever the file has, exactly if the handle is one of a file opened in its history. No such claim reaches 2^32 bytes, and between datagrams a file service holds at most one reply, one it could not send.", "quantifier": "every datagram, every history of a file service, both byte orders", "why_tests_cant": "A test shows what one datagram claims; the claim is about all datagrams and the worst of them, and that nothing stays behind.", "anchors": ["src/rpc/packets.rs: RpcMessage::decode, RpcProcedure::decode, NfsLookup::decode, MountMnt::decode, FileHandle::decode", "src/rpc/fs.rs: read_file_range", "src/rpc/nfs_program.rs: RpcNfsProgramHandler::run, read", "Cargo.toml: nom"]}
{"id": "C95", "title": "The process when its output cannot be written", "statement": "After start the program writes a line on its standard output or error exactly: when it looks at a pending event in the main loop; for a datagram on port 50000 it cannot read; at the status port for anything but a complete status of a player, a hello or a link query, and for a receive error; at an RPC port for a datagram that is neither empty nor a call nor of type 1; at a file service for a call it does not answer; for a connection at port 12523 that cannot be accepted; and on a database connection for a chunk it cannot read or that asks for an unsupported request. If output cannot be written (the terminal or the pipe is gone), writing ends the thread or task. As long as no line is due nothing differs. The process then ends exactly when its main thread looks for events after the first device has been heard; it never takes part in the link handshake; and each service answers as ever up to its first line and nothing from there on, without disturbing the others. That the process does not depend on its output is false. A send that the system refuses is one more line: without output it ends its sender as a failed receive, an empty chunk or a socket that cannot be opened would. In particular the first refused announcement is the last: nothing more is announced and no further device is recorded, while a refused port number leaves the database port it named open.", "quantifier": "every history of inputs of the whole process and of refused sends, both build profiles, both byte orders, every database", "why_tests_cant": "A test runs with working output and sees no difference; the claim is about every interleaving of inputs of all services and the first line of each.", "anchors": ["src/component/mod.rs: App::next", "src/rekordbox/keepalive.rs: run", "src/rekordbox/status_event_server.rs: StatusEventServer", "src/rekordbox/packets.rs: StatusPacket", "src/rekordbox/server.rs: Server::run", "src/rekordbox/library.rs: process, spawn_library_client_handler", "src/rpc/packets.rs: TryFrom", "src/rpc/server.rs: run", "src/rpc/nfs_program.rs: RpcNfsProgramHandler::run"]}
{"id": "C96", "title": "The database service answers as the recorded original does", "statement": "Every answer of the database service, other than to a title request, is byte for byte what the protocol writes for the messages a client reads in it. Setup, the request sent at loading a track and the waveform request are answered with exactly the bytes recorded from the original software, but for the transaction number; the main menu, its announcement and the album page likewise. The artist and title pages consist of rows of the recorded form, one for each artist or title. The metadata and mount info pages are the recorded ones for the title, artist, tempo, path and size of the track asked for, with these exceptions: the duration is 195 seconds for every track, the metadata page carries no comment, and the first item of the mount info page lacks the recorded number 256. The announced number of albums equals the recorded one only for an artist with one track, and no library is shown with the recorded artist id 1.", "quantifier": "every library, hash order, answered history of a connection, request and transaction number, both build profiles", "why_tests_cant": "The repository compares a few of its recorded dialogs for one transaction and one library; the claim is that for every library and every history the bytes are the recorded ones with only the contents replaced, and where they are not.", "anchors": ["src/rekordbox/fixtures.rs: root_menu_dialog, artist_dialog, album_by_artist_dialog, title_by_artist_album_dialog, metadata_dialog, mount_info_request_dialog, load_track_request, preview_waveform_request, setup_response_packet", "src/rekordbox/library.rs: process, RenderController, SetupController, LoadTrackController, PreviewWaveformController", "src/rekordbox/packets.rs: DBMessage, ManyDBMessages", "src/rekordbox/db_field.rs: DBField::as_bytes", "src/rekordbox/db_message_argument.rs: ArgumentCollection"]}
{"id": "C97", "title": "Lists are a snapshot; a load follows the disk", "statement": "The menus, titles, paths and sizes players are shown are those found when the program started: two runs that differ only in what the disk answers while they run send, step by step, the same datagrams and bytes from everything except the file services. A load follows the disk as it is: each piece a player reads is that piece of what the file then holds, zeros past its end. Having read as many bytes as it was told, a player has the file's bytes exactly if the file still has the size it was told, the first part of it if it has grown, and the file followed by zeros if it has shrunk. A file of 4 GiB or more is cut to its size modulo 2^32 even if it never changed. A file rewritten during a load can arrive as a mixture of two versions. A file that was removed is still shown with its path; looking it up gets no answer, and the next load is not disturbed.", "quantifier": "every library, history of the process and of its file services, disk content at every step, piece size and number of reads", "why_tests_cant": "The disk may change at any moment between any two of the datagrams of a load, and the claim compares whole runs with each other.", "anchors": ["src/main.rs: main", "src/library.rs: scan_folder", "src/rekordbox/library.rs: QueryMountInfoController, RenderController", "src/rekordbox/server.rs: run", "src/rpc/nfs_program.rs: lookup, read", "src/rpc/fs.rs: read_file_range"]}
{"id": "C98", "title": "What clients can learn of a library", "statement": "Two libraries look the same if, file by file in the same order, they agree on artist, title and tempo (no tempo counts as zero) and either on path and size or in that neither path is UTF-8. If two libraries look the same then the whole program sends the same datagrams and bytes, whatever players do. In particular the albums never leave the program. Conversely, if no client of the database service can tell two libraries apart then they look the same: everything but the albums, the difference between no tempo and tempo zero, and the paths and sizes of files whose path is not UTF-8 can be learned over the network without asking for a password. So clients learn exactly how a library looks. The converse is for texts of at most 127 UTF-16 units and fewer than 2^32-1 files. The same holds of the folders the program is started on. Whatever is in the folder and is not a song (a file or a whole directory whose name starts with a dot, a file that is not mp3, a file that cannot be read and has no excessive tempo) can be added, removed or changed anywhere in it, and the program still sends the same; only reads through the file services, whose outcome is the disk's, can tell.", "quantifier": "every pair of libraries, hash order that depends on the ids alone, history of the process, sequence of bytes from a client, both overflow profiles", "why_tests_cant": "It compares the answers to all possible sequences of requests for two arbitrary libraries.", "anchors": ["src/rekordbox/library/database.rs: Database, Track, title_by_artist, index", "src/rekordbox/library.rs: process, RenderController, MetadataController, QueryMountInfoController", "src/rekordbox/library/model.rs: Metadata", "src/main.rs: main"]}
{"id": "C99", "title": "Several copies on one network", "statement": "What a copy of the program announces has no effect on any copy, so copies that hear each other's announcements do exactly what each would do alone. No datagram that a copy sends, delivered to any UDP port of any copy (or to itself), by anybody and with any sender, makes that copy send anything: there is no endless exchange among copies. Such a datagram can do no more than end the service it reaches, and does so exactly if it is the answer to a greeting and reaches the status service, or is an answer of a port mapper or of one of its services and reaches a port mapper or such a service. The claim that copies cannot harm each other is therefore refuted: whoever greets one copy, or asks it for a port, in the name of another silences the other's status service, or its port mapper and database listener, for good.", "quantifier": "every number of copies, library, history of each copy, delivery of their datagrams in any order, number and to any port", "why_tests_cant": "It ranges over all datagrams copies can ever send and all states of the copies they may reach.", "anchors": ["src/rekordbox/server.rs: on_event, broadcast_message, send_broadcast_payload", "src/rekordbox/status_event_server.rs: process_packet, run", "src/rekordbox/packets.rs: decode_content", "src/rpc/server.rs: run, rpc_program_server", "src/rpc/packets.rs: RpcReply, decode", "src/rpc/nfs_program.rs: run"]}
{"id": "C100", "title": "Datagrams that mean nothing to the program", "statement": "Call noise: at port 50000 every datagram that is not the status of another device; at port 50002 every datagram that is not a greeting, a media query or of an unknown kind with a valid header; at the RPC ports every datagram that is neither an RPC call nor a message of type 1; and failed receives. Noise in any state of the program makes it send nothing and leaves its state unchanged, so a history with any amount of noise put in anywhere has the same outputs in the same order and ends in the same state as the history without it. Nothing else is without effect: a datagram that goes unnoticed in every state the program can reach is noise.", "quantifier": "every datagram of any length at every UDP port, every state, every history and every place and amount of noise in it", "why_tests_cant": "It ranges over all datagrams and all histories; the converse needs, for every datagram that is not noise, a reachable state in which it has an effect.", "anchors": ["src/rekordbox/server.rs: on_event, run", "src/rekordbox/status_event_server.rs: process_packet, run", "src/rpc/server.rs: run, rpc_program_server", "src/rpc/packets.rs: decode", "src/rpc/nfs_program.rs: run"]}
{"id": "C101", "title": "How many cores the services need", "statement": "All services but the status service share as many worker threads as the machine has cores, and an EXPORT call that waits for the shared state keeps its worker. Whatever the number of workers, nothing is lost, answered differently or taken out of order because of it: the services send what they send in some history of whole turns, and one worker can do everything. Only EXPORT calls wait, one at a port, at ports given out for other services than the file service. A service takes nothing while it waits itself; apart from that everything is taken at once as long as fewer calls wait than there are workers, so always if there are more workers than such ports. When as many calls wait as there are workers, nothing but the status service is served while any thread uses the shared state: for every number of workers as many EXPORT calls during a handshake bring this about, and a handshake that comes to its end takes at least 3.95 s. That thread lets go within 41 of its own actions; then all calls that wait can go and everything is taken again.", "quantifier": "every number of workers, every schedule of threads, services and waiting calls, every input of the services", "why_tests_cant": "Who waits depends on the schedule, and the number of workers on the machine; that no schedule loses or reorders anything, and that a stall ends, are claims about all of them.", "anchors": ["src/main.rs: main", "src/rekordbox/rpc.rs: mount_export_rpc_callback, server", "src/rpc/server.rs: rpc_program_server, run", "src/rekordbox/server.rs: run, initiate_mac_ip_negotiation", "src/rekordbox/library.rs: DBLibraryServer"]}
{"id": "C102", "title": "The process runs out of file descriptors", "statement": "Every port given out, every connection and every file a device has ever looked up takes a file descriptor, and the operating system allows only so many. Those in use are exactly its own ports, the connections to port 12523, one for each port given out whose user is not done, one more for each database client, and the files its file services keep open. Whatever happens, no more are in use than allowed: ports given out exceed those whose user is done by no more than the limit less the process's own ports, and a file service can have opened only fewer different files than the limit. A process at the limit announces nothing, links with nobody, answers no GETPORT, accepts no connection to port 12523, gives out no port and answers no lookup, also of a file that is there. The first call that reaches the port mapper then ends it, and port 12523 with it; the next announcement makes the shared state unusable, and a request to link ends the process. More GETPORT calls than the limit, beyond the services that have ended, are enough to stop the port mapper.", "quantifier": "every limit of at least four, every history of the whole process in which the operating system grants no descriptor beyond it (it may refuse others too)", "why_tests_cant": "What is open depends on the whole history of ports, connections and lookups, and the limit on the machine; that nothing leaks beyond the count, and what a full process still does, are claims about all histories.", "anchors": ["src/rpc/server.rs: run", "src/rpc/nfs_program.rs: lookup", "src/rpc/fs.rs: get_fhandle", "src/rekordbox/library.rs: DBLibraryServer, RemoteDBServer", "src/rekordbox/server.rs: send_data, run"]}
{"id": "C103", "title": "How many devices can be heard", "statement": "What comes to port 50000 waits in the operating system until the keep-alive thread asks for it, and is received in the order it came; a datagram is lost exactly if as many already wait as there is room for. The thread receives one at a time with 250 ms in between, so a datagram behind q others is received no sooner than 250*q ms after it came. Where at least n datagrams come in any p ms and 250*n exceeds p (seven devices that announce themselves every 1.5 s, this machine's own announcements included), the number of datagrams that wait or are lost grows without end, so that with any room some are lost. Where no more than n come in any p ms and the thread, at most e ms late with each, has time for n of them in p ms, nothing is lost given room for n and for what comes while something else holds it up, and each is received within (250+e)*n - 250 ms and the time it was held up, one that still waits having come no longer ago. In particular, if the operating system leaves no thread waiting for longer than 16 ms, no receive fails and no thread has panicked with the shared state, then what holds the thread up is bounded: a datagram that announces no device takes it at most 266 ms, one that does at most 394 ms, and once in the life of the program the handshake another 4.772 s; so where in any p ms at most n announcements of devices and m other datagrams come and 394*n + 266*m <= p, nothing is lost and every datagram is received, and every device that announced itself is among the players the program knows, within 394*n + 266*m + 4506 ms. What the devices send makes up these numbers. Apart from the waiting, the threads do what they do in C73, and no schedule of C73 is excluded.", "quantifier": "every room, every sequence of datagrams from every sender at any times, every schedule of the threads with its times, every delay and every hold-up", "why_tests_cant": "Whether the thread keeps up is a claim about all arrival times, delays and lengths of run; a test sees one short run with a queue that never fills.", "anchors": ["src/rekordbox/keepalive.rs: run, recv_from, bind", "src/rekordbox/server.rs: on_event, broadcast_sender_handler"]}
{"id": "C104", "title": "Several loads at one file service", "statement": "Loads can share a file service as long as their walks are not mixed. If the lookups a service has received are whole walks, one after the other, each along folders to a regular file or to a name that is not there, then every lookup is answered with what the names of its own walk lead to, whatever reads, attribute calls and other datagrams come in between; and a player that has walked to a file gets exactly its bytes, asking for the pieces in any order, while other walks (even mixed ones) and other reads go on. This holds as long as no datagram of type 1 comes, no read asks for more than 65404 bytes and answers can be sent, on a disk that may change in between. If a lookup comes while another walk is under way it is answered with what has that name in the folder the other walk has reached, and the lookup after it with what has its name inside what was found, if that is a folder, and otherwise in the root. In the running process this holds at each file service by itself, so players with a port of their own need not mind each other.", "quantifier": "every number of loads, every interleaving of their reads with the walks of others, every path and file, every change of the disk between calls, every order of the pieces, every schedule of the process", "why_tests_cant": "It ranges over all interleavings of any number of loads on a disk that changes between any two calls.", "anchors": ["src/rpc/nfs_program.rs: lookup, reset_path, read, run", "src/rpc/fs.rs: read_file_range", "src/rpc/server.rs: PortmapServer::run"]}
{"id": "C105", "title": "What harms the program, and that nothing else does", "statement": "The program as a whole — its threads, the shared state, the status service, the port mapper, the listener for database queries and every service the port mapper has started — stays in working order exactly as long as none of a short list of things happens. If the machine does its part (sockets can be opened and bound, datagrams sent, every network has a hardware address and every file its three times) the list is: a link request is taken up while the last device heard is on none of the networks; a status datagram comes that the status service cannot take; a message of type 1 comes to the port mapper or to a service it has started; a mount service is called for anything but mount, or export while no network is known; a file service is asked through a good handle for more than 65404 bytes. Otherwise the list also has the failures of the machine: an announcement from a network without hardware address, a broadcast or link packet that cannot be sent, a port that cannot be bound for a call, a reply that cannot be sent, a file one of whose times is unknown. Each thing on the list does harm the program, and nothing else does, whatever came before and whatever else comes.", "quantifier": "every history of the process: every datagram at every port, every schedule of its threads, every behaviour of the machine, every database and folder", "why_tests_cant": "That nothing else does harm ranges over all datagrams, at every port, after every history.", "anchors": ["src/rekordbox/server.rs: Server::run", "src/rpc/server.rs: PortmapServer::run, rpc_program_server", "src/rpc/nfs_program.rs: run", "src/rekordbox/rpc.rs: server, mount_export_rpc_callback", "src/rekordbox/status_event_server.rs"]}
{"id": "C106", "title": "What each harm takes with it, and what comes back", "statement": "Each part of the program goes down by itself. In a running process the thread that listens for announcements goes down exactly if it hears a status announcement from a network whose hardware address cannot be found out; the thread that broadcasts exactly if a broadcast to a known network cannot be sent; the state they share exactly with either; the status service exactly at a datagram it cannot take; the port mapper exactly at a message of type 1, or a call for which no port can be bound or whose reply cannot be sent; the listener for database connections exactly when it has its turn after the port mapper went down; a service at a port that was given out exactly at a datagram to that port which ends it. The process itself, and all parts with it, ends exactly if a link request is taken up without a known network, with an unusable state or when one of its datagrams cannot be sent. So no harm takes with it more than is named here, whatever else is down already. Whatever is down stays down for good, except a service at a port that was given out: as long as the port mapper works, asking it again gives a fresh service, also at the same port.", "quantifier": "every history of the process, every part, every event, every behaviour of the machine, every order in which parts go down", "why_tests_cant": "That nothing more goes down, and that nothing comes back, ranges over all histories and all events at all ports.", "anchors": ["src/rekordbox/server.rs: Server::run, on_event, broadcast_sender_handler", "src/rpc/server.rs: PortmapServer::run, rpc_program_server", "src/rpc/nfs_program.rs: run", "src/rekordbox/rpc.rs: server", "src/rekordbox/status_event_server.rs", "src/component/mod.rs"]}
{"id": "C107", "title": "What the program remembers of its past", "statement": "Two pasts make no difference to what the program does from now on exactly if they agree in what is listed here; everything else is forgotten. Discovery: as long as nothing has failed, the pasts must agree in which network was last heard from, up to the attributes that no datagram shows, in what is still waiting for the application, in whether the program has linked, and in the set of addresses it has heard from; the names, numbers and order of the devices, and how often each was heard, are forgotten. Once it no longer takes notice of anything, only the events still waiting up to the first link request matter. A file service: the pasts must agree in whether it can still answer and, if it can, in the reply that could not be sent yet, in the folder last looked up, up to a slash at its end, and in which file every handle stands for. A database connection: the pasts must agree in what a single render request would show; no other request is answered by the past. The status service, the port mapper and the mount services remember nothing of their past; a service that the port mapper starts at a port is fresh, whatever was there before. The whole process remembers no more than its parts: if the parts of two processes have the same memory, the processes do alike for good; and if two running processes do alike for good, so do their parts.", "quantifier": "every two histories, every continuation of both, every behaviour of the network and the file system", "why_tests_cant": "That two histories can never be told apart ranges over all continuations, and that everything not listed is forgotten over all pairs of histories.", "anchors": ["src/rekordbox/server.rs: Server::run, on_event", "src/rekordbox/player.rs", "src/rpc/nfs_program.rs: run", "src/rekordbox/library.rs", "src/rpc/server.rs: PortmapServer::run, rpc_program_server", "src/rekordbox/status_event_server.rs"]}
