# Formal model of pioneer-pro-dj-linux

The program lets a Linux machine act as a *rekordbox* source for Pioneer
players.  It (1) scans a music folder into an in-memory database, (2) talks the
UDP keep-alive and status protocols of the players, (3) serves the "remote DB"
TCP protocol, and (4) serves files over ONC RPC: port mapper, mount, NFSv2.

## Layout

| file (rocq/theories) | contents |
|---|---|
| `Base.v` | bytes, results (Ok / Err / Panic), machine integers, nom combinators |
| `Unicode.v` | UTF-8 / UTF-16 as in Rust's std |
| `M*.v` | the model: one file per source module, definitions only, each with its citation |
| `S*.v` | independent specifications (client-side readers, RFC layouts, history functions) |
| `L*.v` | lemmas and proofs |
| `P*.v` | the property theorems, with `Print Assumptions` and examples |
| `VTests.v` | the repository's own unit tests restated on the model with the same bytes (a check of the model, not claims) |

## Modelling decisions

* A byte is an `N`; "is a byte" is `b < 256`, a byte string is `list N`.
  `usize` is 64 bit; allocation never fails.
* A Rust call returns `Ok v`, `Err` (nom error or io error, the distinction
  between nom's `Error` and `Failure` is not observable here) or `Panic`.
  A panic unwinds the enclosing task or thread; what dies with it is modelled at
  the service level.
* Integer overflow depends on the build profile: the model takes a `profile`
  (`Checked` panics, `Wrapping` wraps) and theorems hold for both.
* Rust `String` is a list of Unicode scalar values; `OsString`/`PathBuf` is a
  list of bytes.
* `HashMap` is an association list in insertion order.  Iteration order is an
  oracle: a function returning a permutation, quantified in every theorem.
* Operating system: interfaces, file system, port numbers, clock, bind failures
  are parameters of the step functions, quantified in every theorem.
* Network services are state machines over the list of received datagrams or
  chunks; concurrency is an arbitrary interleaving (list of steps).

## Trusted base

* Coq 8.16.1's kernel (and `coqchk`).
* No axioms: every property theorem is followed by `Print Assumptions`, which
  reports "Closed under the global context".
  `coqchk` additionally lists seven constants of `Coq.ssr.ssrunder` under the
  axioms of the loaded library: they are the module-type fields of the standard
  library's `under` tactic, loaded through `lia`; no theorem here uses them.
* The transcription of Rust into Gallina, done by hand and cited line by line.
* The models of the libraries used: nom 6 (complete parsers `take`, `tag`,
  `be_u*`, `le_u16`, `count`), std's UTF-8/UTF-16, `bytes`, `HashMap`,
  `ipnetwork`, `walkdir`, tokio-util's `BytesCodec`/`UdpFramed`, `PathBuf::push`.

Not modelled: the `id3`/`id3v1` tag parsers (oracle: tag text), the file system
and network stack (oracles), durations other than the sleeps of the four threads
(MTime, MStatusTime), memory exhaustion,
the wording of logged lines and test modules.  Except in MPrint (C95) writing a
line is assumed to succeed.  Code that nothing
calls is modelled in MUnused (C84).  MServer treats the turns of its threads as atomic; C68 proves
that this loses nothing against MThreads, where they are not, and C77 the same
for MSystem against MProcess, where the services run beside such threads, and C101 for
MProcess against MWorkers, where they share a number of workers.  In
MThreads and MProcess the process may go on for a while after the main thread has panicked; in MServer and
MSystem it ends at once.

## Which code is modelled

Every function of the program that runs is modelled by the files in the second
column; the third column lists what of each source file is not.  Test modules
(`#[cfg(test)]`) are never part of the model; VTests replays their data.

| file (src) | model | not modelled |
|---|---|---|
| main.rs, component/mod.rs | MMain, MServer (`AppStep`), MThreads, MTime, MProcess, MWorkers | terminal colours, `clearscreen`'s text and the wording of what is printed |
| library.rs | MScan, MPath | the bytes of tags: `id3`/`id3v1` are oracles that yield a tag or an error for each file; the bytes of music files are the oracle's |
| utils/network.rs, utils/mod.rs | MNetwork | `pnet`'s enumeration of interfaces (its result is a parameter); the port the system picks for `random_ipv4_socket_address` (a parameter of MSystem) |
| rekordbox/mod.rs | constants inlined in MPackets, MServer | module declarations |
| rekordbox/player.rs | MServer, MUnused | `Debug` output |
| rekordbox/keepalive.rs | MKeepalive, MServer, MThreads, MSocket | `Debug` output, `get_socket`/`set_broadcast` beyond success or failure |
| rekordbox/packets.rs | MPackets, MDb, MUnused | `Debug` output |
| rekordbox/status_event_server.rs | MStatus, MStatusTime | `Debug` output |
| rekordbox/server.rs | MServer, MThreads, MTime, MSocket, MSystem, MProcess, MDescriptors, MUnused | `Debug` output; thread and task creation never fails |
| rekordbox/db_field.rs, db_message_argument.rs, db_request_type.rs | MDb, MUnused | trivial accessors and iterators of `ArgumentCollection`; `DBField::new`, `Binary::new` are the constructors of the model's types |
| rekordbox/library.rs, library/metadata_type.rs, library/request.rs | MLib, MSystem, MStream, MDescriptors | `Debug` output; constants nothing refers to |
| rekordbox/library/database.rs, helper.rs, model.rs | MDatabase, MUnused | a poisoned database lock (it is written only before the services start); `Queryable` (no implementation) |
| rekordbox/library/codec.rs | MUnused | nothing else: the program does not use it |
| rekordbox/library/fixtures.rs | MFixtures | - |
| rekordbox/fixtures.rs | SDocs, SRecorded, VTests | test data, read as recorded traffic |
| rekordbox/rpc.rs | MRpcServer, MProcess, MWorkers | `Debug` output |
| rpc/packets.rs, rpc/codec.rs | MRpc, MMemory, MUnused | `RpcUnixAuth` (a type without functions that nothing uses) |
| rpc/server.rs, rpc/mod.rs | MRpcServer, MProcess, MWorkers, MDescriptors | the field `programs` (never read) |
| rpc/nfs_program.rs, rpc/fs.rs | MNfs, MPath, MMemory, MDescriptors | the file system: `open`, `metadata`, `read_at`/`seek` are oracles (record `os`) |
| rekordbox/util.rs | MUnused | - |

Operating system calls are assumed to return.  A reply or buffer that does not
fit in memory (for instance the room `count` reserves ahead for a declared
number of items) counts as memory exhaustion, which is not modelled; how much a
datagram can claim is C94.

## Properties

For each property: what is modelled and how it is proved.  When the natural
claim is false of the code there is a `_refuted` theorem with a concrete witness
next to the exact characterisation.

| id | model | method |
|---|---|---|
| C01 | MDb: field and argument codec | induction over the argument list, both directions |
| C02 | MDb: message codec | from C01, case analysis over request types |
| C03 | MDb + client-side reader SDb | arithmetic on the length byte, reader lemma |
| C04 | MDb: request codes | case analysis over the code |
| C05 | MDb | prefix induction, numeric bound on the misread length; for arguments of every kind, induction over the arguments with the bytes that follow each: a message reads back exactly if its texts are short enough and every raw argument is empty and has fewer than four bytes after it |
| C06 | MDb | characterisation of each combinator, induction over announced arguments |
| C07 | MLib: process | computation |
| C08 | MLib + SDb stream reader | per controller, induction over rows |
| C09 | MLib: process, history | induction over the history against a last-menu specification |
| C10 | MLib, MDatabase | permutation length arguments |
| C11 | MLib + SDb stream reader | induction over rows, reader lemma of C03; for the converse, every message of a correct page announces the size of its own text, which a truncated length byte contradicts |
| C12, C13 | MLib, MDatabase | C11 plus database invariants |
| C14 | MLib | invariant on the connection state |
| C15 | MLib: connection map | induction over the interleaving, projection |
| C16 | MLib | witness; and positive theorem per chunk |
| C17, C71 | MLib | computation over all unsupported codes; C71 reads the fixed answers with the client's reader |
| C18–C21 | MDatabase | invariant over the fold of insertions |
| C22, C23 | MPath, MScan, SScan | structural induction over directory trees; digits arithmetic |
| C24–C26 | MKeepalive, SUdp offset layout | combinator characterisation, case analysis |
| C27 | MPackets: model name | UTF-8 lemmas |
| C28–C33, C58, C59 | MServer: state machine of keep-alive thread, broadcast thread and app | invariants over the step list, against the byte-level reading in SServer |
| C34, C35 | MNetwork, SNetwork | list induction; bit arithmetic |
| C36–C39, C72 | MPackets, MStatus, SUdp | combinator characterisation; history fold |
| C40–C43 | MRpc; SRpc: RFC 5531/4506 layouts, an offset reading of calls, a reader of export lists | characterisation of every parser at its offset; round trips against the independent layouts; for export lists of any length, a case analysis on where the reader stands after each text (LExports) |
| C44–C46 | MRpcServer, SRpcServer | case analysis of one turn, then induction over the history |
| C47–C53, C60–C62 | MNfs with a file-system oracle per input; SNfs: position and open files as functions of the history, outcomes at byte level | invariant tying the handler state to the history, induction over the history; whole files and the running process (PStranger) by composing C89, C104 and C63 |
| C54, C63–C65 | MSystem: every service of the process, its tasks and who ends with whom; SSystem: what each part receives and sends | projections of the composed run onto its parts, by induction over the schedule; then C33, C30, C44, C46 and the NFS theorems apply to the parts |
| C66 | SEnd: the music of a folder tree, what a player reads in its menus after any history | the scan (C22), index (C18, C19) and menu theorems (C10, C12, C13) compose to an equivalence between folder and menus; distinct names give distinct paths |
| C67 | SLoad: parts of a path text, standard calls of a walk, reads piece by piece | the UTF-8 path splits at slashes exactly into the names on disk; C48 and C50 by induction over the reads, C63 for the running process |
| C68–C70 | MThreads: the same three threads action by action, with mutex, poisoning and queue; SThreads: agreement with a history of turns, shape of the traffic | simulation: each action is nothing or one whole turn of MServer, related by what is in the middle of a turn; and back; invariants for traffic and mutex, a measure for the holder |
| C73–C76 | MTime: the sleeps, over MThreads; STime: distances in time, promptness of the scheduler | the time of a thread's next action bounds its last; a promptness tracker over the schedule, deadlines per thread phase as an invariant; C74's bound shown sharp by a schedule; C73_possible_times: which times are possible, both ways |
| C77, C78 | MProcess: the threads of MThreads beside the services of MSystem, an EXPORT call blocked by the mutex; SProcess: what happened at the services of a schedule and of a history | the simulation of C68 carried through every turn of a service; the turn depends on the threads only through the state in the free mutex; C69 and C70 for the waiting |
| C79, C80 | MSystem; SSession: a conversation at a port that was given out, cut out of the record of a run, and what a player reads in it | a port sees exactly its own events from its `Query` on (simulation of one port by `db_run`); C66 and C67 for what is shown and loaded |
| C81 | MSystem; STraffic: who a message comes from and goes to, and how large it may be | replies counted against questions, a reply kept by the file service being owed (potential argument over the run); link requests waiting in the queue counted as forty announcements each |
| C82 | MSystem, MNfs; SHeld: which ports are held, given out and freed, and an operating system that hands out only free ports | the held ports listed without repetition, one more for each given and one less for each ended (invariant over the run), pigeonhole over 65536; files: the table of the service holds the inodes ever opened |
| C83 | MStatusTime: the turns of the status thread with times; SStatusTime: arrivals and prompt receipt | times of receipt are 150 ms apart, a reply for each at most; waiting times by induction over the queue; C83_schedules: which schedules are possible, both ways |
| C84 | MUnused: the player collection's marks and iterator, `DbBytesCodec`, `Argument::encode`, `NfsProcedure`, `Database::tracks`, the access functions of `ServerState`, `clone_into_array`, the default replies; SUnused: reports, marks, last calls, RFC 1094 names | induction over the calls from the end; C02 for the codec; case analysis of the numbers |
| C85 | MDatabase, MLib unchanged, run twice with two hash orders; SRestart: answers compared but for the order of rows | both indexes are the one C18 describes; case analysis of one request, then induction over the conversation; positions in the scan for the added file |
| C86 | MMain: `main`, `App::new` over MScan, MDatabase and MSystem, with the built-in path; SMain: the songs of the folder | C22 for the start; C80 with the built-in path, its hypotheses about the path discharged; prefix of UTF-8 text |
| C87 | the services of MNfs, MRpcServer, MLib, MServer and MStatus on lists of messages with one element doubled or left out (SRepeat) | the turn of a call other than a lookup leaves the state as it was; `process` and the handling of a status are idempotent; C51 for the copy of a lookup; C48 for the second try |
| C88 | the services of MNfs, MRpcServer, MLib, MServer and MStatus on lists of messages with a block permuted or two neighbours exchanged (SOrder) | the calls of the block leave the state, so each answer is a function of the call; C51's invariant for the table of open files; a simulation up to the order of the players for what follows |
| C89 | MNfs with the answers of the operating system taken from a disk that may change between calls (SDisk): any change is allowed that keeps the inode numbers of files with a name or held open apart, and keeps the number of a file held open. This is an assumption about the file system, stated in the theorems | invariant: every entry of the table of open files is filed under the inode number its file has on the present disk, so no later lookup of another file can replace it; witnesses for a new service, for folders (not held open) and for a name that changes hands within one lookup |
| C90 | MServer, MKeepalive, MStatus, MRpcServer; the recorded traffic is transcribed in SDocs from docs/rekordbox (the datagrams as printed there, with the addresses, numbers and transaction fields as parameters) | computation on the constants with the addresses left symbolic, then C30, C31, C37 and C40 for every history; the export list is a refutation for every call |
| C91 | the whole model at both values of `profile`; SBuilds: requests whose announced text sizes overflow, and the same with the sizes corrected | each computation agrees with its wrapping twin or panics, compositionally; C06 for the exact difference; simulation of the two processes that ignores the handlers at the ports concerned |
| C92 | MStream: the handler of a connection with tokio-util's write buffer, partial writes, read errors (the stream may end or go on after one: a parameter, as versions differ); SStream: lasting failures, some of a list in order | induction over the events with the buffer as state, once for both kinds of connection; a run of 198 chunks as the counterexample; in the running process (PLossy) with C79 |
| C93 | MStatus, MRpc, MRpcServer, MNfs, MSystem: a lower bound on what each parser consumes and the length of each reply; SSize: bytes from and to a correspondent | per-turn bounds, then induction over the run with the unsent reply of a file service as potential |
| C94 | MMemory: what `count` (nom 6 reserves ahead) and the buffer of a read set aside, along the decoders of MRpc and the turn of MNfs; SMemory: the announced sizes at their offsets | the parsers at their offsets (C40's lemmas); C51's invariant for the handles; induction over the history for the unsent reply |
| C95 | MPrint: which steps of MSystem write a line after the start, and `mute_step`, the step of a process whose output is gone (`println!`, `eprintln!` and `dbg!` panic there), and `mute_send`, where the system also refuses sends; SPrint: the inputs that make each service write | the exact sets of printing inputs from the decoders' characterisations (C14, C38, C40, C51); induction over the inputs of the process, with the other services framed out |
| C96 | MDb, MLib, MFixtures against SRecorded: the recorded messages copied from the fixtures of the repository and a writer of protocol messages | the encoder of a simple message equals the writer on the client's view of it, so each page theorem (C08, C10-C13) lifts from what a client reads to bytes; the reader inverts the writer, which refutes the differences from the recordings |
| C97 | MSystem, MLib, MNfs with the disk's answers as step inputs; SSnapshot: two histories that differ only in those answers, a walk whose file is gone | a relation between two systems that agree on everything but the state inside their file services, kept by every step; C67's walk and reads with one content per read; joining pieces up to the announced size; the last lookup of a walk failing |
| C98 | the whole of MSystem and MLib run on two libraries; SLearn: when two files look the same, when two databases are indistinguishable | a relation between the two databases kept by the scan and respected by every menu and page, carried to MSystem's steps; for the converse, the answers to a metadata request and a mount-info request for every id are decoded back to artist, title, tempo, path and size; for folders (SFolders, PFolders) the list of songs shown is a function of the tree and is unchanged by adding or removing something unseen anywhere, by induction over the changes |
| C99 | MSystem, several copies joined by whoever delivers datagrams; SCopies: which datagrams go out where and come in where, histories with announcements put in | an invariant of every run says what is sent from each port (announcements named rekordbox, two status replies, RPC messages of type 1); each kind is then decoded at each port |
| C100 | MSystem at its UDP ports; SNoise: noise, sameness of states (maps compared point by point), reachable states | no effect: each service's turn on an undecodable datagram; histories: a step respects sameness of states, then induction on where noise is put in; converse: for each other datagram a reachable state where it has an effect |
| C101 | MWorkers: MProcess on a given number of workers of the tokio runtime, with the calls that wait in `lock` on one each; SWorkers: what was taken and handled, port by port, who needs a worker | every run of the pool is erased to a run of MProcess by induction, with an invariant on who waits; C70 for the end of the wait; stall: a thread keeps the mutex while it does nothing, so by induction nobody goes; witness for every number of workers by induction on it |
| C102 | MDescriptors: the descriptors open in a state of MSystem, what an operating system with a limit grants in a step, an accept that fails; SDescriptors: how many are open, runs that obey the limit | per-step lemma: what is open afterwards was open or is one of the descriptors the step was granted; induction over the run; C82 for the ports and files that are held; a full process: the grants of `within` are all refusals, then the turn of each service |
| C103 | MSocket: MTime with the datagrams the operating system holds for the keep-alive socket (a queue with room for a number of datagrams, not of bytes); SSocket: what came, how many in any p ms, a thread that is at most so late | erasure to a run of MTime, so that C73 gives the 250 ms; invariant: what was received and what waits, merged with what was lost, is what came; counting over windows of p ms for too many; for few enough, each receipt is bounded from the start of the busy period it belongs to, and the queue is bounded at each arrival by the same argument; C103_in_time, C103_devices and C103_noted replace the assumed lateness by C74's promptness of 16 ms: an invariant follows each datagram from its receipt through the waits for the mutex (the broadcast thread at most twice, the one handshake) and what is set aside for each datagram is summed over windows; for C103_noted the same bound covers the lookup that follows the receipt, and a device once known stays known |
| C104 | MNfs on the disk of SDisk (C89); SMany: the lookups of a run, walks along names, walks one after the other, what a fair datagram is | the position depends on the lookups only; induction over whole walks gives the root, induction along a walk the folder; a run of fair datagrams on a disk goes well (induction from the end), so C51 gives the answers and C89 the bytes; C63 for the process |
| C105 | MSystem; SUp: what it is for the whole program to be up, what harms it, what the machine has to do, what the network alone can do | one step from any reachable state, part by part, from the exact end conditions of each part (C33, C36, C44, C46, C58, C62); a file service's reply has the same length whichever of the allowed replies it is; induction over prefixes (over all prefixes, because a port whose service has ended can be given out again) |
| C106 | MSystem; SHarm: the parts of the program, when a part works, what takes it down | one step from any reachable state, per part, whatever of the rest is down; flags only ever go down (induction over the run); a port by the start of a service |
| C107 | MServer, MNfs, MLib, MSystem; SRemember, SRemember2, SRemember3: two pasts that no future can tell apart, and what they must have in common | both directions: a relation between the two runs kept by every step, and for any difference a continuation (an announcement, a link, a read, a lookup, a render) whose answer shows it; for the whole process, part by part, a step of the process being a step of one part |
| C55 | Unicode | induction |
| C56, C57 | MLib | computation and witness; history fold |
