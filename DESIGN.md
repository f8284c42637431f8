# Formal model of knx-stack

A model in Coq 8.16.1 of the Python package `knx_stack` and of the C daemon
`daemon/usbhid.c`, with machine-checked proofs of the properties listed in
`properties.jsonl`. The code is read as text only; nothing of it is executed.

## Modelling conventions

* Python integers are `Z`. A store into a ctypes field of width w is reduction
  modulo 2^w, also for negative and oversized integers.
* A message is a `list Z`; hypotheses `octets m` say every element is in 0..255.
* Exceptions are values (`res A := Ok a | Err e`). Stateful code is a state
  monad whose state survives an exception (Python has no rollback).
* Address objects carry an identity next to their value because
  `AssociationTable.associate` compares with `is not`. Assignments to an
  address object that tables hold change it in every place (Mutate.v).
* dictionaries are insertion-ordered association lists.
* Floats are `spec_float` from the standard library (`Coq.Floats.SpecFloat`),
  which is pure Gallina: no primitive floats, no axioms.
* Asynchronous code is an event system: one step per callback or per resumption
  of a coroutine, so a list of events is a schedule.

## Plan per property

| id | property | model and proof |
|---|---|---|
| C01 | Hex text and messages convert back and forth without loss | Msg.v models the text conversions on `list ascii`/`string`; round trip by induction on the octet list / pairs of digits. |
| C02 | Consuming octets, shorts and longs never loses, reorders or invents bytes | Msg.v `octect/short/long`; case analysis on the list and bit-field lemmas (`get`/`set` testbit lemmas) for big-endian arithmetic, `mod 2^w` for ctypes stores. |
| C03 | The three notations of a group address always agree | Address.v; bit-field lemmas with arbitrary Z components, no enumeration needed. |
| C04 | The address table stays sorted and its TSAPs name exactly its addresses | Tables.v `address_table`, operations as `table -> res unit * table`; invariant (Sorted) by induction over operation lists, TSAP facts by induction on the sorted list; the objects by simulation with a shelf of queues. |
| C05 | The address table never grows past its capacity through add | Same operation induction, invariant `length <= max_size`. |
| C06 | add inserts exactly one occurrence and associate never duplicates | `count` lemma for one add; NoDup invariant over associate/disassociate histories. |
| C07 | Routing returns exactly the associated ASAPs | Spec: a count function over the history of calls (no reference to the model's dictionaries). Invariant: the routing map equals the one rebuilt from the per-ASAP address lists. Induction over histories. |
| C08 | Sending uses the addresses in the order they were associated | Spec: concatenation of the address lists given for the ASAP. Invariant over histories of associate. |
| C09 | Disassociating one ASAP leaves the others working exactly when the address is not shared | One-step theorem on states satisfying the history invariant + a `_refuted`-style witness theorem for the shared case (general in a, b, g). |
| C10 | A failing association call is harmless exactly when it carries one address | One-step theorem for a single address; witnesses for the multi-address case and for disassociate. |
| C11 | The suggested free ASAP number is free when ASAPs were introduced in ascending order | Induction on the key list with StronglySorted; witness for the unsorted case; the objects by induction on the calls. |
| C12 | The group object table is a map from ASAP values to datapoint types | Spec: last-write-wins function over the history, and a list of keys for order and names; induction over histories. |
| C13 | Group write requests put exactly the right bytes on USB | Encode.v models every encoder; Spec.v gives the frame as an explicit byte list; unfold and compute with symbolic bytes. |
| C14 | Group read requests put exactly the right bytes on USB and on KNXnet/IP | As C13, both media. |
| C15 | Property requests put exactly the right bytes on the wire | As C13 for property services, header word given as independent arithmetic. |
| C16 | The tunnelling envelope carries the frame intact with correct length, channel and counter | Encode.v knxnet_ip part; spec frame with the cEMI bytes of the USB encoding. |
| C17 | Connect, connection-state, disconnect and search requests are byte-exact | Encode.v core part; IPv4 addresses modelled as four octets with the dotted-quad text round trip. |
| C18 | The length fields of property write frames are right exactly up to a stated size | Arithmetic equivalences on the produced length octets. |
| C19 | Encoding for an ASAP the tables do not know fails without side effects on tables or counters | Case analysis of the encoders; frame condition; malformed-frame theorem. |
| C20 | Encoding never changes tables, channel or the local counter | Case analysis over all encoders in the state monad. |
| C21 | A group write indication survives encode and decode | Composition of encode and decode lemmas (USB unwrap lemma, cEMI lemma, fan-out lemma). |
| C22 | An interface echoing a request is decoded as its confirmation | As C21 with the confirmation message code/flag, both media. |
| C23 | Property requests survive the round trip | As C21 for property services; witness for the dropped confirmation. |
| C24 | Group telegrams reach exactly the associated, typed ASAPs | Decode.v fan-out = filter of the group object table by the history spec of C07. |
| C25 | Application services are classified by all ten APCI bits | Sweep over the 1024 APCI values lifted to all states. |
| C26 | Traffic that is not for the application is ignored and leaves the state alone | Case analysis on the header bytes. |
| C27 | Padding after a USB report never changes its meaning | Lemma on slices: decode of a prefix-closed report is independent of the rest. |
| C28 | Decoding arbitrary bytes can only fail in the listed ways | Error predicate pushed through every decoder. |
| C29 | What decode_msg returns is a list, except in two identified cases | Shape predicate pushed through every decoder. |
| C30 | Results do not depend on what was encoded or decoded before | Relational proof: an equivalence on states ignoring scratch fields is preserved by every coder. |
| C31 | Decoding never changes tables or the remote counter | Frame conditions pushed through every decoder. |
| C32 | Which individually addressed telegrams are accepted | Iff theorems over the decoders of individual telegrams. |
| C33 | Bus connection and EMI type reports are decoded correctly | Case analysis. |
| C34 | Payloads are read big-endian and cut to the width of the receiving type | Induction over payload octets. |
| C35 | The tunnelling client delivers every request once and in order | Client.v event system; refinement to a counter-only abstract receiver, induction over event lists. |
| C36 | A repeated tunnelling request is acknowledged but not delivered again, except at wrap-around | Theorem over all counters 1..255 and the wrap-around witness theorem. |
| C37 | Acknowledgements echo the counter of an in-order request only | From C35/C36 lemmas. |
| C38 | Outgoing counters advance exactly on matching acknowledgements | Induction over event lists with a ghost count of matching acknowledgements. |
| C39 | A new connection resets the expected counter but not the outgoing one | One-step theorem over reachable client states. |
| C40 | The client counts itself connected after any connect response, even a refusal | Induction over event lists. |
| C41 | A telegram whose decoding raises blocks the tunnel | Induction over the number of repetitions. |
| C42 | Sequence counters always stay octets | Invariant over arbitrary API call lists. |
| C43 | Setting one field of a datapoint value changes nothing else | Dpt.v bit-field layout table; generic get/set lemmas with a disjointness check. |
| C44 | Named values map one-to-one to codes | Finite enumeration of names and codes (all codes of a field width). |
| C45 | 2-octet floats decode to the KNX value | Float.v over SpecFloat binary64; one rounding of mantissa/100 against exact rationals (C63), scaling by a power of two is exact. |
| C46 | Re-encoding a decoded 2-octet float preserves the value | Analytic: the encoder recovers the cents of a decoded value; 12-bit sweep over mantissas only. |
| C47 | Encoding a float as 2 octets truncates to the finest representable step or fails cleanly | Integer/dyadic reasoning on the quotient; loop invariant for the exponent search. |
| C48 | Tiny negative numbers encode to -20.48 | From C47's characterisation plus one computation. |
| C49 | 4-octet floats round-trip | SpecFloat single/double conversions; exactness of widening, rounding of a representable number. |
| C50 | A value described by name and fields can be rebuilt | Per-class case analysis with bit-field lemmas. |
| C51 | The clima temperature reads back what was set | 512-value sweep lifted over all raw values; other numbers by the rounding of C63. |
| C52 | The tunnelling writer sends nothing before connecting and then sends in order | Event-list induction with the ghost list of sent messages. |
| C53 | The USB client survives exactly until the first line it cannot decode | Recursion over lines; round trip from C01. |
| C54 | Discovery sends one search request and tolerates any search response | Byte-exact encode + decode of search response. |
| C55 | The daemon never writes outside its packet buffer | Daemon.v models the C loop with bounds-checked buffer accesses; induction over the loop. |
| C56 | The daemon forwards every bus packet to every registered client exactly once | Daemon event system; induction over events. |
| C57 | A client line becomes one bus packet, with stale octets after short lines and on bad lines | Daemon.v composition with C01 and C27. |
| C58 | Daemon client slots are reused and never shared | Daemon slot invariant by induction over events. |
| C59 | Transport PDU kinds are classified from the control octets | Case analysis; sweep over TPCI octets. |
| C60 | Connect responses set the channel and report the endpoint | Case analysis of the decoder with symbolic bytes. |
| C61 | Every encoded frame consists of octets and survives its text form | Predicate `octets` pushed through every encoder; text from C01. |
| C62 | Connect and disconnect requests produce fixed frames | As C13 with the transport control octets. |
| C63 | The float arithmetic of the model is IEEE 754 round-to-nearest-even | Float.v against exact rationals: shift-and-round lemma for SpecFloat, nearest-even characterisation and uniqueness. |
| C64 | Telegrams arrive in order and once over a network that loses and repeats datagrams | SpecSystem.v: gateway, two lossy repeating FIFO queues and the client of Client.v as one event system. Simulation by a system with unbounded numbers in place of counters, then an invariant: requests under way lie in [k-1, g], acknowledgements in [g-1, k], both ordered (k taken, g counted). |
| C65 | A lost acknowledgement blocks the tunnel for good | The same simulation; closed sets of states (k = g+1 without acknowledgement g under way; k = g-1 without request g-1). |
| C66 | Messages reach the bus in order; all of them when the writer waits | The same simulation; invariant l <= r <= l+1, positions of the frames on the bus strictly increasing; counters equal positions when paced. |
| C67 | After a reconnection nothing more reaches the bus | The same simulation; closed set of states with r = 0 and a constant outgoing counter. |
| C68 | The daemon's library calls read behind its text buffer | Daemon.v: what lies in memory around the text is part of the event; the bytes `%2hhx` and `%s` look at as access lists; induction on the parsing loop. |
| C69 | One broken connection ends the daemon for everybody | DaemonLife.v: system calls with results; refinement to Daemon.v while alive, induction over histories. |
| C70 | USB clients and the daemon together deliver group requests to everyone and refuse long frames | Composition of C57, C56, C27 and the decoder theorem of C22 for a second state. |
| C71 | An address table shared with the caller misroutes until the next association call | SpecShared.v: histories of calls on two objects sharing one table; the invariants of C07-C09 restated for what the association table holds itself, the map from TSAPs rebuilt by every association call. |
| C72 | Endpoint addresses given as text | Inet.v follows the GNU C library's parser; soundness and completeness against a declarative grammar (SpecInet.v) by induction over the parts. |
| C73 | Text forms of numbers, addresses and tables show exactly what they stand for | Text.v: the repr functions as string functions; uniqueness of decimal texts by induction on digits, tables by splitting at line ends and separators. |
| C74 | Tables follow address objects whose numbers are assigned in place | Mutate.v `as_store` maps over all places that hold an object; spec with objects and a number function; TSAPs are positions, so an injective renumbering leaves the routing map right (invariant over histories). |
| C75 | Disassociating from the table's own address list leaves every second address | Mutate.v live loops over an index; induction on the list by two elements at a time. |
| C76 | What one application sends another one hears with its own tables | SpecAcross.v says what a request says on the bus, what the bus may change and what a device hears; composition of the frame equations of C13/C14 with the decoder theorem of C24 for a second state. |
| C77 | Two tunnelling clients on one bus: requests of one are heard by the other in order, none twice | Two systems of SpecSystem.v, the second fed by the bus of the first; C66 (part of, prefix of the messages written), C52 (written frames are encodings in order), C64 (prefix of the telegrams) and C76. |
| C78 | Exactly which received bytes make decoding fail, and with which exception | SpecFail.v: one rule per place at which the bytes can end, and one per other cause. Equivalences level by level (feature, cEMI, body, packet, report; datagram), then combined with the telegram equation of C24/C25. |
| C79 | Exactly which telegrams stop a tunnel | SpecBlock.v: the causes, on cEMI frames. C78 for the frame of a due request; then the simulation of C64, in which such a request is as good as lost, with the invariant that the number taken does not pass the harmful telegram. The converse by rounds of C64. |
| C80 | Exactly which lines end the USB reader | C78 and C01 for the text of a line, C24 for all receivers; C53 for the reader. |
| C81 | Which device the daemon opens, for every command line | DaemonArgs.v follows getopt_long(); SpecArgs.v is a grammar of command lines, shown to be unambiguous and total; induction over the arguments. |
| C82 | The text of a message identifies the message | MessageText.v writes out the __repr__ methods, with the field order free; SpecMessage.v says when messages are alike; unique decomposition at the separators, and a Hoare-style pass over the decoder for what it returns. |
| C83 | The discovery listener finds exactly the search responses, whatever else arrives | SpecListen.v gives the causes of each exception for a state without tables; invariant of the listener (no tables, remote counter 0) by induction over the datagrams, then the causes of C78 with the lookups replaced. |
| C84 | Each read of the daemon is taken for one line, however the text was cut | SpecPieces.v says what a piece of digits stores and which packets whole lines make; cutting lemma for lines of digits, induction over the history. |
| C85 | The tunnelling client sends four kinds of datagrams and never keeps its connection alive | SpecSends.v defines the answer to a datagram from connect_answer, tunnelled and meaning; case analysis of one step on top of the history lemmas of C35-C39, then induction over the history for the counts. |
| C86 | Each round of the daemon serves every ready descriptor once; the sets hold 1019 clients | DaemonSelect.v is the loop over descriptors; SpecSelect.v says what a round may be and lists its events by a sorted list. The loop is shown equal to the run of these events; pigeonhole for the lowest free descriptor. |
| C87 | Three seconds of sleep are enough when a datagram takes less than one and a half | SpecTime.v gives every datagram under way the time it was sent and the writer the time it wakes up; TimeProofs.v shows by induction that an unacknowledged request is under way, or its acknowledgement is, and for how long at most. Then C66_paced applies. |
| C88 | The programs of knx_stack/client: the tunnelling one switches the light on and off, the USB one never ends, the discovery one never sends | ClientMain.v holds the tables, messages and steps of the three programs. The tunnelling part follows from C87 and the frame of a group write (C13); the USB part is an induction on the events; the discovery part is a case of inet_aton. |
| C89 | However TCP cuts the daemon's text, the USB client reads the packets of the bus in order and once | ClientStream.v models asyncio's readline on the bytes at hand. StreamProofs.v: the reader's history is that of the client of C53 on the lines taken off (simulation by induction), and a stream is cut into lines in one way only. With C56 this gives the composition with the daemon. |
| C90 | What a tunnelling client says a USB client on the same bus reports, once and in order | Composition of C87 (what is on the bus when the writer stops), C76 (what one device says and another hears), C56 and C89 (daemon and stream). The frames of messages are determined by the tables (said_encode). |
| C91 | What USB clients say a tunnelling client on the same bus reports, in the order of their lines | Induction over the daemon's history: the packets on the bus carry the frames of the lines, in order (C57 per line). Then C64 (the tunnel delivers a prefix of the telegrams in order) with C76 for what each telegram means. Lines of one client: C53. |
| C92 | An L_Data object holds what the last assignments say, and its APCI shares bits with the kind of PDU | Refinement: one assignment to the bit fields is one update of the record (linear arithmetic on get and set); induction over the sequence; the record determines the octets and conversely. |
| C93 | Once accepted, the tunnelling client sends within a second, then every three seconds, until done | SpecPrompt.v adds a clock to the runs of the client: time of the last event, end of the writer's sleep. Invariant over the run after the answer relating the number of turns to the bounds on the end of the sleep; C52 and never_dead exclude that the writer dies. |
| C94 | Without heartbeats a standard gateway lets at most 41 messages of a client through | SpecBeat.v adds to the timed system of C87 the gateway's two minutes. Invariant: until the channel is closed the run is one of C87 (no heartbeat arrives, C85), afterwards gateway and bus stand still; the bound follows from the rate in C87. The end of the writer is proved for arbitrary histories (writer_ends). |
| C95 | Messages that ask for different things are encoded to different bytes | SpecAlike.v says what a message asks for (wish). The bytes of C13-C17 are a function of the wish; that function is injective on wishes whose numbers fit their fields, by comparing service, destination and payload octet by octet. The exception is C19's frame without destination, read as a frame with one. |
| C96 | The USB client writes every three seconds and ends three seconds after its last message | SpecStay.v adds clock and wake-up time to the USB client. Invariant: after k turns the writer is past k messages (or at its end) and its sleep ends between 3k s and k turns later; the state of the encoder is unchanged by what is read (C30, C31). |
| C97 | Only the order of each ASAP's own associations matters | Insertions into the address table commute up to the identity of equal address objects (sorted lists that are permutations are equal); calls grouped by ASAP are a permutation of each other. The dictionaries then hold the same addresses per ASAP, the TSAP map the same ASAPs per TSAP, and encoding and decoding are simulated step by step with the method of C30. The three refutations are witnesses. |
| C98 | A client that does not read stops the daemon for everybody | One invariant over every interleaving: what a client has read, what the kernel holds for it and what remains of the text in hand make up the lines due. The bound is the length of that equation at two moments when the first part has not changed; progress by induction on the number of bytes still to write. |
| C99 | Changing some associations while the program runs leaves the others alone | Two pairs of tables that agree about some addresses and ASAPs (which are listed, who is reached, what is sent to), a simulation of encoding and decoding between states with such tables; what calls do to addresses and ASAPs they do not mention, by induction on the calls. |
| C100 | Every message, in every state: the bytes that are sent or the exception that is raised | Complaints are a list of propositions with exceptions; each encoder is followed once, with the outcome of every look-up. What the dictionary and the address table hold is a fold over the calls, by induction on the calls. |
| C101 | Every octet sequence, in every state: the result that is returned | Each decoder that can succeed is followed to its result (the failures are C78's); runs by induction over the octet sequences, with C30 (what a call depends on) and C31 (what a call changes). |
| C102 | Lines of any bytes: which the USB reader takes, and for what | Unicode.v models strict UTF-8 decoding byte by byte; the specification gives the bytes of a character, and decoding is shown to be its inverse (arithmetic, induction on the length). The digits of other scripts are a parameter. The readers of bytes and of ASCII lines are then compared; C80 carries over. |
| C103 | Two telegrams are told apart by some application exactly when they differ in what they tell | The decoding result is a function of the tables and the gist (cases of C24, C32). Conversely, for two different gists a table is built that separates them: one association with a 32-bit type, or an own address equal to the device concerned, with or without the same number among the group addresses. |
| C104 | A conversation is the same on USB and through a KNXnet/IP tunnel | Both results are functions of the tables and the cEMI frame (C16, C24); induction on the conversation with the invariant that the tables are the same and the expected counter is the gateway's. |
| C105 | The text of a State tells apart exactly the states that differ in something other than the channel | The lines of the text as a list; only the state's own lines begin with eight blanks, so the list splits there; the ASAP line is read from its right end, since a name may contain its separators. |
| C106 | The State that every call and every history of calls leaves behind | Every encoder is its setters followed by steps that leave the state alone; every decoder keeps all but the link-layer data, the local counter and the channel (C31); then induction over the history. |
| C107 | What DPT_Factory.make builds from any dictionary | One entry is one field write, by cases over the classes; then induction over the entries; different properties have disjoint fields, so writes commute (C43). C107_order_refuted is the boundary. |
| C108 | Decoding when a table is missing | Octets without a telegram give a fixed result or depend on medium, counters and channel alone (simulation); a telegram is followed to the first table access; runs with C30 and C31 as for C101. |
| C109 | What the daemon makes of any bytes a client sends | Each rule of the grammar is one clause of what sscanf does; induction over the places; the line ends by cases; then the history step by step (C55's invariant). |
| C110 | A value described at one application is described the same at another | C76 for the way, C21 for the fields that arrive, C107 for the dictionary, C45-C49 for the numbers; the error bound from the number of cents and the exponent. |
| C111 | What a stranger's datagrams can do to a tunnel | C106 for what decoding leaves behind, C35/C36/C38 for the counters; induction over the guessed counters. |
| C112 | The tunnelling client is a machine with six registers | simulation between client and machine, step by step; C106 for what decoding leaves behind. |
| C113 | The tables are a notebook of numbers | simulation call by call between tables and notebook; both sort, so equal multisets give equal lists; the map of the table is `rebuild_tsaps` of the tables at the last call that returned. |
| C114 | Exactly which messages a lossy network keeps from the bus | the simulation of C64-C66 by counters and abstract datagrams; each fate is a fixed course of happenings, whose effect on the counters is computed once, then induction over the fates. |
| C115 | The messages of a client that connects again and again | induction over the sessions; what a client has met in a session is an orderly history, so C67 and C114 apply to the next. |
| C116 | The blocks of KNXnet/IP frames are read back as they are written | cases on the first eight octets; the frames of C16, C17, C37 and C72 are taken apart by them. |
| C117 | A network that reorders datagrams does no harm within one turn of the counters | the numbered system of C64-C67 with invariants that do not mention order, and counters below 256. |
| C118 | Objects of six classes stand for numbers, of the others for none | cases on the class; C45-C49 for the numbers and C21 for the way. |
| C119 | What is sent and heard after any calls on the tables is told from the notebook | the simulation of C113 put under the frames of C13-C15 and the telegrams of C24/C25, none of which ask how the tables came about. |
| C120 | Tables that are changed while messages come and go stay apart from them | induction on the mixed history: C106's description of the state left behind does not look at the tables, and a call on the tables changes nothing else; the notebook follows by C113, the next message by C119. |
| C121 | Two applications that change their tables while they talk | C120 for both sides; the speaker's frame and the telegram the listener finds in it as in C76, the report by C119. |

## Files

Model (definitions only, every definition cites the file and lines of /repo it
stands for): `Py.v` (meaning of ctypes stores, slices, dictionaries, exceptions),
`Msg.v`, `Address.v`, `Float.v` (IEEE operations on `spec_float`), `Dpt.v`,
`Tables.v`, `LData.v`, `LDataObj.v` (assignments to an L_Data), `Inet.v` (inet_aton/inet_ntoa), `State.v`, `Encode.v`,
`Decode.v`, `Client.v`, `ClientTime.v` (its sleeps), `ClientMain.v` (the programs), `ClientStream.v` (its stream), `Unicode.v` (bytes above 127), `Daemon.v`, `DaemonLife.v` (system calls that fail), `DaemonSelect.v` (rounds of select), `DaemonFlow.v` (connections that fill up), `DaemonArgs.v` (command line),
`Text.v` (repr of numbers, addresses and tables), `StateText.v` (repr of State and L_Data), `Mutate.v` (assignments to
address objects, iteration over the table's own list).

Specification (vocabulary of the theorem statements, written without the
functions of the model): `SpecMsg.v`, `SpecTables.v`, `SpecShared.v`,
`SpecInet.v`, `SpecWire.v`,
`SpecDecode.v`, `SpecClient.v`, `SpecDpt.v`, `SpecDaemon.v`, `SpecText.v`, `SpecMutate.v`, `SpecAcross.v`, `SpecFail.v`, `SpecBlock.v`, `SpecArgs.v`, `SpecMessage.v`, `SpecListen.v`, `SpecPieces.v`,
`SpecSends.v`, `SpecSelect.v`, `SpecTime.v`, `SpecMain.v`, `SpecStream.v`, `SpecWhole.v`, `SpecBack.v`, `SpecLData.v`, `SpecPrompt.v`, `SpecBeat.v`, `SpecAlike.v`, `SpecStay.v`,
`SpecOrder.v`, `SpecFlow.v`, `SpecApart.v`, `SpecRefuse.v`, `SpecHeard.v`, `SpecUnicode.v`, `SpecGist.v`,
`SpecMedia.v`, `SpecStateText.v`, `SpecLeft.v`, `SpecFactory.v`, `SpecBare.v`, `SpecTyped.v`, `SpecTold.v`, `SpecStranger.v`, `SpecMachine.v`, `SpecBook.v`, `SpecLossy.v`, `SpecSessions.v`, `SpecReorder.v`, `SpecClima.v`, `SpecValue.v`, `SpecNoted.v`, `SpecMixed.v`, `SpecTalk.v`, `SpecEntries.v`, `SpecShelf.v`. They may mention
*types* of the model (`state`, `message`, `devent`, `spec_float`). `SpecSystem.v`
puts the client of the model together with a gateway and a network that are
part of the specification, not of the code.

Proofs: `*Proofs.v`, `Base.v`. Theorems: `Props_*.v`; each is named after its
property (`C07_...`), followed by `Print Assumptions`, and each property has at
least one `Example` in which the hypotheses hold for a concrete, non-trivial case.

`Conformance.v` holds tests of the model, not proofs: every expectation of the
repository's unit tests, doctests and README that still applies to its code,
computed in the model. All of them agree.

## Trusted base

* The Coq 8.16.1 kernel, including its `vm_compute` reduction, used for finite
  sweeps and examples.
* `Print Assumptions` answers "Closed under the global context" for every theorem
  of the `Props_*.v` files: no axioms are used, neither own nor of the library.
* `coqchk -o` lists seven constants `Coq.ssr.ssrunder.Under_rel.*` for the
  whole development. They are the opaque module signature of the standard
  library's `ssrunder`, loaded through `ZifyBool`; no theorem depends on them.
* The correspondence of the model with the code, which is by reading (see
  the next two sections), and the meaning of the statements.
* For the daemon: `sscanf` is a parameter of the model. The theorems hold for
  every function satisfying `c_scanner` (five clauses of the C standard); C109 for
  those satisfying `libc_scanner` as well (signs as in glibc, a bare `0x` as the
  library likes). How many
  bytes `%2hhx` looks at (`scan_reads`) is the minimum the standard implies; a
  library may look at more. SIGPIPE ends the process (C69).
* `socket.inet_aton` is the C library's; the model follows the GNU one (other
  libraries may refuse the short, octal and hexadecimal forms).

## What is modelled

| code | model | remarks |
|---|---|---|
| `msg.py` | Msg.v | all of it |
| `address.py` | Address.v | all of it |
| `state.py`, `definition/knxnet_ip/state.py` | State.v, StateText.v | all properties and look-ups, text |
| `definition/layer/network/address_table.py`, `.../transport/association_table.py`, `.../application/groupobject_table.py` | Tables.v | all operations; `make`-style constructors; text forms in Text.v |
| `definition/layer/link/ldata.py` | LData.v, LDataObj.v, StateText.v | bit fields, NSDU/TPCI/APCI getters and setters, text |
| `definition/*/msg.py` and message classes | State.v (`message`) | message objects are records |
| `__repr__` of messages and datapoints | MessageText.v | field order left open |
| `encode/**` | Encode.v | every function |
| `decode/**` | Decode.v | every function, with the `repr` that debug logging evaluates when it can fail |
| `__init__.py` `encode_msg`, `decode_msg` | Encode.v, Decode.v | dispatch included |
| `datapointtypes.py` | Dpt.v, Float.v | 17 types, factory, descriptions, floats bit by bit |
| `client/knxnet_ip.py`, `client/knxnet_ip_discovery.py`, `client/usbhid.py` | Client.v, ClientTime.v, ClientMain.v, ClientStream.v, Unicode.v | protocol classes and coroutines as event systems; of the `__main__` parts the tables, the messages and what the tasks do; logging set-up, event loop calls and the closing of transports not |
| `daemon/usbhid.c` | Daemon.v, DaemonLife.v, DaemonArgs.v, DaemonSelect.v, DaemonFlow.v | conversions, main loop, array accesses, reads of sscanf/fprintf, failing system calls, writes that wait, command line |

## What is not modelled

* Logging, except where building the log text raises.
* Text of exceptions; only their class is modelled.
* The digits Python chooses for a float, and whether it shows an IntEnum by name or by number
  (parameters of the texts).
* Which code points are decimal digits (a parameter in C102).
* asyncio itself: that callbacks run one at a time, in the order of the event
  list, is the reading given to it. Sleep times matter in C87, C93, C94 and C96 only, where a sleep
  lasts at least the time given; elsewhere any interleaving is allowed instead.
* `asyncio.StreamReader.readline` is modelled from its documentation and source (ClientStream.v).
* Threads: none are used by the code.
* The daemon's socket set-up (only whether it succeeds), what `FD_SET` destroys beyond
  `FD_SETSIZE`, writes that a signal cuts short, what is printed (line 248 formats a pointer
  with %d); POSIXLY_CORRECT.
* Assignment to the private attributes of ASAP objects and tables.
* Names of attributes that every Enum class has (`mro`, `__itemsize__`) given as names of members;
  the limit of 4300 digits and digits outside ASCII in texts given for a temperature.

## Strength of the results

All properties are proved in full for the model; none is partial. Where the
behaviour one would want is false, the property states the exact boundary, and
a theorem named `_refuted` proves that the wider claim is false, with a
witness. `MANIFEST.json` says which.

## Findings

Defects of the code that the work brought to light. Each is a theorem or an
Example unless marked (note).

1. The NSDU getter never returns T_Connect or T_Disconnect (C59).
2. `t_data_individual/ind.py` compares the *source* with the own address (C32).
3. A repeated request is not recognised after the wrap of the counter (C36_wrap_refuted).
4. The acknowledgement of a duplicate carries the wrong counter; an
   out-of-sequence request is not acknowledged at all (C36, C37).
5. A tunnelling acknowledgement decodes to a tuple, reports the incremented
   counter, and has advanced it even when its status is undefined and decoding
   raises; channel ids are never compared (C29, C31, C38).
6. `AddressTable.add` admits duplicates and the constructor ignores `max_size` (C05, C06).
7. `disassociate` removes an address that other ASAPs still use (C09).
8. `associate` and `disassociate` stop half-way on an error, after which
   telegrams are misrouted (C10_misrouting_refuted).
9. `get_free_asap_value` may return a number in use (C11_other_order_refuted).
10. `is not` lets an equal but distinct individual address into the group
    addresses; property confirmations are then dropped (C23).
11. A group address that has lost its ASAPs makes decoding raise KeyError; over
    tunnelling the telegram blocks the connection for good (C28, C41).
12. `decode_msg` may return None or a tuple instead of a list (C29).
13. Encoding for an ASAP without address gives a malformed frame (C19).
14. A write indication is always framed for USB (C21).
15. Length octets wrap: USB beyond 232 data octets, NPDU beyond 250, IP beyond
    65510 (C18).
16. The lengths in KNXnet/IP headers and NPDUs are never checked (C26, C28).
17. 2-octet floats: negative numbers that round to zero cents encode as
    8000h, which reads as -20.48 (C48); F800h cannot be encoded again (C46);
    encoding truncates instead of rounding (C47).
18. A clima report with operation code 9-13 or 15 makes decoding raise
    ValueError when it is displayed (C28).
19. A short or refused connect response: TypeError, ValueError for an unknown
    status, and the client counts itself connected (C40, C60); the outgoing
    counter is not reset by a new connection (C39).
20. A search response's individual address is read from the wrong offset (C54_address_refuted).
21. An odd trailing hexadecimal digit is dropped silently (C01).
22. Daemon: a malformed line sends the previous packet again; short lines carry
    octets of the previous packet; two lines that arrive in one read are both
    lost; a digit followed by another character counts as an octet; a lone
    line end reads the byte before the buffer; the 65th client never
    receives anything, even after others leave (C55-C58).
23. A 4-bit dimming value is written as a full octet (C13).
24. Two requests without an acknowledgement in between carry the same counter (C38).
25. The factory ignores unknown fields and some fields are missing from the
    description (C50).
26. One malformed line ends the USB reader for good; a message that cannot be
    encoded ends the writer (C52, C53).
27. `associate` with a one-shot iterator (note).
28. With more than 1019 clients at a time the daemon calls `FD_SET` beyond
    `FD_SETSIZE` (C86_inside_refuted).
29. `service_identifier.py` reuses a variable of its caller's loop (note).
30. A datagram handled while the transport is missing advances the counter
    although no acknowledgement is sent (note, excluded by `orderly`).
31. `connection_lost` does not reset `connected`; a writer turn without
    transport loses the message and ends the writer (C52).
32. Requests 256 behind are taken as new (C35_window_refuted).
33. The docstring of `t_disconnect` shows control octet 86h; the code gives 96h (C62).
34. A lost acknowledgement blocks the tunnel for good, and the wrong counter of
    finding 4 can make a gateway count a lost telegram as delivered (C65).
35. The writer does not wait for acknowledgements: of two messages sent without
    one in between the second never reaches the bus (C66).
36. After a reconnection the gateway discards everything the client sends, in this and in
    all later sessions (C67, C115).
37. Daemon: the text buffer has no terminating zero; the line of a full packet
    makes fprintf read behind it, and a line of blanks makes sscanf read behind
    it and send what it finds to the bus (C68).
38. Daemon: a bus packet while a client's connection is broken raises SIGPIPE
    and ends the service for all clients; so does a failing accept (C69).
39. A property write of more than 30 octets does not pass the daemon; the
    previous packet is sent twice instead (C70).
40. The AddressTable object stays shared with the caller: a direct add or remove
    misroutes telegrams of the addresses behind it to the neighbouring ASAPs until
    the next associate/disassociate, and an address added directly makes decoding
    raise KeyError afterwards (C71).
41. Changing the individual address works only until the next association call:
    then the new one has no ASAP (KeyError) and ASAP 0 cannot send (TypeError) (C71).
42. IP addresses written with leading zeros are read as octal: 192.168.0.010 is
    192.168.0.8 (C72).
43. A line end in an ASAP name makes the text of a table ambiguous (C73).
44. Assigning a new number to an address object leaves the address table unsorted;
    if the number is in use by another object, telegrams for it reach the ASAPs
    of one of them only; if another object had the old number, its ASAPs can
    no longer send (C74).
45. `disassociate(asap, table.addresses)` silently skips every second address (C75).
46. A switch command reaches an object of an octet-sized type as the whole APCI
    octet: on is brightness 81h. Nothing checks that the types agree (C76).
47. One telegram from the bus can stop a tunnel for good: a group service for an
    address that is listed but not associated, or a clima value without a name
    for the operation code. The request is never acknowledged and everything
    behind it waits (C79).
48. The USB reader formats all messages, decode_msg only the first: a value that
    the second receiver cannot display passes decode_msg and ends the reader; so
    does the end of the file, with IndexError (C80).
49. `-d DEVICE` never works: the short options lack their colons, so the device
    becomes a null pointer and the daemon ends; `--port` and `--host` have no
    effect (C81).
50. Texts of property write requests are ambiguous when the data contain blanks:
    the data are shown as given (C82).
51. The discovery listener has no tables, yet looks telegrams up in them: a
    tunnelling request with counter 0 that carries a plain telegram raises
    AttributeError in `datagram_received` (C83).
52. Daemon: lines are not put together from the pieces in which TCP delivers
    them. A line cut inside an octet is lost and the packet from before is sent
    twice; cut between octets, both halves go out at the start of a packet; cut
    before its line feed, it goes out twice (C84).
53. The tunnelling client has no heartbeat: it sends one connection state request
    per connect response and none later, so a gateway that closes tunnels without
    one (after 120 s in the KNX specification) closes this one. The disconnect
    request it sends then is ignored and not answered; the client goes on sending
    on the closed channel. After a disconnect response it goes on sending on
    channel 0 (C85).
54. The writer does not wait for acknowledgements but sleeps three seconds. A
    round trip of three seconds or more can cost a message (C87_slow_refuted). At
    that pace no more than 41 messages go out in the 120 s after which a gateway
    may close a tunnel without heartbeat (C87_rate, finding 53).
55. client/usbhid.py asks for a property with `asap=0`, a number. The dictionary
    of the association table compares it with the ASAP of the same hash, whose
    `__eq__` reads `.value` of the number: AttributeError in the writer task, so
    `loop.stop()` is not reached and the program never ends (C88). With
    `ASAP(0)` it would address itself, not the device.
56. client/knxnet_ip_discovery.py passes `sys.argv[0]` as local address: binding
    to it fails, and so would the search request (C88).
57. ldata.py: the kinds connect, disconnect, ack and nack are written to the two
    bits `ack_nack`, which are also the upper two bits of `apci`. Whichever of
    `nsdu` and `apci` is assigned later wins (C92_back). The encoders in the
    repository assign `nsdu` first, so none of them is affected.
58. A client with more than 41 messages loses the rest at a gateway that closes
    silent channels after two minutes, and does not notice (C94).
59. A write for an ASAP that has lost its addresses can switch something else: the
    frame without destination (17) that a four-octet value makes is a complete
    switch or read telegram to an address in 16/0/x (C95).
60. A USB client with a message that cannot be encoded or displayed never ends
    (C96).
61. Whether ASAP 1 can send depends on whether ASAP 2 was associated and
    disassociated before or after it, when they share an address; and whether a
    telegram is reported at all depends on the order in which datapoint types were
    given, when one of its receivers cannot display the value (C97).
62. Daemon: writes to clients wait. A client that connects and does not read stops
    the daemon for all clients and the bus as soon as its connection is full,
    until it reads or goes; when it goes, the write may end the process (C98,
    C69).
63. Associations are not independent: an ASAP that lost a shared address through
    another ASAP's disassociate can send again once a third ASAP is associated
    with that address (C99).
64. A group message is written to the first address of its ASAP only, but it cannot
    be sent at all (TypeError) when any later one was taken out of the address
    table through another ASAP (C100).
65. Decimal digits of any script count as hexadecimal digits: a line in Arabic or
    full-width digits is taken for a report (C102).
66. An application cannot learn who sent a group telegram: no result depends on the
    source address (C103).
67. DPT_Factory.make accepts any key: a misspelt one is kept as an attribute and
    ignored. A dictionary with `value` and a field means different things in
    different orders (C107).
68. A state without tables (both are optional arguments of `State`) decodes
    everything except plain telegrams for a group other than 0/0/0 or for a
    device; those raise AttributeError instead of being ignored (C108).
69. The daemon takes more than digits for octets: `+5` is sent as 05h, `-5` as FBh,
    and the digits behind a blank are used twice (C109).
70. Two forged datagrams, made without knowing channel or counters, inject a telegram;
    one forged response moves the client to another channel (C111).
71. A lost acknowledgement of the gateway costs the next message whose request arrives:
    it never reaches the bus, although the client counts it as acknowledged (C114).
72. The temperature of a clima report wraps without an error: 51.2 degrees are stored as
    0, one degree below zero as 50.2 (C51).
73. A copy of a request that arrives 256 requests late is taken for a new one, by the
    client and by a gateway: order and uniqueness end with one turn of the counter (C117).
74. A temperature given as text is repeated instead of multiplied: "21" is stored as
    21.7 degrees, "5" as 22.7 (C51).
75. After a call that raised, a telegram to an address that only this call named is reported to
    another ASAP: the call left the address table changed and the map of the association table
    as it was (C119, after C113).
76. An ASAP that is associated again in the group object table under another name gets the new
    type, but its messages go on showing the old name: the dictionary keeps the key object of the
    first call (C12_entries). The association table does the same (C11_names).
