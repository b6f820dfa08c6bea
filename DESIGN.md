# Formal model of mh2c (k-noya/manual_h2_client) in Rocq

What is modelled, how each property of `properties.jsonl` is stated and
proved, and what is trusted. The table of section 3 was written before the
proofs and kept up to date as properties were added.

## 1. Modelling conventions

* Octets are `N` values; a byte array (`byte_array_t`, `std::string`) is a
  `list N`. `wf_bytes l` says every element is `< 256`. Unsigned C++ integers
  are `N`, with an explicit `mod 2^k` wherever the C++ type can wrap.
* Every function that can fail returns `res A`:
  `Ok a | Throw e | UB u | NoFuel`. `Throw` is a C++ exception
  (`InvalidArgument`, `OutOfRange`, `RuntimeError`, ...), `UB` is undefined
  behaviour with a reason (out-of-bounds access, `back()` of an empty vector,
  signed overflow, oversized shift, invalid iterator range, null
  dereference). Undefined behaviour is an outcome, it is never assumed away.
  `NoFuel` is an artefact of fuelled loops; C64 says that no public operation
  has this outcome.
* A few places form `&v[v.size()]` (address of one past the end through
  `operator[]`). The standard calls this undefined; plain release builds only
  compute a pointer, hardened builds abort. The model has a parameter
  `m : ub_mode` with the two readings (`Strict`: UB, `Lenient`: just a
  pointer). Theorems are stated for both readings where the outcome is the
  same and say which reading is needed where it is not.
* The host byte order is a parameter (`host : endian`) of serialisation.
* The TLS library is represented by an arbitrary list of results (a
  *schedule*: how many octets each `BIO_read`/`BIO_write` moves, or that it
  fails) and an arbitrary byte stream. Theorems about the client quantify over
  both. The constructor takes the result of each library call as an input and
  yields the trace of calls made.
* Every definition cites the file and lines it models, and says where it
  simplifies.

## 2. Files (all under `rocq/theories`)

| file | content |
|---|---|
| `Base.v` | outcomes, vector operations |
| `Util.v` | `util/*` |
| `IntRep.v` | `hpack/integer_representation.ipp` |
| `HuffmanTable.v` | both tables, generated from `hpack/huffman_code.cpp` by `tools/gen_tables.py` |
| `Huffman.v` | `hpack/huffman_encoder.cpp`, `hpack/huffman_decoder.cpp` |
| `StaticTable.v` | both tables, generated from `hpack/static_table_definition.cpp` |
| `HeaderType.v`, `DynTable.v`, `HeaderEnc.v`, `HeaderDec.v` | rest of `hpack/` |
| `TableRefs.v` | `hpack/dynamic_table.cpp` again, with 64-bit sizes, arguments that refer into the table and writes through iterators |
| `Ostream.v` | every insertion of every `dump()` and `operator<<`, on a stream in any formatting state and on a device that fails |
| `Messages.v` | every `throw` of the library with its text, and the functions between it and the caller |
| `Memory.v` | `hpack/dynamic_table.cpp`, `http2_client.cpp` and `frame/frame_builder.cpp` again, with allocations that may fail |
| `ConnectMemory.v` | `http2_client.cpp` (constructor, `send_connection_preface`) and `ssl/ssl_connection.cpp` (constructor) again, with allocations that may fail and the state of the process between attempts |
| `MemoryRequest.v` | `http2_client.ipp` (`send_frame`), `http2_client.cpp` (`send_raw_data`, `send_connection_preface`), `ssl/ssl_connection.cpp` (`write`) and `frame/headers_frame.cpp` (constructor) again, with allocations that may fail |
| `Values.v` | the implicit copy and move operations of the frame classes, `header_block_entry` and `dynamic_table` (`frame/*_frame.h`, `hpack/header_type.h`, `hpack/dynamic_table.h`) |
| `FrameHeader.v`, `Frames.v`, `FrameBuilder.v`, `Access.v` | `frame/` |
| `Ssl.v`, `Client.v` | read/write loops of `ssl/ssl_connection.cpp`, `http2_client.cpp` |
| `Connect.v` | constructor and destructor of `ssl_connection` as library call traces |
| `Threads.v` | several threads making connections: `std::call_once` and the interleaving of OpenSSL calls |
| `Shared.v` | the functions of `mh2c/http2_client.cpp` as sequences of BIO calls and table accesses, several threads using one client |
| `Dump.v` | the `dump` functions and stream state (`std::hex`, `std::setw`, ...) |
| `Sample.v` | `sample/h2_get/sample_h2_get.cpp` |
| `Report.v` | the same program with its catch block, and what `frame_builder.cpp` prints |
| `Startup.v` | the tables with static storage duration, the functions that read them guarded by the tables' lifetimes, initialisation and destruction of a program |
| `Throwing.v` | printing to a stream with `exceptions(badbit)`, on the insertions of `Ostream.v` |
| `Cost.v`, `CostSend.v` | the reader and the encoder of a header block again, with a counter for the octets read, copied, moved or compared |
| `SpecBits.v`, `SpecInt.v`, `SpecHuffman.v`, `SpecHpack.v`, `SpecFrame.v` | specifications written from RFC 7541 and RFC 7540, independent of the model (they import no model file); `SpecUnique.v` proves that the HPACK grammar is unambiguous |
| `SpecOrder.v` | the order of frames RFC 7540, sections 3.5, 5.1, 6.2 and 6.10, allows on a connection |
| `SpecValid.v` | what RFC 7540, section 6, requires of a frame of each type |
| `SpecExec.v`, `SpecExecProofs.v` | the same HPACK specification as a program, a reference decoder (`reference_decoder`), proved sound and complete for the relational specification (`reference_decoder_correct`) and run on every example of RFC 7541, Appendix C: a check on the specification itself |
| `*Proofs.v`, `Arith.v` | lemmas |
| `Prop*.v` | the property theorems `Cnn_...`, each with a non-vacuity `Example Cnn_...case`, and `Print Assumptions` for each theorem at the end of the file. Predicates a statement needs that are not in a `Spec*.v` are defined just above it |
| `Conformance.v` | the repository's own test vectors run on the model, generated by `tools/conformance.py` (tests of the model, not proofs) |

Other files: `tools/manifest.py` writes `MANIFEST.json` from the theorem names
and `tools/notes.json`; `tools/seed.py` runs the wrong-program experiments
recorded in `seeded/LOG.jsonl`.

## 3. Properties and proof plans

When the code violates the property as a user would state it, the full
statement is kept in `properties.jsonl`, a theorem `..._refuted` shows the
violation (as a whole family of inputs where that is possible, otherwise by a
witness evaluated by the kernel), and a `..._partial` theorem proves the
largest true part found. Such a property has status `partial`, with a note
that says what fails.

| id | modelled | proof |
|---|---|---|
| C01 | `bytes2integral`, `integral2bytes` at widths 1, 2, 4 | arithmetic with `lia` over positional values, both directions |
| C02 | `make_frame_header_flags`, `is_flag_set` | induction on the flag list, bitwise extensionality |
| C03 | integer codec with undefined behaviour as outcome | induction on the 7-bit groups; the same induction shows UB beyond the range |
| C04 | integer encoder against the RFC value function of `SpecInt.v` | induction; minimality by bounding the value of k-octet strings |
| C05 | the decoder's recomputed length | canonical inputs by C03; the code is wrong on non-minimal ones (refuted) |
| C06 | Huffman codec | the carry is abstracted to a bit list (`BitsProofs.v`); loop invariant; table facts by a kernel sweep over all 257 symbols lifted to universal statements |
| C07 | Huffman encoder against the bit string of `SpecHuffman.v` | loop invariant |
| C08 | Huffman decoder on any octets | loop invariant and completeness of the code (tree sweep) |
| C09 | Huffman decoder against RFC 7541 5.2 | refuted in general; C08 gives what is rejected |
| C10 | the two tables | sweeps lifted to universally quantified statements |
| C11, C12 | the two static tables against the RFC list of `SpecHpack.v` | sweeps; index 20 refutes RFC equality |
| C13-C17 | dynamic table | invariant `dt_ok` over operation histories; refinement to the abstract RFC table (`keep`) |
| C18-C22 | header encoder and decoder | case analysis of the encoder's choice (`chosen`), composition of C03 and C06 |
| C23-C28 | header decoder and block decoder | case analysis; comparison with the relational RFC grammar of `SpecHpack.v`; induction on the block |
| C29, C30 | frame header | arithmetic on the 9 octets; all field values the C++ types admit |
| C31-C47 | frames and builder | case analysis per class, induction on settings maps and header blocks |
| C48 | TLS loops against an arbitrary schedule of library results | induction on the remaining length and the schedule |
| C49, C50 | `receive_frame` over a byte stream | induction over the list of frames, for every schedule |
| C51, C52 | client tables against an RFC peer (`SpecHpack.v` relations) | induction over histories of frames / requests; one refutation for each excluded case; for C51 also equivalences saying which blocks and histories are followed (`PropReadOne.v`), for C52 which requests work (`PropSingle.v`, `PropReqBlock.v`, `PropReqHistory.v`) |
| C53 | HEADERS whose block throws | case analysis, refuted for every such frame |
| C54 | `send_frame` | by C48 and serialisation |
| C55 | constructor decision logic, library results as inputs | case analysis; host name check shown absent |
| C56, C59-C61, C70 | `dump` functions as text over an explicit stream state (`Dump.v`) | an independent reader of the text, inverse laws; refutations in general form |
| C57 | equality operators | case analysis; injectivity of serialisation; refutations |
| C58 | encoder against any RFC decoder | uniqueness of the RFC grammar (`SpecUnique.v`) and C18 |
| C62-C63 | `sample/h2_get/sample_h2_get.cpp` main as a program over the client model | decomposition of the run; induction over the receive loop, for every stream |
| C64 | every fuelled loop of the model | fuel bounds: `NoFuel` is not an outcome of any public operation |
| C65, C66 | header block construction, entry accessors | induction on the header list, case analysis |
| C67 | `update_dynamic_table` | induction on the block; atomicity refuted |
| C68, C69 | constructor/destructor as traces of library calls (`Connect.v`) | case analysis over every combination of library results |
| C71 | two model instances back to back, with equal or different tables | induction over request sequences; exactly which histories are delivered (C71_history_partial): decoding against another table differs only at references into the dynamic table |
| C72 | secrecy of never/without indexing | two-run (non-interference) statement by induction over requests |
| C73 | interleavings of sends and receives | induction over the interleaving; commutation of the two projections |
| C74, C75 | bounds on what a server can make the client hold | invariant over any stream and schedule |
| C76 | size of encoded blocks against the header list size | induction over the block with C04's minimality and the code lengths |
| C77 | the composition of receive_frame with send_frame | inversion of build_frame per type: what the object keeps is the payload; with C49 and C54 |
| C78 | act/act_all over send_frame, perform and update_request_dynamic_table (both overloads); receive_n | induction over the actions; one step per kind from the round trips C32-C38, C71's step and C14 |
| C79 | decode_block and receive_frame against header list size | induction over the covering of C24; code words have at least 5 bits; table entries fit the table |
| C80 | encode_block and decode_block | round trip of C23 in both codings, decoding is a function |
| C81 | decode_block on prefixes | decoding is local: decode_block_app, induction over the entries |
| C82 | send, receive_frame called again after a failed call; the model lets a connection go on after a failed BIO call | exact effect of the loops up to the failure, then C48, C54 and C49 |
| C83 | the modes Strict and Lenient of all reading functions | congruence of the two modes through every function; inversion for the difference |
| C84 | receive_frame followed by any sending calls; perform; an RFC 7541 server with the announced limit | C73 with one receive call; unique reading of the octets sent |
| C85 | Access.v: get_header, get_payload, the remaining constructors | computation of the parsed members for an arbitrary frame header; C28 and C39 for blocks and settings |
| C86 | build_request and send_built over mk_headers, send_frame and update_request_dynamic_table | encoding depends on the table only through the position of the block's fields in it; reduction to C52; `PropReqHistory.v` for the equivalence |
| C87 | decode_header, decode_block | equivalence with an independent reading relation (int_read, text_read, field_read), then comparison with the grammar through the reference decoder of SpecExec.v |
| C88 | build_frame and all the constructors from received octets | layout and permitted of SpecValid.v, a transcription of RFC 7540, section 6; every payload is put in its format, then one parsing lemma per type |
| C89 | decode_header, decode_block, build_frame, receive_frame, send_frame and the constructors | the rejected inputs as inductive relations over the wire format; C89_field and C89_block by cases and induction over the block, C89_frame per type, C89_receive from the octets taken from the connection |
| C90 | Threads.v: the actions of ssl_connection with std::call_once, and an interleaving step relation | invariant over the step relation tying each thread to its program, the once_flag and the trace; a decreasing measure |
| C91 | decode_header, decode_block, build_frame, update_dynamic_table and receive_frame | the dangerous inputs as inductive relations over the wire format and the RFC layouts; C91_field by cases, C91_block by induction over the block, C91_frame per type with the uniqueness of the fragment, C91_receive from the octets taken from the connection; C91_session and C91_first_danger by induction over the frames, with the relation table_after for what a harmless frame does to the table |
| C92 | the constructors and serialize of every frame class | constructor calls as an inductive relation to the content asked for, against the layouts of SpecValid; per type with the payload lemmas of C32-C43 |
| C93 | receive_frame, build_frame and all parsers | the messages of a server as an inductive relation over the layouts of SpecValid and the RFC 7541 runs of C28; C93_received_as_sent_partial by induction over the session with C88 and C28 |
| C94 | encode_header, encode_block | string literals with their H bit specified from RFC 7541 5.2; cases of the encoder's choice, induction over the block |
| C95 | sample_main and everything it calls | answers and window from RFC 7540 6.5.3, 6.7 and 6.9.1; the frames sent are determined by the octets (prefix-free wire format), C62 gives the octets; counting under permutation |
| C96 | Shared.v: the functions of the client as sequences of BIO calls and table accesses, threads interleaved step by step | simulation of each thread by the sequential model, for the part of the state it touches; merging of the pieces written; explicit schedules for the refutations |
| C97 | the schedule of the TLS model, one element per BIO call | each successful BIO call moves an octet; composition through the calls, the session and the sample program |
| C98 | dump() of every class | an executable reader of text (SpecText.v: lines, name : value, decimal and hexadecimal numbers), applied to the text of an arbitrary frame |
| C99 | push with a reference into the table, assignment through an iterator, size_t arithmetic (TableRefs.v) | simulation of the 64-bit loop by the unbounded one; the longest-prefix characterisation of eviction |
| C100 | mk_continuation together with HEADERS, send_frame, update_request_dynamic_table; the server as an inductive reading of HEADERS and CONTINUATION frames | determinism of the reading; each frame's fragment by the lemmas of C52, joined; the exact versions use the relation `follows` of C52 with the rest of the block as a parameter |
| C101 | receive_frame, build_frame, CONTINUATION, HEADERS and PUSH_PROMISE decoding; the server's frames and cuts as inductive definitions | a cut of a decodable block is between fields or leaves a fragment that neither the RFC nor the library decodes, by induction over the block; the frames by the lemmas of C51 |
| C102 | receive_frame, decoding of the three frames that carry header blocks, encode_header, send_frame with its table update | the received block by the lemmas of C28 and C51, the sent block by C52; absent fields by uniqueness of RFC 7541 parsing |
| C103 | receive_frame and the frames it returns; the user's sorting by stream as a fold over get_header() and get_payload() | C93 for each frame; the fold by induction over the three parts of a response |
| C104 | receive_frame, send_frame and the frame constructors; the user's account as sums over get_header() and get_payload() | C92 for each frame sent, the builder for each frame received; induction over the calls as in C73 |
| C105 | Cost.v: the functions of Huffman.v, IntRep.v, HeaderDec.v and Frames.v that read a header block, with a counter | erasing the counter gives the old functions; bounds by induction over the octets left, the exact counts by induction over the number of fields |
| C106 | CostSend.v: the functions of HeaderEnc.v, the Huffman encoder and encode_block with a counter | erasing the counter gives the old functions; bounds by induction over fields, strings and table entries |
| C107 | Memory.v: dynamic_table::push, update_dynamic_table, build_frame and receive_frame with allocations that may fail | simulation by a shrinking RFC 7541 table over any history; case analysis of the failing allocation; refuted by the exact description |
| C108 | Messages.v: every throw of the library with its text, std::to_string, and the text printed by build_headers_frame | texts as lists of fixed words and decimal numbers; case analysis along the parsers, the Huffman decoder by the invariant of C06; step list of the constructor; refuted by computation on concrete clients |
| C109 | headers_frame, make_header_block, encode_header, receive_frame | RFC 7540 section 8.1.2 as a specification; C65 and C54 composed for sending, C93 for receiving; the malformed reading by the RFC 7541 derivation of the block |
| C110 | Ostream.v: every insertion of every dump, and std::ostream with base, showbase, uppercase, adjustment, width, fill, digit grouping | induction over the insertions of each dump |
| C111 | Ostream.v | the text of each dump as a function of the texts of its octets and values; octets by computation over 256 values, grouping and numbers by induction |
| C112 | Ostream.v: run_on | induction over the insertions, for every room of the device |
| C113 | ConnectMemory.v: the constructor and send_connection_preface with allocations that may fail, std::call_once and function statics kept between attempts | simulation of Connect.v up to the failing allocation; induction over the attempts |
| C114 | SpecOrder.v: the state machine of RFC 7540 section 5.1 as a specification; send_frame and receive_frame of Client.v | every proper sequence succeeds, by induction over the calls; each violation by an invariant of the state machine |
| C115 | Values.v: the copy and move operations the compiler declares, member by member, over a store of variables | holds, a relation over the history, gives each variable its value; induction over the history; prefix argument on the wire for the frame moved from |
| C116 | Report.v: the sample with its catch block and the library's own output, on the messages of Messages.v | induction over the loop; step lemmas for main; simulation between the program with and without the lines |
| C117 | Startup.v: the tables with static storage duration, the functions that read them guarded by their lifetimes, initialisation and destruction of a program | a relation 'same or undefined' kept by every function; induction over the initialisation order; the stack of living objects |
| C118 | Throwing.v: the insertions of Ostream.v on a stream with exceptions(badbit), or with exceptions(failbit) alone | induction over the insertions; the manipulators only occur in groups before an insertion |
| C119 | MemoryRequest.v: send_frame, send_raw_data, send_connection_preface and the constructor of a HEADERS frame with allocations that may fail; the update of the table as in Memory.v | case analysis of the allocation that fails; the server of RFC 7540/7541 reads the octets (follows, server_reads); induction over the attempts |
| C120 | the requests of C52 (encode_header, headers_frame, send_frame, update_request_dynamic_table) performed twice from the same client | two executions in lockstep: equal tables, equal schedules and outputs of equal length, by induction over entries, requests and BIO calls; the length of a shortest integer grows with it, so lengths of strings tell their room |
| C121 | encode_header with both static tables and find_index, as in C20 | case distinction over the encoder's four branches; sizes of shortest integers are monotone in the index, the first match in the table has the lowest index, and a sweep over the static table shows that a name with an empty-valued entry has no other |
| C122 | update_request_table_size and the requests of C52 (encode_header, headers_frame, send_frame, update_block) against a server of RFC 7541 with any table | the equivalence of C52_history_partial for unequal tables; resizing to 0 leaves no entry on either side; for the refutation, an invariant of what the server can have inserted since |
| C123 | build_request, send_frame and update_block of the requests of C52, without the call of update_request_dynamic_table | induction over the requests with the equivalence of C52_history_partial for any table of the server; a sweep over the static table for the misspelt name |
| C124 | receive_frame on the frames of SpecValid, with fragments that neither read nor change the dynamic table (plain_block, defined without any table) | every plain block is a run of C28 over any table that leaves the table as it is, so that each frame is handled as in C93; SETTINGS with a table size separately |
| C125 | receive_frame on frames whose fragments do not refer to the dynamic table (free_block), with what they do to a table as a list of insertions and size updates | the session of C93 from the client's own table; two tables that go through the same insertions are both the newest of them that fit (induction over the insertions) |
| C126 | receive_frame on two clients with the same table that receive frames differing in the ignored bits | every class reads of the flags only the bits PADDED and PRIORITY, and of the first four octets of these payloads only the lower 31 bits, and splits off the padding without reading it; induction over the frames |
| C127 | receive_frame on two clients with the same table, one of which receives the frames without the passive ones | such a frame is built without the table and update_dynamic_table does nothing for it; induction over the marks that choose the frames |
| C128 | receive_frame on two clients with the same table that receive the same frames on different streams | no class reads the stream of a received frame; induction over the frames |
| C129 | receive_frame on two clients, one whose connection ends | a read beyond the end takes all that is left and throws, by induction over the calls of BIO_read; then induction over the frames |
| C130 | receive_frame on two clients | a block without such entries leaves the table as it is, by induction; induction over the frames |
| C131 | receive_frame on two clients; make_sf_payload | a std::map is determined by its lookups (sorted lists with equal lookups are equal); induction over the frames |
| C132 | receive_frame on two clients, frame by frame | one lemma for the three kinds of frames (the result depends on the fragment alone), induction over the frames |

No property of the list is left out as inexpressible.

## 4. Trusted base

* Coq 8.16.1's kernel, including its `vm_compute` reduction machine.
* Axioms: none. `Print Assumptions` stands under every property theorem and
  answers "Closed under the global context" for each of them;
  `ASSUMPTIONS.md` lists the answers, theorem by theorem. The compiled files
  load the standard library's `Coq.ssr.ssrunder` through `Lia`/`Zify`; its module type
  parameters (`Under_rel.*`) are reported by tools that list all constants of
  the environment, but no theorem here depends on them.
* Trusted and not proved: that the definitions in the model files say what the
  C++ says (reviewable through the citations; `Conformance.v` runs the
  authors' tests on them), that the `Spec*.v` files say what the RFCs say, and
  that the generated tables are faithful copies of the C++ tables (C10-C12
  relate them to independent copies of the RFC tables).

Modelled: everything under `mh2c/` except what is listed below, and
`sample/h2_get/sample_h2_get.cpp`.

Not modelled:

* OpenSSL itself: its calls are represented by their possible results, and the
  bytes it transfers by an arbitrary stream and schedule.
* Memory exhaustion outside the calls of `Memory.v` (C107), `ConnectMemory.v` (C113) and `MemoryRequest.v` (C119): everywhere else
  allocations succeed.  Wrap-around of 64-bit container sizes, except for the
  dynamic table (`TableRefs.v`).
* Copying and moving objects inside the library's own functions (all members are
  values; `Connect.v` covers the one owning class, `Values.v` what callers do with
  frames, entries and tables).  A container that was moved from is taken to be
  empty.
* The text of exceptions thrown by the standard library (`out_of_range` from
  `at`).  The texts of the library's own
  exceptions are in `Messages.v` (C108); the other files leave them out.
* Threads: the library starts none; C73 is about interleavings of calls,
  `Threads.v` covers the one object shared between threads (`load_once`), and
  `Shared.v` threads that use one client.  Data races inside OpenSSL or inside a
  dynamic table are not modelled (a BIO call and a table access are single steps).
* The order in which the namespace-scope tables are initialised, outside `Startup.v`
  (C117): everywhere else calls are made after `main` has started, when they are.
* The build system and the test programs (other than as vectors in
  `Conformance.v`).
