# Formal model of cybergarage/uecho

The code under `/repo` is read as text; it is never built or run. The model is written in Coq 8.16.1 under
`rocq/theories` (logical name `Verif`).

## Layers

| layer | files | content |
|---|---|---|
| C semantics | `CSem.v` | outcome type with undefined behaviour as its own constructor, byte buffers with bounds checks, `size_t`/`int`/`byte` arithmetic |
| model | `M_*.v`, `StdDB_Data.v` | one Gallina function per C function; its comment gives file and lines |
| histories | `Run_*.v` | sequences of API calls and received datagrams, and the states they reach (`api_msg`, `api_obj`, `api_node`, `api_ctrl`) |
| specification | `Spec_*.v` | wire format, service tables, property maps, finite maps, sequences, texts; small and independent of the proofs |
| proofs | `P_*.v` | lemmas |
| properties | `Properties_*.v` | the theorems `Cnn_…`, `Print Assumptions` under each, `Example`s showing that their hypotheses are met |

`tools/check_refs.py` checks that every citation in an `M_*.v` file points at the function it names.
`tools/gen_stddb.py` generates `StdDB_Data.v` from `std/objects_mra.c`.

## Names of theorems

* `Cnn_name`: the property, or one clause of it, at full strength.
* `Cnn_name_partial`: a part; the comment above it and the manifest's note say what is missing.
* `Cnn_name_refuted`: the property is false of the code; the theorem exhibits a reachable counterexample. The
  strongest true variant stands next to it.

## Conventions of the model

* A byte is a `Z` in `0..255`; stores into `byte` variables reduce mod 256 explicitly. `size_t` has 64 bits, `int` 32,
  `long` 64; wraparound and overflow are written out.
* `res A = Ok a | Undef u`. Every access out of bounds, null dereference, bad shift, signed overflow, use of uninitialised
  or released memory and endless loop gives `Undef`. A theorem that says `= Ok _` says that nothing undefined happens.
* Unspecified memory (a fresh `realloc` block read before it is written), random numbers, the results of system calls and the decisions
  of the application's handlers are arguments; theorems quantify over them.
* Host byte order is a parameter (`le`).
* Allocation succeeds, except in `M_String`, `M_Mem` and `M_ObjMem`, where it is an oracle.

## Preconditions and simplifications

Stated here once; the comments of the definitions repeat them where they apply.

* Callers pass valid pointers. NULL arguments that the code tests for are modelled only where something depends on them.
* A property handed to an object or message is not handed to another one and not changed through the old pointer
  afterwards. `uecho_property_setcode` on a property inside an object and `uecho_object_setcode` on an object inside a node are
  excluded from histories.
* Handlers, listeners and observers do not call back into the library. Handlers that change the message they are
  given are excluded where a theorem says so.
* Announcements triggered inside one call are emitted after the stores of the call, in order.
* `memcpy` and `memcmp` of NULL with size 0 are taken as no-ops, `malloc(0)` as non-NULL.
* Property, object, class, node and observer lists are Coq lists in the upper layers. C39 justifies it: on a heap of cells the
  pointer code behaves as a sequence as long as an element is added to one list only.
* The nodes a controller creates for its peers never start servers; what they would announce is offered to `snet`, an
  arbitrary oracle.
* `M_Post` (C37): every load, store, lock, wait and signal is a step and any number of callers and receivers interleave;
  memory is sequentially consistent. The positive theorems name the schedules they cover.
* `M_ServerThread` (C55): one receiving and one stopping thread; memory is sequentially consistent.
* `M_NodeThreads` (C07): any number of threads drawing transaction numbers, each load and store a step.
* `M_Server`: interfaces, `bind`, `recvfrom` and `sendto` are oracles; a descriptor is never 0; the receive buffer has 512 bytes as
  in the code.
* `M_Net`: `getifaddrs` and `getnameinfo` are oracles; a socket address is its family and the four bytes at the place of `sin_addr`.
* `M_Socket` (C67, C68): the descriptors, socket options and address records of the process are a record; every system call is an
  oracle; calls of one server are not interleaved with those of another; TLS is left out.
* `M_Names` (C69, C70): keeps codes and names only; C69_agree ties it to `M_Object`. `StdNames_Data.v` is generated from the sources by
  `tools/gen_names.py`.
* `M_Shared` (C71): databases are counted lines; memory is sequentially consistent.
* `M_Mem`, `M_MemUse` (C72, C73): messages, properties, string objects and packets are blocks of a heap with pointers; an access to a
  freed block, through NULL or as another type is `Undef`; addresses are never reused, so a stale pointer is always seen. The upper layers
  use messages as values (`M_Message`); C72 justifies it.
* `M_ObjMem`, `M_ObjUse` (C75): objects with their properties, observers and caches, and the list of the database, on the same heap; C75 ties
  it to the values of `M_Object`, which the upper layers use. The parent of an object is always NULL here.
* `M_Life` (C76): classes, manufacturers, values of enumerations, network interfaces, idle threads, observers, the database and the server on
  the same heap; the two code bytes of a class, the MAC address and index of an interface and the action of a thread are left out.
* `M_PropThreads` (C74): the data pointer, size and blocks of properties; every load, store, allocation and byte copied is a step of a thread; memory is sequentially
  consistent; the list of properties does not change meanwhile.
* `M_Log`: both a C library whose `snprintf` accepts any size and one that refuses sizes above `INT_MAX` are modelled.
* `M_Lookup` (C60): a poll sees the state at one instant; the environment is any function from time to states.
* Strings are lists of bytes with a terminator; addresses of nodes are opaque strings.
* `M_NodeMem`, `M_NodeLife` (C79): a node is a block with its pointers and its last transaction number; its option and controller fields and the
  state of its sockets are left out, so its servers are idle and a datagram is handed to the node by one turn of the receiving loop.
  Buffers on the C stack are blocks made and freed by the function. What is sent is the result of the call.
* `M_CtrlMem`, `M_CtrlUse` (C80): a controller is a block with its option word and its pointers; a mutex or condition variable is an empty block.
  uecho_controller_postmessage is split at its wait, so that datagrams can arrive between the two parts; the wait itself, with its timeout, is in
  `M_Controller` and the thread models. Handing a datagram to the two observers of the server is one call.
* `Run_System` (C81): calls and datagrams of device and controller are interleaved whole; a datagram from the device's address is a prefix of
  a frame the device has sent (no forged source address), anything may come from other addresses.
* `Run_Parties` (C82): a delivery and the reaction to it are one step; a frame reaches each party at most once (a network that repeats frames is not bounded).
* `M_Query`: NULL messages are not modelled (most of these functions would read through them); an address is its text.

- `M_Light`: the example lamp without its verbose output, its Raspberry Pi commands (compiled out), command line parsing and signals other than SIGHUP; a printed line is a record of the values in it.

- `M_PostTool`: the example tool uechopost from the node it found to the line it prints, without command line options, searching for the node and verbose output; `sscanf` and `printf` for the formats used are written out; variables that may be read before they are set have arbitrary values given as a parameter.

- `M_ShowTool`: the example tools uechosearch and uechodump from the controller they made to what they print, without the options -d and -v (see `M_Verbose`); `printf` for the formats used is written out; no datagram arrives while uechosearch prints.
- `M_Verbose`: uechosearch with the option -v, in steps of one turn of a loop each, with the datagrams that arrive in each; what is printed is given as values without the names; the answers the library itself sends to these datagrams are left out; node, object and property pointers are places in lists that only grow at their ends.
- `M_Bench`: uechobench with the option -v, in the steps of `M_Verbose`; the times it measures and prints are left out; without -v each round prints the list of `M_ShowTool`, which is not modelled again.
- `M_OwnAddr`: whether an address is one of a node whose server may be started (node.c:173-187).

## What is not modelled

* The variants of `net/interface_function.c` for Windows, iOS and systems without `getifaddrs`,
  stream connections (`connect`, `accept`, `listen`) and socket time-outs; locking and waiting in `util/mutex.c`, `util/cond.c`, `util/timer.c` beyond their use above.
* Failing allocation outside `M_String`, `M_Mem`, `M_ObjMem`, `M_Life`, `M_NodeMem`, `M_NodeLife` and `M_CtrlMem`.
* Concurrent access to objects, nodes and controllers other than the interleaving models above.
* Wall-clock time except C52 and C60, scheduling fairness, weak memory.
* Getters and setters that only read or write one field and that no property is about (`uecho_*_next`, user data, types of
  properties, fields of observers, `uecho_*_isrunning` of the servers), `uecho_float2str`, `uecho_random`.
* The tests, language wrappers and other examples of the repository.

## Properties

| id | property | model | method | status |
|---|---|---|---|---|
| C01 | Parsing any datagram is memory-safe and terminates | `M_Message` parser on bounded buffers, `size_t` offsets | loop invariant on the offset; the result is always `Ok` | proved |
| C02 | Parser accepts exactly well-formed ECHONET Lite format-1 frames | the same; grammar of frames in `Spec_Frame` | both directions by induction on the property list | proved |
| C03 | Encode/parse round trip | encoder and parser | induction; long data refuted | partial |
| C04 | Parse/encode round trip | parser and encoder | induction | proved |
| C05 | Serialised size is exact | encoder writing into uninitialised bytes | invariant: written prefix and offset | proved |
| C06 | TID survives set/get and the wire | settid/gettid with byte order as parameter | arithmetic | partial |
| C07 | Outgoing TIDs are in range and do not repeat early | getnexttid; interleavings of threads (`M_NodeThreads`) | modular arithmetic over iterates, invariant over histories; refuting schedules | partial |
| C08 | Object codes survive set/get | message and object codes | bit arithmetic | proved |
| C09 | Integer property data round trip without undefined behaviour | `misc.c` integer codecs | exact definedness condition by induction on the size | partial |
| C10 | ESV classification is complete and consistent | `esv.c`, `message.c` tables | all 256 values by computation inside the proof | partial |
| C11 | Message copy is faithful | message set/copy | equality of all getters; refuted for write-read messages | partial |
| C12 | Message equality means equal wire contents | message equals | equality of wire contents | proved |
| C13 | Adding properties to a message | property arrays of messages | induction over additions | partial |
| C14 | Setting a message property by code | set property by code | induction over call sequences, frame condition | proved |
| C15 | An object's properties behave as a finite map | `property_list.c`, `object.c` | refinement to finite maps, induction over histories (`Run_Object`) | partial |
| C16 | Reading a property does not change the object | getters that create missing properties | case analysis | partial |
| C17 | Attribute predicates | attribute predicates | bits | proved |
| C18 | Property map encode/decode round trip | map encoder/decoder | bitmap arithmetic, induction | partial |
| C19 | Decoding an arbitrary property map is safe | map decoder on arbitrary data | loop invariant | partial |
| C20 | Property maps track the properties | updatepropertymaps with an oracle for fresh memory | exact effect of one update; refuting histories | partial |
| C21 | Objects of a node are unique by code | `node.c` object list | invariant over histories (`Run_Node`) | proved |
| C22 | Node profile reflects the node's objects | `std/node_profile_class.c` | invariant over additions | proved |
| C23 | Node announcement is a valid instance list notification | uecho_node_announce | composition; refuted above 84 devices | partial |
| C24 | At most one answer, to the right place | `node_listener.c` | specification of the reaction to a request, induction over its properties | partial |
| C25 | Messages that are not requests to an existing object change nothing | the same | case analysis | proved |
| C26 | Accepted writes take effect and are acknowledged | the same | induction; counter refuted | partial |
| C27 | Reads return the current values | the same | induction; counter refuted | partial |
| C28 | Rejected requests are answered with the service's error code and have no effect | the same | induction | partial |
| C29 | Access rules are enforced | the same | refutation | partial |
| C30 | Write-read requests | the same | induction over both lists | partial |
| C31 | Requests touch only the addressed properties | the same | frame condition | proved |
| C32 | Every answer is a well-formed frame | the same | composition with the encoder | partial |
| C33 | Changes of announceable properties are announced | setdata and announcements | specification of each call | partial |
| C34 | A search response registers the sender's objects | `controller_listener.c` (`M_Controller`) | invariant over histories of calls and frames (`Run_Controller`) | partial |
| C35 | Only search responses register nodes and objects | the same | case analysis over frames | proved |
| C36 | The controller's copy of a property follows responses | the same | induction over reported properties | partial |
| C37 | A posted request returns its own response | `M_Post`: callers and receivers as a transition system | inductive invariants over all schedules; refuting schedules | partial |
| C38 | Controller options | option bits | bit arithmetic, induction over calls | partial |
| C39 | Lists behave as sequences | `M_List`: `util/list.c` on a heap of cells | representation predicate, refinement to sequences over histories | partial |
| C40 | Received messages reach every observer once, in order | `M_Server`: sockets and receive loops with an operating-system oracle | induction over streams of arrivals | partial |
| C41 | Announcements reach the network | the same, send oracle | induction over interfaces | partial |
| C42 | Search frames | composition | composition | partial |
| C43 | End to end: reading a remote property | composition | composition | proved |
| C44 | Request handlers | observer lists and the listener | induction over registrations and over the request | partial |
| C45 | Standard object database | generated table of `std/objects_mra.c` (`StdDB_Data`, by `tools/gen_stddb.py`) | generic lemmas instantiated by computation | partial |
| C46 | String helpers | `M_String`: string buffers with allocation oracle | refinement over histories of calls | partial |
| C47 | A node survives every datagram and call | all of the node | exact definedness of each function, invariant over histories | partial |
| C48 | A starting node is discovered | composition | composition | partial |
| C49 | Device helpers | `device.c`, `std/*_super_class.c` (`M_Device`) | induction over setter calls | partial |
| C50 | A controller survives every datagram | all of the controller | as C47 | partial |
| C51 | End to end: writing a remote property | composition | composition | proved |
| C52 | How long a posted request waits | deadline arithmetic of the wait | arithmetic | partial |
| C53 | Starting is all or nothing | start/stop of server lists | exact condition by induction over interfaces | partial |
| C54 | A message to a node is sent exactly once | postresponse | case analysis over oracles | proved |
| C55 | Stopping while receiving | `M_ServerThread`: receiver and stopping thread | inductive invariants over schedules; refuting schedules | partial |
| C56 | Comparing, searching and printing text | `util/strings_function.c` | specification by positions; arithmetic for printing | partial |
| C57 | Replacing in a string | uecho_string_replace | induction over the text | partial |
| C58 | Logging is harmless | `M_Log`: the packet log on a 256-byte buffer | exact contents by induction; refutations | partial |
| C59 | Lookups find exactly what is there | `M_Lookup` | invariants of nodes and controllers | partial |
| C60 | Waiting for an object or property | `M_Lookup`: polling against a timed environment | induction over polls | partial |
| C61 | Messages sent and announced through an object | `M_Controller`, `M_Node` | composition with C43 | partial |
| C62 | The node profile reads back what the node has | `M_Lookup` | composition with C22 | proved |
| C63 | Properties of a message by code; comparing and copying properties | `M_Message`, `M_Property` | induction | proved |
| C64 | The interfaces a node listens on | M_Net, M_Server | the list is filtered in order (induction); composed with C53 | proved |
| C65 | The local address of a received datagram | M_Net, M_Server | invariant of the selection loop over the entries seen so far; the address to report is unique; induction over arrivals for the destination | partial |
| C66 | Recognising IPv6 addresses and their scope | M_Net, M_String | search lemma of C56; the 9-byte buffer is followed cell by cell | partial |
| C67 | A server gives back what it takes from the system | M_Socket | invariant over the history of one server: its descriptors and options are those of the start plus its own; the losses are counted | partial |
| C68 | Streams are written in order and read line by line | M_Socket | induction over the calls with the fuel 11 times the length, and over the stream | partial |
| C69 | Names of objects and properties | M_Names, StdNames_Data, M_Object | look-up lemmas for the list operations; induction over histories; simulation with M_Object | partial |
| C70 | Manufacturers and enumerations are found by their codes | M_Names, StdNames_Data | no code occurs twice in the table (computed); induction | partial |
| C71 | The shared standard database is complete and made once | M_Shared | each access to the pointer and each line is a step; invariant over all schedules of any number of threads | partial |
| C72 | Messages in memory behave as independent values and leave nothing behind | M_Mem, M_MemUse | heap of blocks with pointers; separation-style weakest preconditions for each function; simulation of every history by values | partial |
| C73 | Receiving leaves memory as it was | M_Mem, M_MemUse | the receiving loop on the heap refines the one on values and ends with the heap it began with | partial |
| C74 | Values of properties written and read by several threads | `M_PropThreads`: properties as pointer and size, data blocks, every load, store, allocation and byte copied a step, any number of threads | invariant over schedules (ownership of blocks, a linear order of the actions); refutations by schedules | partial |
| C75 | Memory of objects and of the database of objects | `M_ObjMem`, `M_ObjUse`: objects, properties, observers, caches and circular lists as blocks of the heap of `M_Mem`; programs of calls | separation-logic style triples for each function, refinement to values (`Spec_ObjMem`) by induction over programs; refutations by computation | partial |
| C76 | Life of small records, lists of them, the database and the server when memory is short | `M_Life`: records with links, a code and strings on the heap of `M_Mem`, with any pattern of failing requests; programs of calls; the database and the server | triples with a case for each failing request, refinement to values (`Spec_Life`) by induction over programs; refutations by computation | partial |
| C77 | Copying text, comparing parts of texts and without regard to case | `M_Text`: the functions on blocks of bytes | reduction of the comparisons to the one of C56; refutations by computation | partial |
| C78 | A thread runs its action from start to stop, once | `M_Threads`: thread objects, instances of actions, sleeps during which instances run | invariant over all events within the rules (`Spec_Threads`); a measure for C78_stops; refutations by schedules | partial |
| C79 | A node's memory follows its values from creation to deletion | `M_NodeMem`, `M_NodeLife`: nodes, lists of objects and classes, servers and messages as blocks of a heap | refinement to the values of `M_Node` and `M_NodeListener` (`Spec_NodeLife`) call by call with separation of blocks, then induction over programs; `Spec_Careful`: conditions, checked call by call, under which every call of a program is defined on values, by an invariant of nodes and objects | partial |
| C80 | A controller's memory follows its values from creation to deletion | `M_CtrlMem`, `M_CtrlUse`: the controller, its mutex and condition, its local node, the list of found nodes and the messages of a request as blocks of a heap | refinement to the values of `M_Controller` (`Spec_CtrlLife`) call by call with separation of blocks, then induction over programs; `Spec_CtrlCareful`: conditions, checked call by call, under which every call of a program is defined on values | partial |
| C81 | A controller does not make up the values it holds for a device | `M_Node`, `M_NodeListener`, `M_Controller`; `Run_System` composes a device, a controller and a network | invariant by induction over the history of the composed system: every frame sent reports values of a past state, every value held comes from such a frame | partial |
| C82 | What devices and controllers send each other in reaction to a frame dies out | `M_Node`, `M_NodeListener`, `M_Controller`; `Run_Parties` composes any number of parties and the datagrams under way | a measure (datagrams under way, requests weighted by what they can lead to) that every delivery or loss decreases; induction over runs; the invariants of C47 and C50 for definedness | proved |
| C83 | What a device holds was put there by its program or by a request that names it | `M_Object`, `M_Node`, `M_NodeListener`; `Run_Origin` lists what puts a value into a property | case analysis of one step using the refinements of objects and requests (C15, C26, C31); induction over histories; composition with C81 | partial |
| C84 | What a message says about itself is what its datagram says, and tells whether an answer comes | `M_Query`, `M_Message`, `M_NodeListener` | from the refinement of parsing (C02) and of requests (C24-C28); induction over the codes for lists of objects | partial |
| C85 | The example lamp does what it is told and says what it was told | `M_Light` on top of `M_Device`, `M_Node`, `M_NodeListener` | invariant of the node (only the lamp has handlers, its status, data bounded by 766 bytes) by induction over the events | partial |
| C86 | The posting tool sends the request its arguments spell and prints the response it got | `M_PostTool` on top of `M_Controller`, `M_Message` | induction over the text as bytes, then the encoder's theorem for the request; printing by induction over the properties | partial |
| C87 | The searching tool lists every device it heard of; the dumping tool shows every frame | `M_ShowTool` on top of `M_Controller`, `M_Message` | induction over the datagrams and keys with an invariant tying the table of devices to the controller; numerals and lines are shown injective | partial |
| C88 | What a device or controller holds stays small whatever arrives, so watching and serving never fail | `M_Controller`, `M_NodeListener`, `M_Node`, `M_Object` | invariant over calls and datagrams (length of every value), combined with the totality of each step from C47 and C50 | proved |
| C89 | uechosearch -v asks every device found for its manufacturer and its readable properties, each once and in order, and prints just what came back | `M_Verbose`, `M_Controller` | the list of things to ask is computed from what the controller knows; induction over the steps with an invariant (what is known stays, the rest of the list shrinks) | partial |
| C90 | uechobench -v reads every readable property of every device once per round, for exactly the number of rounds given | `M_Bench`, `M_Verbose`, `M_Controller` | the list of `Spec_Verbose` repeated n times; induction over the steps with the invariant of C89 and a count of the rounds left | partial |
| C91 | What uechosearch -v and uechobench -v print about devices of this library is what the devices have | `M_Verbose`, `M_Bench`, `M_NodeListener` | `Spec_Told`: the lines as a function of the devices; each line of C89/C90 is traced to the answer of the device by the request theorem of the server and the injectivity of the encoding; in the closed network the conditions of C89 are derived from the answers | proved |
| C92 | uechosearch finds every device of this library that answers, with all its devices, and nothing else | `M_ShowTool`, `M_Verbose`, `M_Bench`, `M_NodeListener`, `M_Controller` | `Spec_Found`: the table as a function of the devices and the order of their answers; each answer is the encoding of the instance list (C27), the table of C87 is computed from these by induction over the answers; the condition of C91 on what has been heard of follows | proved |
| C93 | A property written with a response wanted, or with uechopost, is what the device then has and what reading shows | `M_PostTool`, `M_Controller`, `M_NodeListener` | the request of C86_message_partial is the one of C43_request; the device stores it by C26; the answer is taken by the waiting call; the device after the write is again reachable by API calls, so C86_get applies to it | proved |

## Trusted base

* Coq's kernel. `coqchk` accepts the compiled development.
* `Print Assumptions` says "Closed under the global context" for every theorem in `Properties_*.v`: no axiom is used, neither of the standard
  library nor any other. `coqchk` also lists axioms of `Coq.ssr.ssrunder` (`Under_rel` and its companions), which the standard
  library's own files declare and which are loaded with it; no theorem depends on them.
* The reading of the C source that the model transcribes, checked by hand against the cited lines.
* For C45: the script that turns the table in `std/objects_mra.c` into `StdDB_Data.v`.

## Testing the theorems against wrong programs

`tools/seed.py` edits one definition of the model in a scratch copy, the way a bug would change the program, and
rebuilds everything that depends on it. When a lemma fails it is admitted in the scratch copy, and the run goes on, so that one
run lists every theorem whose own proof fails or rests on a failed lemma. This over-approximates: a theorem that rests on a
failed lemma may still be true of the edited program. Edits that only break lemmas are therefore looked at by
hand. `seeded/LOG.jsonl` has one line per edit; `seeded/mutants*.json` hold the edits.
