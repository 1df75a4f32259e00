# Formal model of cybergarage/uecho-go

Target: the Go sources under `/repo/net/echonet` (packages `encoding`, `protocol`,
`transport`, `echonet`, `cmd`) and two programs of `/repo/examples`, at the pinned commit, read as text.
Prover: Rocq / Coq 8.16.1, standard library only.

## Shape of the development

Model files (no proofs in them; every definition cites its Go lines):

| file (rocq/theories) | content |
|---|---|
| `Go.v` | Go run time pieces: fixed width wrap, slices as lists with panicking index, loops, insertion sort |
| `Encoding.v` | `encoding/binary.go` |
| `Protocol.v` | `protocol/{property,object,esv,message}.go`, `Address` of `protocol/address.go` |
| `Parser.v`, `Reader.v` | `protocol/message_parser.go`, `protocol/message_parser_reader.go` with a model of `bufio.Reader` and `bytes.Reader` |
| `StdDB.v` (generated by `tools/gen_stddb.py`) | the table of `database_mra_objects.go` |
| `Property.v`, `Object.v` | `property*.go`, `object.go`, `super_object.go`, `device.go`, `profile.go`, `node_profile.go`, `class.go`, `database.go` |
| `Node.v` | `base_node.go`, `local_node.go`, sequential part of `local_node_msssage.go` |
| `Handler.v` | `local_node_message_handler.go`, the notification part of `object.go` |
| `Remote.v` | `remote_node.go`, `controller.go`, `controller_message_listener.go`, `message_func.go` |
| `Post.v` | the concurrent part of `local_node_msssage.go` as a labelled transition system |
| `Transport.v` | `transport/`: interfaces, configuration, receive loops, start and stop of all servers, sending |
| `Exchange.v` | a message from node to node and back: `udp_socket.go`, `tcp_socket.go`, the handling in `unicast_server.go` and `multicast_server.go`, sending in `unicast_manager.go`, PostMessage of `local_node_msssage.go` for one call |
| `ManDB.v` (generated by `tools/gen_mandb.py`) | the table of `database_manufacturers.go` |
| `Programs.v` | the manufacturer part of `database.go`, the programs `examples/uecholight` and `examples/uechopost` |
| `Concurrent.v` | messages handled by several goroutines: the handler of `local_node_message_handler.go` and `addNode` of `controller_message_listener.go` in small steps |
| `Lan.v` | a controller and any number of nodes on one network that may lose, repeat and reorder datagrams, put together from `Node`, `Handler`, `Remote`, `Exchange` |
| `LanScan.v` | the requests of a detailed scan (`cmd/controller.go`) posted to the nodes of `Lan.v` |
| `Alias.v` | who shares memory: slices as windows of arrays, properties as pointers, in `property.go`, `property_map.go`, `object.go`, `super_object.go`, `database.go`, `protocol/{property,message,message_parser}.go`, `udp_socket.go` |
| `Life.v` | the life of a node with its transport: Start, Stop and Restart of `local_node.go`, `server.go`, Start and Stop of `controller.go`, put together from `Node` and `Transport` |
| `Control.v` | `Lan.v` with `SendRequest` of `local_node_msssage.go` by any member to any address and with datagrams from elsewhere |
| `Options.v` | the option lists of `NewProperty`, `NewMessage`, `NewClass`, `NewDefaultConfig`, `NewDevice`, `NewLocalNode` and `NewController` |
| `StdNames.v` | the class and property names of `database_mra_objects.go`, written by `tools/gen_names.py` |
| `Names.v` | class names and property names of objects: `object.go`, `property.go`, `super_object.go`, the constructors of devices and profiles |
| `SearchTool.v` | `examples/uechosearch`, `examples/uechobench`: the lines printed after the search |
| `AddressText.v` | `protocol/address.go`, the source address of a message in `transport/tcp_socket.go`, with the functions of Go's `net`, `net/netip` and `strconv` they call |
| `Bound.v` | `transport/socket.go` (status), `MessageManager.Addresses`, `Address` and `Port` of `local_node.go` over the servers, the servers of `isSelfMessage` of `controller_message_listener.go`; connects `Life.v` with `Remote.v` |
| `Owner.v` | the parent links: `Object`, `Node`, `SetObject`, `Announce` of `property.go`, the keys of `property_map.go`, `SetParentNode` of `object.go`, `AddDevice` and `AddProfile` of `local_node.go` and `remote_node.go`, `super_object.go` on pointers; `OwnerFacts.v` has the lemmas |
| `CmdRun.v` | the commands get, set and scan of `cmd/get.go`, `set.go`, `scan.go`, DiscoverNodes of `cmd/controller.go`: the calls they make, in which order, what they print, the error they return |
| `SearchTime.v` | Search of `controller.go` (L123-L143): the context, the loop, the time; what the table holds at its return |
| `Errors.v` | `net/echonet/errors.go`, `protocol/errors.go`, `transport/errors.go` and the error values (errors.Is and texts) of `property.go` (L400-L458), `property_map.go` (L109-L178), `device.go` (L101-L110, L173-L182), `base_node.go` (L43-L127), `object_code.go`, `protocol/object.go`, `protocol/property.go` (L102-L128), `protocol/message_parser.go`, `protocol/message_parser_reader.go`, `local_node_msssage.go` (L21-L33, L192-L198) |
| `Family.v` | `transport/interface.go` (L33-L48), the groups of `multicast_socket.go` (L34-L41) and `udp_socket.go` (L112-L125), `multicast_manager.go` (L34-L43) |
| `Values.v` | no further code: the calls of an application computed by `Object.v` and `Node.v`, where each object is loose or at a place of one node; `ValuesFacts.v` relates it to `Owner.v` call by call |
| `MapRace.v` | the reads and writes of Go maps by each function of `property_map.go`, `super_object.go`, `database.go`, `object.go` (Copy), `device.go`, `local_node.go`, `local_node_message_handler.go`, `remote_node.go` (newRemoteNode...), access by access, with goroutines interleaving |
| `PostTool.v` | `examples/uechopost` on the network of `Lan`, with the lines it prints |
| `TabWriter.v` | `Output` of `cmd/table.go` with `text/tabwriter` and `utf8.RuneCount` of the Go library |
| `JsonText.v` | `OutputJSON` of `cmd/table.go` with `encoding/json` of the Go library |
| `Packet.v` | packet types and text of a message: `protocol/message.go` L298-L325, L403-L408 |
| `NodeText.v` | text and comparison of nodes: `node.go`, `local_node.go`, `remote_node.go` |
| `Stopping.v` | goroutines of the servers, running and stopped: `transport/unicast_server.go` L62-L175, `multicast_server.go` L46-L95, `tcp_socket.go` L67-L113, `udp_socket.go` L49-L149 |
| `Timing.v` | time a call of PostMessage takes: `local_node_msssage.go` L157-L201, `transport/unicast_manager.go`, `unicast_server.go`, `tcp_socket.go` with the deadlines they set |
| `Listing.v` | listings of the standard database: `database.go` L49-L65, L83-L93 |
| `LogText.v` | lines of the transport log: `transport/logger.go`, `socket.go` L77-L89, `udp_socket.go` L61-L69 L82 L98 L112-L125 L137-L142, `tcp_socket.go` L86-L117 L159-L176, `unicast_server.go` L108, `multicast_server.go` L65 |
| `Cmd.v` | `cmd/{func,get,set,scan,controller,table,table_formatter,message_formatter,format}.go` |

Specification vocabulary (wire grammar, field positions, ...), written without
model functions: `Spec.v` and the definitions at the head of each `Props*.v`.

Proofs: `GoFacts`, `EncodingFacts`, `MessageFacts`, `ParserFacts`, `ReaderFacts`,
`ProtocolFacts`, `PropertyFacts`, `ObjectFacts`, `NodeFacts`, `HandlerFacts`,
`RemoteFacts`, `PostFacts`, `PostCalm`, `PostTid`, `TransportFacts`,
`TransportStart`, `CmdFacts`, `CmdTable`, `ExchangeFacts`, `ConcurrentFacts`, `TableFacts`,
`LanFacts`, `AliasFacts`.

Theorems of MANIFEST.json, each with an `Example` that meets its hypotheses and
`Print Assumptions`: `PropsProtocol` (C01-C10, C12, C13), `PropsObject` (C14-C23,
C50), `PropsNode` (C11, C24-C28), `PropsHandler` (C29-C36), `PropsRemote`
(C37-C41), `PropsPost` (C42-C45), `PropsTransport` (C46, C47, C49, C51), `PropsStart`
(C48, C54, C55), `PropsCmd` (C52, C53, C56-C58), `PropsScan` (C52, C59), `PropsExchange`
(C60, C61), `PropsSearch` (C62), `PropsConnection` (C63-C69), `PropsDetails` (C70, C71),
`PropsPrograms` (C72-C75), `PropsConcurrent` (C76), `PropsTable` (C77), `PropsSource` (C78),
`PropsLan` (C79, C80), `PropsMemory` (C81), `PropsLanScan` (C82), `PropsAlias` (C83, C84),
`PropsLife` (C85), `PropsControl` (C86, C87), `PropsOrder` (C88), `PropsOptions` (C89), `PropsNames` (C90), `PropsSearchTool` (C91), `PropsAddress` (C92), `PropsBound` (C93), `PropsOwner` (C94), `PropsMapRace` (C95), `PropsPostTool` (C96), `PropsPrinted` (C97), `PropsJson` (C98), `PropsPacket` (C99), `PropsText` (C100), `PropsStopping` (C101), `PropsTiming` (C102), `PropsListing` (C103), `PropsLog` (C104), `PropsAccess` (C105, C106), `PropsValues` (C107), `PropsCut` (more on C05, C47), `PropsFamily` (C108), `PropsErrors` (C109), `PropsIsolation` (C110), `PropsSearchTime` (C111), `PropsVolley` (C33, exactly), `PropsPostExact` (C43, every schedule), `PropsPostCause` (C44, every schedule), `PropsCmdRun` (C112), `PropsCmdNet` (C113).

`RepoTests.v` has no property: it runs the unit tests of the repository on the
model (encodings, messages, addresses, property maps, databases, objects,
interfaces, configurations, the tests of a node and a controller on a network), as
a check that the model behaves as the code did when its authors ran it.

`tools/props.py` writes properties.jsonl, `tools/claims.py` with
`tools/manifest.py` writes MANIFEST.json, `tools/mutate.py` edits a scratch copy of
the model and reports which theorems stop being provable; its results are in
`seeded/LOG.jsonl`.

Conventions.  All Go integers are `Z`; every place where Go truncates is an explicit
`mod`.  Slices are lists (C83 says when that is faithful, on the memory model of
`Alias.v`).  A run time panic is the outcome `Panic`, never a
default value.  Errors are values.  Application callbacks are arbitrary
functions that the theorems quantify over.  Goroutines and channels are explicit
steps of a transition system; schedules are lists of steps and theorems quantify
over all reachable states.

False properties.  Where the code does not have the property, the full statement
is kept in view as a definition, a theorem `..._refuted` gives a witness that is
computed on the model, and `..._partial` proves what does hold.

## Plan per property

* **C01** `Protocol.v` encoder + `Parser.v` decoder; induction over the property list.
* **C02** encoder against the concatenation grammar `Spec.wire_frame`.
* **C03** decoder with `Panic` outcomes for every index and slice expression; loop invariant on the offset.
* **C04** decoder then encoder over the grammar, with trailing bytes.
* **C05** false: truncated frames are accepted. Refuted by a cut frame; partial: the header area is checked, and a message is delivered unaltered when the property area is complete.
* **C06** reader model parameterised by the list of segments; equality for one segment; refuted for two segments and for `bytes.Reader` with an empty last property.
* **C07** loop of shifts against base 256 positional notation.
* **C08** sweep over the 256 codes, lifted to all codes.
* **C09** direct, for all messages.  **C10** ESV/TID/EOJ part proved, property echo refuted, exact wrong content characterised.
* **C11** iteration of `NextTID`, injectivity modulo 65536.  `SetTID` for out of range values characterised.
* **C12** induction over additions, including the wrap of the counter.  **C13** by C01 and injectivity of the grammar.
* **C14** case analysis against an independent access table.  **C15** record/assoc list lemmas.
* **C16** format 1 for all lists, format 2 for codes below 0xC0, refuted for the others.
* **C17** invariant over histories of `SetCode`/`AddProperty`.
* **C18** sort of any permutation of the keys.  **C19** arithmetic of 3 byte codes.  **C20** on every object that has the properties, and every device of the database has them.
* **C21** generated database + lookup by masked code, finite sweep over classes lifted to all codes.  **C22** false for the conditional rules; refuted/partial.  **C23** false; refuted/partial.
* **C24** invariant over histories; **C25** list search; **C26** invariant over histories.
* **C27**, **C28** node state with the list of multicast frames as output.
* **C29**–**C36** `Handler.v` with arbitrary callbacks; C33 and C35 are false for some inputs (refuted) and get partial theorems.
* **C37**–**C41** `Remote.v`; C37 holds up to 84 devices of known classes; C40, C41 false.
* **C42**–**C45** `Post.v`; inductive invariants for C42, partial for C43, refuted schedules for C44, C45.
* **C46**–**C49** `Transport.v`; receive loop over arbitrary datagram lists, bind oracle for start/stop.
* **C50** polling over an arbitrary stream of snapshots.  **C51** strings and flag sets, exact characterisation.
* **C52** the pass over a column as a function on cells; restoring it by filling down.  **C53** decoder against a digit grammar.
* **C54**, **C55** from the state that `Manager_Start` leaves; interface pointers are (listing, position).
* **C56** request message of every argument triple.  **C57**, **C58** injectivity of the printed forms.
* **C59** exact rows for every controller state and every answer.
* **C60**–**C62** composition of the theorems about the parts; the network delivers what a node sends; C60 false above 1024 bytes.
* **C63**–**C69** `Exchange.v` with an oracle for dials, writes and reads; event lists of all calls; C63-C67, C69 false in part.
* **C70** exact language of the accepted texts. **C71** exact cells of each row, for every environment.
* **C72** invariant over all histories of the program; its node is one of the nodes of C24-C36, whose theorems apply. **C73** false, for all devices. **C74** exact language of the arguments; documented form refuted for all properties. **C75** sweep over the table, composition of C26, C29 and C71.
* **C76** invariant of every handling over all schedules (the shape of the node does not change); single-property requests are ordered by their one access; torn reads and writes refute the rest. **C77** a condition on every slice in existence, kept by each step; duplicates, lost and reappearing nodes refute the rest.
* **C78** composition of C60 with the step of C37-C40: the read of a device's own property 0xD5 or 0xD6, over the wire, refutes it for every such device.
* **C79, C80** invariant over all sequences of network events: every datagram on its way was said by a member; the search, the list or the table entry of a member is somewhere until lost (C79); the changes told and the changes on their way are the changes made, as sets, multisets or lists according to what the network may do (C80).
* **C81** by induction on the messages: a handling is a fold of writes over one object, keeps the shape of the node (objects, attributes, sizes), hence which later writes are accepted; the read is the exchange of C60 at the node the history leaves.
* **C82** composition of C79 (the table shows the network), C60 (a posted read is answered with the data held) and C71 (the cells of a row); the requests of the scan leave every node as it is.
* **C83, C84** an owner for every array (application, code bytes of one object, receive buffer, or never written again) and one object for every property pointer; under these every call does on the memory what the value model says.
* **C85** every life of a node is a history of C11, C24-C28 in which the transport decides when the node runs, and a history of C46-C55 in which the node decides what is sent; the theorems of both are combined. A start that cannot announce and a restart whose stop fails refute the rest.
* **C86, C87** every datagram on the network has an origin: it was there first, came from outside, was announced by a member, was sent by `SendRequest`, or answers one of these (`ControlFacts.origin`, an invariant of `ctl_run`). The log of the writes to an object is defined by the specification (accepted requests, settings of the application) and its fold is the content of the object.
* **C88** for a member whose datagrams are neither lost, repeated nor reordered: the sent writes are the executed ones followed by those on their way (invariant over `ctl_step`); overtaking refutes it without that assumption.
* **C89** `chosen` says which option of a list counts; the invariant of `NewDevice` over its options joins C21 and C23 with the manufacturer code; the node of `NewLocalNode` is shown to be the node of the calls its options stand for, so that C24 - C28 apply to it.
* **C90** an invariant ties the named object to the object of `Object.v` and to the history of calls; the table of names is swept class by class.
* **C91** the requests of the programs go to nodes the controller knows, so the table does not change while it is printed; each answer is that of C82, each name that of C90.
* **C92** the text of an IPv6 address is its groups with or without one shortened run of zeros; the parser is followed group by group. C92 is why the other models can take an IP as a number and its text as a parameter.
* **C93** invariants over the lives of a node: while it runs, the unicast servers have addresses of multicast servers, and their port is the configured one when automatic port binding is off.
* **C94** invariant over all careful programs: what an object's map shows points back to the object under its own code, what a node lists points back to the node, and the other way round; frame theorems without carefulness.
* **C95** invariant over all interleavings: a map being written is known to its goroutine only; the converse constructs an interleaving for any pair of calls.
* **C96** composes C60/C61 with the formatted text; a line is cut back into its words at the blanks, so that it determines what it shows.
* **C97** the writer keeps finished lines and one open cell (`TabFacts`); a table whose rows are all as long as the header is one block, so every column has one width. The reader of the specification finds the columns by the names in the first line and knows nothing of the writer.
* **C98** the specification has its own UTF-8 and its own reader of JSON (whitespace, escapes, nesting); it is shown to read what the model writes, string by string, and the sorted keys to be a permutation of the columns.
* **C99** the specification knows how a message came from the history of the network (who sent which datagram where), not from the packet type the server wrote.
* **C104** the time and level that go-logger puts before a line are left out.
* **C113** The command of C112 with the network of C79 and C82 in the place of its
  environment: starting, searching and stopping report no error, requests go out over
  UDP, the answer comes before the timeout or not at all, the IP addresses of the nodes
  have different texts, as have to be the addresses in C82 (`recorded`). The cells of the
  printed row are given by the digits they spell (`hex_cell`, `spells`). False: every node
  found can be asked (`C113_shared_refuted`, two nodes at one IP address with different
  ports), and a refused read is reported as a failure (`C113_refused`).
* **C112** What the calls of the controller return is arbitrary (an environment); the
  command is the sequence of calls it makes, the bytes it prints and the error it returns.
  The reads of scan are inside its table (C59). Flags are arguments; cobra is the count of
  arguments. False: the controller is stopped when a command has failed
  (`C112_stopped_refuted`, exactly when: `C112_unstopped_get`, `_set`, `_scan`), and success means that the
  device did what was asked (`C112_status_refuted`, `C112_status_get`).
* **C111** The context is a deadline and a moment of cancellation; the network says how
  long the sending takes, the scheduler how long a sleep lasts (200 ms and less than `late`
  more). Found are the nodes whose announcements were handled until the return; the
  controller is not stopped or cleared during the search.
* **C110** is noninterference in the usual form: leaving out the messages for other
  objects changes nothing for the object. The application is any that keeps its objects
  apart (`separate`): the callbacks of an object read and change only that object and the
  part of the state of the application that belongs to it, and the listener of the node
  changes no object and decides by the message alone. Storing applications (C81) are of
  this kind (`C110_storing`), one that switches a light with another is not
  (`C110_pair_example`). Messages are handled one at a time; C76 is about several.
* **C109** `Errors.v` writes the functions that return errors again with the
  whole value: the variable found by errors.Is and the text. `C109_agree` shows that
  they agree with the models the other properties use, which keep only the kind. An
  error of a reader given by the caller is a variable of its own.
* **C108** the interfaces, addresses and answers of the system are arbitrary; which text is an address of which version is what interface.go L14-L30 takes it for (C51).
* **C107** the calls are those of `deed` in `Values.v`: reading calls, handlers, profiles added by the application and direct writes through a property are not among them (C94 has the last). C107_total leaves out a new code for the node profile.
* **C103** the order of a Go map is any permutation of its entries; the classes and manufacturers are those of the generated tables.
* **C102** the times of dials, writes and reads are the network's; only the deadlines the code sets cut them. What does not block takes no time.
* **C101** the specification counts what is read, accepted, handled and answered in the log of events, by number of server and connection; the bounds are on what was in progress when Stop was called. The steps are those of goroutines: whatever the scheduler does is one of the runs.
* **C100** the text is the specification's own frame in its own hexadecimal digits; nodes are compared through the addresses in sixteen bytes.

## Trusted base

* Coq 8.16.1: kernel, `vm_compute`, the type checker `coqchk`.
* `Print Assumptions` reports "Closed under the global context" for every theorem
  of MANIFEST.json: no axiom is used.  `coqchk` lists seven constants of
  `Coq.ssr.ssrunder` as axioms of the loaded environment (`Under_rel` and its
  companions); they come with the standard library module that `Lia` loads
  (`ZifyBool` requires `ssrbool`), no theorem depends on them.
* The transcription from Go to Gallina.  Each definition names its lines.
* What is said about code outside the repository: `bufio.Reader` and
  `bytes.Reader` (`Reader.v`), `encoding/hex`, `fmt` verbs `%d %X`, `strings`
  functions on ASCII (`Cmd.v`), `net.Flags`, the iteration order of Go maps (any).
* `tools/gen_stddb.py` and `tools/gen_mandb.py`, which copy the tables of
  `database_mra_objects.go` and `database_manufacturers.go`.

### Simplifications, by file

* `Protocol.v`: an IP address is a number (equality of addresses is all the code
  uses); the IPv6 zone and the field `Interface` are left out.
* `Property.v`, `Object.v`: names are left out; a property is stored under its
  code (the code of a property is not changed after it was added); objects are
  values, so one object is not shared between two nodes.
* `Node.v`: announcements are sent after the call that causes them has set its
  data; transport errors of announcements are ignored as the code does.
* `Handler.v`: which callbacks are installed does not change while a message is
  handled; callbacks return.
* `Post.v`: sequentially consistent memory; every call has its own message object;
  `SetTID` and `SetSEOJ` are one step; the bytes of a message are read in one step.
* `Transport.v`: binds and closes are oracles; a socket is released even when its
  close reports an error; the addresses of an interface do not change during one
  Start; the Stop inside `setUnicastManager` is merged with the one of its caller;
  the channel of a multicast server, which nothing closes, is left out.
* `Exchange.v`: the network is an oracle (what dials, writes and reads answer); a
  datagram arrives unchanged or not at all; one call of PostMessage runs alone.
* `Concurrent.v`: sequentially consistent memory; one callback, the check of one
  property, one property of the response, one read or write of a slice header or
  cell are single steps (Go promises less, so the refutations stand and the
  positive theorems are about these steps); pending requests are left out.
* `LanScan.v`: the requests of a scan go over UDP, one after the other, with nothing lost and nothing else happening meanwhile.
* `Alias.v`: capacities of slices are left out; transaction number, objects, source and
  packet type of a message are values (they are never handed out); announcements are left
  out; a call with a handle that does not exist, or that would panic, is not made.
* `Lan.v`: every node is bound to one address; messages are handled one at a time;
  nobody waits for a response; TCP is switched off; a multicast becomes one
  datagram for every member; what the application writes into a device it writes
  with SetPropertyData between messages.
* `Life.v`: calls come one after the other; the address of the node is not refreshed; received messages are left out (`Handler.v`), except that a malformed datagram ends a receive loop.
* `Control.v`: as `Lan.v`; applications store what the library offers them (`storing`, C64); values have at most 255 bytes; a request is sent as one datagram over UDP; a delivery is the moment at which the goroutine for the datagram runs, as a whole (`Concurrent.v` has the interleavings).
* `Options.v`: the parent object of a property (`WithPropertyObject`) is left out; a nil device, listener or configuration is not given; a device given twice is two devices of the same content.
* `Names.v`: SetName and Name of an object are left out.
* `SearchTool.v`: flags, logger, start and stop are left out; the text of an IP address is a parameter.
* `AddressText.v`: written after the documented behaviour and the source of the Go library of the version in `go.mod`, which is not in the sandbox; the kinds of errors are not told apart; an int has 64 bits.
* `Bound.v`: the source of a datagram is the address and port to which the sending socket is bound; `IPAddr` (only logged) is in `LogText.v`.
* `Owner.v`: names and handlers left out, Start and Stop succeed, the three code bytes are a number.
* `MapRace.v`: what the calls compute is left out; how long loops run and which properties exist are parameters; the happens-before of a hand-over is taken as given; the runtime is taken to notice every concurrent access (it notices them when it can).
* `PostTool.v`: the program after its search; the start, the exit code and an error of SendMessage are left out; the text of addresses is a parameter.
* `TabWriter.v`: written after the documented behaviour and the source of the Go library, which is not in the sandbox; tabs in column 0 of minwidth 0, html and escape flags, which `table.go` does not set, are left out; writes to the terminal succeed.
* `JsonText.v`: written after the documented behaviour and the source of the Go library (`appendString` with HTML escaping, sorted keys of maps), which is not in the sandbox.
* `Cmd.v`: `strings.ToLower` leaves bytes above 127 alone (no effect on the
  decoder); the address argument is abstract; class, property and manufacturer
  names and the answers to PostMessage are oracles.
* `Programs.v`: output and logging are left out; requests to the light arrive one
  at a time; the address argument of uechopost is abstract; `strconv.ParseUint`
  in base 16 is digits and a bound.

### Not modelled

The windows variants of the sockets (they use names that the package does not
define, errorSocketClosed and errorAvailableAddressNotFound, and so cannot be
compiled at this commit), logging other than the lines of the transport
(`LogText.v`), the text of the error values of the system and of the remaining functions (`Errors.v` has those of values, properties, objects, parsers, timeouts), real time
(durations are numbers), `cobra` and `viper`, `scripts`.
