# Formal model of uecho-rs: design

The model is written in Rocq/Coq 8.16.1 with the standard library only.
`properties.jsonl` holds the English properties; `MANIFEST.json` maps each
one to theorems.

## Layout (rocq/theories)

| File | Role |
| --- | --- |
| `Base.v` | outcome monad (`Ret` / `Panic`), checked indexing, machine-integer casts |
| `HMap.v` | `HashMap` as association list in iteration order with an arbitrary reordering oracle |
| `ModelCodec.v` | `protocol/esv.rs`, `protocol/property.rs`, `protocol/message.rs`, `util/bytes.rs`, `util/oid.rs` |
| `ModelMessages.v` | `message.rs`, the builders of search, response and error messages |
| `ModelObject.v` | `property.rs`, `object.rs`, `super_object.rs`, `database.rs`, `device.rs` (creation), helpers of `database_mra_objects.rs` |
| `DbTable.v`, `MakerTable.v` | generated by `tools/extract_db.py` from `database_mra_objects.rs`, `database_manufacturers.rs` |
| `ModelTransport.v` | `transport/*.rs` |
| `ModelNode.v` | `request_handler.rs`, `node_profile.rs`, `node.rs`, `device_node.rs` |
| `ModelController.v` | `remote_node.rs`, `controller_node.rs`, `controller.rs` |
| `ModelDevice.v` | `device.rs`, `device_node.rs`, request handlers of `examples/monolight` and `tests/test.rs` |
| `ModelHost.v` | one process: node, controller, receive threads, observers, poisoned mutexes |
| `ModelLocks.v` | mutexes, API threads and receive threads, step by step |
| `SpecWire.v`, `SpecObject.v`, `SpecNode.v`, `SpecHost.v`, `SpecLocks.v`, `SpecRemote.v`, `SpecDevice.v` | independent vocabulary: wire grammar, property map reading, histories, datagrams, deadlock, the maps of C77 and C81 |
| `ProofsCodec*.v`, `PropertiesCodec.v` | C01 to C14, C25 |
| `ProofsObject*.v`, `PropertiesObject.v`, `PropertiesDb.v` | C15 to C24, C26 to C31 |
| `ProofsNode*.v`, `ExamplesNode.v`, `PropertiesNode.v`, `PropertiesTrans.v` | C36 to C49, C51 to C58 |
| `ProofsDevice.v`, `PropertiesProfile.v` | C32 to C35 |
| `PropertiesTransport.v` | C65 to C69 |
| `ProofsExchange.v`, `ProofsController.v`, `ProofsHistory.v`, `PropertiesController.v` | C59 to C64 |
| `ProofsHost*.v`, `PropertiesHost.v` | C50, C70 to C72, C75, C76 |
| `ProofsLocks*.v`, `PropertiesLocks.v` | C73, C74, C78 to C80 |
| `PropertiesPosts.v` | C57 (posts in turn), C62 (the list of a stopped controller) |
| `SpecTiers.v`, `ProofsTiers.v`, `PropertiesTiers.v` | C73, C74, C78 to C80 for handlers and observers which call the API of other devices, ordered by tiers |
| `PropertiesRemote.v` | C77 |
| `PropertiesDevice*.v` | C81 to C88 |
| `ProofsBuild.v`, `PropertiesBuild.v` | C89 |
| `PropertiesFrames.v` | C90 |
| `PropertiesMaps.v` | C91 |
| `ModelNetwork.v`, `PropertiesNetwork.v` | the network around the processes; C92 |
| `RepoTests.v` | the repository's own unit and integration tests, run on the model (tests of the model, not proofs) |
| `ModelTools.v`, `PropertiesTools.v` | the command line tools in bin/; C93 to C96 |
| `PropertiesRequests.v` | C97 |
| `PropertiesDiscovery.v`, `PropertiesDiscovery2.v` | C98; deliveries that are computed, and the search that misses 85 devices |
| `ModelText.v`, `PropertiesText.v` | Display of messages and services; C99 |
| `ModelOwner.v`, `PropertiesOwner.v` | which Arc cells hold which, what Drop runs; C100 |
| `PropertiesInterfaces.v` | C101 |
| `SpecOrder.v`, `ProofsOrder.v`, `PropertiesOrder.v` | what the hash seeds can change: C102 |
| `ModelCalls.v`, `PropertiesCalls.v` | call sequences on messages and properties, PropertyType: C103, C104, C105 |
| `ModelThreads.v`, `SpecThreads.v`, `ProofsThreads*.v`, `PropertiesThreads*.v` | several threads on the same nodes and controllers, statement by statement, with data and panics: C106 to C110, C112 (`SpecProgress.v`), C113 (`SpecWait.v`, `ProofsLetters.v`) |
| `SpecFound.v`, `ProofsFound.v`, `PropertiesFound.v` | the nodes a controller returns, with threads: C114 |
| `ModelClients.v`, `SpecClients.v`, `ProofsClients*.v`, `PropertiesClients.v` | the main functions of the tools in bin/ as threads of the thread model: C115 |
| `SpecShared.v`, `ProofsShared*.v`, `PropertiesShared.v` | a device as a table of values which calls and requests use one at a time; freshness and origin of values with threads: C116 |
| `ProofsLines.v`, `SpecMesh.v`, `ProofsMesh.v`, `PropertiesMesh.v` | several processes with threads on one network, and other hosts; what is read remotely: C117 |
| `ProofsShared4.v`, `ProofsMesh2.v`, `PropertiesMesh2.v` | what is written remotely: C118 |
| `SpecListed.v`, `ProofsListed.v`, `PropertiesListed.v` | what a controller lists about another process: C119 |
| `ProofsListed2.v`, `PropertiesListed2.v` | devices that were there before the start: C120 |
| `ProofsListed3.v`, `PropertiesListed3.v` | devices that were there when a question arrived: C121 |
| `PropertiesRequired.v` | accessors of objects without the property (C24), what a new device tells about its properties (C28), which accesses the standard requires: C123 |
| `ModelAddress.v`, `PropertiesAddress.v` | texts of addresses, servers bound to IPv6 addresses, the interface filters: C124 |
| `ModelDatabase.v`, `PropertiesUserDb.v` | databases extended by the application: C125; the logger: C126 |
| `PropertiesAnnounce.v` | what causes a notification: C127 |
| `PropertiesPorts.v` | open sockets of the machine, sharing of the port, builds without `unix`: C128 |
| `PropertiesGrowth.v` | what received datagrams make of the size of a process: C129 |
| `PropertiesAmplify.v` | number and size of the datagrams sent for one received: C130 |
| `ModelVariants.v` | src/util/oid.rs and the objects made with it in builds without the feature `std` |
| `PropertiesIdentity.v` | identification numbers: C131 |
| `ModelDocs.v` | the request handlers of doc/device_overview.md and doc/device_inside.md, the example of src/controller.rs |
| `PropertiesDocs.v` | devices and controllers written as the documentation shows: C132 |
| `ModelTime.v` | start and stop of the transport with the time they take: sleeps, receives, the work of a receive thread, join |
| `PropertiesTime.v` | how long starting and stopping takes: C133 |
| `PropertiesDatagrams.v` | datagrams that arrive twice or in another order: C134 |
| `PropertiesHeard.v` | answers that reach a controller twice or in another order: C135 |
| `PropertiesSender.v` | the same request from different senders: C136 |
| `PropertiesApart.v` | the objects of a node do not show at one another: C137 |
| `PropertiesPeers.v` | what a controller knows of a node comes from that node: C138 |
| `PropertiesSource.v` | the address a datagram leaves from: C139 |
| `PropertiesRefused.v` | calls that return false: C140 |
| `PropertiesItself.v` | the controller's own node in its list: C141 |
| `PropertiesAdding.v` | the order in which devices are added: C142 |
| `PropertiesSearch.v` | search_object for objects other than the node profile: C143 |
| `PropertiesShown.v` | what a controller shows of remote objects: C144 |
| `PropertiesAgree.v` | two controllers on one network: C145 |
| `PropertiesInstances.v` | requests to instance 0: C146 |
| `PropertiesConfirm.v` | notifications that ask for a confirmation: C147 |
| `PropertiesSizes.v` | sizes and values of data: C148 |
| `PropertiesParts.v` | requests that can be carried out in part: C149 |
| `PropertiesLossy.v` | C150: searches on a network that loses, repeats and reorders datagrams |
| `PropertiesNone.v` | C151: requests without properties |
| `SpecWhole.v`, `PropertiesWhole.v` | requests that write several properties, and answers that carry several: C122 |
| `ModelEq.v`, `PropertiesEq.v` | equality and hash of objects, remote nodes and properties: C111 |

Every `Properties*.v` states the final theorems with one concrete `Example` (or
a refutation with a witness) beside each, and `Print Assumptions`.

## Modelling decisions

* Rust functions become total Gallina functions. A panic is the explicit
  value `Panic`. Slice indexing and slicing are checked and may panic.
* `u8`, `u16`, `u32` and `usize` are `N` or `nat`; casts and shifts are
  explicit. Theorems about byte strings assume every element is below 256.
* Arithmetic overflow depends on the build profile: `overflow_checks = true`
  (debug) panics, `false` (release) wraps. Theorems quantify over both.
* `HashMap` iteration order is arbitrary. A map is an association list; each
  insertion of a new key permutes the list by an oracle. The theorems hold for
  every oracle that permutes.
* Randomness (UUID), OS results (bind, join, send, receive) and user request
  handlers are arbitrary parameters. Handlers are arbitrary state-passing
  functions which may alter the object they are given and may panic.
* Network transmissions and deliveries to receivers are an event list.
* Threads: message handling holds the node lock from beginning to end, so it is
  one atomic step of the sequential model; C106 proves that this is justified.
  Lock contention (`try_lock` failing) and lock-order questions are in the lock
  model and in the thread model.

* Host model (`ModelHost.v`): one step is one API call or one datagram in one
  receive thread, and is atomic. The oracle `free` decides whether a `try_lock`
  succeeds. A panic poisons the mutexes that are held, and ends the thread. One
  host has one node and at most one controller. Observers of users do not touch
  the node. A receive thread that ends while `start` or `stop` is running is not
  considered; `sleep` is skipped; a datagram is sent whole or not at all.
* Network (`ModelNetwork.v`): not part of the code. Any datagram on its way is
  lost or delivered to at most R receive threads of any processes; a delivery is
  one atomic step per receive thread.
* Tools (`ModelTools.v`): the command line to the request, and answers to printed
  lines. `str::parse` for addresses and numbers is an oracle; `hex` is modelled.
  Answers are what the channels give; sleeping and searching are left out.
* Lock model (`ModelLocks.v`): every lock operation, thread start and join of the
  API is one step, for any number of threads and any interleaving. Data is left
  out; what a call locks depends on what is registered, and `start` takes its
  branches at random. Panics, poisoning, the `RwLock` of the sockets (never
  written after `start`), locks inside the standard library, and waiting on the
  receiver of `post_message` are left out. The unicast and multicast servers are
  one list.
* Thread model (`ModelThreads.v`): a step is one statement of one thread. Function
  bodies are sequences of statements on the data behind the mutex they hold, and
  any number of application and receive threads run in any order. Panics unwind
  and poison. `start` spawns receive threads and registers the observers with them,
  `stop` sets their stop flags and joins them. Waiting on the receiver of a post
  (`recv_timeout`) takes the next message from its channel, or gives up at any
  moment. At the beginning no node runs. Left
  out: handlers which take mutexes, and the read lock of a socket around
  `recv_from` (nobody takes the write lock after `bind`). A statement which sends
  goes through all servers in one step. Each node has its own part of the
  outside world (numbering of OS calls, trace).
* Tools as threads (`ModelClients.v`): the main functions are programs of calls of
  the thread model, with the messages and printed lines of `ModelTools.v`.
  `Controller::new` has returned before; the sleep after `search` is any number of
  steps of other threads. A panic of main between calls runs `Drop for Controller`;
  a panic inside a call ends the thread.

## What is not modelled

Texts of `log` output, `Display` of error types, usage texts and error messages of the tools
in `bin/`, the Rust standard library and OS (sockets, `HashMap`, threads) except as oracles (texts of
addresses are modelled in `ModelAddress.v`), what SocketAddr::from_str does behind an opening
bracket (arbitrary there), time except in start and stop of the transport (`ModelTime.v`),
memory exhaustion. Of the builds with other features: the objects of builds without `std`
are in `ModelVariants.v`, their sockets and interfaces (`win`, `esp`) are treated as choices
of the operating system in C128.

## Trusted base

* Coq 8.16.1's kernel (and `vm_compute`).
* `Print Assumptions` of every final theorem: see the end of each
  `Properties*.v`; the output is "Closed under the global context" for all of
  them. The only axioms in the loaded libraries are the interface axioms of
  `Coq.ssr.ssrunder`, which come with the tactics of the standard library; no
  theorem depends on them.
* The transcription of /repo into `Model*.v`, cited line by line, and
  `tools/extract_db.py` for the two tables.

## Plan per property

Status conventions: a property that holds is a theorem `Cxx_*`. A property that
is false of the code is shown as `Cxx_*_refuted` with a witness, together with
the strongest true version as `Cxx_*_partial`.

| Id | Model | Proof |
| --- | --- | --- |
| C01 | codec | induction on property lists; decoder loop = grammar reader |
| C02 | codec | false (encoder writes one list, decoder reads two); refuted by witness, exact partial |
| C03 | codec | false (unchecked OPC of second list); exact iff characterisation of panics |
| C04 | codec + wire grammar spec | both directions by induction on OPC |
| C05 | codec | from C04 and prefix argument |
| C06 | codec | from C01; refuted for 0x5E (panic) |
| C07 | codec | equivalence by list induction; "equal implies same bytes" refuted by 0x6E |
| C08 | codec | bit arithmetic to div/mod, lia |
| C09 | codec | refuted (lists are appended); partial: header and appended suffix |
| C10 | codec | case analysis over 256 octets by computation inside a for-all proof |
| C11 | util/bytes | induction on buffer, both profiles |
| C12 | codec | from C04 (unique reading) |
| C13 | codec | refuted with 256 properties; partial within limits |
| C14 | codec | refuted (no failure result); partial: content of the result on failure |
| C15 | object | bit arithmetic |
| C16 | object | association list lemmas |
| C17 | object | association list lemmas, any oracle |
| C18 | object + map reader spec | permutation invariance |
| C19 | object + map reader spec | refuted for codes >= 0xC0; partial exact for codes < 0xC0 |
| C20 | object | invariant over add sequences |
| C21 | object | permutation-independent clone |
| C22 | property | case analysis |
| C23 | property | via C11; panic refuted in debug for data longer than 4 |
| C24 | super object | refuted for standard_version; partial for others |
| C25 | oid | computation with symbolic bytes |
| C26 | property | induction; description refuted |
| C27-C31 | object + tables | computation over tables lifted to all codes, oracles by permutation lemmas |
| C32-C34 | node profile | invariant over add_object; large counts refuted, duplicates refuted |
| C35 | node + transport | composition |
| C36-C51 | node | case analysis on message_received, list induction, arbitrary handlers |
| C52-C58 | node | invariants over operation histories; refutations by concrete runs |
| C59-C64 | controller | invariants over message histories; composition for C64 |
| C65-C72 | transport | induction on interface lists and OS outcome lists |
| C106-C109 | threads | forward simulation to an atomic machine; induction over lock ranks for progress; ghost numbering of TIDs |
| C110 | threads | invariant: replaying the acts left to the thread inside a node on the observer lists of its receive threads gives the observer lists of its servers |
| C111 | equality | case analysis |
| C112 | threads | well-founded induction on the program of the thread, its statements, and the servers left to the loops of start and stop; other threads do not change the servers of a node somebody is in. Fair executions: a thread that stays where it is for ever waits for a mutex that is never free; excluded for the mutexes of observers, then notifiers, nodes, devices |
| C113 | threads | the simulation also relates the messages in channels; the steps of the atomic machine are reduced to seven kinds, and each statement is an invariant over them; own TID partial, refuted in general |
| C114 | threads | invariant of the atomic machine: every entry comes from a message in the history; addresses only grow; refuted for the latest message by an execution |
| C115 | threads, tools | the events of a thread are a path of its program; induction over nodes, objects and properties; TIDs by an invariant on the posts of a thread that waits after each; refuted for the sender by an execution |
| C116 | threads, device | refinement of the atomic execution of C106 to a machine with one table of values; on the machine, invariants on what each thread is doing and what it may still write |
| C117 | threads, network | statements that send come last in every method, so what is on the wire in any state belongs to the atomic execution; C116 for the device, and the uniqueness of the frame in a datagram for the receiver |
| C118 | threads, network | the execution of the device up to the answer is a prefix of the execution up to the read (forward simulation of two states); the answer leaves with the step that writes, and every later step keeps the value or writes it again |
| C119 | threads, network | C114 gives the message from which the entry was made, the mesh invariant the process and node that sent it, and an invariant of the node that every 0x72/0x73 message it has ever sent carries in 0xD6 nothing but the list of the devices added up to then; refuted for devices with a property 0xD6 of their own (`C119_battery_refuted`): the controller does not check the source object |
| C120 | threads, network | as C119; the operations of the node are split where start is first called: before it the node has no servers and sends nothing, so that every list it ever sent contains what had been added by then; refuted for entries without devices (`C120_announced_refuted`) |
| C121 | threads, network | as C119; every operation that handles a message is dated by its arrival in the history; what returned before the arrival is in the node by then, and an answer carries the TID of its question; refuted for devices added after the question (`C121_told_refuted`) |
| C122 | threads, network | every answer belongs to a moment of the sequential device of C116 (lemma `answered` of C117); induction over the steps of that device keeps any predicate which every event keeps as a whole; refuted for two calls of property() (`C122_calls_refuted`)
| C123 | database | as C29: the first row with a code decides; the rows of all classes are compared with the first ones by computation; refuted in general, exact list of exceptions
| C124 | transport, addresses | decimal numbers are read back by arithmetic; the text of an IPv6 address has more than one colon and no bracket; functions of the transport agree on systems that differ in IPv6 addresses only
| C125 | database | a lookup is the first match in the table followed by the additions
| C126 | logger | invariant over sequences of calls
| C127 | node | case analysis over the operations; the datagrams offered by a message are its one response
| C128 | transport | replay of the calls of a start against the open sockets of the machine; induction over the loops of start
| C129 | host | relation between a process before and after traffic, by induction; octets of a datagram bound the codes of an entry; one machine with many ports by induction |
| C130 | node | one response per message (observe_offered); lengths of encodings; induction over the properties named |
| C131 | object, node, variants | C30 and injectivity for new objects; induction over runs with the handlers that leave objects alone; first rows of the table by computation |
| C132 | docs, node, tools | decision of two handlers as a function of the properties; C40, C41; induction over the loops of the example |
| C133 | time | the clock erased gives ModelTransport.v; induction over servers and over the rounds of a receive thread; witnesses for a late second thread and for a missing timeout |
| C134 | node | one message against the relation of ProofsNode.v, then induction over the list; equal lists of last writes for copies and exchanges; witness for a late copy |
| C135 | controller | induction over the messages from the end; the latest messages as a function, permutations of it |
| C136 | node | the two runs side by side; the answer and the sent octets as functions of the request |
| C137 | node, device | unwinding: steps for other objects keep, steps for the object preserve, the agreement of two nodes on that object |
| C138 | controller | the latest lists of one sender as a function of the messages of that sender |
| C139 | host, operating system | the local address of every send call, the sockets tried in the order of the interfaces; false for hosts with several addresses |
| C140 | node, device, operating system | the state after every call that returns false; what has been sent by then; false for the transaction number, for the group and for start |
| C141 | host, network | an invariant of the list over all histories; C98 applied to the controller itself |
| C142 | node | objects found after any sequence of add_object, permutations; C137 for every later history; C32 for the lists |
| C143 | controller, node, database | the refusal of every such node on the wire and at every controller; a check of the whole standard table for 0xD6 |
| C144 | controller, node, database | all histories of the controller and of the node; the shape of objects is an invariant |
| C145 | controller, node, network | a controller is a function of the last words of the senders; the announcement of a start |
| C146 | node | C36 and C47 at a DEOJ that stands for a class |
| C147 | node | refuted by every object without the notified property; exact answers from the case analysis of message_received |
| C148 | node | refuted for every write with shorter or unlisted data; upper bound by induction over received messages |
| C149 | node | refuted for every request with a property that is not permitted: the contents of the answer from C39 |
| C150 | network | invariant over arbitrary deliveries, searches, API calls that send nothing, and datagrams of strangers: every process has its right entry or what it had; the lemmas of C98 about one datagram |
| C151 | node | the cases of a received request; the loop over the properties asks no handler |
| C73, C74, C78-C80 | locks | lock ranking as invariant of the transition system; reachable deadlock witnesses |
| C75, C76 | host | case analysis on poisoned states |
| C77 | composition | refinement by induction on request sequences |
| C81-C87 | device API | refinement to a map; frame lemma over histories; refutations for all nodes |
| C88 | example lamp | invariant over histories; refutations by concrete runs |
| C89 | all | refinement between the two build profiles, function by function |
| C90 | node | invariant on data lengths over histories; refutations by runs |
| C91 | node | map reader spec on the recomputed copy; frame lemma to the later request |
| C92 | network of hosts | weights of datagrams decrease with every delivery |
| C93, C94 | uechopost | grammar of command lines, fold over the arguments; refutations by runs |
| C95, C96 | uechosearch, uechobench | induction over nodes, objects and properties with a list of questions |
| C97 | node | content relation to frames, TID choice |
| C98 | network | invariant over deliveries: every process has a search under way, an answer under way, or its entry |
| C99 | codec | spelling relation between texts and octets, C01 |
| C100 | ownership | count of pointers to each cell equals the places that hold one; pointers a node holds never go away |
| C101 | transport, host | invariant on the sockets of the servers over all histories |
| C102 | objects, node | relation between two processes with other hash seeds, kept by every call; refuted as equality of octets by two lamps |
| C103 | codec | induction on the calls |
| C104 | property | induction on the calls |
| C105 | property, database | computation over the generated table, lifted to devices; refuted by rows with an empty type |
