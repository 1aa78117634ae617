# Formal model of cybergarage/uecho-py in Rocq (Coq 8.16.1)

## Approach

The model is a shallow embedding: every modelled Python method is a total Gallina
function that follows the source branch by branch.  Python integers are `Z`, byte strings
are `list Z` (theorems carry a `bytes_ok` hypothesis = every element in 0..255, which
Python's `bytes` type guarantees), dictionaries are insertion-ordered association lists,
exceptions are values (`Err e`), and methods with effects return the new state together
with the result *also when they raise* (the mutation done before a raise is visible in
Python and it is visible in the model).  External calls (`socket.sendto`, `bind`,
`gethostbyname`, user handlers, iteration order of a Python `set`) are universally
quantified parameters of the theorems.

* `theories/Py*.v`, `*M.v` : the model, no proofs except what definitions need.
* `theories/Spec*.v` : small independent specifications (wire grammar, map of a history, ...).
* `theories/*P.v` : lemmas.
* `theories/Props*.v` : only the property theorems, non-vacuity examples and `Print Assumptions`.

Naming: `Cnn_...` is the theorem(s) for property `Cnn` of `properties.jsonl`;
`..._refuted` is a machine-checked counterexample to the full statement on the faithful
model (a finding about the code), `..._partial` the strongest part proved.

## Plan per property

| id | model | proof |
|----|-------|-------|
| C01 | `Bytes.from_int/to_int` | induction on size, base-256 digits |
| C02 | `bytes.fromhex`, `.hex().upper()`, `parse_hexstring`, `to_string` | induction on bytes; finite sweep over the 256 bytes |
| C03-C05 | `Message.to_bytes`, `parse_bytes` with offsets as in the code | grammar in a Spec file; induction on property lists |
| C06 | `uecho.Message.__init__` | from C04/C05 |
| C07 | same | refuted (IndexError), exact characterisation of which inputs raise what |
| C08 | same | refuted (stale lists), partial for the lists the ESV carries and for new objects |
| C09 | `__eq__` | from C03/C04 |
| C10 | `ESV` predicates on all of Z | case analysis |
| C11-C13 | `Object.set_code/is_code`, setters, `Database.get_object` | bit arithmetic on Z |
| C14 | property dict | refinement to a map, induction on histories |
| C15-C17 | `SuperObject._update_property_map_properties`, `property_map_codes` | for every set iteration order; format 2 refuted |
| C18-C26 | `Object.message_received` with an arbitrary handler | induction on property lists |
| C27, C28 | histories of `message_received` with the built-in handlers | invariant |
| C29-C37 | `Node`, `LocalNode`, `NodeProfile` | invariants over histories of `add_object` |
| C38, C39 | `Manager.__next_TID` sequential; small-step interleaving of threads | arithmetic mod 65535; counterexample schedule |
| C40, C41 | `Server.run` as a fold over datagrams | induction; refuted by malformed / long datagrams |
| C42-C44, C60 | `Subject`, `Manager.start/stop`, `LocalNode.start/stop` | induction on call sequences |
| C45-C50, C61 | `RemoteNode`, `Controller` | induction on histories |
| C51-C54 | `post_message` / receiver as interleaved small steps | invariant over all schedules; counterexample schedules |
| C55, C47 | composition controller/encoder/parser/node | symbolic execution with the lemmas above |
| C56-C58 | database tables transcribed from the text of `/repo/uecho/std` | for all codes; finite sweep over the table |
| C59, C62-C65 | methods as named in the property | case analysis / induction |
| C67 | sequences of `transact` | refinement to a table of data and permissions |
| C68 | networks of nodes with an adversarial transport | only requests are answered, answers are not requests |
| C69, C70 | all calls of a node as one transition system | invariant on the trace of system calls |
| C71 | `set_property_string` with `str.encode` | every code point against RFC 3629 |
| C72 | the example light on top of `Object.message_received` | refinement to a small automaton |
| C73, C74 | the messages built by `bin/uechopost.py` and `bin/uechosearch.py` | induction on the arguments; database tables |
| C75 | all calls of a node as one transition system | invariant on the node profile |
| C76 | the table of found nodes as interleaved small steps | invariant over all schedules; counterexample schedule |
| C77 | list iteration with callbacks that change the list | induction on the rounds; counterexamples |
| C78 | `Object.message_received` as interleaved small steps | invariant over all schedules; linearisation; counterexample schedules |
| C79 | a controller and any number of nodes with a transport that loses, repeats and reorders | invariant over all schedules, from C37, C45, C46 and C75 |
| C80 | objects and properties as references on a heap | simulation: the heap run and the value run of every program that shares no property |
| C81 | the reading loop of `uechobench.py` and `uechosearch.py` on the network of C55 | induction on the properties, with the three orders of arrival |
| C82 | any number of controllers and one device, with delays, losses and overtaking | simulation by a store with numbered calls; invariant of that reference |
| C83-C85 | the read-only objects and `Manager.notify` | the standard tables; C28 and C43 |
| C88 | the example light on the network of C55 | induction on the list of writes, from C72 and C55 |
| C89-C91 | `LocalNode.message_received`, `add_object` and `set_property_data` as interleaved small steps | projection to one object; invariants over the calls begun and returned; counterexample schedules for every node |
| C92 | the same model; application threads calling `set_property_data` | the history of an object (stores of the application, writes asked) determines its data; every read is dated by the schedule |
| C93 | the classes of `messages.py` and the three methods that add properties | induction on the additions, with C03 and C04 |
| C94 | nodes and objects as references: shared objects, repeated additions, changed codes | invariant that describes tables, objects and profiles by the history of operations |
| C95 | the network of C82 that also repeats datagrams | simulation as in C82; repeated reads are removed from the order, repeated writes commute or are refuted |
| C96 | the steps of C50-C53 where a thread that handles a message may call post_message first | invariants over all interleavings; counterexamples |
| C97 | the network of C82 with several devices | simulation by a reference with one store per device; invariants of the reference |
| C98 | `message_received` with observers and handlers that are programs over the node | a relation for what callbacks did; simulation by the model of C30 when they do nothing |
| C99 | `start` and `stop` step by step with receiving threads | invariants for any number of threads; for one thread the list of servers by program point; concrete interleavings for the findings |
| C100 | traces of `post_message` with a function from answers to the requests they answer | identifiers of message objects are distinct (invariant of `PostM`), with C51 |
| C101 | byte arrays, properties and messages as references against a semantics of values | simulation step by step; concrete programs in every state for the findings |
| C102 | the device of `doc/device_overview.md` as a register of bytes with an exact answer function | induction on the properties of a message and on histories |
| C103 | observers as functions that return the message they leave, with a state of their own | induction on the observers; comparison with the run without observers for a network that does not see callbacks |
| C104 | handlers with a memory of all questions; the questions of a history of messages | induction over the properties and the messages; bridge to the handlers of the other claims |
| C105 | what was heard from an address since its last instance list; the data of the objects of a found node after a history | induction over the messages, from the step lemma of C46-C48 |
| C106 | references between the program, nodes, servers and threads; steps of a program and of the collector | induction over the steps with an invariant on ownership of servers and on what was finalised |
| C107 | a register of all additions with the codes of that moment; the present codes | simulation of the heap by the register; exact answers by induction over the request |
| C108 | reachability in the graph of instances; isomorphism onto the new instances | invariant of the memo during the traversal; kinds and attributes of all graphs that programs make |
| C109 | the observers of the addressed object of the initial state; a relation for the servers that have ended | observers and table keys are kept by every step; induction on messages and datagrams |
| C110 | what the bytes say about each field, by positions and the layout of blocks; the last that says anything | case analysis on the length, then the stream form of the parser |
| C111 | lines as fields filled with blanks; the records of a trace | a name ends at the first blank or colon; induction over datagrams |
| C112 | lines as pieces, numbers by their digits | digits determine a number, a field ends at the first blank; the loops use up the answers in order |
| C113 | contents of devices as in C74, the network of C79 | hearing a call twice is hearing it once (`after_again`, `reply_again`); induction on the schedule with one invariant for each device |
| C114 | a list of networks, one for each search; a view with the answers and the last one heard from each address | the invariant of C79 for any table, then induction on the searches; a step for step simulation of the view |
| C115 | searches as in C79, then the network and the reference of C97 | the invariants of C113 and C114 for each search give the assumptions of C97 |
| C116 | the last of the values given that is a tuple of two items | induction on the calls |
| C117 | one relation per kind of question, on the handler and the property table only (`SpecUser`) | induction on the properties of the request |
| C36, C44, C50, C61, C62 | (exact outcomes) the message that raises, the servers left behind, the first node with one of two addresses (`SpecOutc`) | from the lemmas of the claims, by cases |
| C15, C16, C32, C43, C59, C60, C73, C84 | (exact outcomes) the observers added since the last start (`SpecBits`), the low codes of a bitmap (`SpecExact`) | from the lemmas of the claims; bits of the encoder; invariant over registrations |
| C118 | the last row of the tables for the class or the super class, and a fold over what was done with the object (`SpecName`, `SpecLbl`) | invariant: every property that the table of the object names is described; the tables are computed |
| C119 | what lamp and line must show for the first byte of the status; workers in the middle of switching (`SpecLamp`) | invariant of the loops over the questions asked so far; invariant of interleavings without overlap |
| C120 | the documented destinations with the address they name; what else is taken for an address (`SpecDest`) | equality with the model of well-formed destinations; induction over the servers |
| C121 | the last addition, registration and address in the history of a program (`SpecLink`) | the references are what the history says, by induction over the operations; what an announcement makes, by induction over codes and properties |
| C122 | the lines themselves, and the store of C67 with one property replaced (`SpecGuide`) | lines with blanks at the end are objects, so that blocks can be told apart; C46 for the nodes, C67 for the request |
| C123 | a switch with two states and a status (`SpecPair`) | a device whose server has ended prints nothing and stores nothing; C102 for the device, C122 for the controller |
| C124 | the frame on the wire, the object of the sender in the table of each controller (`SpecNews`) | nodes as in C79; what a controller records is said with `records` of C48; delivered in any order, any number of times or not at all |
| C125 | a list of sites; any controller searches at any time; any datagram any site has sent goes to any site it is meant for (`SpecCrowd`) | sites and `depicts` as in C79; the datagrams on the network are those in the traces of the sites, each may be delivered at any later time, any number of times or never |
| C126 | the reference store of C67, with 0EF001 as the source of the answers (`solo_replies`) | a controller that is its own peer (`SpecSolo.solo_post`: the request goes to its own address, arrives at one of its servers, and so does what it sends to itself); networks as in C125 before |
| C127 | one reference store of C67 for each site and the last TID of each (`parley_says`, `stores_run`) | a list of sites; a call is one step: request, delivery any number of times at any server of the called site, delivery of each answer any number of times at any server of the caller (`SpecParley.parley_call`); networks as in C125 before |
| C86, C87 | `Manager.stop`, `send_message`, `announce_message` and the receiving loops as interleaved small steps | invariant and a measure that every round decreases; counterexample schedules |

Not expressible: real time (the 2.0 s timeout is an always-possible event), kernel socket
buffers, `__del__` order, Python's memory model below the granularity chosen in the
small-step models.

## Trusted base

* The kernel of Coq 8.16.1 (and `coqchk`, which re-checks the compiled files).  `vm_compute` is
  used in examples and in finite sweeps (bytes, database tables), so the bytecode
  evaluator of the kernel is part of it; `native_compute` is not used.
* `Print Assumptions` follows every theorem in the `Props*.v` files and prints
  `Closed under the global context` for each of them: no axiom, neither ours nor of the
  standard library, is used by any theorem.  `coqchk` additionally lists seven constants
  `Coq.ssr.ssrunder.Under_rel.*`; they are opaque module-type members of the standard library that are
  loaded with it, and no theorem depends on them.
* No axioms, no `Admitted`, no functor or module type, no section variables left open, no
  disabled kernel check, no OCaml plugin.
* That the definitions in `*M.v` say what the Python text says.  Each carries the file and the lines it
  transcribes.  `DbData.v` (the tables of `uecho/std/objects_scsl.py`, `objects_mra.py`,
  `manufacturers.py`) and `NameData.v` (names, types and sizes in the same tables) were produced by scripts
  from the text of those files.
* That the `Spec*.v` files say what the property says.  They do not use
  helper functions of the model, except the types of its data.

## What is modelled

| source | model | what is covered |
|--------|-------|-----------------|
| `uecho/util/bytes.py`, `hex.py` | `BytesM` | all; `bytes.fromhex` is modelled for `str` arguments |
| `uecho/protocol/esv.py`, `uecho/esv.py` | `EsvM` | all |
| `uecho/protocol/property.py`, `message.py`, `uecho/message.py`, `messages.py` | `MsgM` | all |
| `uecho/property.py` | `PropM`, `CtrlM` | attributes, predicates, `number`, `property_map_codes`, `send_message`, `post_message` |
| `uecho/object.py`, `super_object.py` | `ObjM`, `CtrlM` | all but `__del__` |
| `uecho/std/*`, `manufacturer.py`, `profile.py`, `device.py`, `node_profile.py` | `DbData`, `DbM` | all, with the complete tables |
| `uecho/node.py`, `uecho/frame/*`, `protocol/subject.py`, `protocol/observer.py` | `NodeM`, `CtrlM` | all but the text of log lines (`LogM`) and `__del__` |
| `uecho/local_node.py` | `LocalM` | all |
| `uecho/remote_node.py`, `controller.py` | `CtrlM` | all, `post_message` as the part before the wait and the part after it |
| `frame/manager.py:35-39` with several threads | `TidM` | each line is a load and a store; every interleaving |
| `controller.py:195-205` and `277-303` with several threads | `PostM` | calls, receivers, condition variable, time-out; every interleaving |
| `controller.py:97-107`, `134-153`, `239-251` with several threads | `FoundM` | every access to the table is a step, with CPython's check of the size during iteration |
| `controller.py:223-237`, `subject.py:46-54` with callbacks that change the list | `ListenM` | CPython's list iterator |
| `object.py:330-436` with several threads | `ServeM` | one step per property of a request; built-in handlers |
| object and property instances, `copy.deepcopy`, the database's objects as references | `HeapM` | constructors, `copy`, `add_property`, data and attributes, map updates, `message_received` with built-in handlers |
| `object.py:254-255` | `TextM` | `set_property_string` and `str.encode('utf-8')` |
| `examples/device/monolight/monolight.py` | `MonoM` | all but the GUI and the main program |
| `bin/uechopost.py`, `bin/uechosearch.py` | `ToolM` | the message built from the arguments; the list of properties read |
| `bin/uechobench.py:55-84`, `bin/uechosearch.py:66-92` | `BenchM` | the loop of requests; printing, timing and the manufacturer line left out |
| `frame/manager.py:63-79` and `111-115`, `server.py:53-72` and `100-110`, `unicast_server.py:37-60` with several threads | `StopM` | every access to `self.sock` is a step; what the observers do is one of: nothing, raise, send, stop |
| `local_node.py:41-44, 81-104`, `node.py:55, 62-63`, `node_profile.py:96-150`, `super_object.py:46-97` with several threads | `RunM` | user calls `add_object` and `set_property_data`, and requests to objects with built-in handlers, interleaved |
| `node.py:52-64`, `local_node.py:41-44, 86-93`, `object.py` code setters, with objects as references | `RefM` | add_object, changes of codes, stores, requests up to the answer |
| `controller.py:185-205` called inside `controller.py:278-296` | `NestM` | the steps of `PostM`; one call at a time in a callback |
| `local_node.py:81-104`, `object.py:330-436` with callbacks that use the node | `CbM` | programs that get and put property data, announce, send, raise and keep a state |
| `local_node.py:67-75`, `manager.py:41-57,81-115`, `server.py:53-72,94-110` interleaved | `StartM` | `Server.stop` is a close step and a join step; a callback is one step; the same interfaces at every start; list objects have identity |
| byte arrays, `Property.data`, `Message.properties` as references | `BufM` | storing, getting, receiving, recording, copying, adding and sending; codes and access rights left out |
| `doc/device_overview.md:57-75` (`MyDevice`), `doc/device_inside.md:42-54` | `DocM` | all |
| `Subject.notify`, `Object.message_received`, `LocalNode.message_received`, `Controller.message_received`, `Server.run` with observers that change the message | `EditM` | changes while the observer is told; not changes made later through a kept reference |
| `Object.message_received` with a handler that remembers every question | `AskM` | same loops as `ObjM` (C104_same) |
| `LocalNode.__del__`, `Controller.__del__`, `Manager.__del__`, `Server.__del__`, `UnicastServer.__del__`, `MulticastServer.__del__` with `start` and `stop` | `GcM` | a node is one with its manager; bind succeeds or raises as an oracle says; collections are steps that finalise unreachable objects |
| assignment to `Property.code`, with `add_property`, the handlers, the maps and `copy` | `KeyM` | on the heap of `HeapM`; built-in handlers |
| `Property.copy`, `Object.copy`, the constructors that copy, on instances attached to nodes, servers, controllers, handlers, observers | `CopyM` | a graph of instances with named references; map contents, names and rights are left to `HeapM` |
| `uecho/log/*`, the log lines of `frame/server.py` and `frame/unicast_server.py` | `LogM` | levels and format of the module logging as far as used; the clock is a parameter; the records of what callbacks send are derived from the trace; other handlers of the application are left out |
| `bin/uechopost.py`, `bin/uechosearch.py`, `bin/uechobench.py`, what they print | `OutM` | negative numbers left out of `%X`; the names of properties are a parameter; the answers with -v come from `BenchM` |
| `super_object.py:112-117`, `frame/manager.py:59-61`, `util/hex.py:21-24` | `RestM` | all |
| `test/*.py` | `RepoTests` | every test of the repository, run on the model with the same inputs and expected values |
| a controller and a device on one network | `SpecEnd` (`transact`) | each datagram sent by one node goes through the receiving loop of the other |
| several controllers and a device on one network | `SpecMany` (`net_step`), `SpecAgain` (`net_step2`) | every event (call, arrival, loss, return; in `SpecAgain` also the copy of a datagram) is a step; every sequence of events |
| several controllers and several devices on one network | `SpecMulti` (`mnet_step`) | as in `SpecMany`; a datagram reaches the devices that have its destination address |
| requests to the group and a network of devices | `SpecGroup` on `SpecDisc` | the devices do not send to each other |
| several searches on networks that change | `SpecSeek`, `SpecField` on `SpecDisc` | the nodes do not send to the controller of their own accord |
| searches of several controllers, then any calls | `SpecMeet` on `SpecDisc` and `SpecMulti` | the controllers search one after the other, and the search of one is not delivered to the others |
| addresses of any Python values, node.py:25-50 | `AddrM` | a tuple, a string, a number, or anything else |
| names, types and sizes of properties and names of objects: std/object.py, std/reader.py, property.py, the tables, and the lines that the tools print | `NameM`, `NameData` | a description beside the property table of each object; `None` where the attribute is not set |
| the lamp and the output of the example light, monolight-sense.py:38-68, 80-86, alone and with several threads | `LampM` | the lamp driver works or raises, an arbitrary function of the number of calls; a request is four steps |
| destinations of any kind, controller.py:134-177, 185-205, local_node.py:52-53, frame/manager.py:71-79, frame/unicast_server.py:49-60 | `DestM` | values as in `AddrM`; which other values are byte strings is an arbitrary function; the order of the checks of `sendto` is that of CPython |
| references from properties to objects, nodes and controllers, property.py:55-58, 102-125, object.py:91-98, 222-227, 269-328, node.py:25-58, remote_node.py:30-58, controller.py:223-251, 289-292 | `LinkM` | instances are numbers; the property codes of standard objects are an arbitrary function; hosts of found nodes are strings; a listener is a list of requests |
| the controller program of the documentation, doc/controller_overview.md:42-86 | `GuideM` | the placeholders of the text are parameters; the answers to `send_message` are not looked at |
| several posts of that program to one node | `PairM` | the node is the one the program has taken from `ctrl.nodes`; the device is any running node with the light of `DocM` |

Not modelled: the re-exporting
`__init__.py` files, `argparse`, `ast.literal_eval`, usage texts and GUI code of `bin/` and
`examples/`, the rest of `doc/`, the perl scripts `uecho/std/*.pl` that generate the
tables of `uecho.std` (their inputs are not in the repository), and `__del__` methods outside `GcM` (those of `Object` and `StandardObject` do nothing).

## Where the model is simpler than the code

* Objects are values (in all models but `HeapM`, where objects and properties are references;
  C80 proves that for programs that add no property twice and do not write to the database's
  objects both give the same results; and in `RunM` and `RefM`, where nodes refer to objects).  Two
  nodes sharing one `Object`, one `Property` added to two objects, or a byte array changed after it
  was stored (`BufM`) are not represented elsewhere.  `Object.node`,
  `Property.object`, `RemoteNode.controller` (references back) are represented
  by the argument of the function that follows them.
* The code of an object is not changed after the object was added to a node (except in `RefM`), nor the code
  of a property after it was added to an object (except in `KeyM`).
* `Property.name`, `size` and `reader.Property.typ` are kept only in `NameM` (with the tables of `NameData`);
  `anno_status` is not kept.
* `copy.deepcopy` always succeeds, except in `CopyM` (it fails on an object of a started node, because
  threads and locks cannot be copied).
* Starting a thread succeeds.  `stop` is not called from the thread of a server, except in `StopM`.
* In `StopM` a blocked `recvfrom` wakes up when the socket is shut down (a property of the kernel).
* Listeners, observers and request handlers may answer anything, change the object they
  are asked about and (observers, handlers) raise; they do not call the node's methods
  (callbacks that add or remove listeners: `ListenM`; that call `post_message`: `NestM`;
  that store data, announce and send: `CbM`).
* The module-level tables of `uecho.std` are constants: nobody assigns to them (C80 proves that
  the library itself does not).
* `HeapM`: `copy.deepcopy` copies a property, the object it refers to and that object's
  properties; further objects reachable from these are not copied (nothing reads such copies).
* `set` enumeration is an arbitrary function that gives a permutation of the distinct elements
  (`PySet`); every theorem about maps holds for every such function.
* `random.randint` is an arbitrary list of bytes in its range.
* Sockets: `bind`, `sendto`, `gethostbyname`, the interface list are arbitrary
  functions of their arguments and of a counter of calls; datagrams received are arbitrary byte
  strings cut to 1024 bytes, as `recvfrom(1024)` does.
* `PostM`: assignment of the TID is one step, sending is one step whose outcome the schedule
  chooses, lines 278-296 of `message_received` are one step that may raise, reads and
  writes of `__last_post_msg`, its fields and the condition variable are single steps.
* `FoundM`: the listeners are called in one step.  `ServeM`: the handler is a built-in one, whose
  answers depend on attributes nobody changes; the objects' observers are left out.
* `RunM`: the steps are the table store, the creation of the loop's iterator, each round of the loop, each
  store into the profile and each property of a request; reads of codes and attributes, which nobody changes, are
  part of the step that uses them.  `RuntimeError` is raised exactly when the size of the table has changed since
  the iterator was made (CPython).
* `transact` (C55): two nodes, no loss, datagrams delivered in order, handled one at a time.

## Findings

Behaviour of the code that contradicts the claim of a property; each has a machine-checked
witness (`..._refuted`) in the model.

| property | finding |
|----------|---------|
| C07 | a frame cut inside the header or before a PDC raises `IndexError`, not `ParserError` |
| C08 | parsing into a used `Message` keeps the property lists the new ESV does not carry |
| C12 | `group_code`, `class_code`, `instance_code` setters OR the bits in |
| C13 | `set_code(Object)` sets the code and returns `False`; `Database.get_object(Object)` is `None` |
| C15-C17, C56 | format 2 maps: bits masked with `0x0F` lose codes from `0xC0`; the count byte is always 16 |
| C22, C62 | a write-read request naming an unknown property in its read part raises `AttributeError` |
| C23 | a refused `0x61` is answered with `0x50` |
| C24, C25 | `0x63` with properties is always refused, `0x74` with properties never acknowledged |
| C32 | a response to TID 0 is sent with a fresh TID |
| C33 | `_is_self_message` is never true, so the option has no effect |
| C35-C37 | counts wrap at 256 devices; class counts count objects; with 85 or more devices the list cannot be sent |
| C39 | `__next_TID` is not atomic: duplicate and out-of-range TIDs |
| C40, C41 | one malformed or long datagram, or a raising observer, ends the receiving thread for good |
| C42 | `add_observer(None)` is accepted (the test is on the builtin `object`) |
| C43 | observers are lost at every `start` |
| C44 | `start` leaves servers running when `bind` raises |
| C45, C50, C55 | `D5`/`D6` without data raises `IndexError` in the controller's receiver |
| C48, C50 | received values are recorded by DEOJ; a message from an unknown node raises |
| C49 | `node_updated` is never called; `node_add` is called for updates, and before the node is stored |
| C51-C54 | responses are matched by TID only, through one shared cell; late, early and foreign responses are returned; a wake-up can be lost |
| C67 | a write-read of an unknown property ends the receiving thread: the device answers no later call |
| C57 | conditional access rules (`required_c`, `required_o`) count as prohibited |
| C59 | a device hosted by a Controller answers with the SEOJ of the node profile |
| C60 | `LocalNode.start` ignores its list of interfaces |
| C61 | `get_node` raises when host name resolution fails, also for an IP string of another node |
| C70 | a node does not announce itself when it starts |
| C72 | the light checks the length of the old data: one write `30 00` makes it unswitchable; an empty write raises |
| C73 | `uechopost` reads `(80,0x30)` as `48`; write-read requests are sent empty |
| C76 | `get_node` and `nodes` raise `RuntimeError` when a node with a new address is stored meanwhile; in a receiver that ends its thread |
| C77 | a listener that removes itself makes the loop skip the next listener |
| C78 | requests of several properties received at the same time interleave: half old, half new data are read or left |
| C79 | a node with 85 devices or more does not answer a search and is never found |
| C80 | a property added to two objects is shared; writing to an object returned by `Database.get_object` changes every standard object created later |
| C81 | a device with an empty readable D5 or D6 stops the receiving thread of the tools: nothing after it is shown |
| C86 | `stop()` in a callback raises `RuntimeError` and leaves the later servers running; two callbacks that stop the node wait for each other forever |
| C87 | a message sent while another thread stops the node raises `AttributeError` or `OSError` |
| C90 | a request answered while a device is added gets the new device count with the old device list |
| C91 | of two devices added at the same time one can be missing from the profile although both calls return `True`; or one call raises `RuntimeError` |
| C93 | a property added with the wrong method (`add_property` on a `WriteReadRequest`) is reported as added and not sent |
| C95 | a repeated write request is done again and undoes a later accepted write |
| C96 | a call of `post_message` in a callback of the only thread that receives never gets a response; a call in a callback makes the call whose response is being handled return another response, or None |
| C98 | a write handler that announces its property announces the data before the write |
| C99 | messages that arrive during `start` are lost; a `start` that raises leaves servers running; concurrent `start`/`stop` calls double the servers, leave half of them, or leave servers that nothing can close |
| C100 | a message object that is posted again keeps its TID, so a late answer to its first sending is returned for the second; an announcement with the same TID is returned as the answer |
| C101 | byte arrays are shared: changing one after storing it, or one got from a property, changes the property; the response that `post_message` returned shares its data with the controller's record; a message shares the `Property` objects added to it |
| C102 | the documented device tests the length of the stored data: as documented it refuses every write; after a write of two bytes too; a write without data, or a write-read request of an unknown property, raises |
| C103 | an observer of an object that assigns to the message changes what is stored, and the TID and the destination of the answer |
| C104 | a write-read request asks the handler about None for a property the object does not have |
| C105 | each instance list makes a controller forget every other value it recorded of that node; values of devices are never recorded |
| C106 | a started node that the program drops is never finalised; a finaliser that runs in one of the threads of a node whose start failed leaves the later servers running |
| C107 | assigning to `Property.code` after an addition: the rights of another property decide, the property is refused under both codes, the maps name a code that is not found |
| C108 | `TypeError` from copies of properties of started nodes, controllers and found nodes; a database object in a started node makes its class unusable |
| C109 | observers of objects are told of the node's own messages, of messages that are no requests and of requests for unknown properties |
| C110 | a byte string that is refused has already changed the message |
| C111 | datagrams that are no frames, bytes after a frame and failing sockets are not in the log |
| C112 | uechopost prints answers to write-and-read requests without their properties |
| C113 | one request to the group to write and read a property that devices do not have ends a server of each of them |
| C114 | a node that has left the network stays in the table of found nodes; a late answer to an earlier search brings back the old devices of a node |
| C115 | (outside the claim) reading from a node by address before an answer to a search was heard returns nothing and ends the server |
| C116 | `Node.port` is 3610 for every node with an address, whatever the port of the address is; a tuple of any two items is an address |
| C117 | (outside the claim) a handler that allows reading None makes a write-read request raise AttributeError |
| C119 | `MonoLight.on` and `off` set status and lamp in two steps without a lock: two servers can leave them apart; `MonoLightNode.stop` switches off before it stops the servers, so that a request can switch on again; a lamp driver that raises leaves the new status with the old lamp |
| C120 | a pair that is no address raises AttributeError, TypeError or OverflowError instead of being refused; a node without an address is sent to ("", 0); `get_node(())` raises IndexError once a node is known |
| C121 | `_add_found_node` tells the listeners before it sets `node.controller` and the table: a listener that sends to the new node raises AttributeError and the node is not recorded, so that it is never found; objects and properties that belong to no found node raise AttributeError; an object added to a second node is still in the table of the first, but is used through the second |
| C122 | the documented program posts a write without response (0x60): if the device stores the data, `post_message` waits its time and returns None, and nothing is printed; only a refusal is |
| C123 | the two documented programs do not work together: the device starts with an empty status and refuses every write; with a status, one write without data ends the thread of its server |
| C124 | an announced value is recorded on the node profile of the device, never on the object it comes from (the status of a lamp becomes the status of its node); announced to another object, or by a device not found yet, it ends the thread of each server of a controller that hears it |
| C126 | what a controller reads from its own objects comes from the node profile: the answer names 0EF001, and the table of found nodes shows the value on the node profile |
| C127 | an object of another controller answers as node profile 0EF001, and the caller records its values on the node profile |
| C82 | TIDs return after 65535 calls: an answer delayed that long is returned for a call it does not answer |
| C97 | for the same reason a call to one device can return what another device answered |
| C94 | after `set_code` on an added object the node's profile lists a code the node does not answer to; adding the object again lists it twice |
| C65 | `Object.send_message(0x6E, ...)` sends no properties |

## Mutation testing

`seeded/LOG.jsonl` records every wrong program tried: the definition of the model that was edited, the edit, the
claim it makes false, the theorems that no longer hold (their proof depends on
a lemma that fails), and the theorems that were tightened because of it.
