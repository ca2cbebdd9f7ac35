# Design: a Rocq model of switchyard

The source at `/repo` (jsommers/switchyard, pinned commit) was read as text and
transcribed by hand into Gallina. Nothing is extracted from or executed against the Python.

## Conventions

* **Model files** `*Model.v` contain only definitions. Every definition carries a comment with
  the file and lines it transcribes. Python functions become total functions; an exception is
  a value (`Err e`, `e : exn`), so "raises" is observable. Branches follow the Python order.
* **Bytes** are `list Z`; `wfb b` says every element is in `0..255`. Python integers are `Z`.
* **struct.pack / struct.unpack** are modelled by one interpreter of format lists
  (`Base.v: pack, unpack`) covering `B H I Q ns nx` in network order, with Python's behaviour
  (range errors raise, `ns` truncates or zero pads, `unpack` requires the exact length).
* **Loops** whose termination is in question run on explicit fuel and return the distinct
  error `EFuel` when it runs out. A theorem never treats `EFuel` as a Python result; non-termination
  is stated as "`EFuel` for every amount of fuel".
* **Objects** are records; a method which mutates returns the new record. Aliasing between
  Python objects is not modelled except where a property is about it.
* **Specifications** are in `*Spec.v` or at the top of `*Props.v`, written without the model's helpers
  (RFC bit layouts, list and arithmetic facts).
* **Property files** `*Props.v` hold the theorems named in `MANIFEST.json`, each with an English
  comment, a concrete example satisfying its hypotheses, and `Print Assumptions`.
* A property false of the faithful model has a theorem `..._refuted` with a witness, and a theorem
  `..._partial` for the part which does hold.

## Trusted base

* Coq 8.16.1's kernel. No axioms: `Print Assumptions` after every property theorem reports
  "Closed under the global context" (exceptions, if any, are listed at the end of this file).
* The hand transcription, i.e. that each definition says what the cited Python lines do, including the
  modelled behaviour of CPython's `struct`, `enum.IntEnum`, `ipaddress`, `queue.Queue`, lists, dicts and slices.

## Plan per property

| Property | What is modelled | How it is proved |
|---|---|---|
| C01-C03 | `checksum` (common.py) over byte lists | word-list induction; arithmetic modulo 65535 against a big-endian RFC 1071 specification |
| C04-C06 | `EthAddr` construction, printing, comparison | finite sweep over bytes lifted to lists; lexicographic order = numeric order |
| C07-C12, C16 | header codecs Ethernet, Vlan, ARP, UDP, TCP, IPv4, IPv6 | generic pack/unpack inversion lemma plus bit-field lemmas |
| C13, C14 | IPv4 option classes and list loop with fuel | induction on the option list; a witness that loops for every fuel |
| C15 | setters of IPv4 | bit lemmas; refutation witness for `ecn` |
| C17 | IPv6 extension headers and TLV options | induction on the option list, per-class refutations where the code is wrong |
| C18, C19 | ICMP state (type, code, data) and data codecs | invariant over all setter sequences; codec inversion; checksum theorem |
| C20, C21 | ICMPv6 codecs and option loop | as C19; loop witness |
| C22 | RIPv2 | list induction |
| C23-C27 | Packet container over a sum type of headers | fold over the header list; composition of header theorems |
| C28 | all codecs | case analysis on length |
| C29 | util.py helpers | computation on symbolic addresses |
| C30-C36 | testing.py matcher, events, scenario, saving; llnettest.py recv/send/run_tests; user programs as trees of calls with an alarm between calls (TestModel.v, spec TestSpec.v). Simplified: packets are values, the reference is not kept updated (serialising is idempotent, C25), message texts (but exceptions raised while formatting them are kept: router advertisements and home address options do not print), copyfromlastout, wildcard validation and `eval` of predicate strings left out | induction over histories, call sequences and program runs; bisimulation for loaded scenarios; witnesses for the refutations |
| C37-C39, C73 | socketemu.py sockets, registry and queues (SockModel.v, spec SockSpec.v); every call is a sequence of atomic actions, split where the code releases its lock; calls in progress are part of the state. netstat's answer, the random port drawn and firewall success are arguments of the action. The port check of bind and its address change are one action, or two when another thread's socket is opened or closed during the scan (then the scan raises). A receive that would wait is modelled by its timeout; recv_wait gives the time. | C37, C39: invariant (registry = open sockets, keys unique, ports distinct) over lists of calls; C38: invariant over lists of interleaved actions; C73 directly; refutations by computed histories |
| C40, C41, C74 | llnetreal.py capture threads, queue, recv_packet, shutdown, signal handler as an interleaving transition system (LiveModel.v, spec LiveSpec.v); decoding is the packet model. Simplified: pcap is a stream of frames, thread statistics and logging left out | invariant over all schedules |
| C42, C43, C71, C72 | llnetbase.py, interface.py, device selection, scenario interfaces (NetModel.v over the dict model Dict.v) | list induction, set membership; refutation witnesses |
| C44, C45 | hostfirewall.py rule parser, Linux and macOS command lists, block/unblock (FwModel.v). Simplified: commands are structural rather than shell text; what iptables, sysctl and pf do with a command is a stated assumption (FwSpec.v); ASCII rule text | string case analysis; save/restore over an abstract host state, induction over interfaces |
| C46, C47, C75, C76 | topobuild.py nodes, links, addresses, numbering, prefixing, union, save/load (TopoModel.v over Dict.v, spec TopoSpec.v). Simplified: networkx graph = insertion-ordered node dict plus undirected edge list with attribute dicts; saved text is structural instead of JSON text; capacity/delay unit text is an already parsed number; link label text left out; node objects shared by a union are copied here (shared in UnionModel.v); the class-wide interface counter is not kept | an invariant `Inv` (names unique, edges separated, each end has an interface, interface per link) preserved by every operation, induction over operation sequences; sorted flat list of ends for numbering; refutation witnesses |
| C48, C49 | openflow10.py: every message class, match, action, port and queue codec, the list loops | canonical form of each value, list induction; fuel bounded by the bytes left; refutation witnesses |
| C77 | the same codecs against the layouts of OfLayout.v | each pack format expanded to the published concatenation; refutation witnesses |
| C78 | getters, setters and keyword constructors of Ethernet, Vlan, Arp, IPv4, IPv6, UDP, TCP (FieldModel.v, spec FieldSpec.v). Simplified: values of the wrong Python type are outside the claims; IP addresses are given packed | case analysis over attribute pairs, bit lemmas; induction over the keyword list; refutation witnesses |
| C50, C51, C79-C83 | ofswitch.py packet buffer, TableEntry, FlowTable, ControllerConnection, action processing; OpenflowMatch.matches_packet/build_from_packet/matches_entry/overlaps_with of openflow10.py (SwModel.v, spec SwSpec.v). Names the module fails to import raise NameError; a flag `g` gives the same code with those names imported. Callbacks of FlowTable are no-ops; clock readings are arguments; socket timeouts inside the receive loop are left out | invariants over histories, induction over the match table, bit lemmas, segmentation induction; refutation witnesses |
| C52, C84 | heapq's array algorithm, linkem.py loop, nodeexec.py send/receive and the links of cli.py (LinkModel.v, spec LinkSpec.v). Simplified: times are rationals, each clock reading is an input; packets are passed by value; monitors and user code left out | heap invariant (HeapProofs.v), then invariants over all schedules; refutation witnesses |
| C55 | IPv4 flags and offset field | refutation witness; accepted values characterised |
| C56 | IPv4 IHL and TCP data offset | refutation witness; payload position |
| C57 | Packet parsing with trailer bytes | refutation witness |
| C58 | UDP checksum field | refutation witness |
| C59, C60 | re-serialising parsed options | refutation witnesses; exact growth |
| C61 | field ranges of all headers | refutation witnesses where masked, range errors elsewhere |
| C62 | IPv6 extension-header option loop | fuel bounded by the length |
| C66-C70 | whole packets: equality, raw bytes, IPv6 checksums, parse loop, forwarding | list induction, measure on the remaining bytes, composition of codec inversions; refutation witnesses |
| C63 | `__eq__` of every header | equality implies equal layout, or refutation witness |
| C64, C65 | parse followed by serialise | codec inversion; refutation witnesses |
| C54 | EthAddr length and equality | refutation witnesses |
| C53, C85 | _parse_codeargs, Python's call rules, _start_usercode, choice of the entry point; start_framework and _start_app as two threads with a barrier (UserModel.v, spec UserSpec.v). Left out: argparse, logging, the import itself, the debugger; the user's code is one step | induction over words and over slots; invariant over all schedules plus a measure (UserStart.v) |
| C86 | topo/util.py as a whole (UnitModel.v, spec UnitSpec.v): regular expressions as scanners, floats as rationals rounded to 53 bits, '{:1.06f}' as rounding to millionths. Left out: overflow and subnormal floats, non-ASCII digits and letters but the micro sign; repr() of a float is a parameter | rounding is to the nearest double (UnitProofs.v), error bounds by linear arithmetic over Q, exactness on integers, digit induction (UnitText.v, UnitDelay.v) |
| C87–C90 | switchyard/sim/cli.py: commands, command lookup, SyssGlue (CliModel.v, spec CliSpec.v). Simplified: a line is a list of words, answers to questions are inputs, files hold saved topologies or captures, link settings are read by two parameters (UnitModel.v gives them in the examples), monitors and printed text left out | induction over sessions: the question flag (CliProofs.v), network = net_of topology (CliNet.v), no exception (CliSafe.v); sim_links connects the network with LinkModel.v (CliSim.v). Proved for sessions without the commands listed in the notes; the others refuted by witnesses or shown to fail in general |
| C91 | as C52/C84 (LinkModel.v); the length of a packet is len() of the modelled packet | failure theorem for every history, witness |
| C92 | pcapffi.py: PcapDumper.write_packet, PcapReader, _recv_packet, callback (CapModel.v, spec CapSpec.v). A file is a list of records; libpcap is assumed to store and hand out records as given and the filter is a parameter; times are floats as in UnitModel.v. Left out: the file format (32-bit seconds), snaplen, times before 1970 | the fractional part of a float is a float, rounding is monotone, 53-bit error bounds (CapProofs.v); induction over the file and over pieces |
| C93 | llnetreal.py: send_packet, _make_pcaps, intf_up (table only), _RawSocket.send_packet; pcapffi.py: send_packet (SendModel.v, spec SendSpec.v). The kernel and libpcap answer from outside, what they are given is recorded as events. Left out: opening of devices, partial update of a packet that cannot be serialised | case analysis over device argument and kind, C24 for the receiver's side |
| C94 | llnetreal.py: _assemble_devinfo; psutil, if_nametoindex and iwconfig answer from outside (SendModel.v). The order in which addresses are assigned (a Python set) is left open by the statement | induction over addresses and over devices |
| C95 | pcapffi.py: the register of PcapLiveDevice (constructor, create, close, set_filter, set_bpf_filter_on_all_devices) as a state machine of any number of threads; libpcap is a table of open handles (PdevModel.v) | invariant over all action lists; specification on the list of events |
| C96 | pcapffi.py: recv_packet, blocking, activate; time is rational, arrival and delays of sleep are inputs (RdevModel.v) | case analysis; induction over the polls |
| C97 | sim/monitor.py, monitor commands and rebuild of sim/cli.py, recv of nodeexec.py as a machine of packet arrivals and command lines (MonModel.v, spec MonSpec.v). Simplified: a command is one step, calls of libpcap are recorded, which files can be written is an input | invariants over all histories (one owner per open file, registered files are open), simulation of the topology |
| C98 | OpenflowSwitch of ofswitch.py: controllers being added, their threads, every message handler, over the message codec of OfModel (OswModel.v, spec in bytes on the wire OswSpec.v). Simplified: a handler is one step, log texts, callbacks, socket errors while sending and shutdown left out; whether connect can work is a parameter | invariants over all histories (controllers added and started, configuration in force), then the answer to one more message |
| C99 | the same machine: datapath loop, packet-in, buffer, packet-out and actions; net.send_packet is a parameter | buffer invariant (ids count arrivals while nothing is released; with releases, an entry stays until its id is announced again or named), round trip of the packet-out message, absorbing end states |
| C100 | openflow13.py: header, build, bodies with their setters, to_bytes and from_bytes; private names not imported are functions that raise | layout written from the specification, invariant over assignment sequences, case analysis for every byte string |
| C101, C104 | swyard.py:main after argparse, syinit.py:start_framework, importcode.py:import_or_die (StartModel.v); the threads are those of UserModel.v; a file system is a function from directory and module name to the names defined; packages are left out | by cases over all arguments; C104 by induction over the files loaded |
| C102 | run_tests for a list of scenarios (SeqModel.v), with the one alarm of the process as part of the state; it strikes between calls and between scenarios, at most once each time it is armed | invariant of the alarm over runs, induction over the list of scenarios; witnesses for the failures |
| C103 | compile_scenario, uncompile_scenario, get_test_scenario_from_file (FileModel.v); pickle, SHA-512, bz2, base64 are parameters, assumed lossless where stated | file names by list reasoning; round trip composed with C35 |
| C105 | packet.py:29-40, 68-88, 102-133, 202-220, 323-330 over a heap of header objects with packets as lists of references (AliasModel.v); header behaviour is that of PacketModel.v | invariant "packets name objects of the heap"; frame property by induction over operation sequences; copies, parses and sums shown to share nothing (or only the right operand's headers); refutations with witnesses |
| C106, C107 | testing.py:78-88, 288-307, 417-433, 463-475, 487-541, 633-638, 687-695, 757-764 and llnettest.py:76-105 over the same heap (KeepModel.v) | reduction of authors' scripts to operation sequences of C105; induction over the copy rules |
| C108 | packet.py:42-60, 244-309, the maps of ethernet.py, ipv4.py, ipv6.py, udp.py, tcp.py (RegModel.v); user classes are arbitrary functions; a user class that overrides next_header_class or pre_serialize is left out | shipped registry shown equal to PacketModel.v; induction over the rounds of parsing, and over any list of registrations (RegMany.v); round trip from C24 |
| C109 | testing.py:177-219, 221-307, 543-559 (DiagModel.v over TestModel.v); diagnoses as the values put into the text | shown to agree with the comparison of C30-C32; induction over headers, attributes and sends |
| C110 | llnetreal.py:179-240 with Queue.get, put, qsize of the standard library at the level of its lock and condition (SigModel.v) | invariant "a waiting thread that was not woken has an empty queue", countdown of handler and program steps; deadlock as an invariant of all continuations |
| C111 | ipv4.py:61-134, 284-368, icmpv6.py:338-431: containers and route options as edited by programs (OptModel.v) | refinement to a list given by splitting (OptSpec.v), induction over histories; route options by an invariant on pointer and addresses |
| C112 | topobuild.py:355-411: several topologies, union, prefixing (UnionModel.v: TopoModel.v over a heap of node objects) | heap frame argument: an invariant (places distinct, below the heap size, apart from the other topologies) for all histories; content of a union through the invariant of C47; witnesses for sharing |
| C113 | cli.py:770-785, nodeexec.py:70-135, linkem.py:12-34 as threads: one main thread, two threads per node, one statement per step (StopModel.v) | inductive invariant over all schedules; a measure that every fair round lowers; witnesses for the two races |
| C114 | testing.py:46-123, 417-433, 463-471, 487-516 over values that may be wrong (MakeModel.v); what a predicate string evaluates to, and hasattr, are parameters | acceptance as an equivalence; the event shown equal to the one of TestModel.v; witnesses for the false clauses |
| C115 | textcolor.py whole (ColorModel.v): programs of prints, regions, exceptions; output as a sequence of pieces; colorama's autoreset from its documentation | an interpreter of the terminal as specification; induction over programs; witnesses for the false clauses |
| C116 | testing.py 880-923 (CheckModel.v `sanity`): the warnings print the event, which may raise | events named in the specification by their interfaces only; induction over events; a passing run built with C34 |
| C117 | `__eq__` of events and scenarios, testing.py 387-389, 444-447, 588-590, 866-878 (CheckModel.v `scen_same`), text of packets a parameter | equivalence by induction, C35 for the loaded scenario, witnesses that work for every text function |
| C118 | pcapffi.py 268-288, 461-600, 673-692 (CtlModel.v); libpcap's handle is a record of settings and a flag, what depends on the device a parameter | induction over the history of calls against a fold over the accepted ones |
| C119 | pcapffi.py 380-395, 615-630, 697-707 (LoopModel.v); packets in buffers, the break flag, callbacks any function with a memory | induction over buffers and over the history; specification by concatenation and prefixes |
| C120 | examples/myhub.py 8-33 as a program over the network calls (HubModel.v), run on the test network of C30-C36 | induction over the calls for any answers; simulation of the test network by induction over hub scenarios |
| C121 | examples/udpstack.py 5-63 (StackModel.v) over the packets of C17, interfaces of C54 and sockets of C37-C39 | the frame serialised and read back by C17; each packet classified; induction over the rounds of the loop |
| C122 | hostfirewall.py 50-73, 212-267 (MacModel.v); pf is a record of the anchor's rules and the references that enable it, pfctl's four commands functions on it | induction over what the program does inside the with statement, over rule lists and over histories of constructor calls; witnesses for the false clauses |
| C123 | examples: firewall.py 4-27, sniff.py 9-25, myswitch.py 10-30, myrouter.py 18-35, sendpkt.py 9-28 as programs over the network calls (ExModel.v) | induction over the calls for any answers; the switch by a simulation of the hub (C120); tests by simulation of the test network; witnesses for the false clauses |
| C124 | pcapffi.py 77-86, 180-258, 307-308, syinit.py 42-48 (DiscModel.v); what libpcap answers is an input | induction over the device list and over histories of calls; flags by bits; numbered names by the value of their digits; the selection by C43 |
| C125 | examples/sydump.py, examples/readpkt.py (DumpModel.v), on the capture files of C92 and the parser of C24; what the device answers is an input | induction over the answers of the device and over the records and files; times by C92 |
| C126 | documentation/code/udpappheader.py, newheader.py (DocModel.v), as user classes of C108 | struct interpreter; round trip by C108 and C24 |
| C127 | documentation/code/inout1.py, inout2.py, intfex.py, inoutloop.py, fullhub.py, baaadhub.py (DocNetModel.v), as programs of C34's test network | induction over the history of calls and answers; test scripts by the lemmas of C120 |
| C128 | documentation/code/failhub1-4.py, failhub6-8.py, enterdebugger.py (DocFailModel.v), as programs of C34's test network | induction over runs for programs that do not send; inversion of runs and what a match needs (C30, C31) for those that send |

## What is modelled, file by file

The line ranges are the ones cited at the definitions of each model file (merged). Code outside them is not modelled.

| Model file | Source lines cited |
|---|---|
| `Base.v` | Base definitions shared by all model files: Python exceptions as values, byte strings, slices, and the [struct] module of CPython. |
| `ChecksumModel.v` | common.py 352-384 |
| `EthAddrModel.v` | __init__.py 25-147 |
| `Enums.v` | common.py 7-36, 39-40, 43-47, 50-76, 79-82, 85-94, 98-113, 120-136, 139-148, 155-159, 174-176, 179-182, 209-225, 228-267, 306-319, 323-328 |
| `EthModel.v` | ethernet.py 11-94, 97-172 |
| `ArpModel.v` | arp.py 16-133 |
| `Ipv4Model.v` | ipv4.py 35-36, 38-39, 41-42, 51-58, 61-153, 158-225, 228-269, 272-282, 288-307, 309-321, 391-404, 406-407, 409-410, 412-418, 420-442, 444-452, 467-554, 560-570 |
| `TransportModel.v` | udp.py 14-92; tcp.py 29-54, 67-307 |
| `Ipv6Model.v` | ipv6.py 24-378, 489-607 |
| `IcmpModel.v` | icmp.py 31-39, 54-55, 57-68, 70-79, 81-84, 94-109, 111-118, 125-132, 141-146, 149-269, 272-330, 332-359, 361-423, 425-444; icmpv6.py 31-39, 55-56, 58-73, 92-335, 346-367, 369-374, 439-456, 459-468, 471-484, 487-511, 514-632, 635-672, 675-767, 770-820, 823-836 |
| `RipModel.v` | ripv2.py 17-19, 21-95, 98-189 |
| `PacketModel.v` | packet.py 13-18, 25-27, 29-40, 42-60, 68-75, 77-88, 102-107, 109-121, 123-129, 135-142, 144-152, 154-166, 168-177, 182-188, 190-193, 202-208, 217-225, 229-238, 285-293, 295-309, 369-376; null.py 37-50, 52-56, 58-59; util.py 3-29; icmpv6.py 24, 194-198; ipv6.py 37-38, 40-41, 59-63, 330, 356, 377, 475-486; arp.py 38-39; icmp.py 58, 134-135; ripv2.py 147; ethernet.py 30-35, 101-107; ipv4.py 375-379 |
| `Dict.v` | Python dictionaries with string keys, in insertion order. |
| `NetModel.v` | interface.py 15-110, 112-136; llnetbase.py 54-56, 58-67, 69-76, 78-89, 105-111, 119-128, 136-144, 189-193; testing.py 671-682 |
| `TestModel.v` | testing.py 111-123, 126-135, 144-163, 165-169, 178-199, 201-217, 221-241, 243-286, 288-307, 309-316, 372-409, 412-478, 481-590, 595-924, 931-973; llnettest.py 46-105, 156-182, 194, 251-253; ethernet.py 27, 48-70, 93-94, 98, 118-140, 170-172; arp.py 17-19, 76-122, 130-133; ipv4.py 44-45, 131-134, 218-221, 251-254, 382-385, 455-558, 572-573; ipv6.py 25, 43-57, 88, 96-97, 99-105, 125, 136-158, 160-161, 187-283, 304, 307, 321-322, 490-492, 550-604, 606-607; udp.py 15, 53-75, 77-78; tcp.py 29-54, 68-69, 148-308; icmp.py 25-27, 86-147, 185-186, 222-419; icmpv6.py 25-27, 75-89, 108-143, 246-323, 433-511, 629, 668-820; ripv2.py 37-41, 99, 143-145, 173-183; null.py 20, 29-35, 64-65; packet.py 240-241, 340, 356-357, 367, 381-383, 400-405 |
| `SockModel.v` | socketemu.py 57-63, 74-81, 83-84, 114-119, 121-138, 140-175, 177-187, 189-198, 200-209, 220-243, 245-267, 290-291, 303-312, 314-332, 338-352, 422-429, 431-439, 441-451, 453-455, 475-479, 487-497, 499-504 |
| `LiveModel.v` | llnetreal.py 27-29, 36-61, 71-80, 82-89, 179-189, 192-210, 212-240 |
| `FwModel.v` | hostfirewall.py 80-91, 125-132, 136-164, 166-183, 185-189, 191-194, 196-204, 228-244 |
| `TopoModel.v` | topobuild.py 16-74, 85-94, 123-132, 137-147, 149-151, 153-172, 174-185, 193-198, 200-204, 206-230, 232-252, 254-265, 267-271, 273-287, 292-319, 321-328, 330-345, 347-353, 355-373, 375-390, 392-411; interface.py 104-109 |
| `OfModel.v` | openflow10.py 11-19, 21-31, 59-68, 71-80, 83-90, 93-101, 104-117, 120-129, 147-300, 308-340, 347-390, 393-734, 737-758, 783-1192, 1195-1209, 1212-1226, 1229-1253, 1256-1258, 1261-1265, 1268-1309, 1311-1314, 1317-1322, 1325-1329, 1332-1461, 1464-1630, 1633-1639, 1642-1702, 1705-1755, 1758-1794, 1797-1896, 1899-1902, 1905-1940, 1943-1951, 1954-1982, 1985-1988, 1991-2038, 2041-2043, 2046-2049, 2052-2089, 2092-2140, 2143-2183, 2191-2264, 2267-2420, 2423-2471, 2474-2597, 2600-2749, 2752-2819, 2822-2863, 2886-2914, 2917-2961, 2964-2967, 2970-3034, 3037-3098, 3101-3105, 3108-3234, 3250-3388; packet.py 29-40, 42-60 |
| `FieldModel.v` | ethernet.py 52-70, 116-140; arp.py 75-122; ipv4.py 454-560; ipv6.py 549-604; udp.py 53-75; tcp.py 56-65, 148-307; packet.py 252-254 |
| `SwModel.v` | ofswitch.py 16-90, 96-123, 126-178, 180-260, 402-414, 543-565; openflow10.py 83-87, 402-414, 492-580, 761-780, 838-845, 884-909, 949-1192 |
| `LinkModel.v` | linkem.py 6-34; nodeexec.py 16-135; cli.py 710-768 |
| `UserModel.v` | syinit.py 25-40, 81-137, 140-164; llnetbase.py 12-46; importcode.py 40-51; llnetreal.py 276-314; llnettest.py 256-267 |
| `UnitModel.v` | util.py 3-38, 40-71, 77-111, 113-142 |
| `CliModel.v` | cli.py 26-560, 695-785, 800-822; nodeexec.py 20, 39-43, 93-97, 130-135; topobuild.py 254-265, 449-457 |
| `CapModel.v` | pcapffi.py 114-119, 268-288, 311-341, 344-395, 697-707; cli.py 167-173 |
| `SendModel.v` | llnetreal.py 101-163, 165-177, 242-274, 355-392; pcapffi.py 602-610; interface.py 8-12; llnetbase.py 78-89 |
| `PdevModel.v` | pcapffi.py 290-304, 398-476, 567-575, 667-671, 682-683 |
| `RdevModel.v` | pcapffi.py 268-288, 424-453, 465-476, 479-492, 587-596, 612-613, 632-665 |
| `MonModel.v` | monitor.py 35-39, 121-122, 139, 155; cli.py 27-33, 48-58, 82-83, 106-118, 368-445, 519-529, 696-702, 710-798; nodeexec.py 64-90; pcapffi.py 314-323; importcode.py 7 |
| `OswModel.v` | ofswitch.py 44-61, 63-90, 262-578, 580-631; openflow13.py 3016-3018 |
| `Of13Model.v` | openflow13.py 14-44, 97-132, 134-153, 416-422, 1207-1237, 1248-1294, 1324-1453, 1456-1632, 1707-1757, 1760-1796, 1799-1898, 1907-1942, 1945-2886, 2888-2916, 2919-2963, 2972-3036, 3039-3100, 3110-3236, 3239-3370; packet.py 29-40, 42-60 |
| `StartModel.v` | swyard.py 21-87; syinit.py 50-137; importcode.py 7-52; hostfirewall.py 110-183 |
| `SeqModel.v` | llnettest.py 141-253; testing.py 726-790 |
| `FileModel.v` | testing.py 853-854, 861-862, 942-949, 963-973 |
| `AliasModel.v` | packet.py 7-242, 323-330 |
| `KeepModel.v` | testing.py 78-88, 288-307, 417-433, 463-475, 487-517, 633-638, 687-695, 757-760; llnettest.py 76-79, 84-105; packet.py 154-166 |
| `RegModel.v` | packet.py 29-40, 42-60, 244-293, 295-309; ethernet.py 30-36, 101-108; ipv4.py 375-379, 388-389; ipv6.py 59-63, 475-486, 495-496; udp.py 18-19; tcp.py 72-73; arp.py 124; icmp.py 131; ripv2.py 185; null.py 52-56 |
| `DiagModel.v` | testing.py 177-219, 221-286, 288-307, 543-559 |
| `SigModel.v` | llnetreal.py 36-61, 179-189, 192-210, 212-240; syinit.py 133-137 |
| `OptModel.v` | ipv4.py 61-69, 95-134, 284-286, 323-368, 394-396, 412-418; icmpv6.py 338-344, 376-431 |
| `UnionModel.v` | topobuild.py 85-94, 283-285, 392-411 |
| `StopModel.v` | cli.py 88-89, 106-112, 115-119, 130-135, 770-773, 775-785; nodeexec.py 70-91, 99-103, 114-135; linkem.py 15-34 |
| `MakeModel.v` | testing.py 46-123, 417-433, 463-475, 487-516; packet.py 229-238 |
| `ColorModel.v` | textcolor.py 15-25, 27-29, 31-59, 61-95 |
| `CheckModel.v` | testing.py 387-389, 444-447, 565-572, 574-579, 588-590, 866-878, 880-923 |
| `CtlModel.v` | pcapffi.py 268-288, 461-463, 465-600, 673-692 |
| `LoopModel.v` | pcapffi.py 380-395, 615-630, 697-707 |
| `HubModel.v` | myhub.py 8-33 |
| `StackModel.v` | udpstack.py 5-63; packet.py 187-197 |
| `MacModel.v` | hostfirewall.py 50-73, 213-226, 246-250, 252-259, 261-267; syinit.py 133-137; socketemu.py 140-175 |
| `ExModel.v` | firewall.py 4-27; sniff.py 9-25; myswitch.py 10-30; myrouter.py 18-35, 46; sendpkt.py 9-28 |
| `DiscModel.v` | pcapffi.py 77-196, 198-202, 208-254, 256-258, 307-308; syinit.py 42-48, 54-58 |
| `DumpModel.v` | sydump.py 24-25; readpkt.py 15-27; pcapffi.py 352-354 |
| `DocModel.v` | udpappheader.py 4-33; newheader.py 4-40; packet.py 252-254, 262-264, 332-334 |
| `DocNetModel.v` | inout1.py 3-6; inout2.py 3-13; intfex.py 3-18; inoutloop.py 3-16; fullhub.py 3-26; baaadhub.py 8-33 |
| `DocFailModel.v` | failhub1.py 3-6; failhub4.py 3-6; failhub6.py 3-7; failhub8.py 3-7; enterdebugger.py 3-21; failhub2.py 3-6; failhub3.py 3-6; packet.py 194-198; failhub7.py 3-7; debugging.py 6-9; testing.py 726-741 |

## Property by property

For each property: where it is stated and proved, over which model and specification files, and what its theorems leave out. Theorems ending in `_refuted` show a clause to be false of the code, those ending in `_partial` prove part of a clause; `MANIFEST.json` has the same list in machine-readable form.

**C01 — Internet checksum is the RFC 1071 checksum** (proved). For every byte string of at most 131072 bytes (which covers every IP datagram), checksum(data) equals the 16-bit one's complement of the one's-complement sum of the data read as big-endian 16-bit words, a trailing odd byte being padded with a zero byte.
  Stated in `ChecksumProps.v`, over `ChecksumModel.v`; specification in `ChecksumSpec.v`.
  Theorems: `C01_checksum_is_rfc1071`, `C01_unbounded_length_refuted`.
  Bound 131072 bytes in the statement; the refuted theorem shows that the bound is needed.

**C02 — A stored checksum verifies, and a corrupted word does not** (proved). If a sender stores checksum(data) in a 16-bit field of data that was zero when it was computed, the receiver's one's-complement sum over the result is 0xffff; and if afterwards any single aligned 16-bit word is replaced by a word with a different one's-complement value, that sum is no longer 0xffff.
  Stated in `ChecksumProps.v`, over `ChecksumModel.v`; specification in `ChecksumSpec.v`.
  Theorems: `C02_stored_checksum_verifies`, `C02_corruption_detected`.

**C03 — Skipping a word is the same as zeroing it** (proved). checksum(data, skip_word=k) is equal to checksum of the same data with the k-th 16-bit word set to zero, so a header may be checksummed in place without clearing its checksum field first.
  Stated in `ChecksumProps.v`, over `ChecksumModel.v`; specification in `ChecksumSpec.v`.
  Theorems: `C03_skip_word_zeroes`, `C03_skip_word_outside`.

**C04 — Ethernet address text form round-trips** (proved). For every 6-byte Ethernet address a, EthAddr(str(a)) == a, the text form is 17 characters of lower-case hex pairs separated by colons, and two addresses with the same text are the same address; the dash-separated and upper-case spellings denote the same address.
  Stated in `EthAddrProps.v`, over `EthAddrModel.v`; specification in `EthAddrSpec.v`.
  Theorems: `C04_text_round_trip`, `C04_text_injective`.
  ASCII text.

**C05 — Ethernet addresses are totally ordered and hash consistently** (proved). Comparison of Ethernet addresses is a strict total order (irreflexive, transitive, exactly one of <, ==, > holds) that agrees with the unsigned 48-bit value, equality is reflexive, symmetric and transitive, and equal addresses hash equally; so addresses can be used as sorted or dictionary keys.
  Stated in `EthAddrProps.v`, over `EthAddrModel.v`; specification in `EthAddrSpec.v`.
  Theorems: `C05_compare_is_numeric`, `C05_total_order_and_hash`.
  The hash is an arbitrary function of the stored bytes.

**C06 — Ethernet address construction accepts only addresses** (proved). EthAddr(text) either raises or yields an address of exactly six bytes each in 0..255; text with a wrong number of groups, a group that does not denote a base-16 integer, or a group outside 0..ff is never accepted; EthAddr(bytes) of at least six bytes keeps exactly the first six; multicast, local and bridge-filtered classification depend only on the bits IEEE 802 assigns to them.
  Stated in `EthAddrProps.v`, over `EthAddrModel.v`; specification in `EthAddrSpec.v`.
  Theorems: `C06_accepted_texts`, `C06_text_gives_six_bytes`, `C06_from_bytes`, `C06_classification`.
  ASCII text; exact characterisation of the accepted texts.

**C07 — Ethernet header round-trips** (partial). For every Ethernet header value h and every following byte string t, parsing h.to_bytes()+t gives back a header equal to h in all three fields and leaves exactly t; conversely parsing any frame of at least 14 bytes with a known EtherType above 1500 and re-serializing reproduces its first 14 bytes; a frame shorter than 14 bytes is rejected.
  Stated in `EthProps.v`, over `ArpModel.v`, `EthAddrModel.v`, `EthModel.v`; specification in `EthAddrSpec.v`.
  Theorems: `C07_round_trip_partial`, `C07_round_trip_refuted`, `C07_parse_then_serialise`, `C07_accepts_exactly`.
  Full round trip holds except for the ethertype values of the IEEE 802.3 length range (refuted theorem).

**C08 — VLAN tag round-trips** (partial). For every VLAN tag (12-bit id, 3-bit priority, inner EtherType) serialising and parsing gives the same id, priority and EtherType and leaves the rest of the frame untouched, and parsing then serialising any 4-byte tag with known EtherType gives the same bytes.
  Stated in `EthProps.v`, over `ArpModel.v`, `EthAddrModel.v`, `EthModel.v`; specification in `EthAddrSpec.v`.
  Theorems: `C08_round_trip_partial`, `C08_parse_serialise_partial`, `C08_priority_refuted`, `C08_short_rejected`.
  Round trip of the VLAN id and ethertype; the priority bits are lost (refuted theorem).

**C09 — ARP round-trips and rejects truncation** (proved). For every ARP packet (any operation, IPv4 and Ethernet addresses and known hardware/protocol types) parsing the serialised form followed by any bytes yields an equal packet and leaves those bytes; any 28-byte buffer that parses re-serialises to itself; fewer than 28 bytes is rejected.
  Stated in `EthProps.v`, over `ArpModel.v`, `EthAddrModel.v`, `EthModel.v`; specification in `EthAddrSpec.v`.
  Theorems: `C09_round_trip`, `C09_parse_then_serialise`, `C09_ipv6_address_refuted`.
  IPv4 addresses, as the class is documented; the refuted theorem records what happens to an IPv6 address.

**C10 — UDP header round-trips with correct length** (proved). Serialising a UDP header in front of n payload bytes emits length 8+n and parsing returns the same ports and length with the payload untouched; if 8+n exceeds 65535 serialisation raises instead of emitting a wrong length.
  Stated in `TransportProps.v`, over `ArpModel.v`, `Ipv4Model.v`, `TransportModel.v`; specification in `ChecksumSpec.v`.
  Theorems: `C10_udp_round_trip`, `C10_udp_without_ipv4`, `C10_udp_too_long`, `C10_udp_parse_then_serialise`.

**C11 — TCP header round-trips and flags are independent** (proved). For every TCP header without options, parse(serialise(h)+t) recovers ports, sequence and acknowledgement numbers, the nine flags, window and urgent pointer and leaves t; setting one flag changes that flag only.
  Stated in `TransportProps.v`, over `ArpModel.v`, `Ipv4Model.v`, `TransportModel.v`; specification in `ChecksumSpec.v`.
  Theorems: `C11_tcp_round_trip`, `C11_tcp_too_long`, `C11_flags_independent`, `C11_flag_is_bit`.
  TCP header without options (the class has no option types); options of received segments are C60.

**C12 — IPv4 fixed header round-trips and its checksum verifies** (proved). For every option-free IPv4 header and payload, the 20 emitted bytes have one's-complement sum 0xffff, carry the true total length, and parse back to the same tos, id, flags, offset, ttl, protocol and addresses with the payload untouched.
  Stated in `Ipv4Props.v`, over `ArpModel.v`, `Ipv4Model.v`; specification in `ChecksumSpec.v`.
  Theorems: `C12_round_trip_and_checksum`, `C12_too_long_raises`, `C12_parse_then_serialise`.

**C13 — IPv4 option lists round-trip** (partial). A list of IPv4 options serialises to a multiple of four bytes and parses back to the same list of options followed only by end-of-list padding.
  Stated in `Ipv4Props.v`, over `ArpModel.v`, `Ipv4Model.v`; specification in `ChecksumSpec.v`.
  Theorems: `C13_options_round_trip_partial`, `C13_header_with_options_partial`, `C13_new_options_covered`, `C13_timestamp_refuted`, `C13_empty_route_refuted`, `C13_too_many_options_refuted`.
  Round trip for all option lists of the supported kinds that fit; timestamp, empty route and over-long lists are refuted.

**C14 — IPv4 option parsing always finishes** (partial). Parsing any byte string as an IPv4 option list terminates with a list of options or an error.
  Stated in `Ipv4Props.v`, over `ArpModel.v`, `Ipv4Model.v`; specification in `ChecksumSpec.v`.
  Theorems: `C14_termination_refuted`, `C14_termination_partial`, `C14_truncated`, `C14_fuel_decides`.
  False of the code: a timestamp option of length 0 loops for ever. The partial theorem characterises when it terminates.

**C15 — IPv4 header field setters do not disturb each other** (partial). Assigning dscp, ecn, fragment flags, fragment offset or ttl changes exactly that field: reading it back gives the assigned value and every other field of the header is unchanged; out-of-range values are refused.
  Stated in `Ipv4Props.v`, over `ArpModel.v`, `Ipv4Model.v`; specification in `ChecksumSpec.v`.
  Theorems: `C15_dscp`, `C15_other_setters`, `C15_ecn_refuted`, `C15_ecn_partial`.
  The ecn setter is wrong (refuted); all others proved.

**C16 — IPv6 fixed header round-trips** (proved). For every IPv6 header value and payload, parse(serialise(h)+payload) gives the same traffic class, flow label, next header, hop limit and addresses, a payload length equal to the number of payload bytes, and leaves the payload untouched.
  Stated in `Ipv6Props.v`, over `Ipv6Model.v`.
  Theorems: `C16_round_trip`, `C16_too_long_raises`, `C16_accepts_exactly`, `C16_parse_then_serialise`.

**C17 — IPv6 extension headers round-trip** (partial). Hop-by-hop, destination, routing and fragment extension headers serialise to a multiple of eight bytes whose length field is correct, and parse back to the same next-header value, options and fields with the rest untouched.
  Stated in `Ipv6Props.v`, over `Ipv6Model.v`.
  Theorems: `C17_hop_options_partial`, `C17_hop_unaligned_refuted`, `C17_hop_truncated_refuted`, `C17_hop_rest_partial`, `C17_fragment_round_trip`, `C17_fragment_parsed`, `C17_route_partial`, `C17_route_length_refuted`, `C17_route_default`.
  Round trips for aligned option lists, fragment and routing headers; unaligned options, truncated headers and the constructor routing header are refuted.

**C18 — ICMP type, code and data stay consistent** (partial). After any sequence of assignments (successful or refused) to the type, code and data of an ICMP message, the code is one defined for the type and the data object is of the kind belonging to the type; a refused assignment leaves the message unchanged.
  Stated in `IcmpProps.v`, over `ArpModel.v`, `ChecksumModel.v`, `EthAddrModel.v`, `IcmpModel.v`, `Ipv4Model.v`, `Ipv6Model.v`; specification in `ChecksumSpec.v`, `EthAddrSpec.v`.
  Theorems: `C18_consistent_partial`, `C18_refused_unchanged_partial`, `C18_type_assigned`, `C18_data_assigned`, `C18_foreign_data_refuted`, `C18_foreign_data6_refuted`.
  Invariant over all assignment sequences; data objects belonging to no type of the family are stored although refused (refuted).

**C19 — ICMP messages round-trip with a verifying checksum** (proved). For every ICMP message of every supported type, the serialised bytes have one's-complement sum 0xffff and parse back to the same type, code and message data.
  Stated in `IcmpProps.v`, over `ArpModel.v`, `ChecksumModel.v`, `EthAddrModel.v`, `IcmpModel.v`, `Ipv4Model.v`, `Ipv6Model.v`; specification in `ChecksumSpec.v`, `EthAddrSpec.v`.
  Theorems: `C19_round_trip`, `C19_same_data`, `C19_mask_data_refuted`, `C19_default`.
  Messages up to 65535 bytes. Data given to an address-mask message is not sent (recorded by the refuted theorem; that message type has no data).

**C20 — ICMPv6 messages round-trip with a verifying checksum** (partial). For every ICMPv6 message of a supported type inside an IPv6 packet, the checksum verifies over the RFC 2460 pseudo-header and the message, and parsing gives back the same type, code and fields including neighbour-discovery options.
  Stated in `IcmpProps.v`, over `ArpModel.v`, `ChecksumModel.v`, `EthAddrModel.v`, `IcmpModel.v`, `Ipv4Model.v`, `Ipv6Model.v`; specification in `ChecksumSpec.v`, `EthAddrSpec.v`.
  Theorems: `C20_round_trip_partial`, `C20_same_data`, `C20_ra_flags_refuted`, `C20_redirected_refuted`, `C20_target_option_refuted`, `C20_unsupported_types`.
  Round trip and pseudo-header checksum for all supported messages and option lists; router-advertisement flags, misaligned redirected headers and the target option constructor are refuted.

**C21 — ICMPv6 option parsing always finishes** (partial). Parsing any byte string as a list of neighbour-discovery options terminates with a list of options or an error.
  Stated in `IcmpProps.v`, over `ArpModel.v`, `ChecksumModel.v`, `EthAddrModel.v`, `IcmpModel.v`, `Ipv4Model.v`, `Ipv6Model.v`; specification in `ChecksumSpec.v`, `EthAddrSpec.v`.
  Theorems: `C21_terminates_partial`, `C21_loop_refuted`.
  False of the code: an unknown option of length 0 loops for ever. The partial theorem shows that this is the only way.

**C22 — RIPv2 messages round-trip** (proved). For every RIPv2 message with any number of route entries, serialising and parsing yields the same command and the same entries in order, with network addresses masked by their netmask.
  Stated in `RipProps.v`, over `RipModel.v`.
  Theorems: `C22_serialise`, `C22_round_trip`, `C22_entry_masked`, `C22_masks_accepted`, `C22_get`, `C22_set`, `C22_append`, `C22_default`.

**C23 — Serialising a packet fixes up lengths and checksums through the whole stack** (proved). For every packet Ethernet/IPv4/(UDP|TCP|ICMP)/payload, whatever lengths and checksums the header objects held before, the emitted frame has a correct IPv4 total length, a verifying IPv4 header checksum, and (UDP/TCP) a correct length and a checksum verifying over the pseudo-header and payload.
  Stated in `PacketProps.v`, over `ArpModel.v`, `ChecksumModel.v`, `EthAddrModel.v`, `EthModel.v`, `IcmpModel.v`, `Ipv4Model.v`, `Ipv6Model.v`, `PacketModel.v`, `RipModel.v`, `TransportModel.v`; specification in `ChecksumSpec.v`, `EthAddrSpec.v`, `PacketSpec.v`.
  Theorems: `C23_udp_stack`, `C23_tcp_stack`, `C23_icmp_stack`, `C23_icmp6_stack`, `C23_icmp_payload_refuted`.
  For UDP, TCP and ICMP over IPv4 (with IPv4 options) and ICMPv6 over IPv6. A payload added behind an ICMP header is not part of the stated property; C23_icmp_payload_refuted records that its checksum does not cover it.

**C24 — Parsing inverts serialisation for whole packets** (proved). Packet(raw=p.to_bytes()) equals p header by header for every Ethernet/IPv4/UDP|TCP|ICMP/payload and Ethernet/ARP packet whose protocol fields name the next header.
  Stated in `PacketProps.v`, over `ArpModel.v`, `ChecksumModel.v`, `EthAddrModel.v`, `EthModel.v`, `IcmpModel.v`, `Ipv4Model.v`, `Ipv6Model.v`, `PacketModel.v`, `RipModel.v`, `TransportModel.v`; specification in `ChecksumSpec.v`, `EthAddrSpec.v`, `PacketSpec.v`.
  Theorems: `C24_packet_round_trip`.
  For every stack of Ethernet, VLAN, ARP, IPv4, IPv6, extension, UDP, TCP, ICMP, ICMPv6 and null headers whose type fields announce each other; read_as says what is normalised (option padding, TCP length fields).

**C25 — Serialising is repeatable** (proved). Serialising the same packet twice gives the same bytes and leaves the packet such that every later serialisation also gives the same bytes, although serialising updates length and checksum fields in place.
  Stated in `PacketProps.v`, over `ArpModel.v`, `ChecksumModel.v`, `EthAddrModel.v`, `EthModel.v`, `IcmpModel.v`, `Ipv4Model.v`, `Ipv6Model.v`, `PacketModel.v`, `RipModel.v`, `TransportModel.v`; specification in `ChecksumSpec.v`, `EthAddrSpec.v`, `PacketSpec.v`.
  Theorems: `C25_serialise_repeatable`.

**C26 — Header container operations behave as a list** (proved). Adding, inserting, prepending, replacing, deleting and looking up headers by index (including negative ones), by type or by type name act as on a list: other headers and their order are unchanged, lookups return the first match, out-of-range indexes raise and change nothing.
  Stated in `PacketProps.v`, over `ArpModel.v`, `ChecksumModel.v`, `EthAddrModel.v`, `EthModel.v`, `IcmpModel.v`, `Ipv4Model.v`, `Ipv6Model.v`, `PacketModel.v`, `RipModel.v`, `TransportModel.v`; specification in `ChecksumSpec.v`, `EthAddrSpec.v`, `PacketSpec.v`.
  Theorems: `C26_container_is_list`, `C26_list_behaviour_unique`, `C26_negative_start_refuted`.
  get_header_index with a negative start is outside the stated operations; the refuted theorem records its result.

**C27 — The length of a packet is the number of bytes it serialises to** (partial). len(packet) == len(packet.to_bytes()) for every packet that can be serialised.
  Stated in `PacketProps.v`, over `ArpModel.v`, `ChecksumModel.v`, `EthAddrModel.v`, `EthModel.v`, `IcmpModel.v`, `Ipv4Model.v`, `Ipv6Model.v`, `PacketModel.v`, `RipModel.v`, `TransportModel.v`; specification in `ChecksumSpec.v`, `EthAddrSpec.v`, `PacketSpec.v`.
  Theorems: `C27_length_partial`, `C27_length_refuted`.
  False of the code for RIPv2 and IPv6 extension headers (refuted); proved for all other headers.

**C28 — Truncated headers are rejected** (proved). Parsing an Ethernet, VLAN, ARP, IPv4, IPv6, UDP, TCP or ICMP header from fewer bytes than its minimum size always raises and never returns a header.
  Stated in `PacketProps.v`, over `ArpModel.v`, `ChecksumModel.v`, `EthAddrModel.v`, `EthModel.v`, `IcmpModel.v`, `Ipv4Model.v`, `Ipv6Model.v`, `PacketModel.v`, `RipModel.v`, `TransportModel.v`; specification in `ChecksumSpec.v`, `EthAddrSpec.v`, `PacketSpec.v`.
  Theorems: `C28_short_header`, `C28_truncated_packet`, `C28_cut_frame`.

**C29 — ARP helper functions build the packets they promise** (proved). create_ip_arp_request is broadcast, asks for the target and names the sender; create_ip_arp_reply is unicast to the requester and answers with the given addresses; both survive serialisation and parsing, and answering a request with the owner's address yields a reply the requester can use.
  Stated in `PacketProps.v`, over `ArpModel.v`, `ChecksumModel.v`, `EthAddrModel.v`, `EthModel.v`, `IcmpModel.v`, `Ipv4Model.v`, `Ipv6Model.v`, `PacketModel.v`, `RipModel.v`, `TransportModel.v`; specification in `ChecksumSpec.v`, `EthAddrSpec.v`, `PacketSpec.v`.
  Theorems: `C29_arp_request`, `C29_arp_reply`, `C29_arp_exchange`.

**C30 — Exact packet matching accepts exactly the byte-identical packets** (partial). In exact mode an expected packet matches an observed one if and only if the two serialise to the same bytes and all user predicates hold.
  Stated in `TestProps.v`, over `EthAddrModel.v`, `EthModel.v`, `IcmpModel.v`, `Ipv4Model.v`, `Ipv6Model.v`, `NetModel.v`, `PacketModel.v`, `TestModel.v`, `TransportModel.v`; specification in `PacketSpec.v`, `TestSpec.v`.
  Theorems: `C30_exact_match_compares`, `C30_match_same_bytes_partial`, `C30_same_bytes_match_partial`, `C30_match_same_bytes_refuted`, `C30_same_bytes_match_refuted`.
  Exact match characterised attribute by attribute; each direction of "iff same bytes" proved under stated conditions and refuted in general (ICMPv6 neighbour discovery data not compared; padded IPv4 options).

**C31 — Inexact matching compares the header attributes that are not wildcarded** (proved). In inexact mode an observed packet matches if and only if every compared header field not covered by a wildcard is equal and all predicates hold; adding a wildcard never turns a match into a mismatch and adding a predicate never turns a mismatch into a match.
  Stated in `TestProps.v`, over `EthAddrModel.v`, `EthModel.v`, `IcmpModel.v`, `Ipv4Model.v`, `Ipv6Model.v`, `NetModel.v`, `PacketModel.v`, `TestModel.v`, `TransportModel.v`; specification in `PacketSpec.v`, `TestSpec.v`.
  Theorems: `C31_inexact_match`, `C31_monotone`.
  Inexact match iff header classes and non-wildcarded address/demux fields agree and all predicates hold; monotone.

**C32 — Expected outputs are consumed exactly once each, in any order** (proved). An output expectation over several ports accepts the expected packets in any order, each port exactly once; after the last the event is complete; an unexpected port or packet is reported as a failure and leaves the outstanding expectations unchanged.
  Stated in `TestProps.v`, over `EthAddrModel.v`, `EthModel.v`, `IcmpModel.v`, `Ipv4Model.v`, `Ipv6Model.v`, `NetModel.v`, `PacketModel.v`, `TestModel.v`, `TransportModel.v`; specification in `PacketSpec.v`, `TestSpec.v`.
  Theorems: `C32_accepts`, `C32_each_once`, `C32_any_order`.
  Single sends, arbitrary series of sends, and any order of the expected packets.

**C33 — Scenario bookkeeping never loses or invents an expectation** (partial). Throughout any run, passed plus pending expectations are exactly the expectations written by the author, in order; the scenario is done exactly when none is pending; a failed test stays pending.
  Stated in `TestProps.v`, over `EthAddrModel.v`, `EthModel.v`, `IcmpModel.v`, `Ipv4Model.v`, `Ipv6Model.v`, `NetModel.v`, `PacketModel.v`, `TestModel.v`, `TransportModel.v`; specification in `PacketSpec.v`, `TestSpec.v`.
  Theorems: `C33_nothing_lost_partial`, `C33_summary_partial`, `C33_failed_stays_partial`, `C33_lost_input_refuted`, `C33_lost_output_refuted`.
  By induction over arbitrary histories of expectations and calls, for packets that can be printed. Refuted otherwise: passing a test formats its event into a debug message, which raises AttributeError for router advertisements and home address options; the event is then neither passed nor pending.

**C34 — A scenario passes exactly when the program meets it** (partial). In test mode, a run completes the scenario if and only if the receive/send calls of the program match the scripted expectations one after another; extra, missing, or reordered calls are reported as a failure, never as a pass.
  Stated in `TestProps.v`, over `EthAddrModel.v`, `EthModel.v`, `IcmpModel.v`, `Ipv4Model.v`, `Ipv6Model.v`, `NetModel.v`, `PacketModel.v`, `TestModel.v`, `TransportModel.v`; specification in `PacketSpec.v`, `TestSpec.v`.
  Theorems: `C34_calls_follow_script_partial`, `C34_follow_script_refuted`, `C34_honest_program_partial`, `C34_alarm`, `C34_any_return_partial`, `C34_hidden_failure_refuted`, `C34_early_shutdown_refuted`.
  For packets that can be printed (refuted otherwise). Call sequences: iff. Programs: iff for programs that let failures through, and for any normal return with respect to the calls that went well; refuted for programs that hide failures or raise Shutdown themselves. The alarm is modelled between calls, not inside them.

**C35 — Saving and loading a scenario preserves it** (partial). A scenario saved and loaded again has the same interfaces and files and the same expectations in the same order.
  Stated in `TestProps.v`, over `EthAddrModel.v`, `EthModel.v`, `IcmpModel.v`, `Ipv4Model.v`, `Ipv6Model.v`, `NetModel.v`, `PacketModel.v`, `TestModel.v`, `TransportModel.v`; specification in `PacketSpec.v`, `TestSpec.v`.
  Theorems: `C35_save_load_partial`, `C35_loaded_behaves_partial`, `C35_order_refuted`, `C35_save_twice_refuted`, `C35_options_refuted`.
  Unstarted scenarios of well-formed packets without IPv4 options: same contents, indistinguishable by any call sequence. Refuted for partly executed ones (order rotates), for saving twice, and for padded IPv4 options.

**C36 — Test-mode receive returns scripted packets with non-decreasing time** (partial). In test mode, received packets are exactly the scripted inputs in order, delivered on the scripted port, timestamps never decrease, and a receive where a send was expected never yields a packet.
  Stated in `TestProps.v`, over `EthAddrModel.v`, `EthModel.v`, `IcmpModel.v`, `Ipv4Model.v`, `Ipv6Model.v`, `NetModel.v`, `PacketModel.v`, `TestModel.v`, `TransportModel.v`; specification in `PacketSpec.v`, `TestSpec.v`.
  Theorems: `C36_scripted_inputs_partial`, `C36_time`, `C36_no_packet_at_output`, `C36_saved_prints`.
  Timestamps: always. Scripted inputs: for deliverable scripted packets (known port, serialisable and readable) that can be printed; a router advertisement is never handed over (C33_lost_input_refuted).

**C37 — Emulated sockets receive only their own traffic** (partial). After any history of creating, binding, closing and traffic, data for (protocol, address, port) is delivered to the socket bound to exactly that, otherwise to the socket bound to the wildcard address with that port, otherwise dropped; no other socket's pending data changes.
  Stated in `SockProps.v`, over `SockModel.v`; specification in `SockSpec.v`.
  Theorems: `C37_delivery_partial`, `C37_one_owner`, `C37_double_close_refuted`, `C37_bind_after_close_refuted`.
  For every history in which only open sockets are bound or closed, ports are integers and the firewall works; double close and bind after close are refuted with witnesses.

**C38 — Emulated sockets deliver data in order and keep it across bind** (proved). Data sent to a socket is received exactly once in the order sent, and binding a socket to another address keeps data already queued; data sent by applications reaches the stack in sending order.
  Stated in `SockProps.v`, over `SockModel.v`; specification in `SockSpec.v`.
  Theorems: `C38_upward_order`, `C38_downward_order`, `C38_nothing_invented`, `C38_sends_as_addressed`, `C38_bind_keeps_data`.
  Under every interleaving of the atomic actions of any number of calls; offered data is put, refused or still in flight.

**C39 — A failed bind changes nothing and two sockets never share an address** (partial). At every point of every history two open sockets of the same protocol never hold the same local port; a bind that reports failure leaves all sockets as they were.
  Stated in `SockProps.v`, over `SockModel.v`; specification in `SockSpec.v`.
  Theorems: `C39_distinct_ports_partial`, `C39_bind`, `C39_new_port`, `C39_interleaved_bind_refuted`, `C39_interleaved_new_refuted`, `C39_bind_disturbed_refuted`, `C39_text_port_refuted`, `C39_failed_firewall_refuted`.
  For every tidy sequential history; interleaved calls, text ports, a failing firewall and a bind during which another thread opens or closes a socket are refuted with witnesses.

**C40 — Live capture keeps per-interface order under every thread schedule** (proved). With one capture thread per interface feeding one queue, under every interleaving the packets handed to user code are, for each interface, a prefix of those captured on it in order, none invented, duplicated, or attributed to another interface; once the threads and the queue drain nothing is lost.
  Stated in `LiveProps.v`, over `LiveModel.v`, `PacketModel.v`; specification in `LiveSpec.v`.
  Theorems: `C40_capture_order`, `C40_drained`, `C40_known_port`.
  Every interleaving of capture threads, user thread, signal handler and shutdown.

**C41 — Shutdown is final and idempotent** (partial). After shutdown every receive raises Shutdown once, no packet is delivered, and calling shutdown again has no further effect.
  Stated in `LiveProps.v`, over `LiveModel.v`, `PacketModel.v`; specification in `LiveSpec.v`.
  Theorems: `C41_no_packet_after_shutdown`, `C41_receive_raises_partial`, `C41_shutdown_idempotent`, `C41_stops`, `C41_signal_wakes`, `C41_receive_blocks_refuted`.
  Proved for receives with a timeout; a receive without a timeout can block for ever after shutdown (refuted theorem).

**C42 — Interface lookup is correct** (proved). Lookups by name, Ethernet address, IP address and number return an interface having that property whenever one exists and raise otherwise; bringing an interface up registers it once and only once and notifies the callback.
  Stated in `NetProps.v`, over `EthAddrModel.v`, `NetModel.v`.
  Theorems: `C42_by_name`, `C42_by_ipaddr`, `C42_by_macaddr`, `C42_by_number`, `C42_up_once`, `C42_callback`.
  The four lookups return exactly the interface holding the given name, address or number and raise otherwise; up/down state changes call the callback once per transition.

**C43 — Device selection respects include and exclude lists** (partial). The chosen device list contains exactly the usable devices that are included (or all, when no includes are given) and not excluded, without duplicates.
  Stated in `NetProps.v`, over `EthAddrModel.v`, `NetModel.v`.
  Theorems: `C43_device_selection_partial`, `C43_refuted`.
  Devices chosen are exactly those present, not loopback-like, included and not excluded, when the include list names an existing device; C43_refuted: an include list naming no existing device selects all devices.

**C44 — Firewall rules are interpreted as written or refused** (partial). A rule is accepted exactly if it is all, none, or protocol[:port] with a known protocol, and the resulting command blocks that protocol and port and nothing else.
  Stated in `FwProps.v`, over `EthAddrModel.v`, `FwModel.v`; specification in `FwSpec.v`.
  Theorems: `C44_linux_blocks_partial`, `C44_linux_accepts`, `C44_refused`, `C44_bad_port_refuted`, `C44_big_port_refuted`, `C44_mac_partial`, `C44_mac_port_refuted`, `C44_mac_none_refuted`, `C44_spaces`.
  Linux: documented rules drop exactly what they cover, and texts not starting with a protocol name are refused. Refuted: malformed or too large ports are accepted; macOS port and none rules.

**C45 — The host firewall is restored on exit** (proved). Whatever rules were requested, leaving the firewall context restores the saved configuration and settings of every interface exactly.
  Stated in `FwProps.v`, over `EthAddrModel.v`, `FwModel.v`; specification in `FwSpec.v`.
  Theorems: `C45_restored`, `C45_duplicate_refuted`.
  Linux firewall; commands are assumed to do what iptables, iptables-save/restore and sysctl document. Interfaces listed once; the refuted theorem shows that this is needed.

**C46 — Topology element names and Ethernet addresses are unique** (partial). In a topology built by any sequence of add operations without explicit names, no two nodes share a name and no two interfaces share an Ethernet address.
  Stated in `TopoProps.v`, over `EthAddrModel.v`, `TopoModel.v`; specification in `TopoSpec.v`.
  Theorems: `C46_names`, `C46_added`, `C46_automatic`, `C46_macs_partial`, `C46_macs_reload_refuted`, `C46_macs_union_refuted`.
  Names: every history. Ethernet addresses: every history without hand-set addresses, loading or union; loading and union restart the numbering (refuted theorems).

**C47 — Topology links and interfaces agree** (partial). After any sequence of operations, each link joins two existing nodes and names one interface on each end that exists at that node, and queries for the interfaces of a link return those two.
  Stated in `TopoProps.v`, over `EthAddrModel.v`, `TopoModel.v`; specification in `TopoSpec.v`.
  Theorems: `C47_links_partial`, `C47_listed`, `C47_remove_link`, `C47_remove_node`, `C47_own_interface`, `C47_query_partial`, `C47_query_refuted`, `C47_reserved_refuted`, `C47_prefix_refuted`, `C47_reload_refuted`, `C47_set_addresses`.
  Every history whose explicit names are not keys of the link record and whose prefixes do not clash with names; getLinkInterfaces repeats the first interface, and reserved names, clashing prefixes and links made after loading break the records (refuted theorems).

**C48 — OpenFlow 1.0 messages round-trip** (partial). For OpenFlow 1.0 headers, matches, actions, flow-mods, packet-in/out and the other fixed messages, parsing the serialised form yields an equal message; the header length is the number of bytes of the message.
  Stated in `OfProps.v`, over `ArpModel.v`, `EthAddrModel.v`, `OfModel.v`; specification in `EthAddrSpec.v`, `OfLayout.v`, `OfSpec.v`.
  Theorems: `C48_message_partial`, `C48_bare`, `C48_actions`, `C48_size`, `C48_size_refuted`, `C48_flags_refuted`, `C48_name_refuted`, `C48_default_refuted`, `C48_error_refuted`, `C48_portstats_refuted`, `C48_prefix_refuted`, `C48_stats_refuted`, `C48_statsreq_refuted`, `C48_strip_refuted`, `C48_constructors`, `C48_text`, `C48_flag_members`, `C48_add_flag`.
  Every message type, all action, port and queue lists; strings come back NUL-padded and flag sets are compared by their bits. Exact equality, address prefixes in matches, port statistics errors, aggregate requests, defaults of packet-out and error, and two size() methods are wrong (refuted theorems).

**C49 — OpenFlow action parsing always finishes** (proved). Parsing any byte string as an OpenFlow action list terminates with a list or an error.
  Stated in `OfProps.v`, over `ArpModel.v`, `EthAddrModel.v`, `OfModel.v`; specification in `EthAddrSpec.v`, `OfLayout.v`, `OfSpec.v`.
  Theorems: `C49_actions_finish`, `C49_message_finish`, `C49_short`.
  Action lists, and whole messages with port, queue and property lists.

**C50 — OpenFlow packet buffers keep every buffered packet** (partial). Every packet stored in the switch packet buffer is returned by its id exactly once, until removed, and storing a packet never discards another.
  Stated in `SwProps.v`, over `ArpModel.v`, `EthAddrModel.v`, `EthModel.v`, `FieldModel.v`, `IcmpModel.v`, `Ipv4Model.v`, `Ipv6Model.v`, `OfModel.v`, `PacketModel.v`, `SwModel.v`, `TransportModel.v`; specification in `SwSpec.v`.
  Theorems: `C50_capacity`, `C50_fetch`, `C50_pile_partial`, `C50_keep_refuted`.
  Capacity, ids, fetch and lookup for every history; no packet is lost as long as fetches are newest first. For other orders refuted: the next store overwrites a buffered packet.

**C51 — Flow table lookup returns the best matching entry** (partial). A lookup returns a matching entry of highest priority, if any entry matches, and deleting an entry removes that entry only.
  Stated in `SwProps.v`, over `ArpModel.v`, `EthAddrModel.v`, `EthModel.v`, `FieldModel.v`, `IcmpModel.v`, `Ipv4Model.v`, `Ipv6Model.v`, `OfModel.v`, `PacketModel.v`, `SwModel.v`, `TransportModel.v`; specification in `SwSpec.v`.
  Theorems: `C51_lookup_partial`, `C51_stands`, `C51_lookup_refuted`, `C51_delete_fails`, `C51_delete_refuted`, `C51_order`, `C51_miss`, `C51_priority_refuted`, `C51_add`, `C51_overlap`.
  As the code stands add always raises NameError, tables hold at most one entry and lookups with a port raise (refuted); lookup without port proved. With the missing names imported: lookup returns a lowest-priority entry (C51_order, priority refuted); delete removes nothing.

**C52 — Emulated links deliver each packet once, never early, in time order** (partial). A simulated link hands every packet over exactly once, not before its delivery time, and in order of delivery time whatever the order and timing of submissions.
  Stated in `LinkProps.v`, over `LinkModel.v`, `PacketModel.v`; specification in `LinkSpec.v`.
  Theorems: `C52_once`, `C52_not_early`, `C52_order`, `C52_earliest`, `C52_prompt_partial`, `C52_survives_partial`, `C52_delivered_partial`, `C52_clock_refuted`, `C52_tie_refuted`, `C52_order_refuted`.
  Delivered at most once, never early, first put and first due comes out first: proved for every schedule. Delivery of everything is proved while the thread runs, and the thread runs unless a due time falls between the two clock readings of a round or two entries tie (both refuted with witnesses); a packet waiting in the queue can come out after one due later (refuted).

**C53 — User code receives exactly the arguments it accepts** (proved). Command-line code arguments are split into positional and key=value arguments without loss or reordering, and the user entry point is called with the net object and exactly the groups of arguments its signature accepts.
  Stated in `UserProps.v`, over `EthAddrModel.v`, `UserModel.v`; specification in `UserSpec.v`.
  Theorems: `C53_every_text`, `C53_parse`, `C53_parse_error`, `C53_equals_refuted`, `C53_called`, `C53_entered`, `C53_named_refuted`, `C53_keyword_refuted`, `C53_star_refuted`, `C53_clash_refuted`, `C53_entry`, `C53_entry_error`, `C53_spaces`.
  For every text and every signature. Refuted sub-claims: a value containing =, a named parameter after net, a default parameter given by key, def main(*args), a key equal to the name of the net parameter.

**C54 — An Ethernet address object is always six bytes and equals only addresses** (partial). Every EthAddr object that can be constructed holds exactly six bytes, and comparing it for equality with a value that is not an address is False, never True and never an error.
  Stated in `EthAddrProps.v`, over `EthAddrModel.v`; specification in `EthAddrSpec.v`.
  Theorems: `C54_six_bytes_refuted`, `C54_equality_with_non_address_refuted`.
  The property is false of the code; both halves are refuted with witnesses.

**C55 — IPv4 fragmentation flags sit where RFC 791 puts them** (partial). A header built with the More Fragments (or Don't Fragment) flag serialises it in the position RFC 791 gives it, and the fragment offset and flags of a parsed header mean what RFC 791 says.
  Stated in `Ipv4Props.v`, over `ArpModel.v`, `Ipv4Model.v`; specification in `ChecksumSpec.v`.
  Theorems: `C55_more_fragments_refuted`, `C55_flags_partial`.
  More Fragments uses the reserved bit and real first fragments are refused (refuted); the partial theorem gives the accepted flags and offset.

**C56 — Header-length fields below the minimum are rejected** (partial). A received IPv4 or TCP header whose own header-length field says less than the 20-byte minimum is rejected; the bytes handed on as payload never overlap the header.
  Stated in `Ipv4Props.v`, `TransportProps.v`, over `ArpModel.v`, `Ipv4Model.v`, `TransportModel.v`; specification in `ChecksumSpec.v`.
  Theorems: `C56_ipv4_header_length_refuted`, `C56_ipv4_header_length_partial`, `C56_tcp_offset_refuted`, `C56_tcp_offset_partial`.
  False of the code for both headers; partial theorems say where the payload starts.

**C57 — Ethernet padding is not part of the packet payload** (partial). Bytes after the end given by the IPv4 total length (or UDP length) do not become payload of the parsed packet.
  Stated in `PacketProps.v`, over `ArpModel.v`, `ChecksumModel.v`, `EthAddrModel.v`, `EthModel.v`, `IcmpModel.v`, `Ipv4Model.v`, `Ipv6Model.v`, `PacketModel.v`, `RipModel.v`, `TransportModel.v`; specification in `ChecksumSpec.v`, `EthAddrSpec.v`, `PacketSpec.v`.
  Theorems: `C57_padding_becomes_payload`, `C57_padding_refuted`.
  False of the code: all trailing bytes become payload, for every stack (general theorem) and on a witness (refuted).

**C58 — UDP transmits a computed zero checksum as all ones** (partial). A UDP datagram sent inside IPv4 never carries the value 0 in its checksum field, because 0 tells the receiver that there is no checksum.
  Stated in `TransportProps.v`, over `ArpModel.v`, `Ipv4Model.v`, `TransportModel.v`; specification in `ChecksumSpec.v`.
  Theorems: `C58_zero_checksum_refuted`.
  False of the code: witness datagram.

**C59 — Forwarding keeps IPv4 options** (partial). Parsing an IPv4 header with options and serialising it again keeps the header length and option bytes.
  Stated in `Ipv4Props.v`, over `ArpModel.v`, `Ipv4Model.v`; specification in `ChecksumSpec.v`.
  Theorems: `C59_options_growth_refuted`, `C59_growth_is_one_word_partial`.
  False of the code: the header grows; the partial theorem gives the exact growth.

**C60 — Forwarding keeps TCP options** (partial). Parsing a TCP segment and serialising it again keeps its options.
  Stated in `TransportProps.v`, over `ArpModel.v`, `Ipv4Model.v`, `TransportModel.v`; specification in `ChecksumSpec.v`.
  Theorems: `C60_tcp_options_refuted`.
  False of the code: witness segment.

**C61 — Out-of-range field values are never silently changed** (partial). Serialising a header whose fields were assigned values too large for the wire format raises; it never emits bytes that parse to different values or change a neighbouring field.
  Stated in `Ipv6Props.v`, `RangeProps.v`, over `Ipv4Model.v`, `Ipv6Model.v`, `TransportModel.v`.
  Theorems: `C61_ipv6_fields_refuted`, `C61_udp`, `C61_tcp`, `C61_tcp_flags`, `C61_ipv6_partial`, `C61_ipv6_flow_fails`, `C61_ipv6_class_fails`.
  UDP, TCP and IPv6: bytes exactly when every field fits, struct.error otherwise, and read back. False for IPv6 flow labels (cut without error) and traffic classes 256-4095 (never read back): general theorems and witnesses.

**C62 — IPv6 extension-header option parsing always finishes** (proved). Parsing any byte string as a hop-by-hop or destination options header terminates with options or an error.
  Stated in `Ipv6Props.v`, over `Ipv6Model.v`.
  Theorems: `C62_option_loop_finishes`, `C62_hop_finishes`.

**C63 — Headers that compare equal serialise identically** (partial). If two headers of the same kind compare equal, serialising them inside the same packet gives the same bytes.
  Stated in `PacketProps.v`, over `ArpModel.v`, `ChecksumModel.v`, `EthAddrModel.v`, `EthModel.v`, `IcmpModel.v`, `Ipv4Model.v`, `Ipv6Model.v`, `PacketModel.v`, `RipModel.v`, `TransportModel.v`; specification in `ChecksumSpec.v`, `EthAddrSpec.v`, `PacketSpec.v`.
  Theorems: `C63_equal_packets_same_bytes_partial`, `C63_equal_not_same_bytes_refuted`.
  Proved for packets of headers whose comparison covers all sent fields; (including ICMP and ICMPv6 echo and field-free messages); refuted for VLAN priority, IPv4 options, ICMP redirect data, ARP lengths.

**C64 — Forwarding an ICMP message leaves it unchanged** (partial). An ICMP message that is received and serialised again without being changed by the user has the same bytes.
  Stated in `IcmpProps.v`, over `ArpModel.v`, `ChecksumModel.v`, `EthAddrModel.v`, `IcmpModel.v`, `Ipv4Model.v`, `Ipv6Model.v`; specification in `ChecksumSpec.v`, `EthAddrSpec.v`.
  Theorems: `C64_icmp_forward_partial`, `C64_unused_bytes_refuted`, `C64_corruption_hidden_refuted`.
  Forwarding is exact when the checksum verifies and unused bytes are zero; refuted otherwise.

**C65 — Forwarding a RIPv2 message leaves it unchanged** (partial). A RIPv2 message that is received and serialised again has the same bytes, and parsing never depends on what the message object held before.
  Stated in `RipProps.v`, over `RipModel.v`.
  Theorems: `C65_stable_partial`, `C65_mask_changed_refuted`, `C65_parse_appends_refuted`.
  Byte-exact forwarding is false (refuted); the partial theorem gives semantic stability.

**C66 — Comparing packets is an equivalence** (partial). Packet comparison is reflexive and symmetric: a packet equals its own serialised form, and if p == q then q == p.
  Stated in `PacketEqProps.v`, `PacketProps.v`, over `ArpModel.v`, `ChecksumModel.v`, `EthAddrModel.v`, `EthModel.v`, `IcmpModel.v`, `Ipv4Model.v`, `Ipv6Model.v`, `PacketModel.v`, `RipModel.v`, `TransportModel.v`; specification in `ChecksumSpec.v`, `EthAddrSpec.v`, `PacketSpec.v`.
  Theorems: `C66_equality_symmetric_partial`, `C66_equality_transitive_partial`, `C66_icmp_refuted`, `C66_equality_reflexive`, `C66_equality_symmetric_refuted`.
  Reflexive on serialisable packets, symmetric and transitive for equal header classes and ICMP data of the kind of its type (C18); refuted in general by hop/destination option headers and by ICMP data refused on assignment.

**C67 — Byte strings put into a packet are sent as payload** (partial). However a byte string is put into a packet (add_header, +, prepend_header, insert_header, index assignment), serialising the packet sends these bytes.
  Stated in `PacketProps.v`, over `ArpModel.v`, `ChecksumModel.v`, `EthAddrModel.v`, `EthModel.v`, `IcmpModel.v`, `Ipv4Model.v`, `Ipv6Model.v`, `PacketModel.v`, `RipModel.v`, `TransportModel.v`; specification in `ChecksumSpec.v`, `EthAddrSpec.v`, `PacketSpec.v`.
  Theorems: `C67_added_bytes_sent_partial`, `C67_other_bytes_unserialisable`, `C67_bytes_refuted`.
  Holds for add_header and +; false for the other ways: general theorem that such packets cannot be serialised, and a witness.

**C68 — UDP and TCP over IPv6 carry a verifying checksum** (partial). A UDP or TCP segment inside an IPv6 packet is sent with a checksum that verifies over the IPv6 pseudo-header.
  Stated in `PacketProps.v`, over `ArpModel.v`, `ChecksumModel.v`, `EthAddrModel.v`, `EthModel.v`, `IcmpModel.v`, `Ipv4Model.v`, `Ipv6Model.v`, `PacketModel.v`, `RipModel.v`, `TransportModel.v`; specification in `ChecksumSpec.v`, `EthAddrSpec.v`, `PacketSpec.v`.
  Theorems: `C68_udp_over_ip6_zero`, `C68_ip6_checksum_refuted`.
  False of the code: the field is always 0 (general theorem for UDP, witnesses for both).

**C69 — Parsing a packet always finishes** (partial). Constructing a Packet from any byte string, starting with any header class, returns a packet or raises after a number of steps bounded by the input length.
  Stated in `PacketProps.v`, over `ArpModel.v`, `ChecksumModel.v`, `EthAddrModel.v`, `EthModel.v`, `IcmpModel.v`, `Ipv4Model.v`, `Ipv6Model.v`, `PacketModel.v`, `RipModel.v`, `TransportModel.v`; specification in `ChecksumSpec.v`, `EthAddrSpec.v`, `PacketSpec.v`.
  Theorems: `C69_packet_parse_terminates_partial`, `C69_rounds`.
  The header loop always finishes; the only possible endless loops are the option loops of IPv4 (C14) and ICMPv6 (C21).

**C70 — Forwarding a received frame unchanged sends the received bytes** (partial). A frame that is parsed and serialised again without being changed by the user is sent byte for byte as it was received.
  Stated in `PacketProps.v`, over `ArpModel.v`, `ChecksumModel.v`, `EthAddrModel.v`, `EthModel.v`, `IcmpModel.v`, `Ipv4Model.v`, `Ipv6Model.v`, `PacketModel.v`, `RipModel.v`, `TransportModel.v`; specification in `ChecksumSpec.v`, `EthAddrSpec.v`, `PacketSpec.v`.
  Theorems: `C70_forward_udp_partial`, `C70_forward_tcp_partial`, `C70_forward_icmp_partial`, `C70_forward_arp`, `C70_forward_changed_refuted`.
  Byte-exact for good UDP, TCP and ICMP frames and all ARP frames; refuted for missing or wrong UDP checksums and link padding.

**C71 — Interface address bookkeeping is a set** (proved). Assigning an IP address to an interface adds exactly that address once, assigning it again changes nothing, removing takes away exactly that address, and every assigned address is found by the address lookup of the network object.
  Stated in `NetProps.v`, over `EthAddrModel.v`, `NetModel.v`.
  Theorems: `C71_assign`, `C71_assign_once`, `C71_remove`, `C71_assigned_is_found`, `C71_remove_refused`, `C71_unknown_refused`, `C71_no_address`.
  Assign/remove as set operations; assigned addresses are found by lookup.

**C72 — Scenario interfaces get distinct numbers in order** (partial). Interfaces added to a test scenario without an explicit number are numbered 0, 1, 2, ... in the order they are added, so that no two share a number.
  Stated in `NetProps.v`, over `EthAddrModel.v`, `NetModel.v`.
  Theorems: `C72_scenario_numbers_partial`, `C72_refuted`, `C72_numbers`.
  Distinct names get numbers 0.. in order; C72_refuted: re-adding a name can give two interfaces the same number.

**C73 — Receive timeouts of emulated sockets follow settimeout** (partial). After settimeout(t) a receive on a socket with nothing pending waits t seconds (for ever if t is None, not at all if t is 0), and gettimeout returns t.
  Stated in `SockProps.v`, over `SockModel.v`; specification in `SockSpec.v`.
  Theorems: `C73_positive_timeout_partial`, `C73_zero_timeout`, `C73_kept`, `C73_receive`, `C73_negative_fails`, `C73_no_timeout_refuted`, `C73_zero_gettimeout_refuted`, `C73_answers`.
  Positive times and zero wait as asked, receiving takes the oldest datagram, a negative time on a blocking socket is refused by the next receive; None keeps the old time and gettimeout after 0 returns the old time (refuted theorems).

**C74 — Shutdown closes every device** (partial). When shutdown has returned, all capture threads have ended and every capture device is closed, so that no further packet is captured.
  Stated in `LiveProps.v`, over `LiveModel.v`, `PacketModel.v`; specification in `LiveSpec.v`.
  Theorems: `C74_shutdown_closes_partial`, `C74_after_signal_refuted`.
  Proved when shutdown is called while running; after SIGINT it closes nothing (refuted theorem).

**C75 — A saved topology loads as it was** (partial). Saving a topology to text and loading it gives a topology with the same nodes and node classes, interfaces, Ethernet and IP addresses, links, capacities and delays, and links made later behave as they would have in the original.
  Stated in `TopoProps.v`, over `EthAddrModel.v`, `TopoModel.v`; specification in `TopoSpec.v`.
  Theorems: `C75_save_load_partial`, `C75_name`, `C75_name_refuted`, `C75_ipv6_refuted`, `C75_later_refuted`.
  IPv4 addresses only (IPv6 cannot be loaded: refuted), zero addresses are dropped, links made after loading overwrite interfaces (refuted), and the name of a topology without nodes is lost (refuted).

**C76 — Automatic IP addresses** (partial). Assigning addresses from a prefix gives every link interface of a host or router one address inside the prefix, different interfaces different addresses, leaves all other interfaces alone, and fails only when the prefix has too few host addresses.
  Stated in `TopoProps.v`, over `EthAddrModel.v`, `TopoModel.v`; specification in `TopoSpec.v`.
  Theorems: `C76_assigned`, `C76_enough`, `C76_twice_refuted`.
  Prefix lengths up to 31, no self links, histories without loading; a second call reuses addresses (refuted).

**C77 — OpenFlow 1.0 messages have the published wire layout** (partial). A serialised OpenFlow 1.0 message is the eight-byte header (version, type, total length, transaction id) followed by the body laid out as the published structures say: every field at its offset, big-endian, with zero padding where the structure has padding.
  Stated in `OfProps.v`, over `ArpModel.v`, `EthAddrModel.v`, `OfModel.v`; specification in `EthAddrSpec.v`, `OfLayout.v`, `OfSpec.v`.
  Theorems: `C77_layout_partial`, `C77_match`, `C77_actions`, `C77_layout_refuted`, `C77_read_match`, `C77_flag_values`, `C77_defaults`.
  Every message but packet-in, flow and aggregate statistics replies and the supported-actions field, for which the layout is refuted; strip-VLAN is four bytes as the code has it.

**C78 — Header attributes hold what is assigned** (partial). Assigning a value that a header field can hold succeeds, the attribute then reads that value and every attribute showing other information is unchanged; a value the field cannot hold is refused with an exception; constructor keyword arguments behave as such assignments over the documented defaults.
  Stated in `FieldProps.v`, over `ArpModel.v`, `EthAddrModel.v`, `EthModel.v`, `FieldModel.v`, `Ipv4Model.v`, `Ipv6Model.v`, `PacketModel.v`, `TransportModel.v`; specification in `FieldSpec.v`.
  Theorems: `C78_assign_partial`, `C78_ecn_partial`, `C78_refuse_partial`, `C78_unknown`, `C78_readonly`, `C78_defaults`, `C78_keywords_partial`, `C78_keywords_refuse_partial`, `C78_pcp_refuted`, `C78_vlanid_refuted`, `C78_unchecked_refuted`, `C78_ecn_refuted`, `C78_flag_bits`.
  False for VLAN priority and identifier, the IPv4 ECN setter and every unchecked setter of UDP, TCP and IPv6 (refuted); proved for all other attributes and values. IPv4.checksum and options are outside this table.

**C79 — OpenFlow matches mean what OpenFlow 1.0 says** (partial). A match matches a packet exactly if every field the packet shows is wildcarded in the match or equal to the value of the match (for IP addresses: in the bits not wildcarded), and a match built from a packet has every field of it and matches it.
  Stated in `SwProps.v`, over `ArpModel.v`, `EthAddrModel.v`, `EthModel.v`, `FieldModel.v`, `IcmpModel.v`, `Ipv4Model.v`, `Ipv6Model.v`, `OfModel.v`, `PacketModel.v`, `SwModel.v`, `TransportModel.v`; specification in `SwSpec.v`.
  Theorems: `C79_match_partial`, `C79_udp_partial`, `C79_build_partial`, `C79_udp_refuted`, `C79_vlan_fails`, `C79_vlan_refuted`, `C79_other_refuted`, `C79_tagged_fails`, `C79_tagged_refuted`.
  Proved for packets without VLAN, ARP, IPv6, UDP (UDP except its destination port); refuted for each of those.

**C80 — A match reported to match another covers it** (partial). If one match is reported to match another then every packet it matches is matched by the other too; matches that compare strictly equal match the same packets.
  Stated in `SwProps.v`, over `ArpModel.v`, `EthAddrModel.v`, `EthModel.v`, `FieldModel.v`, `IcmpModel.v`, `Ipv4Model.v`, `Ipv6Model.v`, `OfModel.v`, `PacketModel.v`, `SwModel.v`, `TransportModel.v`; specification in `SwSpec.v`.
  Theorems: `C80_cover_partial`, `C80_cover_refuted`, `C80_all_refuted`, `C80_strict_refuted`.
  Proved when the covered match is exact; refuted for wildcards of its own, the All wildcard and strict comparison of prefix lengths.

**C81 — Flow entries expire when their timeouts run out, not before** (partial). An entry is expired exactly when its idle timeout has passed since it last matched (or since it was added) or its hard timeout since it was added; an expiry run removes exactly the expired entries and reports those that ask for it.
  Stated in `SwProps.v`, over `ArpModel.v`, `EthAddrModel.v`, `EthModel.v`, `FieldModel.v`, `IcmpModel.v`, `Ipv4Model.v`, `Ipv6Model.v`, `OfModel.v`, `PacketModel.v`, `SwModel.v`, `TransportModel.v`; specification in `SwSpec.v`.
  Theorems: `C81_expired_partial`, `C81_removed`, `C81_idle_refuted`, `C81_keep_refuted`, `C81_stands`, `C81_stands_refuted`.
  Proved for entries that matched before or have no idle timeout; refuted for others; removal only of entries asking for notification (refuted); as the code stands the run raises NameError (refuted).

**C82 — The controller connection carries whole messages** (partial). A message sent to the controller is sent completely, in order and once, however little the socket accepts at a time; a message received is exactly one message whatever the segmentation of the stream, and a closed connection ends the receive.
  Stated in `SwProps.v`, over `ArpModel.v`, `EthAddrModel.v`, `EthModel.v`, `FieldModel.v`, `IcmpModel.v`, `Ipv4Model.v`, `Ipv6Model.v`, `OfModel.v`, `PacketModel.v`, `SwModel.v`, `TransportModel.v`; specification in `SwSpec.v`.
  Theorems: `C82_send`, `C82_frame_partial`, `C82_split_refuted`, `C82_eof_refuted`, `C82_connect_fails`, `C82_connect_refuted`, `C82_received_partial`.
  Sending proved; framing proved when the header arrives in one piece; refuted for split headers, end of file within a message, and connecting at all as the code stands.

**C83 — Switch actions are carried out on the packet in order** (partial). Actions of an entry are applied in order: output goes out of the named port, flooding out of every port but the input port once, and set-field actions change the packet that later outputs send.
  Stated in `SwProps.v`, over `ArpModel.v`, `EthAddrModel.v`, `EthModel.v`, `FieldModel.v`, `IcmpModel.v`, `Ipv4Model.v`, `Ipv6Model.v`, `OfModel.v`, `PacketModel.v`, `SwModel.v`, `TransportModel.v`; specification in `SwSpec.v`.
  Theorems: `C83_flood`, `C83_order`, `C83_setfield_fails`, `C83_setfield_refuted`, `C83_inport`, `C83_reserved_fails`, `C83_controller_refuted`.
  Output to ports and flooding proved; set-field actions raise and nothing after them is done (refuted).

**C84 — Simulated wires carry packets to the other end of their link only** (proved). In a simulation built from a set of links in which every (node, device) is an end of at most one link, a packet received at (v, dev) was sent into the device at the other end of that link (or handed to v as host packet), no more often than it was sent, and not before the send time plus length / capacity plus delay; both directions work; sending into a device without link raises and changes nothing.
  Stated in `LinkProps.v`, over `LinkModel.v`, `PacketModel.v`; specification in `LinkSpec.v`.
  Theorems: `C84_conserved`, `C84_timing`, `C84_both_ways`, `C84_no_link`.
  For every set of links with distinct ends and every schedule; arrival itself is subject to C52.

**C85 — The application runs once the network is ready, and its end ends the network** (partial). With an application layer program on the command line, its code starts only after the host firewall has been set up, both threads come to an end whatever their interleaving once the main thread gets to the rendezvous, the firewall is restored when the main thread ends, and the network object is shut down when the application ends or the user code returns.
  Stated in `UserProps.v`, over `EthAddrModel.v`, `UserModel.v`; specification in `UserSpec.v`.
  Theorems: `C85_after_firewall`, `C85_finishes`, `C85_bounded`, `C85_shutdown_partial`, `C85_shutdown_refuted`, `C85_waits_forever`, `C85_hang_refuted`, `C85_firewall_down`, `C85_closed`, `C85_raise_refuted`.
  Start after the firewall, absence of deadlock once the barrier is reached, bounded steps, firewall restored, shutdown after the user code returns: proved for all interleavings. Refuted: the application thread waits for ever when the main thread never gets to the barrier; an application that ends before the network object exists is missed; user code that raises leaves the network open.

**C86 — Capacities and delays written as text mean what they say and survive being shown** (partial). Reading a capacity such as '10 Mb/s' or '1.5 MB' gives that many bits per second (bytes count eight), and reading a delay such as '10 msec' gives the float nearest to that many seconds. A capacity or delay that the topology shows in the label of a link can be read back, and gives the same capacity or delay. Text that is not a capacity or a delay is refused.
  Stated in `UnitProps.v`, over `EthAddrModel.v`, `UnitModel.v`, `UserModel.v`; specification in `UnitSpec.v`.
  Theorems: `C86_rounding`, `C86_capacity`, `C86_capacity_fraction_partial`, `C86_capacity_fraction_refuted`, `C86_capacity_unit_fails`, `C86_capacity_unit_refuted`, `C86_capacity_back_partial`, `C86_capacity_back_refuted`, `C86_repr`, `C86_delay`, `C86_delay_shown`, `C86_delay_back_partial`, `C86_delay_back_fails`, `C86_delay_back_refuted`, `C86_errors`.
  Whole numbers of documented units are read exactly, delays as the nearest double, capacities with a fraction to within 1.5 bit/s; shown and read back a capacity is the same or one less (the same for whole numbers of the unit shown). Refuted: 1.001 Kb/s is read as 1000; 1001 bit/s comes back as 1000; an unknown unit gives capacity 0; every delay except whole seconds and one millisecond is shown in a form that cannot be read back. Floats are rationals rounded to 53 bits (rounding proved to be to the nearest double); repr() is a parameter, used only for non-whole numbers, assumed to print a numeral that float() reads back (an instance is proved).

**C87 — The simulator command line does not lose changes without asking** (partial). When the topology has been changed since it was started, saved or loaded, leaving the command line or loading another topology first asks whether the changes may be dropped. Answering no leaves everything as it was. Saving writes the topology to the named file and touches no other file. No question is asked when nothing has changed.
  Stated in `CliProps.v`, over `CliModel.v`, `EthAddrModel.v`, `LinkModel.v`, `PacketModel.v`, `TopoModel.v`, `UnitModel.v`; specification in `CliSpec.v`, `LinkSpec.v`, `TopoSpec.v`.
  Theorems: `C87_asks_partial`, `C87_no`, `C87_saved`, `C87_clean`, `C87_set_refuted`, `C87_died_refuted`, `C87_needless_refuted`.
  Exit and load ask in every session without set link; refuted: set link is not noticed, an exception loses the changes, and removing an unknown node counts as a change.

**C88 — The simulated network is always that of the topology** (partial). After every command the simulated network has a node for each node of the topology, and each interface of a simulated node leads to the interface at the other end of its link, with the capacity and the delay of the link. Packets that come in at a node were sent by the neighbour on that link, not earlier than capacity and delay allow. Link settings are read from the words after their names, in either order.
  Stated in `CliProps.v`, over `CliModel.v`, `EthAddrModel.v`, `LinkModel.v`, `PacketModel.v`, `TopoModel.v`, `UnitModel.v`; specification in `CliSpec.v`, `LinkSpec.v`, `TopoSpec.v`.
  Theorems: `C88_follows_partial`, `C88_travel_partial`, `C88_set_fails`, `C88_set_refuted`, `C88_set_node_fails`, `C88_load_refuted`, `C88_settings`, `C88_settings_refuted`.
  For every session without set link, load and reserved names; set never reaches the network (general theorem and witness), set node does nothing, links made after loading share interfaces (refuted). Travel also excludes links from a node to itself. Settings: words that can be taken for the name of a setting are excluded; refuted for the unit b.

**C89 — Only exit ends the simulator command line** (partial). No line typed at the command line, however wrong, ends the simulator: commands report what is wrong, and the next line can be typed. Only exit (or end of input) ends it.
  Stated in `CliProps.v`, over `CliModel.v`, `EthAddrModel.v`, `LinkModel.v`, `PacketModel.v`, `TopoModel.v`, `UnitModel.v`; specification in `CliSpec.v`, `LinkSpec.v`, `TopoSpec.v`.
  Theorems: `C89_stays_partial`, `C89_load_fails`, `C89_exec_fails`, `C89_load_refuted`, `C89_name_fails`, `C89_link_refuted`, `C89_capacity_refuted`, `C89_replay_refuted`.
  For topologies whose links are complete, and sessions without load, exec, replay, existing names, reserved names and unreadable settings. Loading and exec always end the program when there is a node (general theorems); witnesses for the others.

**C90 — Commands of the simulator can be abbreviated** (partial). A prefix that fits one command only does what the command does, whatever follows and in every state.
  Stated in `CliProps.v`, over `CliModel.v`, `EthAddrModel.v`, `LinkModel.v`, `PacketModel.v`, `TopoModel.v`, `UnitModel.v`; specification in `CliSpec.v`, `LinkSpec.v`, `TopoSpec.v`.
  Theorems: `C90_prefix_partial`, `C90_exit_refuted`.
  Every command but exit, whose abbreviations are not recognized (refuted).

**C91 — The capacity of a link limits what it carries** (partial). A link of capacity c carries at most c bits per second in each direction: a packet of k bytes takes 8k/c seconds plus the delay of the link, and packets that are sent while another one is on its way to the wire wait for it.
  Stated in `LinkProps.v`, over `LinkModel.v`, `PacketModel.v`; specification in `LinkSpec.v`.
  Theorems: `C91_time_fails`, `C91_rate_refuted`.
  False: C91_time_fails shows for every network and history that a packet is due after len/capacity seconds (bytes divided by bits per second, an eighth of the time), with no regard to packets before it; C91_rate_refuted sends twice the capacity.

**C92 — What is written to a capture file is what is read from it** (partial). Packets written to a capture file are read back in the same order with the same bytes, lengths and times (to within the microsecond resolution of the format), whether they are read one by one or handed out in pieces, and a filter leaves out exactly the packets that do not pass. Times stay in order. Anything that is not bytes is refused. Copying a file record by record keeps the times.
  Stated in `CapProps.v`, over `CapModel.v`, `UnitModel.v`; specification in `CapSpec.v`, `UnitSpec.v`.
  Theorems: `C92_round_partial`, `C92_elsewhere`, `C92_order`, `C92_pieces`, `C92_count`, `C92_bytes`, `C92_zero_refuted`, `C92_copy_partial`, `C92_copy_refuted`.
  Proved for times above 0 up to 2038, with times kept to within -1.25/+0.25 microseconds. False for a time of 0, which is replaced by the clock, and for exact copying: a time may go down by one microsecond per copy (never more, never up). libpcap is assumed to keep records.

**C93 — A packet sent on a live device goes out there unchanged** (partial). Sending a packet on a live device, named by name, number or interface, hands exactly the bytes of the packet to that device and to no other, once; only lengths and checksums of the caller's packet are filled in, and whoever receives the bytes reads the packet that was sent. On a loopback device the same holds for the packet without its link header. What is not a packet, and a device that is not known, is refused with ValueError and nothing goes out.
  Stated in `SendProps.v`, over `EthAddrModel.v`, `EthModel.v`, `Ipv4Model.v`, `Ipv6Model.v`, `PacketModel.v`, `SendModel.v`, `TransportModel.v`; specification in `PacketSpec.v`, `SendSpec.v`.
  Theorems: `C93_wired`, `C93_refused`, `C93_unknown_fails`, `C93_up_refuted`, `C93_loop_partial`, `C93_loop_fails`, `C93_twice_refuted`, `C93_loop6_fails`.
  Proved for devices that are not loopback devices, and for IPv4 packets on loopback devices. False otherwise: IPv6 on a loopback device is never sent, the link header is deleted from the packet of the caller, unknown numbers and interfaces raise KeyError and AttributeError, an interface put up later cannot be sent on.

**C94 — The interfaces of a live network are those of the system** (partial). A live network shows one interface for each chosen device that has addresses, under its name and with its number, its link-layer address, all of its IP addresses with their prefix lengths, and its kind (loopback, wired, wireless). With the devices chosen by the library this always succeeds.
  Stated in `SendProps.v`, over `EthAddrModel.v`, `EthModel.v`, `Ipv4Model.v`, `Ipv6Model.v`, `PacketModel.v`, `SendModel.v`, `TransportModel.v`; specification in `PacketSpec.v`, `SendSpec.v`.
  Theorems: `C94_devices_partial`, `C94_prefix_fails`, `C94_succeeds`, `C94_type_fails`, `C94_type_refuted`.
  Names, numbers, link-layer addresses, the set of IP addresses and loopback devices proved. False: every prefix length is 32 or 128 (C94_prefix_fails), and on Linux all other devices get the same kind (C94_type_fails, C94_type_refuted).

**C95 — Live capture devices: filters reach every open device, handles are closed once** (partial). Whatever threads open, create, filter, use, close and forget live capture devices, in whatever order: a call that sets a filter on all devices sets that filter exactly once on every device that is ready when the call returns; it and the calls that close devices give the capture library only handles that are open; no handle is closed twice; closing a device a second time raises an exception and does nothing; the lock is always given back.
  Stated in `PdevProps.v`, over `PdevModel.v`; specification in `PdevSpec.v`.
  Theorems: `C95_handles`, `C95_all`, `C95_filter`, `C95_raises`, `C95_lock`, `C95_close_again`, `C95_leak_stands`, `C95_null_refuted`, `C95_created_refuted`, `C95_leak_refuted`, `C95_use_refuted`.
  Proved for every interleaving as long as the library does not refuse to create a device (pcap_create). False after such a refusal (a null pointer stays registered), with a device that is created and not activated (the call raises and leaves out the devices after it), and for constructors that raise after opening: their handle stays open for good. Methods of a closed device still pass its handle on.

**C96 — Receiving on a live capture device keeps to the time given** (partial). Receiving with a time returns a packet that comes within that time (at once, or after at most a tenth of the time where the device can only be polled), and None, when the time is over, if none comes; receiving without a time waits for a packet; the blocking property says and sets whether the device blocks.
  Stated in `RdevProps.v`, over `RdevModel.v`; specification in `RdevSpec.v`.
  Theorems: `C96_in_time`, `C96_forever`, `C96_polled`, `C96_zero`, `C96_no_wait_fails`, `C96_time_ignored_fails`, `C96_hangs_refuted`, `C96_created_fails`, `C96_blocking_fails`, `C96_stale_fails`, `C96_stale_refuted`.
  Proved for devices with a descriptor to wait on and for nonblocking ones that are polled. False otherwise: without a descriptor, receiving without a time returns at once (nonblocking) or the time is ignored (blocking); created devices raise TypeError; the blocking property is inverted when set, raises when the device is nonblocking and is never True.

**C97 — Packet monitors of the simulator record exactly the packets a node receives** (partial). After "monitor <where> pcap <name>", and until the interface is named again by a monitor or unmonitor command or the topology is rebuilt, the capture file opened for an interface gets exactly the packets that the node's program receives from that interface, in order, with all their bytes and their times; capturing keeps no packet from any program and does not end the command line. After unmonitor nothing more is written to the files of the interfaces named; every file is opened once, closed at most once, and never written after that; a rebuild closes all of them. The words after the command name exactly the interfaces they seem to, different interfaces get different files, and the list of monitors shown is the list of monitors in place. Debug and code monitors do not disturb the simulation.
  Stated in `MonProps.v`, over `CapModel.v`, `MonModel.v`; specification in `MonSpec.v`.
  Theorems: `C97_capture`, `C97_pass`, `C97_safe`, `C97_stop`, `C97_once`, `C97_rebuild`, `C97_listed`, `C97_where_exist`, `C97_where_all`, `C97_where_node`, `C97_where_interface`, `C97_names`, `C97_where_refuted`, `C97_names_refuted`, `C97_never_closed_fails`, `C97_twice_refuted`, `C97_code_fails`, `C97_listed_refuted`, `C97_debug_fails`, `C97_debug_hangs_fails`, `C97_unwritable_fails`, `C97_ascii`.
  Proved for capture monitors. False of the code: a file name ending in .pcap is shared by several interfaces; files are closed only by a rebuild, so monitoring again has the file open twice; code monitors never work and make the next rebuild end the command line; debug monitors stop the node for good and end the command line with the next line; a file that cannot be written ends the process at the first packet; a node named like the beginning of any/all cannot be named alone.

**C98 — The OpenFlow switch answers its controllers** (partial). Every request a controller sends is answered with exactly one message, to that controller only, of the right type and with the request's transaction id: hello by hello, features request by a description of the switch's ports, get-config by the configuration last set by any controller, barrier request by a barrier reply, echo request by an echo reply, stats request by a stats reply; a message of a type the switch does not handle is answered by an error. No message makes the switch stop listening to a controller. The same holds of a switch made for version 1.3.
  Stated in `OswProps.v`, over `EthAddrModel.v`, `EthModel.v`, `OfModel.v`, `OswModel.v`, `PacketModel.v`, `SwModel.v`; specification in `OfSpec.v`, `OswSpec.v`.
  Theorems: `C98_answers_partial`, `C98_unknown_partial`, `C98_fatal_fails`, `C98_default_fails`, `C98_unconnected_fails`, `C98_versions`, `C98_barrier_refuted`.
  Proved for a 1.0 switch whose connections come up, for hello, features, get/set-config, barrier and unhandled types, in every history. False of the code: connect uses undefined names, so no connection ever comes up (C98_unconnected_fails); echo, stats, flow-mod, hello of version 4 and unreadable messages end the thread (C98_fatal_fails); a switch made for 1.3 answers nothing until a 1.0 hello (C98_default_fails) and mixes up barrier and queue requests after it (C98_barrier_refuted).

**C99 — The OpenFlow switch announces packets, keeps them, and sends them out on request** (partial). Every packet that arrives and matches no flow is announced to every connected controller by a packet-in with the port it came in on, the first bytes of the packet as configured, and a buffer id; a later packet-out with that id sends the whole of that packet, and no other, to the ports named, in order, and a packet-out that carries a packet sends that packet. A full buffer costs at most the packet that found it full. Packets matching a flow a controller installed are handled by its actions without asking.
  Stated in `OswProps.v`, over `EthAddrModel.v`, `EthModel.v`, `OfModel.v`, `OswModel.v`, `PacketModel.v`, `SwModel.v`; specification in `OfSpec.v`, `OswSpec.v`.
  Theorems: `C99_packet_in_partial`, `C99_release_partial`, `C99_announced_any`, `C99_release_latest_partial`, `C99_full_fails`, `C99_raw_fails`, `C99_default_fails`, `C99_forwarding_fails`, `C99_release_refuted`.
  For a 1.0 switch: packet-in proved in full detail for histories without packet-outs, and for all histories that every controller is told of the packet under one id; a packet-out proved, for all histories, to send the packet last announced under its id. False of the code: the 101st unreleased packet ends the datapath (C99_full_fails); ids are reused while their packets wait (C99_release_refuted); packet-outs carrying data end the thread (C99_raw_fails); the default 1.3 switch stops at its first packet (C99_default_fails); the flow table is never filled (C99_forwarding_fails).

**C100 — OpenFlow 1.3 messages have the 1.3 layout and can be read back** (partial). Every OpenFlow 1.3 message that a program builds with the library, whatever it assigns to the attributes of its body and in whatever order, is serialised with the layout of the OpenFlow 1.3 specification: version, type, total length and transaction id, then the body holding the last values assigned. Parsing those bytes gives back an equal message, and a body reads back what a body of its class wrote.
  Stated in `Of13Props.v`, over `Of13Model.v`, `OfModel.v`; specification in `Of13Spec.v`, `OfLayout.v`, `OfSpec.v`.
  Theorems: `C100_bare_partial`, `C100_layout_partial`, `C100_assigned_partial`, `C100_read_partial`, `C100_read_refuted`, `C100_parse_fails`, `C100_round_refuted`, `C100_broken_fails`, `C100_number_fails`, `C100_queue_fails`, `C100_parse_reason`, `C100_refused`.
  Layout and assignments proved for bare headers, error, echo, experimenter and configuration messages, and reading their bodies back. False of the code: no 1.3 message can be parsed (C100_parse_fails); flow-mod, flow-removed, port-mod, port-status, features, packet-in and packet-out can never be serialised (C100_broken_fails); a type given as a number (C100_number_fails); queue requests have the 1.0 layout (C100_queue_fails). The statistics classes are not modelled.

**C101 — What the command line starts** (partial). The user's code is started exactly when it is named, nothing else was asked for (list of interfaces, simulator, compiling, dry run), its arguments and the firewall rules can be read, and there are scenarios or interfaces; without rules the host is shielded from everything that arrives on the interfaces used; rules given are the rules used; compiling runs nothing; --cli starts the simulator, with the topology given.
  Stated in `StartProps.v`, over `EthAddrModel.v`, `FwModel.v`, `StartModel.v`, `UserModel.v`; specification in `FwSpec.v`, `UserSpec.v`.
  Theorems: `C101_user_code`, `C101_rules_partial`, `C101_rules_refuted`, `C101_default_blocks_all`, `C101_compile`, `C101_bad_codearg`, `C101_simulator`, `C101_simulator_refuted`, `C101_topology_fails`.
  Start of user code, default blocking, compiling, unreadable arguments: characterised for all arguments. Rules given with an application are dropped, --cli alone prints usage, --topology always ends in NameError: refuted/fails.

**C102 — Scenarios in one run are independent** (partial). When several test scenarios are given, the result of each is one that testing it alone can give, and a failed scenario does not keep the others from being tested.
  Stated in `SeqProps.v`, over `PacketModel.v`, `SeqModel.v`, `TestModel.v`; specification in `TestSpec.v`.
  Theorems: `C102_independent_partial`, `C102_finished_leaves_nothing`, `C102_pass_cancels`, `C102_independent_refuted`, `C102_stops_refuted`, `C102_counted`.
  Independent as long as scenarios end where their script is finished or an input is due; otherwise an alarm left over fails the next scenario or stops the run (refuted).

**C103 — Compiled scenario files** (partial). Compiling X.py writes X.srpy; a compiled scenario read back behaves as the original; a file that was changed or cut short after compiling is refused; compiling one scenario leaves the compiled file of another alone.
  Stated in `FileProps.v`, over `EthAddrModel.v`, `FileModel.v`, `FwModel.v`, `StartModel.v`, `TestModel.v`; specification in `TestSpec.v`.
  Theorems: `C103_name`, `C103_name_refuted`, `C103_compiled_behaves_partial`, `C103_hooks_refuted`, `C103_overwritten_refuted`, `C103_digest`, `C103_cut_short`.
  Name of the compiled file characterised exactly (rstrip removes characters); round trip through any faithful codecs under the conditions of C35; digest check. Refuted: names ending in p, y or a dot, setup and teardown functions, two scenario files sharing a compiled file.

**C104 — The file named is the file loaded** (partial). Naming a file of user code or a scenario loads that file, whatever else Python has on its path and whatever was loaded before.
  Stated in `StartProps.v`, over `EthAddrModel.v`, `FwModel.v`, `StartModel.v`, `UserModel.v`; specification in `FwSpec.v`, `UserSpec.v`.
  Theorems: `C104_named_file_partial`, `C104_dot_fails`, `C104_several_files_partial`, `C104_same_name_refuted`, `C104_other_directory_refuted`, `C104_library_refuted`, `C104_reload_refuted`.
  Holds for one file and for sequences of files when no directory searched before has a module of that name; refuted for names with a dot (all of them), equal names, the directory of the user code, names of the standard library, and reloading.

**C105 — Packets do not change behind one another's back** (partial). A copy of a packet, a packet parsed from bytes, and the sum of two packets are new packets: whatever is done to one packet later, including serialising it, leaves every other packet as it was. Serialising a packet yields the bytes of its contents.
  Stated in `AliasProps.v`, over `AliasModel.v`, `EthModel.v`, `Ipv4Model.v`, `PacketModel.v`, `TransportModel.v`; specification in `AliasSpec.v`.
  Theorems: `C105_isolated`, `C105_copy`, `C105_parsed`, `C105_sum_partial`, `C105_sum_refuted`, `C105_header_sum_refuted`, `C105_serialise_partial`, `C105_failed_serialise_refuted`.
  Copies and parsed packets are independent of everything; a packet sharing no header object with another is not affected by any sequence of operations on the other. Refuted for sums (the sum holds the right operand's own headers), for sums of headers, and for serialising that fails half way, which leaves changes behind.

**C106 — A scenario keeps the packets it was given** (partial). The packets a test scenario expects or delivers are those given when the expectation was written, even if the author goes on changing the objects used to build them; a packet delivered to the program is its own, so that changing it changes nothing else.
  Stated in `KeepProps.v`, over `AliasModel.v`, `EthModel.v`, `FieldModel.v`, `Ipv4Model.v`, `KeepModel.v`, `PacketModel.v`, `TestModel.v`, `TransportModel.v`; specification in `AliasSpec.v`, `FieldSpec.v`, `KeepSpec.v`.
  Theorems: `C106_expected`, `C106_delivered`, `C106_input_partial`, `C106_input_refuted`.
  Expected packets and delivered packets are private for all later histories. Input events keep the author's object: proved unchanged if the author leaves it alone, refuted otherwise.

**C107 — Values copied from the last output** (partial). With copyfromlastout, the packet delivered to the program carries, in the attributes named, the values that the packet last sent on the device named had when it was sent, and is otherwise the packet given.
  Stated in `KeepProps.v`, over `AliasModel.v`, `EthModel.v`, `FieldModel.v`, `Ipv4Model.v`, `KeepModel.v`, `PacketModel.v`, `TestModel.v`, `TransportModel.v`; specification in `AliasSpec.v`, `FieldSpec.v`, `KeepSpec.v`.
  Theorems: `C107_copied_partial`, `C107_last_output`, `C107_read_back`, `C107_changed_refuted`, `C107_other_device_refuted`.
  Proved: the delivered packet is the given one with every rule applied, the values being those of the packet last sent on each device, provided the sent packets are still as they were. Refuted: a program that changes the packet after sending changes the copied value; only devices of the very last completed output expectation count. Reading the source attributes is taken to succeed.

**C108 — Registered header classes** (partial). A header class registered for a number behind Ethernet, VLAN, IPv4, IPv6, UDP or TCP is used to read exactly the packets that carry that number there; all other packets are read as before; a packet with such a header, sent and read back, is what was sent.
  Stated in `RegProps.v`, over `ArpModel.v`, `EthAddrModel.v`, `EthModel.v`, `FieldModel.v`, `IcmpModel.v`, `Ipv4Model.v`, `Ipv6Model.v`, `PacketModel.v`, `RegModel.v`, `RipModel.v`, `TransportModel.v`; specification in `EthAddrSpec.v`, `PacketSpec.v`, `RegSpec.v`.
  Theorems: `C108_shipped`, `C108_registered`, `C108_several`, `C108_round_trip`, `C108_several_round_trip`, `C108_ignored`, `C108_shared_map_refuted`, `C108_ipv6_map_refuted`, `C108_short_payload_refuted`.
  Proved for one and for any number of registrations of classes for numbers the library does not use (packets on which reading the library headers ends), and the round trip for one and for any number. Refuted: registrations behind ARP, ICMP, RIP and extension headers are ignored (proved for all), classes without a map share one map, a map set for IPv6 is not used behind extension headers, a refused or missing payload makes the packet unreadable. Registrations behind classes of the program are covered only by the refutation.

**C109 — Failure reports tell the truth** (partial). When a packet sent during a test is not the expected one, the failure report says what is wrong and nothing else: the first header of another kind, the headers too many or missing, or every compared attribute that differs with the value sent and the value expected, and which predicates held; verbose output shows the expected packet; when packets are missing at the end, the report names the ports that got their packet and those that did not.
  Stated in `DiagProps.v`, over `DiagModel.v`, `EthAddrModel.v`, `EthModel.v`, `IcmpModel.v`, `Ipv4Model.v`, `Ipv6Model.v`, `NetModel.v`, `PacketModel.v`, `TestModel.v`, `TransportModel.v`; specification in `DiagSpec.v`, `PacketSpec.v`, `TestSpec.v`.
  Theorems: `C109_reported`, `C109_honest`, `C109_differences`, `C109_expected_fails`, `C109_expected_refuted`, `C109_ports_partial`, `C109_ports_refuted`.
  Reports about contents and predicates proved exact, ports for names without capitals. Refuted: verbose output shows the packet sent as the one expected (general theorem and witness); port names with capital letters are changed to lower case. Diagnoses are data, not text; the sentence about ports is the text (ASCII).

**C110 — Interrupting a receive** (partial). When SIGINT arrives while the program is inside recv_packet on live devices, that call raises Shutdown, whatever the moment of arrival, with or without a timeout, and whatever packets arrive meanwhile.
  Stated in `SigProps.v`, over `SigModel.v`.
  Theorems: `C110_interrupted_partial`, `C110_locked_fails`, `C110_interrupted_refuted`.
  Proved for every moment at which the program does not hold the lock of the queue. False otherwise: the handler runs in the thread that holds the (not reentrant) lock and waits for it for ever; general theorem and witness. The queue of the standard library is modelled step by step as queue.py and threading.py have it.

**C111 — Option containers are lists** (partial). The options of an IPv4 header, the options of an ICMPv6 message and the addresses of an IPv4 route option can be edited as Python lists are: append, read, assign, delete and iterate, with positions counted from either end; a call that cannot be carried out raises and changes nothing; an index that can be read can be assigned; an edited route option is read back by the receiver.
  Stated in `OptProps.v`, over `EthAddrModel.v`, `IcmpModel.v`, `Ipv4Model.v`, `OptModel.v`; specification in `OptSpec.v`.
  Theorems: `C111_history`, `C111_read`, `C111_iterate`, `C111_class`, `C111_class_refuted`, `C111_route_partial`, `C111_addresses`, `C111_route_refuted`.
  List behaviour proved in full for all histories. Two clauses are false: an ICMPv6 list read by class cannot be assigned or deleted by class (TypeError), and deleting addresses may leave a route option that the receiver refuses; the latter is proved to be the only way.

**C112 — Topologies in one program are independent; joining them** (partial). Topologies do not affect each other: each is what its own operations make of it. Joining two gives a new topology with the nodes, addresses and links of both, fails exactly when a name is in both, and does not modify either argument, then or later. With renaming, every name x becomes name_x, so that topologies with different names can always be joined.
  Stated in `UnionProps.v`, over `EthAddrModel.v`, `TopoModel.v`, `UnionModel.v`; specification in `TopoSpec.v`, `UnionSpec.v`.
  Theorems: `C112_alone`, `C112_call_partial`, `C112_union`, `C112_rename_partial`, `C112_prefix_partial`, `C112_argument_refuted`, `C112_failed_refuted`, `C112_shared_refuted`, `C112_shared_back_refuted`, `C112_rename_refuted`, `C112_loop_refuted`.
  Independence of topologies that are not joined, and the content of a union, proved in full. Refuted: with renaming the arguments are changed (even when the union fails); after a union the node objects are shared, so an operation on one changes the other; renaming fails for a link from a node to itself and for names with an underscore. Not modelled: a union of topologies that already share nodes.

**C113 — Stopping the simulator under every schedule** (partial). Stopping the simulator, at any time after its node threads have been started, returns without an exception, and when it has returned no node thread and no link emulator thread is left, whatever order the threads run in, whatever packets arrive meanwhile, and for any number of nodes.
  Stated in `StopProps.v`, over `StopModel.v`; specification in `StopSpec.v`.
  Theorems: `C113_returned`, `C113_no_error_partial`, `C113_ends_partial`, `C113_early_refuted`, `C113_overtaken_refuted`, `C113_again_refuted`.
  That nothing is left whenever stop returns: proved for every schedule. That stop returns without an exception: proved (with a bound on the number of rounds) when the nodes are up and no node thread deletes __t while the main thread is about to read it; refuted without either condition (stop during start-up; a node thread that ends between two statements of shutdown), and for a second stop. Steps are single statements; user code in a node (never used by the command line tool) is not modelled.

**C114 — Making test events** (partial). An expected-output event can be made exactly from a positive even number of arguments (device name, packet, device name, packet, ...), predicates that are strings defining a function, and wildcards that are pairs of a header class and the name of one of its attributes; anything else raises an exception at once. When made, it expects each packet on the device given with it, and uses every wildcard and every predicate given, by the singular or the plural keyword. An input event keeps every copyfromlastout rule given, and refuses one that is malformed.
  Stated in `MakeProps.v`, over `EthModel.v`, `MakeModel.v`, `PacketModel.v`, `TestModel.v`; specification in `MakeSpec.v`.
  Theorems: `C114_made`, `C114_as_modelled`, `C114_accepted`, `C114_text_packet_refuted`, `C114_repeated_device_refuted`, `C114_reason`, `C114_copy_one`, `C114_copy_many`, `C114_copy_refuted`, `C114_nothing`.
  Which arguments are accepted, and what the event then expects: proved in full for the argument kinds modelled (strings, packets, numbers; header classes of the library in wildcards). Refuted clauses: a string is accepted where a packet should be; the first of two packets for one device is dropped; a copyfromlastout rule of the wrong length is accepted and fails at delivery.

**C115 — Coloured output** (partial). Text printed inside a coloured region appears in the colour of the innermost region around it and text outside every region in the default colour, for every nesting of regions and however a region ends; with colours switched off nothing is coloured; no text is lost.
  Stated in `ColorProps.v`, over `ColorModel.v`; specification in `ColorSpec.v`.
  Theorems: `C115_colours_partial`, `C115_words`, `C115_exceptions`, `C115_after`, `C115_nocolor`, `C115_after_setup`, `C115_after_setup_refuted`, `C115_nested_refuted`, `C115_exception_refuted`.
  Colours proved for programs without nested regions and without exceptions leaving a region, when used directly; after a region that ends normally the default colour is proved for every body; words, exceptions and the switched-off case proved for all programs. Refuted clauses: rest of an outer region, text after an exception, and every region after the setup of the command line program (colorama autoreset as its documentation describes it).

**C116 — Looking over a scenario** (partial). The sanity check of a scenario reports a problem exactly when some event names an interface the scenario does not have or an output event names none, always comes to an answer, and a scenario without problems whose packets can be sent and whose expectations can be met can be passed; it also reports scenarios without input or output events.
  Stated in `CheckProps.v`, over `CheckModel.v`, `EthModel.v`, `Ipv4Model.v`, `NetModel.v`, `PacketModel.v`, `TestModel.v`, `TransportModel.v`; specification in `CheckSpec.v`, `PacketSpec.v`, `TestSpec.v`.
  Theorems: `C116_check`, `C116_answers_partial`, `C116_answers_refuted`, `C116_passable`, `C116_kinds_refuted`.
  When the check is true, and that a scenario that passes it can be passed, proved for all scenarios. That it always answers is proved for events that can be printed and refuted otherwise (AttributeError from printing a router advertisement); that it reports missing kinds of events is refuted.

**C117 — Comparing scenarios** (partial). Comparing two scenarios for equality is an equivalence relation, a scenario saved and loaded is equal to the original, and equal scenarios test the same: every sequence of calls gets the same answers from both.
  Stated in `CheckProps.v`, over `CheckModel.v`, `EthModel.v`, `Ipv4Model.v`, `NetModel.v`, `PacketModel.v`, `TestModel.v`, `TransportModel.v`; specification in `CheckSpec.v`, `PacketSpec.v`, `TestSpec.v`.
  Theorems: `C117_equivalence`, `C117_loaded_partial`, `C117_alike`, `C117_exactness_refuted`, `C117_interfaces_refuted`.
  Equivalence, equality of a loaded scenario and what equal scenarios share proved for every way of writing packets as text (for the loaded scenario: packets that compare equal and send the same bytes must print alike). That equal scenarios test the same is refuted twice: exactness of expectations and interfaces are not compared.

**C118 — Settings of a capture device** (partial). Before a created device is activated, every setting with a value the device supports is accepted, and once it is activated the settings last accepted are in force and are read back; everything else is refused with PcapException and changes nothing; activation either succeeds, returning any warning, or raises and leaves the device as it was; every failure libpcap reports is raised as PcapException.
  Stated in `CtlProps.v`, over `CtlModel.v`; specification in `CtlSpec.v`.
  Theorems: `C118_in_force`, `C118_read`, `C118_accepted`, `C118_refused`, `C118_activate`, `C118_early_read_refuted`, `C118_nonblock_fails`, `C118_blocking_fails`, `C118_types_refuted`, `C118_reported_refuted`.
  Settings in force, reading back after activation, exactly which settings are accepted, refused settings, and when activation succeeds proved for all devices and histories, with libpcap as its manual describes. Refuted: reading the snapshot length before activation gives -3; a nonblocking device is activated although activate raises, and blocking never reads True; a newer time stamp type prevents setting any; failures of stats and of receiving raise NameError.

**C119 — Packets handed to a callback** (partial). dispatch and loop hand every packet to the callback once and in the order the packets came, never more than a positive count; packets not handed over wait for the next call; loop returns only when the count is reached, the packets end, or breakloop was called, after which no packet follows; breakloop ends only the call that is running; an exception raised by the callback, and an error of the device, reach the caller.
  Stated in `LoopProps.v`, over `LoopModel.v`; specification in `LoopSpec.v`.
  Theorems: `C119_once`, `C119_limits`, `C119_loop`, `C119_exception_refuted`, `C119_error_refuted`, `C119_sticky_refuted`.
  Order, once only, counts, breakloop, and when loop returns proved for all callbacks, files, devices and histories, with libpcap as its manual and sources describe. Refuted: an exception of the callback is swallowed and the loop goes on; loop does not report an error of the device; on a file, breakloop during the last counted packet ends the next call too.

**C120 — The example hub** (partial). The hub of the examples sends every frame that is not addressed to one of its interfaces once, unchanged and in order, out of every interface other than the one it came in on, and nothing else; and it passes every test scenario that describes a hub.
  Stated in `HubProps.v`, over `EthAddrModel.v`, `EthModel.v`, `HubModel.v`, `IcmpModel.v`, `Ipv4Model.v`, `Ipv6Model.v`, `NetModel.v`, `PacketModel.v`, `TestModel.v`, `TransportModel.v`; specification in `HubSpec.v`, `PacketSpec.v`, `TestSpec.v`.
  Theorems: `C120_floods_partial`, `C120_nowhere_else`, `C120_passes_partial`, `C120_same_frame`, `C120_unprintable_refuted`, `C120_options_refuted`.
  What is sent where is proved against any answers of the network, and passing every hub scenario by simulation on the test network, for packets whose headers can be printed and runs in which the alarm does not strike. Refuted: a router advertisement ends the program with AttributeError; a frame with padded IP options goes out four bytes longer and fails the test that expects it unchanged.

**C121 — The example UDP stack** (partial). What a program sends through the UDP stack of the examples leaves the loopback interface as one IPv4/UDP datagram with its ports, address and data, and is read at the other end, unchanged and with the address of the sender, by the program whose socket is bound to that address; messages and datagrams pass in order, each once; no packet from the network stops the stack.
  Stated in `StackProps.v`, over `ArpModel.v`, `EthAddrModel.v`, `EthModel.v`, `FieldModel.v`, `IcmpModel.v`, `Ipv4Model.v`, `Ipv6Model.v`, `NetModel.v`, `PacketModel.v`, `SendModel.v`, `SockModel.v`, `StackModel.v`, `TestModel.v`, `TransportModel.v`; specification in `EthAddrSpec.v`, `PacketSpec.v`, `StackSpec.v`, `TestSpec.v`.
  Theorems: `C121_sends`, `C121_too_long`, `C121_receives`, `C121_ignores`, `C121_end_to_end_partial`, `C121_many_partial`, `C121_loopback`, `C121_no_loopback`, `C121_loop_partial`, `C121_stopped`, `C121_failures`, `C121_other_protocol_refuted`, `C121_empty_refuted`.
  The bytes sent, which packets are handed over or passed over, order and counts in histories without exceptions, and the way of any number of messages from sendto to recvfrom (in order, each once, behind whatever waits in the queue) are proved, for messages with data. Refuted: an empty message, a TCP packet, and an ICMP packet without contents each end the stack with an exception.

**C122 — The macOS firewall while a program runs and afterwards** (partial). While a program runs, every packet that one of the requested or added rules covers is dropped and no other; however the program ends, its exception is passed on and pf is left with the references it had and without any rule of the program; a wrong rule is refused without effect; a process has at most one firewall object.
  Stated in `MacProps.v`, over `EthAddrModel.v`, `FwModel.v`, `MacModel.v`; specification in `FwSpec.v`, `MacSpec.v`.
  Theorems: `C122_restored`, `C122_exception`, `C122_blocks_partial`, `C122_added_refuted`, `C122_added_partial`, `C122_wrong_rule_refuted`, `C122_refused`, `C122_no_root`, `C122_once`, `C122_not_made`.
  Restoration, exceptions, refusals and the single object are proved in full. What is dropped is proved for the rules given at the start (a rule with a port needs both ports to be equal, see C44) and for the rule added last. Refuted: an added rule replaces all earlier ones, and one rule that pf refuses (a port for icmp) keeps all the others from being installed.

**C123 — What the other example programs do on any network** (partial). The two-port forwarder sends everything that arrives on one port out of the other, unchanged, once, in order, before it receives again, and stops exactly at shutdown or by an exception; the sniffer never sends; the switch that does not learn floods like a hub; the packet emitter sends a packet on every interface.
  Stated in `ExProps.v`, over `EthAddrModel.v`, `EthModel.v`, `ExModel.v`, `HubModel.v`, `IcmpModel.v`, `Ipv4Model.v`, `Ipv6Model.v`, `NetModel.v`, `PacketModel.v`, `TestModel.v`, `TransportModel.v`; specification in `ExSpec.v`, `HubSpec.v`, `PacketSpec.v`, `TestSpec.v`.
  Theorems: `C123_two_ports`, `C123_nowhere_else`, `C123_many_ports`, `C123_other_port_refuted`, `C123_forwarder_stops`, `C123_unknown_port`, `C123_wire_passes_partial`, `C123_sniffer_silent`, `C123_sniffer_passes_partial`, `C123_sniffer_unprintable_refuted`, `C123_switch_floods_partial`, `C123_switch_passes_partial`, `C123_emitter_sends_nothing`, `C123_emitter_refuted`.
  The forwarder and the sniffer are proved against any network; passing tests is proved when packets can be printed and the alarm does not strike. The switch is proved to be a hub on frames that start with an Ethernet header. Refuted: with an odd number of ports the forwarder returns frames out of the port they came in on; the sniffer stops at a frame that cannot be printed; the emitter never sends anything (it asks an IPv4Interface for an attribute it does not have).

**C124 — Device discovery reports the devices of the system** (partial). The list of capture devices has one entry for every device of the system, in order, with its name, description and state flags; different devices have different names; the list is taken once and never changes; a failing discovery is reported; without a choice of interfaces a program uses every device that is not a loopback, has an index and is not excluded, once.
  Stated in `DiscProps.v`, over `DiscModel.v`, `EthAddrModel.v`, `NetModel.v`, `UnitModel.v`; specification in `DiscSpec.v`, `UnitSpec.v`.
  Theorems: `C124_reported_partial`, `C124_distinct_partial`, `C124_distinct_refuted`, `C124_snapshot`, `C124_fails`, `C124_retry_refuted`, `C124_after_failure`, `C124_listed_partial`, `C124_chosen_partial`, `C124_windows_partial`.
  Proved for names and descriptions in ASCII. Refuted: devices whose names differ only in other characters get the same name; after one failing discovery every later call reports, without an exception, that there are no devices, because the half-made object is kept.

**C125 — Saving what a device receives, and showing what was saved** (partial). The program that saves packets puts every frame the device delivers into the file, uncut, in order and once, whether or not it can be read, prints one line for each, and reports their number; the program that shows files prints every packet of every file in order with their numbers; frames that were saved are shown as the packets they are.
  Stated in `DumpProps.v`, over `CapModel.v`, `DumpModel.v`, `EthAddrModel.v`, `PacketModel.v`, `TestModel.v`, `UnitModel.v`; specification in `CapSpec.v`, `DumpSpec.v`, `TestSpec.v`, `UnitSpec.v`.
  Theorems: `C125_saved_partial`, `C125_times_partial`, `C125_hang_fails`, `C125_hang_refuted`, `C125_shown_partial`, `C125_round_partial`, `C125_stops_fails`, `C125_round_refuted`, `C125_missing`.
  Proved for frames whose reading finishes (saving) and for frames that can be read and printed (showing). Refuted: the saving program hangs at a frame whose options are never finished (C14) and saves neither it nor anything later; the showing program ends at the first frame it cannot read, also in files the saving program made itself, and shows nothing after it.

**C126 — The header classes of the documentation** (partial). A UDPPing is sent as its sequence number in two bytes, higher first, and a SpanningTreeMessage as its root address, a zero byte and the number of hops; numbers that do not fit raise struct.error and shorter input raises ValueError; once registered as documented, packets of any headers ending in one of them come back with the same values, and without registration as payload; two objects are equal exactly when their fields are.
  Stated in `DocProps.v`, over `ArpModel.v`, `DocModel.v`, `EthAddrModel.v`, `EthModel.v`, `FieldModel.v`, `IcmpModel.v`, `Ipv4Model.v`, `Ipv6Model.v`, `PacketModel.v`, `RegModel.v`, `RipModel.v`, `TransportModel.v`; specification in `EthAddrSpec.v`, `PacketSpec.v`, `RegSpec.v`.
  Theorems: `C126_ping_sent`, `C126_ping_read`, `C126_ping_made`, `C126_ping_round`, `C126_ping_unregistered`, `C126_ping_refused`, `C126_stm_sent`, `C126_stm_read`, `C126_stm_made`, `C126_stm_round`, `C126_stm_forward_refuted`, `C126_forward_partial`, `C126_compare_refuted`, `C126_compare_partial`, `C126_short_root_refuted`, `C126_both`.
  Layout, reading, construction, round trip with and without registration proved for all values. Refuted: a SpanningTreeMessage sent on loses its seventh byte; comparing raises when a number does not fit; a root of fewer than six bytes is read back filled with zeros.

**C127 — The network programs of the documentation** (partial). The echo program sends every packet back out of the port it came in on, and the simple hub sends every packet, whatever it is and whoever it is addressed to, out of every other port: unchanged, once, in order, before asking for the next; both end when the network is shut down and otherwise only by an exception; they pass every test that describes an echo or such a hub. The program without a loop handles one packet. The wrong hub of the documentation changes the source address and nothing else.
  Stated in `DocNetProps.v`, over `DocNetModel.v`, `EthAddrModel.v`, `EthModel.v`, `ExModel.v`, `HubModel.v`, `IcmpModel.v`, `Ipv4Model.v`, `Ipv6Model.v`, `NetModel.v`, `PacketModel.v`, `TestModel.v`, `TransportModel.v`; specification in `DocNetSpec.v`, `ExSpec.v`, `HubSpec.v`, `PacketSpec.v`, `TestSpec.v`.
  Theorems: `C127_echo_partial`, `C127_echo_stops`, `C127_echo_unprintable_refuted`, `C127_once`, `C127_echo_passes_partial`, `C127_hub_spreads`, `C127_hub_stops`, `C127_hub_passes_partial`, `C127_hub_tests_refuted`, `C127_sheep`, `C127_sheep_refuted`.
  The simple hub is proved for all answers of the network and all packets. The echo program needs packets that can be printed; a frame whose headers cannot be printed ends it unanswered (refuted). Passing scripts is proved when the packets can be printed and the alarm does not strike. Refuted: the simple hub does not pass the tests that come with it, as it passes on what is addressed to itself; the wrong hub is not a hub.

**C128 — Tests fail the wrong programs** (proved). A program that sends nothing leaves every expected output pending and is never reported as having passed a test that expects one; so the programs of the documentation that forget to send, receive twice or call a method that does not exist fail all such tests. The program that always answers on eth0 passes a test of one packet in and one packet out exactly when the packet is expected, as it came in, on eth0 (all packets being printable). The programs that change the source address, replace the last header or remove it fail every such test that expects what came in, exactly or not. The program that only listens passes the tests that expect nothing to be sent, and no others.
  Stated in `DocFailProps.v`, over `DocFailModel.v`, `EthAddrModel.v`, `EthModel.v`, `ExModel.v`, `HubModel.v`, `Ipv4Model.v`, `NetModel.v`, `PacketModel.v`, `TestModel.v`, `TransportModel.v`; specification in `DocFailSpec.v`, `ExSpec.v`, `HubSpec.v`, `PacketSpec.v`, `TestSpec.v`.
  Theorems: `C128_silent`, `C128_silent_programs`, `C128_no_method`, `C128_fixed_port`, `C128_source`, `C128_source_fails`, `C128_last_replaced`, `C128_last_removed`, `C128_last_sent`, `C128_listener`.
  That tests are failed needs no packet to be printable; that they are passed does (all_print). Excluded: a predicate of the test that itself raises Shutdown when the packet is sent (cannot_pass), and for silent programs in general one that raises Shutdown by itself (C34_early_shutdown_refuted).

## Assumptions reported

`Print Assumptions` follows every property theorem; each answers "Closed under the global context".
`coqchk -o` over the whole development lists seven constants of `Coq.ssr.ssrunder` (`Under_rel.*`): parameters of a module type
of Coq's own standard library that is loaded with `lia`'s dependencies. No theorem here depends on them.
There are no `Axiom`, `Parameter`, `Admitted`, functors, module types, or disabled checks in `theories/`.

## Not modelled

* Text produced for people: `__str__`/`__repr__` of headers and messages, logging, the message texts of exceptions (that formatting a text may itself raise is modelled where it matters: C36, C109, C110, C116). Colours are modelled (C115).
* libpcap, the kernel, `subprocess`, netstat, iptables, pf, sysctl: their answers are inputs of the model or stated assumptions of a specification file.
* `cffi` memory management in pcapffi.py, and device discovery.
* Completion, help texts and drawing of the simulator's command line; `pdb` hooks; `setup.py`, the documentation and the repository's own tests.
* Time is given to the model as clock readings; the Python thread scheduler as an arbitrary interleaving of the steps named in each model file.
