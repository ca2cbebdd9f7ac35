{"id": "C01", "title": "Internet checksum is the RFC 1071 checksum", "statement": "For every byte string of at most 131072 bytes (which covers every IP datagram), checksum(data) equals the 16-bit one's complement of the one's-complement sum of the data read as big-endian 16-bit words, a trailing odd byte being padded with a zero byte.", "quantifier": "every byte string up to 131072 bytes, odd or even length", "why_tests_cant": "the carries folded at the end depend on the whole data; tests look at a handful of strings out of 256^131072", "anchors": ["switchyard/lib/packet/common.py:checksum"]}
{"id": "C02", "title": "A stored checksum verifies, and a corrupted word does not", "statement": "If a sender stores checksum(data) in a 16-bit field of data that was zero when it was computed, the receiver's one's-complement sum over the result is 0xffff; and if afterwards any single aligned 16-bit word is replaced by a word with a different one's-complement value, that sum is no longer 0xffff.", "quantifier": "every byte string with a zero aligned word, every position, every replacement word", "why_tests_cant": "needs all positions and all 65536^2 word replacements inside arbitrary data", "anchors": ["switchyard/lib/packet/common.py:checksum"]}
{"id": "C03", "title": "Skipping a word is the same as zeroing it", "statement": "checksum(data, skip_word=k) is equal to checksum of the same data with the k-th 16-bit word set to zero, so a header may be checksummed in place without clearing its checksum field first.", "quantifier": "every byte string and every word index inside it (or no index)", "why_tests_cant": "the index interacts with carries and odd lengths in arbitrary data", "anchors": ["switchyard/lib/packet/common.py:checksum"]}
{"id": "C04", "title": "Ethernet address text form round-trips", "statement": "For every 6-byte Ethernet address a, EthAddr(str(a)) == a, the text form is 17 characters of lower-case hex pairs separated by colons, and two addresses with the same text are the same address; the dash-separated and upper-case spellings denote the same address.", "quantifier": "all 2^48 addresses and both separators", "why_tests_cant": "2^48 values", "anchors": ["switchyard/lib/address/__init__.py:EthAddr.__init__", "switchyard/lib/address/__init__.py:EthAddr.toStr"]}
{"id": "C05", "title": "Ethernet addresses are totally ordered and hash consistently", "statement": "Comparison of Ethernet addresses is a strict total order (irreflexive, transitive, exactly one of <, ==, > holds) that agrees with the unsigned 48-bit value, equality is reflexive, symmetric and transitive, and equal addresses hash equally; so addresses can be used as sorted or dictionary keys.", "quantifier": "all pairs and triples of Ethernet addresses", "why_tests_cant": "relational laws over 2^96 pairs and 2^144 triples", "anchors": ["switchyard/lib/address/__init__.py:EthAddr.__lt__", "switchyard/lib/address/__init__.py:EthAddr.__eq__", "switchyard/lib/address/__init__.py:EthAddr.__hash__"]}
{"id": "C06", "title": "Ethernet address construction accepts only addresses", "statement": "EthAddr(text) either raises or yields an address of exactly six bytes each in 0..255; text with a wrong number of groups, a group that does not denote a base-16 integer, or a group outside 0..ff is never accepted; EthAddr(bytes) of at least six bytes keeps exactly the first six; multicast, local and bridge-filtered classification depend only on the bits IEEE 802 assigns to them.", "quantifier": "every text string and every byte string", "why_tests_cant": "unbounded set of malformed strings", "anchors": ["switchyard/lib/address/__init__.py:EthAddr"]}
{"id": "C07", "title": "Ethernet header round-trips", "statement": "For every Ethernet header value h and every following byte string t, parsing h.to_bytes()+t gives back a header equal to h in all three fields and leaves exactly t; conversely parsing any frame of at least 14 bytes with a known EtherType above 1500 and re-serializing reproduces its first 14 bytes; a frame shorter than 14 bytes is rejected.", "quantifier": "all header values, all trailing data, all frames", "why_tests_cant": "unbounded payloads and 2^112 headers", "anchors": ["switchyard/lib/packet/ethernet.py:Ethernet.to_bytes", "switchyard/lib/packet/ethernet.py:Ethernet.from_bytes"]}
{"id": "C08", "title": "VLAN tag round-trips", "statement": "For every VLAN tag (12-bit id, 3-bit priority, inner EtherType) serialising and parsing gives the same id, priority and EtherType and leaves the rest of the frame untouched, and parsing then serialising any 4-byte tag with known EtherType gives the same bytes.", "quantifier": "all tags, all trailing data", "why_tests_cant": "2^32 tags; the tests use one priority value", "anchors": ["switchyard/lib/packet/ethernet.py:Vlan"]}
{"id": "C09", "title": "ARP round-trips and rejects truncation", "statement": "For every ARP packet (any operation, IPv4 and Ethernet addresses and known hardware/protocol types) parsing the serialised form followed by any bytes yields an equal packet and leaves those bytes; any 28-byte buffer that parses re-serialises to itself; fewer than 28 bytes is rejected.", "quantifier": "all ARP packets, all buffers", "why_tests_cant": "2^224 packets", "anchors": ["switchyard/lib/packet/arp.py:Arp"]}
{"id": "C10", "title": "UDP header round-trips with correct length", "statement": "Serialising a UDP header in front of n payload bytes emits length 8+n and parsing returns the same ports and length with the payload untouched; if 8+n exceeds 65535 serialisation raises instead of emitting a wrong length.", "quantifier": "all ports, all payload lengths", "why_tests_cant": "unbounded payload sizes", "anchors": ["switchyard/lib/packet/udp.py:UDP"]}
{"id": "C11", "title": "TCP header round-trips and flags are independent", "statement": "For every TCP header without options, parse(serialise(h)+t) recovers ports, sequence and acknowledgement numbers, the nine flags, window and urgent pointer and leaves t; setting one flag changes that flag only.", "quantifier": "all headers, all nine flags, all trailing data", "why_tests_cant": "2^155 header values and all flag histories", "anchors": ["switchyard/lib/packet/tcp.py:TCP"]}
{"id": "C12", "title": "IPv4 fixed header round-trips and its checksum verifies", "statement": "For every option-free IPv4 header and payload, the 20 emitted bytes have one's-complement sum 0xffff, carry the true total length, and parse back to the same tos, id, flags, offset, ttl, protocol and addresses with the payload untouched.", "quantifier": "all header values, all payloads", "why_tests_cant": "2^130 headers, arbitrary payloads", "anchors": ["switchyard/lib/packet/ipv4.py:IPv4"]}
{"id": "C13", "title": "IPv4 option lists round-trip", "statement": "A list of IPv4 options serialises to a multiple of four bytes and parses back to the same list of options followed only by end-of-list padding.", "quantifier": "every list of every supported option kind", "why_tests_cant": "unbounded lists of options with variable length", "anchors": ["switchyard/lib/packet/ipv4.py:IPOptionList"]}
{"id": "C14", "title": "IPv4 option parsing always finishes", "statement": "Parsing any byte string as an IPv4 option list terminates with a list of options or an error.", "quantifier": "every byte string", "why_tests_cant": "non-termination on one crafted input is invisible to example tests", "anchors": ["switchyard/lib/packet/ipv4.py:IPOptionList.from_bytes"]}
{"id": "C15", "title": "IPv4 header field setters do not disturb each other", "statement": "Assigning dscp, ecn, fragment flags, fragment offset or ttl changes exactly that field: reading it back gives the assigned value and every other field of the header is unchanged; out-of-range values are refused.", "quantifier": "all header states and all assigned values", "why_tests_cant": "all pairs of old state and new value", "anchors": ["switchyard/lib/packet/ipv4.py:IPv4.dscp", "switchyard/lib/packet/ipv4.py:IPv4.ecn"]}
{"id": "C16", "title": "IPv6 fixed header round-trips", "statement": "For every IPv6 header value and payload, parse(serialise(h)+payload) gives the same traffic class, flow label, next header, hop limit and addresses, a payload length equal to the number of payload bytes, and leaves the payload untouched.", "quantifier": "all header values, all payloads", "why_tests_cant": "2^300 headers", "anchors": ["switchyard/lib/packet/ipv6.py:IPv6"]}
{"id": "C17", "title": "IPv6 extension headers round-trip", "statement": "Hop-by-hop, destination, routing and fragment extension headers serialise to a multiple of eight bytes whose length field is correct, and parse back to the same next-header value, options and fields with the rest untouched.", "quantifier": "all extension header values with any number of options", "why_tests_cant": "unbounded option lists", "anchors": ["switchyard/lib/packet/ipv6.py:IPv6ExtensionHeader"]}
{"id": "C18", "title": "ICMP type, code and data stay consistent", "statement": "After any sequence of assignments (successful or refused) to the type, code and data of an ICMP message, the code is one defined for the type and the data object is of the kind belonging to the type; a refused assignment leaves the message unchanged.", "quantifier": "all finite sequences of assignments", "why_tests_cant": "unbounded histories of mutually recursive setters", "anchors": ["switchyard/lib/packet/icmp.py:ICMP"]}
{"id": "C19", "title": "ICMP messages round-trip with a verifying checksum", "statement": "For every ICMP message of every supported type, the serialised bytes have one's-complement sum 0xffff and parse back to the same type, code and message data.", "quantifier": "all message types, codes, identifiers and payloads", "why_tests_cant": "unbounded payloads across types", "anchors": ["switchyard/lib/packet/icmp.py"]}
{"id": "C20", "title": "ICMPv6 messages round-trip with a verifying checksum", "statement": "For every ICMPv6 message of a supported type inside an IPv6 packet, the checksum verifies over the RFC 2460 pseudo-header and the message, and parsing gives back the same type, code and fields including neighbour-discovery options.", "quantifier": "all message types, fields, option lists and addresses", "why_tests_cant": "unbounded option lists and payloads", "anchors": ["switchyard/lib/packet/icmpv6.py"]}
{"id": "C21", "title": "ICMPv6 option parsing always finishes", "statement": "Parsing any byte string as a list of neighbour-discovery options terminates with a list of options or an error.", "quantifier": "every byte string", "why_tests_cant": "one crafted input suffices to hang", "anchors": ["switchyard/lib/packet/icmpv6.py:ICMPv6OptionList.from_bytes"]}
{"id": "C22", "title": "RIPv2 messages round-trip", "statement": "For every RIPv2 message with any number of route entries, serialising and parsing yields the same command and the same entries in order, with network addresses masked by their netmask.", "quantifier": "every list of route entries", "why_tests_cant": "unbounded lists, 2^160 entries", "anchors": ["switchyard/lib/packet/ripv2.py:RIPv2", "switchyard/lib/packet/ripv2.py:RIPRouteEntry"]}
{"id": "C23", "title": "Serialising a packet fixes up lengths and checksums through the whole stack", "statement": "For every packet Ethernet/IPv4/(UDP|TCP|ICMP)/payload, whatever lengths and checksums the header objects held before, the emitted frame has a correct IPv4 total length, a verifying IPv4 header checksum, and (UDP/TCP) a correct length and a checksum verifying over the pseudo-header and payload.", "quantifier": "all header values and payload bytes", "why_tests_cant": "all combinations of headers and payload sizes, including odd ones", "anchors": ["switchyard/lib/packet/packet.py:Packet.to_bytes"]}
{"id": "C24", "title": "Parsing inverts serialisation for whole packets", "statement": "Packet(raw=p.to_bytes()) equals p header by header for every Ethernet/IPv4/UDP|TCP|ICMP/payload and Ethernet/ARP packet whose protocol fields name the next header.", "quantifier": "all header values and payloads", "why_tests_cant": "composition over unbounded payloads", "anchors": ["switchyard/lib/packet/packet.py:Packet._parse"]}
{"id": "C25", "title": "Serialising is repeatable", "statement": "Serialising the same packet twice gives the same bytes and leaves the packet such that every later serialisation also gives the same bytes, although serialising updates length and checksum fields in place.", "quantifier": "every packet of supported headers", "why_tests_cant": "side effects of serialisation over all header stacks", "anchors": ["switchyard/lib/packet/packet.py:Packet.to_bytes"]}
{"id": "C26", "title": "Header container operations behave as a list", "statement": "Adding, inserting, prepending, replacing, deleting and looking up headers by index (including negative ones), by type or by type name act as on a list: other headers and their order are unchanged, lookups return the first match, out-of-range indexes raise and change nothing.", "quantifier": "all packets, all indexes, all sequences of operations", "why_tests_cant": "unbounded histories and indexes", "anchors": ["switchyard/lib/packet/packet.py:Packet"]}
{"id": "C27", "title": "The length of a packet is the number of bytes it serialises to", "statement": "len(packet) == len(packet.to_bytes()) for every packet that can be serialised.", "quantifier": "every packet of supported headers", "why_tests_cant": "all header stacks with variable-length options", "anchors": ["switchyard/lib/packet/packet.py:Packet.size"]}
{"id": "C28", "title": "Truncated headers are rejected", "statement": "Parsing an Ethernet, VLAN, ARP, IPv4, IPv6, UDP, TCP or ICMP header from fewer bytes than its minimum size always raises and never returns a header.", "quantifier": "every byte string shorter than the header", "why_tests_cant": "all shorter strings for all headers", "anchors": ["switchyard/lib/packet/packet.py"]}
{"id": "C29", "title": "ARP helper functions build the packets they promise", "statement": "create_ip_arp_request is broadcast, asks for the target and names the sender; create_ip_arp_reply is unicast to the requester and answers with the given addresses; both survive serialisation and parsing, and answering a request with the owner's address yields a reply the requester can use.", "quantifier": "all addresses", "why_tests_cant": "all address combinations", "anchors": ["switchyard/lib/packet/util.py"]}
{"id": "C30", "title": "Exact packet matching accepts exactly the byte-identical packets", "statement": "In exact mode an expected packet matches an observed one if and only if the two serialise to the same bytes and all user predicates hold.", "quantifier": "all pairs of packets and predicate lists", "why_tests_cant": "all pairs of packets", "anchors": ["switchyard/lib/testing.py:_PacketMatcher"]}
{"id": "C31", "title": "Inexact matching compares the header attributes that are not wildcarded", "statement": "In inexact mode an observed packet matches if and only if every compared header field not covered by a wildcard is equal and all predicates hold; adding a wildcard never turns a match into a mismatch and adding a predicate never turns a mismatch into a match.", "quantifier": "all packets, wildcard sets and predicate lists", "why_tests_cant": "all subsets of wildcards", "anchors": ["switchyard/lib/testing.py:_PacketMatcher"]}
{"id": "C32", "title": "Expected outputs are consumed exactly once each, in any order", "statement": "An output expectation over several ports accepts the expected packets in any order, each port exactly once; after the last the event is complete; an unexpected port or packet is reported as a failure and leaves the outstanding expectations unchanged.", "quantifier": "all expectation sets and all orders of sends", "why_tests_cant": "factorially many orders and unbounded failures", "anchors": ["switchyard/lib/testing.py:PacketOutputEvent.match"]}
{"id": "C33", "title": "Scenario bookkeeping never loses or invents an expectation", "statement": "Throughout any run, passed plus pending expectations are exactly the expectations written by the author, in order; the scenario is done exactly when none is pending; a failed test stays pending.", "quantifier": "all scenarios and all event histories", "why_tests_cant": "unbounded histories", "anchors": ["switchyard/lib/testing.py:TestScenario"]}
{"id": "C34", "title": "A scenario passes exactly when the program meets it", "statement": "In test mode, a run completes the scenario if and only if the receive/send calls of the program match the scripted expectations one after another; extra, missing, or reordered calls are reported as a failure, never as a pass.", "quantifier": "all scenarios and all user programs (call sequences)", "why_tests_cant": "all programs", "anchors": ["switchyard/llnettest.py:LLNetTest", "switchyard/lib/testing.py:TestScenario"]}
{"id": "C35", "title": "Saving and loading a scenario preserves it", "statement": "A scenario saved and loaded again has the same interfaces and files and the same expectations in the same order.", "quantifier": "all scenarios, including partly executed ones", "why_tests_cant": "all states of execution", "anchors": ["switchyard/lib/testing.py:TestScenario.__getstate__"]}
{"id": "C36", "title": "Test-mode receive returns scripted packets with non-decreasing time", "statement": "In test mode, received packets are exactly the scripted inputs in order, delivered on the scripted port, timestamps never decrease, and a receive where a send was expected never yields a packet.", "quantifier": "all scenarios and call sequences", "why_tests_cant": "unbounded histories", "anchors": ["switchyard/llnettest.py:LLNetTest.recv_packet"]}
{"id": "C37", "title": "Emulated sockets receive only their own traffic", "statement": "After any history of creating, binding, closing and traffic, data for (protocol, address, port) is delivered to the socket bound to exactly that, otherwise to the socket bound to the wildcard address with that port, otherwise dropped; no other socket's pending data changes.", "quantifier": "all histories of socket operations", "why_tests_cant": "unbounded histories", "anchors": ["switchyard/lib/socket/socketemu.py:ApplicationLayer"]}
{"id": "C38", "title": "Emulated sockets deliver data in order and keep it across bind", "statement": "Data sent to a socket is received exactly once in the order sent, and binding a socket to another address keeps data already queued; data sent by applications reaches the stack in sending order.", "quantifier": "all histories", "why_tests_cant": "unbounded histories and interleavings", "anchors": ["switchyard/lib/socket/socketemu.py:socket"]}
{"id": "C39", "title": "A failed bind changes nothing and two sockets never share an address", "statement": "At every point of every history two open sockets of the same protocol never hold the same local port; a bind that reports failure leaves all sockets as they were.", "quantifier": "all histories", "why_tests_cant": "unbounded histories", "anchors": ["switchyard/lib/socket/socketemu.py:socket.bind"]}
{"id": "C40", "title": "Live capture keeps per-interface order under every thread schedule", "statement": "With one capture thread per interface feeding one queue, under every interleaving the packets handed to user code are, for each interface, a prefix of those captured on it in order, none invented, duplicated, or attributed to another interface; once the threads and the queue drain nothing is lost.", "quantifier": "all interface counts, capture sequences and interleavings", "why_tests_cant": "schedules are not enumerable", "anchors": ["switchyard/llnetreal.py:LLNetReal"]}
{"id": "C41", "title": "Shutdown is final and idempotent", "statement": "After shutdown every receive raises Shutdown once, no packet is delivered, and calling shutdown again has no further effect.", "quantifier": "all states and call sequences", "why_tests_cant": "unbounded histories", "anchors": ["switchyard/llnetreal.py:LLNetReal.shutdown", "switchyard/llnetreal.py:LLNetReal.recv_packet"]}
{"id": "C42", "title": "Interface lookup is correct", "statement": "Lookups by name, Ethernet address, IP address and number return an interface having that property whenever one exists and raise otherwise; bringing an interface up registers it once and only once and notifies the callback.", "quantifier": "all interface tables and keys, all histories of up events", "why_tests_cant": "unbounded tables and histories", "anchors": ["switchyard/llnetbase.py:LLNetBase"]}
{"id": "C43", "title": "Device selection respects include and exclude lists", "statement": "The chosen device list contains exactly the usable devices that are included (or all, when no includes are given) and not excluded, without duplicates.", "quantifier": "all device sets and lists", "why_tests_cant": "all sets", "anchors": ["switchyard/lib/interface.py:make_device_list"]}
{"id": "C44", "title": "Firewall rules are interpreted as written or refused", "statement": "A rule is accepted exactly if it is all, none, or protocol[:port] with a known protocol, and the resulting command blocks that protocol and port and nothing else.", "quantifier": "all rule strings", "why_tests_cant": "unbounded strings", "anchors": ["switchyard/hostfirewall.py"]}
{"id": "C45", "title": "The host firewall is restored on exit", "statement": "Whatever rules were requested, leaving the firewall context restores the saved configuration and settings of every interface exactly.", "quantifier": "all rule lists, interface lists and initial settings", "why_tests_cant": "all configurations", "anchors": ["switchyard/hostfirewall.py:LinuxFirewall"]}
{"id": "C46", "title": "Topology element names and Ethernet addresses are unique", "statement": "In a topology built by any sequence of add operations without explicit names, no two nodes share a name and no two interfaces share an Ethernet address.", "quantifier": "all construction sequences", "why_tests_cant": "unbounded histories", "anchors": ["switchyard/lib/topo/topobuild.py:Topology"]}
{"id": "C47", "title": "Topology links and interfaces agree", "statement": "After any sequence of operations, each link joins two existing nodes and names one interface on each end that exists at that node, and queries for the interfaces of a link return those two.", "quantifier": "all construction sequences", "why_tests_cant": "unbounded histories", "anchors": ["switchyard/lib/topo/topobuild.py:Topology"]}
{"id": "C48", "title": "OpenFlow 1.0 messages round-trip", "statement": "For OpenFlow 1.0 headers, matches, actions, flow-mods, packet-in/out and the other fixed messages, parsing the serialised form yields an equal message; the header length is the number of bytes of the message.", "quantifier": "all message values and action lists", "why_tests_cant": "unbounded action lists", "anchors": ["switchyard/lib/openflow/openflow10.py"]}
{"id": "C49", "title": "OpenFlow action parsing always finishes", "statement": "Parsing any byte string as an OpenFlow action list terminates with a list or an error.", "quantifier": "every byte string", "why_tests_cant": "crafted zero-length actions", "anchors": ["switchyard/lib/openflow/openflow10.py:_unpack_actions"]}
{"id": "C50", "title": "OpenFlow packet buffers keep every buffered packet", "statement": "Every packet stored in the switch packet buffer is returned by its id exactly once, until removed, and storing a packet never discards another.", "quantifier": "all histories of store and fetch", "why_tests_cant": "unbounded histories", "anchors": ["switchyard/lib/openflow/ofswitch.py:PacketBufferManager"]}
{"id": "C51", "title": "Flow table lookup returns the best matching entry", "statement": "A lookup returns a matching entry of highest priority, if any entry matches, and deleting an entry removes that entry only.", "quantifier": "all tables, packets and histories", "why_tests_cant": "unbounded tables", "anchors": ["switchyard/lib/openflow/ofswitch.py:FlowTable"]}
{"id": "C52", "title": "Emulated links deliver each packet once, never early, in time order", "statement": "A simulated link hands every packet over exactly once, not before its delivery time, and in order of delivery time whatever the order and timing of submissions.", "quantifier": "all submission schedules", "why_tests_cant": "unbounded schedules", "anchors": ["switchyard/sim/linkem.py:LinkEmulator"]}
{"id": "C53", "title": "User code receives exactly the arguments it accepts", "statement": "Command-line code arguments are split into positional and key=value arguments without loss or reordering, and the user entry point is called with the net object and exactly the groups of arguments its signature accepts.", "quantifier": "all argument strings and all signatures", "why_tests_cant": "unbounded strings", "anchors": ["switchyard/syinit.py:_parse_codeargs", "switchyard/llnetbase.py:_start_usercode"]}
{"id": "C54", "title": "An Ethernet address object is always six bytes and equals only addresses", "statement": "Every EthAddr object that can be constructed holds exactly six bytes, and comparing it for equality with a value that is not an address is False, never True and never an error.", "quantifier": "all constructor arguments and all comparison operands", "why_tests_cant": "unbounded set of byte strings and operand types", "anchors": ["switchyard/lib/address/__init__.py:EthAddr.__init__", "switchyard/lib/address/__init__.py:EthAddr.__eq__"]}
{"id": "C55", "title": "IPv4 fragmentation flags sit where RFC 791 puts them", "statement": "A header built with the More Fragments (or Don't Fragment) flag serialises it in the position RFC 791 gives it, and the fragment offset and flags of a parsed header mean what RFC 791 says.", "quantifier": "all flag and offset values, all 20-byte headers", "why_tests_cant": "the 16 bits interact; examples with one flag set pass", "anchors": ["switchyard/lib/packet/ipv4.py:IPv4.to_bytes", "switchyard/lib/packet/ipv4.py:IPv4.from_bytes", "switchyard/lib/packet/common.py:IPFragmentFlag"]}
{"id": "C56", "title": "Header-length fields below the minimum are rejected", "statement": "A received IPv4 or TCP header whose own header-length field says less than the 20-byte minimum is rejected; the bytes handed on as payload never overlap the header.", "quantifier": "every byte string", "why_tests_cant": "needs malformed input", "anchors": ["switchyard/lib/packet/ipv4.py:IPv4.from_bytes", "switchyard/lib/packet/tcp.py:TCP.from_bytes"]}
{"id": "C57", "title": "Ethernet padding is not part of the packet payload", "statement": "Bytes after the end given by the IPv4 total length (or UDP length) do not become payload of the parsed packet.", "quantifier": "every frame with trailing bytes", "why_tests_cant": "depends on trailing bytes of any length", "anchors": ["switchyard/lib/packet/packet.py:Packet", "switchyard/lib/packet/ipv4.py:IPv4.from_bytes"]}
{"id": "C58", "title": "UDP transmits a computed zero checksum as all ones", "statement": "A UDP datagram sent inside IPv4 never carries the value 0 in its checksum field, because 0 tells the receiver that there is no checksum.", "quantifier": "all ports, addresses and payloads", "why_tests_cant": "one payload in 65535 shows the difference", "anchors": ["switchyard/lib/packet/udp.py:UDP._compute_checksum_ipv4"]}
{"id": "C59", "title": "Forwarding keeps IPv4 options", "statement": "Parsing an IPv4 header with options and serialising it again keeps the header length and option bytes.", "quantifier": "every header with options", "why_tests_cant": "all option byte strings", "anchors": ["switchyard/lib/packet/ipv4.py:IPOptionList"]}
{"id": "C60", "title": "Forwarding keeps TCP options", "statement": "Parsing a TCP segment and serialising it again keeps its options.", "quantifier": "every segment with options", "why_tests_cant": "all option byte strings", "anchors": ["switchyard/lib/packet/tcp.py:TCP.from_bytes", "switchyard/lib/packet/tcp.py:TCPOptions"]}
{"id": "C61", "title": "Out-of-range field values are never silently changed", "statement": "Serialising a header whose fields were assigned values too large for the wire format raises; it never emits bytes that parse to different values or change a neighbouring field.", "quantifier": "all header field values", "why_tests_cant": "unbounded integers", "anchors": ["switchyard/lib/packet/ipv6.py:IPv6.to_bytes", "switchyard/lib/packet/udp.py:UDP.to_bytes", "switchyard/lib/packet/tcp.py:TCP.to_bytes"]}
{"id": "C62", "title": "IPv6 extension-header option parsing always finishes", "statement": "Parsing any byte string as a hop-by-hop or destination options header terminates with options or an error.", "quantifier": "every byte string", "why_tests_cant": "termination over all inputs", "anchors": ["switchyard/lib/packet/ipv6.py:IPv6HopOption._parseTLVOptions"]}
{"id": "C63", "title": "Headers that compare equal serialise identically", "statement": "If two headers of the same kind compare equal, serialising them inside the same packet gives the same bytes.", "quantifier": "all pairs of headers", "why_tests_cant": "two unbounded inputs", "anchors": ["switchyard/lib/packet/udp.py:UDP.__eq__", "switchyard/lib/packet/arp.py:Arp.__eq__", "switchyard/lib/packet/icmp.py:ICMP.__eq__", "switchyard/lib/packet/ipv4.py:IPv4.__eq__"]}
{"id": "C64", "title": "Forwarding an ICMP message leaves it unchanged", "statement": "An ICMP message that is received and serialised again without being changed by the user has the same bytes.", "quantifier": "every received ICMP message", "why_tests_cant": "every message type and every value of the unused bytes", "anchors": ["switchyard/lib/packet/icmp.py:ICMP.from_bytes", "switchyard/lib/packet/icmp.py:ICMP.to_bytes"]}
{"id": "C65", "title": "Forwarding a RIPv2 message leaves it unchanged", "statement": "A RIPv2 message that is received and serialised again has the same bytes, and parsing never depends on what the message object held before.", "quantifier": "every received RIPv2 message", "why_tests_cant": "all masks, addresses and entry counts", "anchors": ["switchyard/lib/packet/ripv2.py:RIPv2.from_bytes", "switchyard/lib/packet/ripv2.py:RIPRouteEntry.from_bytes"]}
{"id": "C66", "title": "Comparing packets is an equivalence", "statement": "Packet comparison is reflexive and symmetric: a packet equals its own serialised form, and if p == q then q == p.", "quantifier": "all pairs of packets", "why_tests_cant": "two unbounded inputs", "anchors": ["switchyard/lib/packet/packet.py:Packet.__eq__"]}
{"id": "C67", "title": "Byte strings put into a packet are sent as payload", "statement": "However a byte string is put into a packet (add_header, +, prepend_header, insert_header, index assignment), serialising the packet sends these bytes.", "quantifier": "all packets, positions and byte strings", "why_tests_cant": "all histories of container operations", "anchors": ["switchyard/lib/packet/packet.py:Packet.add_header", "switchyard/lib/packet/packet.py:Packet.__setitem__", "switchyard/lib/packet/packet.py:Packet.insert_header", "switchyard/lib/packet/packet.py:Packet.prepend_header"]}
{"id": "C68", "title": "UDP and TCP over IPv6 carry a verifying checksum", "statement": "A UDP or TCP segment inside an IPv6 packet is sent with a checksum that verifies over the IPv6 pseudo-header.", "quantifier": "all header values and payloads", "why_tests_cant": "all values of addresses, ports and payload", "anchors": ["switchyard/lib/packet/udp.py:UDP.pre_serialize", "switchyard/lib/packet/tcp.py:TCP.pre_serialize"]}
{"id": "C69", "title": "Parsing a packet always finishes", "statement": "Constructing a Packet from any byte string, starting with any header class, returns a packet or raises after a number of steps bounded by the input length.", "quantifier": "every byte string and first header class", "why_tests_cant": "termination over all inputs", "anchors": ["switchyard/lib/packet/packet.py:Packet._parse", "switchyard/lib/packet/packet.py:Packet.__init__"]}
{"id": "C70", "title": "Forwarding a received frame unchanged sends the received bytes", "statement": "A frame that is parsed and serialised again without being changed by the user is sent byte for byte as it was received.", "quantifier": "every received frame", "why_tests_cant": "every header value, payload, checksum and padding", "anchors": ["switchyard/lib/packet/packet.py:Packet.to_bytes", "switchyard/lib/packet/packet.py:Packet._parse"]}
{"id": "C71", "title": "Interface address bookkeeping is a set", "statement": "Assigning an IP address to an interface adds exactly that address once, assigning it again changes nothing, removing takes away exactly that address, and every assigned address is found by the address lookup of the network object.", "quantifier": "all interfaces, addresses and sequences of assign and remove", "why_tests_cant": "Sequences of assignments and removals are unbounded; tests check two or three addresses.", "anchors": ["switchyard/lib/interface.py:Interface.assign_ipaddr", "switchyard/lib/interface.py:Interface.remove_ipaddr", "switchyard/llnetbase.py:LLNetBase.interface_by_ipaddr"]}
{"id": "C72", "title": "Scenario interfaces get distinct numbers in order", "statement": "Interfaces added to a test scenario without an explicit number are numbered 0, 1, 2, ... in the order they are added, so that no two share a number.", "quantifier": "all sequences of added interfaces", "why_tests_cant": "The numbering depends on the whole history of additions, including re-added names.", "anchors": ["switchyard/lib/testing.py:TestScenario.add_interface"]}
{"id": "C73", "title": "Receive timeouts of emulated sockets follow settimeout", "statement": "After settimeout(t) a receive on a socket with nothing pending waits t seconds (for ever if t is None, not at all if t is 0), and gettimeout returns t.", "quantifier": "all sockets, states and times", "why_tests_cant": "All previous settings of the socket matter.", "anchors": ["switchyard/lib/socket/socketemu.py:socket.settimeout", "switchyard/lib/socket/socketemu.py:socket._recv"]}
{"id": "C74", "title": "Shutdown closes every device", "statement": "When shutdown has returned, all capture threads have ended and every capture device is closed, so that no further packet is captured.", "quantifier": "all interleavings of capture threads, signals and calls", "why_tests_cant": "schedules are not enumerable", "anchors": ["switchyard/llnetreal.py:LLNetReal.shutdown", "switchyard/llnetreal.py:LLNetReal._sig_handler"]}
{"id": "C75", "title": "A saved topology loads as it was", "statement": "Saving a topology to text and loading it gives a topology with the same nodes and node classes, interfaces, Ethernet and IP addresses, links, capacities and delays, and links made later behave as they would have in the original.", "quantifier": "all topologies reachable by any sequence of operations", "why_tests_cant": "the histories are unbounded", "anchors": ["switchyard/lib/topo/topobuild.py:Topology.serialize", "switchyard/lib/topo/topobuild.py:Topology.unserialize", "switchyard/lib/topo/topobuild.py:save_to_file", "switchyard/lib/topo/topobuild.py:load_from_file"]}
{"id": "C76", "title": "Automatic IP addresses", "statement": "Assigning addresses from a prefix gives every link interface of a host or router one address inside the prefix, different interfaces different addresses, leaves all other interfaces alone, and fails only when the prefix has too few host addresses.", "quantifier": "all topologies reachable by any sequence of operations and all prefixes", "why_tests_cant": "topologies and prefixes are unbounded; the address order depends on the history", "anchors": ["switchyard/lib/topo/topobuild.py:Topology.assignIPAddresses"]}
{"id": "C77", "title": "OpenFlow 1.0 messages have the published wire layout", "statement": "A serialised OpenFlow 1.0 message is the eight-byte header (version, type, total length, transaction id) followed by the body laid out as the published structures say: every field at its offset, big-endian, with zero padding where the structure has padding.", "quantifier": "all messages with all field values, action lists, port lists and queue lists", "why_tests_cant": "the layout must hold for every combination of values and list lengths; a symmetric mistake in writer and reader passes any round-trip test", "anchors": ["switchyard/lib/openflow/openflow10.py:to_bytes", "switchyard/lib/openflow/openflow10.py:OpenflowHeader"]}
{"id": "C78", "title": "Header attributes hold what is assigned", "statement": "Assigning a value that a header field can hold succeeds, the attribute then reads that value and every attribute showing other information is unchanged; a value the field cannot hold is refused with an exception; constructor keyword arguments behave as such assignments over the documented defaults.", "quantifier": "all header objects of Ethernet, VLAN, ARP, IPv4, IPv6, UDP and TCP in any state, all attributes, all values, all keyword argument lists", "why_tests_cant": "every field value times every prior state; aliasing between fields shows only for particular bit patterns", "anchors": ["switchyard/lib/packet/ethernet.py", "switchyard/lib/packet/arp.py", "switchyard/lib/packet/ipv4.py", "switchyard/lib/packet/ipv6.py", "switchyard/lib/packet/udp.py", "switchyard/lib/packet/tcp.py", "switchyard/lib/packet/packet.py:PacketHeaderBase.__init__"]}
{"id": "C79", "title": "OpenFlow matches mean what OpenFlow 1.0 says", "statement": "A match matches a packet exactly if every field the packet shows is wildcarded in the match or equal to the value of the match (for IP addresses: in the bits not wildcarded), and a match built from a packet has every field of it and matches it.", "quantifier": "all matches and all packets", "why_tests_cant": "all combinations of wildcards, prefix lengths and packet contents", "anchors": ["switchyard/lib/openflow/openflow10.py:OpenflowMatch.matches_packet", "switchyard/lib/openflow/openflow10.py:OpenflowMatch.build_from_packet"]}
{"id": "C80", "title": "A match reported to match another covers it", "statement": "If one match is reported to match another then every packet it matches is matched by the other too; matches that compare strictly equal match the same packets.", "quantifier": "all pairs of matches and all packets", "why_tests_cant": "all pairs of wildcard sets times all packets", "anchors": ["switchyard/lib/openflow/openflow10.py:OpenflowMatch.matches_entry", "switchyard/lib/openflow/openflow10.py:OpenflowMatch.overlaps_with"]}
{"id": "C81", "title": "Flow entries expire when their timeouts run out, not before", "statement": "An entry is expired exactly when its idle timeout has passed since it last matched (or since it was added) or its hard timeout since it was added; an expiry run removes exactly the expired entries and reports those that ask for it.", "quantifier": "all tables, clocks and match histories", "why_tests_cant": "all times and histories", "anchors": ["switchyard/lib/openflow/ofswitch.py:TableEntry.has_expired", "switchyard/lib/openflow/ofswitch.py:FlowTable.expire_entries"]}
{"id": "C82", "title": "The controller connection carries whole messages", "statement": "A message sent to the controller is sent completely, in order and once, however little the socket accepts at a time; a message received is exactly one message whatever the segmentation of the stream, and a closed connection ends the receive.", "quantifier": "all messages, all partial sends and all segmentations", "why_tests_cant": "segmentations are unbounded and chosen by the network", "anchors": ["switchyard/lib/openflow/ofswitch.py:ControllerConnection"]}
{"id": "C83", "title": "Switch actions are carried out on the packet in order", "statement": "Actions of an entry are applied in order: output goes out of the named port, flooding out of every port but the input port once, and set-field actions change the packet that later outputs send.", "quantifier": "all action lists, ports and packets", "why_tests_cant": "action lists are unbounded", "anchors": ["switchyard/lib/openflow/ofswitch.py:OpenflowSwitch._process_actions", "switchyard/lib/openflow/openflow10.py:ActionOutput"]}
{"id": "C84", "title": "Simulated wires carry packets to the other end of their link only", "statement": "In a simulation built from a set of links in which every (node, device) is an end of at most one link, a packet received at (v, dev) was sent into the device at the other end of that link (or handed to v as host packet), no more often than it was sent, and not before the send time plus length / capacity plus delay; both directions work; sending into a device without link raises and changes nothing.", "quantifier": "all sets of links, all schedules of sends, emulator steps and receives on all nodes, all clock readings", "why_tests_cant": "unbounded interleavings of many threads with real time", "anchors": ["switchyard/sim/nodeexec.py:NodeExecutor", "switchyard/sim/linkem.py:LinkEmulator", "switchyard/sim/cli.py:SyssGlue"]}
{"id": "C85", "title": "The application runs once the network is ready, and its end ends the network", "statement": "With an application layer program on the command line, its code starts only after the host firewall has been set up, both threads come to an end whatever their interleaving once the main thread gets to the rendezvous, the firewall is restored when the main thread ends, and the network object is shut down when the application ends or the user code returns.", "quantifier": "all command lines and all interleavings of the main and application threads", "why_tests_cant": "interleavings", "anchors": ["switchyard/syinit.py:start_framework", "switchyard/syinit.py:_start_app", "switchyard/llnetreal.py:main_real"]}
{"id": "C86", "title": "Capacities and delays written as text mean what they say and survive being shown", "statement": "Reading a capacity such as '10 Mb/s' or '1.5 MB' gives that many bits per second (bytes count eight), and reading a delay such as '10 msec' gives the float nearest to that many seconds. A capacity or delay that the topology shows in the label of a link can be read back, and gives the same capacity or delay. Text that is not a capacity or a delay is refused.", "quantifier": "every numeral (with or without a fraction), every documented unit in either case, any blanks, every capacity below 10^15, every float delay from a microsecond up", "why_tests_cant": "The values are floats and the text is decimal, so the result depends on rounding of every single number; tests try a few round numbers.", "anchors": ["switchyard/lib/topo/util.py: humanize_bandwidth, unhumanize_bandwidth, humanize_delay, unhumanize_delay", "switchyard/lib/topo/topobuild.py: Topology.setLinkCharacteristics"]}
{"id": "C87", "title": "The simulator command line does not lose changes without asking", "statement": "When the topology has been changed since it was started, saved or loaded, leaving the command line or loading another topology first asks whether the changes may be dropped. Answering no leaves everything as it was. Saving writes the topology to the named file and touches no other file. No question is asked when nothing has changed.", "quantifier": "every initial topology, every sequence of command lines and answers, every set of files", "why_tests_cant": "Changes are tracked by one flag that every command has to keep up to date; a test of one command says nothing about a sequence that ends in another one.", "anchors": ["switchyard/sim/cli.py: Cli.do_exit, Cli.do_load, Cli.do_save, Cli.do_set, Cli.do_add, Cli.do_remove"]}
{"id": "C88", "title": "The simulated network is always that of the topology", "statement": "After every command the simulated network has a node for each node of the topology, and each interface of a simulated node leads to the interface at the other end of its link, with the capacity and the delay of the link. Packets that come in at a node were sent by the neighbour on that link, not earlier than capacity and delay allow. Link settings are read from the words after their names, in either order.", "quantifier": "every topology built by the API, every sequence of command lines, every schedule of the simulated nodes", "why_tests_cant": "The network is rebuilt from the topology by some commands only; whether both agree depends on the whole history of commands.", "anchors": ["switchyard/sim/cli.py: SyssGlue.rebuildGlue, Cli.do_set, Cli.do_add, Cli.do_remove, Cli.do_load", "switchyard/sim/nodeexec.py: NodeExecutor.addEgressInterface"]}
{"id": "C89", "title": "Only exit ends the simulator command line", "statement": "No line typed at the command line, however wrong, ends the simulator: commands report what is wrong, and the next line can be typed. Only exit (or end of input) ends it.", "quantifier": "every topology built by the API, every sequence of command lines and answers", "why_tests_cant": "An exception that a command does not catch ends the program; which commands raise depends on the state left by the lines before.", "anchors": ["switchyard/sim/cli.py: Cli.default, Cli.do_add, Cli.do_load, Cli.do_exec, Cli.do_show, Cli.do_replay, SyssGlue.stop, SyssGlue.rebuildGlue"]}
{"id": "C90", "title": "Commands of the simulator can be abbreviated", "statement": "A prefix that fits one command only does what the command does, whatever follows and in every state.", "quantifier": "every word that is a prefix of exactly one command name, all arguments, all states", "why_tests_cant": "The number of prefixes and following words is large, and the order in which abbreviations are tried matters.", "anchors": ["switchyard/sim/cli.py: Cli.default"]}
{"id": "C91", "title": "The capacity of a link limits what it carries", "statement": "A link of capacity c carries at most c bits per second in each direction: a packet of k bytes takes 8k/c seconds plus the delay of the link, and packets that are sent while another one is on its way to the wire wait for it.", "quantifier": "every network, every schedule, every packet, every capacity and delay", "why_tests_cant": "The time a packet takes depends on the packets before it and on when nodes and link emulators run; a test sees one schedule and cannot tell slow threads from slow links.", "anchors": ["switchyard/sim/nodeexec.py: NodeExecutor.send_packet", "switchyard/sim/linkem.py: LinkEmulator.run", "switchyard/lib/topo/util.py: unhumanize_bandwidth"]}
{"id": "C92", "title": "What is written to a capture file is what is read from it", "statement": "Packets written to a capture file are read back in the same order with the same bytes, lengths and times (to within the microsecond resolution of the format), whether they are read one by one or handed out in pieces, and a filter leaves out exactly the packets that do not pass. Times stay in order. Anything that is not bytes is refused. Copying a file record by record keeps the times.", "quantifier": "every sequence of packets with times a float can hold between 1970 and 2038, every filter on the bytes, every way to split the reading into pieces", "why_tests_cant": "Times go through floats and decimal text in both directions, so each of billions of time stamps rounds differently; tests look at a handful of packets.", "anchors": ["switchyard/pcapffi.py: PcapDumper.write_packet, PcapReader.recv_packet, PcapReader.dispatch, PcapFfi._recv_packet, PcapFfi._pcap_callback"]}
{"id": "C93", "title": "A packet sent on a live device goes out there unchanged", "statement": "Sending a packet on a live device, named by name, number or interface, hands exactly the bytes of the packet to that device and to no other, once; only lengths and checksums of the caller's packet are filled in, and whoever receives the bytes reads the packet that was sent. On a loopback device the same holds for the packet without its link header. What is not a packet, and a device that is not known, is refused with ValueError and nothing goes out.", "quantifier": "every table of devices, every way to name a device, every packet, every answer of the system", "why_tests_cant": "Needs privileged access to devices, so tests replace the device; the result depends on the kind of device, the headers of the packet and the platform at once.", "anchors": ["switchyard/llnetreal.py: LLNetReal.send_packet, LLNetReal._make_pcaps, _RawSocket.send_packet", "switchyard/pcapffi.py: PcapLiveDevice.send_packet"]}
{"id": "C94", "title": "The interfaces of a live network are those of the system", "statement": "A live network shows one interface for each chosen device that has addresses, under its name and with its number, its link-layer address, all of its IP addresses with their prefix lengths, and its kind (loopback, wired, wireless). With the devices chosen by the library this always succeeds.", "quantifier": "every list of devices and addresses the system reports, every choice of devices", "why_tests_cant": "Depends on the configuration of the machine; tests run on one machine or on a replacement of the system calls.", "anchors": ["switchyard/llnetreal.py: LLNetReal._assemble_devinfo", "switchyard/lib/interface.py: make_device_list"]}
{"id": "C95", "title": "Live capture devices: filters reach every open device, handles are closed once", "statement": "Whatever threads open, create, filter, use, close and forget live capture devices, in whatever order: a call that sets a filter on all devices sets that filter exactly once on every device that is ready when the call returns; it and the calls that close devices give the capture library only handles that are open; no handle is closed twice; closing a device a second time raises an exception and does nothing; the lock is always given back.", "quantifier": "all numbers of threads and devices, all interleavings of their steps, all filters, all answers of the capture library (devices that do not open, unknown link types, filters that are refused), all reuses of object identities", "why_tests_cant": "A test runs one or a few interleavings with a library that behaves; the claim is about every interleaving and every failure in between.", "anchors": ["switchyard/pcapffi.py:PcapLiveDevice", "switchyard/pcapffi.py:PcapLiveDevice.set_bpf_filter_on_all_devices", "switchyard/pcapffi.py:_PcapFfi._set_filter"]}
{"id": "C96", "title": "Receiving on a live capture device keeps to the time given", "statement": "Receiving with a time returns a packet that comes within that time (at once, or after at most a tenth of the time where the device can only be polled), and None, when the time is over, if none comes; receiving without a time waits for a packet; the blocking property says and sets whether the device blocks.", "quantifier": "all devices (with and without a descriptor to wait on, blocking and nonblocking, opened or created and activated), all times given, all moments at which a packet comes, all delays of sleeping", "why_tests_cant": "Tests choose a few moments and cannot use devices without a descriptor; the claim ranges over all of them.", "anchors": ["switchyard/pcapffi.py:PcapLiveDevice.recv_packet", "switchyard/pcapffi.py:PcapLiveDevice.blocking", "switchyard/pcapffi.py:PcapLiveDevice.activate"]}
{"id": "C97", "title": "Packet monitors of the simulator record exactly the packets a node receives", "statement": "After \"monitor <where> pcap <name>\", and until the interface is named again by a monitor or unmonitor command or the topology is rebuilt, the capture file opened for an interface gets exactly the packets that the node's program receives from that interface, in order, with all their bytes and their times; capturing keeps no packet from any program and does not end the command line. After unmonitor nothing more is written to the files of the interfaces named; every file is opened once, closed at most once, and never written after that; a rebuild closes all of them. The words after the command name exactly the interfaces they seem to, different interfaces get different files, and the list of monitors shown is the list of monitors in place. Debug and code monitors do not disturb the simulation.", "quantifier": "all topologies, all sequences of command lines and packet arrivals, with packets before, between and after the parts of each line, all files that can or cannot be written", "why_tests_cant": "monitors are called in the threads of the nodes while commands install and remove them; whether a file is complete and closed depends on every order of arrivals and commands", "anchors": ["switchyard/sim/monitor.py:MonitorManager", "switchyard/sim/monitor.py:PcapMonitor", "switchyard/sim/monitor.py:InteractiveMonitor", "switchyard/sim/monitor.py:CodeMonitor", "switchyard/sim/cli.py:Cli.do_monitor", "switchyard/sim/cli.py:SyssGlue.addMonitor", "switchyard/sim/nodeexec.py:NodeExecutor.recv_packet"]}
{"id": "C98", "title": "The OpenFlow switch answers its controllers", "statement": "Every request a controller sends is answered with exactly one message, to that controller only, of the right type and with the request's transaction id: hello by hello, features request by a description of the switch's ports, get-config by the configuration last set by any controller, barrier request by a barrier reply, echo request by an echo reply, stats request by a stats reply; a message of a type the switch does not handle is answered by an error. No message makes the switch stop listening to a controller. The same holds of a switch made for version 1.3.", "quantifier": "all networks, switch ids and numbers of controllers, all sequences of controllers added, threads starting, messages (any bytes with at least a header), packets and idle periods, in any interleaving", "why_tests_cant": "each answer depends on state that other controllers and packets change in other threads; a handler that raises silently ends a thread, which only shows in what is not answered later", "anchors": ["switchyard/lib/openflow/ofswitch.py:OpenflowSwitch._controller_thread", "switchyard/lib/openflow/ofswitch.py:OpenflowSwitch.add_controller", "switchyard/lib/openflow/ofswitch.py:ControllerConnection"]}
{"id": "C99", "title": "The OpenFlow switch announces packets, keeps them, and sends them out on request", "statement": "Every packet that arrives and matches no flow is announced to every connected controller by a packet-in with the port it came in on, the first bytes of the packet as configured, and a buffer id; a later packet-out with that id sends the whole of that packet, and no other, to the ports named, in order, and a packet-out that carries a packet sends that packet. A full buffer costs at most the packet that found it full. Packets matching a flow a controller installed are handled by its actions without asking.", "quantifier": "all networks, packets, histories of controllers, messages and packets in any interleaving", "why_tests_cant": "which packet an id stands for depends on the whole history of arrivals and releases; the end of the datapath thread only shows in what happens afterwards", "anchors": ["switchyard/lib/openflow/ofswitch.py:OpenflowSwitch._send_packet_in", "switchyard/lib/openflow/ofswitch.py:OpenflowSwitch._handle_datapath", "switchyard/lib/openflow/ofswitch.py:OpenflowSwitch.datapath_loop", "switchyard/lib/openflow/ofswitch.py:OpenflowSwitch._process_actions", "switchyard/lib/openflow/ofswitch.py:PacketBufferManager"]}
{"id": "C100", "title": "OpenFlow 1.3 messages have the 1.3 layout and can be read back", "statement": "Every OpenFlow 1.3 message that a program builds with the library, whatever it assigns to the attributes of its body and in whatever order, is serialised with the layout of the OpenFlow 1.3 specification: version, type, total length and transaction id, then the body holding the last values assigned. Parsing those bytes gives back an equal message, and a body reads back what a body of its class wrote.", "quantifier": "all message types, all header fields in range, all sequences of attribute assignments, failed ones included, all byte strings", "why_tests_cant": "which values are sent depends on the whole sequence of assignments, and the claim that nothing at all can be parsed, or that a message can never be sent, is about every byte string and every sequence", "anchors": ["switchyard/lib/openflow/openflow13.py:OpenflowHeader", "switchyard/lib/openflow/openflow13.py:OpenflowHeader.build", "switchyard/lib/openflow/openflow13.py:OpenflowError", "switchyard/lib/openflow/openflow13.py:OpenflowPacketIn", "switchyard/lib/openflow/openflow13.py:OpenflowFlowMod"]}
{"id": "C101", "title": "What the command line starts", "statement": "The user's code is started exactly when it is named, nothing else was asked for (list of interfaces, simulator, compiling, dry run), its arguments and the firewall rules can be read, and there are scenarios or interfaces; without rules the host is shielded from everything that arrives on the interfaces used; rules given are the rules used; compiling runs nothing; --cli starts the simulator, with the topology given.", "quantifier": "every combination of command-line arguments", "why_tests_cant": "options combine freely and each code path depends on several of them; tests try single options", "anchors": ["switchyard/swyard.py: main", "switchyard/syinit.py: start_framework, _parse_codeargs", "switchyard/hostfirewall.py: Firewall"]}
{"id": "C102", "title": "Scenarios in one run are independent", "statement": "When several test scenarios are given, the result of each is one that testing it alone can give, and a failed scenario does not keep the others from being tested.", "quantifier": "every list of scenarios and programs, and every moment at which the alarm strikes", "why_tests_cant": "depends on the moment at which an alarm left over from an earlier scenario strikes", "anchors": ["switchyard/llnettest.py: run_tests", "switchyard/lib/testing.py: TestScenario.testpass, cancel_timer, _timer_expiry"]}
{"id": "C103", "title": "Compiled scenario files", "statement": "Compiling X.py writes X.srpy; a compiled scenario read back behaves as the original; a file that was changed or cut short after compiling is refused; compiling one scenario leaves the compiled file of another alone.", "quantifier": "every file name, scenario, and file contents (for any pickling, digest, compression and encoding that lose nothing)", "why_tests_cant": "tests use one or two file names and never damaged files", "anchors": ["switchyard/lib/testing.py: compile_scenario, uncompile_scenario, get_test_scenario_from_file"]}
{"id": "C104", "title": "The file named is the file loaded", "statement": "Naming a file of user code or a scenario loads that file, whatever else Python has on its path and whatever was loaded before.", "quantifier": "every file system, search path, and sequence of files loaded", "why_tests_cant": "depends on the names of all modules on the search path and on the order of loading", "anchors": ["switchyard/importcode.py: import_or_die"]}
{"id": "C105", "title": "Packets do not change behind one another's back", "statement": "A copy of a packet, a packet parsed from bytes, and the sum of two packets are new packets: whatever is done to one packet later, including serialising it, leaves every other packet as it was. Serialising a packet yields the bytes of its contents.", "quantifier": "every collection of packets and header objects and every sequence of operations on them", "why_tests_cant": "depends on which objects are shared after an arbitrary history of additions, copies and assignments", "anchors": ["switchyard/lib/packet/packet.py: Packet.__add__, __iadd__, to_bytes, __setitem__, PacketHeaderBase.__add__"]}
{"id": "C106", "title": "A scenario keeps the packets it was given", "statement": "The packets a test scenario expects or delivers are those given when the expectation was written, even if the author goes on changing the objects used to build them; a packet delivered to the program is its own, so that changing it changes nothing else.", "quantifier": "every script building a scenario, every later change by the author or by the program under test", "why_tests_cant": "depends on object sharing between the script, the scenario and the program over all sequences of changes", "anchors": ["switchyard/lib/testing.py: PacketInputEvent, PacketOutputEvent, SwitchyardTestEvent", "switchyard/llnettest.py: LLNetTest.recv_packet"]}
{"id": "C107", "title": "Values copied from the last output", "statement": "With copyfromlastout, the packet delivered to the program carries, in the attributes named, the values that the packet last sent on the device named had when it was sent, and is otherwise the packet given.", "quantifier": "every list of copy rules, every sequence of earlier expectations and packets sent", "why_tests_cant": "depends on the history of outputs and on what happens to the packets after they were sent", "anchors": ["switchyard/lib/testing.py: PacketInputEvent.generate_packet, TestScenario.lastout", "switchyard/llnettest.py: LLNetTest.recv_packet, send_packet"]}
{"id": "C108", "title": "Registered header classes", "statement": "A header class registered for a number behind Ethernet, VLAN, IPv4, IPv6, UDP or TCP is used to read exactly the packets that carry that number there; all other packets are read as before; a packet with such a header, sent and read back, is what was sent.", "quantifier": "every packet, every number not used by the library, every user header class", "why_tests_cant": "quantifies over all user-written header classes and all stacks of headers", "anchors": ["switchyard/lib/packet/packet.py: set_next_header_class_key, add_next_header_class, set_next_header_map, next_header_class, Packet._parse", "documentation/code/udpappheader.py"]}
{"id": "C109", "title": "Failure reports tell the truth", "statement": "When a packet sent during a test is not the expected one, the failure report says what is wrong and nothing else: the first header of another kind, the headers too many or missing, or every compared attribute that differs with the value sent and the value expected, and which predicates held; verbose output shows the expected packet; when packets are missing at the end, the report names the ports that got their packet and those that did not.", "quantifier": "every expectation (exact or not, any wildcards and predicates), every packet sent, every series of sends", "why_tests_cant": "the claim is an exact correspondence between all pairs of packets and the report, under all wildcard lists", "anchors": ["switchyard/lib/testing.py: _PacketMatcher._compare_packet_against_reference, fail_reason, _showpkt, PacketOutputEvent.fail_reason"]}
{"id": "C110", "title": "Interrupting a receive", "statement": "When SIGINT arrives while the program is inside recv_packet on live devices, that call raises Shutdown, whatever the moment of arrival, with or without a timeout, and whatever packets arrive meanwhile.", "quantifier": "every history, every moment of the signal, every interleaving of the handler, the program and the capture threads", "why_tests_cant": "the moment is between any two steps inside a call of the standard library; no test can place a signal there", "anchors": ["switchyard/llnetreal.py: LLNetReal.recv_packet, _sig_handler, _low_level_dispatch", "switchyard/syinit.py: start_framework"]}
{"id": "C111", "title": "Option containers are lists", "statement": "The options of an IPv4 header, the options of an ICMPv6 message and the addresses of an IPv4 route option can be edited as Python lists are: append, read, assign, delete and iterate, with positions counted from either end; a call that cannot be carried out raises and changes nothing; an index that can be read can be assigned; an edited route option is read back by the receiver.", "quantifier": "every container, every sequence of calls with every argument, including failing calls", "why_tests_cant": "any number of calls in any order; the tests make a handful", "anchors": ["switchyard/lib/packet/ipv4.py: IPOptionList, IPOptionXRouting", "switchyard/lib/packet/icmpv6.py: ICMPv6OptionList"]}
{"id": "C112", "title": "Topologies in one program are independent; joining them", "statement": "Topologies do not affect each other: each is what its own operations make of it. Joining two gives a new topology with the nodes, addresses and links of both, fails exactly when a name is in both, and does not modify either argument, then or later. With renaming, every name x becomes name_x, so that topologies with different names can always be joined.", "quantifier": "all interleaved histories of any number of topologies, with unions", "why_tests_cant": "any number of topologies and operations in any order; sharing shows only in later operations", "anchors": ["switchyard/lib/topo/topobuild.py: Topology.union, Topology.addNodeLabelPrefix"]}
{"id": "C113", "title": "Stopping the simulator under every schedule", "statement": "Stopping the simulator, at any time after its node threads have been started, returns without an exception, and when it has returned no node thread and no link emulator thread is left, whatever order the threads run in, whatever packets arrive meanwhile, and for any number of nodes.", "quantifier": "all numbers of nodes, all schedules of the main, node and link emulator threads, all ways a wait can end", "why_tests_cant": "a test sees one schedule; a statement-level race needs all of them, and ending needs an argument about all fair schedules", "anchors": ["switchyard/sim/cli.py: SyssGlue.stop", "switchyard/sim/nodeexec.py: NodeExecutor.run, NodeExecutor.startcode, NodeExecutor.shutdown", "switchyard/sim/linkem.py: LinkEmulator.run"]}
{"id": "C114", "title": "Making test events", "statement": "An expected-output event can be made exactly from a positive even number of arguments (device name, packet, device name, packet, ...), predicates that are strings defining a function, and wildcards that are pairs of a header class and the name of one of its attributes; anything else raises an exception at once. When made, it expects each packet on the device given with it, and uses every wildcard and every predicate given, by the singular or the plural keyword. An input event keeps every copyfromlastout rule given, and refuses one that is malformed.", "quantifier": "all lists of positional arguments, all keyword arguments of the kinds listed, all header classes and attribute names", "why_tests_cant": "all combinations of argument lists and keywords, of any length", "anchors": ["switchyard/lib/testing.py: PacketOutputEvent.__init__, _PacketMatcher.__init__, _PacketMatcher._check_predicates, _PacketMatcher._check_wildcards, PacketInputEvent.__init__, PacketInputEvent.generate_packet"]}
{"id": "C115", "title": "Coloured output", "statement": "Text printed inside a coloured region appears in the colour of the innermost region around it and text outside every region in the default colour, for every nesting of regions and however a region ends; with colours switched off nothing is coloured; no text is lost.", "quantifier": "all programs of prints, regions, exceptions and handlers; all settings", "why_tests_cant": "all nestings and all ways of leaving a region", "anchors": ["switchyard/textcolor.py: TextColor, red, green, blue, cyan, magenta, yellow"]}
{"id": "C116", "title": "Looking over a scenario", "statement": "The sanity check of a scenario reports a problem exactly when some event names an interface the scenario does not have or an output event names none, always comes to an answer, and a scenario without problems whose packets can be sent and whose expectations can be met can be passed; it also reports scenarios without input or output events.", "quantifier": "all scenarios: any interfaces, any number and kind of events, any packets", "why_tests_cant": "all scenarios and, for each, the existence of a run of calls that passes it", "anchors": ["switchyard/lib/testing.py: TestScenario.scenario_sanity_check, Scenario, testing.py 880-923"]}
{"id": "C117", "title": "Comparing scenarios", "statement": "Comparing two scenarios for equality is an equivalence relation, a scenario saved and loaded is equal to the original, and equal scenarios test the same: every sequence of calls gets the same answers from both.", "quantifier": "all scenarios, all ways packets are written as text, all sequences of calls", "why_tests_cant": "all pairs and triples of scenarios and all runs", "anchors": ["switchyard/lib/testing.py: TestScenario.__eq__, SwitchyardTestEvent.__eq__, PacketInputEvent.__eq__, PacketOutputEvent.__eq__, PacketInputTimeoutEvent.__eq__"]}
{"id": "C118", "title": "Settings of a capture device", "statement": "Before a created device is activated, every setting with a value the device supports is accepted, and once it is activated the settings last accepted are in force and are read back; everything else is refused with PcapException and changes nothing; activation either succeeds, returning any warning, or raises and leaves the device as it was; every failure libpcap reports is raised as PcapException.", "quantifier": "all devices (supported types, precisions, directions, answers to activation), all sequences of setting and activation calls, all values", "why_tests_cant": "histories of calls of any length, on devices a test machine does not have", "anchors": ["switchyard/pcapffi.py: PcapLiveDevice.create, activate, blocking, snaplen, set_promiscuous, set_timeout, set_buffer_size, set_immediate_mode, list_tstamp_types, set_tstamp_type, tstamp_precision, dlt, stats, set_direction; _PcapFfi._recv_packet"]}
{"id": "C119", "title": "Packets handed to a callback", "statement": "dispatch and loop hand every packet to the callback once and in the order the packets came, never more than a positive count; packets not handed over wait for the next call; loop returns only when the count is reached, the packets end, or breakloop was called, after which no packet follows; breakloop ends only the call that is running; an exception raised by the callback, and an error of the device, reach the caller.", "quantifier": "all callbacks (any memory, any choice of when to call breakloop or raise), all files and devices with any packets in any buffers, all sequences of dispatch, loop and breakloop", "why_tests_cant": "all callbacks and histories of calls", "anchors": ["switchyard/pcapffi.py: PcapReader.dispatch, loop, breakloop; PcapLiveDevice.dispatch, loop, breakloop; _pcap_callback"]}
{"id": "C120", "title": "The example hub", "statement": "The hub of the examples sends every frame that is not addressed to one of its interfaces once, unchanged and in order, out of every interface other than the one it came in on, and nothing else; and it passes every test scenario that describes a hub.", "quantifier": "all sets of interfaces, all sequences of received packets, timeouts, errors and shutdown; all test scenarios in which each arriving frame is followed by the outputs of a hub", "why_tests_cant": "all histories of received frames and all scenarios", "anchors": ["examples/myhub.py: main", "examples/hubtests.py", "switchyard/llnettest.py: LLNetTest.recv_packet, send_packet", "switchyard/lib/testing.py: TestScenario"]}
{"id": "C121", "title": "The example UDP stack", "statement": "What a program sends through the UDP stack of the examples leaves the loopback interface as one IPv4/UDP datagram with its ports, address and data, and is read at the other end, unchanged and with the address of the sender, by the program whose socket is bound to that address; messages and datagrams pass in order, each once; no packet from the network stops the stack.", "quantifier": "all interfaces, messages, socket states and sequences of rounds of the loop", "why_tests_cant": "all messages, histories and packets that may arrive", "anchors": ["examples/udpstack.py: main, handle_app_data, handle_network_data", "switchyard/lib/socket/socketemu.py: ApplicationLayer, socket"]}
{"id": "C122", "title": "The macOS firewall while a program runs and afterwards", "statement": "While a program runs, every packet that one of the requested or added rules covers is dropped and no other; however the program ends, its exception is passed on and pf is left with the references it had and without any rule of the program; a wrong rule is refused without effect; a process has at most one firewall object.", "quantifier": "all rule lists, interface lists, sequences of added rules, endings of the program and histories of constructor calls", "why_tests_cant": "all configurations and histories; the tests never run pf", "anchors": ["switchyard/hostfirewall.py: Firewall, MacOSFirewall"]}
{"id": "C123", "title": "What the other example programs do on any network", "statement": "The two-port forwarder sends everything that arrives on one port out of the other, unchanged, once, in order, before it receives again, and stops exactly at shutdown or by an exception; the sniffer never sends; the switch that does not learn floods like a hub; the packet emitter sends a packet on every interface.", "quantifier": "all networks (every sequence of answers), numbers of ports, packets and test scripts", "why_tests_cant": "all histories of receive and send results; the examples have no tests of their own", "anchors": ["examples/exercises/firewall/firewall.py: main", "examples/sniff.py: main", "examples/sendpkt.py: main", "examples/exercises/learning_switch/myswitch.py: main", "examples/exercises/router/myrouter.py: Router.router_main"]}
{"id": "C124", "title": "Device discovery reports the devices of the system", "statement": "The list of capture devices has one entry for every device of the system, in order, with its name, description and state flags; different devices have different names; the list is taken once and never changes; a failing discovery is reported; without a choice of interfaces a program uses every device that is not a loopback, has an index and is not excluded, once.", "quantifier": "all systems (device lists, flags, names), exclusions, and histories of calls with any answers of the system", "why_tests_cant": "all systems and histories; tests see one machine and never a failing libpcap", "anchors": ["switchyard/pcapffi.py: _PcapFfi.instance, _PcapFfi.discoverdevs, pcap_devices", "switchyard/syinit.py: _assemble_device_list"]}
{"id": "C125", "title": "Saving what a device receives, and showing what was saved", "statement": "The program that saves packets puts every frame the device delivers into the file, uncut, in order and once, whether or not it can be read, prints one line for each, and reports their number; the program that shows files prints every packet of every file in order with their numbers; frames that were saved are shown as the packets they are.", "quantifier": "all sequences of frames a device may deliver, ending by silence, an exception or not at all; all lists of files with any records", "why_tests_cant": "all sequences of frames and files; the example programs have no tests", "anchors": ["examples/sydump.py", "examples/readpkt.py", "switchyard/pcapffi.py: PcapDumper, PcapReader"]}
{"id": "C126", "title": "The header classes of the documentation", "statement": "A UDPPing is sent as its sequence number in two bytes, higher first, and a SpanningTreeMessage as its root address, a zero byte and the number of hops; numbers that do not fit raise struct.error and shorter input raises ValueError; once registered as documented, packets of any headers ending in one of them come back with the same values, and without registration as payload; two objects are equal exactly when their fields are.", "quantifier": "all sequence numbers, roots and hop counts; all byte strings; all packets of well-formed headers in front", "why_tests_cant": "all values and all packets; the programs of the documentation have no tests", "anchors": ["documentation/code/udpappheader.py: UDPPing", "documentation/code/newheader.py: SpanningTreeMessage", "switchyard/lib/packet/packet.py: PacketHeaderBase.__eq__, size"]}
{"id": "C127", "title": "The network programs of the documentation", "statement": "The echo program sends every packet back out of the port it came in on, and the simple hub sends every packet, whatever it is and whoever it is addressed to, out of every other port: unchanged, once, in order, before asking for the next; both end when the network is shut down and otherwise only by an exception; they pass every test that describes an echo or such a hub. The program without a loop handles one packet. The wrong hub of the documentation changes the source address and nothing else.", "quantifier": "all answers of the network, all packets, all numbers of ports, all test scripts of the given form", "why_tests_cant": "all histories of the network and all scripts; the programs of the documentation have no tests", "anchors": ["documentation/code/inout1.py", "documentation/code/inout2.py", "documentation/code/inoutloop.py", "documentation/code/fullhub.py", "documentation/code/baaadhub.py"]}
{"id": "C128", "title": "Tests fail the wrong programs", "statement": "A program that sends nothing leaves every expected output pending and is never reported as having passed a test that expects one; so the programs of the documentation that forget to send, receive twice or call a method that does not exist fail all such tests. The program that always answers on eth0 passes a test of one packet in and one packet out exactly when the packet is expected, as it came in, on eth0 (all packets being printable). The programs that change the source address, replace the last header or remove it fail every such test that expects what came in, exactly or not. The program that only listens passes the tests that expect nothing to be sent, and no others.", "quantifier": "all scenarios that expect an output; all scenarios of one packet in and one out, with every packet, port and expectation; all runs, also when the alarm strikes", "why_tests_cant": "all scenarios and all packets; the documentation shows one scenario for each program", "anchors": ["documentation/code/failhub1.py", "documentation/code/failhub2.py", "documentation/code/failhub3.py", "documentation/code/failhub4.py", "documentation/code/failhub6.py", "documentation/code/failhub7.py", "documentation/code/failhub8.py", "documentation/code/enterdebugger.py", "switchyard/llnettest.py: LLNetTest, run_tests", "switchyard/lib/testing.py: TestScenario, PacketOutputEvent"]}
