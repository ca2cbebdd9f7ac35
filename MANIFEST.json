{
 "claims": [
  {
   "property": "C01",
   "status": "proved",
   "theorems": [
    "C01_checksum_is_rfc1071",
    "C01_unbounded_length_refuted"
   ],
   "note": "Bound 131072 bytes in the statement; the refuted theorem shows that the bound is needed."
  },
  {
   "property": "C02",
   "status": "proved",
   "theorems": [
    "C02_stored_checksum_verifies",
    "C02_corruption_detected"
   ],
   "note": ""
  },
  {
   "property": "C03",
   "status": "proved",
   "theorems": [
    "C03_skip_word_zeroes",
    "C03_skip_word_outside"
   ],
   "note": ""
  },
  {
   "property": "C04",
   "status": "proved",
   "theorems": [
    "C04_text_round_trip",
    "C04_text_injective"
   ],
   "note": "ASCII text."
  },
  {
   "property": "C05",
   "status": "proved",
   "theorems": [
    "C05_compare_is_numeric",
    "C05_total_order_and_hash"
   ],
   "note": "The hash is an arbitrary function of the stored bytes."
  },
  {
   "property": "C06",
   "status": "proved",
   "theorems": [
    "C06_accepted_texts",
    "C06_text_gives_six_bytes",
    "C06_from_bytes",
    "C06_classification"
   ],
   "note": "ASCII text; exact characterisation of the accepted texts."
  },
  {
   "property": "C07",
   "status": "partial",
   "theorems": [
    "C07_round_trip_partial",
    "C07_round_trip_refuted",
    "C07_parse_then_serialise",
    "C07_accepts_exactly"
   ],
   "note": "Full round trip holds except for the ethertype values of the IEEE 802.3 length range (refuted theorem)."
  },
  {
   "property": "C08",
   "status": "partial",
   "theorems": [
    "C08_round_trip_partial",
    "C08_parse_serialise_partial",
    "C08_priority_refuted",
    "C08_short_rejected"
   ],
   "note": "Round trip of the VLAN id and ethertype; the priority bits are lost (refuted theorem)."
  },
  {
   "property": "C09",
   "status": "proved",
   "theorems": [
    "C09_round_trip",
    "C09_parse_then_serialise",
    "C09_ipv6_address_refuted"
   ],
   "note": "IPv4 addresses, as the class is documented; the refuted theorem records what happens to an IPv6 address."
  },
  {
   "property": "C10",
   "status": "proved",
   "theorems": [
    "C10_udp_round_trip",
    "C10_udp_without_ipv4",
    "C10_udp_too_long",
    "C10_udp_parse_then_serialise"
   ],
   "note": ""
  },
  {
   "property": "C11",
   "status": "proved",
   "theorems": [
    "C11_tcp_round_trip",
    "C11_tcp_too_long",
    "C11_flags_independent",
    "C11_flag_is_bit"
   ],
   "note": "TCP header without options (the class has no option types); options of received segments are C60."
  },
  {
   "property": "C12",
   "status": "proved",
   "theorems": [
    "C12_round_trip_and_checksum",
    "C12_too_long_raises",
    "C12_parse_then_serialise"
   ],
   "note": ""
  },
  {
   "property": "C13",
   "status": "partial",
   "theorems": [
    "C13_options_round_trip_partial",
    "C13_header_with_options_partial",
    "C13_new_options_covered",
    "C13_timestamp_refuted",
    "C13_empty_route_refuted",
    "C13_too_many_options_refuted"
   ],
   "note": "Round trip for all option lists of the supported kinds that fit; timestamp, empty route and over-long lists are refuted."
  },
  {
   "property": "C14",
   "status": "partial",
   "theorems": [
    "C14_termination_refuted",
    "C14_termination_partial",
    "C14_truncated",
    "C14_fuel_decides"
   ],
   "note": "False of the code: a timestamp option of length 0 loops for ever. The partial theorem characterises when it terminates."
  },
  {
   "property": "C15",
   "status": "partial",
   "theorems": [
    "C15_dscp",
    "C15_other_setters",
    "C15_ecn_refuted",
    "C15_ecn_partial"
   ],
   "note": "The ecn setter is wrong (refuted); all others proved."
  },
  {
   "property": "C16",
   "status": "proved",
   "theorems": [
    "C16_round_trip",
    "C16_too_long_raises",
    "C16_accepts_exactly",
    "C16_parse_then_serialise"
   ],
   "note": ""
  },
  {
   "property": "C17",
   "status": "partial",
   "theorems": [
    "C17_hop_options_partial",
    "C17_hop_unaligned_refuted",
    "C17_hop_truncated_refuted",
    "C17_hop_rest_partial",
    "C17_fragment_round_trip",
    "C17_fragment_parsed",
    "C17_route_partial",
    "C17_route_length_refuted",
    "C17_route_default"
   ],
   "note": "Round trips for aligned option lists, fragment and routing headers; unaligned options, truncated headers and the constructor routing header are refuted."
  },
  {
   "property": "C18",
   "status": "partial",
   "theorems": [
    "C18_consistent_partial",
    "C18_refused_unchanged_partial",
    "C18_type_assigned",
    "C18_data_assigned",
    "C18_foreign_data_refuted",
    "C18_foreign_data6_refuted"
   ],
   "note": "Invariant over all assignment sequences; data objects belonging to no type of the family are stored although refused (refuted)."
  },
  {
   "property": "C19",
   "status": "proved",
   "theorems": [
    "C19_round_trip",
    "C19_same_data",
    "C19_mask_data_refuted",
    "C19_default"
   ],
   "note": "Messages up to 65535 bytes. Data given to an address-mask message is not sent (recorded by the refuted theorem; that message type has no data)."
  },
  {
   "property": "C20",
   "status": "partial",
   "theorems": [
    "C20_round_trip_partial",
    "C20_same_data",
    "C20_ra_flags_refuted",
    "C20_redirected_refuted",
    "C20_target_option_refuted",
    "C20_unsupported_types"
   ],
   "note": "Round trip and pseudo-header checksum for all supported messages and option lists; router-advertisement flags, misaligned redirected headers and the target option constructor are refuted."
  },
  {
   "property": "C21",
   "status": "partial",
   "theorems": [
    "C21_terminates_partial",
    "C21_loop_refuted"
   ],
   "note": "False of the code: an unknown option of length 0 loops for ever. The partial theorem shows that this is the only way."
  },
  {
   "property": "C22",
   "status": "proved",
   "theorems": [
    "C22_serialise",
    "C22_round_trip",
    "C22_entry_masked",
    "C22_masks_accepted",
    "C22_get",
    "C22_set",
    "C22_append",
    "C22_default"
   ],
   "note": ""
  },
  {
   "property": "C23",
   "status": "proved",
   "theorems": [
    "C23_udp_stack",
    "C23_tcp_stack",
    "C23_icmp_stack",
    "C23_icmp6_stack",
    "C23_icmp_payload_refuted"
   ],
   "note": "For UDP, TCP and ICMP over IPv4 (with IPv4 options) and ICMPv6 over IPv6. A payload added behind an ICMP header is not part of the stated property; C23_icmp_payload_refuted records that its checksum does not cover it."
  },
  {
   "property": "C24",
   "status": "proved",
   "theorems": [
    "C24_packet_round_trip"
   ],
   "note": "For every stack of Ethernet, VLAN, ARP, IPv4, IPv6, extension, UDP, TCP, ICMP, ICMPv6 and null headers whose type fields announce each other; read_as says what is normalised (option padding, TCP length fields)."
  },
  {
   "property": "C25",
   "status": "proved",
   "theorems": [
    "C25_serialise_repeatable"
   ],
   "note": ""
  },
  {
   "property": "C26",
   "status": "proved",
   "theorems": [
    "C26_container_is_list",
    "C26_list_behaviour_unique",
    "C26_negative_start_refuted"
   ],
   "note": "get_header_index with a negative start is outside the stated operations; the refuted theorem records its result."
  },
  {
   "property": "C27",
   "status": "partial",
   "theorems": [
    "C27_length_partial",
    "C27_length_refuted"
   ],
   "note": "False of the code for RIPv2 and IPv6 extension headers (refuted); proved for all other headers."
  },
  {
   "property": "C28",
   "status": "proved",
   "theorems": [
    "C28_short_header",
    "C28_truncated_packet",
    "C28_cut_frame"
   ],
   "note": ""
  },
  {
   "property": "C29",
   "status": "proved",
   "theorems": [
    "C29_arp_request",
    "C29_arp_reply",
    "C29_arp_exchange"
   ],
   "note": ""
  },
  {
   "property": "C30",
   "status": "partial",
   "theorems": [
    "C30_exact_match_compares",
    "C30_match_same_bytes_partial",
    "C30_same_bytes_match_partial",
    "C30_match_same_bytes_refuted",
    "C30_same_bytes_match_refuted"
   ],
   "note": "Exact match characterised attribute by attribute; each direction of \"iff same bytes\" proved under stated conditions and refuted in general (ICMPv6 neighbour discovery data not compared; padded IPv4 options)."
  },
  {
   "property": "C31",
   "status": "proved",
   "theorems": [
    "C31_inexact_match",
    "C31_monotone"
   ],
   "note": "Inexact match iff header classes and non-wildcarded address/demux fields agree and all predicates hold; monotone."
  },
  {
   "property": "C32",
   "status": "proved",
   "theorems": [
    "C32_accepts",
    "C32_each_once",
    "C32_any_order"
   ],
   "note": "Single sends, arbitrary series of sends, and any order of the expected packets."
  },
  {
   "property": "C33",
   "status": "partial",
   "theorems": [
    "C33_nothing_lost_partial",
    "C33_summary_partial",
    "C33_failed_stays_partial",
    "C33_lost_input_refuted",
    "C33_lost_output_refuted"
   ],
   "note": "By induction over arbitrary histories of expectations and calls, for packets that can be printed. Refuted otherwise: passing a test formats its event into a debug message, which raises AttributeError for router advertisements and home address options; the event is then neither passed nor pending."
  },
  {
   "property": "C34",
   "status": "partial",
   "theorems": [
    "C34_calls_follow_script_partial",
    "C34_follow_script_refuted",
    "C34_honest_program_partial",
    "C34_alarm",
    "C34_any_return_partial",
    "C34_hidden_failure_refuted",
    "C34_early_shutdown_refuted"
   ],
   "note": "For packets that can be printed (refuted otherwise). Call sequences: iff. Programs: iff for programs that let failures through, and for any normal return with respect to the calls that went well; refuted for programs that hide failures or raise Shutdown themselves. The alarm is modelled between calls, not inside them."
  },
  {
   "property": "C35",
   "status": "partial",
   "theorems": [
    "C35_save_load_partial",
    "C35_loaded_behaves_partial",
    "C35_order_refuted",
    "C35_save_twice_refuted",
    "C35_options_refuted"
   ],
   "note": "Unstarted scenarios of well-formed packets without IPv4 options: same contents, indistinguishable by any call sequence. Refuted for partly executed ones (order rotates), for saving twice, and for padded IPv4 options."
  },
  {
   "property": "C36",
   "status": "partial",
   "theorems": [
    "C36_scripted_inputs_partial",
    "C36_time",
    "C36_no_packet_at_output",
    "C36_saved_prints"
   ],
   "note": "Timestamps: always. Scripted inputs: for deliverable scripted packets (known port, serialisable and readable) that can be printed; a router advertisement is never handed over (C33_lost_input_refuted)."
  },
  {
   "property": "C37",
   "status": "partial",
   "theorems": [
    "C37_delivery_partial",
    "C37_one_owner",
    "C37_double_close_refuted",
    "C37_bind_after_close_refuted"
   ],
   "note": "For every history in which only open sockets are bound or closed, ports are integers and the firewall works; double close and bind after close are refuted with witnesses."
  },
  {
   "property": "C38",
   "status": "proved",
   "theorems": [
    "C38_upward_order",
    "C38_downward_order",
    "C38_nothing_invented",
    "C38_sends_as_addressed",
    "C38_bind_keeps_data"
   ],
   "note": "Under every interleaving of the atomic actions of any number of calls; offered data is put, refused or still in flight."
  },
  {
   "property": "C39",
   "status": "partial",
   "theorems": [
    "C39_distinct_ports_partial",
    "C39_bind",
    "C39_new_port",
    "C39_interleaved_bind_refuted",
    "C39_interleaved_new_refuted",
    "C39_bind_disturbed_refuted",
    "C39_text_port_refuted",
    "C39_failed_firewall_refuted"
   ],
   "note": "For every tidy sequential history; interleaved calls, text ports, a failing firewall and a bind during which another thread opens or closes a socket are refuted with witnesses."
  },
  {
   "property": "C40",
   "status": "proved",
   "theorems": [
    "C40_capture_order",
    "C40_drained",
    "C40_known_port"
   ],
   "note": "Every interleaving of capture threads, user thread, signal handler and shutdown."
  },
  {
   "property": "C41",
   "status": "partial",
   "theorems": [
    "C41_no_packet_after_shutdown",
    "C41_receive_raises_partial",
    "C41_shutdown_idempotent",
    "C41_stops",
    "C41_signal_wakes",
    "C41_receive_blocks_refuted"
   ],
   "note": "Proved for receives with a timeout; a receive without a timeout can block for ever after shutdown (refuted theorem)."
  },
  {
   "property": "C42",
   "status": "proved",
   "theorems": [
    "C42_by_name",
    "C42_by_ipaddr",
    "C42_by_macaddr",
    "C42_by_number",
    "C42_up_once",
    "C42_callback"
   ],
   "note": "The four lookups return exactly the interface holding the given name, address or number and raise otherwise; up/down state changes call the callback once per transition."
  },
  {
   "property": "C43",
   "status": "partial",
   "theorems": [
    "C43_device_selection_partial",
    "C43_refuted"
   ],
   "note": "Devices chosen are exactly those present, not loopback-like, included and not excluded, when the include list names an existing device; C43_refuted: an include list naming no existing device selects all devices."
  },
  {
   "property": "C44",
   "status": "partial",
   "theorems": [
    "C44_linux_blocks_partial",
    "C44_linux_accepts",
    "C44_refused",
    "C44_bad_port_refuted",
    "C44_big_port_refuted",
    "C44_mac_partial",
    "C44_mac_port_refuted",
    "C44_mac_none_refuted",
    "C44_spaces"
   ],
   "note": "Linux: documented rules drop exactly what they cover, and texts not starting with a protocol name are refused. Refuted: malformed or too large ports are accepted; macOS port and none rules."
  },
  {
   "property": "C45",
   "status": "proved",
   "theorems": [
    "C45_restored",
    "C45_duplicate_refuted"
   ],
   "note": "Linux firewall; commands are assumed to do what iptables, iptables-save/restore and sysctl document. Interfaces listed once; the refuted theorem shows that this is needed."
  },
  {
   "property": "C46",
   "status": "partial",
   "theorems": [
    "C46_names",
    "C46_added",
    "C46_automatic",
    "C46_macs_partial",
    "C46_macs_reload_refuted",
    "C46_macs_union_refuted"
   ],
   "note": "Names: every history. Ethernet addresses: every history without hand-set addresses, loading or union; loading and union restart the numbering (refuted theorems)."
  },
  {
   "property": "C47",
   "status": "partial",
   "theorems": [
    "C47_links_partial",
    "C47_listed",
    "C47_remove_link",
    "C47_remove_node",
    "C47_own_interface",
    "C47_query_partial",
    "C47_query_refuted",
    "C47_reserved_refuted",
    "C47_prefix_refuted",
    "C47_reload_refuted",
    "C47_set_addresses"
   ],
   "note": "Every history whose explicit names are not keys of the link record and whose prefixes do not clash with names; getLinkInterfaces repeats the first interface, and reserved names, clashing prefixes and links made after loading break the records (refuted theorems)."
  },
  {
   "property": "C48",
   "status": "partial",
   "theorems": [
    "C48_message_partial",
    "C48_bare",
    "C48_actions",
    "C48_size",
    "C48_size_refuted",
    "C48_flags_refuted",
    "C48_name_refuted",
    "C48_default_refuted",
    "C48_error_refuted",
    "C48_portstats_refuted",
    "C48_prefix_refuted",
    "C48_stats_refuted",
    "C48_statsreq_refuted",
    "C48_strip_refuted",
    "C48_constructors",
    "C48_text",
    "C48_flag_members",
    "C48_add_flag"
   ],
   "note": "Every message type, all action, port and queue lists; strings come back NUL-padded and flag sets are compared by their bits. Exact equality, address prefixes in matches, port statistics errors, aggregate requests, defaults of packet-out and error, and two size() methods are wrong (refuted theorems)."
  },
  {
   "property": "C49",
   "status": "proved",
   "theorems": [
    "C49_actions_finish",
    "C49_message_finish",
    "C49_short"
   ],
   "note": "Action lists, and whole messages with port, queue and property lists."
  },
  {
   "property": "C50",
   "status": "partial",
   "theorems": [
    "C50_capacity",
    "C50_fetch",
    "C50_pile_partial",
    "C50_keep_refuted"
   ],
   "note": "Capacity, ids, fetch and lookup for every history; no packet is lost as long as fetches are newest first. For other orders refuted: the next store overwrites a buffered packet."
  },
  {
   "property": "C51",
   "status": "partial",
   "theorems": [
    "C51_lookup_partial",
    "C51_stands",
    "C51_lookup_refuted",
    "C51_delete_fails",
    "C51_delete_refuted",
    "C51_order",
    "C51_miss",
    "C51_priority_refuted",
    "C51_add",
    "C51_overlap"
   ],
   "note": "As the code stands add always raises NameError, tables hold at most one entry and lookups with a port raise (refuted); lookup without port proved. With the missing names imported: lookup returns a lowest-priority entry (C51_order, priority refuted); delete removes nothing."
  },
  {
   "property": "C52",
   "status": "partial",
   "theorems": [
    "C52_once",
    "C52_not_early",
    "C52_order",
    "C52_earliest",
    "C52_prompt_partial",
    "C52_survives_partial",
    "C52_delivered_partial",
    "C52_clock_refuted",
    "C52_tie_refuted",
    "C52_order_refuted"
   ],
   "note": "Delivered at most once, never early, first put and first due comes out first: proved for every schedule. Delivery of everything is proved while the thread runs, and the thread runs unless a due time falls between the two clock readings of a round or two entries tie (both refuted with witnesses); a packet waiting in the queue can come out after one due later (refuted)."
  },
  {
   "property": "C53",
   "status": "proved",
   "theorems": [
    "C53_every_text",
    "C53_parse",
    "C53_parse_error",
    "C53_equals_refuted",
    "C53_called",
    "C53_entered",
    "C53_named_refuted",
    "C53_keyword_refuted",
    "C53_star_refuted",
    "C53_clash_refuted",
    "C53_entry",
    "C53_entry_error",
    "C53_spaces"
   ],
   "note": "For every text and every signature. Refuted sub-claims: a value containing =, a named parameter after net, a default parameter given by key, def main(*args), a key equal to the name of the net parameter."
  },
  {
   "property": "C54",
   "status": "partial",
   "theorems": [
    "C54_six_bytes_refuted",
    "C54_equality_with_non_address_refuted"
   ],
   "note": "The property is false of the code; both halves are refuted with witnesses."
  },
  {
   "property": "C55",
   "status": "partial",
   "theorems": [
    "C55_more_fragments_refuted",
    "C55_flags_partial"
   ],
   "note": "More Fragments uses the reserved bit and real first fragments are refused (refuted); the partial theorem gives the accepted flags and offset."
  },
  {
   "property": "C56",
   "status": "partial",
   "theorems": [
    "C56_ipv4_header_length_refuted",
    "C56_ipv4_header_length_partial",
    "C56_tcp_offset_refuted",
    "C56_tcp_offset_partial"
   ],
   "note": "False of the code for both headers; partial theorems say where the payload starts."
  },
  {
   "property": "C57",
   "status": "partial",
   "theorems": [
    "C57_padding_becomes_payload",
    "C57_padding_refuted"
   ],
   "note": "False of the code: all trailing bytes become payload, for every stack (general theorem) and on a witness (refuted)."
  },
  {
   "property": "C58",
   "status": "partial",
   "theorems": [
    "C58_zero_checksum_refuted"
   ],
   "note": "False of the code: witness datagram."
  },
  {
   "property": "C59",
   "status": "partial",
   "theorems": [
    "C59_options_growth_refuted",
    "C59_growth_is_one_word_partial"
   ],
   "note": "False of the code: the header grows; the partial theorem gives the exact growth."
  },
  {
   "property": "C60",
   "status": "partial",
   "theorems": [
    "C60_tcp_options_refuted"
   ],
   "note": "False of the code: witness segment."
  },
  {
   "property": "C61",
   "status": "partial",
   "theorems": [
    "C61_ipv6_fields_refuted",
    "C61_udp",
    "C61_tcp",
    "C61_tcp_flags",
    "C61_ipv6_partial",
    "C61_ipv6_flow_fails",
    "C61_ipv6_class_fails"
   ],
   "note": "UDP, TCP and IPv6: bytes exactly when every field fits, struct.error otherwise, and read back. False for IPv6 flow labels (cut without error) and traffic classes 256-4095 (never read back): general theorems and witnesses."
  },
  {
   "property": "C62",
   "status": "proved",
   "theorems": [
    "C62_option_loop_finishes",
    "C62_hop_finishes"
   ],
   "note": ""
  },
  {
   "property": "C63",
   "status": "partial",
   "theorems": [
    "C63_equal_packets_same_bytes_partial",
    "C63_equal_not_same_bytes_refuted"
   ],
   "note": "Proved for packets of headers whose comparison covers all sent fields; (including ICMP and ICMPv6 echo and field-free messages); refuted for VLAN priority, IPv4 options, ICMP redirect data, ARP lengths."
  },
  {
   "property": "C64",
   "status": "partial",
   "theorems": [
    "C64_icmp_forward_partial",
    "C64_unused_bytes_refuted",
    "C64_corruption_hidden_refuted"
   ],
   "note": "Forwarding is exact when the checksum verifies and unused bytes are zero; refuted otherwise."
  },
  {
   "property": "C65",
   "status": "partial",
   "theorems": [
    "C65_stable_partial",
    "C65_mask_changed_refuted",
    "C65_parse_appends_refuted"
   ],
   "note": "Byte-exact forwarding is false (refuted); the partial theorem gives semantic stability."
  },
  {
   "property": "C66",
   "status": "partial",
   "theorems": [
    "C66_equality_symmetric_partial",
    "C66_equality_transitive_partial",
    "C66_icmp_refuted",
    "C66_equality_reflexive",
    "C66_equality_symmetric_refuted"
   ],
   "note": "Reflexive on serialisable packets, symmetric and transitive for equal header classes and ICMP data of the kind of its type (C18); refuted in general by hop/destination option headers and by ICMP data refused on assignment."
  },
  {
   "property": "C67",
   "status": "partial",
   "theorems": [
    "C67_added_bytes_sent_partial",
    "C67_other_bytes_unserialisable",
    "C67_bytes_refuted"
   ],
   "note": "Holds for add_header and +; false for the other ways: general theorem that such packets cannot be serialised, and a witness."
  },
  {
   "property": "C68",
   "status": "partial",
   "theorems": [
    "C68_udp_over_ip6_zero",
    "C68_ip6_checksum_refuted"
   ],
   "note": "False of the code: the field is always 0 (general theorem for UDP, witnesses for both)."
  },
  {
   "property": "C69",
   "status": "partial",
   "theorems": [
    "C69_packet_parse_terminates_partial",
    "C69_rounds"
   ],
   "note": "The header loop always finishes; the only possible endless loops are the option loops of IPv4 (C14) and ICMPv6 (C21)."
  },
  {
   "property": "C70",
   "status": "partial",
   "theorems": [
    "C70_forward_udp_partial",
    "C70_forward_tcp_partial",
    "C70_forward_icmp_partial",
    "C70_forward_arp",
    "C70_forward_changed_refuted"
   ],
   "note": "Byte-exact for good UDP, TCP and ICMP frames and all ARP frames; refuted for missing or wrong UDP checksums and link padding."
  },
  {
   "property": "C71",
   "status": "proved",
   "theorems": [
    "C71_assign",
    "C71_assign_once",
    "C71_remove",
    "C71_assigned_is_found",
    "C71_remove_refused",
    "C71_unknown_refused",
    "C71_no_address"
   ],
   "note": "Assign/remove as set operations; assigned addresses are found by lookup."
  },
  {
   "property": "C72",
   "status": "partial",
   "theorems": [
    "C72_scenario_numbers_partial",
    "C72_refuted",
    "C72_numbers"
   ],
   "note": "Distinct names get numbers 0.. in order; C72_refuted: re-adding a name can give two interfaces the same number."
  },
  {
   "property": "C73",
   "status": "partial",
   "theorems": [
    "C73_positive_timeout_partial",
    "C73_zero_timeout",
    "C73_kept",
    "C73_receive",
    "C73_negative_fails",
    "C73_no_timeout_refuted",
    "C73_zero_gettimeout_refuted",
    "C73_answers"
   ],
   "note": "Positive times and zero wait as asked, receiving takes the oldest datagram, a negative time on a blocking socket is refused by the next receive; None keeps the old time and gettimeout after 0 returns the old time (refuted theorems)."
  },
  {
   "property": "C74",
   "status": "partial",
   "theorems": [
    "C74_shutdown_closes_partial",
    "C74_after_signal_refuted"
   ],
   "note": "Proved when shutdown is called while running; after SIGINT it closes nothing (refuted theorem)."
  },
  {
   "property": "C75",
   "status": "partial",
   "theorems": [
    "C75_save_load_partial",
    "C75_name",
    "C75_name_refuted",
    "C75_ipv6_refuted",
    "C75_later_refuted"
   ],
   "note": "IPv4 addresses only (IPv6 cannot be loaded: refuted), zero addresses are dropped, links made after loading overwrite interfaces (refuted), and the name of a topology without nodes is lost (refuted)."
  },
  {
   "property": "C76",
   "status": "partial",
   "theorems": [
    "C76_assigned",
    "C76_enough",
    "C76_twice_refuted"
   ],
   "note": "Prefix lengths up to 31, no self links, histories without loading; a second call reuses addresses (refuted)."
  },
  {
   "property": "C77",
   "status": "partial",
   "theorems": [
    "C77_layout_partial",
    "C77_match",
    "C77_actions",
    "C77_layout_refuted",
    "C77_read_match",
    "C77_flag_values",
    "C77_defaults"
   ],
   "note": "Every message but packet-in, flow and aggregate statistics replies and the supported-actions field, for which the layout is refuted; strip-VLAN is four bytes as the code has it."
  },
  {
   "property": "C78",
   "status": "partial",
   "theorems": [
    "C78_assign_partial",
    "C78_ecn_partial",
    "C78_refuse_partial",
    "C78_unknown",
    "C78_readonly",
    "C78_defaults",
    "C78_keywords_partial",
    "C78_keywords_refuse_partial",
    "C78_pcp_refuted",
    "C78_vlanid_refuted",
    "C78_unchecked_refuted",
    "C78_ecn_refuted",
    "C78_flag_bits"
   ],
   "note": "False for VLAN priority and identifier, the IPv4 ECN setter and every unchecked setter of UDP, TCP and IPv6 (refuted); proved for all other attributes and values. IPv4.checksum and options are outside this table."
  },
  {
   "property": "C79",
   "status": "partial",
   "theorems": [
    "C79_match_partial",
    "C79_udp_partial",
    "C79_build_partial",
    "C79_udp_refuted",
    "C79_vlan_fails",
    "C79_vlan_refuted",
    "C79_other_refuted",
    "C79_tagged_fails",
    "C79_tagged_refuted"
   ],
   "note": "Proved for packets without VLAN, ARP, IPv6, UDP (UDP except its destination port); refuted for each of those."
  },
  {
   "property": "C80",
   "status": "partial",
   "theorems": [
    "C80_cover_partial",
    "C80_cover_refuted",
    "C80_all_refuted",
    "C80_strict_refuted"
   ],
   "note": "Proved when the covered match is exact; refuted for wildcards of its own, the All wildcard and strict comparison of prefix lengths."
  },
  {
   "property": "C81",
   "status": "partial",
   "theorems": [
    "C81_expired_partial",
    "C81_removed",
    "C81_idle_refuted",
    "C81_keep_refuted",
    "C81_stands",
    "C81_stands_refuted"
   ],
   "note": "Proved for entries that matched before or have no idle timeout; refuted for others; removal only of entries asking for notification (refuted); as the code stands the run raises NameError (refuted)."
  },
  {
   "property": "C82",
   "status": "partial",
   "theorems": [
    "C82_send",
    "C82_frame_partial",
    "C82_split_refuted",
    "C82_eof_refuted",
    "C82_connect_fails",
    "C82_connect_refuted",
    "C82_received_partial"
   ],
   "note": "Sending proved; framing proved when the header arrives in one piece; refuted for split headers, end of file within a message, and connecting at all as the code stands."
  },
  {
   "property": "C83",
   "status": "partial",
   "theorems": [
    "C83_flood",
    "C83_order",
    "C83_setfield_fails",
    "C83_setfield_refuted",
    "C83_inport",
    "C83_reserved_fails",
    "C83_controller_refuted"
   ],
   "note": "Output to ports and flooding proved; set-field actions raise and nothing after them is done (refuted)."
  },
  {
   "property": "C84",
   "status": "proved",
   "theorems": [
    "C84_conserved",
    "C84_timing",
    "C84_both_ways",
    "C84_no_link"
   ],
   "note": "For every set of links with distinct ends and every schedule; arrival itself is subject to C52."
  },
  {
   "property": "C85",
   "status": "partial",
   "theorems": [
    "C85_after_firewall",
    "C85_finishes",
    "C85_bounded",
    "C85_shutdown_partial",
    "C85_shutdown_refuted",
    "C85_waits_forever",
    "C85_hang_refuted",
    "C85_firewall_down",
    "C85_closed",
    "C85_raise_refuted"
   ],
   "note": "Start after the firewall, absence of deadlock once the barrier is reached, bounded steps, firewall restored, shutdown after the user code returns: proved for all interleavings. Refuted: the application thread waits for ever when the main thread never gets to the barrier; an application that ends before the network object exists is missed; user code that raises leaves the network open."
  },
  {
   "property": "C86",
   "status": "partial",
   "theorems": [
    "C86_rounding",
    "C86_capacity",
    "C86_capacity_fraction_partial",
    "C86_capacity_fraction_refuted",
    "C86_capacity_unit_fails",
    "C86_capacity_unit_refuted",
    "C86_capacity_back_partial",
    "C86_capacity_back_refuted",
    "C86_repr",
    "C86_delay",
    "C86_delay_shown",
    "C86_delay_back_partial",
    "C86_delay_back_fails",
    "C86_delay_back_refuted",
    "C86_errors"
   ],
   "note": "Whole numbers of documented units are read exactly, delays as the nearest double, capacities with a fraction to within 1.5 bit/s; shown and read back a capacity is the same or one less (the same for whole numbers of the unit shown). Refuted: 1.001 Kb/s is read as 1000; 1001 bit/s comes back as 1000; an unknown unit gives capacity 0; every delay except whole seconds and one millisecond is shown in a form that cannot be read back. Floats are rationals rounded to 53 bits (rounding proved to be to the nearest double); repr() is a parameter, used only for non-whole numbers, assumed to print a numeral that float() reads back (an instance is proved)."
  },
  {
   "property": "C87",
   "status": "partial",
   "theorems": [
    "C87_asks_partial",
    "C87_no",
    "C87_saved",
    "C87_clean",
    "C87_set_refuted",
    "C87_died_refuted",
    "C87_needless_refuted"
   ],
   "note": "Exit and load ask in every session without set link; refuted: set link is not noticed, an exception loses the changes, and removing an unknown node counts as a change."
  },
  {
   "property": "C88",
   "status": "partial",
   "theorems": [
    "C88_follows_partial",
    "C88_travel_partial",
    "C88_set_fails",
    "C88_set_refuted",
    "C88_set_node_fails",
    "C88_load_refuted",
    "C88_settings",
    "C88_settings_refuted"
   ],
   "note": "For every session without set link, load and reserved names; set never reaches the network (general theorem and witness), set node does nothing, links made after loading share interfaces (refuted). Travel also excludes links from a node to itself. Settings: words that can be taken for the name of a setting are excluded; refuted for the unit b."
  },
  {
   "property": "C89",
   "status": "partial",
   "theorems": [
    "C89_stays_partial",
    "C89_load_fails",
    "C89_exec_fails",
    "C89_load_refuted",
    "C89_name_fails",
    "C89_link_refuted",
    "C89_capacity_refuted",
    "C89_replay_refuted"
   ],
   "note": "For topologies whose links are complete, and sessions without load, exec, replay, existing names, reserved names and unreadable settings. Loading and exec always end the program when there is a node (general theorems); witnesses for the others."
  },
  {
   "property": "C90",
   "status": "partial",
   "theorems": [
    "C90_prefix_partial",
    "C90_exit_refuted"
   ],
   "note": "Every command but exit, whose abbreviations are not recognized (refuted)."
  },
  {
   "property": "C91",
   "status": "partial",
   "theorems": [
    "C91_time_fails",
    "C91_rate_refuted"
   ],
   "note": "False: C91_time_fails shows for every network and history that a packet is due after len/capacity seconds (bytes divided by bits per second, an eighth of the time), with no regard to packets before it; C91_rate_refuted sends twice the capacity."
  },
  {
   "property": "C92",
   "status": "partial",
   "theorems": [
    "C92_round_partial",
    "C92_elsewhere",
    "C92_order",
    "C92_pieces",
    "C92_count",
    "C92_bytes",
    "C92_zero_refuted",
    "C92_copy_partial",
    "C92_copy_refuted"
   ],
   "note": "Proved for times above 0 up to 2038, with times kept to within -1.25/+0.25 microseconds. False for a time of 0, which is replaced by the clock, and for exact copying: a time may go down by one microsecond per copy (never more, never up). libpcap is assumed to keep records."
  },
  {
   "property": "C93",
   "status": "partial",
   "theorems": [
    "C93_wired",
    "C93_refused",
    "C93_unknown_fails",
    "C93_up_refuted",
    "C93_loop_partial",
    "C93_loop_fails",
    "C93_twice_refuted",
    "C93_loop6_fails"
   ],
   "note": "Proved for devices that are not loopback devices, and for IPv4 packets on loopback devices. False otherwise: IPv6 on a loopback device is never sent, the link header is deleted from the packet of the caller, unknown numbers and interfaces raise KeyError and AttributeError, an interface put up later cannot be sent on."
  },
  {
   "property": "C94",
   "status": "partial",
   "theorems": [
    "C94_devices_partial",
    "C94_prefix_fails",
    "C94_succeeds",
    "C94_type_fails",
    "C94_type_refuted"
   ],
   "note": "Names, numbers, link-layer addresses, the set of IP addresses and loopback devices proved. False: every prefix length is 32 or 128 (C94_prefix_fails), and on Linux all other devices get the same kind (C94_type_fails, C94_type_refuted)."
  },
  {
   "property": "C95",
   "status": "partial",
   "theorems": [
    "C95_handles",
    "C95_all",
    "C95_filter",
    "C95_raises",
    "C95_lock",
    "C95_close_again",
    "C95_leak_stands",
    "C95_null_refuted",
    "C95_created_refuted",
    "C95_leak_refuted",
    "C95_use_refuted"
   ],
   "note": "Proved for every interleaving as long as the library does not refuse to create a device (pcap_create). False after such a refusal (a null pointer stays registered), with a device that is created and not activated (the call raises and leaves out the devices after it), and for constructors that raise after opening: their handle stays open for good. Methods of a closed device still pass its handle on."
  },
  {
   "property": "C96",
   "status": "partial",
   "theorems": [
    "C96_in_time",
    "C96_forever",
    "C96_polled",
    "C96_zero",
    "C96_no_wait_fails",
    "C96_time_ignored_fails",
    "C96_hangs_refuted",
    "C96_created_fails",
    "C96_blocking_fails",
    "C96_stale_fails",
    "C96_stale_refuted"
   ],
   "note": "Proved for devices with a descriptor to wait on and for nonblocking ones that are polled. False otherwise: without a descriptor, receiving without a time returns at once (nonblocking) or the time is ignored (blocking); created devices raise TypeError; the blocking property is inverted when set, raises when the device is nonblocking and is never True."
  },
  {
   "property": "C97",
   "status": "partial",
   "theorems": [
    "C97_capture",
    "C97_pass",
    "C97_safe",
    "C97_stop",
    "C97_once",
    "C97_rebuild",
    "C97_listed",
    "C97_where_exist",
    "C97_where_all",
    "C97_where_node",
    "C97_where_interface",
    "C97_names",
    "C97_where_refuted",
    "C97_names_refuted",
    "C97_never_closed_fails",
    "C97_twice_refuted",
    "C97_code_fails",
    "C97_listed_refuted",
    "C97_debug_fails",
    "C97_debug_hangs_fails",
    "C97_unwritable_fails",
    "C97_ascii"
   ],
   "note": "Proved for capture monitors. False of the code: a file name ending in .pcap is shared by several interfaces; files are closed only by a rebuild, so monitoring again has the file open twice; code monitors never work and make the next rebuild end the command line; debug monitors stop the node for good and end the command line with the next line; a file that cannot be written ends the process at the first packet; a node named like the beginning of any/all cannot be named alone."
  },
  {
   "property": "C98",
   "status": "partial",
   "theorems": [
    "C98_answers_partial",
    "C98_unknown_partial",
    "C98_fatal_fails",
    "C98_default_fails",
    "C98_unconnected_fails",
    "C98_versions",
    "C98_barrier_refuted"
   ],
   "note": "Proved for a 1.0 switch whose connections come up, for hello, features, get/set-config, barrier and unhandled types, in every history. False of the code: connect uses undefined names, so no connection ever comes up (C98_unconnected_fails); echo, stats, flow-mod, hello of version 4 and unreadable messages end the thread (C98_fatal_fails); a switch made for 1.3 answers nothing until a 1.0 hello (C98_default_fails) and mixes up barrier and queue requests after it (C98_barrier_refuted)."
  },
  {
   "property": "C99",
   "status": "partial",
   "theorems": [
    "C99_packet_in_partial",
    "C99_release_partial",
    "C99_announced_any",
    "C99_release_latest_partial",
    "C99_full_fails",
    "C99_raw_fails",
    "C99_default_fails",
    "C99_forwarding_fails",
    "C99_release_refuted"
   ],
   "note": "For a 1.0 switch: packet-in proved in full detail for histories without packet-outs, and for all histories that every controller is told of the packet under one id; a packet-out proved, for all histories, to send the packet last announced under its id. False of the code: the 101st unreleased packet ends the datapath (C99_full_fails); ids are reused while their packets wait (C99_release_refuted); packet-outs carrying data end the thread (C99_raw_fails); the default 1.3 switch stops at its first packet (C99_default_fails); the flow table is never filled (C99_forwarding_fails)."
  },
  {
   "property": "C100",
   "status": "partial",
   "theorems": [
    "C100_bare_partial",
    "C100_layout_partial",
    "C100_assigned_partial",
    "C100_read_partial",
    "C100_read_refuted",
    "C100_parse_fails",
    "C100_round_refuted",
    "C100_broken_fails",
    "C100_number_fails",
    "C100_queue_fails",
    "C100_parse_reason",
    "C100_refused"
   ],
   "note": "Layout and assignments proved for bare headers, error, echo, experimenter and configuration messages, and reading their bodies back. False of the code: no 1.3 message can be parsed (C100_parse_fails); flow-mod, flow-removed, port-mod, port-status, features, packet-in and packet-out can never be serialised (C100_broken_fails); a type given as a number (C100_number_fails); queue requests have the 1.0 layout (C100_queue_fails). The statistics classes are not modelled."
  },
  {
   "property": "C101",
   "status": "partial",
   "theorems": [
    "C101_user_code",
    "C101_rules_partial",
    "C101_rules_refuted",
    "C101_default_blocks_all",
    "C101_compile",
    "C101_bad_codearg",
    "C101_simulator",
    "C101_simulator_refuted",
    "C101_topology_fails"
   ],
   "note": "Start of user code, default blocking, compiling, unreadable arguments: characterised for all arguments. Rules given with an application are dropped, --cli alone prints usage, --topology always ends in NameError: refuted/fails."
  },
  {
   "property": "C102",
   "status": "partial",
   "theorems": [
    "C102_independent_partial",
    "C102_finished_leaves_nothing",
    "C102_pass_cancels",
    "C102_independent_refuted",
    "C102_stops_refuted",
    "C102_counted"
   ],
   "note": "Independent as long as scenarios end where their script is finished or an input is due; otherwise an alarm left over fails the next scenario or stops the run (refuted)."
  },
  {
   "property": "C103",
   "status": "partial",
   "theorems": [
    "C103_name",
    "C103_name_refuted",
    "C103_compiled_behaves_partial",
    "C103_hooks_refuted",
    "C103_overwritten_refuted",
    "C103_digest",
    "C103_cut_short"
   ],
   "note": "Name of the compiled file characterised exactly (rstrip removes characters); round trip through any faithful codecs under the conditions of C35; digest check. Refuted: names ending in p, y or a dot, setup and teardown functions, two scenario files sharing a compiled file."
  },
  {
   "property": "C104",
   "status": "partial",
   "theorems": [
    "C104_named_file_partial",
    "C104_dot_fails",
    "C104_several_files_partial",
    "C104_same_name_refuted",
    "C104_other_directory_refuted",
    "C104_library_refuted",
    "C104_reload_refuted"
   ],
   "note": "Holds for one file and for sequences of files when no directory searched before has a module of that name; refuted for names with a dot (all of them), equal names, the directory of the user code, names of the standard library, and reloading."
  },
  {
   "property": "C105",
   "status": "partial",
   "theorems": [
    "C105_isolated",
    "C105_copy",
    "C105_parsed",
    "C105_sum_partial",
    "C105_sum_refuted",
    "C105_header_sum_refuted",
    "C105_serialise_partial",
    "C105_failed_serialise_refuted"
   ],
   "note": "Copies and parsed packets are independent of everything; a packet sharing no header object with another is not affected by any sequence of operations on the other. Refuted for sums (the sum holds the right operand's own headers), for sums of headers, and for serialising that fails half way, which leaves changes behind."
  },
  {
   "property": "C106",
   "status": "partial",
   "theorems": [
    "C106_expected",
    "C106_delivered",
    "C106_input_partial",
    "C106_input_refuted"
   ],
   "note": "Expected packets and delivered packets are private for all later histories. Input events keep the author's object: proved unchanged if the author leaves it alone, refuted otherwise."
  },
  {
   "property": "C107",
   "status": "partial",
   "theorems": [
    "C107_copied_partial",
    "C107_last_output",
    "C107_read_back",
    "C107_changed_refuted",
    "C107_other_device_refuted"
   ],
   "note": "Proved: the delivered packet is the given one with every rule applied, the values being those of the packet last sent on each device, provided the sent packets are still as they were. Refuted: a program that changes the packet after sending changes the copied value; only devices of the very last completed output expectation count. Reading the source attributes is taken to succeed."
  },
  {
   "property": "C108",
   "status": "partial",
   "theorems": [
    "C108_shipped",
    "C108_registered",
    "C108_several",
    "C108_round_trip",
    "C108_several_round_trip",
    "C108_ignored",
    "C108_shared_map_refuted",
    "C108_ipv6_map_refuted",
    "C108_short_payload_refuted"
   ],
   "note": "Proved for one and for any number of registrations of classes for numbers the library does not use (packets on which reading the library headers ends), and the round trip for one and for any number. Refuted: registrations behind ARP, ICMP, RIP and extension headers are ignored (proved for all), classes without a map share one map, a map set for IPv6 is not used behind extension headers, a refused or missing payload makes the packet unreadable. Registrations behind classes of the program are covered only by the refutation."
  },
  {
   "property": "C109",
   "status": "partial",
   "theorems": [
    "C109_reported",
    "C109_honest",
    "C109_differences",
    "C109_expected_fails",
    "C109_expected_refuted",
    "C109_ports_partial",
    "C109_ports_refuted"
   ],
   "note": "Reports about contents and predicates proved exact, ports for names without capitals. Refuted: verbose output shows the packet sent as the one expected (general theorem and witness); port names with capital letters are changed to lower case. Diagnoses are data, not text; the sentence about ports is the text (ASCII)."
  },
  {
   "property": "C110",
   "status": "partial",
   "theorems": [
    "C110_interrupted_partial",
    "C110_locked_fails",
    "C110_interrupted_refuted"
   ],
   "note": "Proved for every moment at which the program does not hold the lock of the queue. False otherwise: the handler runs in the thread that holds the (not reentrant) lock and waits for it for ever; general theorem and witness. The queue of the standard library is modelled step by step as queue.py and threading.py have it."
  },
  {
   "property": "C111",
   "status": "partial",
   "theorems": [
    "C111_history",
    "C111_read",
    "C111_iterate",
    "C111_class",
    "C111_class_refuted",
    "C111_route_partial",
    "C111_addresses",
    "C111_route_refuted"
   ],
   "note": "List behaviour proved in full for all histories. Two clauses are false: an ICMPv6 list read by class cannot be assigned or deleted by class (TypeError), and deleting addresses may leave a route option that the receiver refuses; the latter is proved to be the only way."
  },
  {
   "property": "C112",
   "status": "partial",
   "theorems": [
    "C112_alone",
    "C112_call_partial",
    "C112_union",
    "C112_rename_partial",
    "C112_prefix_partial",
    "C112_argument_refuted",
    "C112_failed_refuted",
    "C112_shared_refuted",
    "C112_shared_back_refuted",
    "C112_rename_refuted",
    "C112_loop_refuted"
   ],
   "note": "Independence of topologies that are not joined, and the content of a union, proved in full. Refuted: with renaming the arguments are changed (even when the union fails); after a union the node objects are shared, so an operation on one changes the other; renaming fails for a link from a node to itself and for names with an underscore. Not modelled: a union of topologies that already share nodes."
  },
  {
   "property": "C113",
   "status": "partial",
   "theorems": [
    "C113_returned",
    "C113_no_error_partial",
    "C113_ends_partial",
    "C113_early_refuted",
    "C113_overtaken_refuted",
    "C113_again_refuted"
   ],
   "note": "That nothing is left whenever stop returns: proved for every schedule. That stop returns without an exception: proved (with a bound on the number of rounds) when the nodes are up and no node thread deletes __t while the main thread is about to read it; refuted without either condition (stop during start-up; a node thread that ends between two statements of shutdown), and for a second stop. Steps are single statements; user code in a node (never used by the command line tool) is not modelled."
  },
  {
   "property": "C114",
   "status": "partial",
   "theorems": [
    "C114_made",
    "C114_as_modelled",
    "C114_accepted",
    "C114_text_packet_refuted",
    "C114_repeated_device_refuted",
    "C114_reason",
    "C114_copy_one",
    "C114_copy_many",
    "C114_copy_refuted",
    "C114_nothing"
   ],
   "note": "Which arguments are accepted, and what the event then expects: proved in full for the argument kinds modelled (strings, packets, numbers; header classes of the library in wildcards). Refuted clauses: a string is accepted where a packet should be; the first of two packets for one device is dropped; a copyfromlastout rule of the wrong length is accepted and fails at delivery."
  },
  {
   "property": "C115",
   "status": "partial",
   "theorems": [
    "C115_colours_partial",
    "C115_words",
    "C115_exceptions",
    "C115_after",
    "C115_nocolor",
    "C115_after_setup",
    "C115_after_setup_refuted",
    "C115_nested_refuted",
    "C115_exception_refuted"
   ],
   "note": "Colours proved for programs without nested regions and without exceptions leaving a region, when used directly; after a region that ends normally the default colour is proved for every body; words, exceptions and the switched-off case proved for all programs. Refuted clauses: rest of an outer region, text after an exception, and every region after the setup of the command line program (colorama autoreset as its documentation describes it)."
  },
  {
   "property": "C116",
   "status": "partial",
   "theorems": [
    "C116_check",
    "C116_answers_partial",
    "C116_answers_refuted",
    "C116_passable",
    "C116_kinds_refuted"
   ],
   "note": "When the check is true, and that a scenario that passes it can be passed, proved for all scenarios. That it always answers is proved for events that can be printed and refuted otherwise (AttributeError from printing a router advertisement); that it reports missing kinds of events is refuted."
  },
  {
   "property": "C117",
   "status": "partial",
   "theorems": [
    "C117_equivalence",
    "C117_loaded_partial",
    "C117_alike",
    "C117_exactness_refuted",
    "C117_interfaces_refuted"
   ],
   "note": "Equivalence, equality of a loaded scenario and what equal scenarios share proved for every way of writing packets as text (for the loaded scenario: packets that compare equal and send the same bytes must print alike). That equal scenarios test the same is refuted twice: exactness of expectations and interfaces are not compared."
  },
  {
   "property": "C118",
   "status": "partial",
   "theorems": [
    "C118_in_force",
    "C118_read",
    "C118_accepted",
    "C118_refused",
    "C118_activate",
    "C118_early_read_refuted",
    "C118_nonblock_fails",
    "C118_blocking_fails",
    "C118_types_refuted",
    "C118_reported_refuted"
   ],
   "note": "Settings in force, reading back after activation, exactly which settings are accepted, refused settings, and when activation succeeds proved for all devices and histories, with libpcap as its manual describes. Refuted: reading the snapshot length before activation gives -3; a nonblocking device is activated although activate raises, and blocking never reads True; a newer time stamp type prevents setting any; failures of stats and of receiving raise NameError."
  },
  {
   "property": "C119",
   "status": "partial",
   "theorems": [
    "C119_once",
    "C119_limits",
    "C119_loop",
    "C119_exception_refuted",
    "C119_error_refuted",
    "C119_sticky_refuted"
   ],
   "note": "Order, once only, counts, breakloop, and when loop returns proved for all callbacks, files, devices and histories, with libpcap as its manual and sources describe. Refuted: an exception of the callback is swallowed and the loop goes on; loop does not report an error of the device; on a file, breakloop during the last counted packet ends the next call too."
  },
  {
   "property": "C120",
   "status": "partial",
   "theorems": [
    "C120_floods_partial",
    "C120_nowhere_else",
    "C120_passes_partial",
    "C120_same_frame",
    "C120_unprintable_refuted",
    "C120_options_refuted"
   ],
   "note": "What is sent where is proved against any answers of the network, and passing every hub scenario by simulation on the test network, for packets whose headers can be printed and runs in which the alarm does not strike. Refuted: a router advertisement ends the program with AttributeError; a frame with padded IP options goes out four bytes longer and fails the test that expects it unchanged."
  },
  {
   "property": "C121",
   "status": "partial",
   "theorems": [
    "C121_sends",
    "C121_too_long",
    "C121_receives",
    "C121_ignores",
    "C121_end_to_end_partial",
    "C121_many_partial",
    "C121_loopback",
    "C121_no_loopback",
    "C121_loop_partial",
    "C121_stopped",
    "C121_failures",
    "C121_other_protocol_refuted",
    "C121_empty_refuted"
   ],
   "note": "The bytes sent, which packets are handed over or passed over, order and counts in histories without exceptions, and the way of any number of messages from sendto to recvfrom (in order, each once, behind whatever waits in the queue) are proved, for messages with data. Refuted: an empty message, a TCP packet, and an ICMP packet without contents each end the stack with an exception."
  },
  {
   "property": "C122",
   "status": "partial",
   "theorems": [
    "C122_restored",
    "C122_exception",
    "C122_blocks_partial",
    "C122_added_refuted",
    "C122_added_partial",
    "C122_wrong_rule_refuted",
    "C122_refused",
    "C122_no_root",
    "C122_once",
    "C122_not_made"
   ],
   "note": "Restoration, exceptions, refusals and the single object are proved in full. What is dropped is proved for the rules given at the start (a rule with a port needs both ports to be equal, see C44) and for the rule added last. Refuted: an added rule replaces all earlier ones, and one rule that pf refuses (a port for icmp) keeps all the others from being installed."
  },
  {
   "property": "C123",
   "status": "partial",
   "theorems": [
    "C123_two_ports",
    "C123_nowhere_else",
    "C123_many_ports",
    "C123_other_port_refuted",
    "C123_forwarder_stops",
    "C123_unknown_port",
    "C123_wire_passes_partial",
    "C123_sniffer_silent",
    "C123_sniffer_passes_partial",
    "C123_sniffer_unprintable_refuted",
    "C123_switch_floods_partial",
    "C123_switch_passes_partial",
    "C123_emitter_sends_nothing",
    "C123_emitter_refuted"
   ],
   "note": "The forwarder and the sniffer are proved against any network; passing tests is proved when packets can be printed and the alarm does not strike. The switch is proved to be a hub on frames that start with an Ethernet header. Refuted: with an odd number of ports the forwarder returns frames out of the port they came in on; the sniffer stops at a frame that cannot be printed; the emitter never sends anything (it asks an IPv4Interface for an attribute it does not have)."
  },
  {
   "property": "C124",
   "status": "partial",
   "theorems": [
    "C124_reported_partial",
    "C124_distinct_partial",
    "C124_distinct_refuted",
    "C124_snapshot",
    "C124_fails",
    "C124_retry_refuted",
    "C124_after_failure",
    "C124_listed_partial",
    "C124_chosen_partial",
    "C124_windows_partial"
   ],
   "note": "Proved for names and descriptions in ASCII. Refuted: devices whose names differ only in other characters get the same name; after one failing discovery every later call reports, without an exception, that there are no devices, because the half-made object is kept."
  },
  {
   "property": "C125",
   "status": "partial",
   "theorems": [
    "C125_saved_partial",
    "C125_times_partial",
    "C125_hang_fails",
    "C125_hang_refuted",
    "C125_shown_partial",
    "C125_round_partial",
    "C125_stops_fails",
    "C125_round_refuted",
    "C125_missing"
   ],
   "note": "Proved for frames whose reading finishes (saving) and for frames that can be read and printed (showing). Refuted: the saving program hangs at a frame whose options are never finished (C14) and saves neither it nor anything later; the showing program ends at the first frame it cannot read, also in files the saving program made itself, and shows nothing after it."
  },
  {
   "property": "C126",
   "status": "partial",
   "theorems": [
    "C126_ping_sent",
    "C126_ping_read",
    "C126_ping_made",
    "C126_ping_round",
    "C126_ping_unregistered",
    "C126_ping_refused",
    "C126_stm_sent",
    "C126_stm_read",
    "C126_stm_made",
    "C126_stm_round",
    "C126_stm_forward_refuted",
    "C126_forward_partial",
    "C126_compare_refuted",
    "C126_compare_partial",
    "C126_short_root_refuted",
    "C126_both"
   ],
   "note": "Layout, reading, construction, round trip with and without registration proved for all values. Refuted: a SpanningTreeMessage sent on loses its seventh byte; comparing raises when a number does not fit; a root of fewer than six bytes is read back filled with zeros."
  },
  {
   "property": "C127",
   "status": "partial",
   "theorems": [
    "C127_echo_partial",
    "C127_echo_stops",
    "C127_echo_unprintable_refuted",
    "C127_once",
    "C127_echo_passes_partial",
    "C127_hub_spreads",
    "C127_hub_stops",
    "C127_hub_passes_partial",
    "C127_hub_tests_refuted",
    "C127_sheep",
    "C127_sheep_refuted"
   ],
   "note": "The simple hub is proved for all answers of the network and all packets. The echo program needs packets that can be printed; a frame whose headers cannot be printed ends it unanswered (refuted). Passing scripts is proved when the packets can be printed and the alarm does not strike. Refuted: the simple hub does not pass the tests that come with it, as it passes on what is addressed to itself; the wrong hub is not a hub."
  },
  {
   "property": "C128",
   "status": "proved",
   "theorems": [
    "C128_silent",
    "C128_silent_programs",
    "C128_no_method",
    "C128_fixed_port",
    "C128_source",
    "C128_source_fails",
    "C128_last_replaced",
    "C128_last_removed",
    "C128_last_sent",
    "C128_listener"
   ],
   "note": "That tests are failed needs no packet to be printable; that they are passed does (all_print). Excluded: a predicate of the test that itself raises Shutdown when the packet is sent (cannot_pass), and for silent programs in general one that raises Shutdown by itself (C34_early_shutdown_refuted)."
  }
 ]
}