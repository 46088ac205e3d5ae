{
 "claims": [
  {
   "property": "C01",
   "status": "proved",
   "theorems": [
    "C01_verify_exact"
   ],
   "note": ""
  },
  {
   "property": "C02",
   "status": "partial",
   "theorems": [
    "C02_generation_refuted",
    "C02_generation_partial",
    "C02_generation_not20_partial"
   ],
   "note": "False as stated: one end-around carry is missing. Proved: the emitted value is the RFC value or one more, the latter only in a named value range."
  },
  {
   "property": "C03",
   "status": "proved",
   "theorems": [
    "C03_ip4_header"
   ],
   "note": ""
  },
  {
   "property": "C04",
   "status": "proved",
   "theorems": [
    "C04_single_byte"
   ],
   "note": ""
  },
  {
   "property": "C05",
   "status": "proved",
   "theorems": [
    "C05_mac_roundtrip",
    "C05_mac_printing_injective",
    "C05_mac_rejects"
   ],
   "note": "str is modelled as a list of code points"
  },
  {
   "property": "C06",
   "status": "partial",
   "theorems": [
    "C06_mac_classes_partial",
    "C06_group_bit_refuted",
    "C06_mac_ranges"
   ],
   "note": "Partition proved; the group-bit half is false (witness 01:80:c2:00:00:00 reported unicast)."
  },
  {
   "property": "C07",
   "status": "proved",
   "theorems": [
    "C07_ip4_classes",
    "C07_ip4_unicast"
   ],
   "note": ""
  },
  {
   "property": "C08",
   "status": "partial",
   "theorems": [
    "C08_ip4_ranges_partial",
    "C08_reserved_refuted"
   ],
   "note": "All ranges exact except reserved, which the code tests with mask 0xF0000001: odd addresses of 240/4 are reported global (witness 240.0.0.1)."
  },
  {
   "property": "C09",
   "status": "proved",
   "theorems": [
    "C09_ip6_prefixes"
   ],
   "note": ""
  },
  {
   "property": "C10",
   "status": "proved",
   "theorems": [
    "C10_mask_int",
    "C10_mask_bytes",
    "C10_mask_prefix"
   ],
   "note": "The '/n' text is reduced to its number."
  },
  {
   "property": "C100",
   "status": "partial",
   "theorems": [
    "C100_outcomes_partial",
    "C100_refuted"
   ],
   "note": "False: C100_refuted gives a frame of an unknown type. C100_outcomes_partial lists exactly the frames that leave no outcome: unknown EtherType or protocol, a disabled IP version, ARP replies that neither answer nor announce, ICMP messages other than echo request (IPv4) or echo request, router and neighbour discovery (IPv6)."
  },
  {
   "property": "C101",
   "status": "proved",
   "theorems": [
    "C101_counting_only_counts",
    "C101_transmit_counters_add_up"
   ],
   "note": "For all request sequences and states. Requests that raise are outside the sums (they stop half way through the counting)."
  },
  {
   "property": "C102",
   "status": "proved",
   "theorems": [
    "C102_a_counter_for_every_frame",
    "C102_the_status_is_counted",
    "C102_ip4_sources_are_counted",
    "C102_ip6_sources_are_counted",
    "C102_what_was_asked_for_is_counted"
   ],
   "note": "For all requests and states; destinations are addresses of their family. The status of an IPv6 packet none of whose fragments found a source (IP6_EXT_FRAG__UNKNOWN) goes with the counter of the missing source."
  },
  {
   "property": "C103",
   "status": "partial",
   "theorems": [
    "C103_serial",
    "C103_numbers",
    "C103_distinct",
    "C103_made",
    "C103_printed",
    "C103_threads_refuted",
    "C103_width_refuted",
    "C103_threads_partial"
   ],
   "note": "Proved for trackers made one after the other. Refuted for TX trackers made by several threads at once: two can show the same number, and one can show 10000 in five digits; the partial theorem is for a constructor that runs undisturbed."
  },
  {
   "property": "C104",
   "status": "partial",
   "theorems": [
    "C104_stop",
    "C104_ends",
    "C104_ended",
    "C104_works",
    "C104_started",
    "C104_single_refuted",
    "C104_single_partial"
   ],
   "note": "All but the last clause proved. Refuted: starts and stops in turn can leave two live threads, as stop does not wait for the thread; partial: at most one if each start comes after the end of the last thread."
  },
  {
   "property": "C105",
   "status": "partial",
   "theorems": [
    "C105_equality",
    "C105_hash_refuted",
    "C105_hash_partial",
    "C105_copy_refuted",
    "C105_copy_partial",
    "C105_gateway_refuted"
   ],
   "note": "Equality is exact. Refuted: equal hosts with different hashes (a host constructed with a network its address is not in), and a copied host has no gateway. Partial: hashes agree for all other objects; copies are equal with equal hash and identical when there is no gateway."
  },
  {
   "property": "C106",
   "status": "partial",
   "theorems": [
    "C106_bind",
    "C106_connect",
    "C106_listen",
    "C106_others_refuted",
    "C106_others_partial"
   ],
   "note": "Results, endpoints, sessions and the socket's own registration are exact for every history. Refuted: other sockets do not always keep their registration (unbound sockets share the key 0.0.0.0:0; a listener that connects to a peer of one of its connections takes over that entry). Partial: they do when the socket's endpoints, old and (for a bound socket's connect) new, are not another's."
  },
  {
   "property": "C107",
   "status": "partial",
   "theorems": [
    "C107_start",
    "C107_answers",
    "C107_socket",
    "C107_takes",
    "C107_round",
    "C107_holds",
    "C107_sent_partial",
    "C107_served_partial",
    "C107_reverses",
    "C107_ends",
    "C107_stop",
    "C107_alive_refuted",
    "C107_source_refuted",
    "C107_source_partial"
   ],
   "note": "Order, once-only, content and addressee of the answers, and stopping, are proved in full. 'No datagram ends the service' is refuted (sender off-link and no gateway: sendto raises and nothing catches it); C107_ends: over all runs the only two reasons for ending are that, and an answer that needs fragments once the identification counter is used up. 'From the address asked' is refuted with two addresses in one network; C107_reverses proves it over all runs for a service bound to an address, C107_source_partial for a stack with one IPv4 address. The theorems about runs assume frames of bytes, address lists without multicast addresses (wf_addrs) and no use of closed sockets."
  },
  {
   "property": "C108",
   "status": "partial",
   "theorems": [
    "C108_replies",
    "C108_stream",
    "C108_ends",
    "C108_stop",
    "C108_closes",
    "C108_returns",
    "C108_polite_refuted",
    "C108_alive_refuted",
    "C108_last_refuted",
    "C108_leaves_refuted",
    "C108_polite_partial"
   ],
   "note": "Proved: the greeting and one answer per message read, in order, whatever the interleaving; the messages are the client's stream; BrokenPipeError of send() is the only exception; one recv() at most after stop(); close() follows exactly when the client has gone or takes leave. It returns only after stop() or after a recv() that returned nothing. False of the code: a client whose second message arrives in the middle of a recv() is taken for gone; after quit the service goes on reading, so a further message is answered or ends the thread with an exception, and a client that closes leaves the thread waiting for ever."
  },
  {
   "property": "C109",
   "status": "partial",
   "theorems": [
    "C109_send",
    "C109_close",
    "C109_quiet_refuted",
    "C109_quiet_partial"
   ],
   "note": "Proved: the outcomes of send() and close() in every case and what they change. False of the code: close() raises AssertionError on a socket that was never connected or listening, and KeyError on the second of two listening sockets that share their endpoints; it raises nothing else."
  },
  {
   "property": "C11",
   "status": "proved",
   "theorems": [
    "C11_membership",
    "C11_network_exists"
   ],
   "note": ""
  },
  {
   "property": "C110",
   "status": "partial",
   "theorems": [
    "C110_says",
    "C110_stream",
    "C110_round",
    "C110_ends",
    "C110_stop",
    "C110_closes",
    "C110_alive_refuted",
    "C110_leaves_refuted"
   ],
   "note": "Proved: greeting and clock lines in order, at most the count; segments carry them; nothing is read; the reasons for close(); one message at most after stop(); BrokenPipeError of the greeting is the only exception. False of the code: a reset before the greeting ends the thread with that exception and no close(); with the default count the lines go on for ever after the client has closed."
  },
  {
   "property": "C111",
   "status": "partial",
   "theorems": [
    "C111_probe_partial",
    "C111_refuted",
    "C111_router"
   ],
   "note": "Proved: destination, target, hop limit and source rule of the probe for every run; the router solicitation. False of the code: when an address has a gateway the probe leaves from that address instead of the unspecified one."
  },
  {
   "property": "C112",
   "status": "partial",
   "theorems": [
    "C112_says",
    "C112_stream",
    "C112_ends",
    "C112_stop",
    "C112_closes",
    "C112_returns",
    "C112_alive_refuted",
    "C112_leaves_refuted"
   ],
   "note": "Proved: greeting and notices in order and nothing about data, whatever the interleaving; the messages are the client's stream and the segments carry what was written; BrokenPipeError of the greeting or a notice is the only exception; one recv() at most after stop(), which closes the connection; close() follows when the client has gone or takes leave. It returns only after stop() or after a recv() that returned nothing. False of the code: a second quit after the close ends the thread with an exception, and a client that closes after quit leaves the thread waiting for ever."
  },
  {
   "property": "C113",
   "status": "partial",
   "theorems": [
    "C113_daytime",
    "C113_sent_partial",
    "C113_stop",
    "C113_discard",
    "C113_socket",
    "C113_takes",
    "C113_round",
    "C113_alive_refuted"
   ],
   "note": "Proved: the datagrams that arrived are answered once each, in order, with the time of the call, to their senders; the discard service sends nothing and no exception ends it; at most one answer after stop(); what one answer puts on the wire, for texts that need no fragments. False of the code: a sender to whom the stack has no address to answer from ends the daytime service with gaierror."
  },
  {
   "property": "C114",
   "status": "partial",
   "theorems": [
    "C114_sends",
    "C114_length",
    "C114_endless",
    "C114_round",
    "C114_closes",
    "C114_returns",
    "C114_stop_refuted"
   ],
   "note": "Proved: whole messages of the size asked for and nothing else, never more than asked for and just as many when it closes unless a send() error was reported; the form and length of a message; a negative count goes on until a send() fails; what follows a send(), the test of the loop and close(). False of the code: the loop does not look at _run_thread, so stop() has no effect."
  },
  {
   "property": "C12",
   "status": "partial",
   "theorems": [
    "C12_ip4_gateway",
    "C12_rejected_keeps",
    "C12_ip6_gateway_partial",
    "C12_ip6_own_address_refuted"
   ],
   "note": "IPv4 part proved in full. IPv6: link-local proved; 'never the own address' is false (witness)."
  },
  {
   "property": "C13",
   "status": "proved",
   "theorems": [
    "C13_eui64",
    "C13_eui64_injective"
   ],
   "note": ""
  },
  {
   "property": "C14",
   "status": "proved",
   "theorems": [
    "C14_solicited_node",
    "C14_ip6_multicast_mac",
    "C14_ip4_multicast_mac"
   ],
   "note": ""
  },
  {
   "property": "C15",
   "status": "proved",
   "theorems": [
    "C15_round_trip",
    "C15_parse_exact",
    "C15_accepts",
    "C15_never_raises"
   ],
   "note": "Ethernet framing is the wire format both ways; parser total and exact."
  },
  {
   "property": "C16",
   "status": "proved",
   "theorems": [
    "C16_round_trip",
    "C16_parse_exact",
    "C16_never_raises"
   ],
   "note": "ARP wire format both ways; parser total and exact."
  },
  {
   "property": "C17",
   "status": "partial",
   "theorems": [
    "C17_packet_round_trip_partial",
    "C17_fragment_round_trip_partial",
    "C17_round_trip_refuted",
    "C17_checksum_refuted",
    "C17_statement_refuted"
   ],
   "note": "False in general: an option count that is not a multiple of 4, or an option-bearing header whose checksum should be 0xFFFE, is rejected by the own parser. Proved for all other packets and fragments."
  },
  {
   "property": "C18",
   "status": "partial",
   "theorems": [
    "C18_never_raises_refuted",
    "C18_never_raises_partial"
   ],
   "note": "False: a frame made of an option-bearing header whose last byte is an option kind raises IndexError. Proved that this is the only way to raise."
  },
  {
   "property": "C19",
   "status": "partial",
   "theorems": [
    "C19_acceptance_partial",
    "C19_accepts_plain",
    "C19_ttl_refuted"
   ],
   "note": "TTL clause false (the check tests ver). Everything else proved, with exactness for headers without options."
  },
  {
   "property": "C20",
   "status": "partial",
   "theorems": [
    "C20_round_trip_partial",
    "C20_dscp_refuted",
    "C20_flow_refuted",
    "C20_statement_refuted"
   ],
   "note": "False: the assembler's DSCP packing keeps only the top two bits (at the wrong place) and flow labels above 20 bits are cut. Exact outcome proved for all packets."
  },
  {
   "property": "C21",
   "status": "proved",
   "theorems": [
    "C21_never_raises",
    "C21_parse_exact"
   ],
   "note": "Total; accepted packets are exactly the wire format with version 6, exact length, non-zero hop limit, non-multicast source."
  },
  {
   "property": "C22",
   "status": "proved",
   "theorems": [
    "C22_round_trip",
    "C22_parse_wire",
    "C22_never_raises",
    "C22_accepts"
   ],
   "note": "Fragment header codec."
  },
  {
   "property": "C23",
   "status": "partial",
   "theorems": [
    "C23_round_trip_partial",
    "C23_over_ip4_partial",
    "C23_over_ip6_partial",
    "C23_round_trip_refuted",
    "C23_statement_refuted"
   ],
   "note": "False for some datagrams whose checksum should be 0xFFFE (checksum routine loses a carry). Proved for all others, also through the IPv4 and IPv6 codecs."
  },
  {
   "property": "C24",
   "status": "proved",
   "theorems": [
    "C24_never_raises",
    "C24_acceptance_exact",
    "C24_fields"
   ],
   "note": "Total and exact against RFC 1071 over pseudo header and datagram."
  },
  {
   "property": "C25",
   "status": "partial",
   "theorems": [
    "C25_zero_checksum_accepted_refuted",
    "C25_never_sends_zero_refuted",
    "C25_zero_checksum_partial"
   ],
   "note": "Both halves false; exact condition for accepting a zero checksum field proved."
  },
  {
   "property": "C26",
   "status": "partial",
   "theorems": [
    "C26_round_trip_refuted",
    "C26_statement_refuted",
    "C26_round_trip_partial",
    "C26_over_ip4_partial",
    "C26_over_ip6_partial"
   ],
   "note": "False for some segments whose checksum is 0xFFFE (the generator's carry error). Proved for every sane segment, option list and data whose checksum is computed right, alone and through the IPv4 and IPv6 codecs."
  },
  {
   "property": "C27",
   "status": "partial",
   "theorems": [
    "C27_never_raises_refuted",
    "C27_statement_refuted",
    "C27_option_refuted",
    "C27_never_raises_partial",
    "C27_exception_kinds_partial"
   ],
   "note": "False: every payload shorter than 13 bytes raises IndexError; truncated options raise too. Proved: no exception with 13 bytes or more and either no options or nine bytes after the header; only IndexError and struct.error are possible."
  },
  {
   "property": "C28",
   "status": "proved",
   "theorems": [
    "C28_acceptance_sound",
    "C28_acceptance_exact"
   ],
   "note": "Soundness for all inputs, with the value of every field; exact characterisation for segments without options."
  },
  {
   "property": "C29",
   "status": "partial",
   "theorems": [
    "C29_round_trip_refuted",
    "C29_short_unreachable_refuted",
    "C29_statement_refuted",
    "C29_round_trip_partial",
    "C29_over_ip4_partial",
    "C29_constructor",
    "C29_never_raises",
    "C29_acceptance"
   ],
   "note": "Round trip is false for some messages with checksum 0xFFFE and for unreachable messages quoting fewer than four bytes; proved for all others. Totality and exact acceptance are proved for every input."
  },
  {
   "property": "C30",
   "status": "partial",
   "theorems": [
    "C30_statement_refuted",
    "C30_checksum_refuted",
    "C30_short_unreachable_refuted",
    "C30_rs_option_refuted",
    "C30_prefix_flag_refuted",
    "C30_records_refuted",
    "C30_aux_length_refuted",
    "C30_round_trip_partial",
    "C30_over_ip6_partial",
    "C30_one_record_partial"
   ],
   "note": "False as stated: six concrete counterexamples. The partial theorems give the exact round trip of every other message, for every buffer content and every correctly computed checksum."
  },
  {
   "property": "C31",
   "status": "partial",
   "theorems": [
    "C31_statement_refuted",
    "C31_rs_loops_refuted",
    "C31_trailing_byte_refuted",
    "C31_prefix_length_refuted",
    "C31_short_prefix_refuted",
    "C31_other_types_partial",
    "C31_wellformed_partial",
    "C31_terminates_partial",
    "C31_acceptance_sound"
   ],
   "note": "False as stated: a router solicitation with a source link-layer address option never terminates, malformed ND options raise. Partial theorems: all other message types never raise, well-formed options never raise, only type 133 can fail to terminate, whatever is accepted is sound."
  },
  {
   "property": "C32",
   "status": "proved",
   "theorems": [
    "C32_round_trip",
    "C32_client_messages",
    "C32_options",
    "C32_server_messages"
   ],
   "note": "Round trip of every message whose option text is ASCII or valid UTF-8 as built by the constructors; the client itself only uses the ASCII name PyTCP. C32_non_ascii_refuted shows that a non-ASCII host name given to the constructor breaks the length byte."
  },
  {
   "property": "C33",
   "status": "partial",
   "theorems": [
    "C33_terminates_partial",
    "C33_pad_refuted",
    "C33_statement_refuted"
   ],
   "note": "False as stated: a PAD option makes the option loop run forever. C33_terminates_partial proves termination on option areas without a PAD option."
  },
  {
   "property": "C34",
   "status": "proved",
   "theorems": [
    "C34_frame",
    "C34_history"
   ],
   "note": "For every packet type the stack assembles, every previous buffer content and every history of the ring."
  },
  {
   "property": "C35",
   "status": "proved",
   "theorems": [
    "C35_fragments",
    "C35_sends",
    "C35_wire"
   ],
   "note": "Parametric in the MTU (28..65555); the code never sends options, so 'same options' is 'no options'."
  },
  {
   "property": "C36",
   "status": "proved",
   "theorems": [
    "C36_reassembly",
    "C36_any_order",
    "C36_end_to_end"
   ],
   "note": "Datagrams of at most 65515 bytes; longer ones raise (C37). Time must not run backwards."
  },
  {
   "property": "C37",
   "status": "partial",
   "theorems": [
    "C37_overlap_refuted",
    "C37_long_refuted",
    "C37_every_long_refuted",
    "C37_overlap6_refuted",
    "C37_refuted",
    "C37_only_struct_error_partial",
    "C37_only_struct_error6_partial",
    "C37_when_partial",
    "C37_consistent_partial"
   ],
   "note": "False as stated: overlapping fragments and totals over 65515 bytes raise struct.error. Proved: nothing else is ever raised, exactly which fragments can raise, and consistent fragments never do."
  },
  {
   "property": "C38",
   "status": "partial",
   "theorems": [
    "C38_refuted",
    "C38_statement_refuted",
    "C38_never_forgotten_refuted",
    "C38_completed_partial"
   ],
   "note": "False as stated: the expiry test has the subtraction the wrong way round, so no flow ever expires. Proved: completed flows are forgotten."
  },
  {
   "property": "C39",
   "status": "proved",
   "theorems": [
    "C39_fragments",
    "C39_reassembly",
    "C39_end_to_end"
   ],
   "note": "End to end for payloads up to 65527 bytes; the fragments always carry the default hop limit."
  },
  {
   "property": "C40",
   "status": "partial",
   "theorems": [
    "C40_refuted",
    "C40_stuck_refuted",
    "C40_ip6_stuck_refuted",
    "C40_first_65535_partial",
    "C40_distinct"
   ],
   "note": "False as stated: the 65536th oversized IPv4 datagram and every later one raise AssertionError (IPv6: struct.error from id 2^32). Proved: before that all are sent, with distinct ids."
  },
  {
   "property": "C41",
   "status": "proved",
   "theorems": [
    "C41_ip4_source",
    "C41_foreign_dropped"
   ],
   "note": "Every send request of the packet handler (ARP, IPv4, IPv6, UDP, TCP, ICMPv4, ICMPv6), on the bytes of each frame handed to the transmit ring; own multicast/broadcast sources are replaced by a unicast one. Premises: address objects hold values in range, IPv6 unicast addresses are not :: nor joined groups."
  },
  {
   "property": "C42",
   "status": "proved",
   "theorems": [
    "C42_ip6_source",
    "C42_foreign_dropped"
   ],
   "note": "On the bytes of each frame; :: only in option-less neighbour solicitations and MLDv2 reports."
  },
  {
   "property": "C43",
   "status": "proved",
   "theorems": [
    "C43_next_hop4",
    "C43_next_hop6"
   ],
   "note": "Next hop given by separate arithmetic (SpecStack); cached, unresolved, multicast, broadcast, gateway and unroutable cases, for whole packets and fragments."
  },
  {
   "property": "C44",
   "status": "partial",
   "theorems": [
    "C44_status_partial",
    "C44_interleaved_refuted"
   ],
   "note": "Holds when a send is one atomic step. Missing/false: with the receive thread adding an ARP entry between two fragments, a fragment leaves although a drop is reported."
  },
  {
   "property": "C45",
   "status": "partial",
   "theorems": [
    "C45_other_mac",
    "C45_other_ip4_partial",
    "C45_other_ip6",
    "C45_other_ip4_refuted"
   ],
   "note": "Foreign link-layer and IPv6 destinations: state unchanged, no exception, for every frame. IPv4: the same while the stack has an IPv4 address (except a truncated-option header, which raises, C46); refuted without one, when every IPv4 destination is taken."
  },
  {
   "property": "C46",
   "status": "partial",
   "theorems": [
    "C46_exceptions_partial",
    "C46_refuted"
   ],
   "note": "Refuted (12-byte TCP segment and others in C46_causes). Partial: the complete list of causes of an exception in the receive path, up to handing a segment to a TCP socket."
  },
  {
   "property": "C47",
   "status": "partial",
   "theorems": [
    "C47_arp_reply",
    "C47_only",
    "C47_zero_sender_refuted"
   ],
   "note": "Exactly one byte-exact reply and only for such requests, for every request with a non-zero sender hardware address; with a zero one the reply is lost (refuted)."
  },
  {
   "property": "C48",
   "status": "partial",
   "theorems": [
    "C48_refuted",
    "C48_partial"
   ],
   "note": "False of the code: an ARP reply received during probing updates a different conflict set from the one that is checked, so a candidate in use elsewhere is claimed. C48_refuted gives the run. C48_partial: for every schedule of received frames all candidates are probed three times, claimed in order and announced, and IPv4 is disabled exactly when none is left."
  },
  {
   "property": "C49",
   "status": "partial",
   "theorems": [
    "C49_refuted",
    "C49_heard_partial",
    "C49_count_partial",
    "C49_single_partial"
   ],
   "note": "False of the code in one direction: surplus advertisements for one candidate leave the semaphore released and reject a later candidate that nobody answered for (C49_refuted). Proved: a candidate that was answered for is always rejected; the exact counting rule for every history; the full equivalence when no earlier candidate was answered more than once."
  },
  {
   "property": "C50",
   "status": "proved",
   "theorems": [
    "C50_history",
    "C50_probe"
   ],
   "note": "For every history of assignments, removals, probes and received frames. Histories in which the MLD report sent from within a probe raises are excluded by a hypothesis."
  },
  {
   "property": "C51",
   "status": "partial",
   "theorems": [
    "C51_advertisement_partial",
    "C51_C53_C54_only6",
    "C51_unknown_neighbour_refuted"
   ],
   "note": "Exactly one byte-exact advertisement when the asker can be reached after its option is learnt, and advertisements only for such solicitations; refuted for an unknown neighbour without the option."
  },
  {
   "property": "C52",
   "status": "partial",
   "theorems": [
    "C52_refuted",
    "C52_lookup_partial",
    "C52_age_partial",
    "C52_refresh",
    "C52_threads_partial",
    "C52_threads_refuted",
    "C52_no_source_refuted"
   ],
   "note": "False as stated: between two maintenance passes a binding older than an hour is still returned (C52_refuted); an update that falls between the thread's age check and its pop is lost (C52_threads_refuted); an ND lookup for an address on no link sends nothing when no address has a gateway (C52_no_source_refuted). Proved for both caches and all histories: the exact lookup result (latest update unless a pass found it over an hour old), one request per miss and none per hit, the age bound 3600 s + time since the last pass, exactly which refresh requests a pass sends; with the maintenance thread interleaved step by step, it never raises and a hit is always the latest update."
  },
  {
   "property": "C53",
   "status": "partial",
   "theorems": [
    "C53_echo4_partial",
    "C53_echo6_partial",
    "C53_echo4_request",
    "C53_echo6_request",
    "C53_C54_only4",
    "C51_C53_C54_only6",
    "C53_unresolved_refuted"
   ],
   "note": "Any echo request makes exactly one matching reply request to the transmit path; bytes on the wire proved when unfragmented and the next hop is known; echo replies leave for nothing else; refuted when the link-layer address of the asker is unknown (the reply is dropped)."
  },
  {
   "property": "C54",
   "status": "partial",
   "theorems": [
    "C54_unreachable4_partial",
    "C54_unreachable6_partial",
    "C54_delivered_silent",
    "C54_unspecified_silent",
    "C53_C54_only4",
    "C51_C53_C54_only6",
    "C54_broadcast_refuted"
   ],
   "note": "Message and its bytes, silence after delivery and for an unspecified source, nothing else sends one; refuted for broadcast and multicast destinations."
  },
  {
   "property": "C55",
   "status": "partial",
   "theorems": [
    "C55_refused4",
    "C55_refused6",
    "C55_C58_only",
    "C55_C58_connected_partial",
    "C55_dhcp_refuted"
   ],
   "note": "Exactly the matching socket is marked and no other for every message and socket table; refuted for sockets connected to 255.255.255.255 (the DHCP pattern matches them for any peer)."
  },
  {
   "property": "C56",
   "status": "partial",
   "theorems": [
    "C56_no_overlap_refuted",
    "C56_no_overlap_partial",
    "C56_registered_partial"
   ],
   "note": "False of every history: closing a socket twice unregisters whoever took its endpoint. Proved for every history (calls, frames, address changes, TCP entries) in which no call is made on a closed socket."
  },
  {
   "property": "C57",
   "status": "proved",
   "theorems": [
    "C57_pick_port",
    "C57_pick_any",
    "C57_bind",
    "C57_connect",
    "C57_sendto",
    "C57_exhausted"
   ],
   "note": "For every socket table; set.pop() is an arbitrary choice among the free ports."
  },
  {
   "property": "C58",
   "status": "partial",
   "theorems": [
    "C58_delivered",
    "C58_one_target",
    "C55_C58_only",
    "C55_C58_connected_partial",
    "C58_dhcp_refuted"
   ],
   "note": "Delivery to exactly the most specific socket for every table and datagram; the peer clause holds unless the socket is connected to 255.255.255.255 (refuted)."
  },
  {
   "property": "C59",
   "status": "proved",
   "theorems": [
    "C59_fifo",
    "C59_counted",
    "C59_recv_errors",
    "C59_threads"
   ],
   "note": "Over all histories of calls and frames, and over all interleavings of the halves of deliveries and receive calls."
  },
  {
   "property": "C60",
   "status": "partial",
   "theorems": [
    "C60_close_only_refuted",
    "C60_close_only_partial"
   ],
   "note": "False: a second close pops whatever socket now has the same key. Proved for the first close in histories without use after close."
  },
  {
   "property": "C61",
   "status": "partial",
   "theorems": [
    "C61_handed",
    "C61_handed_only",
    "C61_reset4_partial",
    "C61_reset6_partial",
    "C61_C62_only",
    "C61_reset_seq_refuted"
   ],
   "note": "Target and reset for every table and segment whose end is below 2^32 and whose sender can be reached; refuted: the reset to a segment with ACK has sequence number 0 instead of the segment's acknowledgement number."
  },
  {
   "property": "C62",
   "status": "partial",
   "theorems": [
    "C62_refuted",
    "C62_known_partial",
    "C61_C62_only"
   ],
   "note": "Refuted: a reset for no socket is answered. A reset for a session is only handed to it at this layer."
  },
  {
   "property": "C63",
   "status": "proved",
   "theorems": [
    "C63_rx_stream",
    "C63_rx_buffer"
   ],
   "note": "for every sequence of segments, ticks and calls in which the peer's segments carry its stream at their places (sequence numbers modulo 2^32); nothing else is assumed of the segments (window, acknowledgement and flags are arbitrary)"
  },
  {
   "property": "C64",
   "status": "partial",
   "theorems": [
    "C64_eof_refuted",
    "C64_eof_partial",
    "C64_ready",
    "C64_complete"
   ],
   "note": "False of the code under the race of a read with an arriving segment: the semaphore stays released after the buffer was emptied and the next read returns nothing on an established connection (C64_eof_refuted). Proved for every history in which no segment arrives in the middle of a read; C64_complete (the peer's whole stream is there once its end was taken in) holds for every interleaving."
  },
  {
   "property": "C65",
   "status": "partial",
   "theorems": [
    "C65_tx_stream_refuted",
    "C65_tx_stream_partial"
   ],
   "note": "false as stated: a SYN+ACK acknowledging the initial sequence number itself is taken before the SYN is sent and the data then starts at the SYN's place; proved for all schedules in which no segment acknowledges the initial sequence number itself and close() is not called on a half-open connection (no socket refers to one)"
  },
  {
   "property": "C66",
   "status": "partial",
   "theorems": [
    "C66_window_refuted",
    "C66_scale_refuted",
    "C66_window_partial",
    "C66_window_kept"
   ],
   "note": "Refuted: a pure duplicate ACK that closes the window is only counted as a retransmission request, so data is sent into a closed window; and windows are multiplied by the scale in the peer's SYN although this end never offers scaling. Proved: every new data segment respects the window kept by the session up to one segment (after a retransmission timeout the effective window is the MSS even if the peer's window is smaller), and the kept window is that of the last segment carrying data or acknowledging some."
  },
  {
   "property": "C67",
   "status": "proved",
   "theorems": [
    "C67_order",
    "C67_ack_ignored",
    "C67_taken"
   ],
   "note": "every reachable state of every schedule; a segment acknowledging more than was ever sent changes no field of the session"
  },
  {
   "property": "C68",
   "status": "partial",
   "theorems": [
    "C68_states_refuted",
    "C68_states_partial"
   ],
   "note": "false as stated: FIN-WAIT-2 is entered before any FIN was sent when a segment arrives between the tick entering FIN-WAIT-1 and the tick sending the FIN; the edge and event table is proved for all other schedules as in C65"
  },
  {
   "property": "C69",
   "status": "partial",
   "theorems": [
    "C69_giveup_refuted",
    "C69_count_refuted",
    "C69_part_refuted",
    "C69_retries_partial",
    "C69_giveup_partial",
    "C69_first_partial"
   ],
   "note": "The full claim is false of the code: duplicate acknowledgements make the retransmission count step over its limit, after which the session never gives up and a segment is sent more than four times; an acknowledgement of a part of a segment leaves the rest without any timer, so that it is neither sent again nor given up. Proved: for every reachable state with a waiting segment (count k <= 3), without news from the peer the segment is retransmitted exactly as the doubling timeouts say, and at the end the peer is reset, the session closed and unregistered and the application told."
  },
  {
   "property": "C70",
   "status": "partial",
   "theorems": [
    "C70_prompt_refuted",
    "C70_prompt_partial",
    "C70_prompt_roomy_partial"
   ],
   "note": "Refuted: with data in flight a segment closing the window makes every tick raise before the delayed acknowledgement is looked at. Proved for every schedule in which ticks do not raise, in particular when the peer never advertises less than what is in flight."
  },
  {
   "property": "C71",
   "status": "partial",
   "theorems": [
    "C71_tick_refuted",
    "C71_tick_mss_refuted",
    "C71_tick_partial"
   ],
   "note": "Refuted by a window shrunk below the data in flight and by an MSS option of 0 in the SYN. Proved for every history in which the peer never advertises less than what is in flight, with non-zero MSS and sequence numbers below 2^32."
  },
  {
   "property": "C72",
   "status": "partial",
   "theorems": [
    "C72_connect_refuted",
    "C72_wrap_refuted",
    "C72_peer_refuted",
    "C72_data_refuted",
    "C72_connect_partial",
    "C72_accept_partial"
   ],
   "note": "The full claim is false of the code: with initial sequence number 2^32-1 no connection is ever established (for all histories), a peer with that number makes the receiving thread raise, and data beyond 2^32 is never acknowledged. Proved: both handshakes complete whenever neither side's next number has to wrap; C65, C67, C71 cover the data phase below 2^32."
  },
  {
   "property": "C73",
   "status": "partial",
   "theorems": [
    "C73_resume_refuted",
    "C73_never_refuted",
    "C73_resume_partial"
   ],
   "note": "The full claim is false of the code: once everything sent is acknowledged with window 0 the effective window stays 0 (it is doubled) and pure window updates are taken for duplicate acknowledgements, so no data is ever sent again whatever happens (for all histories). Proved: as long as the peer never advertises less than what is in flight, buffered data is sent with the next tick."
  },
  {
   "property": "C74",
   "status": "partial",
   "theorems": [
    "C74_delivery",
    "C74_target",
    "C74_fork",
    "C74_still_listening",
    "C74_sessions",
    "C74_completes",
    "C74_only",
    "C74_order",
    "C74_accept",
    "C74_served",
    "C74_handshake_refuted",
    "C74_handshake_partial"
   ],
   "note": "Fork, uniqueness, order and exactly-once accept are proved for every history of socket calls, segments and ticks. 'Only after the handshake completes' is refuted in the sense that the SYN+ACK may not have been sent: an ACK of the unsent initial sequence number arriving before the first tick completes the handshake. The partial theorem gives the claim for every other ACK."
  },
  {
   "property": "C75",
   "status": "proved",
   "theorems": [
    "C75_time_wait",
    "C75_segments_ignored"
   ],
   "note": "For every history of segments, ticks, calls and reads after the entry into TIME-WAIT."
  },
  {
   "property": "C76",
   "status": "partial",
   "theorems": [
    "C76_named_timers_partial",
    "C76_timeout_zero_partial",
    "C76_named_timers_refuted",
    "C76_unknown_timer"
   ],
   "note": "Proved for every positive timeout, history and set of other timers; a timeout of 0 is expired only until the next tick and a negative one never expires, so the claim for every n is refuted."
  },
  {
   "property": "C77",
   "status": "partial",
   "theorems": [
    "C77_tasks_partial",
    "C77_zero_delay_partial",
    "C77_tasks_refuted",
    "C77_stop_condition"
   ],
   "note": "Proved for every positive delay, repeat count and history; a delay of zero or less is never reached, so the claim for every d is refuted."
  },
  {
   "property": "C78",
   "status": "partial",
   "theorems": [
    "C78_timers_kept_refuted",
    "C78_tasks_kept_refuted",
    "C78_thread_alive_refuted",
    "C78_timers_kept_partial",
    "C78_tasks_kept_partial",
    "C78_quiet_pass_is_a_tick"
   ],
   "note": "False: a registration between a comprehension and its assignment is lost, and a new name during iteration ends the thread. Proved: registrations at all other moments are kept and a quiet pass is one tick."
  },
  {
   "property": "C79",
   "status": "proved",
   "theorems": [
    "C79_tx_fifo",
    "C79_tx_only_long_dropped",
    "C79_tx_progress",
    "C79_rx_fifo",
    "C79_rx_whole"
   ],
   "note": "An exception of assemble() ends the transmit thread: C79_tx_fifo states it exactly, C79_tx_only_long_dropped assumes every enqueued frame can be assembled and written. os.read returns at most 2048 bytes of a frame."
  },
  {
   "property": "C80",
   "status": "partial",
   "theorems": [
    "C80_exchange_partial",
    "C80_statement_refuted",
    "C80_foreign_offer_refuted"
   ],
   "note": "False as stated: the client never compares the transaction id of the offer. C80_exchange_partial describes the exchange for all replies."
  },
  {
   "property": "C81",
   "status": "partial",
   "theorems": [
    "C81_host_partial",
    "C81_configures_partial",
    "C81_raises_refuted",
    "C81_statement_refuted"
   ],
   "note": "False as stated: a malformed reply raises out of fetch(). The _partial theorems give the host configured from well-formed replies."
  },
  {
   "property": "C82",
   "status": "proved",
   "theorems": [
    "C82_local_address"
   ],
   "note": "host_ok says an entry's network is the one its address and prefix length determine"
  },
  {
   "property": "C83",
   "status": "proved",
   "theorems": [
    "C83_option_values"
   ],
   "note": "for option lists as the parser yields them"
  },
  {
   "property": "C84",
   "status": "proved",
   "theorems": [
    "C84_nd_option_values",
    "C84_prefix_order"
   ],
   "note": "Every option list; values read by the accessors the receive path uses."
  },
  {
   "property": "C85",
   "status": "partial",
   "theorems": [
    "C85_wakeup_refuted",
    "C85_half_refuted",
    "C85_wakeup_partial"
   ],
   "note": "False of the code: a read at the end of the stream takes the semaphore without giving it back, so a later one waits (C85_wakeup_refuted); in FIN-WAIT the peer's FIN does not release the semaphore at all (C85_half_refuted). Proved: in CLOSE-WAIT reads return until one has returned nothing, when no segment arrives in the middle of a read."
  },
  {
   "property": "C86",
   "status": "proved",
   "theorems": [
    "C86_header",
    "C86_ack",
    "C86_mss"
   ],
   "note": "The MSS bound assumes a peer MSS that is not negative and no acknowledgement of the initial sequence number itself (sane_op)."
  },
  {
   "property": "C87",
   "status": "partial",
   "theorems": [
    "C87_reset_refuted",
    "C87_close_wait_refuted",
    "C87_reader_refuted",
    "C87_reset_partial",
    "C87_refused",
    "C87_blind"
   ],
   "note": "Refuted as stated: an established session ignores a reset without acknowledgement, CLOSE_WAIT ignores one with, and readers waiting in FIN_WAIT_1 and FIN_WAIT_2 are not woken. Proved for the other resets; resets out of place do nothing in any state."
  },
  {
   "property": "C88",
   "status": "partial",
   "theorems": [
    "C88_queue_refuted",
    "C88_overlap_refuted",
    "C88_queue_partial",
    "C88_any_order",
    "C88_asked",
    "C88_waits"
   ],
   "note": "False in general: queued segments whose acknowledgement number is older than the one on the segment that fills the hole are dropped, and overlapping ones stay in the queue for good. Proved: delivery of everything that continues the segment when acknowledgement numbers do not decrease along the queue; independence of order and repetition when they are equal; duplicate acknowledgements for the first two early segments."
  },
  {
   "property": "C89",
   "status": "partial",
   "theorems": [
    "C89_close_refuted",
    "C89_no_fin_refuted",
    "C89_last_ack_refuted",
    "C89_closing_refuted",
    "C89_close_partial",
    "C89_done",
    "C89_delivered",
    "C89_fin_number",
    "C89_fin",
    "C89_peer"
   ],
   "note": "False as stated: the closing states are entered one tick before the FIN is sent, and an acknowledgement in between moves the session on so that no FIN is ever sent (C89_no_fin_refuted, C89_last_ack_refuted); CLOSING does not retransmit (C89_closing_refuted). Proved: once the FIN is out only its acknowledgement or a reset moves on (C89_close_partial, C89_done); nothing is closed before delivery unless aborted; the FIN's number and time; the peer's FIN (when the queue holds nothing that starts right after it)."
  },
  {
   "property": "C90",
   "status": "partial",
   "theorems": [
    "C90_outcome_refuted",
    "C90_blind_reset_refuted",
    "C90_outcome_partial",
    "C90_refused",
    "C90_accepted",
    "C90_returns_refuted",
    "C90_close_refuted",
    "C90_returns_partial",
    "C90_silence"
   ],
   "note": "False in general: in the millisecond before the SYN is sent a SYN+ACK or RST acknowledging the initial sequence number itself is taken for the answer; close() during connect() leaves the waiting thread blocked for good; a SYN+ACK numbered 2^32-1 makes the session wait for ever. The result is proved right when the peer does not acknowledge the initial sequence number itself, and connect() is proved to end within 15001 ticks when nobody closes the socket and the peer's numbers and windows fit; the times of the SYNs and the timeout are exact."
  },
  {
   "property": "C91",
   "status": "proved",
   "theorems": [
    "C91_no_destination",
    "C91_refused_once",
    "C91_send",
    "C91_sendto_port",
    "C91_sendto"
   ],
   "note": "The calls are atomic steps (C44_interleaved_refuted shows what a cache change in the middle of a fragmented send does)."
  },
  {
   "property": "C92",
   "status": "proved",
   "theorems": [
    "C92_text_round_trip",
    "C92_address_equality",
    "C92_socket_identifier"
   ],
   "note": "For all addresses and ports. The C functions inet_ntop/inet_pton/inet_aton and re.search are transcribed (trusted base)."
  },
  {
   "property": "C93",
   "status": "partial",
   "theorems": [
    "C93_ip6_text_partial",
    "C93_ip6_refused",
    "C93_ip6_text_refuted"
   ],
   "note": "Exact characterisation: the RFC 4291 forms except six groups followed by an IPv4 address, which is refused (witness 1:2:3:4:5:6:1.2.3.4). A text with a null character may raise ValueError."
  },
  {
   "property": "C94",
   "status": "partial",
   "theorems": [
    "C94_ip4_text_partial",
    "C94_ip4_refused",
    "C94_ip4_text_refuted"
   ],
   "note": "False as stated: octal and hexadecimal octets, text after a blank and fewer parts are accepted (010.0.0.1 is 8.0.0.1, '1.2 9.9.9.9' is 1.0.0.2). Proved: every quad is accepted with its meaning, and nothing else among texts of digits and dots without leading zeros."
  },
  {
   "property": "C95",
   "status": "partial",
   "theorems": [
    "C95_network_text",
    "C95_host_text",
    "C95_round_trip",
    "C95_ip4_network_exact",
    "C95_ip6_network_exact",
    "C95_strict_refuted",
    "C95_errors_partial"
   ],
   "note": "Exactly the network texts accepted, for both versions, and the network each names; hosts for lengths written in one to three digits; round trips for all. The stated property is false: '/-5' is accepted as /0, blanks, signs and underscores (IPv6: a newline) are accepted, a huge length raises OverflowError, and the host constructors raise the network's error for a bad length."
  },
  {
   "property": "C96",
   "status": "proved",
   "theorems": [
    "C96_accepts",
    "C96_sound",
    "C96_start"
   ],
   "note": "start() is covered for the runs that return; the DHCP client is an arbitrary computation that leaves the address lists alone. IPv4 texts outside the grammar that are nevertheless accepted (C94, C95) are covered by C96_sound."
  },
  {
   "property": "C97",
   "status": "proved",
   "theorems": [
    "C97_acquire_ip6"
   ],
   "note": "For the runs that return. The verdict of duplicate address detection is the counting rule of C49."
  },
  {
   "property": "C98",
   "status": "partial",
   "theorems": [
    "C98_refuted",
    "C98_partial"
   ],
   "note": "False of the code: the MAC address and the IPv4 candidate are already set when the IPv6 text is refused. Proved: addresses in use, groups, IPv6 candidates and switches are untouched by a refusal; a bad MAC address leaves everything."
  },
  {
   "property": "C99",
   "status": "proved",
   "theorems": [
    "C99_counting_only_counts",
    "C99_counters_add_up",
    "C99_done_is_counted",
    "C99_counted_is_done",
    "C99_seen_is_so"
   ],
   "note": "All frames, states and sequences of handled frames; the sums are those of adds_up in SpecStat.v. The ICMP-unreachable counters have no action counter of their own, so a refused datagram (RRefused) stands for none. C99_seen_is_so gives the exact condition for every counter that names no action."
  }
 ]
}
