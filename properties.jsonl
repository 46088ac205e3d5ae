{"id": "C01", "title": "Checksum verification is exact", "statement": "Checking a received block (data plus pseudo-header sum) reports 'good' exactly when the one's-complement sum of its 16-bit big-endian words (odd tail padded with a zero byte) plus the pseudo-header sum is a non-zero multiple of 0xFFFF, i.e. exactly when RFC 1071 verification succeeds.", "quantifier": "every byte string (any length below 2^32, including odd and 20-byte ones) and every pseudo-header sum below 2^67", "why_tests_cant": "The folding is done on 64/32/16-bit words with three different code paths; carry patterns that break a fold are a vanishing fraction of inputs.", "anchors": ["pytcp/lib/ip_helper.py: inet_cksum"]}
{"id": "C02", "title": "Checksum generation equals RFC 1071", "statement": "The checksum computed for an outgoing block equals the RFC 1071 checksum of that block, so any conforming receiver accepts the packet.", "quantifier": "every byte string and every pseudo-header sum", "why_tests_cant": "A wrong carry fold needs a specific sum value (about one block in 2^16 at best) and a test suite with fixed packets does not meet it.", "anchors": ["pytcp/lib/ip_helper.py: inet_cksum", "pytcp/protocols/udp/fpa.py: UdpAssembler.assemble", "pytcp/protocols/tcp/fpa.py: TcpAssembler.assemble"]}
{"id": "C03", "title": "IPv4 header checksum is always right for option-less headers", "statement": "For every 20-byte IPv4 header the computed checksum is the RFC 1071 checksum, and the header with that checksum filled in verifies.", "quantifier": "every 20-byte header", "why_tests_cant": "2^160 headers; the 20-byte path is a separate branch of the checksum code.", "anchors": ["pytcp/lib/ip_helper.py: inet_cksum", "pytcp/protocols/ip4/fpa.py: Ip4Assembler.assemble", "pytcp/protocols/ip4/fpp.py: Ip4Parser"]}
{"id": "C04", "title": "A single corrupted byte is always detected", "statement": "If a checksummed block verifies, then the same block with any one byte replaced by a different value does not verify.", "quantifier": "every block that verifies, every position, every replacement value", "why_tests_cant": "Error-detection is a for-all statement over blocks, positions and values.", "anchors": ["pytcp/lib/ip_helper.py: inet_cksum"]}
{"id": "C05", "title": "MAC address value round trips", "statement": "A MAC address built from an integer, from 6 bytes or from the text printed by the library denotes the same address; printing is injective; every other integer, byte length or text is rejected with the format error.", "quantifier": "every 48-bit value, every byte string, every text", "why_tests_cant": "2^48 values and an unbounded set of malformed texts.", "anchors": ["pytcp/lib/mac_address.py: MacAddress"]}
{"id": "C06", "title": "MAC address classes are disjoint and exhaustive", "statement": "Every MAC address is in exactly one of: unspecified, broadcast, IPv4-multicast, IPv6-multicast, unicast; and an address reported as unicast never has the Ethernet group bit set.", "quantifier": "every 48-bit address", "why_tests_cant": "Range comparisons against decimal literals; a boundary error affects a handful of 2^48 values.", "anchors": ["pytcp/lib/mac_address.py: MacAddress.is_unicast, is_multicast_ip4, is_multicast_ip6, is_broadcast, is_unspecified"]}
{"id": "C07", "title": "IPv4 address classes are disjoint and exhaustive", "statement": "Every IPv4 address is in exactly one of: unspecified, invalid (0/8), loopback, link-local, private, multicast, reserved, limited broadcast, global; 'unicast' is exactly global, private, link-local or loopback.", "quantifier": "every 32-bit address", "why_tests_cant": "2^32 addresses and mask arithmetic.", "anchors": ["pytcp/lib/ip4_address.py: Ip4Address.is_*", "pytcp/lib/ip_address.py: IpAddress.is_unicast"]}
{"id": "C08", "title": "IPv4 address classes match the documented ranges", "statement": "Each IPv4 class predicate holds exactly on the address range documented for it (loopback 127/8, link-local 169.254/16, private 10/8, 172.16/12, 192.168/16, multicast 224/4, reserved 240.0.0.0-255.255.255.254, limited broadcast 255.255.255.255).", "quantifier": "every 32-bit address", "why_tests_cant": "A wrong mask bit is wrong on a scattered half of a /4; sampled addresses can all fall on the right half.", "anchors": ["pytcp/lib/ip4_address.py: Ip4Address.is_reserved and the other class predicates"]}
{"id": "C09", "title": "IPv6 address classes match their prefixes and are disjoint", "statement": "IPv6 loopback, unspecified, link-local fe80::/10, unique-local fc00::/7, global 2000::/3, multicast ff00::/8 and solicited-node ff02::1:ff00:0/104 predicates hold exactly on those prefixes, and unspecified, loopback, link-local, private, global, multicast are pairwise disjoint.", "quantifier": "every 128-bit address", "why_tests_cant": "2^128 addresses.", "anchors": ["pytcp/lib/ip6_address.py: Ip6Address.is_*"]}
{"id": "C10", "title": "Network masks are exactly the contiguous prefixes", "statement": "A 32-bit (128-bit) integer or byte string is accepted as a mask exactly when it is n ones followed by zeros for some n; the mask built from '/n' is that mask and its length is n; anything else is rejected.", "quantifier": "every integer and every prefix length", "why_tests_cant": "2^32 / 2^128 candidate masks; the check is done on a printed bit string.", "anchors": ["pytcp/lib/ip4_address.py: Ip4Mask", "pytcp/lib/ip6_address.py: Ip6Mask", "pytcp/lib/ip_address.py: IpMask.__len__"]}
{"id": "C11", "title": "Network membership is prefix equality", "statement": "An address is reported inside a network exactly when it agrees with the network address on all prefix bits; the network address is the smallest and the broadcast/last address the largest member.", "quantifier": "every address, every network built from an address and a mask (IPv4 and IPv6)", "why_tests_cant": "Membership is coded as an interval test; equivalence with prefix matching needs all addresses and masks.", "anchors": ["pytcp/lib/ip_address.py: IpNetwork.__contains__", "pytcp/lib/ip4_address.py: Ip4Network", "pytcp/lib/ip6_address.py: Ip6Network"]}
{"id": "C12", "title": "A host's gateway is always usable", "statement": "After any sequence of gateway assignments an IPv4 host's gateway (if set) is inside its network and differs from the network, broadcast and own addresses; an IPv6 host's gateway (if set) is a link-local address and never the host's own address; a rejected assignment leaves the previous gateway in place.", "quantifier": "every host, every sequence of assignments", "why_tests_cant": "Any history of assignments.", "anchors": ["pytcp/lib/ip4_address.py: Ip4Host.gateway", "pytcp/lib/ip6_address.py: Ip6Host.gateway"]}
{"id": "C13", "title": "EUI-64 autoconfiguration is injective and on-prefix", "statement": "The address derived from a /64 prefix and a MAC lies in that prefix, keeps the prefix bits, embeds FF:FE and flips the universal bit per RFC 4291, and different MACs give different addresses.", "quantifier": "every /64 prefix and every MAC", "why_tests_cant": "2^112 combinations of bit shuffling.", "anchors": ["pytcp/lib/ip6_address.py: Ip6Network.eui64"]}
{"id": "C14", "title": "Multicast address mapping is right", "statement": "The solicited-node address of any IPv6 address is ff02::1:ff00:0/104 plus its low 24 bits; the Ethernet address of an IPv6 (IPv4) multicast group is 33:33 plus the low 32 bits (01:00:5e plus the low 23 bits), always classified as IPv6 (IPv4) multicast by the MAC class; asking for it on a non-multicast address fails.", "quantifier": "every address", "why_tests_cant": "Bit-level mapping over the whole space.", "anchors": ["pytcp/lib/ip6_address.py: solicited_node_multicast, multicast_mac", "pytcp/lib/ip4_address.py: multicast_mac", "pytcp/lib/mac_address.py"]}
{"id": "C15", "title": "Ethernet frame round trip", "statement": "A frame assembled from source, destination, type and payload parses back to the same fields and payload; the parser accepts exactly the byte strings of at least 14 bytes whose type is at least 0x0600 and never raises.", "quantifier": "every source/destination/type/payload and every byte string", "why_tests_cant": "Unbounded payloads and arbitrary bytes.", "anchors": ["pytcp/protocols/ether/fpa.py: EtherAssembler", "pytcp/protocols/ether/fpp.py: EtherParser"]}
{"id": "C16", "title": "ARP packet round trip", "statement": "An assembled ARP request or reply parses back to the same operation and addresses; the parser never raises and accepts only Ethernet/IPv4 requests and replies.", "quantifier": "every operation and addresses, every byte string (with any trailing padding)", "why_tests_cant": "2^160 address combinations and arbitrary inputs.", "anchors": ["pytcp/protocols/arp/fpa.py: ArpAssembler", "pytcp/protocols/arp/fpp.py: ArpParser"]}
{"id": "C17", "title": "IPv4 packet round trip", "statement": "An assembled IPv4 packet (whole or fragment, with option list) parses back to the same version, lengths, DSCP, ECN, id, flags, offset, TTL, protocol, addresses, options (up to the first end-of-list option) and payload, even when followed by Ethernet padding.", "quantifier": "every header field combination, option list, payload and padding", "why_tests_cant": "Unbounded payload, padding and options.", "anchors": ["pytcp/protocols/ip4/fpa.py: Ip4Assembler, Ip4FragAssembler", "pytcp/protocols/ip4/fpp.py: Ip4Parser"]}
{"id": "C18", "title": "IPv4 parser never raises", "statement": "Whatever bytes arrive after the Ethernet header, parsing them as IPv4 either yields a packet or a drop reason; it never raises.", "quantifier": "every byte string", "why_tests_cant": "Hostile inputs; an off-by-one shows only on truncated option areas.", "anchors": ["pytcp/protocols/ip4/fpp.py: Ip4Parser"]}
{"id": "C19", "title": "IPv4 acceptance is sound", "statement": "A packet accepted by the IPv4 parser has version 4, header length between 20 and total length, total length within the frame, a valid header checksum, non-zero TTL, a source address that is not multicast/reserved/limited-broadcast, never both DF and MF, never DF with an offset.", "quantifier": "every byte string", "why_tests_cant": "Acceptance is a conjunction over arbitrary bytes.", "anchors": ["pytcp/protocols/ip4/fpp.py: Ip4Parser._packet_integrity_check, _packet_sanity_check"]}
{"id": "C20", "title": "IPv6 packet round trip", "statement": "An assembled IPv6 packet parses back to the same DSCP, ECN, flow label, next header, hop limit, addresses and payload.", "quantifier": "every header field combination and payload", "why_tests_cant": "Unbounded payload; bit packing across byte boundaries.", "anchors": ["pytcp/protocols/ip6/fpa.py: Ip6Assembler", "pytcp/protocols/ip6/fpp.py: Ip6Parser"]}
{"id": "C21", "title": "IPv6 parser never raises and is sound", "statement": "Parsing any bytes as IPv6 never raises; an accepted packet has version 6, exact payload length, non-zero hop limit and a non-multicast source.", "quantifier": "every byte string", "why_tests_cant": "Arbitrary inputs.", "anchors": ["pytcp/protocols/ip6/fpp.py: Ip6Parser"]}
{"id": "C22", "title": "IPv6 fragment header round trip", "statement": "An assembled IPv6 fragment header with its data parses back to the same next header, offset, more-flag, id and data; parsing any bytes never raises.", "quantifier": "every field combination, data and byte string", "why_tests_cant": "Arbitrary inputs.", "anchors": ["pytcp/protocols/ip6_ext_frag/fpa.py: Ip6ExtFragAssembler", "pytcp/protocols/ip6_ext_frag/fpp.py: Ip6ExtFragParser"]}
{"id": "C23", "title": "UDP datagram round trip", "statement": "A datagram assembled from ports and data and delivered unchanged in an IPv4 or IPv6 packet is accepted and yields the same ports and data.", "quantifier": "every port pair, data and address pair", "why_tests_cant": "Unbounded data; the checksum must verify for all of it.", "anchors": ["pytcp/protocols/udp/fpa.py: UdpAssembler", "pytcp/protocols/udp/fpp.py: UdpParser"]}
{"id": "C24", "title": "UDP acceptance is exact and total", "statement": "Parsing any bytes as UDP never raises; a datagram is accepted exactly when its checksum verifies, its length field equals the IP payload length and fits the frame, and both ports are non-zero.", "quantifier": "every byte string, payload length and pseudo-header", "why_tests_cant": "Arbitrary inputs.", "anchors": ["pytcp/protocols/udp/fpp.py: UdpParser"]}
{"id": "C25", "title": "UDP datagrams without checksum are accepted over IPv4", "statement": "An IPv4 UDP datagram whose checksum field is zero (sender computed none, RFC 768) is accepted, and an assembled datagram never carries a zero checksum field.", "quantifier": "every datagram", "why_tests_cant": "A computed checksum of zero needs a particular payload sum.", "anchors": ["pytcp/protocols/udp/fpp.py: UdpParser._packet_integrity_check", "pytcp/protocols/udp/fpa.py: UdpAssembler.assemble"]}
{"id": "C26", "title": "TCP segment round trip", "statement": "A segment assembled from ports, sequence/acknowledgement numbers, flags, window, urgent pointer, options (MSS, window scale, SACK-permitted, timestamp, NOP, EOL) and data parses back to the same values.", "quantifier": "every field combination, option list up to 40 bytes and data", "why_tests_cant": "Unbounded data, all flag and option combinations.", "anchors": ["pytcp/protocols/tcp/fpa.py: TcpAssembler", "pytcp/protocols/tcp/fpp.py: TcpParser"]}
{"id": "C27", "title": "TCP parser never raises", "statement": "Whatever bytes arrive as an IP payload with protocol TCP, parsing (and logging) them either yields a segment or a drop reason; it never raises.", "quantifier": "every byte string, payload length and pseudo-header sum", "why_tests_cant": "Hostile truncated segments.", "anchors": ["pytcp/protocols/tcp/fpp.py: TcpParser"]}
{"id": "C28", "title": "TCP acceptance is sound", "statement": "An accepted TCP segment has a verifying checksum, header length between 20 and the payload length, non-zero ports, no SYN+FIN, SYN+RST, FIN+RST, no FIN without ACK, a zero acknowledgement number when ACK is clear and a zero urgent pointer when URG is clear.", "quantifier": "every byte string", "why_tests_cant": "Arbitrary inputs.", "anchors": ["pytcp/protocols/tcp/fpp.py: TcpParser._packet_integrity_check, _packet_sanity_check"]}
{"id": "C29", "title": "ICMPv4 round trip and totality", "statement": "Assembled echo request, echo reply and port-unreachable messages parse back to the same type, code, id, sequence and data; parsing any bytes never raises.", "quantifier": "every field combination, data and byte string", "why_tests_cant": "Unbounded data and arbitrary inputs.", "anchors": ["pytcp/protocols/icmp4/fpa.py: Icmp4Assembler", "pytcp/protocols/icmp4/fpp.py: Icmp4Parser"]}
{"id": "C30", "title": "ICMPv6 round trip", "statement": "Assembled echo, port-unreachable, neighbour solicitation/advertisement, router solicitation/advertisement and multicast listener report messages parse back to the same fields, options and records.", "quantifier": "every field combination, option list and record list", "why_tests_cant": "Unbounded lists; option offsets differ between the checker and the reader.", "anchors": ["pytcp/protocols/icmp6/fpa.py: Icmp6Assembler", "pytcp/protocols/icmp6/fpp.py: Icmp6Parser"]}
{"id": "C31", "title": "ICMPv6 parser never raises and always terminates", "statement": "Whatever bytes arrive as ICMPv6, parsing and logging them terminates without raising.", "quantifier": "every byte string, source, destination and hop limit", "why_tests_cant": "Hostile option lengths; a zero step gives non-termination that a test would only see as a hang.", "anchors": ["pytcp/protocols/icmp6/fpp.py: Icmp6Parser._nd_option_integrity_check, _read_nd_options, Icmp6NdOptPI"]}
{"id": "C32", "title": "DHCP message round trip", "statement": "A DHCP message built by the client parses back to the same header fields and options.", "quantifier": "every field combination the client can build", "why_tests_cant": "Unbounded option contents.", "anchors": ["pytcp/protocols/dhcp4/ps.py: Dhcp4Packet"]}
{"id": "C33", "title": "DHCP parsing terminates", "statement": "Parsing any UDP payload as a DHCP message terminates, either with a message or an error.", "quantifier": "every byte string", "why_tests_cant": "Non-termination is invisible to a finite test except as a hang on the right input.", "anchors": ["pytcp/protocols/dhcp4/ps.py: Dhcp4Packet.__init__, DHCP4_OPT_PAD_LEN"]}
{"id": "C34", "title": "Transmitted bytes never depend on earlier frames", "statement": "The bytes put on the wire for a frame depend only on that frame: the reused transmit buffer's previous contents never leak into a later frame and never change its checksum.", "quantifier": "every earlier buffer content and every packet of every protocol", "why_tests_cant": "All histories of previously sent frames.", "anchors": ["pytcp/subsystems/tx_ring.py: TxRing", "pytcp/protocols/*/fpa.py: assemble"]}
{"id": "C35", "title": "IPv4 fragmentation is well formed", "statement": "Sending a datagram larger than the MTU emits fragments that each fit the MTU, start at multiples of 8, carry the same id, addresses, protocol and options, have the more-flag on all but the last, and whose data concatenated in order is the datagram.", "quantifier": "every datagram, MTU and header length", "why_tests_cant": "Unbounded datagram sizes and boundary alignments.", "anchors": ["pytcp/protocols/ip4/phtx.py: _phtx_ip4"]}
{"id": "C36", "title": "IPv4 reassembly restores the datagram in any order", "statement": "If the fragments of a datagram arrive in any order, with duplicates, interleaved with fragments of other datagrams, exactly one datagram is delivered, when the last missing fragment arrives, with the original payload; nothing is delivered while a fragment is missing.", "quantifier": "every datagram, partition into fragments, arrival permutation, duplication and interleaving", "why_tests_cant": "Factorially many arrival orders.", "anchors": ["pytcp/protocols/ip4/phrx.py: _defragment_ip4_packet"]}
{"id": "C37", "title": "Hostile fragments never raise", "statement": "No sequence of (individually valid) fragments makes reassembly raise.", "quantifier": "every sequence of fragments, including overlapping and oversized ones", "why_tests_cant": "Overlap patterns are unbounded.", "anchors": ["pytcp/protocols/ip4/phrx.py: _defragment_ip4_packet", "pytcp/protocols/ip6_ext_frag/phrx.py: _defragment_ip6_packet"]}
{"id": "C38", "title": "Stale fragments are discarded", "statement": "A fragment flow not completed within the configured timeout is forgotten, so memory does not grow with abandoned flows and old fragments never combine with new ones.", "quantifier": "every arrival history with timestamps", "why_tests_cant": "Needs all histories over time.", "anchors": ["pytcp/protocols/ip4/phrx.py: _defragment_ip4_packet (expiry)", "pytcp/config.py: IP4_FRAG_FLOW_TIMEOUT"]}
{"id": "C39", "title": "IPv6 fragmentation and reassembly are inverse", "statement": "Sending an oversized IPv6 payload emits fragments that fit the MTU and whose reassembly, in any arrival order, is the original payload and next header.", "quantifier": "every payload, MTU and arrival order", "why_tests_cant": "Unbounded sizes and factorially many orders.", "anchors": ["pytcp/protocols/ip6_ext_frag/phtx.py: _phtx_ip6_ext_frag", "pytcp/protocols/ip6_ext_frag/phrx.py: _defragment_ip6_packet"]}
{"id": "C40", "title": "Packet ids of concurrent datagrams never collide and sending never runs out of ids", "statement": "Two different oversized datagrams sent by the stack to the same peer never carry the same fragment id within the id space, and the stack can send oversized datagrams forever.", "quantifier": "every number of datagrams sent", "why_tests_cant": "Needs 2^16 or 2^32 sends to observe.", "anchors": ["pytcp/protocols/ip4/phtx.py: ip4_id", "pytcp/protocols/ip6_ext_frag/phtx.py: ip6_id", "pytcp/protocols/ip4/fpa.py: Ip4FragAssembler"]}
{"id": "C41", "title": "IPv4 packets leave only from owned source addresses", "statement": "Every IPv4 packet put on the wire has as source one of the stack's unicast addresses, or 0.0.0.0 only for DHCP client traffic (UDP 68 to 67); packets asked to be sent from any other address are dropped with a status saying so.", "quantifier": "every stack configuration and every send request", "why_tests_cant": "All host/network configurations and requests.", "anchors": ["pytcp/protocols/ip4/phtx.py: _validate_src_ip4_address, _phtx_ip4"]}
{"id": "C42", "title": "IPv6 packets leave only from owned source addresses", "statement": "Every IPv6 packet put on the wire has as source one of the stack's unicast addresses, or :: only for duplicate-address-detection solicitations and multicast listener reports.", "quantifier": "every stack configuration and every send request", "why_tests_cant": "All configurations and requests.", "anchors": ["pytcp/protocols/ip6/phtx.py: _validate_src_ip6_address, _phtx_ip6"]}
{"id": "C43", "title": "Next-hop selection is right", "statement": "A unicast packet is sent to the link-layer address cached for its destination when the destination is in the source's network, and to the one cached for the gateway otherwise; multicast and broadcast destinations get their mapped address; when nothing is cached no frame is sent, a resolution request is, and the caller gets a drop status.", "quantifier": "every host table, cache content, source and destination", "why_tests_cant": "All configurations and cache states.", "anchors": ["pytcp/protocols/ether/phtx.py: _phtx_ether", "pytcp/subsystems/arp_cache.py", "pytcp/subsystems/nd_cache.py"]}
{"id": "C44", "title": "Send status is truthful", "statement": "A send reports 'passed to TX ring' exactly when the frame (all fragments) was queued for transmission, and a drop status exactly when none was queued.", "quantifier": "every send request and stack state", "why_tests_cant": "All failure combinations across the layered path.", "anchors": ["pytcp/protocols/ip4/phtx.py", "pytcp/protocols/ip6/phtx.py", "pytcp/protocols/ether/phtx.py", "pytcp/lib/tx_status.py"]}
{"id": "C45", "title": "Traffic for others has no effect", "statement": "A frame whose link-layer or network-layer destination is not one of the stack's addresses causes no transmission, no socket delivery and no cache change.", "quantifier": "every stack state and frame", "why_tests_cant": "All frames and configurations.", "anchors": ["pytcp/protocols/ether/phrx.py", "pytcp/protocols/ip4/phrx.py", "pytcp/protocols/ip6/phrx.py"]}
{"id": "C46", "title": "A received frame never kills the receive thread", "statement": "Processing any received frame terminates without an uncaught exception, so the stack keeps serving later frames.", "quantifier": "every frame and stack state", "why_tests_cant": "Hostile inputs at any layer.", "anchors": ["pytcp/subsystems/packet_handler.py: __thread_packet_handler", "pytcp/protocols/*/phrx.py"]}
{"id": "C47", "title": "ARP requests for our address are answered exactly", "statement": "A valid ARP request for one of the stack's addresses from another host produces exactly one reply, unicast to the requester, binding that address to the stack's MAC; requests for other addresses and requests claiming our own address produce none.", "quantifier": "every request and stack state", "why_tests_cant": "All addresses and configurations.", "anchors": ["pytcp/protocols/arp/phrx.py: _phrx_arp"]}
{"id": "C48", "title": "Duplicate IPv4 addresses are never claimed", "statement": "If during probing an ARP reply shows that another host uses a candidate IPv4 address, the stack does not claim it; every other candidate is claimed; with no address left IPv4 is disabled.", "quantifier": "every candidate list and every history of received ARP packets during probing", "why_tests_cant": "All histories of interleaved replies.", "anchors": ["pytcp/subsystems/packet_handler.py: _create_stack_ip4_addressing", "pytcp/protocols/arp/phrx.py"]}
{"id": "C49", "title": "Duplicate IPv6 addresses: the verdict concerns the address being probed", "statement": "IPv6 duplicate address detection rejects a candidate exactly when a neighbour advertisement for that candidate arrived during its probe.", "quantifier": "every sequence of candidates and received advertisements", "why_tests_cant": "All histories.", "anchors": ["pytcp/subsystems/packet_handler.py: _perform_ip6_nd_dad", "pytcp/protocols/icmp6/phrx.py"]}
{"id": "C50", "title": "Multicast filters follow the assigned addresses", "statement": "After any sequence of assigning and removing IPv6 addresses, the stack accepts solicited-node multicast traffic (IPv6 and Ethernet) exactly for the addresses currently assigned, plus all-nodes.", "quantifier": "every sequence of assign/remove/probe operations", "why_tests_cant": "All histories; several addresses may share one group.", "anchors": ["pytcp/subsystems/packet_handler.py: _assign_ip6_host, _remove_ip6_host, _assign_ip6_multicast, _remove_ip6_multicast"]}
{"id": "C51", "title": "Neighbour solicitations for our address are answered exactly", "statement": "A valid neighbour solicitation for one of the stack's addresses produces exactly one advertisement for that address carrying the stack's MAC, solicited to the asker, or unsolicited to all-nodes when the asker has no address yet; others produce none.", "quantifier": "every solicitation and stack state", "why_tests_cant": "All addresses and configurations.", "anchors": ["pytcp/protocols/icmp6/phrx.py: _phrx_icmp6"]}
{"id": "C52", "title": "Neighbour and ARP caches return the latest live binding", "statement": "A lookup returns the link-layer address of the most recent update for that address, if it is younger than the maximum age; otherwise nothing is returned and exactly one resolution request is sent.", "quantifier": "every history of updates, lookups and clock ticks", "why_tests_cant": "All histories.", "anchors": ["pytcp/subsystems/arp_cache.py", "pytcp/subsystems/nd_cache.py"]}
{"id": "C53", "title": "Echo requests are answered with the same id, sequence and data", "statement": "An ICMPv4/ICMPv6 echo request addressed to the stack produces exactly one echo reply to its sender with identical id, sequence number and data; no other ICMP message produces an echo reply.", "quantifier": "every request", "why_tests_cant": "Unbounded data.", "anchors": ["pytcp/protocols/icmp4/phrx.py", "pytcp/protocols/icmp6/phrx.py"]}
{"id": "C54", "title": "Port unreachable goes only where it should", "statement": "A UDP datagram to a unicast address of the stack for which no socket is open produces one port-unreachable message quoting the datagram; a datagram that was delivered, was sent to a multicast or broadcast address, or came from the unspecified address produces none.", "quantifier": "every datagram and socket table", "why_tests_cant": "All socket tables and destinations.", "anchors": ["pytcp/protocols/udp/phrx.py: _phrx_udp"]}
{"id": "C55", "title": "ICMP unreachable reaches only the socket that sent the datagram", "statement": "A received ICMP unreachable message makes 'connection refused' appear on exactly the socket whose local/remote address and port match the quoted datagram, and on no other socket.", "quantifier": "every message and socket table", "why_tests_cant": "All socket tables and quoted bytes.", "anchors": ["pytcp/protocols/icmp4/phrx.py", "pytcp/protocols/icmp6/phrx.py", "pytcp/protocols/udp/metadata.py: UdpMetadata.socket_patterns", "pytcp/protocols/udp/socket.py: notify_unreachable"]}
{"id": "C56", "title": "No two sockets own overlapping local endpoints", "statement": "At no time are two open datagram sockets of one family bound to the same port with equal or wildcard-overlapping local addresses.", "quantifier": "every sequence of socket, bind, connect, send, sendto and close calls on any number of sockets", "why_tests_cant": "All interleavings of API calls.", "anchors": ["pytcp/protocols/udp/socket.py: UdpSocket", "pytcp/lib/socket.py: _is_address_in_use, _pick_local_port"]}
{"id": "C57", "title": "Automatic ports are free ephemeral ports", "statement": "A port chosen automatically lies in the configured ephemeral range and is used by no other open socket; when none is free the call fails with 'address in use' instead of reusing one.", "quantifier": "every socket table", "why_tests_cant": "Exhaustion needs all ephemeral ports in use.", "anchors": ["pytcp/lib/socket.py: _pick_local_port", "pytcp/config.py: EPHEMERAL_PORT_RANGE"]}
{"id": "C58", "title": "Datagrams go to the most specific socket and only to it", "statement": "A received datagram is delivered to at most one socket: the one connected to exactly its endpoints if any, else the one bound to its local address, else the wildcard-bound one; a connected socket never receives datagrams from another peer.", "quantifier": "every socket table and datagram", "why_tests_cant": "All socket tables.", "anchors": ["pytcp/protocols/udp/metadata.py: socket_patterns", "pytcp/protocols/udp/phrx.py: _phrx_udp"]}
{"id": "C59", "title": "Datagram sockets deliver in order, once, unmodified", "statement": "The datagrams returned by successive receive calls on a socket are exactly the datagrams delivered to it, in order, each once, with the sender's address.", "quantifier": "every interleaving of deliveries and receives", "why_tests_cant": "All histories.", "anchors": ["pytcp/protocols/udp/socket.py: process_udp_packet, recv, recvfrom"]}
{"id": "C60", "title": "Closing a socket affects only that socket", "statement": "Closing a socket (even twice) releases exactly its own endpoint and never unregisters another socket.", "quantifier": "every history of API calls", "why_tests_cant": "All histories, e.g. close, rebind by another socket, close again.", "anchors": ["pytcp/protocols/udp/socket.py: close", "pytcp/lib/socket.py: Socket.__str__"]}
{"id": "C61", "title": "TCP segments go to the right session", "statement": "A segment is handled by the session with exactly its endpoints if one exists; otherwise a pure SYN goes to the listening socket on that address or the wildcard; otherwise the sender gets one reset acknowledging exactly the segment (RFC 793) and nothing else happens.", "quantifier": "every socket table and segment", "why_tests_cant": "All socket tables and segments, including sequence numbers at the 2^32 boundary.", "anchors": ["pytcp/protocols/tcp/phrx.py: _phrx_tcp", "pytcp/protocols/tcp/metadata.py"]}
{"id": "C62", "title": "Resets are never answered with resets", "statement": "A received segment with RST set never causes the stack to send a segment.", "quantifier": "every segment and socket table", "why_tests_cant": "All states.", "anchors": ["pytcp/protocols/tcp/phrx.py: _phrx_tcp"]}
{"id": "C63", "title": "TCP receive stream is the peer's stream", "statement": "The bytes an application reads from a TCP connection are always a prefix of the bytes the peer sent, in order, without loss, duplication or reordering, whatever segments arrive, duplicated, reordered, overlapping or lost, and whatever else happens on the session.", "quantifier": "every interleaving of segments, timer ticks and application calls", "why_tests_cant": "Unboundedly many arrival schedules.", "anchors": ["pytcp/protocols/tcp/session.py: _process_ack_packet, _enqueue_rx_buffer, receive, tcp_fsm"]}
{"id": "C64", "title": "TCP end of stream is reported only after all data", "statement": "A read returns empty only after the peer closed and every byte it sent before closing has been read.", "quantifier": "every interleaving of segments, ticks and reads, including a read racing with an arriving segment", "why_tests_cant": "Race between the reader and the receive thread.", "anchors": ["pytcp/protocols/tcp/session.py: receive, _enqueue_rx_buffer, _tcp_fsm_established"]}
{"id": "C65", "title": "TCP transmit stream is the application's stream", "statement": "Every data segment the stack sends, first transmission or retransmission, carries at sequence number ISN+1+k exactly the bytes of the application's stream from offset k on; a FIN is sent only at the sequence number following all data the application wrote.", "quantifier": "every interleaving of application writes, segments and timer ticks", "why_tests_cant": "All schedules of acknowledgements, losses and retransmissions.", "anchors": ["pytcp/protocols/tcp/session.py: _transmit_data, _transmit_packet, _retransmit_packet_timeout, _process_ack_packet"]}
{"id": "C66", "title": "TCP never transmits beyond the peer's window", "statement": "Every data segment ends at or below the highest acknowledged sequence number plus the window last advertised by the peer, and is at most the negotiated maximum segment size.", "quantifier": "every schedule", "why_tests_cant": "All schedules and window values.", "anchors": ["pytcp/protocols/tcp/session.py: _transmit_data, _process_ack_packet"]}
{"id": "C67", "title": "TCP send variables stay ordered", "statement": "In every reachable session state: oldest unacknowledged <= next to send <= highest ever sent, and acknowledgement of data never sent is ignored.", "quantifier": "every reachable state", "why_tests_cant": "All histories.", "anchors": ["pytcp/protocols/tcp/session.py"]}
{"id": "C68", "title": "TCP state changes follow the RFC 793 diagram", "statement": "The only state changes a session ever makes are edges of the RFC 793 connection state diagram (plus abort to CLOSED), for the documented events.", "quantifier": "every state, segment, call and tick", "why_tests_cant": "All states times all segments.", "anchors": ["pytcp/protocols/tcp/session.py: tcp_fsm, _change_state"]}
{"id": "C69", "title": "TCP gives up after a bounded number of retransmissions", "statement": "If the peer stops acknowledging, a segment is transmitted at most four times with doubling timeouts, then the peer is reset, the session closes and the application is told; no timer runs forever.", "quantifier": "every session state and schedule without new acknowledgements", "why_tests_cant": "Needs long histories and duplicate-ACK schedules.", "anchors": ["pytcp/protocols/tcp/session.py: _retransmit_packet_timeout, _retransmit_packet_request, _transmit_packet"]}
{"id": "C70", "title": "TCP acknowledges received data promptly", "statement": "In an established session received data is acknowledged within the delayed-ACK interval (100 ms of timer ticks), whatever else happens.", "quantifier": "every established state and schedule", "why_tests_cant": "All schedules.", "anchors": ["pytcp/protocols/tcp/session.py: _delayed_ack, _transmit_packet"]}
{"id": "C71", "title": "TCP timer processing never raises", "statement": "A timer tick on a session never raises (an exception there stops the timer thread for every session), whatever windows the peer advertises.", "quantifier": "every reachable session state", "why_tests_cant": "Hostile window sequences.", "anchors": ["pytcp/protocols/tcp/session.py: _transmit_data (assert)", "pytcp/subsystems/timer.py: __thread_timer"]}
{"id": "C72", "title": "TCP sequence numbers wrap", "statement": "A connection works for every initial sequence number and any amount of data: sequence arithmetic is modulo 2^32.", "quantifier": "every initial sequence number and stream length", "why_tests_cant": "Needs an ISN close to 2^32 or 4 GiB of data.", "anchors": ["pytcp/protocols/tcp/session.py", "pytcp/protocols/tcp/fpa.py: TcpAssembler.__init__"]}
{"id": "C73", "title": "TCP resumes when the peer reopens its window", "statement": "After the peer advertised a zero window, an acknowledgement advertising a non-zero window makes the stack resume sending buffered data.", "quantifier": "every established state with buffered data", "why_tests_cant": "All schedules.", "anchors": ["pytcp/protocols/tcp/session.py: _tcp_fsm_established, _retransmit_packet_request"]}
{"id": "C74", "title": "TCP listening socket forks one session per handshake", "statement": "A valid SYN to a listening socket creates exactly one new session bound to the SYN's endpoints and leaves the listening socket listening; the new connection is handed to accept exactly once, only after the handshake completes, in completion order.", "quantifier": "every history of SYNs, ACKs and accepts", "why_tests_cant": "All histories.", "anchors": ["pytcp/protocols/tcp/session.py: _tcp_fsm_listen, _tcp_fsm_syn_rcvd", "pytcp/protocols/tcp/socket.py: accept"]}
{"id": "C75", "title": "TCP TIME-WAIT lasts exactly the configured time", "statement": "A session that enters TIME-WAIT ignores segments and closes after exactly 30000 timer ticks.", "quantifier": "every segment and tick history", "why_tests_cant": "30000-tick histories with arbitrary traffic.", "anchors": ["pytcp/protocols/tcp/session.py: _tcp_fsm_time_wait"]}
{"id": "C76", "title": "Named timers expire after exactly their timeout", "statement": "A timer registered with timeout n is not expired during the next n-1 ticks and is expired from tick n on, unless re-registered, independently of all other timers.", "quantifier": "every n, every set of other timers and tick history", "why_tests_cant": "All values and histories.", "anchors": ["pytcp/subsystems/timer.py: Timer.register_timer, is_expired, __thread_timer"]}
{"id": "C77", "title": "Periodic tasks run the promised number of times", "statement": "A task registered with delay d and repeat count r runs exactly r+1 times (forever when r is negative), at ticks d, 2d, 3d, ... or with doubling gaps when exponential delay is requested, and stops as soon as its stop condition holds.", "quantifier": "every d, r and tick history", "why_tests_cant": "All values and unbounded runs.", "anchors": ["pytcp/subsystems/timer.py: TimerTask"]}
{"id": "C78", "title": "Timer registrations are never lost", "statement": "A timer or task registered by any thread while the timer thread is ticking is kept.", "quantifier": "every interleaving of registrations with the tick loop", "why_tests_cant": "Thread interleavings.", "anchors": ["pytcp/subsystems/timer.py: Timer"]}
{"id": "C79", "title": "Rings are lossless FIFOs", "statement": "Frames leave the receive (transmit) ring in the order they entered, each exactly once; the transmit ring drops only frames longer than MTU+14.", "quantifier": "every interleaving of enqueue and dequeue", "why_tests_cant": "All interleavings.", "anchors": ["pytcp/subsystems/rx_ring.py", "pytcp/subsystems/tx_ring.py"]}
{"id": "C80", "title": "DHCP accepts only answers to its own request", "statement": "The DHCP client configures an address only from an ACK that answers its own REQUEST (same transaction id, its own hardware address) following an OFFER for its DISCOVER.", "quantifier": "every sequence of received datagrams", "why_tests_cant": "Hostile or concurrent servers.", "anchors": ["pytcp/protocols/dhcp4/client.py: Dhcp4Client.fetch"]}
{"id": "C81", "title": "DHCP configuration is what the server sent", "statement": "When the client returns a host, its address is the ACK's your-address, its mask the ACK's subnet mask and its gateway the first router of the ACK; in every other case it returns nothing.", "quantifier": "every OFFER/ACK content", "why_tests_cant": "Unbounded option contents.", "anchors": ["pytcp/protocols/dhcp4/client.py: Dhcp4Client.fetch", "pytcp/protocols/dhcp4/ps.py"]}
{"id": "C82", "title": "The local address picked for a remote address", "statement": "The local address picked for talking to a remote address is the address of the first host entry whose network contains the remote address; if there is none, the address of the first host entry that has a gateway; otherwise the unspecified address.", "quantifier": "every list of host entries of any prefix length and every remote address, IPv4 and IPv6", "why_tests_cant": "Unbounded host lists and all prefix lengths; the order matters.", "anchors": ["pytcp/lib/ip_helper.py: pick_local_ip4_address, pick_local_ip6_address"]}
{"id": "C83", "title": "MSS and window scale read from the options of a segment", "statement": "The MSS of a received segment is the value of its first MSS option, or 536 without one; the window scale is two to the power of the shift in its first window scale option, or absent without one.", "quantifier": "every option list", "why_tests_cant": "Unbounded option lists with repeated options.", "anchors": ["pytcp/protocols/tcp/fpp.py: TcpParser.mss, TcpParser.wscale"]}
{"id": "C84", "title": "Addresses and prefixes read from neighbour discovery options", "statement": "The source (target) link-layer address of a neighbour discovery message is the one in its first option of that kind, absent without one; the prefixes offered for autoconfiguration are, in order, those of the prefix information options with the autonomous flag set and length 64.", "quantifier": "every option list", "why_tests_cant": "Unbounded option lists with repeated and mixed options.", "anchors": ["pytcp/protocols/icmp6/fpp.py: Icmp6Parser.nd_opt_slla, nd_opt_tlla, nd_opt_pi"]}
{"id": "C85", "title": "TCP readers learn that the peer closed", "statement": "Once the peer has closed the connection, every read returns: with the rest of the data, or empty.", "quantifier": "every history of segments, ticks, writes, closes and reads", "why_tests_cant": "Reads repeated after the end of the stream and reads pending while this end is closing block; a test that blocks is not written.", "anchors": ["pytcp/protocols/tcp/session.py: receive, _tcp_fsm_established, _tcp_fsm_fin_wait_1, _tcp_fsm_fin_wait_2"]}
{"id": "C86", "title": "TCP segments carry the header of their connection", "statement": "Every segment a session sends has the ports of its connection, window 65535, no flags besides SYN, ACK, FIN and RST, at most one of SYN, FIN and RST, an MSS option on SYN segments only, an acknowledgement number of what was received when it was sent, and never more data than the peer's MSS or 1460 bytes.", "quantifier": "every history of segments, ticks, writes, closes and reads", "why_tests_cant": "A header field is wrong only on the path that forgets it; the histories that lead to a segment are unbounded.", "anchors": ["pytcp/protocols/tcp/session.py: _transmit_packet, _transmit_data", "pytcp/protocols/tcp/phtx.py: _phtx_tcp"]}
{"id": "C87", "title": "TCP resets close the connection, and only those in place", "statement": "A reset at the next expected sequence number (with its acknowledgement in range, if it has one) closes the connection, unregisters its socket and wakes its readers; any other reset changes nothing.", "quantifier": "every state and every reset segment", "why_tests_cant": "All states times all sequence and acknowledgement numbers.", "anchors": ["pytcp/protocols/tcp/session.py: _tcp_fsm_syn_sent, _tcp_fsm_syn_rcvd, _tcp_fsm_established, _tcp_fsm_fin_wait_1, _tcp_fsm_fin_wait_2, _tcp_fsm_closing, _tcp_fsm_close_wait, _tcp_fsm_last_ack"]}
{"id": "C88", "title": "TCP reassembly: segments out of order", "statement": "Segments that arrive before their turn are kept and delivered as soon as what is missing arrives; the order of arrival and repetitions do not change the bytes received; the peer is asked for what is missing.", "quantifier": "every reachable connection, every segment in order and every content of the out of order queue; every permutation and repetition of the segments", "why_tests_cant": "The orders of arrival, the cuts of the stream into segments and the acknowledgement numbers they carry are unbounded; the data is lost only when the repeated segment carries a newer acknowledgement than the ones kept.", "anchors": ["pytcp/protocols/tcp/session.py: _process_ack_packet, _tcp_fsm_established"]}
{"id": "C89", "title": "TCP: the orderly end of a connection", "statement": "After close() everything written is delivered first, then a FIN is sent right after the last byte; this end counts as closed only once that FIN has been acknowledged or a reset came; a lost FIN is sent again; the peer's FIN is counted, its data is received, and it is acknowledged.", "quantifier": "every reachable connection, every next operation, every acknowledgement and FIN segment", "why_tests_cant": "The state is left early only by a segment arriving in the millisecond between two timer ticks, or by a simultaneous close with loss; the interleavings are unbounded.", "anchors": ["pytcp/protocols/tcp/session.py: close, _transmit_data, _tcp_fsm_established, _tcp_fsm_fin_wait_1, _tcp_fsm_fin_wait_2, _tcp_fsm_closing, _tcp_fsm_close_wait, _tcp_fsm_last_ack"]}
{"id": "C90", "title": "TCP connect(): its result and that it ends", "statement": "connect() returns only after the peer accepted the SYN that was sent, raises \"Connection refused\" only after the peer refused it, and \"Connection timeout\" only after the SYN was sent four times without an answer (or the established connection was given up) and the peer was reset; it ends within 15 seconds of the first timer tick, whatever comes in.", "quantifier": "every history of segments, timer ticks and calls of other threads from connect() on, and every moment at which the waiting thread looks at the session", "why_tests_cant": "The wrong results need a segment in the millisecond before the SYN is sent, a close() of another thread, or one sequence number out of 2^32; the interleavings are unbounded.", "anchors": ["pytcp/protocols/tcp/session.py: connect, _tcp_fsm_syn_sent, _retransmit_packet_timeout", "pytcp/protocols/tcp/socket.py: connect"]}
{"id": "C91", "title": "Datagram sockets: what send() and sendto() do and return", "statement": "send() on a socket without destination raises OSError 89 and does nothing; after an ICMP unreachable it raises ConnectionRefusedError once; otherwise the whole datagram leaves from the socket's endpoint for its destination and len(data) is returned, or nothing of it leaves and 0 is returned. sendto() does the same for the address given, binds the socket to a free port first if necessary and changes nothing else.", "quantifier": "every node state, socket, destination, port and data", "why_tests_cant": "Addresses, ports, data, cache contents and socket tables are unbounded.", "anchors": ["pytcp/protocols/udp/socket.py: send, sendto", "pytcp/lib/socket.py: _set_ip_addresses", "pytcp/protocols/udp/phtx.py: _phtx_udp"]}
{"id": "C92", "title": "IP addresses and socket identifiers as text", "statement": "The text printed for an IPv4 or IPv6 address is read back as the same address; == between address objects holds exactly for equal values of the same version; the identifiers of two sockets are equal only if family, type, both addresses and both ports agree.", "quantifier": "every address, port, family and socket type", "why_tests_cant": "2^128 addresses with many printed shapes (runs of zeros, embedded IPv4, end positions).", "anchors": ["pytcp/lib/ip_address.py: IpAddress.__eq__, __repr__", "pytcp/lib/ip6_address.py: Ip6Address.__init__, __str__", "pytcp/lib/ip4_address.py: Ip4Address.__init__, __str__", "pytcp/lib/socket.py: __str__"]}
{"id": "C93", "title": "IPv6 address text: what is accepted and what it means", "statement": "Ip6Address(text) accepts exactly the textual forms of RFC 4291 section 2.2 and yields the address they denote; every other text raises Ip6AddressFormatError.", "quantifier": "every text and address", "why_tests_cant": "The grammar has infinitely many near misses; a regex search and a C parser have to agree on all of them.", "anchors": ["pytcp/lib/ip6_address.py: Ip6Address.__init__, IP6_REGEX"]}
{"id": "C94", "title": "IPv4 address text: what is accepted and what it means", "statement": "Ip4Address(text) accepts exactly four decimal octets joined by dots and yields the address they denote; every other text raises Ip4AddressFormatError.", "quantifier": "every text and address", "why_tests_cant": "The accepted language (regex search plus inet_aton) contains surprising texts that a test has to guess.", "anchors": ["pytcp/lib/ip4_address.py: Ip4Address.__init__, IP4_REGEX"]}
{"id": "C95", "title": "Networks and hosts as text", "statement": "\"address/length\" is accepted exactly for an accepted address and a decimal length of at most 32 (IPv6: 128), and yields the network of that many leading bits (for a host: also the address); what is printed is read back; a refused text raises the format error of its own class.", "quantifier": "every text, address and prefix length", "why_tests_cant": "Unbounded texts; the wrong acceptances (signs, blanks, newlines) and exception classes lie outside the usual test vectors.", "anchors": ["pytcp/lib/ip4_address.py: Ip4Network, Ip4Host, Ip4Mask", "pytcp/lib/ip6_address.py: Ip6Network, Ip6Host, Ip6Mask", "pytcp/lib/ip_address.py: IpNetwork.__str__, IpHost.__str__"]}
{"id": "C96", "title": "Configuration from text", "statement": "TcpIpStack given texts that describe a MAC address, an IPv4 host and an IPv6 host (each may be left out; a host is \"address/length\" with an optional gateway text) configures exactly those; whatever the texts, a configuration that is accepted consists of addresses in range, in the network of a prefix length, with a gateway exactly if one was given and then a usable one. When start() returns, the IPv4 addresses are the configured ones or, if there are none, the one DHCP obtained, and IPv4 stays enabled exactly if there is one.", "quantifier": "every combination of texts, every schedule of received frames, every DHCP outcome", "why_tests_cant": "Unbounded texts and interleavings; a wrong gateway or a lost candidate shows only for particular values.", "anchors": ["pytcp/__init__.py: TcpIpStack.__init__, start", "pytcp/subsystems/packet_handler.py: assign_ip4_address, assign_ip6_address, acquire_ip4_addresses"]}
{"id": "C97", "title": "The IPv6 addresses a start acquires", "statement": "When acquire_ip6_addresses returns, the addresses claimed are, in order and each exactly if duplicate address detection let it pass: the link-local candidates, the link-local address formed from the MAC address if asked for, and then, unless there is no address so far (in which case IPv6 is disabled), the other candidates and, if asked for, one address for each prefix of the last router advertisement handled before the end of the wait, with the router as its gateway; the IPv4 configuration is untouched.", "quantifier": "every candidate list, both autoconfiguration switches, every schedule of received frames", "why_tests_cant": "All interleavings of the acquisition with the receive thread, all contents of advertisements.", "anchors": ["pytcp/subsystems/packet_handler.py: acquire_ip6_addresses, _create_stack_ip6_addressing", "pytcp/protocols/icmp6/phrx.py: router advertisement"]}
{"id": "C98", "title": "A refused configuration changes nothing", "statement": "When TcpIpStack raises because a text is refused, the configuration is what it was.", "quantifier": "every combination of texts", "why_tests_cant": "Tests of the constructor look at the exception, not at the module-level state it leaves behind.", "anchors": ["pytcp/__init__.py: TcpIpStack.__init__"]}
{"id": "C99", "title": "The receive statistics add up and mean what they say", "statement": "Counting does not change what the receive handlers do. After any number of handled frames the counters of PacketStatsRx satisfy the conservation laws: every frame is counted once, every ARP packet, UDP datagram and TCP segment has exactly one outcome, a request answered is a request whose sender was learnt, IP packets passed on are those taken less fragments plus reassembled ones. The counters that name an action (respond, forward to socket, update cache, ...) move exactly if that action is what the stack does about the frame. The other counters (parse failures, unknown destinations, kinds of destination, messages seen, fragments, ...) move exactly if what they name is true of the frame and the state.", "quantifier": "every frame, every state of the stack, every sequence of frames", "why_tests_cant": "The tests compare the counters of chosen frames; that no combination of addresses, sockets and fragments is counted twice, not at all or under the wrong name is a statement about all frames.", "anchors": ["pytcp/lib/packet_stats.py: PacketStatsRx", "pytcp/protocols/*/phrx.py: packet_stats_rx increments"]}
{"id": "C100", "title": "Every handled frame leaves its outcome in the statistics", "statement": "A frame that the receive path handles without an exception increments at least one counter that says what became of it: an action, a drop, or putting aside for reassembly.", "quantifier": "every frame and state", "why_tests_cant": "The frames without an outcome are the ones nobody wrote a handler for.", "anchors": ["pytcp/protocols/ether/phrx.py: _phrx_ether", "pytcp/protocols/arp/phrx.py", "pytcp/protocols/ip4/phrx.py", "pytcp/protocols/ip6/phrx.py", "pytcp/protocols/icmp4/phrx.py", "pytcp/protocols/icmp6/phrx.py"]}
{"id": "C101", "title": "The transmit statistics add up", "statement": "Counting does not change what the transmit handlers do. After any sequence of transmit requests that all returned a status the counters of PacketStatsTx satisfy the conservation laws: every frame given to Ethernet has one source and one outcome, what Ethernet gets is what ARP, IPv4 and IPv6 say they sent, every ARP and IP packet has one outcome, a packet that is cut makes at least two pieces, what IP gets is what UDP, TCP, ICMP and the cutting say they sent, and the counters for unknown ICMP messages and unused TCP flags never move.", "quantifier": "every sequence of requests, every state of the stack", "why_tests_cant": "The tests compare the counters of chosen packets; that no combination of addresses, cache state and sizes is counted twice or not at all is a statement about all of them.", "anchors": ["pytcp/lib/packet_stats.py: PacketStatsTx", "pytcp/protocols/*/phtx.py: packet_stats_tx increments"]}
{"id": "C102", "title": "The transmit statistics mean what they say", "statement": "The counters that say a frame was sent are, for one request, as many as the frames handed to the transmit ring and in their order, and each tells truly how the frame's destination was found (multicast, broadcast, gateway, local network, given). After success no drop counter has moved; after any other returned status the counter for that status has. The source counters say what was wrong with the source address and what replaced it. Messages, TCP flags and options are counted exactly as asked for.", "quantifier": "every request and every state of the stack", "why_tests_cant": "A counter under the wrong name shows only in the configurations and cache states nobody tried.", "anchors": ["pytcp/protocols/ether/phtx.py: _phtx_ether", "pytcp/protocols/ip4/phtx.py: _validate_src_ip4_address, _phtx_ip4", "pytcp/protocols/ip6/phtx.py: _validate_src_ip6_address, _phtx_ip6", "pytcp/protocols/ip6_ext_frag/phtx.py", "pytcp/protocols/tcp/phtx.py", "pytcp/protocols/udp/phtx.py", "pytcp/protocols/icmp4/phtx.py", "pytcp/protocols/icmp6/phtx.py"]}
{"id": "C103", "title": "Trackers identify packets", "statement": "A packet's serial shows, in four upper-case hexadecimal digits behind RX or TX, how many packets of its kind came before it modulo 65536; two packets with the same serial are of the same kind and a multiple of 65536 of that kind apart, whichever threads created them; the printed form of a tracker determines the serial of the packet, of the packet it answers, and so on.", "quantifier": "every sequence of packets, every starting value of the counters, every chain of answers, every interleaving of the threads that create trackers", "why_tests_cant": "The wrap-around comes after 65536 packets and the races between threads need a particular schedule.", "anchors": ["pytcp/lib/tracker.py: Tracker.__init__, __str__"]}
{"id": "C104", "title": "Stopping stops", "statement": "After stop and until the next start, the thread of a subsystem finishes at most the round it is in and then ends; an ended thread never works again; a started thread performs a round each time it is scheduled around its loop; and starts and stops in turn leave at most one thread of a subsystem alive.", "quantifier": "every schedule of the threads and every sequence of starts and stops", "why_tests_cant": "Whether the old thread sees the flag before the next start depends on the schedule.", "anchors": ["pytcp/subsystems/rx_ring.py: start, stop, __thread_receive", "pytcp/subsystems/tx_ring.py: start, stop, __thread_transmit", "pytcp/subsystems/timer.py: start, stop, __thread_timer", "pytcp/subsystems/arp_cache.py: start, stop", "pytcp/subsystems/nd_cache.py: start, stop", "pytcp/subsystems/packet_handler.py: start, stop, __thread_packet_handler"]}
{"id": "C105", "title": "Equality, hashes and copies of addresses, masks, networks and hosts", "statement": "Two such objects are equal exactly if they are of one class and IP version and have one value (hosts: one address and one mask); equal objects have equal hashes; an object constructed from another is the same as it, gateway included.", "quantifier": "all addresses, masks, networks and hosts that the constructors make", "why_tests_cant": "Equality is that of printed texts, so it depends on the printing being injective on 2^128 addresses; the hash contract fails only for hosts no test constructs.", "anchors": ["pytcp/lib/ip_address.py: __eq__, __hash__, __repr__ of IpAddress, IpMask, IpNetwork, IpHost", "pytcp/lib/mac_address.py: MacAddress.__eq__, __hash__", "pytcp/lib/ip4_address.py: Ip4Host.__init__, Ip4Network.__init__", "pytcp/lib/ip6_address.py: Ip6Host.__init__, Ip6Network.__init__"]}
{"id": "C106", "title": "TCP bind(), connect() and listen(): results and registrations", "statement": "bind(), connect() and listen() on a TCP socket answer with the error the arguments and the socket table call for (22 already bound, 99 not our address, 98 port taken or none free, overflow for a port out of range, address-info error for unreadable or unusable addresses, refused for an unspecified peer) and then change nothing; without an error the socket has exactly the endpoints asked for or picked, is registered under them and no longer under the old ones, connect() and listen() have made it a session in SYN_SENT resp. LISTEN with those endpoints, other sockets and sessions are untouched, and every other socket keeps its registration.", "quantifier": "every history of socket calls, segments and timer ticks; every address and port; every choice of the port picker", "why_tests_cant": "The table is reached by arbitrary sequences of calls and incoming connections; the registrations that get lost are those of sockets with coinciding endpoints.", "anchors": ["pytcp/protocols/tcp/socket.py: bind, connect, listen", "pytcp/lib/socket.py: _set_ip_addresses, _pick_local_port, _is_address_in_use"]}
{"id": "C107", "title": "The UDP echo service answers every datagram, once, in order", "statement": "The example echo service, running on a datagram socket of the stack, answers the datagrams that arrive at its socket in order and each once, with their own bytes (or the picture they name) to the address and port they came from; the answer comes from the address that was asked; no datagram ends the service; after stop() at most one more is answered.", "quantifier": "every sequence of received frames, calls on other sockets and address changes, interleaved in any way with the steps of the service; every message", "why_tests_cant": "Arbitrary traffic and interleavings; the datagrams that end the service depend on routes and on how many packets were fragmented before.", "anchors": ["examples/udp_echo_service.py: UdpEchoService.service", "examples/lib/udp_service.py: UdpService", "examples/lib/malpi.py", "pytcp/protocols/udp/socket.py: recvfrom, sendto"]}
{"id": "C108", "title": "The TCP echo service answers every message, in order, and lets its client go", "statement": "The example TCP echo service sends its greeting and then one answer for every message it reads, in the order of the messages: the message itself (or the picture it names), or the announcement that it closes when the message is quit, close, bye or exit, or when the client has gone. What it answers are the bytes the client sent, in order. It tells the client it has gone only when it has; no client ends the thread with an exception; nothing is sent after the announcement; when both sides have closed the thread ends; after stop() at most one more message is read.", "quantifier": "every history of segments and milliseconds on an accepted connection, interleaved in any way with the steps of the service thread; every message", "why_tests_cant": "The failures need a segment in the middle of a recv(), a message after quit, or a thread that never returns.", "anchors": ["examples/tcp_echo_service.py: TcpEchoService.service", "examples/lib/tcp_service.py: TcpService", "pytcp/protocols/tcp/socket.py: recv, send, close", "pytcp/protocols/tcp/session.py: send, receive, close"]}
{"id": "C109", "title": "send() and close() of a TCP socket answer as their state demands", "statement": "send() takes all of the data, behind what is already waiting, and returns its length when the connection takes data; it raises OSError when the socket has no peer and BrokenPipeError otherwise, and then changes nothing. close() ends a listening or connecting session at once and takes its socket out of the table, marks an established one for closing, and does nothing to one that is closing already; it touches no other session or socket and raises nothing.", "quantifier": "every history of calls, segments and ticks on any number of TCP sockets, every socket, every data", "why_tests_cant": "Sockets that share endpoints and closes of sockets that were never opened come up only among many histories.", "anchors": ["pytcp/protocols/tcp/socket.py: send, close", "pytcp/protocols/tcp/session.py: send, close, tcp_fsm, _change_state"]}
{"id": "C110", "title": "The TCP daytime service sends the time, line by line, as often as asked", "statement": "The connection thread of the TCP daytime example writes its greeting and then lines with the times the clock showed, in order and not more of them than message_count if that is not negative; the segments sent carry just that; it reads nothing; it closes the connection after stop(), after the last line or when the connection takes no more data, and for no other reason; after stop() at most the message being sent is still written; it ends without an exception, and it comes to an end when the client has closed.", "quantifier": "every connection handed over by accept(), every message_count, every interleaving of the steps of the thread, stop(), milliseconds and segments, every text of the clock", "why_tests_cant": "Resets, half-closes and stop() hit the thread between any two of its steps; tests try a few.", "anchors": ["examples/tcp_daytime_service.py: TcpDaytimeService.service", "examples/lib/tcp_service.py: __thread_connection, stop", "pytcp/protocols/tcp/session.py: send, close, tcp_fsm"]}
{"id": "C111", "title": "Duplicate address probes and router solicitations leave as the RFCs say", "statement": "A probe for an IPv6 address sends a neighbour solicitation for that address, without options, with hop limit 255, from the unspecified address, to the solicited-node group and its link-layer address. A router solicitation leaves from the first address of the stack to all routers, with hop limit 255 and the stack's link-layer address in it.", "quantifier": "every address probed, every state of the stack with IPv6 on, every frame received meanwhile", "why_tests_cant": "What is filled in as the source depends on the addresses, networks and gateways configured so far.", "anchors": ["pytcp/subsystems/packet_handler.py: _perform_ip6_nd_dad, _send_icmp6_nd_dad_message, _send_icmp6_nd_router_solicitation", "pytcp/protocols/ip6/phtx.py: _validate_src_ip6_address", "pytcp/protocols/icmp6/phtx.py: _phtx_icmp6"]}
{"id": "C112", "title": "The TCP discard service says nothing about data and closes when the client goes", "statement": "The example TCP discard service sends its greeting and after that nothing about the data it reads; it announces that it closes, and closes, when the client has gone or its message is quit, close, bye or exit; what it reads are the bytes the client sent, in order, and the segments carry just what it wrote. A stopped service closes the connection and reads at most one more message. No client ends the thread with an exception, and when both sides have closed the thread ends.", "quantifier": "every history of segments and milliseconds on an accepted connection, interleaved in any way with stop() and the steps of the service thread; every message", "why_tests_cant": "The failures need a second quit on a closed connection or a thread that never returns, in one of unboundedly many interleavings.", "anchors": ["examples/tcp_discard_service.py: TcpDiscardService.service", "examples/lib/tcp_service.py: TcpService", "pytcp/protocols/tcp/socket.py: recv, send, close", "pytcp/protocols/tcp/session.py: send, receive, close"]}
{"id": "C113", "title": "The UDP daytime service tells the time once per datagram; the UDP discard service says nothing", "statement": "The example UDP daytime service answers every datagram that arrives at its socket once, in the order of arrival, with what the clock says at the time of the answer, to the address and port the datagram came from; what it sends leaves from its own port. The UDP discard service takes the datagrams in order and sends nothing. After stop() at most one more datagram is answered. No datagram ends either service.", "quantifier": "every sequence of frames, calls on other sockets, stop() and thread steps; every text of the clock", "why_tests_cant": "Arbitrary frames and calls interleave with the thread; the datagram that ends the daytime service needs a sender the stack has no route to.", "anchors": ["examples/udp_daytime_service.py: UdpDaytimeService.service", "examples/udp_discard_service.py: UdpDiscardService.service", "examples/lib/udp_service.py: UdpService", "pytcp/protocols/udp/socket.py: recvfrom, sendto"]}
{"id": "C114", "title": "The TCP echo client sends the messages asked for and stops when told", "statement": "The example TCP echo client writes whole messages of the size asked for and nothing else: a start mark, the numbered blocks, an end mark, 20 bytes each. It writes no more messages than asked for, and when it closes the connection it has written just as many, unless it has reported a send() error; asked for a negative number it goes on until a send() fails. A send() on an open connection is followed by the next round, on another by close(). After stop() at most one more message is sent.", "quantifier": "every number and size of messages; every history of segments and milliseconds on a connection, interleaved in any way with stop() and the steps of the client thread", "why_tests_cant": "Counts and sizes are unbounded, and a connection can be lost between any two steps; a client that ignores stop() looks right in any run that ends by itself.", "anchors": ["examples/tcp_echo_client.py: TcpEchoClient.__thread_client", "examples/tcp_echo_client.py: TcpEchoClient.stop", "pytcp/protocols/tcp/socket.py: send, close"]}
