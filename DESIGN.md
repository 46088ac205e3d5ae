# Formal model of PyTCP in Rocq (Coq 8.16.1)

## Approach

The Python sources in /repo/pytcp are read as text and transcribed, function by
function, into total computable Gallina functions. Bytes are `Z` values in
0..255, frames are `list Z`, Python integers are `Z`. Exceptions are values
(`Exn IndexError`, `Exn StructError`, `Exn AssertionError`, ...). Loops without
an obvious bound carry fuel and return `Exn OutOfFuel`, which every theorem
excludes or talks about explicitly.

Layout of `rocq/theories`:

* `Base*.v`, `*Model*.v`: the model. No proofs. Each definition cites file and lines.
* `Spec*.v`: small independent specifications (RFC texts, stream/queue/map specs).
* `*Proofs*.v`: lemmas.
* `Prop*.v`: the property theorems only, each closed by `exact`, followed by
  `Print Assumptions`, with an `Example` showing that the hypotheses are met.

A property that is false of the faithful model is settled by a theorem named
`..._refuted` with a concrete witness, and the strongest true part is proved as
`..._partial`.

## Plan per property

* **C01** Checksum verification is exact. Model inet_cksum branch by branch (20-byte path, 64-bit path, tail, folds). Spec: RFC 1071 sum over 16-bit words, independent recursion. Proof: value congruence mod 65535 and fold bounds.
* **C02** Checksum generation equals RFC 1071. Same model. Expected false (third fold may be 0x1FFFF). Prove refutation with witness, and the exact characterisation: equal to RFC 1071 unless that value is 0xFFFE.
* **C03** IPv4 header checksum is always right for option-less headers. Same model restricted to length 20, direct bound on the folds.
* **C04** A single corrupted byte is always detected. Corollary of C01: changing one byte changes the sum by d*256^k with 0<|d|<256, never a multiple of 65535.
* **C05** MAC address value round trips. Model the constructor (int/bytes/text) and printer over Coq strings.
* **C06** MAC address classes are disjoint and exhaustive. Model the range tests; expected partition true, group-bit claim false (refute).
* **C07** IPv4 address classes are disjoint and exhaustive. Predicates on Z with land; lift to interval form with lemmas; partition by lia.
* **C08** IPv4 address classes match the documented ranges. As C07 against intervals; is_reserved expected false (refute + partial for the others).
* **C09** IPv6 address classes match their prefixes and are disjoint. As C07/C08 for 128-bit values.
* **C10** Network masks are exactly the contiguous prefixes. Model _validate_bits on the printed bit string and the /n constructor.
* **C11** Network membership is prefix equality. Interval test vs land-with-mask equality; lemmas on masks 2^32-2^k.
* **C12** A host's gateway is always usable. State machine host x setter; invariant over assignment lists.
* **C13** EUI-64 autoconfiguration is injective and on-prefix. Bit algebra on eui64; injectivity.
* **C14** Multicast address mapping is right. Bit algebra; links to MAC classes of C06.
* **C15** Ethernet frame round trip. Codec model as byte lists; explicit exceptions; round trip and totality.
* **C16** ARP packet round trip. Codec model.
* **C17** IPv4 packet round trip. Codec model incl. options, padding.
* **C18** IPv4 parser never raises. Expected false (optr+1>hlen): refutation witness; partial theorem for option-less packets or padded frames.
* **C19** IPv4 acceptance is sound. Acceptance implies conditions; TTL clause expected false (ver==0 test): refute, prove the rest.
* **C20** IPv6 packet round trip. Codec; DSCP expected false; partial for dscp=0.
* **C21** IPv6 parser never raises and is sound. Codec totality/soundness.
* **C22** IPv6 fragment header round trip. Codec.
* **C23** UDP datagram round trip. Codec + C02 side condition.
* **C24** UDP acceptance is exact and total. Exact acceptance theorem.
* **C25** UDP datagrams without checksum are accepted over IPv4. Expected false both halves: refutations.
* **C26** TCP segment round trip. Codec with options.
* **C27** TCP parser never raises. Expected false (frame[12] on short segments, option tail): refutations, partial theorem.
* **C28** TCP acceptance is sound. Acceptance soundness.
* **C29** ICMPv4 round trip and totality. Codec.
* **C30** ICMPv6 round trip. Codec per message type; RS options and PI flags, MLDv2 records expected false for some.
* **C31** ICMPv6 parser never raises and always terminates. Expected false (off by one, PI mask, RS offset 8/12 loop): refutations + partial.
* **C32** DHCP message round trip. Codec of the option walk.
* **C33** DHCP parsing terminates. Expected false (PAD): fuel-indexed model, out of fuel for every fuel.
* **C34** Transmitted bytes never depend on earlier frames. Model assemble as writes into a buffer with arbitrary previous contents; show the result equals the pure encoding.
* **C35** IPv4 fragmentation is well formed. Model of the slicing loop; induction on the payload.
* **C36** IPv4 reassembly restores the datagram in any order. Model of the flow table; invariant: table is the set of received fragments; permutation theorem.
* **C37** Hostile fragments never raise. Expected false (overlap): refutation; partial: non-overlapping fragments of a datagram below 65536 never raise.
* **C38** Stale fragments are discarded. Expected false (sign of the age test): theorem that nothing is ever discarded; refutation.
* **C39** IPv6 fragmentation and reassembly are inverse. As C35/C36 for IPv6.
* **C40** Packet ids of concurrent datagrams never collide and sending never runs out of ids. Id counter model; expected false at 65536; uniqueness below.
* **C41** IPv4 packets leave only from owned source addresses. Function model of validation; theorem by cases.
* **C42** IPv6 packets leave only from owned source addresses. Same for IPv6.
* **C43** Next-hop selection is right. Function model of _phtx_ether with caches.
* **C44** Send status is truthful. Layered TX model; theorem by composition.
* **C45** Traffic for others has no effect. Layered RX model.
* **C46** A received frame never kills the receive thread. Expected false through C27/C31 etc.; partial per protocol.
* **C47** ARP requests for our address are answered exactly. ARP handler model.
* **C48** Duplicate IPv4 addresses are never claimed. Trace model of probing with the handler as environment.
* **C49** Duplicate IPv6 addresses: the verdict concerns the address being probed. Semaphore model; expected false (left-over count).
* **C50** Multicast filters follow the assigned addresses. Multiset invariant over operations.
* **C51** Neighbour solicitations for our address are answered exactly. Handler model.
* **C52** Neighbour and ARP caches return the latest live binding. Cache state machine over a clock.
* **C53** Echo requests are answered with the same id, sequence and data. Handler + codec: byte-level request to reply.
* **C54** Port unreachable goes only where it should. Handler model; multicast/broadcast part expected false.
* **C55** ICMP unreachable reaches only the socket that sent the datagram. Handler model over socket table.
* **C56** No two sockets own overlapping local endpoints. API state machine over a socket table; invariant. Reuse after close expected to break it.
* **C57** Automatic ports are free ephemeral ports. Model of the port pick.
* **C58** Datagrams go to the most specific socket and only to it. Pattern lookup model.
* **C59** Datagram sockets deliver in order, once, unmodified. Queue refinement.
* **C60** Closing a socket affects only that socket. Expected false (double close): refutation; partial for single close.
* **C61** TCP segments go to the right session. Handler model; ack overflow expected to raise.
* **C62** Resets are never answered with resets. Expected false: refutation; partial for segments that match a session in most states.
* **C63** TCP receive stream is the peer's stream. Full FSM model; ghost peer stream; invariant over all operations.
* **C64** TCP end of stream is reported only after all data. Receive split in two atomic steps; expected false race; partial for CLOSE_WAIT.
* **C65** TCP transmit stream is the application's stream. Ghost application stream; invariant.
* **C66** TCP never transmits beyond the peer's window. Invariant plus per-segment obligation. The window is scaled by the shift the peer announces although this end never offers scaling (`C66_scale_refuted`).
* **C67** TCP send variables stay ordered. Invariant. Acknowledgements of anything ever sent are taken, also while it is sent anew (`C67_taken`).
* **C68** TCP state changes follow the RFC 793 diagram. Case analysis over handlers.
* **C69** TCP gives up after a bounded number of retransmissions. Counter invariant; duplicate-ACK schedules expected to break equality test.
* **C70** TCP acknowledges received data promptly. Tick-counting argument on the delayed-ACK timer.
* **C71** TCP timer processing never raises. Expected false (shrinking window): refutation and partial.
* **C72** TCP sequence numbers wrap. Expected false: refutation; partial below 2^32.
* **C73** TCP resumes when the peer reopens its window. Expected false: refutation.
* **C74** TCP listening socket forks one session per handshake. Model of the socket table, the socket objects and all sessions; invariant over every history of calls, segments and ticks; accept as two steps. The SYN+ACK clause is false for an ACK of the unsent initial sequence number.
* **C75** TCP TIME-WAIT lasts exactly the configured time. Timer countdown.
* **C76** Named timers expire after exactly their timeout. Timer model; n=0 expected to break.
* **C77** Periodic tasks run the promised number of times. Task model.
* **C78** Timer registrations are never lost. Small-step interleaving model of the rebuild; expected false.
* **C79** Rings are lossless FIFOs. Queue model.
* **C80** DHCP accepts only answers to its own request. Expected false: no xid check.
* **C81** DHCP configuration is what the server sent. Client function model over the parsed messages.
* **C82** The local address picked for a remote address. Function model of pick_local_ip4/6 against a recursive specification.
* **C83** MSS and window scale read from the options of a segment. Accessor functions against "first option of the kind".
* **C84** Addresses and prefixes read from neighbour discovery options. As C83.
* **C85** TCP readers learn that the peer closed. Semaphore invariant over interleaved reads; false in general, refuted twice, proved for a single read at the end of the stream.
* **C86** Every segment a TCP session emits carries the connection's ports, its own sequence numbering, the current acknowledgement number, one window, and the MSS option on SYNs only. Trace of the segments over `steps`; proved.
* **C87** A valid reset tears the connection down and an invalid one does nothing. False in general, refuted three times (ESTABLISHED needs RST+ACK, CLOSE_WAIT ignores resets, a blocked reader is not woken); proved where the code does handle it, and that out-of-window resets change nothing.
* **C88** TCP reassembly. Induction over the queue for what one segment in order delivers; invariant over arbitrary arrival orders. False in general (older acknowledgement numbers, overlaps), refuted twice.
* **C89** End of a TCP connection. Invariants over the session steps: a FIN is in what was sent exactly when `snd_fin` is set, everything written is acknowledged in the closing states, `snd_nxt` stands after the FIN. False in the millisecond before the FIN is sent (FIN_WAIT_1 and LAST_ACK are left, no FIN is ever sent) and in CLOSING (no retransmission), each refuted.
* **C90** How connect() ends. Invariant over histories that splits them into "still dialling", "closed", "refused", "given up" and "answered"; liveness by induction over the ticks with the state of the retransmission timer. False for a segment that acknowledges the initial sequence number before the SYN is sent, for close() during connect() and for a SYN+ACK numbered 2^32-1, each refuted.
* **C91** send() and sendto() of a datagram socket. Case analysis of the calls on top of C44; added after the mutation tests showed that nothing else spoke about their results.
* **C92** Text of addresses and socket identifiers. Printer (inet_ntop) and parser (inet_pton behind a regex search) composed: the printed text is shown to be one of the forms of the grammar with the right meaning, then read back with C93. Injectivity of identifiers by uniqueness of the split at "/". This discharges the former assumption that `str(socket)` is injective.
* **C93** IPv6 text against RFC 4291, a grammar given as relations (SpecIpText). Soundness and completeness of the inet_pton loop by induction over the text; the regex as a language (IpText1) with counting arguments for which grammar forms the search can match. Exact up to one refused form.
* **C94** IPv4 text. Completeness for four decimal octets; the converse only for texts of digits and dots without leading zeros, refuted in general.
* **C95** Networks and hosts as text, on top of C93/C94 and the mask lemmas of C08. Which
  texts `int()` reads is its own grammar (SpecIntText).
* **C96** The constructor of the stack on top of C92-C95 and the gateway setters, in both
  directions (what the grammar describes is accepted; what is accepted is sound), and start()
  as IPv6 acquisition followed by IPv4 acquisition. The DHCP client is any computation that
  leaves the address lists alone.
* **C97** IPv6 acquisition as a whole: each claim contributes an entry (host, outcome,
  frames handled meanwhile); entries compose, and a second invariant follows the prefixes of
  the last router advertisement. Stated for the runs that return.
* **C98** Refuted by an IPv6 text refused after the MAC address and the IPv4 candidate were
  set; what stays unchanged is proved.
* **C99** The receive handlers written again with their increments, erased to the handlers
  of StackRxModel; the conservation laws hold for the increments of each handler with a
  credit for the packets passed to it, and add up over frames. The action counters are
  compared with the reactions of SpecReact, the others with what arrived (`means`), in both
  directions.
* **C100** Refuted; the frames that leave no outcome are listed exactly.
* **C101** The transmit handlers written again with their increments, erased to those of
  StackModel; laws per handler with a debit for packets taken from above.
* **C102** A triple over counters, new frames and result (StatTxFrames.runs), used for the
  frame counters, the returned status, the source counters and the transport counters.
* **C103** The hexadecimal digits of a number below 65536 by four divisions, the counter by
  induction over the packets, the printed chain by splitting at the first blank. The threads
  that make TX trackers are four or five steps each; two of them can take one number, and a
  number can get five digits.
* **C104** A thread owes at most the round it is in; two turns lead to its end. Nobody joins
  a thread, so a start soon after a stop revives the old one beside the new.
* **C105** The texts are injective (C92, C95), so comparing them compares values. The hash of
  a host mixes in its network, which == does not look at; CPython's reduction of large hash
  values (`py_hash`) is transcribed. A copied host loses its gateway.
* **C106** The calls of TcpApiModel case by case; the port and address tests of SpecTcpReg are
  related to the table by UdpApiProofs' port lemmas. `keyed` (C68-C73) gives that a registered
  socket is under its own endpoints.
* **C107** EchoModel runs the loop of the example service as a thread over the histories of
  UdpApiModel. The queue lemma of C59 gives order and once-only; the words are characterised
  without strip() and lower(). Expected false: one datagram from an off-link sender on a stack
  without gateway ends the thread (GaiError of sendto is not caught), and with two addresses in
  one network the answer leaves from the first. Runs (EchoRunProofs): what a frame can put into
  the queue (RxSockProofs) and the table invariant of C52 show that every datagram taken can be
  answered, which leaves two reasons for ending; bound to one address, every answer reverses the
  datagram's endpoints.
* **C108** EchoTcpModel runs the service of the example as the reading thread of one accepted
  connection of SessModel, each step of recv() being a step of its own. Proved: what it has
  written is the greeting and one answer per message read, in order (C108_replies); the messages
  are the client's stream and the segments carry the answers (C108_stream); the only exception
  that ends it is the BrokenPipeError of a send() (C108_ends); after stop() at most one recv()
  returns (C108_stop); close() follows exactly when the client has gone or takes leave
  (C108_closes); it returns only after stop() or an empty recv() (C108_returns). Refuted: it takes a client for gone whose second message arrives in the
  middle of a recv() (polite; it holds when nothing arrives in the middle of one,
  C108_polite_partial); a message after "quit" ends the thread with an exception (alive) or
  is still answered (last); after "quit" and the closing of both sides the thread waits for ever
  in recv() (leaves).
* **C109** The two calls of TcpApiModel case by case. A socket with a peer has a session in every
  history, so the assertion of send() never fails. Refuted for close(): a socket that was never
  opened fails the assertion, and the second of two listening sockets with the same endpoints
  raises KeyError; these are the only exceptions (C109_quiet_partial).
* **C110** DaytimeModel runs the daytime service of the examples in the same way; the step that
  reads the clock brings the text. Proved: what it says, how many lines, why it closes
  (C110_says), what the segments carry (C110_stream), one round (C110_round), the only exception
  (C110_ends), stop() (C110_stop), close() (C110_closes). Refuted: a reset before the greeting
  ends the thread with BrokenPipeError and without close() (alive); with the default count -1 the
  lines go on for ever after the client has closed its side (leaves).
* **C111** The frame that a finished probe of C49 has put out (DadProofs follows the run of
  nd_dad). Refuted: the unspecified source is replaced like any other, so once an address has a
  gateway the probe leaves from that address, against RFC 4862. C111_probe_partial: the source is
  :: as long as no address has a gateway and no network has the group. C111_router: the router
  solicitation.
* **C112** DiscardModel runs the discard service in the same way, with the lemmas of C108 about
  single operations: what is written (C112_says), the streams (C112_stream), the only exception
  (C112_ends), stop() (C112_stop), close() (C112_closes), why it returns (C112_returns). Refuted: a second quit after the close
  ends the thread with an exception (C112_alive_refuted); a client that closes after quit leaves
  it waiting for ever (C112_leaves_refuted).
* **C113** UdpTimeModel runs the UDP daytime and discard services on the state of C107:
  C113_daytime, C113_discard (which datagrams are answered or dropped, in which order),
  C113_socket, C113_takes, C113_stop, C113_sent_partial (one answer on the wire; texts up to 1472
  bytes). Refuted: a sender the stack has no route to ends the daytime service.
* **C114** EchoClientModel runs the loop of the TCP echo client on a connection: what it has written
  (C114_sends, C114_length), a negative count (C114_endless), one round (C114_round), the end
  (C114_closes, C114_returns). Refuted: stop() does not end the loop (C114_stop_refuted).

## What is modelled

| Model file | Source (under pytcp/) |
|---|---|
| CksumModel | lib/ip_helper.py inet_cksum |
| AddrModel | lib/mac_address.py, lib/ip_address.py, lib/ip4_address.py, lib/ip6_address.py (values, classes, masks, networks, hosts; text only for MAC addresses) |
| EtherModel, Ip4Model, Ip6Model, UdpModel, TcpModel, Icmp4Model, Icmp6Model | protocols/*/fpp.py (parsers), fpa.py (assemblers), ps.py (constants), raw/fpa.py |
| DhcpModel | protocols/dhcp4/ps.py, client.py |
| FragModel | fragmentation in ip4/phtx.py, ip6_ext_frag/phtx.py; reassembly in ip4/phrx.py, ip6_ext_frag/phrx.py |
| RingModel | subsystems/rx_ring.py, tx_ring.py |
| StackModel | */phtx.py, the send_* methods of packet_handler.py, the look-ups of the caches, lib/ip_helper.py pick_local_ip* |
| StackRxModel | */phrx.py from a frame of the receive ring to sockets, caches and replies |
| StatRxModel | the packet_stats_rx increments in */phrx.py, lib/packet_stats.py PacketStatsRx |
| StatTxModel | the packet_stats_tx increments in */phtx.py, lib/packet_stats.py PacketStatsTx |
| EqModel | `__repr__`, `__eq__`, `__hash__` and copy constructors of lib/mac_address.py, lib/ip_address.py, ip4_address.py, ip6_address.py |
| TrackModel | lib/tracker.py |
| LifeModel | start, stop and the loop condition of the six subsystem threads |
| CacheModel | subsystems/arp_cache.py, nd_cache.py with their maintenance threads |
| TimerModel | subsystems/timer.py |
| UdpApiModel | lib/socket.py, protocols/udp/socket.py, pick_local_port |
| EchoModel | examples/udp_echo_service.py, examples/lib/udp_service.py, examples/lib/malpi.py (outside pytcp/) |
| EchoTcpModel | examples/tcp_echo_service.py and the connection thread of examples/lib/tcp_service.py (outside pytcp/) |
| DaytimeModel | examples/tcp_daytime_service.py, its connection thread (outside pytcp/) |
| DiscardModel | examples/tcp_discard_service.py, its connection thread (outside pytcp/) |
| UdpTimeModel | examples/udp_daytime_service.py and udp_discard_service.py, their threads (outside pytcp/) |
| EchoClientModel | examples/tcp_echo_client.py, its thread after connect() (outside pytcp/) |
| AcquireModel | address acquisition, DAD and multicast lists of packet_handler.py |
| SessModel | protocols/tcp/session.py |
| IpTextModel | the str forms in lib/ip_address.py, lib/ip4_address.py, lib/ip6_address.py, lib/socket.py `__str__` |
| StartModel | `pytcp/__init__.py` `TcpIpStack.__init__` and the address part of `start`, packet_handler.py `assign_ip4_address`, `assign_ip6_address`, `acquire_ip4_addresses` |
| SessCallModel | the end of connect() in protocols/tcp/session.py and socket.py |
| TcpApiModel | lib/socket.py, protocols/tcp/socket.py, the parts of session.py that touch other objects |

Simplifications, besides those stated at the definitions:

* **Not state**: trackers (on their own in TrackModel), log text; statistics only in StatRxModel and StatTxModel. Log calls are modelled only
  where evaluating their arguments can raise.
* **Memory**: Python ints and lists are unbounded and so are the model's; the recursion
  limit of Python is not modelled.
* **Threads**: a packet handler call, a socket call and a session call holding the FSM lock
  are atomic. Where a property is about races the critical statements are separate steps:
  both halves of UDP receive and delivery, the four steps of TCP receive, accept, close,
  the maintenance pass of the caches, the comprehension in the timer, the frames that can
  come in between the statements of address acquisition.
* **Text addresses** given to socket calls are `Some a`, or `None` when the constructor
  of the address class raises; which texts these are is IpTextModel (C92-C95). There the
  text is ASCII as far as `\d` and `int()` are concerned and numbers have no digit limit.
  `re.search` and the C functions inet_aton, inet_ntoa, inet_pton and inet_ntop are
  transcribed from CPython and the GNU C library and belong to the trusted base; the
  transcription was compared with Python's `re` and `socket` on 9000 random texts and
  addresses without a difference.
* **Socket table**: keys are tuples; the code uses `str(socket)`, an injective rendering of
  that tuple (C92_socket_identifier). The == of addresses is that of tuples (C92_address_equality). UDP histories treat TCP entries as arbitrary insertions and
  removals of stream keys and the other way round.
* **`set.pop()`** in the port picker is an arbitrary choice, given as an argument.
* **Time**: caches and reassembly use a clock argument in milliseconds resp. seconds that
  does not run backwards; acquisition timeouts are not clocked.
* **Sessions**: the timers of a session are the named timers with its prefix, so two live
  sessions with the same endpoints are not covered. A segment that the session sends is the
  packet given to the TCP assembler together with its assertions; it is not followed
  through the transmit path again. The wait in connect() is a
  separate step (SessCallModel), its two looks at the session are four.
* **Receive path**: a TCP segment is followed to `process_tcp_packet` of its socket
  (StackRxModel); what the session does then is SessModel/TcpApiModel. C74_delivery is the
  link between the two.
* **os.read / os.write** are the boundary: whole frames in, whole frames out.

Not modelled: lib/logger.py, lib/tx_status.py (an enumeration), the latency and `__repr__`
of trackers, opening the tap interface, the examples (except the
UDP echo, daytime and discard services, C107 and C113, and the TCP echo, daytime and discard services once they have accepted,
C108, C110 and C112, and the TCP echo client once connected, C114, all without their console output) and tests.

## Trusted base

* Coq's kernel, including `vm_compute` (coqchk rechecks those proofs without the VM).
* Axioms: none. Every `Print Assumptions` under a theorem in `Prop*.v` prints
  "Closed under the global context".
* The transcription from Python: read against the source, never executed.
* The specifications in `Spec*.v` and the English in `properties.jsonl`.
