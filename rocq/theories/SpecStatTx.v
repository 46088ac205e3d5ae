(** What the transmit statistics must add up to, and what the counters stand for.  Rules
    over requests, addresses and frames, independent of the handlers. *)
From Verif Require Import Base CodecModel AddrModel EtherModel Ip4Model Ip6Model UdpModel TcpModel
  Icmp4Model Icmp6Model FragModel RingModel StackModel StatTxModel.

Scheme Equality for txc.
(** how often a counter has been incremented *)
Definition tcnt (c : txc) (l : list txc) : Z := Z.of_nat (count_occ txc_eq_dec l c).

(** ** sums *)
(** The counters of requests that were all answered with a status.  [direct] is the number
    of those that gave a packet to IP themselves, past UDP, TCP and ICMP. *)
Definition tx_adds_up (direct : Z) (l : list txc) : Prop :=
  let k c := tcnt c l in
  (* Ethernet: every frame has one source and one outcome *)
  k ether__pre_assemble = k ether__src_unspec__fill + k ether__src_spec /\
  k ether__pre_assemble = k ether__dst_spec__send + k ether__dst_unspec__ip6_lookup
    + k ether__dst_unspec__ip4_lookup + k ether__dst_unspec__drop /\
  k ether__dst_unspec__ip6_lookup = k ether__dst_unspec__ip6_lookup__multicast__send
    + k ether__dst_unspec__ip6_lookup__extnet__no_gw__drop
    + k ether__dst_unspec__ip6_lookup__extnet__gw_nd_cache_hit__send
    + k ether__dst_unspec__ip6_lookup__extnet__gw_nd_cache_miss__drop
    + k ether__dst_unspec__ip6_lookup__locnet__nd_cache_hit__send
    + k ether__dst_unspec__ip6_lookup__locnet__nd_cache_miss__drop /\
  k ether__dst_unspec__ip4_lookup = k ether__dst_unspec__ip4_lookup__multicast__send
    + k ether__dst_unspec__ip4_lookup__limited_broadcast__send
    + k ether__dst_unspec__ip4_lookup__network_broadcast__send
    + k ether__dst_unspec__ip4_lookup__extnet__no_gw__drop
    + k ether__dst_unspec__ip4_lookup__extnet__gw_arp_cache_hit__send
    + k ether__dst_unspec__ip4_lookup__extnet__gw_arp_cache_miss__drop
    + k ether__dst_unspec__ip4_lookup__locnet__arp_cache_hit__send
    + k ether__dst_unspec__ip4_lookup__locnet__arp_cache_miss__drop /\
  (* what Ethernet gets is what ARP, IPv4 and IPv6 say they sent *)
  k ether__pre_assemble = k arp__op_request__send + k arp__op_reply__send + k ip4__mtu_ok__send
    + k ip4__mtu_exceed__frag__send + k ip6__mtu_ok__send /\
  k ether__src_unspec__fill >= k ether__dst_unspec__ip4_lookup + k ether__dst_unspec__ip6_lookup /\
  (* ARP and IP: every packet has one outcome *)
  k arp__pre_assemble = k arp__no_proto_support__drop + k arp__op_request__send + k arp__op_reply__send /\
  k ip4__pre_assemble = k ip4__no_proto_support__drop + k ip4__src_not_owned__drop + k ip4__src_multicast__drop
    + k ip4__src_limited_broadcast__drop + k ip4__src_unspecified__drop + k ip4__dst_unspecified__drop
    + k ip4__mtu_ok__send + k ip4__mtu_exceed__frag /\
  k ip6__pre_assemble = k ip6__no_proto_support__drop + k ip6__src_not_owned__drop + k ip6__src_multicast__drop
    + k ip6__src_unspecified__drop + k ip6__dst_unspecified__drop + k ip6__mtu_ok__send + k ip6__mtu_exceed__frag /\
  (* a packet that is cut makes two pieces at least *)
  2 * k ip4__mtu_exceed__frag <= k ip4__mtu_exceed__frag__send /\
  k ip6_ext_frag__pre_assemble = k ip6__mtu_exceed__frag /\
  2 * k ip6_ext_frag__pre_assemble <= k ip6_ext_frag__send /\
  (* what IP gets is what UDP, TCP, ICMP and the cutting of IPv6 packets say they sent *)
  k ip4__pre_assemble + k ip6__pre_assemble = direct + k udp__send + k tcp__send + k icmp4__pre_assemble
    + k icmp6__pre_assemble + k ip6_ext_frag__send /\
  k icmp4__pre_assemble = k icmp4__echo_reply__send + k icmp4__echo_request__send + k icmp4__unreachable_port__send /\
  k icmp6__pre_assemble = k icmp6__echo_reply__send + k icmp6__echo_request__send + k icmp6__unreachable_port__send
    + k icmp6__nd_router_solicitation__send + k icmp6__nd_router_advertisement__send
    + k icmp6__nd_neighbor_solicitation__send + k icmp6__nd_neighbor_advertisement__send + k icmp6__mld2_report__send /\
  k udp__pre_assemble = k udp__send + k udp__unknown__drop /\
  k tcp__pre_assemble = k tcp__send + k tcp__unknown__drop /\
  k tcp__opt_nop = k tcp__opt_wscale /\
  (* these never move *)
  k icmp4__unknown__drop = 0 /\ k icmp6__unknown__drop = 0 /\ k tcp__flag_ns = 0 /\ k tcp__flag_crw = 0 /\
  k tcp__flag_ece = 0 /\ k tcp__flag_urg = 0 /\ k tcp__flag_psh = 0.

(** a request that gives its packet to IP itself *)
Definition is_direct (q : request) : bool :=
  match q with QIp4 _ _ _ _ | QIp6 _ _ _ _ => true | _ => false end.
Definition returned {A} (r : res A) : Prop := match r with Ok _ => True | Exn _ => False end.

(** ** frames *)
(** the counters that say a frame was handed to the transmit ring *)
Definition says_sent (c : txc) : bool :=
  match c with
  | ether__dst_spec__send
  | ether__dst_unspec__ip6_lookup__multicast__send | ether__dst_unspec__ip6_lookup__extnet__gw_nd_cache_hit__send
  | ether__dst_unspec__ip6_lookup__locnet__nd_cache_hit__send
  | ether__dst_unspec__ip4_lookup__multicast__send | ether__dst_unspec__ip4_lookup__limited_broadcast__send
  | ether__dst_unspec__ip4_lookup__network_broadcast__send
  | ether__dst_unspec__ip4_lookup__extnet__gw_arp_cache_hit__send
  | ether__dst_unspec__ip4_lookup__locnet__arp_cache_hit__send => true
  | _ => false
  end.
(** source and destination of an IPv4 packet or fragment, of an IPv6 packet *)
Definition ends4 (f : oframe) : option (Z * Z) :=
  match f_pkt f with NIp4 t _ | NIp4Frag t _ => Some (t4_src t, t4_dst t) | _ => None end.
Definition ends6 (f : oframe) : option (Z * Z) :=
  match f_pkt f with NIp6 t _ => Some (t6_src t, t6_dst t) | _ => None end.
(** all addresses from the network's to its last *)
Definition within (w : net) (n : nat) (x : Z) : Prop :=
  n_addr w <= x <= n_addr w + Z.land (Z.lnot (n_mask w)) (2 ^ Z.of_nat n - 1).
Definition group4 (x : Z) : Prop := Z.land x 0xF0000000 = 0xE0000000.
Definition group6 (x : Z) : Prop := Z.land x (Z.shiftl 0xFF 120) = Z.shiftl 0xFF 120.
(** what a counter says about the frame *)
Definition tells (a : addrs) (c : txc) (f : oframe) : Prop :=
  match c with
  | ether__dst_spec__send => exists p, f_pkt f = NArp p
  | ether__dst_unspec__ip6_lookup__multicast__send =>
      exists s d, ends6 f = Some (s, d) /\ group6 d /\ f_dst f = 0x333300000000 + d mod 2 ^ 32
  | ether__dst_unspec__ip6_lookup__extnet__gw_nd_cache_hit__send =>
      exists s d h, ends6 f = Some (s, d) /\ ~ group6 d /\ In h (a_host6 a) /\ h_addr h = s /\
        ~ within (h_net h) 128 d /\ h_gw h <> None
  | ether__dst_unspec__ip6_lookup__locnet__nd_cache_hit__send =>
      exists s d, ends6 f = Some (s, d) /\ ~ group6 d /\
        forall h, In h (a_host6 a) -> h_addr h = s -> within (h_net h) 128 d
  | ether__dst_unspec__ip4_lookup__multicast__send =>
      exists s d, ends4 f = Some (s, d) /\ group4 d /\ f_dst f = 0x01005E000000 + d mod 2 ^ 23
  | ether__dst_unspec__ip4_lookup__limited_broadcast__send =>
      exists s, ends4 f = Some (s, 0xFFFFFFFF) /\ f_dst f = 0xFFFFFFFFFFFF
  | ether__dst_unspec__ip4_lookup__network_broadcast__send =>
      exists s d h, ends4 f = Some (s, d) /\ f_dst f = 0xFFFFFFFFFFFF /\ In h (a_host4 a) /\ h_addr h = s /\
        (d = n_addr (h_net h) \/ d = ip4_broadcast (h_net h))
  | ether__dst_unspec__ip4_lookup__extnet__gw_arp_cache_hit__send =>
      exists s d h, ends4 f = Some (s, d) /\ ~ group4 d /\ In h (a_host4 a) /\ h_addr h = s /\
        ~ within (h_net h) 32 d /\ h_gw h <> None
  | ether__dst_unspec__ip4_lookup__locnet__arp_cache_hit__send =>
      exists s d, ends4 f = Some (s, d) /\ ~ group4 d /\
        forall h, In h (a_host4 a) -> h_addr h = s -> within (h_net h) 32 d
  | _ => False
  end.

(** ** drops *)
Definition says_dropped (c : txc) : bool :=
  match c with
  | ether__dst_unspec__ip6_lookup__extnet__no_gw__drop | ether__dst_unspec__ip6_lookup__extnet__gw_nd_cache_miss__drop
  | ether__dst_unspec__ip6_lookup__locnet__nd_cache_miss__drop
  | ether__dst_unspec__ip4_lookup__extnet__no_gw__drop | ether__dst_unspec__ip4_lookup__extnet__gw_arp_cache_miss__drop
  | ether__dst_unspec__ip4_lookup__locnet__arp_cache_miss__drop | ether__dst_unspec__drop
  | arp__no_proto_support__drop
  | ip4__no_proto_support__drop | ip4__src_not_owned__drop | ip4__src_multicast__drop | ip4__src_limited_broadcast__drop
  | ip4__src_unspecified__drop | ip4__dst_unspecified__drop
  | ip6__no_proto_support__drop | ip6__src_not_owned__drop | ip6__src_multicast__drop | ip6__src_unspecified__drop
  | ip6__dst_unspecified__drop
  | icmp4__unknown__drop | icmp6__unknown__drop | tcp__unknown__drop | udp__unknown__drop => true
  | _ => false
  end.
(** The counter that goes with a status other than success.  A packet none of whose
    fragments got a status that _phtx_ip6_ext_frag knows had no source address to use. *)
Definition counter_of (st : tx_status) : option txc :=
  match st with
  | PassedToTxRing => None
  | EtherArpCacheFail => Some ether__dst_unspec__ip4_lookup__locnet__arp_cache_miss__drop
  | EtherNdCacheFail => Some ether__dst_unspec__ip6_lookup__locnet__nd_cache_miss__drop
  | EtherNoGatewayIp4 => Some ether__dst_unspec__ip4_lookup__extnet__no_gw__drop
  | EtherNoGatewayIp6 => Some ether__dst_unspec__ip6_lookup__extnet__no_gw__drop
  | EtherGatewayArpCacheFail => Some ether__dst_unspec__ip4_lookup__extnet__gw_arp_cache_miss__drop
  | EtherGatewayNdCacheFail => Some ether__dst_unspec__ip6_lookup__extnet__gw_nd_cache_miss__drop
  | EtherResolutionFail => Some ether__dst_unspec__drop
  | ArpNoSupport => Some arp__no_proto_support__drop
  | Ip4NoSupport => Some ip4__no_proto_support__drop
  | Ip4SrcNotOwned => Some ip4__src_not_owned__drop
  | Ip4SrcMulticast => Some ip4__src_multicast__drop
  | Ip4SrcLimitedBroadcast => Some ip4__src_limited_broadcast__drop
  | Ip4SrcUnspecified => Some ip4__src_unspecified__drop
  | Ip4DstUnspecified => Some ip4__dst_unspecified__drop
  | Ip4Unknown => None
  | Ip6NoSupport => Some ip6__no_proto_support__drop
  | Ip6SrcNotOwned => Some ip6__src_not_owned__drop
  | Ip6SrcMulticast => Some ip6__src_multicast__drop
  | Ip6SrcUnspecified => Some ip6__src_unspecified__drop
  | Ip6DstUnspecified => Some ip6__dst_unspecified__drop
  | Ip6FragUnknown => Some ip6__src_unspecified__drop
  | UdpUnknown => Some udp__unknown__drop
  | TcpUnknown => Some tcp__unknown__drop
  | Icmp4Unknown => Some icmp4__unknown__drop
  end.
(** the counters and the returned status tell the same *)
Definition agrees (st : tx_status) (l : list txc) : Prop :=
  match st with
  | PassedToTxRing => forall c, In c l -> says_dropped c = false
  | _ => exists c, counter_of st = Some c /\ In c l
  end.

(** ** source addresses *)
Definition about_source (c : txc) : bool :=
  match c with
  | ip4__src_not_owned__drop | ip4__src_multicast__replace | ip4__src_multicast__drop
  | ip4__src_limited_broadcast__replace | ip4__src_limited_broadcast__drop | ip4__src_network_broadcast__replace
  | ip4__src_network_unspecified__replace_local | ip4__src_network_unspecified__replace_external
  | ip4__src_unspecified__send | ip4__src_unspecified__drop
  | ip6__src_not_owned__drop | ip6__src_multicast__replace | ip6__src_multicast__drop
  | ip6__src_network_unspecified__replace_local | ip6__src_network_unspecified__replace_external
  | ip6__src_unspecified__send | ip6__src_unspecified__drop => true
  | _ => false
  end.
Definition from_dhcp (p : payload) : Prop := exists d, p = PUdp 68 67 d.
(** The counters for a packet from [src] to [dst]. *)
Inductive source4 (a : addrs) (src dst : Z) (p : payload) : list txc -> Prop :=
| s4_foreign : ~ In src (map h_addr (a_host4 a)) -> ~ In src (a_mcast4 a) ->
    (forall h, In h (a_host4 a) -> src <> ip4_broadcast (h_net h)) -> src <> 0xFFFFFFFF -> src <> 0 ->
    source4 a src dst p [ip4__src_not_owned__drop]
| s4_group : In src (a_mcast4 a) -> a_host4 a <> [] -> source4 a src dst p [ip4__src_multicast__replace]
| s4_group_none : In src (a_mcast4 a) -> a_host4 a = [] -> source4 a src dst p [ip4__src_multicast__drop]
| s4_all : ~ In src (a_mcast4 a) -> src = 0xFFFFFFFF -> a_host4 a <> [] ->
    source4 a src dst p [ip4__src_limited_broadcast__replace]
| s4_all_none : ~ In src (a_mcast4 a) -> src = 0xFFFFFFFF -> a_host4 a = [] ->
    source4 a src dst p [ip4__src_limited_broadcast__drop]
| s4_net h : ~ In src (a_mcast4 a) -> src <> 0xFFFFFFFF -> In h (a_host4 a) -> src = ip4_broadcast (h_net h) ->
    source4 a src dst p [ip4__src_network_broadcast__replace]
| s4_local h : ~ In src (a_mcast4 a) -> src = 0 -> In h (a_host4 a) -> within (h_net h) 32 dst ->
    source4 a src dst p [ip4__src_network_unspecified__replace_local]
| s4_external h : ~ In src (a_mcast4 a) -> src = 0 -> (forall h', In h' (a_host4 a) -> ~ within (h_net h') 32 dst) ->
    In h (a_host4 a) -> h_gw h <> None ->
    source4 a src dst p [ip4__src_network_unspecified__replace_external]
| s4_dhcp : ~ In src (a_mcast4 a) -> src = 0 -> (forall h', In h' (a_host4 a) -> ~ within (h_net h') 32 dst /\ h_gw h' = None) ->
    from_dhcp p -> source4 a src dst p [ip4__src_unspecified__send]
| s4_none : ~ In src (a_mcast4 a) -> src = 0 -> (forall h', In h' (a_host4 a) -> ~ within (h_net h') 32 dst /\ h_gw h' = None) ->
    ~ from_dhcp p -> source4 a src dst p [ip4__src_unspecified__drop]
| s4_own : ~ In src (a_mcast4 a) -> src <> 0 -> In src (map h_addr (a_host4 a)) ->
    (forall h, In h (a_host4 a) -> src <> ip4_broadcast (h_net h)) -> source4 a src dst p [].
(** duplicate address detection and multicast listener reports *)
Definition sourceless (p : payload) : Prop :=
  (exists t, p = PIcmp6 (T6Ns t [])) \/ (exists r, p = PIcmp6 (T6Mld2 r)).
Inductive source6 (a : addrs) (src dst : Z) (p : payload) : list txc -> Prop :=
| s6_foreign : ~ In src (map h_addr (a_host6 a)) -> ~ In src (a_mcast6 a) -> src <> 0 ->
    source6 a src dst p [ip6__src_not_owned__drop]
| s6_group : In src (a_mcast6 a) -> a_host6 a <> [] -> source6 a src dst p [ip6__src_multicast__replace]
| s6_group_none : In src (a_mcast6 a) -> a_host6 a = [] -> source6 a src dst p [ip6__src_multicast__drop]
| s6_local h : ~ In src (a_mcast6 a) -> src = 0 -> In h (a_host6 a) -> within (h_net h) 128 dst ->
    source6 a src dst p [ip6__src_network_unspecified__replace_local]
| s6_external h : ~ In src (a_mcast6 a) -> src = 0 -> (forall h', In h' (a_host6 a) -> ~ within (h_net h') 128 dst) ->
    In h (a_host6 a) -> h_gw h <> None ->
    source6 a src dst p [ip6__src_network_unspecified__replace_external]
| s6_dad : ~ In src (a_mcast6 a) -> src = 0 -> (forall h', In h' (a_host6 a) -> ~ within (h_net h') 128 dst /\ h_gw h' = None) ->
    sourceless p -> source6 a src dst p [ip6__src_unspecified__send]
| s6_none : ~ In src (a_mcast6 a) -> src = 0 -> (forall h', In h' (a_host6 a) -> ~ within (h_net h') 128 dst /\ h_gw h' = None) ->
    ~ sourceless p -> source6 a src dst p [ip6__src_unspecified__drop]
| s6_own : ~ In src (a_mcast6 a) -> src <> 0 -> In src (map h_addr (a_host6 a)) -> source6 a src dst p [].
(** the other IPv6 packets a request may give rise to: its fragments, and solicitations *)
Definition follows (p : payload) : Prop :=
  (exists n i x, p = PFrag6 n i x) \/ (exists t m, p = PIcmp6 (T6Ns t [TSlla m])).

(** ** transport *)
(** How often a request that returned has moved the counters that tell what it asked for:
    the message, the flags and the options; [None] for the other counters. *)
Definition bz (b : bool) : option Z := Some (if b then 1 else 0).
Definition same_family (s d : ipaddr) : bool := match s, d with A4 _, A4 _ | A6 _, A6 _ => true | _, _ => false end.
Definition nonzero (x : option Z) : bool := match x with Some v => negb (v =? 0) | None => false end.
Definition asked_for (a : addrs) (q : request) (c : txc) : option Z :=
  match c with
  | udp__pre_assemble => bz (match q with QUdp _ _ _ _ _ => true | _ => false end)
  | udp__send => bz (match q with QUdp s d _ _ _ => same_family s d | _ => false end)
  | udp__unknown__drop => bz (match q with QUdp s d _ _ _ => negb (same_family s d) | _ => false end)
  | tcp__pre_assemble => bz (match q with QTcp _ _ _ _ _ _ _ _ _ _ _ _ _ _ => true | _ => false end)
  | tcp__send => bz (match q with QTcp s d _ _ _ _ _ _ _ _ _ _ _ _ => same_family s d | _ => false end)
  | tcp__unknown__drop => bz (match q with QTcp s d _ _ _ _ _ _ _ _ _ _ _ _ => negb (same_family s d) | _ => false end)
  | tcp__flag_syn => bz (match q with QTcp _ _ _ _ _ _ fsyn _ _ _ _ _ _ _ => fsyn | _ => false end)
  | tcp__flag_ack => bz (match q with QTcp _ _ _ _ _ _ _ fack _ _ _ _ _ _ => fack | _ => false end)
  | tcp__flag_fin => bz (match q with QTcp _ _ _ _ _ _ _ _ ffin _ _ _ _ _ => ffin | _ => false end)
  | tcp__flag_rst => bz (match q with QTcp _ _ _ _ _ _ _ _ _ frst _ _ _ _ => frst | _ => false end)
  | tcp__opt_mss => bz (match q with QTcp _ _ _ _ _ _ _ _ _ _ _ mss _ _ => nonzero mss | _ => false end)
  | tcp__opt_wscale => bz (match q with QTcp _ _ _ _ _ _ _ _ _ _ _ _ wscale _ => nonzero wscale | _ => false end)
  | icmp4__pre_assemble => bz (match q with QIcmp4 _ _ _ _ _ _ _ _ => true | _ => false end)
  | icmp4__echo_reply__send => bz (match q with QIcmp4 _ _ type _ _ _ _ _ => type =? 0 | _ => false end)
  | icmp4__echo_request__send => bz (match q with QIcmp4 _ _ type _ _ _ _ _ => type =? 8 | _ => false end)
  | icmp4__unreachable_port__send => bz (match q with QIcmp4 _ _ type _ _ _ _ _ => type =? 3 | _ => false end)
  | icmp6__echo_reply__send => bz (match q with QIcmp6 _ _ _ (T6EchoReply _ _ _) => true | _ => false end)
  | icmp6__echo_request__send => bz (match q with QIcmp6 _ _ _ (T6EchoRequest _ _ _) => true | _ => false end)
  | icmp6__unreachable_port__send => bz (match q with QIcmp6 _ _ _ (T6UnreachPort _) => true | _ => false end)
  | icmp6__nd_router_solicitation__send => bz (match q with QIcmp6 _ _ _ (T6Rs _) => true | _ => false end)
  | icmp6__nd_router_advertisement__send => bz (match q with QIcmp6 _ _ _ (T6Ra _ _ _ _ _ _ _) => true | _ => false end)
  | icmp6__nd_neighbor_advertisement__send => bz (match q with QIcmp6 _ _ _ (T6Na _ _ _ _ _) => true | _ => false end)
  | icmp6__mld2_report__send => bz (match q with QIcmp6 _ _ _ (T6Mld2 _) => true | _ => false end)
  | arp__op_reply__send => bz (match q with QArp _ _ p => a_sup4 a && (a_oper p =? 2) | _ => false end)
  | _ => None
  end.
