(** What the receive statistics must add up to, and what each of the counters that names an
    action stands for.  Rules over what arrived (SpecRx, SpecReact), independent of the
    handlers. *)
From Verif Require Import Base CodecModel AddrModel SpecWire SpecCksum EtherModel Ip4Model Ip6Model UdpModel TcpModel
  Icmp4Model Icmp6Model FragModel StackModel StackRxModel StatRxModel SpecRx SpecReact.

Scheme Equality for rxc.
(** how often a counter has been incremented *)
Definition cnt (c : rxc) (l : list rxc) : Z := Z.of_nat (count_occ rxc_eq_dec l c).

(** ** sums *)
(** The counters after [frames] frames, starting from zero. *)
Definition adds_up (frames : Z) (l : list rxc) : Prop :=
  let k c := cnt c l in
  let taken := frames - k ether__failed_parse__drop - k ether__dst_unknown__drop in
  let taken4 := k ip4__pre_parse - k ip4__failed_parse__drop - k ip4__dst_unknown__drop in
  let taken6 := k ip6__pre_parse - k ip6__failed_parse__drop - k ip6__dst_unknown__drop in
  let whole4 := taken4 - k ip4__frag + k ip4__defrag in
  let whole6 := taken6 - k ip6_ext_frag__pre_parse in
  (* every frame is counted, and the ones taken under their kind of destination *)
  k ether__pre_parse = frames /\ 0 <= taken /\
  taken <= k ether__dst_unicast + k ether__dst_multicast + k ether__dst_broadcast /\
  (* packets come from frames that were taken, or from reassembly *)
  k arp__pre_parse + k ip4__pre_parse + k ip6__pre_parse <= taken + k ip6_ext_frag__defrag /\
  (* ARP: every packet has one outcome, or is a reply of no use *)
  k arp__pre_parse = k arp__failed_parse__drop + k arp__op_request + k arp__op_reply /\
  k arp__op_request = k arp__op_request__ip_conflict + k arp__op_request__tpa_stack__respond + k arp__op_request__tpa_unknown__drop /\
  k arp__op_request__update_arp_cache = k arp__op_request__tpa_stack__respond /\
  k arp__op_reply__ip_conflict + k arp__op_reply__update_arp_cache + k arp__op_reply__update_arp_cache_gratuitous <= k arp__op_reply /\
  (* IP: what is passed on is what was taken, less the fragments, plus what they made *)
  k ip4__defrag <= k ip4__frag /\ k ip4__frag <= taken4 /\
  k ip6_ext_frag__failed_parse + k ip6_ext_frag__defrag <= k ip6_ext_frag__pre_parse /\ k ip6_ext_frag__pre_parse <= taken6 /\
  taken6 <= k ip6__dst_unicast + k ip6__dst_multicast /\
  k icmp4__pre_parse <= whole4 /\ k icmp6__pre_parse <= whole6 /\
  k icmp4__pre_parse + k icmp6__pre_parse + k udp__pre_parse + k tcp__pre_parse <= whole4 + whole6 /\
  (* ICMP *)
  k icmp4__failed_parse__drop + k icmp4__echo_request__respond_echo_reply + k icmp4__unreachable <= k icmp4__pre_parse /\
  k icmp6__failed_parse__drop + k icmp6__nd_neighbor_solicitation + k icmp6__nd_neighbor_advertisement +
    k icmp6__nd_router_solicitation + k icmp6__nd_router_advertisement + k icmp6__echo_request__respond_echo_reply +
    k icmp6__unreachable <= k icmp6__pre_parse /\
  k icmp6__nd_neighbor_solicitation =
    k icmp6__nd_neighbor_solicitation__target_unknown__drop + k icmp6__nd_neighbor_solicitation__target_stack__respond /\
  k icmp6__nd_neighbor_solicitation__dad + k icmp6__nd_neighbor_solicitation__update_nd_cache <=
    k icmp6__nd_neighbor_solicitation__target_stack__respond /\
  k icmp6__nd_neighbor_advertisement__run_dad + k icmp6__nd_neighbor_advertisement__update_nd_cache <=
    k icmp6__nd_neighbor_advertisement /\
  (* UDP and TCP: every packet has exactly one outcome *)
  k udp__pre_parse = k udp__failed_parse__drop + k udp__socket_match + k udp__ip_source_unspecified +
    k udp__no_socket_match__respond_icmp4_unreachable + k udp__no_socket_match__respond_icmp6_unreachable /\
  k udp__echo_native__respond_udp = 0 /\
  k tcp__pre_parse = k tcp__failed_parse__drop + k tcp__socket_match_active__forward_to_socket +
    k tcp__socket_match_listening__forward_to_socket + k tcp__no_socket_match__respond_rst.

(** ** meaning *)
(** the counters that say what was done, as opposed to what was seen *)
Definition says_done (c : rxc) : bool :=
  match c with
  | arp__op_request__tpa_stack__respond | arp__op_request__update_arp_cache
  | arp__op_reply__ip_conflict | arp__op_reply__update_arp_cache | arp__op_reply__update_arp_cache_gratuitous
  | icmp4__echo_request__respond_echo_reply
  | icmp6__nd_neighbor_solicitation__target_stack__respond | icmp6__nd_neighbor_solicitation__update_nd_cache
  | icmp6__nd_neighbor_advertisement__run_dad | icmp6__nd_neighbor_advertisement__update_nd_cache
  | icmp6__nd_router_advertisement | icmp6__echo_request__respond_echo_reply
  | udp__socket_match | udp__echo_native__respond_udp
  | udp__no_socket_match__respond_icmp4_unreachable | udp__no_socket_match__respond_icmp6_unreachable
  | tcp__socket_match_active__forward_to_socket | tcp__socket_match_listening__forward_to_socket
  | tcp__no_socket_match__respond_rst => true
  | _ => false
  end.

(** The counters for a reaction (SpecReact). *)
Inductive stands_for (n : node) (f : bytes) : reaction -> list rxc -> Prop :=
| sf_arp_reply p : stands_for n f (RArpReply p) [arp__op_request__tpa_stack__respond; arp__op_request__update_arp_cache]
| sf_conflict ip : stands_for n f (RConflict ip) [arp__op_reply__ip_conflict]
| sf_learn4 e ip m : for_us n f e -> EtherModel.e_dst e = a_mac (my_addrs n) ->
    stands_for n f (RLearn4 ip m) [arp__op_reply__update_arp_cache]
| sf_learn4_all e ip m : for_us n f e -> EtherModel.e_dst e <> a_mac (my_addrs n) ->
    stands_for n f (RLearn4 ip m) [arp__op_reply__update_arp_cache_gratuitous]
| sf_learn6 ip m : stands_for n f (RLearn6 ip m) [icmp6__nd_neighbor_advertisement__update_nd_cache]
| sf_deliver i m : stands_for n f (RDeliver i m) [udp__socket_match]
| sf_refused i : stands_for n f (RRefused i) []
| sf_session i d : open_as (n_socks n) Stream (d_lip d) (d_lport d) (d_rip d) (d_rport d) i ->
    stands_for n f (RSegment i d) [tcp__socket_match_active__forward_to_socket]
| sf_listener i d : none_as (n_socks n) Stream (d_lip d) (d_lport d) (d_rip d) (d_rport d) ->
    stands_for n f (RSegment i d) [tcp__socket_match_listening__forward_to_socket]
| sf_reset s d sp dp seq ack a b c g w x y z :
    stands_for n f (RSend (QTcp s d sp dp seq ack a b c g w x y z)) [tcp__no_socket_match__respond_rst]
| sf_echo4 s d id seq data : stands_for n f (RSend (QIcmp4 s d 0 0 id seq data [])) [icmp4__echo_request__respond_echo_reply]
| sf_unreach4 s d w : stands_for n f (RSend (QIcmp4 s d 3 3 0 0 [] w)) [udp__no_socket_match__respond_icmp4_unreachable]
| sf_echo6 s d h id seq data :
    stands_for n f (RSend (QIcmp6 s d h (T6EchoReply id seq data))) [icmp6__echo_request__respond_echo_reply]
| sf_unreach6 s d h w :
    stands_for n f (RSend (QIcmp6 s d h (T6UnreachPort w))) [udp__no_socket_match__respond_icmp6_unreachable]
| sf_advertise src q :
    stands_for n f (RAdvertise None src q) [icmp6__nd_neighbor_solicitation__target_stack__respond]
| sf_advertise_learn m src q :
    stands_for n f (RAdvertise (Some m) src q)
      [icmp6__nd_neighbor_solicitation__update_nd_cache; icmp6__nd_neighbor_solicitation__target_stack__respond]
| sf_taken t : stands_for n f (RTaken t) [icmp6__nd_neighbor_advertisement__run_dad]
| sf_prefixes l : stands_for n f (RPrefixes l) [icmp6__nd_router_advertisement].

(** ** what leaves no outcome *)
(** the counters that say what became of a frame: an action, a drop, or put aside for
    reassembly *)
Definition says_outcome (c : rxc) : bool :=
  says_done c ||
  match c with
  | ether__failed_parse__drop | ether__dst_unknown__drop
  | arp__failed_parse__drop | arp__op_request__ip_conflict | arp__op_request__tpa_unknown__drop
  | ip4__failed_parse__drop | ip4__dst_unknown__drop | ip4__frag
  | ip6__failed_parse__drop | ip6__dst_unknown__drop | ip6_ext_frag__pre_parse | ip6_ext_frag__failed_parse
  | icmp4__failed_parse__drop | icmp6__failed_parse__drop | icmp6__nd_neighbor_solicitation__target_unknown__drop
  | udp__failed_parse__drop | udp__ip_source_unspecified | tcp__failed_parse__drop => true
  | _ => false
  end.
(** a packet that has arrived in one frame *)
Definition whole4 (n : node) (f : bytes) (p : ip4) : Prop :=
  exists e, for_us n f e /\ EtherModel.e_type e = 0x0800 /\ a_sup4 (my_addrs n) = true /\
    ip4_parse (EtherModel.e_rest e) = Ok (inr p) /\ takes4 (my_addrs n) (i4_dst p) /\ i4_offset p = 0 /\ i4_mf p = false.
Definition whole6 (n : node) (f : bytes) (p : ip6) : Prop :=
  exists e, for_us n f e /\ EtherModel.e_type e = 0x86DD /\ a_sup6 (my_addrs n) = true /\
    ip6_parse (EtherModel.e_rest e) = Ok (inr p) /\ our_ip6 (my_addrs n) (i6_dst p) /\ i6_next p <> 44.
(** the frames that are taken and then forgotten, as far as the statistics tell *)
Inductive unaccounted (n : node) (f : bytes) : Prop :=
(* no protocol of the stack's, or one that is switched off *)
| un_type e : for_us n f e -> EtherModel.e_type e <> 0x0806 -> EtherModel.e_type e <> 0x0800 -> EtherModel.e_type e <> 0x86DD ->
    unaccounted n f
| un_no4 e : for_us n f e -> EtherModel.e_type e = 0x0806 \/ EtherModel.e_type e = 0x0800 -> a_sup4 (my_addrs n) = false ->
    unaccounted n f
| un_no6 e : for_us n f e -> EtherModel.e_type e = 0x86DD -> a_sup6 (my_addrs n) = false -> unaccounted n f
(* an ARP reply that neither answers us nor announces its sender *)
| un_arp e p : arp_in n f e p -> a_oper p = 2 -> EtherModel.e_dst e <> a_mac (my_addrs n) ->
    ~ (EtherModel.e_dst e = 2 ^ 48 - 1 /\ a_spa p = a_tpa p) -> unaccounted n f
(* a transport protocol that is not the stack's *)
| un_proto4 p : whole4 n f p -> i4_proto p <> 1 -> i4_proto p <> 6 -> i4_proto p <> 17 -> unaccounted n f
| un_proto6 p : whole6 n f p -> i6_next p <> 58 -> i6_next p <> 6 -> i6_next p <> 17 -> unaccounted n f
(* ICMP messages other than the ones the stack answers or learns from *)
| un_icmp4 p q : whole4 n f p -> i4_proto p = 1 -> icmp4_parse (i4_rest p) (i4_dlen p) = Ok (inr q) -> q4_type q <> 8 ->
    unaccounted n f
| un_icmp6 p ps q : whole6 n f p -> i6_next p = 58 -> i6_pshdr_sum p = Ok ps ->
    icmp6_parse (i6_rest p) (i6_dlen p) ps (i6_src p) (i6_dst p) (i6_hop p) = Ok (inr q) ->
    ~ In (q6_type q) [128; 134; 135; 136] -> unaccounted n f
| un_na p ps q r s o target opts : whole6 n f p -> i6_next p = 58 -> i6_pshdr_sum p = Ok ps ->
    icmp6_parse (i6_rest p) (i6_dlen p) ps (i6_src p) (i6_dst p) (i6_hop p) = Ok (inr q) ->
    q6_body q = B6Na r s o target opts -> a_cand6 (my_addrs n) <> Some target -> nd_tlla opts = None -> unaccounted n f.

(** ** what was seen *)
Definition has4 (n : node) (x : Z) : Prop := exists h, In h (a_host4 (my_addrs n)) /\ h_addr h = x.
Definition has6 (n : node) (x : Z) : Prop := exists h, In h (a_host6 (my_addrs n)) /\ h_addr h = x.
(** a frame for the stack with a payload of that kind *)
Definition frame_carries (n : node) (f : bytes) (ty : Z) (b : bytes) : Prop :=
  exists e, for_us n f e /\ EtherModel.e_type e = ty /\ EtherModel.e_rest e = b.
Definition arp_packet (n : node) (f : bytes) (b : bytes) : Prop := frame_carries n f 0x0806 b /\ a_sup4 (my_addrs n) = true.
Definition ip4_packet (n : node) (f : bytes) (b : bytes) : Prop := frame_carries n f 0x0800 b /\ a_sup4 (my_addrs n) = true.
Definition arp_of (n : node) (f : bytes) (oper : Z) (p : arp) : Prop := exists e, arp_in n f e p /\ a_oper p = oper.
(** an IPv4 packet taken from the frame, a fragment perhaps *)
Definition ip4_taken (n : node) (f : bytes) (p : ip4) : Prop :=
  exists b, ip4_packet n f b /\ ip4_parse b = Ok (inr p) /\ takes4 (my_addrs n) (i4_dst p).
(** bytes that are handled as an IPv6 packet: from the frame, or made of fragments *)
Inductive ip6_packet (n : node) (f : bytes) : node -> bytes -> Prop :=
| p6_frame b : frame_carries n f 0x86DD b -> a_sup6 (my_addrs n) = true -> ip6_packet n f n b
| p6_made n1 b p g fs w : ip6_packet n f n1 b -> ip6_parse b = Ok (inr p) -> our_ip6 (my_addrs n) (i6_dst p) -> i6_next p = 44 ->
    frag6_parse (i6_rest p) (i6_dlen p) = Ok (inr g) -> defrag6 (s_now (n_tx n)) p g (n_flows6 n1) = (fs, Ok (Some w)) ->
    ip6_packet n f (set_flows6 fs n1) w.
Definition ip6_taken (n : node) (f : bytes) (n1 : node) (p : ip6) : Prop :=
  exists b, ip6_packet n f n1 b /\ ip6_parse b = Ok (inr p) /\ our_ip6 (my_addrs n) (i6_dst p).
(** bytes that are handled as a UDP datagram, with their pseudo header *)
Inductive udp_bytes (n : node) (f : bytes) : bytes -> bytes -> Prop :=
| ub4 n1 p : rx4 n f n1 p -> i4_proto p = 17 -> udp_bytes n f (ip4_pseudo (i4_src p) (i4_dst p) 17 (i4_dlen p)) (i4_data p)
| ub6 n1 p : rx6 n f n1 p -> i6_next p = 17 -> udp_bytes n f (ip6_pseudo (i6_src p) (i6_dst p) (i6_dlen p) 17) (i6_data p).
(** the same for TCP, with the outcome of parsing them *)
Inductive tcp_bytes (n : node) (f : bytes) : res (parsed tcp) -> Prop :=
| tb4 n1 p ps : rx4 n f n1 p -> i4_proto p = 6 -> i4_pshdr_sum p = Ok ps -> tcp_bytes n f (tcp_parse (i4_rest p) (i4_dlen p) ps)
| tb6 n1 p ps : rx6 n f n1 p -> i6_next p = 6 -> i6_pshdr_sum p = Ok ps -> tcp_bytes n f (tcp_parse (i6_rest p) (i6_dlen p) ps).
Definition icmp4_bytes (n : node) (f : bytes) (r : res (parsed icmp4)) : Prop :=
  exists n1 p, rx4 n f n1 p /\ i4_proto p = 1 /\ r = icmp4_parse (i4_rest p) (i4_dlen p).
Definition icmp6_bytes (n : node) (f : bytes) (r : res (parsed icmp6)) : Prop :=
  exists n1 p ps, rx6 n f n1 p /\ i6_next p = 58 /\ i6_pshdr_sum p = Ok ps /\
    r = icmp6_parse (i6_rest p) (i6_dlen p) ps (i6_src p) (i6_dst p) (i6_hop p).
Definition icmp6_has (n : node) (f : bytes) (src : Z) (body : icmp6_body) : Prop :=
  exists n1 dst q, icmp6_in n f n1 src dst q /\ q6_body q = body.

(** What the counters say that name what was seen or dropped; those that name an action are
    the matter of [stands_for]. *)
Definition means (n : node) (f : bytes) (c : rxc) : Prop :=
  let a := my_addrs n in
  match c with
  | ether__failed_parse__drop => exists x, ether_parse f = Ok (inl x)
  | ether__dst_unknown__drop => exists e, ether_parse f = Ok (inr e) /\ ~ our_mac a (EtherModel.e_dst e)
  | ether__dst_unicast => exists e, ether_parse f = Ok (inr e) /\ EtherModel.e_dst e = a_mac a
  | ether__dst_multicast => exists e, ether_parse f = Ok (inr e) /\ In (EtherModel.e_dst e) (a_mac_mcast a)
  | ether__dst_broadcast => exists e, ether_parse f = Ok (inr e) /\ EtherModel.e_dst e = 2 ^ 48 - 1
  | arp__pre_parse => exists b, arp_packet n f b
  | arp__failed_parse__drop => exists b x, arp_packet n f b /\ arp_parse b = Ok (inl x)
  | arp__op_request => exists p, arp_of n f 1 p
  | arp__op_request__ip_conflict => exists p, arp_of n f 1 p /\ has4 n (a_spa p)
  | arp__op_request__tpa_unknown__drop => exists p, arp_of n f 1 p /\ ~ has4 n (a_spa p) /\ ~ has4 n (a_tpa p)
  | arp__op_reply => exists p, arp_of n f 2 p
  | ip4__pre_parse => exists b, ip4_packet n f b
  | ip4__failed_parse__drop => exists b x, ip4_packet n f b /\ ip4_parse b = Ok (inl x)
  | ip4__dst_unknown__drop => exists b p, ip4_packet n f b /\ ip4_parse b = Ok (inr p) /\ ~ takes4 a (i4_dst p)
  | ip4__dst_unicast => exists p, ip4_taken n f p /\ has4 n (i4_dst p)
  | ip4__dst_multicast => exists p, ip4_taken n f p /\ In (i4_dst p) (a_mcast4 a)
  | ip4__dst_broadcast => exists p, ip4_taken n f p /\
      (i4_dst p = 2 ^ 32 - 1 \/ exists h, In h (a_host4 a) /\ i4_dst p = last_of h)
  | ip4__frag => exists p, ip4_taken n f p /\ (i4_offset p <> 0 \/ i4_mf p = true)
  | ip4__defrag => exists p fs w, ip4_taken n f p /\ (i4_offset p <> 0 \/ i4_mf p = true) /\
      defrag4 (s_now (n_tx n)) p (n_flows4 n) = (fs, Ok (Some w))
  | ip6__pre_parse => exists n1 b, ip6_packet n f n1 b
  | ip6__failed_parse__drop => exists n1 b x, ip6_packet n f n1 b /\ ip6_parse b = Ok (inl x)
  | ip6__dst_unknown__drop => exists n1 b p, ip6_packet n f n1 b /\ ip6_parse b = Ok (inr p) /\ ~ our_ip6 a (i6_dst p)
  | ip6__dst_unicast => exists n1 p, ip6_taken n f n1 p /\ has6 n (i6_dst p)
  | ip6__dst_multicast => exists n1 p, ip6_taken n f n1 p /\ In (i6_dst p) (a_mcast6 a)
  | ip6_ext_frag__pre_parse => exists n1 p, ip6_taken n f n1 p /\ i6_next p = 44
  | ip6_ext_frag__failed_parse => exists n1 p x, ip6_taken n f n1 p /\ i6_next p = 44 /\ frag6_parse (i6_rest p) (i6_dlen p) = Ok (inl x)
  | ip6_ext_frag__defrag => exists n1 p g fs w, ip6_taken n f n1 p /\ i6_next p = 44 /\
      frag6_parse (i6_rest p) (i6_dlen p) = Ok (inr g) /\ defrag6 (s_now (n_tx n)) p g (n_flows6 n1) = (fs, Ok (Some w))
  | icmp4__pre_parse => exists r, icmp4_bytes n f r
  | icmp4__failed_parse__drop => exists x, icmp4_bytes n f (Ok (inl x))
  | icmp4__unreachable => exists q d, icmp4_bytes n f (Ok (inr q)) /\ q4_body q = B4Unreach d
  | icmp6__pre_parse => exists r, icmp6_bytes n f r
  | icmp6__failed_parse__drop => exists x, icmp6_bytes n f (Ok (inl x))
  | icmp6__nd_neighbor_solicitation => exists src t opts, icmp6_has n f src (B6Ns t opts)
  | icmp6__nd_neighbor_solicitation__target_unknown__drop => exists src t opts, icmp6_has n f src (B6Ns t opts) /\ ~ has6 n t
  | icmp6__nd_neighbor_solicitation__dad => exists t opts, icmp6_has n f 0 (B6Ns t opts) /\ has6 n t
  | icmp6__nd_neighbor_advertisement => exists src r s o t opts, icmp6_has n f src (B6Na r s o t opts)
  | icmp6__nd_router_solicitation => exists src opts, icmp6_has n f src (B6Rs opts)
  | icmp6__unreachable => exists src d, icmp6_has n f src (B6Unreach d)
  | udp__pre_parse => exists pseudo seg, udp_bytes n f pseudo seg
  | udp__failed_parse__drop => exists pseudo seg, udp_bytes n f pseudo seg /\ ~ (exists sport dport data, datagram pseudo seg sport dport data)
  | udp__ip_source_unspecified => exists n1 src dst sport dport data whole, udp_in n f n1 src dst sport dport data whole /\
      src = zero_of src /\ udp_target (n_socks n) dst dport src sport None
  | tcp__pre_parse => exists r, tcp_bytes n f r
  | tcp__failed_parse__drop => exists x, tcp_bytes n f (Ok (inl x))
  | _ => True
  end.
