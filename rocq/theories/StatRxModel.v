(** Receive statistics: the counters of PacketStatsRx, lib/packet_stats.py:41-124, that the
    receive handlers increment.  The handlers are those of StackRxModel, written again with
    their "self.packet_stats_rx.… += 1" statements; StatRxProofs shows that without these
    statements they are the same handlers (erasure).  A counter is only ever incremented by
    one, so what a handler does to the statistics is the list of the counters it
    increments, in order. *)
From Verif Require Import Base CodecModel AddrModel EtherModel Ip4Model Ip6Model UdpModel TcpModel
  Icmp4Model Icmp6Model FragModel StackModel StackRxModel.

(** PacketStatsRx, lib/packet_stats.py:46-118: one constructor per field *)
Inductive rxc :=
| ether__pre_parse | ether__failed_parse__drop | ether__dst_unknown__drop
| ether__dst_unicast | ether__dst_multicast | ether__dst_broadcast
| arp__pre_parse | arp__failed_parse__drop
| arp__op_request | arp__op_request__ip_conflict | arp__op_request__tpa_stack__respond
| arp__op_request__tpa_unknown__drop | arp__op_request__update_arp_cache
| arp__op_reply | arp__op_reply__ip_conflict | arp__op_reply__update_arp_cache
| arp__op_reply__update_arp_cache_gratuitous
| ip4__pre_parse | ip4__failed_parse__drop | ip4__dst_unknown__drop
| ip4__dst_unicast | ip4__dst_multicast | ip4__dst_broadcast | ip4__frag | ip4__defrag
| ip6__pre_parse | ip6__failed_parse__drop | ip6__dst_unknown__drop | ip6__dst_unicast | ip6__dst_multicast
| ip6_ext_frag__pre_parse | ip6_ext_frag__failed_parse | ip6_ext_frag__defrag
| icmp4__pre_parse | icmp4__failed_parse__drop | icmp4__echo_request__respond_echo_reply | icmp4__unreachable
| icmp6__pre_parse | icmp6__failed_parse__drop
| icmp6__nd_neighbor_solicitation | icmp6__nd_neighbor_solicitation__target_unknown__drop
| icmp6__nd_neighbor_solicitation__target_stack__respond | icmp6__nd_neighbor_solicitation__update_nd_cache
| icmp6__nd_neighbor_solicitation__dad
| icmp6__nd_neighbor_advertisement | icmp6__nd_neighbor_advertisement__run_dad
| icmp6__nd_neighbor_advertisement__update_nd_cache
| icmp6__nd_router_solicitation | icmp6__nd_router_advertisement
| icmp6__echo_request__respond_echo_reply | icmp6__unreachable
| udp__pre_parse | udp__failed_parse__drop | udp__socket_match | udp__ip_source_unspecified
| udp__echo_native__respond_udp
| udp__no_socket_match__respond_icmp4_unreachable | udp__no_socket_match__respond_icmp6_unreachable
| tcp__pre_parse | tcp__failed_parse__drop
| tcp__socket_match_active__forward_to_socket | tcp__socket_match_listening__forward_to_socket
| tcp__no_socket_match__respond_rst.

(** statements of the receive path with the counters they increment *)
Definition T (A : Type) := node -> list rxc * (node * res A).
Definition tbind {A B} (m : T A) (k : A -> T B) : T B :=
  fun n => match m n with
           | (l, (n', Ok a)) => let (l', x) := k a n' in (l ++ l', x)
           | (l, (n', Exn e)) => (l, (n', Exn e))
           end.
Notation "x <% m ;; k" := (tbind m (fun x => k)) (at level 61, m at next level, right associativity).
(** "self.packet_stats_rx.c += 1" *)
Definition tick (c : rxc) : T unit := fun n => ([c], (n, Ok tt)).
Definition tick_if (b : bool) (c : rxc) : T unit := fun n => (if b then [c] else [], (n, Ok tt)).
(** a statement that increments nothing *)
Definition plain {A} (m : R A) : T A := fun n => ([], m n).
(** "if packet_rx.parse_failed: self.packet_stats_rx.c += 1; return" *)
Definition t_parsed {A} (r : res (parsed A)) (c : rxc) (k : A -> T unit) : T unit :=
  p <% plain (rlift r) ;; match p with inl _ => tick c | inr p => k p end.

(** _phrx_arp, arp/phrx.py:56-169 *)
Definition t_arp (e : ether) : T unit :=
  _ <% tick arp__pre_parse ;;
  t_parsed (arp_parse (EtherModel.e_rest e)) arp__failed_parse__drop (fun p =>
  a <% plain (rgets my_addrs) ;;
  if a_oper p =? ARP_OP_REQUEST then
    _ <% tick arp__op_request ;;
    (if mem (a_spa p) (ip4_unicast a) then tick arp__op_request__ip_conflict
     else if mem (a_tpa p) (ip4_unicast a) then
       _ <% tick arp__op_request__tpa_stack__respond ;;
       _ <% plain (tx_ (phtx_arp (a_mac a) (a_sha p)
              {| a_oper := ARP_OP_REPLY; a_sha := a_mac a; a_spa := a_tpa p; a_tha := a_sha p; a_tpa := a_spa p |})) ;;
       _ <% tick arp__op_request__update_arp_cache ;;
       plain (tx_ (arp_add (a_spa p) (a_sha p)))
     else tick arp__op_request__tpa_unknown__drop)
  else if a_oper p =? ARP_OP_REPLY then
    _ <% tick arp__op_reply ;;
    (if (EtherModel.e_dst e =? a_mac a)
        && (mem (a_spa p) (map h_addr (a_cand4 a)) && (a_tha p =? a_mac a) && ip4_is_unspecified (a_tpa p))
     then _ <% tick arp__op_reply__ip_conflict ;; plain (rupd (put_conflict (a_spa p)))
     else if EtherModel.e_dst e =? a_mac a then
       _ <% tick arp__op_reply__update_arp_cache ;; plain (tx_ (arp_add (a_spa p) (a_sha p)))
     else if mac_is_broadcast (EtherModel.e_dst e) && (a_spa p =? a_tpa p) then
       _ <% tick arp__op_reply__update_arp_cache_gratuitous ;; plain (tx_ (arp_add (a_spa p) (a_sha p)))
     else plain (rret tt))
  else plain (rret tt)).

(** _phrx_udp, udp/phrx.py:55-167; the native echo of 113-130 is disabled, config.py:146,
    so its counter never moves.  The pseudo header is summed by the parser, after the first
    counter. *)
Definition t_udp (src dst : ipaddr) (f : bytes) (plen : Z) (ps : res Z) (whole : bytes) : T unit :=
  _ <% tick udp__pre_parse ;;
  s <% plain (rlift ps) ;;
  t_parsed (udp_parse f plen s) udp__failed_parse__drop (fun u =>
  t <% plain (rgets n_socks) ;;
  match first_match (socket_patterns dst (u_dport u) src (u_sport u)) t with
  | Some i =>
      _ <% tick udp__socket_match ;;
      plain (rupd (udp_deliver i {| m_lip := dst; m_lport := u_dport u; m_rip := src; m_rport := u_sport u; m_data := u_data u |}))
  | None =>
      if is_unspecified src then tick udp__ip_source_unspecified
      else match dst, src with
      | A6 d, A6 s =>
          _ <% tick udp__no_socket_match__respond_icmp6_unreachable ;;
          plain (tx_ (phtx_icmp6 d s 64 (T6UnreachPort whole)))
      | A4 d, A4 s =>
          _ <% tick udp__no_socket_match__respond_icmp4_unreachable ;;
          plain (tx_ (phtx_icmp4 d s 3 3 0 0 [] whole))
      | _, _ => plain (rret tt)
      end
  end).

(** _phrx_tcp, tcp/phrx.py:52-153 *)
Definition t_tcp (src dst : ipaddr) (f : bytes) (plen : Z) (ps : res Z) : T unit :=
  _ <% tick tcp__pre_parse ;;
  sum <% plain (rlift ps) ;;
  t_parsed (tcp_parse f plen sum) tcp__failed_parse__drop (fun s =>
  t <% plain (rgets n_socks) ;;
  match sock_get {| k_type := Stream; k_lip := dst; k_lport := s_dport s; k_rip := src; k_rport := s_sport s |} t with
  | Some i =>
      _ <% tick tcp__socket_match_active__forward_to_socket ;; plain (rupd (put_tcp i (tmd_of src dst s)))
  | None =>
      match (if s_fsyn s && negb (s_fack s || s_ffin s || s_frst s)
             then first_match (listen_patterns dst (s_dport s)) t else None) with
      | Some i =>
          _ <% tick tcp__socket_match_listening__forward_to_socket ;; plain (rupd (put_tcp i (tmd_of src dst s)))
      | None =>
          _ <% tick tcp__no_socket_match__respond_rst ;;
          plain (tx_ (phtx_tcp dst src (s_dport s) (s_sport s) 0
                 (s_seq s + b2z (s_fsyn s) + b2z (s_ffin s) + zlen (s_data s))
                 false true false true 0 None None []))
      end
  end).

(** _phrx_icmp4, icmp4/phrx.py:61-154 *)
Definition t_icmp4 (src dst : Z) (f : bytes) (plen : Z) : T unit :=
  _ <% tick icmp4__pre_parse ;;
  t_parsed (icmp4_parse f plen) icmp4__failed_parse__drop (fun q =>
  match q4_body q with
  | B4Echo id seq data =>
      if q4_type q =? 8 then
        _ <% tick icmp4__echo_request__respond_echo_reply ;; plain (tx_ (phtx_icmp4 dst src 0 0 id seq data []))
      else plain (rret tt)
  | B4Unreach data =>
      _ <% tick icmp4__unreachable ;;
      x <% plain (rlift (quoted4 data)) ;;
      match x with
      | Some (lip, lport, rip, rport) =>
          t <% plain (rgets n_socks) ;;
          match first_match (socket_patterns (A4 lip) lport (A4 rip) rport) t with
          | Some i => plain (rupd (udp_notify i))
          | None => plain (rret tt)
          end
      | None => plain (rret tt)
      end
  | B4Other => plain (rret tt)
  end).

(** _phrx_icmp6, icmp6/phrx.py:70-288 *)
Definition t_icmp6 (src dst hop : Z) (f : bytes) (plen : Z) (ps : res Z) : T unit :=
  _ <% tick icmp6__pre_parse ;;
  s <% plain (rlift ps) ;;
  t_parsed (icmp6_parse f plen s src dst hop) icmp6__failed_parse__drop (fun q =>
  a <% plain (rgets my_addrs) ;;
  match q6_body q with
  | B6Ns target opts =>
      _ <% tick icmp6__nd_neighbor_solicitation ;;
      if negb (mem target (ip6_unicast a)) then tick icmp6__nd_neighbor_solicitation__target_unknown__drop
      else
        _ <% match nd_slla opts with
             | Some m =>
                 if ip6_is_unspecified src || ip6_is_multicast src then plain (rret tt)
                 else _ <% tick icmp6__nd_neighbor_solicitation__update_nd_cache ;; plain (tx_ (nd_add src m))
             | None => plain (rret tt)
             end ;;
        let dad := ip6_is_unspecified src in
        _ <% tick_if dad icmp6__nd_neighbor_solicitation__dad ;;
        _ <% tick icmp6__nd_neighbor_solicitation__target_stack__respond ;;
        plain (tx_ (phtx_icmp6 target (if dad then ip6_all_nodes else src) 255
               (T6Na false (negb dad) dad target [TTlla (a_mac a)])))
  | B6Na _ _ _ target opts =>
      _ <% tick icmp6__nd_neighbor_advertisement ;;
      if match a_cand6 a with Some c => target =? c | None => false end then
        _ <% tick icmp6__nd_neighbor_advertisement__run_dad ;; plain (rupd (set_dad (nd_tlla opts)))
      else match nd_tlla opts with
      | Some m => _ <% tick icmp6__nd_neighbor_advertisement__update_nd_cache ;; plain (tx_ (nd_add target m))
      | None => plain (rret tt)
      end
  | B6Rs _ => tick icmp6__nd_router_solicitation
  | B6Ra _ _ _ _ _ _ opts =>
      _ <% tick icmp6__nd_router_advertisement ;; plain (rupd (set_ra (map (fun w => (w, src)) (nd_prefixes opts))))
  | B6Echo id seq data =>
      if q6_type q =? 128 then
        _ <% tick icmp6__echo_request__respond_echo_reply ;; plain (tx_ (phtx_icmp6 dst src 255 (T6EchoReply id seq data)))
      else plain (rret tt)
  | B6Unreach data =>
      _ <% tick icmp6__unreachable ;;
      x <% plain (rlift (quoted6 data)) ;;
      match x with
      | Some (lip, lport, rip, rport) =>
          t <% plain (rgets n_socks) ;;
          match first_match (socket_patterns (A6 lip) lport (A6 rip) rport) t with
          | Some i => plain (rupd (udp_notify i))
          | None => plain (rret tt)
          end
      | None => plain (rret tt)
      end
  | B6Mld2 _ | B6Other => plain (rret tt)
  end).

(** the end of _phrx_ip4, ip4/phrx.py:185-195 *)
Definition t_dispatch4 (p : ip4) (f : bytes) : T unit :=
  let whole := slice 0 (i4_plen p) (i4_frame p) in
  if i4_proto p =? IP4_PROTO_ICMP4 then t_icmp4 (i4_src p) (i4_dst p) f (i4_dlen p)
  else if i4_proto p =? IP4_PROTO_UDP then t_udp (A4 (i4_src p)) (A4 (i4_dst p)) f (i4_dlen p) (i4_pshdr_sum p) whole
  else if i4_proto p =? IP4_PROTO_TCP then t_tcp (A4 (i4_src p)) (A4 (i4_dst p)) f (i4_dlen p) (i4_pshdr_sum p)
  else plain (rret tt).
(** _phrx_ip4, ip4/phrx.py:133-195.  A reassembled packet is parsed inside
    _defragment_ip4_packet (line 124), before the counter of line 183. *)
Definition t_ip4 (f : bytes) : T unit :=
  _ <% tick ip4__pre_parse ;;
  t_parsed (ip4_parse f) ip4__failed_parse__drop (fun p =>
  a <% plain (rgets my_addrs) ;;
  if match ip4_unicast a with [] => false | _ => true end
     && negb (mem (i4_dst p) (ip4_unicast a ++ a_mcast4 a ++ ip4_broadcasts a))
  then tick ip4__dst_unknown__drop
  else
    _ <% tick_if (mem (i4_dst p) (ip4_unicast a)) ip4__dst_unicast ;;
    _ <% tick_if (mem (i4_dst p) (a_mcast4 a)) ip4__dst_multicast ;;
    _ <% tick_if (mem (i4_dst p) (ip4_broadcasts a)) ip4__dst_broadcast ;;
    if negb (i4_offset p =? 0) || i4_mf p then
      _ <% tick ip4__frag ;;
      n <% plain (rgets (fun n => n)) ;;
      let (fs, r) := defrag4 (s_now (n_tx n)) p (n_flows4 n) in
      _ <% plain (rupd (set_flows4 fs)) ;;
      o <% plain (rlift r) ;;
      match o with
      | None => plain (rret tt)
      | Some w =>
          q <% plain (rlift (ip4_parse w)) ;;
          match q with
          | inr q => _ <% tick ip4__defrag ;; t_dispatch4 q (i4_rest q)
          | inl _ => _ <% tick ip4__defrag ;; q <% plain (rlift (ip4_fields w)) ;; t_dispatch4 q w
          end
      end
    else t_dispatch4 p (i4_rest p)).

(** _phrx_ip6, ip6/phrx.py:56-105, and _phrx_ip6_ext_frag, ip6_ext_frag/phrx.py:126-147 *)
Fixpoint t_ip6_fuel (fuel : nat) (f : bytes) : T unit :=
  match fuel with
  | O => plain (rlift (Exn OutOfFuel))
  | S fuel' =>
      _ <% tick ip6__pre_parse ;;
      t_parsed (ip6_parse f) ip6__failed_parse__drop (fun p =>
      a <% plain (rgets my_addrs) ;;
      if negb (mem (i6_dst p) (ip6_unicast a ++ a_mcast6 a)) then tick ip6__dst_unknown__drop
      else
        _ <% tick_if (mem (i6_dst p) (ip6_unicast a)) ip6__dst_unicast ;;
        _ <% tick_if (mem (i6_dst p) (a_mcast6 a)) ip6__dst_multicast ;;
        if i6_next p =? IP6_NEXT_EXT_FRAG then
          _ <% tick ip6_ext_frag__pre_parse ;;
          t_parsed (frag6_parse (i6_rest p) (i6_dlen p)) ip6_ext_frag__failed_parse (fun g =>
          n <% plain (rgets (fun n => n)) ;;
          let (fs, r) := defrag6 (s_now (n_tx n)) p g (n_flows6 n) in
          _ <% plain (rupd (set_flows6 fs)) ;;
          o <% plain (rlift r) ;;
          match o with
          | None => plain (rret tt)
          | Some w => _ <% tick ip6_ext_frag__defrag ;; t_ip6_fuel fuel' w
          end)
        else if i6_next p =? IP6_NEXT_ICMP6 then
          t_icmp6 (i6_src p) (i6_dst p) (i6_hop p) (i6_rest p) (i6_dlen p) (i6_pshdr_sum p)
        else if i6_next p =? IP6_NEXT_UDP then
          t_udp (A6 (i6_src p)) (A6 (i6_dst p)) (i6_rest p) (i6_dlen p) (i6_pshdr_sum p)
                   (slice 0 (i6_plen p) (i6_frame p))
        else if i6_next p =? IP6_NEXT_TCP then
          t_tcp (A6 (i6_src p)) (A6 (i6_dst p)) (i6_rest p) (i6_dlen p) (i6_pshdr_sum p)
        else plain (rret tt))
  end.
Definition t_ip6 (f : bytes) : T unit :=
  fun n => t_ip6_fuel (S (length f + flows_bytes (n_flows6 n))) f n.

(** _phrx_ether, ether/phrx.py:56-108 *)
Definition t_ether (f : bytes) : T unit :=
  _ <% tick ether__pre_parse ;;
  t_parsed (ether_parse f) ether__failed_parse__drop (fun e =>
  a <% plain (rgets my_addrs) ;;
  if negb (mem (EtherModel.e_dst e) (a_mac a :: a_mac_mcast a ++ [mac_broadcast])) then tick ether__dst_unknown__drop
  else
    _ <% tick_if (EtherModel.e_dst e =? a_mac a) ether__dst_unicast ;;
    _ <% tick_if (mem (EtherModel.e_dst e) (a_mac_mcast a)) ether__dst_multicast ;;
    _ <% tick_if (EtherModel.e_dst e =? mac_broadcast) ether__dst_broadcast ;;
    if (EtherModel.e_type e =? ETHER_TYPE_ARP) && a_sup4 a then t_arp e
    else if (EtherModel.e_type e =? ETHER_TYPE_IP4) && a_sup4 a then t_ip4 (EtherModel.e_rest e)
    else if (EtherModel.e_type e =? ETHER_TYPE_IP6) && a_sup6 a then t_ip6 (EtherModel.e_rest e)
    else plain (rret tt)).

(** the counters that a received frame increments *)
Definition counted (f : bytes) (n : node) : list rxc := fst (t_ether f n).
