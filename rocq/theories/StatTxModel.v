(** The transmit statistics, PacketStatsTx, pytcp/lib/packet_stats.py:127-235: the handlers
    of StackModel with every "self.packet_stats_tx.x += 1" in its place.  A run yields the
    counters in the order of the increments.  No proofs here. *)
From Verif Require Import Base CodecModel AddrModel EtherModel Ip4Model Ip6Model UdpModel TcpModel
  Icmp4Model Icmp6Model FragModel RingModel StackModel.

(** the fields of PacketStatsTx, packet_stats.py:133-228 *)
Inductive txc :=
| ether__pre_assemble | ether__src_unspec__fill | ether__src_spec | ether__dst_spec__send
| ether__dst_unspec__ip6_lookup | ether__dst_unspec__ip6_lookup__multicast__send
| ether__dst_unspec__ip6_lookup__extnet__no_gw__drop
| ether__dst_unspec__ip6_lookup__extnet__gw_nd_cache_hit__send
| ether__dst_unspec__ip6_lookup__extnet__gw_nd_cache_miss__drop
| ether__dst_unspec__ip6_lookup__locnet__nd_cache_hit__send
| ether__dst_unspec__ip6_lookup__locnet__nd_cache_miss__drop
| ether__dst_unspec__ip4_lookup | ether__dst_unspec__ip4_lookup__multicast__send
| ether__dst_unspec__ip4_lookup__limited_broadcast__send
| ether__dst_unspec__ip4_lookup__network_broadcast__send
| ether__dst_unspec__ip4_lookup__extnet__no_gw__drop
| ether__dst_unspec__ip4_lookup__extnet__gw_arp_cache_hit__send
| ether__dst_unspec__ip4_lookup__extnet__gw_arp_cache_miss__drop
| ether__dst_unspec__ip4_lookup__locnet__arp_cache_hit__send
| ether__dst_unspec__ip4_lookup__locnet__arp_cache_miss__drop
| ether__dst_unspec__drop
| arp__pre_assemble | arp__no_proto_support__drop | arp__op_request__send | arp__op_reply__send
| ip4__pre_assemble | ip4__no_proto_support__drop | ip4__src_not_owned__drop
| ip4__src_multicast__replace | ip4__src_multicast__drop
| ip4__src_limited_broadcast__replace | ip4__src_limited_broadcast__drop
| ip4__src_network_broadcast__replace
| ip4__src_network_unspecified__replace_local | ip4__src_network_unspecified__replace_external
| ip4__src_unspecified__send | ip4__src_unspecified__drop | ip4__dst_unspecified__drop
| ip4__mtu_ok__send | ip4__mtu_exceed__frag | ip4__mtu_exceed__frag__send
| ip6__pre_assemble | ip6__no_proto_support__drop | ip6__src_not_owned__drop
| ip6__src_multicast__replace | ip6__src_multicast__drop
| ip6__src_network_unspecified__replace_local | ip6__src_network_unspecified__replace_external
| ip6__src_unspecified__send | ip6__src_unspecified__drop | ip6__dst_unspecified__drop
| ip6__mtu_ok__send | ip6__mtu_exceed__frag
| ip6_ext_frag__pre_assemble | ip6_ext_frag__send
| icmp4__pre_assemble | icmp4__echo_reply__send | icmp4__echo_request__send
| icmp4__unreachable_port__send | icmp4__unknown__drop
| icmp6__pre_assemble | icmp6__echo_reply__send | icmp6__echo_request__send | icmp6__unreachable_port__send
| icmp6__nd_router_solicitation__send | icmp6__nd_router_advertisement__send
| icmp6__nd_neighbor_solicitation__send | icmp6__nd_neighbor_advertisement__send
| icmp6__mld2_report__send | icmp6__unknown__drop
| tcp__pre_assemble | tcp__flag_ns | tcp__flag_crw | tcp__flag_ece | tcp__flag_urg | tcp__flag_ack
| tcp__flag_psh | tcp__flag_rst | tcp__flag_syn | tcp__flag_fin | tcp__send | tcp__unknown__drop
| tcp__opt_nop | tcp__opt_mss | tcp__opt_wscale
| udp__pre_assemble | udp__send | udp__unknown__drop.

(** statements of the transmit path with the counters they increment *)
Definition X (A : Type) := stack -> list txc * (stack * res A).
Definition xbind {A B} (m : X A) (k : A -> X B) : X B :=
  fun s => match m s with
           | (l, (s', Ok a)) => let (l', x) := k a s' in (l ++ l', x)
           | (l, (s', Exn e)) => (l, (s', Exn e))
           end.
Notation "x <$ m ;; k" := (xbind m (fun x => k)) (at level 61, m at next level, right associativity).
(** "self.packet_stats_tx.c += 1", once for each member of the list *)
Definition count (l : list txc) : X unit := fun s => (l, (s, Ok tt)).
(** a statement that increments nothing *)
Definition quiet {A} (m : M A) : X A := fun s => ([], m s).
Definition xassert {A} (b : bool) (k : X A) : X A := if b then k else quiet (raise AssertionError).
Definition when (b : bool) (c : txc) : list txc := if b then [c] else [].

(** ** Ethernet and ARP *)

(** the first lines of _phtx_ether, ether/phtx.py:87-108 *)
Definition ether_head (src : Z) : X unit :=
  count [ether__pre_assemble; if mac_is_unspecified src then ether__src_unspec__fill else ether__src_spec].
(** a counter and _send_out_packet, as in ether/phtx.py:112-119 *)
Definition x_send (c : txc) (src dst : Z) (p : netpkt) : X tx_status :=
  _ <$ count [c] ;; quiet (ether_send src dst p).
(** a counter and a returned status, as in ether/phtx.py:318-324 *)
Definition x_drop (c : txc) (st : tx_status) : X tx_status := _ <$ count [c] ;; quiet (ret st).

(** _phtx_arp, arp/phtx.py:55-100, and the branches of _phtx_ether an ARP packet can take *)
Definition x_arp (esrc edst : Z) (p : arp) : X tx_status :=
  _ <$ count [arp__pre_assemble] ;;
  a <$ quiet (gets s_addrs) ;;
  if negb (a_sup4 a) then x_drop arp__no_proto_support__drop ArpNoSupport
  else
    _ <$ count (when (a_oper p =? ARP_OP_REQUEST) arp__op_request__send
                ++ when (a_oper p =? ARP_OP_REPLY) arp__op_reply__send) ;;
    xassert ((a_oper p =? ARP_OP_REQUEST) || (a_oper p =? ARP_OP_REPLY))
    (_ <$ ether_head esrc ;;
     if negb (mac_is_unspecified edst) then x_send ether__dst_spec__send esrc edst (NArp p)
     else x_drop ether__dst_unspec__drop EtherResolutionFail).

(** ArpCache._send_arp_request, arp_cache.py:179-193 *)
Definition x_arp_request (tpa : Z) : X unit :=
  a <$ quiet (gets s_addrs) ;;
  _ <$ x_arp (a_mac a) mac_broadcast
        {| a_oper := ARP_OP_REQUEST; a_sha := a_mac a;
           a_spa := match ip4_unicast a with x :: _ => x | [] => 0 end; a_tha := 0; a_tpa := tpa |} ;;
  quiet (ret tt).
(** ArpCache.find_entry, arp_cache.py:157-177 *)
Definition x_arp_find (ip : Z) : X (option Z) :=
  c <$ quiet (gets s_arp) ;;
  match cache_get ip c with
  | Some e => _ <$ quiet (upd (set_arp (cache_set ip (hit e) c))) ;; quiet (ret (Some (ce_mac e)))
  | None => _ <$ x_arp_request ip ;; quiet (ret None)
  end.

(** _phtx_ether for an IPv4 packet or fragment, ether/phtx.py:87-108,201-315 *)
Definition x_ether_ip4 (src dst : Z) (p : netpkt) : X tx_status :=
  _ <$ ether_head 0 ;;
  _ <$ count [ether__dst_unspec__ip4_lookup] ;;
  a <$ quiet (gets s_addrs) ;;
  if ip4_is_multicast dst then
    _ <$ count [ether__dst_unspec__ip4_lookup__multicast__send] ;;
    m <$ quiet (lift (ip4_multicast_mac dst)) ;; quiet (ether_send 0 m p)
  else if ip4_is_limited_broadcast dst then
    x_send ether__dst_unspec__ip4_lookup__limited_broadcast__send 0 mac_broadcast p
  else if existsb (fun h => (h_addr h =? src) && ((dst =? n_addr (h_net h)) || (dst =? ip4_broadcast (h_net h))))
                  (a_host4 a)
  then x_send ether__dst_unspec__ip4_lookup__network_broadcast__send 0 mac_broadcast p
  else match find (fun h => (h_addr h =? src) && negb (net_contains 32 (h_net h) dst)) (a_host4 a) with
  | Some h =>
      match h_gw h with
      | None => x_drop ether__dst_unspec__ip4_lookup__extnet__no_gw__drop EtherNoGatewayIp4
      | Some g => m <$ x_arp_find g ;;
          match m with
          | Some mac => x_send ether__dst_unspec__ip4_lookup__extnet__gw_arp_cache_hit__send 0 mac p
          | None => x_drop ether__dst_unspec__ip4_lookup__extnet__gw_arp_cache_miss__drop EtherGatewayArpCacheFail
          end
      end
  | None => m <$ x_arp_find dst ;;
      match m with
      | Some mac => x_send ether__dst_unspec__ip4_lookup__locnet__arp_cache_hit__send 0 mac p
      | None => x_drop ether__dst_unspec__ip4_lookup__locnet__arp_cache_miss__drop EtherArpCacheFail
      end
  end.

(** ** IPv4 *)

(** _validate_src_ip4_address, ip4/phtx.py:59-211: the counters and the result *)
Definition x_src4 (a : addrs) (src dst : Z) (p : payload) : list txc * (Z + tx_status) :=
  if negb (mem src (ip4_unicast a) || mem src (a_mcast4 a) || mem src (ip4_broadcasts a) || (src =? 0))
  then ([ip4__src_not_owned__drop], inr Ip4SrcNotOwned)
  else if mem src (a_mcast4 a) then
    match ip4_unicast a with
    | x :: _ => ([ip4__src_multicast__replace], inl x)
    | [] => ([ip4__src_multicast__drop], inr Ip4SrcMulticast)
    end
  else if ip4_is_limited_broadcast src then
    match ip4_unicast a with
    | x :: _ => ([ip4__src_limited_broadcast__replace], inl x)
    | [] => ([ip4__src_limited_broadcast__drop], inr Ip4SrcLimitedBroadcast)
    end
  else
    match (if mem src (ip4_broadcasts a)
           then find (fun h => ip4_broadcast (h_net h) =? src) (a_host4 a) else None) with
    | Some h => ([ip4__src_network_broadcast__replace], inl (h_addr h))
    | None =>
        if negb (ip4_is_unspecified src) then ([], inl src)
        else match pick_by_net 32 (a_host4 a) dst with
        | Some x => ([ip4__src_network_unspecified__replace_local], inl x)
        | None =>
            match pick_by_gw (a_host4 a) with
            | Some x => ([ip4__src_network_unspecified__replace_external], inl x)
            | None =>
                match p with
                | PUdp 68 67 _ => ([ip4__src_unspecified__send], inl src)
                | _ => ([ip4__src_unspecified__drop], inr Ip4SrcUnspecified)
                end
            end
        end
    end.

(** the loop that sends the fragments, ip4/phtx.py:294-308 *)
Fixpoint x_frags4 (src dst : Z) (l : list (ip4_tx * bytes)) : X (list tx_status) :=
  match l with
  | [] => quiet (ret [])
  | (t, d) :: r =>
      _ <$ count [ip4__mtu_exceed__frag__send] ;;
      x <$ x_ether_ip4 src dst (NIp4Frag t d) ;; xs <$ x_frags4 src dst r ;; quiet (ret (x :: xs))
  end.

(** _phtx_ip4, ip4/phtx.py:232-321, and _validate_dst_ip4_address, ip4/phtx.py:214-229 *)
Definition x_ip4 (src dst ttl : Z) (p : payload) : X tx_status :=
  _ <$ count [ip4__pre_assemble] ;;
  xassert ((0 <? ttl) && (ttl <? 256))
  (a <$ quiet (gets s_addrs) ;;
   if negb (a_sup4 a) then x_drop ip4__no_proto_support__drop Ip4NoSupport
   else
     let v := x_src4 a src dst p in
     _ <$ count (fst v) ;;
     match snd v with
     | inr st => quiet (ret st)
     | inl src =>
         if ip4_is_unspecified dst then x_drop ip4__dst_unspecified__drop Ip4DstUnspecified
         else
           let t := ip4_whole_tx src dst ttl (payload_proto p) in
           let c := payload_carried p in
           xassert (ip4_tx_ok t)
           (if ip4_len t (c_len c) <=? TAP_MTU then
              _ <$ count [ip4__mtu_ok__send] ;; x_ether_ip4 src dst (NIp4 t p)
            else
              _ <$ count [ip4__mtu_exceed__frag] ;;
              id0 <$ quiet (gets s_id4) ;;
              match ip4_fragment TAP_MTU src dst ttl (payload_proto p) id0 c with
              | Ok (fs, id) =>
                  _ <$ quiet (upd (set_id4 id)) ;;
                  l <$ x_frags4 src dst fs ;;
                  quiet (ret (worst severity4 Ip4Unknown l))
              | Exn AssertionError => _ <$ quiet (upd (set_id4 (id0 + 1))) ;; quiet (raise AssertionError)
              | Exn e => quiet (raise e)
              end)
     end).

(** ** IPv6 *)

(** NdCache.find_entry, nd_cache.py:162-183 *)
Definition x_nd_find (solicit : Z -> X unit) (ip : Z) : X (option Z) :=
  c <$ quiet (gets s_nd) ;;
  match cache_get ip c with
  | Some e => _ <$ quiet (upd (set_nd (cache_set ip (hit e) c))) ;; quiet (ret (Some (ce_mac e)))
  | None => _ <$ solicit ip ;; quiet (ret None)
  end.

(** _phtx_ether for an IPv6 packet, ether/phtx.py:87-108,121-199 *)
Definition x_ether_ip6 (solicit : Z -> X unit) (src dst : Z) (p : netpkt) : X tx_status :=
  _ <$ ether_head 0 ;;
  _ <$ count [ether__dst_unspec__ip6_lookup] ;;
  a <$ quiet (gets s_addrs) ;;
  if ip6_is_multicast dst then
    _ <$ count [ether__dst_unspec__ip6_lookup__multicast__send] ;;
    m <$ quiet (lift (ip6_multicast_mac dst)) ;; quiet (ether_send 0 m p)
  else match find (fun h => (h_addr h =? src) && negb (net_contains 128 (h_net h) dst)) (a_host6 a) with
  | Some h =>
      match h_gw h with
      | None => x_drop ether__dst_unspec__ip6_lookup__extnet__no_gw__drop EtherNoGatewayIp6
      | Some g => m <$ x_nd_find solicit g ;;
          match m with
          | Some mac => x_send ether__dst_unspec__ip6_lookup__extnet__gw_nd_cache_hit__send 0 mac p
          | None => x_drop ether__dst_unspec__ip6_lookup__extnet__gw_nd_cache_miss__drop EtherGatewayNdCacheFail
          end
      end
  | None => m <$ x_nd_find solicit dst ;;
      match m with
      | Some mac => x_send ether__dst_unspec__ip6_lookup__locnet__nd_cache_hit__send 0 mac p
      | None => x_drop ether__dst_unspec__ip6_lookup__locnet__nd_cache_miss__drop EtherNdCacheFail
      end
  end.

(** _validate_src_ip6_address, ip6/phtx.py:63-187 *)
Definition x_src6 (a : addrs) (src dst : Z) (p : payload) : list txc * (Z + tx_status) :=
  if negb (mem src (ip6_unicast a) || mem src (a_mcast6 a) || (src =? 0)) then ([ip6__src_not_owned__drop], inr Ip6SrcNotOwned)
  else if mem src (a_mcast6 a) then
    match ip6_unicast a with
    | x :: _ => ([ip6__src_multicast__replace], inl x)
    | [] => ([ip6__src_multicast__drop], inr Ip6SrcMulticast)
    end
  else if negb (ip6_is_unspecified src) then ([], inl src)
  else match pick_by_net 128 (a_host6 a) dst with
  | Some x => ([ip6__src_network_unspecified__replace_local], inl x)
  | None =>
      match pick_by_gw (a_host6 a) with
      | Some x => ([ip6__src_network_unspecified__replace_external], inl x)
      | None =>
          match p with
          | PIcmp6 (T6Ns _ []) => ([ip6__src_unspecified__send], inl src)
          | PIcmp6 (T6Mld2 _) => ([ip6__src_unspecified__send], inl src)
          | _ => ([ip6__src_unspecified__drop], inr Ip6SrcUnspecified)
          end
      end
  end.

(** the loop of _phtx_ip6_ext_frag, ip6_ext_frag/phtx.py:72-91 *)
Fixpoint x_frags6 (send : payload -> X tx_status) (next id : Z) (l : list (Z * bool * bytes)) : X (list tx_status) :=
  match l with
  | [] => quiet (ret [])
  | x :: r =>
      _ <$ count [ip6_ext_frag__send] ;;
      st <$ send (PFrag6 next id x) ;; xs <$ x_frags6 send next id r ;; quiet (ret (st :: xs))
  end.

(** _phtx_ip6, ip6/phtx.py:208-269, and _phtx_ip6_ext_frag, ip6_ext_frag/phtx.py:54-104;
    the solicitation goes through _phtx_icmp6, icmp6/phtx.py:100,173-180 *)
Fixpoint x_ip6_fuel (fuel : nat) (src dst hop : Z) (p : payload) : X tx_status :=
  match fuel with
  | O => quiet (raise OutOfFuel)
  | S fuel' =>
      let solicit target :=
        a <$ quiet (gets s_addrs) ;;
        sn <$ quiet (lift (ip6_solicited_node_multicast target)) ;;
        _ <$ count [icmp6__pre_assemble; icmp6__nd_neighbor_solicitation__send] ;;
        _ <$ x_ip6_fuel fuel' (ns_source (a_host6 a) target) sn 255 (PIcmp6 (T6Ns target [TSlla (a_mac a)])) ;;
        quiet (ret tt) in
      _ <$ count [ip6__pre_assemble] ;;
      xassert ((0 <? hop) && (hop <? 256))
      (a <$ quiet (gets s_addrs) ;;
       if negb (a_sup6 a) then x_drop ip6__no_proto_support__drop Ip6NoSupport
       else
         let v := x_src6 a src dst p in
         _ <$ count (fst v) ;;
         match snd v with
         | inr st => quiet (ret st)
         | inl src =>
             if ip6_is_unspecified dst then x_drop ip6__dst_unspecified__drop Ip6DstUnspecified
             else
               let t := ip6_plain_tx src dst hop (payload_next p) in
               let c := payload_carried p in
               xassert (ip6_tx_ok t)
               (if 40 + c_len c <=? TAP_MTU then
                  _ <$ count [ip6__mtu_ok__send] ;; x_ether_ip6 solicit src dst (NIp6 t p)
                else
                  _ <$ count [ip6__mtu_exceed__frag; ip6_ext_frag__pre_assemble] ;;
                  id0 <$ quiet (gets s_id6) ;;
                  fi <$ quiet (lift (ip6_fragment TAP_MTU src dst (payload_next p) id0 c)) ;;
                  _ <$ quiet (upd (set_id6 (snd fi))) ;;
                  xassert (frag6_next_ok (payload_next p))
                  (l <$ x_frags6 (x_ip6_fuel fuel' src dst 64) (payload_next p) (snd fi) (fst fi) ;;
                   quiet (ret (worst severity6 Ip6FragUnknown l))))
         end)
  end.
Definition x_ip6 (src dst hop : Z) (p : payload) : X tx_status := x_ip6_fuel 3 src dst hop p.

(** ** transport *)

(** _phtx_udp, udp/phtx.py:54-96 *)
Definition x_udp (src dst : ipaddr) (sport dport : Z) (data : bytes) : X tx_status :=
  _ <$ count [udp__pre_assemble] ;;
  xassert ((0 <=? sport) && (sport <=? 0xFFFF))
  (xassert ((0 <=? dport) && (dport <=? 0xFFFF))
   match src, dst with
   | A6 s, A6 d => _ <$ count [udp__send] ;; x_ip6 s d 64 (PUdp sport dport data)
   | A4 s, A4 d => _ <$ count [udp__send] ;; x_ip4 s d 64 (PUdp sport dport data)
   | _, _ => x_drop udp__unknown__drop UdpUnknown
   end).

(** the counters of "if tcp_mss", "if tcp_wscale", tcp/phtx.py:105-113 *)
Definition tcp_opt_counts (mss wscale : option Z) : list txc :=
  match mss with Some m => if m =? 0 then [] else [tcp__opt_mss] | None => [] end
  ++ match wscale with Some w => if w =? 0 then [] else [tcp__opt_nop; tcp__opt_wscale] | None => [] end.
(** _phtx_tcp, tcp/phtx.py:65-182; no caller sets NS, CRW, ECE, URG or PSH *)
Definition x_tcp (src dst : ipaddr) (sport dport seq ack : Z) (fsyn fack ffin frst : bool) (win : Z)
    (mss wscale : option Z) (data : bytes) : X tx_status :=
  let t := {| x_sport := sport; x_dport := dport; x_seq := seq; x_ack := ack;
              x_fns := false; x_fcrw := false; x_fece := false; x_furg := false; x_fack := fack;
              x_fpsh := false; x_frst := frst; x_fsyn := fsyn; x_ffin := ffin;
              x_win := win; x_urp := 0; x_opts := tcp_phtx_opts mss wscale; x_data := data |} in
  _ <$ count (tcp__pre_assemble :: tcp_opt_counts mss wscale) ;;
  xassert (tcp_tx_ok t)
  (_ <$ count (when fack tcp__flag_ack ++ when frst tcp__flag_rst ++ when fsyn tcp__flag_syn ++ when ffin tcp__flag_fin) ;;
   match src, dst with
   | A6 s, A6 d => _ <$ count [tcp__send] ;; x_ip6 s d 64 (PTcp t)
   | A4 s, A4 d => _ <$ count [tcp__send] ;; x_ip4 s d 64 (PTcp t)
   | _, _ => x_drop tcp__unknown__drop TcpUnknown
   end).

(** _phtx_icmp4, icmp4/phtx.py:59-114; what follows the three messages is not reached,
    Icmp4Assembler has raised *)
Definition icmp4_counter (t : icmp4_tx) : txc :=
  match t with
  | T4EchoReply _ _ _ => icmp4__echo_reply__send
  | T4EchoRequest _ _ _ => icmp4__echo_request__send
  | T4UnreachPort _ => icmp4__unreachable_port__send
  end.
Definition x_icmp4 (src dst type code id seq : Z) (ec_data un_data : bytes) : X tx_status :=
  _ <$ count [icmp4__pre_assemble] ;;
  t <$ quiet (lift (icmp4_new type code id seq ec_data un_data)) ;;
  _ <$ count [icmp4_counter t] ;; x_ip4 src dst 64 (PIcmp4 t).
(** _phtx_icmp6, icmp6/phtx.py:71-203, likewise *)
Definition icmp6_counter (t : icmp6_tx) : txc :=
  match t with
  | T6UnreachPort _ => icmp6__unreachable_port__send
  | T6EchoRequest _ _ _ => icmp6__echo_request__send
  | T6EchoReply _ _ _ => icmp6__echo_reply__send
  | T6Rs _ => icmp6__nd_router_solicitation__send
  | T6Ra _ _ _ _ _ _ _ => icmp6__nd_router_advertisement__send
  | T6Ns _ _ => icmp6__nd_neighbor_solicitation__send
  | T6Na _ _ _ _ _ => icmp6__nd_neighbor_advertisement__send
  | T6Mld2 _ => icmp6__mld2_report__send
  end.
Definition x_icmp6 (src dst hop : Z) (t : icmp6_tx) : X tx_status :=
  _ <$ count [icmp6__pre_assemble] ;;
  t <$ quiet (lift (icmp6_new t)) ;;
  _ <$ count [icmp6_counter t] ;; x_ip6 src dst hop (PIcmp6 t).

(** send_request of StackModel *)
Definition x_request (q : request) : X tx_status :=
  match q with
  | QArp esrc edst p => x_arp esrc edst p
  | QIp4 src dst ttl p => x_ip4 src dst ttl p
  | QIp6 src dst hop p => x_ip6 src dst hop p
  | QUdp src dst sport dport data => x_udp src dst sport dport data
  | QTcp src dst sport dport seq ack fsyn fack ffin frst win mss wscale data =>
      x_tcp src dst sport dport seq ack fsyn fack ffin frst win mss wscale data
  | QIcmp4 src dst type code id seq ec_data un_data => x_icmp4 src dst type code id seq ec_data un_data
  | QIcmp6 src dst hop t => x_icmp6 src dst hop t
  end.
(** the counters one request increments *)
Definition spent (q : request) (s : stack) : list txc := fst (x_request q s).
(** the counters, the results and the state after a sequence of requests *)
Fixpoint x_requests (l : list request) (s : stack) : list txc * (stack * list (res tx_status)) :=
  match l with
  | [] => ([], (s, []))
  | q :: r =>
      let '(c, (s', x)) := x_request q s in
      let '(c', (s'', xs)) := x_requests r s' in
      (c ++ c', (s'', x :: xs))
  end.
