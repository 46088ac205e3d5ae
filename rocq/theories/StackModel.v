(** The packet handler's transmit side with the ARP and ND caches.  No proofs here.

    Not part of the state: packet statistics, trackers and log text.  A handler runs
    to completion before another thread touches the state. *)
From Verif Require Import Base CodecModel AddrModel EtherModel Ip4Model Ip6Model UdpModel TcpModel
  Icmp4Model Icmp6Model FragModel RingModel.

(** ** packets to send *)

(** the assembler objects a network-layer packet may carry *)
Inductive payload :=
| PUdp (sport dport : Z) (data : bytes)
| PTcp (t : tcp_tx)
| PIcmp4 (t : icmp4_tx)
| PIcmp6 (t : icmp6_tx)
| PFrag6 (next id : Z) (x : Z * bool * bytes)
| PRaw (data : bytes).
Definition payload_carried (p : payload) : carried :=
  match p with
  | PUdp sport dport data => udp_carried sport dport data
  | PTcp t => tcp_carried t
  | PIcmp4 t => icmp4_carried t
  | PIcmp6 t => icmp6_carried t
  | PFrag6 next id x => ip6_frag_carried next id x
  | PRaw data => raw_carried data
  end.
(** the class attribute ip4_proto (udp/fpa.py:53, tcp/fpa.py:69, icmp4/fpa.py:60,
    raw/fpa.py:52); ICMPv6 and the IPv6 fragment header have none *)
Definition payload_proto (p : payload) : Z :=
  match p with
  | PUdp _ _ _ => IP4_PROTO_UDP | PTcp _ => IP4_PROTO_TCP | PIcmp4 _ => IP4_PROTO_ICMP4
  | PRaw _ => IP4_PROTO_RAW | _ => -1
  end.
(** the class attribute ip6_next (udp/fpa.py:52, tcp/fpa.py:68, icmp6/fpa.py:84,
    ip6_ext_frag/fpa.py:62, raw/fpa.py:51); ICMPv4 has none *)
Definition payload_next (p : payload) : Z :=
  match p with
  | PUdp _ _ _ => IP6_NEXT_UDP | PTcp _ => IP6_NEXT_TCP | PIcmp6 _ => IP6_NEXT_ICMP6
  | PFrag6 _ _ _ => IP6_NEXT_EXT_FRAG | PRaw _ => IP6_NEXT_RAW | _ => -1
  end.

(** what an Ethernet frame may carry: ArpAssembler, Ip4Assembler, Ip4FragAssembler,
    Ip6Assembler, RawAssembler *)
Inductive netpkt :=
| NArp (p : arp) | NIp4 (t : ip4_tx) (p : payload) | NIp4Frag (t : ip4_tx) (data : bytes)
| NIp6 (t : ip6_tx) (p : payload) | NRaw (data : bytes).
Definition netpkt_type (p : netpkt) : Z :=
  match p with
  | NArp _ => ETHER_TYPE_ARP | NIp4 _ _ | NIp4Frag _ _ => ETHER_TYPE_IP4 | NIp6 _ _ => ETHER_TYPE_IP6
  | NRaw _ => ETHER_TYPE_RAW
  end.
Definition netpkt_carried (p : netpkt) : carried :=
  match p with
  | NArp a => arp_carried a
  | NIp4 t p => ip4_carried t (payload_carried p)
  | NIp4Frag t d => ip4_frag_carried t d
  | NIp6 t p => ip6_carried t (payload_carried p)
  | NRaw d => raw_carried d
  end.
(** an EtherAssembler, ether/fpa.py:64-98 *)
Record oframe := { f_dst : Z; f_src : Z; f_pkt : netpkt }.
(** the same object as the transmit ring sees it *)
Definition frame_of (f : oframe) : frame_tx :=
  {| RingModel.e_dst := f_dst f; RingModel.e_src := f_src f; RingModel.e_type := netpkt_type (f_pkt f);
     e_car := netpkt_carried (f_pkt f) |}.

(** lib/tx_status.py:41-84, those that the code returns *)
Inductive tx_status :=
| PassedToTxRing
| EtherArpCacheFail | EtherNdCacheFail | EtherNoGatewayIp4 | EtherNoGatewayIp6
| EtherGatewayArpCacheFail | EtherGatewayNdCacheFail | EtherResolutionFail
| ArpNoSupport
| Ip4NoSupport | Ip4SrcNotOwned | Ip4SrcMulticast | Ip4SrcLimitedBroadcast | Ip4SrcUnspecified
| Ip4DstUnspecified | Ip4Unknown
| Ip6NoSupport | Ip6SrcNotOwned | Ip6SrcMulticast | Ip6SrcUnspecified | Ip6DstUnspecified
| Ip6FragUnknown
| UdpUnknown | TcpUnknown | Icmp4Unknown.
Definition tx_status_eqb (a b : tx_status) : bool :=
  match a, b with
  | PassedToTxRing, PassedToTxRing | EtherArpCacheFail, EtherArpCacheFail
  | EtherNdCacheFail, EtherNdCacheFail | EtherNoGatewayIp4, EtherNoGatewayIp4
  | EtherNoGatewayIp6, EtherNoGatewayIp6 | EtherGatewayArpCacheFail, EtherGatewayArpCacheFail
  | EtherGatewayNdCacheFail, EtherGatewayNdCacheFail | EtherResolutionFail, EtherResolutionFail
  | ArpNoSupport, ArpNoSupport | Ip4NoSupport, Ip4NoSupport | Ip4SrcNotOwned, Ip4SrcNotOwned
  | Ip4SrcMulticast, Ip4SrcMulticast | Ip4SrcLimitedBroadcast, Ip4SrcLimitedBroadcast
  | Ip4SrcUnspecified, Ip4SrcUnspecified | Ip4DstUnspecified, Ip4DstUnspecified
  | Ip4Unknown, Ip4Unknown | Ip6NoSupport, Ip6NoSupport | Ip6SrcNotOwned, Ip6SrcNotOwned
  | Ip6SrcMulticast, Ip6SrcMulticast | Ip6SrcUnspecified, Ip6SrcUnspecified
  | Ip6DstUnspecified, Ip6DstUnspecified | Ip6FragUnknown, Ip6FragUnknown
  | UdpUnknown, UdpUnknown | TcpUnknown, TcpUnknown | Icmp4Unknown, Icmp4Unknown => true
  | _, _ => false
  end.

(** ** state *)

(** what PacketHandler.__init__ keeps about addresses, packet_handler.py:139-176, and
    config.IP4_SUPPORT / IP6_SUPPORT, which the address acquisition may switch off *)
Record addrs := {
  a_mac : Z; a_mac_mcast : list Z;
  a_host4 : list host; a_mcast4 : list Z;
  a_host6 : list host; a_mcast6 : list Z;
  a_cand4 : list host;             (* ip4_host_candidate *)
  a_cand6 : option Z;              (* ip6_unicast_candidate *)
  a_sup4 : bool; a_sup6 : bool }.
(** ip4_unicast, ip4_broadcast, ip6_unicast, packet_handler.py:307-328 *)
Definition ip4_unicast (a : addrs) : list Z := map h_addr (a_host4 a).
Definition ip4_broadcasts (a : addrs) : list Z :=
  map (fun h => ip4_broadcast (h_net h)) (a_host4 a) ++ [0xFFFFFFFF].
Definition ip6_unicast (a : addrs) : list Z := map h_addr (a_host6 a).

(** x in l *)
Definition mem (x : Z) (l : list Z) : bool := existsb (Z.eqb x) l.

(** CacheEntry, arp_cache.py:57-71, nd_cache.py:61-75; times in milliseconds *)
Record entry := { ce_mac : Z; ce_perm : bool; ce_time : Z; ce_hits : Z }.
(** _arp_cache / _nd_cache: each key occurs once, in order of first insertion *)
Definition cache := list (Z * entry).
Definition cache_get (k : Z) (c : cache) : option entry :=
  match find (fun kv => k =? fst kv) c with Some kv => Some (snd kv) | None => None end.
Fixpoint cache_set (k : Z) (v : entry) (c : cache) : cache :=
  match c with
  | [] => [(k, v)]
  | (k', v') :: r => if k =? k' then (k, v) :: r else (k', v') :: cache_set k v r
  end.
Definition cache_del (k : Z) (c : cache) : cache := filter (fun kv => negb (k =? fst kv)) c.

(** The part of the stack that sending touches: addresses, caches, packet ids, the
    clock, and everything handed to tx_ring.enqueue so far. *)
Record stack := {
  s_addrs : addrs; s_arp : cache; s_nd : cache; s_id4 : Z; s_id6 : Z; s_now : Z; s_out : list oframe }.
Definition set_addrs (a : addrs) (s : stack) : stack :=
  {| s_addrs := a; s_arp := s_arp s; s_nd := s_nd s; s_id4 := s_id4 s; s_id6 := s_id6 s; s_now := s_now s; s_out := s_out s |}.
Definition set_arp (c : cache) (s : stack) : stack :=
  {| s_addrs := s_addrs s; s_arp := c; s_nd := s_nd s; s_id4 := s_id4 s; s_id6 := s_id6 s; s_now := s_now s; s_out := s_out s |}.
Definition set_nd (c : cache) (s : stack) : stack :=
  {| s_addrs := s_addrs s; s_arp := s_arp s; s_nd := c; s_id4 := s_id4 s; s_id6 := s_id6 s; s_now := s_now s; s_out := s_out s |}.
Definition set_id4 (n : Z) (s : stack) : stack :=
  {| s_addrs := s_addrs s; s_arp := s_arp s; s_nd := s_nd s; s_id4 := n; s_id6 := s_id6 s; s_now := s_now s; s_out := s_out s |}.
Definition set_id6 (n : Z) (s : stack) : stack :=
  {| s_addrs := s_addrs s; s_arp := s_arp s; s_nd := s_nd s; s_id4 := s_id4 s; s_id6 := n; s_now := s_now s; s_out := s_out s |}.
Definition set_now (t : Z) (s : stack) : stack :=
  {| s_addrs := s_addrs s; s_arp := s_arp s; s_nd := s_nd s; s_id4 := s_id4 s; s_id6 := s_id6 s; s_now := t; s_out := s_out s |}.
(** _send_out_packet: tx_ring.enqueue, ether/phtx.py:61-63 *)
Definition put_out (f : oframe) (s : stack) : stack :=
  {| s_addrs := s_addrs s; s_arp := s_arp s; s_nd := s_nd s; s_id4 := s_id4 s; s_id6 := s_id6 s; s_now := s_now s;
     s_out := s_out s ++ [f] |}.

(** statements that change the state and may raise; the state changes made before the
    exception stay *)
Definition M (A : Type) := stack -> stack * res A.
Definition ret {A} (a : A) : M A := fun s => (s, Ok a).
Definition raise {A} (e : exn) : M A := fun s => (s, Exn e).
Definition mbind {A B} (m : M A) (k : A -> M B) : M B :=
  fun s => match m s with (s', Ok a) => k a s' | (s', Exn e) => (s', Exn e) end.
Notation "x <~ m ;; k" := (mbind m (fun x => k)) (at level 61, m at next level, right associativity).
Definition lift {A} (r : res A) : M A := fun s => (s, r).
Definition gets {A} (f : stack -> A) : M A := fun s => (s, Ok (f s)).
Definition upd (f : stack -> stack) : M unit := fun s => (f s, Ok tt).
Definition massert {A} (b : bool) (k : M A) : M A := if b then k else raise AssertionError.

(** ** Ethernet and ARP *)

(** MacAddress(0xFFFFFFFFFFFF) *)
Definition mac_broadcast := 0xFFFFFFFFFFFF.

(** the end of every successful branch: fill in the destination and enqueue,
    ether/phtx.py:93-100,61-63 *)
Definition ether_send (src dst : Z) (p : netpkt) : M tx_status :=
  a <~ gets s_addrs ;;
  _ <~ upd (put_out {| f_dst := dst; f_src := if mac_is_unspecified src then a_mac a else src; f_pkt := p |}) ;;
  ret PassedToTxRing.

(** _phtx_arp, arp/phtx.py:55-100, through the first branches of _phtx_ether: a
    specified destination is used, anything else fails, ether/phtx.py:111-119,317-324 *)
Definition phtx_arp (esrc edst : Z) (p : arp) : M tx_status :=
  a <~ gets s_addrs ;;
  if negb (a_sup4 a) then ret ArpNoSupport
  else massert ((a_oper p =? ARP_OP_REQUEST) || (a_oper p =? ARP_OP_REPLY))
    (if negb (mac_is_unspecified edst) then ether_send esrc edst (NArp p)
     else ret EtherResolutionFail).

(** ArpCache.add_entry, arp_cache.py:144-155 *)
Definition arp_add (ip mac : Z) : M unit :=
  upd (fun s => set_arp (cache_set ip {| ce_mac := mac; ce_perm := false; ce_time := s_now s; ce_hits := 0 |} (s_arp s)) s).
(** ArpCache._send_arp_request, arp_cache.py:179-193 *)
Definition send_arp_request (tpa : Z) : M unit :=
  a <~ gets s_addrs ;;
  _ <~ phtx_arp (a_mac a) mac_broadcast
        {| a_oper := ARP_OP_REQUEST; a_sha := a_mac a;
           a_spa := match ip4_unicast a with x :: _ => x | [] => 0 end; a_tha := 0; a_tpa := tpa |} ;;
  ret tt.
Definition hit (e : entry) : entry :=
  {| ce_mac := ce_mac e; ce_perm := ce_perm e; ce_time := ce_time e; ce_hits := ce_hits e + 1 |}.
(** ArpCache.find_entry, arp_cache.py:157-177 *)
Definition arp_find (ip : Z) : M (option Z) :=
  c <~ gets s_arp ;;
  match cache_get ip c with
  | Some e => _ <~ upd (set_arp (cache_set ip (hit e) c)) ;; ret (Some (ce_mac e))
  | None => _ <~ send_arp_request ip ;; ret None
  end.

(** _phtx_ether for an IPv4 packet or fragment with no link-layer destination,
    ether/phtx.py:201-315; the source is filled in by ether_send *)
Definition ether_ip4 (src dst : Z) (p : netpkt) : M tx_status :=
  a <~ gets s_addrs ;;
  if ip4_is_multicast dst then m <~ lift (ip4_multicast_mac dst) ;; ether_send 0 m p
  else if ip4_is_limited_broadcast dst then ether_send 0 mac_broadcast p
  else if existsb (fun h => (h_addr h =? src) && ((dst =? n_addr (h_net h)) || (dst =? ip4_broadcast (h_net h))))
                  (a_host4 a)
  then ether_send 0 mac_broadcast p
  else match find (fun h => (h_addr h =? src) && negb (net_contains 32 (h_net h) dst)) (a_host4 a) with
  | Some h =>
      match h_gw h with
      | None => ret EtherNoGatewayIp4
      | Some g => m <~ arp_find g ;;
          match m with Some mac => ether_send 0 mac p | None => ret EtherGatewayArpCacheFail end
      end
  | None => m <~ arp_find dst ;;
      match m with Some mac => ether_send 0 mac p | None => ret EtherArpCacheFail end
  end.

(** ** IPv4 *)

(** _validate_src_ip4_address, ip4/phtx.py:59-211; [inr] is the returned TxStatus *)
Definition validate_src4 (a : addrs) (src dst : Z) (p : payload) : Z + tx_status :=
  if negb (mem src (ip4_unicast a) || mem src (a_mcast4 a) || mem src (ip4_broadcasts a) || (src =? 0))
  then inr Ip4SrcNotOwned
  else if mem src (a_mcast4 a) then
    match ip4_unicast a with x :: _ => inl x | [] => inr Ip4SrcMulticast end
  else if ip4_is_limited_broadcast src then
    match ip4_unicast a with x :: _ => inl x | [] => inr Ip4SrcLimitedBroadcast end
  else
    match (if mem src (ip4_broadcasts a)
           then find (fun h => ip4_broadcast (h_net h) =? src) (a_host4 a) else None) with
    | Some h => inl (h_addr h)
    | None =>
        if negb (ip4_is_unspecified src) then inl src
        else match pick_by_net 32 (a_host4 a) dst with
        | Some x => inl x
        | None =>
            match pick_by_gw (a_host4 a) with
            | Some x => inl x
            | None =>
                match p with
                | PUdp 68 67 _ => inl src
                | _ => inr Ip4SrcUnspecified
                end
            end
        end
    end.

(** the statuses in the order in which _phtx_ip4 looks for them, ip4/phtx.py:311-317 *)
Definition severity4 : list tx_status :=
  [EtherResolutionFail; EtherNoGatewayIp4; EtherArpCacheFail; EtherGatewayArpCacheFail; PassedToTxRing].
Definition worst (order : list tx_status) (dflt : tx_status) (l : list tx_status) : tx_status :=
  match find (fun x => existsb (tx_status_eqb x) l) order with Some x => x | None => dflt end.

(** the loop that sends the fragments, ip4/phtx.py:294-308 *)
Fixpoint send_frags4 (src dst : Z) (l : list (ip4_tx * bytes)) : M (list tx_status) :=
  match l with
  | [] => ret []
  | (t, d) :: r => x <~ ether_ip4 src dst (NIp4Frag t d) ;; xs <~ send_frags4 src dst r ;; ret (x :: xs)
  end.

(** _phtx_ip4, ip4/phtx.py:232-321 *)
Definition phtx_ip4 (src dst ttl : Z) (p : payload) : M tx_status :=
  massert ((0 <? ttl) && (ttl <? 256))
  (a <~ gets s_addrs ;;
   if negb (a_sup4 a) then ret Ip4NoSupport
   else match validate_src4 a src dst p with
   | inr st => ret st
   | inl src =>
       if ip4_is_unspecified dst then ret Ip4DstUnspecified
       else
         let t := ip4_whole_tx src dst ttl (payload_proto p) in
         let c := payload_carried p in
         massert (ip4_tx_ok t)
         (if ip4_len t (c_len c) <=? TAP_MTU then ether_ip4 src dst (NIp4 t p)
          else
            id0 <~ gets s_id4 ;;
            match ip4_fragment TAP_MTU src dst ttl (payload_proto p) id0 c with
            | Ok (fs, id) =>
                _ <~ upd (set_id4 id) ;;
                l <~ send_frags4 src dst fs ;;
                ret (worst severity4 Ip4Unknown l)
            | Exn AssertionError => _ <~ upd (set_id4 (id0 + 1)) ;; raise AssertionError
            | Exn e => raise e
            end)
   end).

(** ** IPv6 and the ND cache *)

(** NdCache.add_entry, nd_cache.py:149-160 *)
Definition nd_add (ip mac : Z) : M unit :=
  upd (fun s => set_nd (cache_set ip {| ce_mac := mac; ce_perm := false; ce_time := s_now s; ce_hits := 0 |} (s_nd s)) s).
(** the loop that picks the source of a solicitation, nd_cache.py:193-196: the last
    host whose network has the target *)
Definition ns_source (hosts : list host) (target : Z) : Z :=
  fold_left (fun acc h => if net_contains 128 (h_net h) target then h_addr h else acc) hosts 0.
(** NdCache.find_entry, nd_cache.py:162-183; [solicit] sends the solicitation *)
Definition nd_find (solicit : Z -> M unit) (ip : Z) : M (option Z) :=
  c <~ gets s_nd ;;
  match cache_get ip c with
  | Some e => _ <~ upd (set_nd (cache_set ip (hit e) c)) ;; ret (Some (ce_mac e))
  | None => _ <~ solicit ip ;; ret None
  end.

(** _phtx_ether for an IPv6 packet with no link-layer destination, ether/phtx.py:121-199 *)
Definition ether_ip6 (solicit : Z -> M unit) (src dst : Z) (p : netpkt) : M tx_status :=
  a <~ gets s_addrs ;;
  if ip6_is_multicast dst then m <~ lift (ip6_multicast_mac dst) ;; ether_send 0 m p
  else match find (fun h => (h_addr h =? src) && negb (net_contains 128 (h_net h) dst)) (a_host6 a) with
  | Some h =>
      match h_gw h with
      | None => ret EtherNoGatewayIp6
      | Some g => m <~ nd_find solicit g ;;
          match m with Some mac => ether_send 0 mac p | None => ret EtherGatewayNdCacheFail end
      end
  | None => m <~ nd_find solicit dst ;;
      match m with Some mac => ether_send 0 mac p | None => ret EtherNdCacheFail end
  end.

(** _validate_src_ip6_address, ip6/phtx.py:63-187 *)
Definition validate_src6 (a : addrs) (src dst : Z) (p : payload) : Z + tx_status :=
  if negb (mem src (ip6_unicast a) || mem src (a_mcast6 a) || (src =? 0)) then inr Ip6SrcNotOwned
  else if mem src (a_mcast6 a) then
    match ip6_unicast a with x :: _ => inl x | [] => inr Ip6SrcMulticast end
  else if negb (ip6_is_unspecified src) then inl src
  else match pick_by_net 128 (a_host6 a) dst with
  | Some x => inl x
  | None =>
      match pick_by_gw (a_host6 a) with
      | Some x => inl x
      | None =>
          match p with
          | PIcmp6 (T6Ns _ []) => inl src
          | PIcmp6 (T6Mld2 _) => inl src
          | _ => inr Ip6SrcUnspecified
          end
      end
  end.

(** ip6_ext_frag/phtx.py:94-100 *)
Definition severity6 : list tx_status :=
  [EtherResolutionFail; EtherNoGatewayIp6; EtherNdCacheFail; EtherGatewayNdCacheFail; PassedToTxRing].

(** the loop of _phtx_ip6_ext_frag, ip6_ext_frag/phtx.py:72-91; [send] is _phtx_ip6 *)
Fixpoint send_frags6 (send : payload -> M tx_status) (next id : Z) (l : list (Z * bool * bytes)) : M (list tx_status) :=
  match l with
  | [] => ret []
  | x :: r => st <~ send (PFrag6 next id x) ;; xs <~ send_frags6 send next id r ;; ret (st :: xs)
  end.

(** the constructor's assertion of Ip6ExtFragAssembler, ip6_ext_frag/fpa.py:77-82 *)
Definition frag6_next_ok (next : Z) : bool :=
  (next =? IP6_NEXT_ICMP6) || (next =? IP6_NEXT_UDP) || (next =? IP6_NEXT_TCP) || (next =? IP6_NEXT_RAW).

(** _phtx_ip6, ip6/phtx.py:208-269, and _phtx_ip6_ext_frag, ip6_ext_frag/phtx.py:54-104.
    _phtx_ip6 is re-entered for the fragments of a packet and, through _phtx_ether and
    the ND cache, for neighbour solicitations (nd_cache.py:185-206, icmp6/phtx.py:173-180);
    [fuel] bounds the depth of that recursion. *)
Fixpoint phtx_ip6_fuel (fuel : nat) (src dst hop : Z) (p : payload) : M tx_status :=
  match fuel with
  | O => raise OutOfFuel
  | S fuel' =>
      let solicit target :=
        a <~ gets s_addrs ;;
        sn <~ lift (ip6_solicited_node_multicast target) ;;
        _ <~ phtx_ip6_fuel fuel' (ns_source (a_host6 a) target) sn 255 (PIcmp6 (T6Ns target [TSlla (a_mac a)])) ;;
        ret tt in
      massert ((0 <? hop) && (hop <? 256))
      (a <~ gets s_addrs ;;
       if negb (a_sup6 a) then ret Ip6NoSupport
       else match validate_src6 a src dst p with
       | inr st => ret st
       | inl src =>
           if ip6_is_unspecified dst then ret Ip6DstUnspecified
           else
             let t := ip6_plain_tx src dst hop (payload_next p) in
             let c := payload_carried p in
             massert (ip6_tx_ok t)
             (if 40 + c_len c <=? TAP_MTU then ether_ip6 solicit src dst (NIp6 t p)
              else
                id0 <~ gets s_id6 ;;
                fi <~ lift (ip6_fragment TAP_MTU src dst (payload_next p) id0 c) ;;
                _ <~ upd (set_id6 (snd fi)) ;;
                massert (frag6_next_ok (payload_next p))
                (l <~ send_frags6 (phtx_ip6_fuel fuel' src dst 64) (payload_next p) (snd fi) (fst fi) ;;
                 ret (worst severity6 Ip6FragUnknown l)))
       end)
  end.
(** a packet, its fragments, the solicitation for one of them: three levels *)
Definition phtx_ip6 (src dst hop : Z) (p : payload) : M tx_status := phtx_ip6_fuel 3 src dst hop p.

(** NdCache._send_icmp6_neighbor_solicitation called from outside, nd_cache.py:185-206 *)
Definition send_ns (target : Z) : M unit :=
  a <~ gets s_addrs ;;
  sn <~ lift (ip6_solicited_node_multicast target) ;;
  _ <~ phtx_ip6 (ns_source (a_host6 a) target) sn 255 (PIcmp6 (T6Ns target [TSlla (a_mac a)])) ;;
  ret tt.

(** ** transport *)

(** an IP address with its version *)
Inductive ipaddr := A4 (a : Z) | A6 (a : Z).

(** _phtx_udp, udp/phtx.py:54-96; the assertions are those of UdpAssembler,
    udp/fpa.py:64-65; config.IP4_DEFAULT_TTL = IP6_DEFAULT_HOP = 64 *)
Definition phtx_udp (src dst : ipaddr) (sport dport : Z) (data : bytes) : M tx_status :=
  massert ((0 <=? sport) && (sport <=? 0xFFFF))
  (massert ((0 <=? dport) && (dport <=? 0xFFFF))
   match src, dst with
   | A6 s, A6 d => phtx_ip6 s d 64 (PUdp sport dport data)
   | A4 s, A4 d => phtx_ip4 s d 64 (PUdp sport dport data)
   | _, _ => ret UdpUnknown
   end).

(** the options _phtx_tcp adds: "if tcp_mss", "if tcp_wscale" are false for None and 0,
    tcp/phtx.py:96-113 *)
Definition tcp_phtx_opts (mss wscale : option Z) : list tcp_topt :=
  match mss with Some m => if m =? 0 then [] else [TOMss m] | None => [] end
  ++ match wscale with Some w => if w =? 0 then [] else [TONop; TOWscale w] | None => [] end.
(** _phtx_tcp, tcp/phtx.py:65-182, with the arguments its callers give *)
Definition phtx_tcp (src dst : ipaddr) (sport dport seq ack : Z) (fsyn fack ffin frst : bool) (win : Z)
    (mss wscale : option Z) (data : bytes) : M tx_status :=
  let t := {| x_sport := sport; x_dport := dport; x_seq := seq; x_ack := ack;
              x_fns := false; x_fcrw := false; x_fece := false; x_furg := false; x_fack := fack;
              x_fpsh := false; x_frst := frst; x_fsyn := fsyn; x_ffin := ffin;
              x_win := win; x_urp := 0; x_opts := tcp_phtx_opts mss wscale; x_data := data |} in
  massert (tcp_tx_ok t)
  match src, dst with
  | A6 s, A6 d => phtx_ip6 s d 64 (PTcp t)
  | A4 s, A4 d => phtx_ip4 s d 64 (PTcp t)
  | _, _ => ret TcpUnknown
  end.

(** _phtx_icmp4, icmp4/phtx.py:59-114 *)
Definition phtx_icmp4 (src dst type code id seq : Z) (ec_data un_data : bytes) : M tx_status :=
  t <~ lift (icmp4_new type code id seq ec_data un_data) ;; phtx_ip4 src dst 64 (PIcmp4 t).
(** _phtx_icmp6, icmp6/phtx.py:71-203, for the messages Icmp6Assembler builds *)
Definition phtx_icmp6 (src dst hop : Z) (t : icmp6_tx) : M tx_status :=
  t <~ lift (icmp6_new t) ;; phtx_ip6 src dst hop (PIcmp6 t).

(** ** send requests: every way in which the rest of the stack and the applications ask
    for a packet to be sent, packet_handler.py:627-755 and the handlers' own calls *)
Inductive request :=
| QArp (esrc edst : Z) (p : arp)
| QIp4 (src dst ttl : Z) (p : payload)
| QIp6 (src dst hop : Z) (p : payload)
| QUdp (src dst : ipaddr) (sport dport : Z) (data : bytes)
| QTcp (src dst : ipaddr) (sport dport seq ack : Z) (fsyn fack ffin frst : bool) (win : Z)
       (mss wscale : option Z) (data : bytes)
| QIcmp4 (src dst type code id seq : Z) (ec_data un_data : bytes)
| QIcmp6 (src dst hop : Z) (t : icmp6_tx).
Definition send_request (q : request) : M tx_status :=
  match q with
  | QArp esrc edst p => phtx_arp esrc edst p
  | QIp4 src dst ttl p => phtx_ip4 src dst ttl p
  | QIp6 src dst hop p => phtx_ip6 src dst hop p
  | QUdp src dst sport dport data => phtx_udp src dst sport dport data
  | QTcp src dst sport dport seq ack fsyn fack ffin frst win mss wscale data =>
      phtx_tcp src dst sport dport seq ack fsyn fack ffin frst win mss wscale data
  | QIcmp4 src dst type code id seq ec_data un_data => phtx_icmp4 src dst type code id seq ec_data un_data
  | QIcmp6 src dst hop t => phtx_icmp6 src dst hop t
  end.
