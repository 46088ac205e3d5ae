(** The packet handler's receive side: from a frame taken off the receive ring to the
    sockets, the caches and the packets sent in reply.  No proofs here.

    Packet statistics, trackers and log text are not part of the state; what the log
    statements evaluate on a received packet is part of the parsers.  A frame is
    processed to completion before another thread touches the state.  For a TCP segment
    handed to a socket the model stops there: it records the call. *)
From Verif Require Import Base CodecModel AddrModel EtherModel Ip4Model Ip6Model UdpModel TcpModel
  Icmp4Model Icmp6Model FragModel StackModel.

(** ** sockets as the receive path sees them *)

Inductive sock_type := Stream | Dgram.
Definition sock_type_eqb (a b : sock_type) : bool :=
  match a, b with Stream, Stream | Dgram, Dgram => true | _, _ => false end.
Definition ipaddr_eqb (a b : ipaddr) : bool :=
  match a, b with A4 x, A4 y | A6 x, A6 y => x =? y | _, _ => false end.
(** The key of a socket in stack.sockets: the string
    "family/type/local address/local port/remote address/remote port" (lib/socket.py:152-159,
    udp/metadata.py:69-77, tcp/metadata.py:90-98), as a tuple.  The family is that of both
    addresses. *)
Record skey := { k_type : sock_type; k_lip : ipaddr; k_lport : Z; k_rip : ipaddr; k_rport : Z }.
Definition skey_eqb (a b : skey) : bool :=
  sock_type_eqb (k_type a) (k_type b) && ipaddr_eqb (k_lip a) (k_lip b) && (k_lport a =? k_lport b)
  && ipaddr_eqb (k_rip a) (k_rip b) && (k_rport a =? k_rport b).
(** stack.sockets, lib/stack.py:58: a dict from keys to socket objects, named by numbers *)
Definition sockets := list (skey * nat).
Definition sock_get (k : skey) (t : sockets) : option nat :=
  match find (fun kv => skey_eqb k (fst kv)) t with Some kv => Some (snd kv) | None => None end.

(** UdpMetadata as put into a socket's queue, udp/metadata.py:49-67 *)
Record umd := { m_lip : ipaddr; m_lport : Z; m_rip : ipaddr; m_rport : Z; m_data : bytes }.
(** a UdpSocket object, udp/socket.py:72-96; the value of the semaphore
    _packet_rx_md_ready is kept apart from the queue *)
Record usock := { u_lip : ipaddr; u_lport0 : Z; u_rip : ipaddr; u_rport : Z;
  u_queue : list umd; u_ready : Z; u_unreach : bool }.

(** TcpMetadata, tcp/metadata.py:48-88, without the tracker *)
Record tmd := { d_lip : ipaddr; d_lport : Z; d_rip : ipaddr; d_rport : Z;
  d_syn : bool; d_ack : bool; d_fin : bool; d_rst : bool;
  d_seq : Z; d_ackn : Z; d_win : Z; d_wscale : option Z; d_mss : Z; d_data : bytes }.

(** ** state *)

Record node := {
  n_tx : stack;                    (* addresses, caches, ids, clock, frames sent *)
  n_flows4 : flows; n_flows6 : flows;   (* ip4_frag_flows, ip6_frag_flows *)
  n_socks : sockets;               (* stack.sockets *)
  n_udp : nat -> usock;            (* the UDP socket objects *)
  n_tcp : list (nat * tmd);        (* calls of TcpSocket.process_tcp_packet so far *)
  n_dad : Z; n_dad_tlla : option Z;     (* event_icmp6_nd_dad, icmp6_nd_dad_tlla *)
  n_ra : list (net * Z); n_ra_ev : Z;   (* icmp6_ra_prefixes, event_icmp6_ra *)
  n_conflict : list Z              (* stack.arp_probe_unicast_conflict, lib/stack.py:59 *)
}.
Definition set_tx (t : stack) (n : node) : node :=
  {| n_tx := t; n_flows4 := n_flows4 n; n_flows6 := n_flows6 n; n_socks := n_socks n; n_udp := n_udp n; n_tcp := n_tcp n;
     n_dad := n_dad n; n_dad_tlla := n_dad_tlla n; n_ra := n_ra n; n_ra_ev := n_ra_ev n; n_conflict := n_conflict n |}.
Definition set_flows4 (f : flows) (n : node) : node :=
  {| n_tx := n_tx n; n_flows4 := f; n_flows6 := n_flows6 n; n_socks := n_socks n; n_udp := n_udp n; n_tcp := n_tcp n;
     n_dad := n_dad n; n_dad_tlla := n_dad_tlla n; n_ra := n_ra n; n_ra_ev := n_ra_ev n; n_conflict := n_conflict n |}.
Definition set_flows6 (f : flows) (n : node) : node :=
  {| n_tx := n_tx n; n_flows4 := n_flows4 n; n_flows6 := f; n_socks := n_socks n; n_udp := n_udp n; n_tcp := n_tcp n;
     n_dad := n_dad n; n_dad_tlla := n_dad_tlla n; n_ra := n_ra n; n_ra_ev := n_ra_ev n; n_conflict := n_conflict n |}.
Definition set_udp (i : nat) (u : usock) (n : node) : node :=
  {| n_tx := n_tx n; n_flows4 := n_flows4 n; n_flows6 := n_flows6 n; n_socks := n_socks n;
     n_udp := fun j => if Nat.eqb j i then u else n_udp n j; n_tcp := n_tcp n;
     n_dad := n_dad n; n_dad_tlla := n_dad_tlla n; n_ra := n_ra n; n_ra_ev := n_ra_ev n; n_conflict := n_conflict n |}.
Definition put_tcp (i : nat) (d : tmd) (n : node) : node :=
  {| n_tx := n_tx n; n_flows4 := n_flows4 n; n_flows6 := n_flows6 n; n_socks := n_socks n; n_udp := n_udp n;
     n_tcp := n_tcp n ++ [(i, d)];
     n_dad := n_dad n; n_dad_tlla := n_dad_tlla n; n_ra := n_ra n; n_ra_ev := n_ra_ev n; n_conflict := n_conflict n |}.
Definition set_dad (tlla : option Z) (n : node) : node :=
  {| n_tx := n_tx n; n_flows4 := n_flows4 n; n_flows6 := n_flows6 n; n_socks := n_socks n; n_udp := n_udp n; n_tcp := n_tcp n;
     n_dad := n_dad n + 1; n_dad_tlla := tlla; n_ra := n_ra n; n_ra_ev := n_ra_ev n; n_conflict := n_conflict n |}.
Definition set_ra (l : list (net * Z)) (n : node) : node :=
  {| n_tx := n_tx n; n_flows4 := n_flows4 n; n_flows6 := n_flows6 n; n_socks := n_socks n; n_udp := n_udp n; n_tcp := n_tcp n;
     n_dad := n_dad n; n_dad_tlla := n_dad_tlla n; n_ra := l; n_ra_ev := n_ra_ev n + 1; n_conflict := n_conflict n |}.
Definition put_conflict (a : Z) (n : node) : node :=
  {| n_tx := n_tx n; n_flows4 := n_flows4 n; n_flows6 := n_flows6 n; n_socks := n_socks n; n_udp := n_udp n; n_tcp := n_tcp n;
     n_dad := n_dad n; n_dad_tlla := n_dad_tlla n; n_ra := n_ra n; n_ra_ev := n_ra_ev n;
     n_conflict := if mem a (n_conflict n) then n_conflict n else a :: n_conflict n |}.

(** statements of the receive path *)
Definition R (A : Type) := node -> node * res A.
Definition rret {A} (a : A) : R A := fun n => (n, Ok a).
Definition rbind' {A B} (m : R A) (k : A -> R B) : R B :=
  fun n => match m n with (n', Ok a) => k a n' | (n', Exn e) => (n', Exn e) end.
Notation "x <+ m ;; k" := (rbind' m (fun x => k)) (at level 61, m at next level, right associativity).
Definition rlift {A} (r : res A) : R A := fun n => (n, r).
Definition rgets {A} (f : node -> A) : R A := fun n => (n, Ok (f n)).
Definition rupd (f : node -> node) : R unit := fun n => (f n, Ok tt).
(** a statement of the transmit side *)
Definition tx {A} (m : M A) : R A := fun n => let (t, r) := m (n_tx n) in (set_tx t n, r).
(** calls whose result is not used *)
Definition tx_ {A} (m : M A) : R unit := _ <+ tx m ;; rret tt.
Definition my_addrs (n : node) : addrs := s_addrs (n_tx n).
(** "if packet_rx.parse_failed: … return" *)
Definition on_parsed {A} (r : res (parsed A)) (k : A -> R unit) : R unit :=
  p <+ rlift r ;; match p with inl _ => rret tt | inr p => k p end.

(** ** ARP *)

(** _phrx_arp, arp/phrx.py:56-169; ARP_CACHE_UPDATE_FROM_DIRECT_REQUEST and
    ARP_CACHE_UPDATE_FROM_GRATUITIOUS_REPLY are True, config.py:125-126 *)
Definition phrx_arp (e : ether) : R unit :=
  on_parsed (arp_parse (EtherModel.e_rest e)) (fun p =>
  a <+ rgets my_addrs ;;
  if a_oper p =? ARP_OP_REQUEST then
    (if mem (a_spa p) (ip4_unicast a) then rret tt
     else if mem (a_tpa p) (ip4_unicast a) then
       _ <+ tx_ (phtx_arp (a_mac a) (a_sha p)
              {| a_oper := ARP_OP_REPLY; a_sha := a_mac a; a_spa := a_tpa p; a_tha := a_sha p; a_tpa := a_spa p |}) ;;
       tx_ (arp_add (a_spa p) (a_sha p))
     else rret tt)
  else if a_oper p =? ARP_OP_REPLY then
    (if (EtherModel.e_dst e =? a_mac a)
        && (mem (a_spa p) (map h_addr (a_cand4 a)) && (a_tha p =? a_mac a) && ip4_is_unspecified (a_tpa p))
     then rupd (put_conflict (a_spa p))
     else if EtherModel.e_dst e =? a_mac a then tx_ (arp_add (a_spa p) (a_sha p))
     else if mac_is_broadcast (EtherModel.e_dst e) && (a_spa p =? a_tpa p) then tx_ (arp_add (a_spa p) (a_sha p))
     else rret tt)
  else rret tt).

(** ** UDP *)

Definition unspecified (a : ipaddr) : ipaddr := match a with A4 _ => A4 0 | A6 _ => A6 0 end.
Definition is_unspecified (a : ipaddr) : bool := match a with A4 x => ip4_is_unspecified x | A6 x => ip6_is_unspecified x end.

(** socket_patterns, udp/metadata.py:79-103 *)
Definition socket_patterns (lip : ipaddr) (lport : Z) (rip : ipaddr) (rport : Z) : list skey :=
  [{| k_type := Dgram; k_lip := lip; k_lport := lport; k_rip := rip; k_rport := rport |};
   {| k_type := Dgram; k_lip := lip; k_lport := lport; k_rip := unspecified lip; k_rport := 0 |};
   {| k_type := Dgram; k_lip := unspecified lip; k_lport := lport; k_rip := unspecified lip; k_rport := 0 |}]
  ++ match lip with
     | A4 _ => [{| k_type := Dgram; k_lip := A4 0; k_lport := lport; k_rip := A4 0xFFFFFFFF; k_rport := rport |}]
     | A6 _ => []
     end.
(** the loop over the patterns: the first one found in stack.sockets, udp/phrx.py:90-100 *)
Fixpoint first_match (ps : list skey) (t : sockets) : option nat :=
  match ps with
  | [] => None
  | k :: r => match sock_get k t with Some i => Some i | None => first_match r t end
  end.

(** process_udp_packet, udp/socket.py:341-346 *)
Definition udp_deliver (i : nat) (m : umd) (n : node) : node :=
  let u := n_udp n i in
  set_udp i {| u_lip := u_lip u; u_lport0 := u_lport0 u; u_rip := u_rip u; u_rport := u_rport u;
               u_queue := u_queue u ++ [m]; u_ready := u_ready u + 1; u_unreach := u_unreach u |} n.
(** notify_unreachable, udp/socket.py:348-352 *)
Definition udp_notify (i : nat) (n : node) : node :=
  let u := n_udp n i in
  set_udp i {| u_lip := u_lip u; u_lport0 := u_lport0 u; u_rip := u_rip u; u_rport := u_rport u;
               u_queue := u_queue u; u_ready := u_ready u; u_unreach := true |} n.

(** _phrx_udp, udp/phrx.py:55-167: [src], [dst], [ps], [plen] come from packet_rx.ip,
    [f] is the frame after the IP header, [whole] is packet_rx.ip.packet_copy;
    UDP_ECHO_NATIVE_DISABLE is True, config.py:146 *)
Definition phrx_udp (src dst : ipaddr) (f : bytes) (plen : Z) (ps : res Z) (whole : bytes) : R unit :=
  s <+ rlift ps ;;
  on_parsed (udp_parse f plen s) (fun u =>
  t <+ rgets n_socks ;;
  match first_match (socket_patterns dst (u_dport u) src (u_sport u)) t with
  | Some i => rupd (udp_deliver i {| m_lip := dst; m_lport := u_dport u; m_rip := src; m_rport := u_sport u; m_data := u_data u |})
  | None =>
      if is_unspecified src then rret tt
      else match dst, src with
      | A6 d, A6 s => tx_ (phtx_icmp6 d s 64 (T6UnreachPort whole))
      | A4 d, A4 s => tx_ (phtx_icmp4 d s 3 3 0 0 [] whole)
      | _, _ => rret tt
      end
  end).

(** ** TCP *)

(** _phrx_tcp, tcp/phrx.py:52-153; tcp_listening_socket_patterns, tcp/metadata.py:100-112.
    The reset's window is 0, tcp/phtx.py:85 *)
Definition listen_patterns (lip : ipaddr) (lport : Z) : list skey :=
  [{| k_type := Stream; k_lip := lip; k_lport := lport; k_rip := unspecified lip; k_rport := 0 |};
   {| k_type := Stream; k_lip := unspecified lip; k_lport := lport; k_rip := unspecified lip; k_rport := 0 |}].
Definition tmd_of (src dst : ipaddr) (s : tcp) : tmd :=
  {| d_lip := dst; d_lport := s_dport s; d_rip := src; d_rport := s_sport s;
     d_syn := s_fsyn s; d_ack := s_fack s; d_fin := s_ffin s; d_rst := s_frst s;
     d_seq := s_seq s; d_ackn := s_ack s; d_win := s_win s; d_wscale := opt_wscale (s_opts s);
     d_mss := opt_mss (s_opts s); d_data := s_data s |}.
Definition phrx_tcp (src dst : ipaddr) (f : bytes) (plen : Z) (ps : res Z) : R unit :=
  sum <+ rlift ps ;;
  on_parsed (tcp_parse f plen sum) (fun s =>
  t <+ rgets n_socks ;;
  match sock_get {| k_type := Stream; k_lip := dst; k_lport := s_dport s; k_rip := src; k_rport := s_sport s |} t with
  | Some i => rupd (put_tcp i (tmd_of src dst s))
  | None =>
      match (if s_fsyn s && negb (s_fack s || s_ffin s || s_frst s)
             then first_match (listen_patterns dst (s_dport s)) t else None) with
      | Some i => rupd (put_tcp i (tmd_of src dst s))
      | None =>
          tx_ (phtx_tcp dst src (s_dport s) (s_sport s) 0
                 (s_seq s + b2z (s_fsyn s) + b2z (s_ffin s) + zlen (s_data s))
                 false true false true 0 None None [])
      end
  end).

(** ** ICMPv4 *)

(** the quoted datagram of an unreachable message, icmp4/phrx.py:107-130: local and
    remote address and port *)
Definition quoted4 (f : bytes) : res (option (Z * Z * Z * Z)) :=
  if zlen f >=? 20 then
    b0 <- u8 f 0 ;;
    let off := Z.shiftl (Z.land b0 0x0F) 2 in
    if (Z.shiftr b0 4 =? 4) && (zlen f >=? off) then
      b9 <- u8 f 9 ;;
      if (b9 =? 17) && (zlen f >=? off + 8) then
        lip <- ip4_of_bytes (slice 12 16 f) ;;
        rip <- ip4_of_bytes (slice 16 20 f) ;;
        lport <- u16 f off ;;
        rport <- u16 f (off + 2) ;;
        Ok (Some (lip, lport, rip, rport))
      else Ok None
    else Ok None
  else Ok None.
(** _phrx_icmp4, icmp4/phrx.py:61-154 *)
Definition phrx_icmp4 (src dst : Z) (f : bytes) (plen : Z) : R unit :=
  on_parsed (icmp4_parse f plen) (fun q =>
  match q4_body q with
  | B4Echo id seq data =>
      if q4_type q =? 8 then tx_ (phtx_icmp4 dst src 0 0 id seq data []) else rret tt
  | B4Unreach data =>
      x <+ rlift (quoted4 data) ;;
      match x with
      | Some (lip, lport, rip, rport) =>
          t <+ rgets n_socks ;;
          match first_match (socket_patterns (A4 lip) lport (A4 rip) rport) t with
          | Some i => rupd (udp_notify i)
          | None => rret tt
          end
      | None => rret tt
      end
  | B4Other => rret tt
  end).

(** ** ICMPv6 *)

(** icmp6/phrx.py:246-265 *)
Definition quoted6 (f : bytes) : res (option (Z * Z * Z * Z)) :=
  if zlen f >=? 48 then
    b0 <- u8 f 0 ;;
    if Z.shiftr b0 4 =? 6 then
      b6 <- u8 f 6 ;;
      if b6 =? 17 then
        lip <- ip6_of_bytes (slice 8 24 f) ;;
        rip <- ip6_of_bytes (slice 24 40 f) ;;
        lport <- u16 f 40 ;;
        rport <- u16 f 42 ;;
        Ok (Some (lip, lport, rip, rport))
      else Ok None
    else Ok None
  else Ok None.

(** _phrx_icmp6, icmp6/phrx.py:70-288; MacAddress objects are always true *)
Definition phrx_icmp6 (src dst hop : Z) (f : bytes) (plen : Z) (ps : res Z) : R unit :=
  s <+ rlift ps ;;
  on_parsed (icmp6_parse f plen s src dst hop) (fun q =>
  a <+ rgets my_addrs ;;
  match q6_body q with
  | B6Ns target opts =>
      if negb (mem target (ip6_unicast a)) then rret tt
      else
        _ <+ match nd_slla opts with
             | Some m => if ip6_is_unspecified src || ip6_is_multicast src then rret tt else tx_ (nd_add src m)
             | None => rret tt
             end ;;
        let dad := ip6_is_unspecified src in
        tx_ (phtx_icmp6 target (if dad then ip6_all_nodes else src) 255
               (T6Na false (negb dad) dad target [TTlla (a_mac a)]))
  | B6Na _ _ _ target opts =>
      if match a_cand6 a with Some c => target =? c | None => false end then rupd (set_dad (nd_tlla opts))
      else match nd_tlla opts with
      | Some m => tx_ (nd_add target m)
      | None => rret tt
      end
  | B6Ra _ _ _ _ _ _ opts => rupd (set_ra (map (fun w => (w, src)) (nd_prefixes opts)))
  | B6Echo id seq data =>
      if q6_type q =? 128 then tx_ (phtx_icmp6 dst src 255 (T6EchoReply id seq data)) else rret tt
  | B6Unreach data =>
      x <+ rlift (quoted6 data) ;;
      match x with
      | Some (lip, lport, rip, rport) =>
          t <+ rgets n_socks ;;
          match first_match (socket_patterns (A6 lip) lport (A6 rip) rport) t with
          | Some i => rupd (udp_notify i)
          | None => rret tt
          end
      | None => rret tt
      end
  | B6Rs _ | B6Mld2 _ | B6Other => rret tt
  end).

(** ** IPv4 *)

(** the dispatch at the end of _phrx_ip4, ip4/phrx.py:181-192; [f] is packet_rx.frame *)
Definition ip4_dispatch (p : ip4) (f : bytes) : R unit :=
  let whole := slice 0 (i4_plen p) (i4_frame p) in
  if i4_proto p =? IP4_PROTO_ICMP4 then phrx_icmp4 (i4_src p) (i4_dst p) f (i4_dlen p)
  else if i4_proto p =? IP4_PROTO_UDP then phrx_udp (A4 (i4_src p)) (A4 (i4_dst p)) f (i4_dlen p) (i4_pshdr_sum p) whole
  else if i4_proto p =? IP4_PROTO_TCP then phrx_tcp (A4 (i4_src p)) (A4 (i4_dst p)) f (i4_dlen p) (i4_pshdr_sum p)
  else rret tt.
(** _phrx_ip4, ip4/phrx.py:133-192.  The reassembled packet goes through Ip4Parser again;
    whether that fails is not looked at, but the frame is advanced only if not. *)
Definition phrx_ip4 (f : bytes) : R unit :=
  on_parsed (ip4_parse f) (fun p =>
  a <+ rgets my_addrs ;;
  if match ip4_unicast a with [] => false | _ => true end
     && negb (mem (i4_dst p) (ip4_unicast a ++ a_mcast4 a ++ ip4_broadcasts a))
  then rret tt
  else if negb (i4_offset p =? 0) || i4_mf p then
    n <+ rgets (fun n => n) ;;
    let (fs, r) := defrag4 (s_now (n_tx n)) p (n_flows4 n) in
    _ <+ rupd (set_flows4 fs) ;;
    o <+ rlift r ;;
    match o with
    | None => rret tt
    | Some w =>
        q <+ rlift (ip4_parse w) ;;
        match q with
        | inr q => ip4_dispatch q (i4_rest q)
        | inl _ => q <+ rlift (ip4_fields w) ;; ip4_dispatch q w
        end
    end
  else ip4_dispatch p (i4_rest p)).

(** ** IPv6 *)

(** _phrx_ip6, ip6/phrx.py:56-105, and _phrx_ip6_ext_frag, ip6_ext_frag/phrx.py:126-147.
    A reassembled packet re-enters _phrx_ip6 and may again carry a fragment header;
    [fuel] bounds that recursion. *)
Fixpoint phrx_ip6_fuel (fuel : nat) (f : bytes) : R unit :=
  match fuel with
  | O => rlift (Exn OutOfFuel)
  | S fuel' =>
      on_parsed (ip6_parse f) (fun p =>
      a <+ rgets my_addrs ;;
      if negb (mem (i6_dst p) (ip6_unicast a ++ a_mcast6 a)) then rret tt
      else if i6_next p =? IP6_NEXT_EXT_FRAG then
        on_parsed (frag6_parse (i6_rest p) (i6_dlen p)) (fun g =>
        n <+ rgets (fun n => n) ;;
        let (fs, r) := defrag6 (s_now (n_tx n)) p g (n_flows6 n) in
        _ <+ rupd (set_flows6 fs) ;;
        o <+ rlift r ;;
        match o with None => rret tt | Some w => phrx_ip6_fuel fuel' w end)
      else if i6_next p =? IP6_NEXT_ICMP6 then
        phrx_icmp6 (i6_src p) (i6_dst p) (i6_hop p) (i6_rest p) (i6_dlen p) (i6_pshdr_sum p)
      else if i6_next p =? IP6_NEXT_UDP then
        phrx_udp (A6 (i6_src p)) (A6 (i6_dst p)) (i6_rest p) (i6_dlen p) (i6_pshdr_sum p)
                 (slice 0 (i6_plen p) (i6_frame p))
      else if i6_next p =? IP6_NEXT_TCP then
        phrx_tcp (A6 (i6_src p)) (A6 (i6_dst p)) (i6_rest p) (i6_dlen p) (i6_pshdr_sum p)
      else rret tt)
  end.
(** the bytes kept in a flow table: every re-entry of _phrx_ip6 strips a fragment header
    from what is there, so this many levels are enough (IP6 depth lemma in RxProofs) *)
Definition flow_bytes (v : flow) : nat := fold_right (fun x acc => (length (snd x) + acc)%nat) O (fl_data v).
Definition flows_bytes (fs : flows) : nat := fold_right (fun kv acc => (flow_bytes (snd kv) + acc)%nat) O fs.
Definition phrx_ip6 (f : bytes) : R unit :=
  fun n => phrx_ip6_fuel (S (length f + flows_bytes (n_flows6 n))) f n.

(** ** Ethernet *)

(** _phrx_ether, ether/phrx.py:56-108 *)
Definition phrx_ether (f : bytes) : R unit :=
  on_parsed (ether_parse f) (fun e =>
  a <+ rgets my_addrs ;;
  if negb (mem (EtherModel.e_dst e) (a_mac a :: a_mac_mcast a ++ [mac_broadcast])) then rret tt
  else if (EtherModel.e_type e =? ETHER_TYPE_ARP) && a_sup4 a then phrx_arp e
  else if (EtherModel.e_type e =? ETHER_TYPE_IP4) && a_sup4 a then phrx_ip4 (EtherModel.e_rest e)
  else if (EtherModel.e_type e =? ETHER_TYPE_IP6) && a_sup6 a then phrx_ip6 (EtherModel.e_rest e)
  else rret tt).
