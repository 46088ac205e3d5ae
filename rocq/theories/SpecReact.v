(** What the stack must do about a packet that has arrived (SpecRx): which socket gets it,
    which packet is sent in reply, which cache entry is written.  Rules, independent of the
    handlers in StackRxModel.  Packets are described by the parsers, which the codec
    theorems characterise byte by byte. *)
From Verif Require Import Base CodecModel AddrModel SpecWire SpecCksum EtherModel Ip4Model Ip6Model UdpModel TcpModel
  Icmp4Model Icmp6Model FragModel StackModel StackRxModel SpecRx.

(** ** what arrived *)

(** a valid UDP datagram, RFC 768, in an IPv4 or IPv6 packet; [whole] is that packet *)
Definition datagram (pseudo seg : bytes) (sport dport : Z) (data : bytes) : Prop :=
  exists ck, 0 <= ck < 65536 /\ 0 < sport < 65536 /\ 0 < dport < 65536 /\
    seg = udp_wire sport dport (8 + zlen data) ck data /\ rfc1071_verifies (pseudo ++ seg) 0.
Inductive udp_in (n : node) (f : bytes) : node -> ipaddr -> ipaddr -> Z -> Z -> bytes -> bytes -> Prop :=
| udp_in4 n1 p sport dport data :
    rx4 n f n1 p -> i4_proto p = 17 ->
    datagram (ip4_pseudo (i4_src p) (i4_dst p) 17 (i4_dlen p)) (i4_data p) sport dport data ->
    udp_in n f n1 (A4 (i4_src p)) (A4 (i4_dst p)) sport dport data (slice 0 (i4_plen p) (i4_frame p))
| udp_in6 n1 p sport dport data :
    rx6 n f n1 p -> i6_next p = 17 ->
    datagram (ip6_pseudo (i6_src p) (i6_dst p) (i6_dlen p) 17) (i6_data p) sport dport data ->
    udp_in n f n1 (A6 (i6_src p)) (A6 (i6_dst p)) sport dport data (slice 0 (i6_plen p) (i6_frame p)).

Inductive tcp_in (n : node) (f : bytes) : node -> ipaddr -> ipaddr -> tcp -> Prop :=
| tcp_in4 n1 p ps s :
    rx4 n f n1 p -> i4_proto p = 6 -> i4_pshdr_sum p = Ok ps ->
    tcp_parse (i4_rest p) (i4_dlen p) ps = Ok (inr s) -> tcp_in n f n1 (A4 (i4_src p)) (A4 (i4_dst p)) s
| tcp_in6 n1 p ps s :
    rx6 n f n1 p -> i6_next p = 6 -> i6_pshdr_sum p = Ok ps ->
    tcp_parse (i6_rest p) (i6_dlen p) ps = Ok (inr s) -> tcp_in n f n1 (A6 (i6_src p)) (A6 (i6_dst p)) s.

Definition icmp4_in (n : node) (f : bytes) (n1 : node) (src dst : Z) (q : icmp4) : Prop :=
  exists p, rx4 n f n1 p /\ i4_proto p = 1 /\ src = i4_src p /\ dst = i4_dst p /\
    icmp4_parse (i4_rest p) (i4_dlen p) = Ok (inr q).
Definition icmp6_in (n : node) (f : bytes) (n1 : node) (src dst : Z) (q : icmp6) : Prop :=
  exists p ps, rx6 n f n1 p /\ i6_next p = 58 /\ src = i6_src p /\ dst = i6_dst p /\ i6_pshdr_sum p = Ok ps /\
    icmp6_parse (i6_rest p) (i6_dlen p) ps (i6_src p) (i6_dst p) (i6_hop p) = Ok (inr q).
Definition arp_in (n : node) (f : bytes) (e : ether) (p : arp) : Prop :=
  for_us n f e /\ EtherModel.e_type e = 0x0806 /\ a_sup4 (my_addrs n) = true /\
  arp_parse (EtherModel.e_rest e) = Ok (inr p).

(** ** sockets *)
Definition zero_of (a : ipaddr) : ipaddr := match a with A4 _ => A4 0 | A6 _ => A6 0 end.
Definition open_as (t : sockets) (ty : sock_type) (lip : ipaddr) (lport : Z) (rip : ipaddr) (rport : Z) (i : nat) : Prop :=
  In ({| k_type := ty; k_lip := lip; k_lport := lport; k_rip := rip; k_rport := rport |}, i) t.
Definition none_as (t : sockets) (ty : sock_type) (lip : ipaddr) (lport : Z) (rip : ipaddr) (rport : Z) : Prop :=
  forall i, ~ open_as t ty lip lport rip rport i.
(** stack.sockets is a dict: no key twice *)
Definition socks_ok (t : sockets) : Prop := NoDup (map fst t).

(** the socket of a datagram between local [lip]:[lport] and remote [rip]:[rport] *)
Inductive udp_target (t : sockets) (lip : ipaddr) (lport : Z) (rip : ipaddr) (rport : Z) : option nat -> Prop :=
| ut_connected i :
    open_as t Dgram lip lport rip rport i -> udp_target t lip lport rip rport (Some i)
| ut_bound i :
    none_as t Dgram lip lport rip rport ->
    open_as t Dgram lip lport (zero_of lip) 0 i -> udp_target t lip lport rip rport (Some i)
| ut_wildcard i :
    none_as t Dgram lip lport rip rport -> none_as t Dgram lip lport (zero_of lip) 0 ->
    open_as t Dgram (zero_of lip) lport (zero_of lip) 0 i -> udp_target t lip lport rip rport (Some i)
| ut_dhcp x i : lip = A4 x ->
    none_as t Dgram lip lport rip rport -> none_as t Dgram lip lport (zero_of lip) 0 ->
    none_as t Dgram (zero_of lip) lport (zero_of lip) 0 ->
    open_as t Dgram (A4 0) lport (A4 0xFFFFFFFF) rport i -> udp_target t lip lport rip rport (Some i)
| ut_none :
    none_as t Dgram lip lport rip rport -> none_as t Dgram lip lport (zero_of lip) 0 ->
    none_as t Dgram (zero_of lip) lport (zero_of lip) 0 ->
    (forall x, lip = A4 x -> none_as t Dgram (A4 0) lport (A4 0xFFFFFFFF) rport) ->
    udp_target t lip lport rip rport None.

(** the socket of a segment: its connection, or for a segment with SYN and none of ACK,
    FIN, RST the listener *)
Inductive tcp_target (t : sockets) (lip : ipaddr) (lport : Z) (rip : ipaddr) (rport : Z) (pure_syn : bool) : option nat -> Prop :=
| tt_session i :
    open_as t Stream lip lport rip rport i -> tcp_target t lip lport rip rport pure_syn (Some i)
| tt_listen i : pure_syn = true ->
    none_as t Stream lip lport rip rport ->
    open_as t Stream lip lport (zero_of lip) 0 i -> tcp_target t lip lport rip rport pure_syn (Some i)
| tt_listen_any i : pure_syn = true ->
    none_as t Stream lip lport rip rport -> none_as t Stream lip lport (zero_of lip) 0 ->
    open_as t Stream (zero_of lip) lport (zero_of lip) 0 i -> tcp_target t lip lport rip rport pure_syn (Some i)
| tt_none :
    none_as t Stream lip lport rip rport ->
    (pure_syn = true -> none_as t Stream lip lport (zero_of lip) 0 /\ none_as t Stream (zero_of lip) lport (zero_of lip) 0) ->
    tcp_target t lip lport rip rport pure_syn None.

(** the endpoints of the datagram quoted in an ICMP error, RFC 792 and RFC 4443: the
    local ones are the quoted source *)
Definition quotes4 (d : bytes) (lip lport rip rport : Z) : Prop :=
  let off := nth 0 d 0 mod 16 * 4 in
  20 <= zlen d /\ off + 8 <= zlen d /\ nth 0 d 0 / 16 = 4 /\ nth 9 d 0 = 17 /\
  lip = be (slice 12 16 d) /\ rip = be (slice 16 20 d) /\
  lport = be (slice off (off + 2) d) /\ rport = be (slice (off + 2) (off + 4) d).
Definition quotes6 (d : bytes) (lip lport rip rport : Z) : Prop :=
  48 <= zlen d /\ nth 0 d 0 / 16 = 6 /\ nth 6 d 0 = 17 /\
  lip = be (slice 8 24 d) /\ rip = be (slice 24 40 d) /\ lport = be (slice 40 42 d) /\ rport = be (slice 42 44 d).

(** ** reactions *)
Inductive reaction :=
| RArpReply (p : arp)                       (* one ARP packet to the sender, who is learnt *)
| RLearn4 (ip mac : Z) | RLearn6 (ip mac : Z)
| RConflict (ip : Z)                        (* an address under probe is taken *)
| RDeliver (i : nat) (m : umd)              (* a datagram into a socket's queue *)
| RRefused (i : nat)                        (* "connection refused" for a socket *)
| RSegment (i : nat) (d : tmd)              (* a segment to a TCP socket *)
| RSend (q : request)                       (* one packet to the transmit path *)
| RAdvertise (learn : option Z) (src : Z) (q : request)   (* the same, after learning src *)
| RTaken (tlla : option Z)                  (* the IPv6 address under test is taken *)
| RPrefixes (l : list (net * Z)).

Definition pure_syn (s : tcp) : bool := s_fsyn s && negb (s_fack s) && negb (s_ffin s) && negb (s_frst s).
(** the reset to a segment that belongs to nobody *)
Definition reset_for (src dst : ipaddr) (s : tcp) : request :=
  QTcp dst src (s_dport s) (s_sport s) 0 (s_seq s + b2z (s_fsyn s) + b2z (s_ffin s) + zlen (s_data s))
    false true false true 0 None None [].
(** the port unreachable message that quotes [whole] *)
Definition unreachable_for (src dst : ipaddr) (whole : bytes) : request :=
  match src, dst with
  | A4 s, A4 d => QIcmp4 d s 3 3 0 0 [] whole
  | A6 s, A6 d => QIcmp6 d s 64 (T6UnreachPort whole)
  | _, _ => QArp 0 0 {| a_oper := 0; a_sha := 0; a_spa := 0; a_tha := 0; a_tpa := 0 |}
  end.
(** the advertisement for [target] asked for by [src]; :: asks for all nodes' sake *)
Definition advertisement (mac src target : Z) : request :=
  if src =? 0 then QIcmp6 target (0xFF02 * 2 ^ 112 + 1) 255 (T6Na false false true target [TTlla mac])
  else QIcmp6 target src 255 (T6Na false true false target [TTlla mac]).

Inductive reacts (n : node) (f : bytes) : node -> reaction -> Prop :=
(* ARP, RFC 826 *)
| re_arp_reply e p : arp_in n f e p -> a_oper p = 1 ->
    (exists h, In h (a_host4 (my_addrs n)) /\ h_addr h = a_tpa p) ->
    ~ (exists h, In h (a_host4 (my_addrs n)) /\ h_addr h = a_spa p) -> reacts n f n (RArpReply p)
| re_arp_conflict e p : arp_in n f e p -> a_oper p = 2 -> EtherModel.e_dst e = a_mac (my_addrs n) ->
    (exists h, In h (a_cand4 (my_addrs n)) /\ h_addr h = a_spa p) -> a_tha p = a_mac (my_addrs n) -> a_tpa p = 0 ->
    reacts n f n (RConflict (a_spa p))
| re_arp_learn e p : arp_in n f e p -> a_oper p = 2 -> EtherModel.e_dst e = a_mac (my_addrs n) ->
    ~ ((exists h, In h (a_cand4 (my_addrs n)) /\ h_addr h = a_spa p) /\ a_tha p = a_mac (my_addrs n) /\ a_tpa p = 0) ->
    reacts n f n (RLearn4 (a_spa p) (a_sha p))
| re_arp_gratuitous e p : arp_in n f e p -> a_oper p = 2 -> EtherModel.e_dst e <> a_mac (my_addrs n) ->
    EtherModel.e_dst e = 2 ^ 48 - 1 -> a_spa p = a_tpa p -> reacts n f n (RLearn4 (a_spa p) (a_sha p))
(* UDP *)
| re_udp n1 src dst sport dport data whole i : udp_in n f n1 src dst sport dport data whole ->
    udp_target (n_socks n) dst dport src sport (Some i) ->
    reacts n f n1 (RDeliver i {| m_lip := dst; m_lport := dport; m_rip := src; m_rport := sport; m_data := data |})
| re_udp_none n1 src dst sport dport data whole : udp_in n f n1 src dst sport dport data whole ->
    udp_target (n_socks n) dst dport src sport None -> src <> zero_of src ->
    reacts n f n1 (RSend (unreachable_for src dst whole))
(* TCP *)
| re_tcp n1 src dst s i : tcp_in n f n1 src dst s ->
    tcp_target (n_socks n) dst (s_dport s) src (s_sport s) (pure_syn s) (Some i) ->
    reacts n f n1 (RSegment i
      {| d_lip := dst; d_lport := s_dport s; d_rip := src; d_rport := s_sport s;
         d_syn := s_fsyn s; d_ack := s_fack s; d_fin := s_ffin s; d_rst := s_frst s;
         d_seq := s_seq s; d_ackn := s_ack s; d_win := s_win s; d_wscale := opt_wscale (s_opts s);
         d_mss := opt_mss (s_opts s); d_data := s_data s |})
| re_tcp_none n1 src dst s : tcp_in n f n1 src dst s ->
    tcp_target (n_socks n) dst (s_dport s) src (s_sport s) (pure_syn s) None ->
    reacts n f n1 (RSend (reset_for src dst s))
(* ICMP *)
| re_echo4 n1 src dst q id seq data : icmp4_in n f n1 src dst q -> q4_type q = 8 -> q4_body q = B4Echo id seq data ->
    reacts n f n1 (RSend (QIcmp4 dst src 0 0 id seq data []))
| re_echo6 n1 src dst q id seq data : icmp6_in n f n1 src dst q -> q6_type q = 128 -> q6_body q = B6Echo id seq data ->
    reacts n f n1 (RSend (QIcmp6 dst src 255 (T6EchoReply id seq data)))
| re_refused4 n1 src dst q d lip lport rip rport i : icmp4_in n f n1 src dst q -> q4_body q = B4Unreach d ->
    quotes4 d lip lport rip rport -> udp_target (n_socks n) (A4 lip) lport (A4 rip) rport (Some i) ->
    reacts n f n1 (RRefused i)
| re_refused6 n1 src dst q d lip lport rip rport i : icmp6_in n f n1 src dst q -> q6_body q = B6Unreach d ->
    quotes6 d lip lport rip rport -> udp_target (n_socks n) (A6 lip) lport (A6 rip) rport (Some i) ->
    reacts n f n1 (RRefused i)
(* neighbour discovery, RFC 4861, RFC 4862 *)
| re_ns n1 src dst q target opts : icmp6_in n f n1 src dst q -> q6_body q = B6Ns target opts ->
    (exists h, In h (a_host6 (my_addrs n)) /\ h_addr h = target) ->
    reacts n f n1 (RAdvertise (if (src =? 0) || (255 * 2 ^ 120 <=? src) then None else nd_slla opts) src
                              (advertisement (a_mac (my_addrs n)) src target))
| re_na_taken n1 src dst q r s o target opts : icmp6_in n f n1 src dst q -> q6_body q = B6Na r s o target opts ->
    a_cand6 (my_addrs n) = Some target -> reacts n f n1 (RTaken (nd_tlla opts))
| re_na_learn n1 src dst q r s o target opts m : icmp6_in n f n1 src dst q -> q6_body q = B6Na r s o target opts ->
    a_cand6 (my_addrs n) <> Some target -> nd_tlla opts = Some m -> reacts n f n1 (RLearn6 target m)
| re_ra n1 src dst q h m o rl rt rr opts : icmp6_in n f n1 src dst q -> q6_body q = B6Ra h m o rl rt rr opts ->
    reacts n f n1 (RPrefixes (map (fun w => (w, src)) (nd_prefixes opts))).

(** ** what kills the receive thread before any of this *)
Inductive rx_raises (n : node) (f : bytes) : exn -> Prop :=
| rr_ip4 e x : for_us n f e -> EtherModel.e_type e = 0x0800 ->
    ip4_parse (EtherModel.e_rest e) = Exn x -> rx_raises n f x
| rr_frag4 e p fs x : for_us n f e -> EtherModel.e_type e = 0x0800 -> ip4_parse (EtherModel.e_rest e) = Ok (inr p) ->
    i4_offset p <> 0 \/ i4_mf p = true ->
    defrag4 (s_now (n_tx n)) p (n_flows4 n) = (fs, Exn x) -> rx_raises n f x
| rr_frag6 e : for_us n f e -> EtherModel.e_type e = 0x86DD ->
    ~ (exists n1 p, rx6_net n (EtherModel.e_rest e) n1 p) -> rx_raises n f StructError
| rr_tcp4 n1 p ps x : rx4 n f n1 p -> i4_proto p = 6 -> i4_pshdr_sum p = Ok ps ->
    tcp_parse (i4_rest p) (i4_dlen p) ps = Exn x -> rx_raises n f x
| rr_tcp6 n1 p ps x : rx6 n f n1 p -> i6_next p = 6 -> i6_pshdr_sum p = Ok ps ->
    tcp_parse (i6_rest p) (i6_dlen p) ps = Exn x -> rx_raises n f x
| rr_icmp6 n1 p ps x : rx6 n f n1 p -> i6_next p = 58 -> i6_pshdr_sum p = Ok ps ->
    icmp6_parse (i6_rest p) (i6_dlen p) ps (i6_src p) (i6_dst p) (i6_hop p) = Exn x -> rx_raises n f x.

(** and what kills it in sending the reply: an acknowledgement number that does not wrap,
    and an IPv4 identification that does not *)
Inductive reply_raises (n : node) (f : bytes) : exn -> Prop :=
| rp_reset n1 src dst s : tcp_in n f n1 src dst s ->
    tcp_target (n_socks n) dst (s_dport s) src (s_sport s) (pure_syn s) None ->
    2 ^ 32 <= s_seq s + b2z (s_fsyn s) + b2z (s_ffin s) + zlen (s_data s) -> reply_raises n f AssertionError
| rp_echo n1 src dst q id seq data : icmp4_in n f n1 src dst q -> q4_type q = 8 -> q4_body q = B4Echo id seq data ->
    1472 < zlen data -> 65535 <= s_id4 (n_tx n) -> reply_raises n f AssertionError.

(** ** why a frame leaves the stack *)
(** Every frame that leaves the stack while it handles the frame [f]: a question for the
    link-layer address of the one who is to get the reply, or the reply itself. *)
Inductive explained (n : node) (f : bytes) (g : oframe) : Prop :=
| ex_arp_request p : f_pkt g = NArp p -> a_oper p = 1 -> explained n f g
| ex_solicitation t x m : f_pkt g = NIp6 t (PIcmp6 (T6Ns x [TSlla m])) -> explained n f g
| ex_arp_reply e p : arp_in n f e p -> a_oper p = 1 ->
    (exists h, In h (a_host4 (my_addrs n)) /\ h_addr h = a_tpa p) ->
    ~ (exists h, In h (a_host4 (my_addrs n)) /\ h_addr h = a_spa p) ->
    f_dst g = a_sha p -> f_src g = a_mac (my_addrs n) ->
    f_pkt g = NArp {| a_oper := 2; a_sha := a_mac (my_addrs n); a_spa := a_tpa p; a_tha := a_sha p; a_tpa := a_spa p |} ->
    explained n f g
| ex_unreachable4 n1 src dst sport dport data whole t :
    udp_in n f n1 (A4 src) (A4 dst) sport dport data whole ->
    udp_target (n_socks n) (A4 dst) dport (A4 src) sport None -> src <> 0 ->
    f_pkt g = NIp4 t (PIcmp4 (T4UnreachPort (firstn 520 whole))) -> t4_dst t = src -> explained n f g
| ex_unreachable6 n1 src dst sport dport data whole t :
    udp_in n f n1 (A6 src) (A6 dst) sport dport data whole ->
    udp_target (n_socks n) (A6 dst) dport (A6 src) sport None -> src <> 0 ->
    f_pkt g = NIp6 t (PIcmp6 (T6UnreachPort (firstn 520 whole))) -> t6_dst t = src -> explained n f g
| ex_reset n1 src dst s x t4 t6 : tcp_in n f n1 src dst s ->
    tcp_target (n_socks n) dst (s_dport s) src (s_sport s) (pure_syn s) None ->
    (exists a, src = A4 a /\ f_pkt g = NIp4 t4 (PTcp x) /\ t4_dst t4 = a) \/
    (exists a, src = A6 a /\ f_pkt g = NIp6 t6 (PTcp x) /\ t6_dst t6 = a) ->
    x_sport x = s_dport s -> x_dport x = s_sport s -> x_seq x = 0 ->
    x_ack x = s_seq s + b2z (s_fsyn s) + b2z (s_ffin s) + zlen (s_data s) ->
    x_frst x = true -> x_fack x = true -> x_fsyn x = false -> x_ffin x = false -> x_data x = [] -> explained n f g
| ex_echo4 n1 src dst q id seq data : icmp4_in n f n1 src dst q -> q4_type q = 8 -> q4_body q = B4Echo id seq data ->
    (exists t, f_pkt g = NIp4 t (PIcmp4 (T4EchoReply id seq data)) /\ t4_dst t = src) \/
    (exists t d, f_pkt g = NIp4Frag t d /\ t4_dst t = src /\ 1472 < zlen data) -> explained n f g
| ex_echo6 n1 src dst q id seq data : icmp6_in n f n1 src dst q -> q6_type q = 128 -> q6_body q = B6Echo id seq data ->
    (exists t, f_pkt g = NIp6 t (PIcmp6 (T6EchoReply id seq data)) /\ t6_dst t = src) \/
    (exists t i d, f_pkt g = NIp6 t (PFrag6 58 i d) /\ t6_dst t = src /\ 1452 < zlen data) -> explained n f g
| ex_advert n1 src dst q target opts t m : icmp6_in n f n1 src dst q -> q6_body q = B6Ns target opts ->
    (exists h, In h (a_host6 (my_addrs n)) /\ h_addr h = target) ->
    f_pkt g = NIp6 t (PIcmp6 m) ->
    (src <> 0 /\ t6_dst t = src /\ m = T6Na false true false target [TTlla (a_mac (my_addrs n))]) \/
    (src = 0 /\ t6_dst t = 0xFF02 * 2 ^ 112 + 1 /\ m = T6Na false false true target [TTlla (a_mac (my_addrs n))]) ->
    explained n f g.
