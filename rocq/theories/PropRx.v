(** C45-C47, C51, C53-C55, C58, C61, C62: what a received frame does. *)
From Verif Require Import Base BaseLemmas CodecModel AddrModel SpecAddr SpecCksum SpecWire EtherModel Ip4Model Ip6Model UdpModel TcpModel
  Icmp4Model Icmp4Proofs Icmp6Model Icmp6AsmProofs FragModel RingModel StackModel SpecStack StackTxProofs StackSendProofs StackRouteProofs
  StackRxModel SpecRx RxProofs SpecReact ReactProofs ReplyProofs SpecReply RxReplyProofs RxSockProofs PropTx PshdrLemmas Ip4Proofs TcpAsmProofs.

(** * A stack for the examples *)
(** a decidable form of well-formedness *)
Definition wfb (l : bytes) : bool := forallb (fun b => (0 <=? b) && (b <? 256)) l.
Lemma wfb_true l : wfb l = true -> wf_bytes l.
Proof.
  unfold wfb. rewrite forallb_forall. intros H. apply Forall_forall. intros b I. apply H in I.
  apply andb_prop in I as (A & B). apply Z.leb_le in A. apply Z.ltb_lt in B. unfold is_byte. lia.
Qed.
(** the bytes of a frame object *)
Definition wire_of (g : oframe) : bytes :=
  match frame_asm (frame_of g) (repeat 0 (Z.to_nat (frame_len (frame_of g)))) with Ok w => w | Exn _ => [] end.
Definition blank (lip : ipaddr) (lport : Z) (rip : ipaddr) (rport : Z) : usock :=
  {| u_lip := lip; u_lport0 := lport; u_rip := rip; u_rport := rport; u_queue := []; u_ready := 0; u_unreach := false |}.
Definition ex_key (ty : sock_type) (lip lport rip rport : Z) : skey :=
  {| k_type := ty; k_lip := A4 lip; k_lport := lport; k_rip := A4 rip; k_rport := rport |}.
(** a connected socket (0), one bound to the address (1), one to the wildcard (2), a DHCP
    client (3), a listener (4) and a session of it (5) *)
Definition ex_socks : sockets :=
  [(ex_key Dgram 0x0A000002 1000 0x0A000009 2000, 0%nat); (ex_key Dgram 0x0A000002 1000 0 0, 1%nat);
   (ex_key Dgram 0 1001 0 0, 2%nat); (ex_key Dgram 0 68 0xFFFFFFFF 67, 3%nat);
   (ex_key Stream 0 80 0 0, 4%nat); (ex_key Stream 0x0A000002 80 0x0A000009 5000, 5%nat)].
Definition ex_node_of (s : stack) (t : sockets) : node :=
  {| n_tx := s; n_flows4 := []; n_flows6 := []; n_socks := t; n_udp := fun _ => blank (A4 0) 0 (A4 0) 0; n_tcp := [];
     n_dad := 0; n_dad_tlla := None; n_ra := []; n_ra_ev := 0; n_conflict := [] |}.
Definition ex_node : node := ex_node_of ex_stack ex_socks.
Example ex_node_ok : node_ok ex_node /\ socks_ok (n_socks ex_node) /\ wf_addrs (my_addrs ex_node).
Proof.
  split; [split; constructor|]. split; [|exact ex_wf]. unfold socks_ok, ex_node, ex_node_of, ex_socks. cbn [n_socks map fst].
  repeat (constructor; [cbn [In]; intros X; repeat destruct X as [X|X]; try discriminate X; destruct X|]). constructor.
Qed.
Example ex_own4 : own4 (my_addrs ex_node) ex_h4 24.
Proof.
  destruct ex_host4_ok as (A & B). split; [reflexivity|]. split; [cbn; lia|]. split; [exact A|]. split; [exact B|].
  cbn. repeat split; try lia; intros X; repeat destruct X as [X|X]; try discriminate X; destruct X.
Qed.
(** frames from 10.0.0.9 *)
Definition from9 (dst : Z) (p : payload) : bytes :=
  wire_of {| f_dst := 0x020000000007; f_src := 0x020000000009; f_pkt := NIp4 (ip4_whole_tx 0x0A000009 dst 64 (payload_proto p)) p |}.
(** what a frame makes the example stack do *)
Definition outcome (n : node) (f : bytes) :=
  let (n', r) := phrx_ether f n in
  (r, map f_pkt (skipn (length (s_out (n_tx n))) (s_out (n_tx n'))), map (fun i => u_queue (n_udp n' i)) [0; 1; 2; 3]%nat,
   map (fun i => u_unreach (n_udp n' i)) [0; 1; 2; 3]%nat, n_tcp n').

(** * C45 *)
Theorem C45_other_mac : forall n d s t pl, wf_bytes pl -> 0 <= d < 2 ^ 48 -> 0 <= s < 2 ^ 48 -> 0 <= t < 2 ^ 16 ->
  ~ our_mac (my_addrs n) d -> phrx_ether (eth_wire d s t pl) n = (n, Ok tt).
Proof. exact other_mac. Qed.
Print Assumptions C45_other_mac.
(** With an IPv4 address, a packet for somebody else does nothing, except that a header with
    a truncated option raises before the destination is looked at (C46). *)
Theorem C45_other_ip4_partial : forall n d s pl n' r, wf_bytes pl -> 0 <= d < 2 ^ 48 -> 0 <= s < 2 ^ 48 -> a_host4 (my_addrs n) <> [] ->
  ~ our_ip4 (my_addrs n) (be (slice 16 20 pl)) -> phrx_ether (eth_wire d s 0x0800 pl) n = (n', r) ->
  n' = n /\ (r = Ok tt \/ r = Exn IndexError /\ ip4_parse pl = Exn IndexError).
Proof. exact other_ip4. Qed.
Print Assumptions C45_other_ip4_partial.
Theorem C45_other_ip6 : forall n d s pl, wf_bytes pl -> 0 <= d < 2 ^ 48 -> 0 <= s < 2 ^ 48 ->
  ~ our_ip6 (my_addrs n) (be (slice 24 40 pl)) -> phrx_ether (eth_wire d s 0x86DD pl) n = (n, Ok tt).
Proof. exact other_ip6. Qed.
Print Assumptions C45_other_ip6.
(** Without an IPv4 address every destination is taken: the full claim fails. *)
Definition C45_other_ip4_statement : Prop := forall n d s pl n' r, wf_bytes pl -> 0 <= d < 2 ^ 48 -> 0 <= s < 2 ^ 48 ->
  ~ our_ip4 (my_addrs n) (be (slice 16 20 pl)) -> phrx_ether (eth_wire d s 0x0800 pl) n = (n', r) -> n' = n.
Definition ex_bare_addrs : addrs :=
  {| a_mac := a_mac ex_addrs; a_mac_mcast := a_mac_mcast ex_addrs; a_host4 := []; a_mcast4 := []; a_host6 := []; a_mcast6 := [];
     a_cand4 := []; a_cand6 := None; a_sup4 := true; a_sup6 := true |}.
Definition ex_bare_node : node :=
  ex_node_of {| s_addrs := ex_bare_addrs; s_arp := []; s_nd := []; s_id4 := 0; s_id6 := 0; s_now := 0; s_out := [] |} ex_socks.
Definition ex_udp_other : bytes := Eval vm_compute in skipn 14 (from9 0x0B000001 (PUdp 2000 1001 [1; 2; 3])).
Theorem C45_other_ip4_refuted : ~ C45_other_ip4_statement.
Proof.
  intros H.
  specialize (H ex_bare_node 0x020000000007 0x020000000009 ex_udp_other
    (fst (phrx_ether (eth_wire 0x020000000007 0x020000000009 0x0800 ex_udp_other) ex_bare_node))
    (snd (phrx_ether (eth_wire 0x020000000007 0x020000000009 0x0800 ex_udp_other) ex_bare_node))).
  assert (X : u_queue (n_udp (fst (phrx_ether (eth_wire 0x020000000007 0x020000000009 0x0800 ex_udp_other) ex_bare_node)) 2%nat) =
    u_queue (n_udp ex_bare_node 2%nat)).
  { rewrite H; [reflexivity|unfold ex_udp_other; apply wfb_true; vm_compute; reflexivity|lia|lia| |apply surjective_pairing].
    intros [(h & [] & _)|[[]|X]]. vm_compute in X. discriminate X. }
  vm_compute in X. discriminate X.
Qed.
Print Assumptions C45_other_ip4_refuted.
Example C45_example :
  ~ our_mac (my_addrs ex_node) 0x020000000008 /\ ~ our_ip4 (my_addrs ex_node) (be (slice 16 20 ex_udp_other)) /\
  ~ our_ip6 (my_addrs ex_node) (db8 + 3) /\ be (slice 16 20 ex_udp_other) = 0x0B000001.
Proof.
  unfold our_mac, our_ip4, our_ip6. cbn. repeat split.
  - intros [X|[[X|[X|[]]]|X]]; discriminate X.
  - intros [(h & [<-|[]] & [X|X])|[[X|[]]|X]]; vm_compute in X; discriminate X.
  - intros [(h & [<-|[]] & X)|[X|[X|[]]]]; vm_compute in X; discriminate X.
Qed.

(** * C46 *)
(** The receive path (up to handing a segment to a TCP socket) raises only in the ways listed
    by [rx_raises] and [reply_raises]. *)
Theorem C46_exceptions_partial : forall n f n' e, wf_bytes f -> node_ok n -> socks_ok (n_socks n) -> wf_addrs (my_addrs n) -> 0 <= s_id4 (n_tx n) ->
  phrx_ether f n = (n', Exn e) -> rx_raises n f e \/ reply_raises n f e.
Proof. exact rx_exceptions. Qed.
Print Assumptions C46_exceptions_partial.
Definition C46_statement : Prop := forall n f, wf_bytes f -> node_ok n -> socks_ok (n_socks n) -> wf_addrs (my_addrs n) ->
  exists n', phrx_ether f n = (n', Ok tt).
(** A TCP segment of 12 bytes; an IPv4 header that ends inside an option; a neighbour
    advertisement with one stray byte; a segment at the end of the sequence space, for no
    socket; a long echo request once the identification has run out. *)
Definition ex_short_tcp : bytes := Eval vm_compute in
  wire_of {| f_dst := 0x020000000007; f_src := 0x020000000009; f_pkt := NIp4 (ip4_whole_tx 0x0A000009 0x0A000002 64 6) (PRaw (repeat 1 12)) |}.
Theorem C46_refuted : ~ C46_statement.
Proof.
  intros H. destruct ex_node_ok as (A & B & C). destruct (H ex_node ex_short_tcp) as (n' & E); auto.
  { apply wfb_true. vm_compute. reflexivity. }
  assert (X : snd (phrx_ether ex_short_tcp ex_node) = Ok tt) by (rewrite E; reflexivity). vm_compute in X. discriminate X.
Qed.
Print Assumptions C46_refuted.
Definition ex_syn (seq : Z) (dport : Z) : payload :=
  PTcp {| x_sport := 5001; x_dport := dport; x_seq := seq; x_ack := 0;
          x_fns := false; x_fcrw := false; x_fece := false; x_furg := false; x_fack := false;
          x_fpsh := false; x_frst := false; x_fsyn := true; x_ffin := false; x_win := 100; x_urp := 0; x_opts := []; x_data := [] |}.
Definition ex_worn : node := ex_node_of
  {| s_addrs := ex_addrs; s_arp := s_arp ex_stack; s_nd := s_nd ex_stack; s_id4 := 65535; s_id6 := 0; s_now := 100; s_out := [] |} ex_socks.
Example C46_causes :
  snd (phrx_ether ex_short_tcp ex_node) = Exn IndexError /\
  snd (phrx_ether (eth_wire 0x020000000007 0x020000000009 0x0800
     [70; 0; 0; 24; 0; 0; 0; 0; 64; 17; 99; 208; 10; 0; 0; 1; 10; 0; 0; 2; 1; 1; 1; 2]) ex_node) = Exn IndexError /\
  snd (phrx_ether (from9 0x0A000002 (ex_syn 0xFFFFFFFF 81)) ex_node) = Exn AssertionError /\
  snd (phrx_ether (from9 0x0A000002 (PIcmp4 (T4EchoRequest 1 1 (repeat 7 1473)))) ex_worn) = Exn AssertionError.
Proof. repeat split; vm_compute; reflexivity. Qed.

(** * C47 *)
(** exactly one reply, unicast to the one who asks; they are learnt *)
Theorem C47_arp_reply : forall n e_dst e_src sha spa tha tpa pad,
  let f := eth_wire e_dst e_src 0x0806 (arp_wire 1 sha spa tha tpa ++ pad) in
  wf_bytes pad -> node_ok n -> socks_ok (n_socks n) ->
  0 <= e_dst < 2 ^ 48 -> 0 <= e_src < 2 ^ 48 -> our_mac (my_addrs n) e_dst -> a_sup4 (my_addrs n) = true ->
  0 < sha < 2 ^ 48 -> 0 <= spa < 2 ^ 32 -> 0 <= tha < 2 ^ 48 -> 0 <= tpa < 2 ^ 32 -> 0 <= a_mac (my_addrs n) < 2 ^ 48 ->
  In tpa (ip4_unicast (my_addrs n)) -> ~ In spa (ip4_unicast (my_addrs n)) ->
  exists n' g, phrx_ether f n = (n', Ok tt) /\ s_out (n_tx n') = s_out (n_tx n) ++ [g] /\
    s_arp (n_tx n') = cache_set spa {| ce_mac := sha; ce_perm := false; ce_time := s_now (n_tx n); ce_hits := 0 |} (s_arp (n_tx n)) /\
    same_but_flows (set_tx (n_tx n') n) n' /\
    goes_out g (fun w => w = eth_wire sha (a_mac (my_addrs n)) 0x0806 (arp_wire 2 (a_mac (my_addrs n)) tpa sha spa)).
Proof. exact arp_reply_run. Qed.
Print Assumptions C47_arp_reply.
(** an ARP reply leaves only for a request for one of our addresses from somebody else *)
Theorem C47_only : forall n f n' r, wf_bytes f -> node_ok n -> socks_ok (n_socks n) -> wf_addrs (my_addrs n) ->
  phrx_ether f n = (n', r) ->
  exists new, s_out (n_tx n') = s_out (n_tx n) ++ new /\
  forall g a, In g new -> f_pkt g = NArp a -> a_oper a <> 1 ->
    exists e p, arp_in n f e p /\ a_oper p = 1 /\ In (a_tpa p) (ip4_unicast (my_addrs n)) /\ ~ In (a_spa p) (ip4_unicast (my_addrs n)) /\
      f_dst g = a_sha p /\ a = {| a_oper := 2; a_sha := a_mac (my_addrs n); a_spa := a_tpa p; a_tha := a_sha p; a_tpa := a_spa p |}.
Proof. exact arp_replies_only. Qed.
Print Assumptions C47_only.
(** A request whose sender hardware address is zero passes the parser and gets no reply. *)
Definition C47_statement : Prop := forall n e_dst e_src sha spa tha tpa,
  let f := eth_wire e_dst e_src 0x0806 (arp_wire 1 sha spa tha tpa) in
  node_ok n -> socks_ok (n_socks n) -> wf_addrs (my_addrs n) -> 0 <= e_dst < 2 ^ 48 -> 0 <= e_src < 2 ^ 48 -> our_mac (my_addrs n) e_dst ->
  a_sup4 (my_addrs n) = true -> 0 <= sha < 2 ^ 48 -> 0 <= spa < 2 ^ 32 -> 0 <= tha < 2 ^ 48 -> 0 <= tpa < 2 ^ 32 ->
  In tpa (ip4_unicast (my_addrs n)) -> ~ In spa (ip4_unicast (my_addrs n)) ->
  exists n' g, phrx_ether f n = (n', Ok tt) /\ s_out (n_tx n') = s_out (n_tx n) ++ [g].
Theorem C47_zero_sender_refuted : ~ C47_statement.
Proof.
  intros H. destruct ex_node_ok as (A & B & C).
  destruct (H ex_node (2 ^ 48 - 1) 0x020000000009 0 0x0A000009 0 0x0A000002) as (n' & g & E & O); auto; try lia.
  - right. right. reflexivity.
  - left. reflexivity.
  - intros [X|[]]. discriminate X.
  - assert (X : s_out (n_tx (fst (phrx_ether (eth_wire (2 ^ 48 - 1) 0x020000000009 0x0806 (arp_wire 1 0 0x0A000009 0 0x0A000002)) ex_node))) =
      s_out (n_tx ex_node) ++ [g]) by (rewrite E; exact O). vm_compute in X. discriminate X.
Qed.
Print Assumptions C47_zero_sender_refuted.
Example C47_example :
  let f := eth_wire (2 ^ 48 - 1) 0x020000000009 0x0806 (arp_wire 1 0x020000000009 0x0A000009 0 0x0A000002 ++ repeat 0 18) in
  map (fun g => (f_dst g, wire_of g)) (s_out (n_tx (fst (phrx_ether f ex_node)))) =
  [(0x020000000009, eth_wire 0x020000000009 0x020000000007 0x0806 (arp_wire 2 0x020000000007 0x0A000002 0x020000000009 0x0A000009))] /\
  In 0x0A000002 (ip4_unicast (my_addrs ex_node)) /\ ~ In 0x0A000009 (ip4_unicast (my_addrs ex_node)).
Proof. split; [vm_compute; reflexivity|]. split; [left; reflexivity|intros [X|[]]; discriminate X]. Qed.

(** * C51 *)
(** A solicitation for one of our addresses, when the asker can be reached once its
    link-layer address option is learnt: exactly one advertisement.  The checksum premise
    excludes the messages whose checksum the assembler writes wrongly (C30). *)
Theorem C51_advertisement_partial : forall n f n1 src dst q h k opts m,
  wf_bytes f -> node_ok n -> socks_ok (n_socks n) -> wf_addrs (my_addrs n) ->
  icmp6_in n f n1 src dst q -> q6_body q = B6Ns (h_addr h) opts -> ip6_is_unicast src = true \/ src = 0 ->
  own6 (my_addrs n) h k -> ip6_is_unicast (h_addr h) = true ->
  let to := if src =? 0 then 0xFF02 * 2 ^ 112 + 1 else src in
  let learn := if (src =? 0) || (255 * 2 ^ 120 <=? src) then None else nd_slla opts in
  let s1 := learned6 (n_tx n) src learn in
  let t := T6Na false (negb (src =? 0)) (src =? 0) (h_addr h) [TTlla (a_mac (my_addrs n))] in
  reach6 s1 h k to m ->
  cksum_lucky (ip6_pseudo (h_addr h) to (icmp6_tx_len t) 58) (icmp6_tx_wire t 0) ->
  exists n' g, phrx_ether f n = (n', Ok tt) /\ s_out (n_tx n') = s_out (n_tx n) ++ [g] /\
    same_but_flows (set_tx (n_tx n') n) n' /\
    goes_out g (ip6_between m (a_mac (my_addrs n)) (h_addr h) to 58
      (icmp6_says 136 0 (B6Na false (negb (src =? 0)) (src =? 0) (h_addr h) (map nd_topt_seen [TTlla (a_mac (my_addrs n))])))).
Proof. exact ns_reply. Qed.
Print Assumptions C51_advertisement_partial.
(** every ICMPv6 message that leaves while a frame is handled, and why: in particular an
    advertisement only for a solicitation for one of our addresses *)
Theorem C51_C53_C54_only6 : forall n f n' r, wf_bytes f -> node_ok n -> socks_ok (n_socks n) -> wf_addrs (my_addrs n) ->
  phrx_ether f n = (n', r) ->
  exists new, s_out (n_tx n') = s_out (n_tx n) ++ new /\
  forall g, In g new ->
    (forall t m, f_pkt g = NIp6 t (PIcmp6 m) ->
       (exists x l, m = T6Ns x [TSlla l]) \/
       (exists n1 dst q id seq data, icmp6_in n f n1 (t6_dst t) dst q /\ q6_type q = 128 /\ q6_body q = B6Echo id seq data /\
          m = T6EchoReply id seq data) \/
       (exists n1 dst sport dport data whole, udp_in n f n1 (A6 (t6_dst t)) (A6 dst) sport dport data whole /\
          udp_target (n_socks n) (A6 dst) dport (A6 (t6_dst t)) sport None /\ t6_dst t <> 0 /\ m = T6UnreachPort (firstn 520 whole)) \/
       (exists n1 src dst q target opts, icmp6_in n f n1 src dst q /\ q6_body q = B6Ns target opts /\ In target (ip6_unicast (my_addrs n)) /\
          t6_dst t = (if src =? 0 then 0xFF02 * 2 ^ 112 + 1 else src) /\
          m = T6Na false (negb (src =? 0)) (src =? 0) target [TTlla (a_mac (my_addrs n))])) /\
    (forall t next i d, f_pkt g = NIp6 t (PFrag6 next i d) ->
       exists n1 dst q id seq data, icmp6_in n f n1 (t6_dst t) dst q /\ q6_type q = 128 /\ q6_body q = B6Echo id seq data).
Proof. exact icmp6_only. Qed.
Print Assumptions C51_C53_C54_only6.
(** frames from 2001:db8::9 *)
Definition from9_6 (mac dst hop : Z) (p : payload) : bytes :=
  wire_of {| f_dst := mac; f_src := 0x020000000009; f_pkt := NIp6 (ip6_plain_tx (db8 + 9) dst hop (payload_next p)) p |}.
Definition ex_ns (opts : list nd_topt) : bytes :=
  from9_6 0x3333FF000002 (0xFF02 * 2 ^ 112 + 0x1FF000002) 255 (PIcmp6 (T6Ns (db8 + 2) opts)).
Definition C51_statement : Prop := forall n f n1 src dst q h opts,
  wf_bytes f -> node_ok n -> socks_ok (n_socks n) -> wf_addrs (my_addrs n) ->
  icmp6_in n f n1 src dst q -> q6_body q = B6Ns (h_addr h) opts -> In h (a_host6 (my_addrs n)) ->
  exists n' g, phrx_ether f n = (n', Ok tt) /\ s_out (n_tx n') = s_out (n_tx n) ++ [g] /\
    exists t r s o l, f_pkt g = NIp6 t (PIcmp6 (T6Na r s o (h_addr h) l)).
(** asked by an unknown neighbour without the option, the stack only asks back *)
Definition ex_ns_bare : bytes := Eval vm_compute in ex_ns [].
Theorem C51_unknown_neighbour_refuted : ~ C51_statement.
Proof.
  intros H. destruct ex_node_ok as (A & B & C).
  assert (E : exists n1 src dst q, icmp6_in ex_node ex_ns_bare n1 src dst q /\ q6_body q = B6Ns (h_addr ex_h6) []).
  { do 4 eexists. split; [|shelve]. unfold icmp6_in. do 2 eexists. split.
    - unfold rx6. eexists. split; [split; [vm_compute; reflexivity|right; left; vm_compute; auto]|].
      split; [vm_compute; reflexivity|]. split; [reflexivity|]. apply rx6_whole; [vm_compute; reflexivity| |discriminate].
      right. vm_compute. auto.
    - split; [reflexivity|]. split; [reflexivity|]. split; [reflexivity|]. split; [vm_compute; reflexivity|]. vm_compute. reflexivity.
    Unshelve. vm_compute. reflexivity. }
  destruct E as (n1 & src & dst & q & I & Q).
  destruct (H ex_node ex_ns_bare n1 src dst q ex_h6 [] (wfb_true ex_ns_bare eq_refl) A B C I Q) as (n' & g & E & O & t & r & s & o & l & G).
  { left. reflexivity. }
  assert (X : map f_pkt (s_out (n_tx (fst (phrx_ether ex_ns_bare ex_node)))) = map f_pkt (s_out (n_tx ex_node)) ++ [f_pkt g])
    by (rewrite E; cbn [fst]; rewrite O, map_app; reflexivity).
  rewrite G in X. vm_compute in X. discriminate X.
Qed.
Print Assumptions C51_unknown_neighbour_refuted.
Example C51_example :
  map (fun g => (f_dst g, match f_pkt g with NIp6 t (PIcmp6 m) => Some (t6_dst t, m) | _ => None end))
    (s_out (n_tx (fst (phrx_ether (ex_ns [TSlla 0x020000000009]) ex_node)))) =
  [(0x020000000009, Some (db8 + 9, T6Na false true false (db8 + 2) [TTlla 0x020000000007]))] /\
  map (fun g => match f_pkt g with NIp6 t (PIcmp6 m) => Some m | _ => None end) (s_out (n_tx (fst (phrx_ether ex_ns_bare ex_node)))) =
  [Some (T6Ns (db8 + 9) [TSlla 0x020000000007])].
Proof. split; vm_compute; reflexivity. Qed.

(** * C53 *)
Theorem C53_echo4_partial : forall n f n1 src h k q id seq data m, wf_bytes f -> node_ok n -> socks_ok (n_socks n) ->
  icmp4_in n f n1 src (h_addr h) q -> q4_type q = 8 -> q4_body q = B4Echo id seq data ->
  own4 (my_addrs n) h k -> src <> 0 -> zlen data <= 1472 -> reach4 (n_tx n) h k src m ->
  cksum_lucky0 (icmp4_tx_wire (T4EchoReply id seq data) 0) ->
  exists g, sends_only n f g /\
    goes_out g (ip4_between m (a_mac (my_addrs n)) (h_addr h) src 1 (icmp4_says 0 0 (B4Echo id seq data))).
Proof. exact echo4_reply. Qed.
Print Assumptions C53_echo4_partial.
Theorem C53_echo6_partial : forall n f n1 src h k q id seq data m, wf_bytes f -> node_ok n -> socks_ok (n_socks n) -> wf_addrs (my_addrs n) ->
  icmp6_in n f n1 src (h_addr h) q -> q6_type q = 128 -> q6_body q = B6Echo id seq data ->
  own6 (my_addrs n) h k -> src <> 0 -> zlen data <= 1452 -> reach6 (n_tx n) h k src m ->
  cksum_lucky (ip6_pseudo (h_addr h) src (8 + zlen data) 58) (icmp6_tx_wire (T6EchoReply id seq data) 0) ->
  exists g, sends_only n f g /\
    goes_out g (ip6_between m (a_mac (my_addrs n)) (h_addr h) src 58 (icmp6_says 129 0 (B6Echo id seq data))).
Proof. exact echo6_reply. Qed.
Print Assumptions C53_echo6_partial.
(** an echo request of any size, reachable or not: exactly one echo reply with its id,
    sequence number and data is given to the transmit path (C42-C44 say what that does) *)
Theorem C53_echo4_request : forall n f n1 src dst q id seq data s' r, wf_bytes f -> node_ok n -> socks_ok (n_socks n) ->
  icmp4_in n f n1 src dst q -> q4_type q = 8 -> q4_body q = B4Echo id seq data ->
  send_request (QIcmp4 dst src 0 0 id seq data []) (n_tx n) = (s', r) ->
  exists n', phrx_ether f n = (n', match r with Ok _ => Ok tt | Exn e => Exn e end) /\ n_tx n' = s' /\ same_but_flows (set_tx s' n) n'.
Proof. intros n f n1 src dst q id seq data s' r W K N I T B. apply (request_run n f n1); auto. exact (re_echo4 _ _ _ _ _ _ _ _ _ I T B). Qed.
Print Assumptions C53_echo4_request.
Theorem C53_echo6_request : forall n f n1 src dst q id seq data s' r, wf_bytes f -> node_ok n -> socks_ok (n_socks n) ->
  icmp6_in n f n1 src dst q -> q6_type q = 128 -> q6_body q = B6Echo id seq data ->
  send_request (QIcmp6 dst src 255 (T6EchoReply id seq data)) (n_tx n) = (s', r) ->
  exists n', phrx_ether f n = (n', match r with Ok _ => Ok tt | Exn e => Exn e end) /\ n_tx n' = s' /\ same_but_flows (set_tx s' n) n'.
Proof. intros n f n1 src dst q id seq data s' r W K N I T B. apply (request_run n f n1); auto. exact (re_echo6 _ _ _ _ _ _ _ _ _ I T B). Qed.
Print Assumptions C53_echo6_request.
(** every ICMPv4 message that leaves, and why *)
Theorem C53_C54_only4 : forall n f n' r, wf_bytes f -> node_ok n -> socks_ok (n_socks n) -> wf_addrs (my_addrs n) ->
  phrx_ether f n = (n', r) ->
  exists new, s_out (n_tx n') = s_out (n_tx n) ++ new /\
  forall g, In g new ->
    (forall t m, f_pkt g = NIp4 t (PIcmp4 m) ->
       (exists n1 dst q id seq data, icmp4_in n f n1 (t4_dst t) dst q /\ q4_type q = 8 /\ q4_body q = B4Echo id seq data /\
          m = T4EchoReply id seq data) \/
       (exists n1 dst sport dport data whole, udp_in n f n1 (A4 (t4_dst t)) (A4 dst) sport dport data whole /\
          udp_target (n_socks n) (A4 dst) dport (A4 (t4_dst t)) sport None /\ t4_dst t <> 0 /\ m = T4UnreachPort (firstn 520 whole))) /\
    (forall t d, f_pkt g = NIp4Frag t d ->
       exists n1 dst q id seq data, icmp4_in n f n1 (t4_dst t) dst q /\ q4_type q = 8 /\ q4_body q = B4Echo id seq data).
Proof. exact icmp4_only. Qed.
Print Assumptions C53_C54_only4.
(** the frame of an echo request arrives as one *)
Definition ex_echo : bytes := Eval vm_compute in from9 0x0A000002 (PIcmp4 (T4EchoRequest 7 8 [1; 2; 3])).
Lemma ex_echo_in s t : s_addrs s = ex_addrs -> exists q,
  icmp4_in (ex_node_of s t) ex_echo (ex_node_of s t) 0x0A000009 0x0A000002 q /\ q4_type q = 8 /\ q4_body q = B4Echo 7 8 [1; 2; 3].
Proof.
  intros Ha. unfold icmp4_in. eexists. split.
  - eexists. split.
    + eapply rx4_whole; unfold for_us, my_addrs, ex_node_of; cbn [n_tx]; rewrite ?Ha.
      * split; [vm_compute; reflexivity|]. left. reflexivity.
      * reflexivity.
      * reflexivity.
      * vm_compute. reflexivity.
      * left. left. exists ex_h4. split; [left; reflexivity|]. left. reflexivity.
      * reflexivity.
      * reflexivity.
    + split; [reflexivity|]. split; [reflexivity|]. split; [reflexivity|]. vm_compute. reflexivity.
  - split; reflexivity.
Qed.
(** C53 in full: the reply leaves.  It does not when the asker is not in the ARP cache. *)
Definition C53_statement : Prop := forall n f n1 src h k q id seq data, wf_bytes f -> node_ok n -> socks_ok (n_socks n) -> wf_addrs (my_addrs n) ->
  icmp4_in n f n1 src (h_addr h) q -> q4_type q = 8 -> q4_body q = B4Echo id seq data -> own4 (my_addrs n) h k -> src <> 0 -> zlen data <= 1472 ->
  exists n' g, phrx_ether f n = (n', Ok tt) /\ s_out (n_tx n') = s_out (n_tx n) ++ [g] /\
    exists t, f_pkt g = NIp4 t (PIcmp4 (T4EchoReply id seq data)).
Definition ex_cold : stack :=
  {| s_addrs := ex_addrs; s_arp := []; s_nd := []; s_id4 := 0; s_id6 := 0; s_now := 100; s_out := [] |}.
Theorem C53_unresolved_refuted : ~ C53_statement.
Proof.
  intros H. destruct ex_node_ok as (A & B & C). destruct (ex_echo_in ex_cold ex_socks eq_refl) as (q & I & T & Q).
  destruct (H (ex_node_of ex_cold ex_socks) ex_echo _ _ ex_h4 24 q 7 8 [1; 2; 3] (wfb_true ex_echo eq_refl) A B C I T Q ex_own4)
    as (n' & g & E & O & t & G); [discriminate|cbn; lia|].
  assert (X : map f_pkt (s_out (n_tx (fst (phrx_ether ex_echo (ex_node_of ex_cold ex_socks))))) = [f_pkt g])
    by (rewrite E; cbn [fst]; rewrite O; reflexivity).
  rewrite G in X. vm_compute in X. discriminate X.
Qed.
Print Assumptions C53_unresolved_refuted.
Example C53_example : exists q, icmp4_in ex_node ex_echo ex_node 0x0A000009 (h_addr ex_h4) q /\ q4_type q = 8 /\ q4_body q = B4Echo 7 8 [1; 2; 3] /\
  own4 (my_addrs ex_node) ex_h4 24 /\ reach4 (n_tx ex_node) ex_h4 24 0x0A000009 0x020000000009 /\
  cksum_lucky0 (icmp4_tx_wire (T4EchoReply 7 8 [1; 2; 3]) 0).
Proof.
  destruct (ex_echo_in ex_stack ex_socks eq_refl) as (q & I & T & Q). exists q. split; [exact I|]. split; [exact T|]. split; [exact Q|].
  split; [exact ex_own4|]. split.
  - split; [lia|]. vm_compute. eexists. split; reflexivity.
  - right. vm_compute. discriminate.
Qed.

(** * C54 *)
Theorem C54_unreachable4_partial : forall n f n1 src h k sport dport data whole m, wf_bytes f -> node_ok n -> socks_ok (n_socks n) ->
  udp_in n f n1 (A4 src) (A4 (h_addr h)) sport dport data whole ->
  udp_target (n_socks n) (A4 (h_addr h)) dport (A4 src) sport None ->
  own4 (my_addrs n) h k -> src <> 0 -> reach4 (n_tx n) h k src m ->
  cksum_lucky0 (icmp4_tx_wire (T4UnreachPort (firstn 520 whole)) 0) ->
  exists g, sends_only n f g /\
    goes_out g (ip4_between m (a_mac (my_addrs n)) (h_addr h) src 1 (icmp4_says 3 3 (B4Unreach (firstn 520 whole)))).
Proof. exact unreach4_reply. Qed.
Print Assumptions C54_unreachable4_partial.
Theorem C54_unreachable6_partial : forall n f n1 src h k sport dport data whole m, wf_bytes f -> node_ok n -> socks_ok (n_socks n) -> wf_addrs (my_addrs n) ->
  udp_in n f n1 (A6 src) (A6 (h_addr h)) sport dport data whole ->
  udp_target (n_socks n) (A6 (h_addr h)) dport (A6 src) sport None ->
  own6 (my_addrs n) h k -> src <> 0 -> reach6 (n_tx n) h k src m ->
  cksum_lucky (ip6_pseudo (h_addr h) src (8 + zlen (firstn 520 whole)) 58) (icmp6_tx_wire (T6UnreachPort (firstn 520 whole)) 0) ->
  exists g, sends_only n f g /\
    goes_out g (ip6_between m (a_mac (my_addrs n)) (h_addr h) src 58 (icmp6_says 1 4 (B6Unreach (firstn 520 whole)))).
Proof. exact unreach6_reply. Qed.
Print Assumptions C54_unreachable6_partial.
(** a delivered datagram, or one from the unspecified address, makes nothing leave *)
Theorem C54_delivered_silent : forall n f n1 src dst sport dport data whole i n' r, wf_bytes f -> node_ok n -> socks_ok (n_socks n) ->
  udp_in n f n1 src dst sport dport data whole -> udp_target (n_socks n) dst dport src sport (Some i) ->
  phrx_ether f n = (n', r) -> n_tx n' = n_tx n.
Proof. exact out_of_delivery. Qed.
Print Assumptions C54_delivered_silent.
Theorem C54_unspecified_silent : forall n f n1 src dst sport dport data whole n' r, wf_bytes f -> node_ok n -> socks_ok (n_socks n) ->
  udp_in n f n1 src dst sport dport data whole -> src = zero_of src -> phrx_ether f n = (n', r) ->
  r = Ok tt /\ n_tx n' = n_tx n.
Proof. exact unspecified_src. Qed.
Print Assumptions C54_unspecified_silent.
(** a datagram sent to the subnet broadcast address or to a group is answered all the same *)
Definition C54_statement : Prop := forall n f n' r t m, wf_bytes f -> node_ok n -> socks_ok (n_socks n) -> wf_addrs (my_addrs n) ->
  (forall e, ether_parse f = Ok (inr e) -> EtherModel.e_type e = 0x0800 /\
     ~ In (be (slice 16 20 (EtherModel.e_rest e))) (ip4_unicast (my_addrs n))) ->
  phrx_ether f n = (n', r) -> s_out (n_tx n') = s_out (n_tx n) ++ [{| f_dst := m; f_src := a_mac (my_addrs n); f_pkt := t |}] ->
  forall i u, t <> NIp4 i (PIcmp4 (T4UnreachPort u)).
Definition ex_bcast : bytes := Eval vm_compute in from9 0x0A0000FF (PUdp 2000 7 [1; 2; 3]).
Theorem C54_broadcast_refuted : ~ C54_statement.
Proof.
  intros H. destruct ex_node_ok as (A & B & C).
  refine (H ex_node ex_bcast (fst (phrx_ether ex_bcast ex_node)) (snd (phrx_ether ex_bcast ex_node))
    (NIp4 (ip4_whole_tx 0x0A000002 0x0A000009 64 1) (PIcmp4 (T4UnreachPort (skipn 14 ex_bcast)))) 0x020000000009
    (wfb_true ex_bcast eq_refl) A B C _ (surjective_pairing _) _ _ _ eq_refl).
  - intros e E. vm_compute in E. injection E as <-. split; [reflexivity|]. vm_compute. intros [X|[]]. discriminate X.
  - vm_compute. reflexivity.
Qed.
Print Assumptions C54_broadcast_refuted.
Example C54_example :
  outcome ex_node (from9 0x0A000002 (PUdp 2000 7 [1; 2; 3])) =
    (Ok tt, [NIp4 (ip4_whole_tx 0x0A000002 0x0A000009 64 1) (PIcmp4 (T4UnreachPort (skipn 14 (from9 0x0A000002 (PUdp 2000 7 [1; 2; 3])))))],
     [[]; []; []; []], [false; false; false; false], []) /\
  udp_target (n_socks ex_node) (A4 0x0A000002) 7 (A4 0x0A000009) 2000 None.
Proof.
  split; [vm_compute; reflexivity|]. apply udp_target_iff; [apply ex_node_ok|]. vm_compute. reflexivity.
Qed.

(** * C55 *)
(** An unreachable message that quotes a datagram from one of our sockets marks exactly that
    socket and does nothing else. *)
Theorem C55_refused4 : forall n f n1 src dst q d lip lport rip rport i, wf_bytes f -> node_ok n -> socks_ok (n_socks n) ->
  icmp4_in n f n1 src dst q -> q4_body q = B4Unreach d -> quotes4 d lip lport rip rport ->
  udp_target (n_socks n) (A4 lip) lport (A4 rip) rport (Some i) ->
  exists n', phrx_ether f n = (n', Ok tt) /\ refused n n' i.
Proof. exact refused4_run. Qed.
Print Assumptions C55_refused4.
Theorem C55_refused6 : forall n f n1 src dst q d lip lport rip rport i, wf_bytes f -> node_ok n -> socks_ok (n_socks n) ->
  icmp6_in n f n1 src dst q -> q6_body q = B6Unreach d -> quotes6 d lip lport rip rport ->
  udp_target (n_socks n) (A6 lip) lport (A6 rip) rport (Some i) ->
  exists n', phrx_ether f n = (n', Ok tt) /\ refused n n' i.
Proof. exact refused6_run. Qed.
Print Assumptions C55_refused6.
(** What a frame can do to the UDP sockets: nothing, deliver one datagram to its target, or
    mark the target of a quoted datagram. *)
Theorem C55_C58_only : forall n f n' r, wf_bytes f -> node_ok n -> socks_ok (n_socks n) -> phrx_ether f n = (n', r) ->
  n_udp n' = n_udp n \/
  (exists n1 src dst sport dport data whole i, udp_in n f n1 src dst sport dport data whole /\
     udp_target (n_socks n) dst dport src sport (Some i) /\ r = Ok tt /\
     delivered n n' i {| m_lip := dst; m_lport := dport; m_rip := src; m_rport := sport; m_data := data |}) \/
  (exists n1 src dst q d lip lport rip rport i, icmp4_in n f n1 src dst q /\ q4_body q = B4Unreach d /\ quotes4 d lip lport rip rport /\
     udp_target (n_socks n) (A4 lip) lport (A4 rip) rport (Some i) /\ r = Ok tt /\ refused n n' i) \/
  (exists n1 src dst q d lip lport rip rport i, icmp6_in n f n1 src dst q /\ q6_body q = B6Unreach d /\ quotes6 d lip lport rip rport /\
     udp_target (n_socks n) (A6 lip) lport (A6 rip) rport (Some i) /\ r = Ok tt /\ refused n n' i).
Proof. exact udp_changes. Qed.
Print Assumptions C55_C58_only.
(** A connected socket is the target of no datagram but its own, unless it is connected to
    255.255.255.255. *)
Theorem C55_C58_connected_partial : forall t i lip lport rip rport src sport dst dport, connected_to t i lip lport rip rport ->
  rip <> zero_of rip -> rip <> A4 (2 ^ 32 - 1) -> udp_target t dst dport src sport (Some i) ->
  src = rip /\ sport = rport /\ dst = lip /\ dport = lport.
Proof. exact connected_peer. Qed.
Print Assumptions C55_C58_connected_partial.
(** The socket connected to 255.255.255.255:67 is marked for a datagram it did not send: one
    from 10.0.0.2:68 to 10.0.0.77:67. *)
Definition C55_statement : Prop := forall n f n' i lip lport rip rport, wf_bytes f -> node_ok n -> socks_ok (n_socks n) -> wf_addrs (my_addrs n) ->
  connected_to (n_socks n) i (A4 lip) lport (A4 rip) rport -> rip <> 0 ->
  phrx_ether f n = (n', Ok tt) -> u_unreach (n_udp n i) = false -> u_unreach (n_udp n' i) = true ->
  exists n1 src dst q d, icmp4_in n f n1 src dst q /\ q4_body q = B4Unreach d /\ quotes4 d lip lport rip rport.
Definition ex_quote : bytes := Eval vm_compute in
  skipn 14 (wire_of {| f_dst := 0; f_src := 0; f_pkt := NIp4 (ip4_whole_tx 0x0A000002 0x0A00004D 64 17) (PUdp 68 67 [1; 2; 3]) |}).
Definition ex_unreach : bytes := Eval vm_compute in from9 0x0A000002 (PIcmp4 (T4UnreachPort ex_quote)).
Definition ex_unreach_p : ip4 := Eval vm_compute in match ip4_parse (skipn 14 ex_unreach) with Ok (inr p) => p | _ => ip4_of [] [] end.
Definition ex_unreach_q : icmp4 := Eval vm_compute in
  match icmp4_parse (i4_rest ex_unreach_p) (i4_dlen ex_unreach_p) with Ok (inr q) => q | _ => {| q4_type := 0; q4_code := 0; q4_cksum := 0; q4_body := B4Other |} end.
Lemma ex_unreach_only n1 src dst q : icmp4_in ex_node ex_unreach n1 src dst q -> q = ex_unreach_q.
Proof.
  intros (p & R & _ & _ & _ & Q).
  assert (R' : rx4 ex_node ex_unreach ex_node ex_unreach_p).
  { eapply rx4_whole; unfold for_us.
    - split; [vm_compute; reflexivity|]. left. reflexivity.
    - reflexivity.
    - reflexivity.
    - vm_compute. reflexivity.
    - left. left. exists ex_h4. split; [left; reflexivity|]. left. reflexivity.
    - reflexivity.
    - reflexivity. }
  destruct (rx4_det _ _ _ _ _ _ R R') as (_ & X); subst p.
  assert (X : icmp4_parse (i4_rest ex_unreach_p) (i4_dlen ex_unreach_p) = Ok (inr ex_unreach_q)) by (vm_compute; reflexivity).
  congruence.
Qed.
Theorem C55_dhcp_refuted : ~ C55_statement.
Proof.
  intros H. destruct ex_node_ok as (A & B & C).
  destruct (H ex_node ex_unreach (fst (phrx_ether ex_unreach ex_node)) 3%nat 0 68 0xFFFFFFFF 67 (wfb_true ex_unreach eq_refl) A B C)
    as (n1 & src & dst & q & d & I & Q & Qu).
  - split; [right; right; right; left; reflexivity|]. intros k I. cbn in I.
    repeat destruct I as [I|I]; try discriminate I; [|destruct I]. injection I as <-. reflexivity.
  - discriminate.
  - assert (X : snd (phrx_ether ex_unreach ex_node) = Ok tt) by (vm_compute; reflexivity). rewrite <- X. apply surjective_pairing.
  - reflexivity.
  - vm_compute. reflexivity.
  - rewrite (ex_unreach_only _ _ _ _ I) in Q. assert (d = ex_quote) as -> by (unfold ex_unreach_q in Q; cbn in Q; injection Q as <-; vm_compute; reflexivity).
    destruct Qu as (_ & _ & _ & _ & X & _). vm_compute in X. discriminate X.
Qed.
Print Assumptions C55_dhcp_refuted.
(** A quoted header length below 5 makes the handler take the ports from inside the quoted
    header: [quotes4] holds of bytes that are no IPv4 header.  With length 0 the ports are the
    first four bytes of the header. *)
Example C55_short_header : quotes4 ([0x40; 1; 2; 3] ++ repeat 0 5 ++ [17] ++ repeat 0 2 ++ [10; 0; 0; 2] ++ [10; 0; 0; 9]) 0x0A000002 0x4001 0x0A000009 0x0203.
Proof. repeat split; vm_compute; congruence. Qed.
Example C55_example :
  quotes4 ex_quote 0x0A000002 68 0x0A00004D 67 /\
  outcome ex_node (from9 0x0A000002 (PIcmp4 (T4UnreachPort
    (skipn 14 (wire_of {| f_dst := 0; f_src := 0; f_pkt := NIp4 (ip4_whole_tx 0x0A000002 0x0A000009 64 17) (PUdp 1000 2000 [1; 2; 3]) |}))))) =
  (Ok tt, [], [[]; []; []; []], [true; false; false; false], []).
Proof. split; [repeat split; vm_compute; congruence|vm_compute; reflexivity]. Qed.

(** * C58 *)
Theorem C58_delivered : forall n f n1 src dst sport dport data whole i, wf_bytes f -> node_ok n -> socks_ok (n_socks n) ->
  udp_in n f n1 src dst sport dport data whole -> udp_target (n_socks n) dst dport src sport (Some i) ->
  exists n', phrx_ether f n = (n', Ok tt) /\
    delivered n n' i {| m_lip := dst; m_lport := dport; m_rip := src; m_rport := sport; m_data := data |}.
Proof. exact udp_delivered. Qed.
Print Assumptions C58_delivered.
(** at most one socket is the target *)
Theorem C58_one_target : forall t lip lport rip rport o o', socks_ok t ->
  udp_target t lip lport rip rport o -> udp_target t lip lport rip rport o' -> o' = o.
Proof. exact udp_target_det. Qed.
Print Assumptions C58_one_target.
(** the socket connected to 255.255.255.255:67 gets datagrams from any server *)
Definition C58_statement : Prop := forall n f n' i lip lport rip rport m, wf_bytes f -> node_ok n -> socks_ok (n_socks n) -> wf_addrs (my_addrs n) ->
  connected_to (n_socks n) i (A4 lip) lport (A4 rip) rport -> rip <> 0 ->
  phrx_ether f n = (n', Ok tt) -> u_queue (n_udp n' i) = u_queue (n_udp n i) ++ [m] -> m_rip m = A4 rip.
Definition ex_offer : bytes := Eval vm_compute in from9 0x0A000002 (PUdp 67 68 [1; 2; 3]).
Theorem C58_dhcp_refuted : ~ C58_statement.
Proof.
  intros H. destruct ex_node_ok as (A & B & C).
  assert (X : m_rip {| m_lip := A4 0x0A000002; m_lport := 68; m_rip := A4 0x0A000009; m_rport := 67; m_data := [1; 2; 3] |} = A4 0xFFFFFFFF).
  { apply (H ex_node ex_offer (fst (phrx_ether ex_offer ex_node)) 3%nat 0 68 0xFFFFFFFF 67 _ (wfb_true ex_offer eq_refl) A B C).
    - split; [right; right; right; left; reflexivity|]. intros k I. cbn in I.
      repeat destruct I as [I|I]; try discriminate I; [|destruct I]. injection I as <-. reflexivity.
    - discriminate.
    - assert (X : snd (phrx_ether ex_offer ex_node) = Ok tt) by (vm_compute; reflexivity). rewrite <- X. apply surjective_pairing.
    - vm_compute. reflexivity. }
  discriminate X.
Qed.
Print Assumptions C58_dhcp_refuted.
(** the connected one, the bound one, the wildcard *)
Example C58_example :
  map (fun p => snd (fst (fst (outcome ex_node (from9 0x0A000002 p))))) [PUdp 2000 1000 [1]; PUdp 2001 1000 [2]; PUdp 2000 1001 [3]] =
  [[[{| m_lip := A4 0x0A000002; m_lport := 1000; m_rip := A4 0x0A000009; m_rport := 2000; m_data := [1] |}]; []; []; []];
   [[]; [{| m_lip := A4 0x0A000002; m_lport := 1000; m_rip := A4 0x0A000009; m_rport := 2001; m_data := [2] |}]; []; []];
   [[]; []; [{| m_lip := A4 0x0A000002; m_lport := 1001; m_rip := A4 0x0A000009; m_rport := 2000; m_data := [3] |}]; []]] /\
  connected_to (n_socks ex_node) 0%nat (A4 0x0A000002) 1000 (A4 0x0A000009) 2000.
Proof.
  split; [vm_compute; reflexivity|]. split; [left; reflexivity|]. intros k I. cbn in I.
  repeat destruct I as [I|I]; try discriminate I; [|destruct I]. injection I as <-. reflexivity.
Qed.

(** * C61 *)
Theorem C61_handed : forall n f n1 src dst s i, wf_bytes f -> node_ok n -> socks_ok (n_socks n) -> tcp_in n f n1 src dst s ->
  tcp_target (n_socks n) dst (s_dport s) src (s_sport s) (pure_syn s) (Some i) ->
  exists n', phrx_ether f n = (n', Ok tt) /\ handed n n' i (segment_of src dst s).
Proof. exact tcp_handed. Qed.
Print Assumptions C61_handed.
Theorem C61_handed_only : forall n f n' r, wf_bytes f -> node_ok n -> socks_ok (n_socks n) -> phrx_ether f n = (n', r) ->
  n_tcp n' = n_tcp n \/
  (exists n1 src dst s i, tcp_in n f n1 src dst s /\
     tcp_target (n_socks n) dst (s_dport s) src (s_sport s) (pure_syn s) (Some i) /\ r = Ok tt /\
     handed n n' i (segment_of src dst s)).
Proof. exact tcp_changes. Qed.
Print Assumptions C61_handed_only.
(** the reset: the acknowledgement number is the sum without wrap-around, so the segment must
    not reach the end of the sequence space *)
Theorem C61_reset4_partial : forall n f n1 src h k s m, wf_bytes f -> node_ok n -> socks_ok (n_socks n) ->
  tcp_in n f n1 (A4 src) (A4 (h_addr h)) s ->
  tcp_target (n_socks n) (A4 (h_addr h)) (s_dport s) (A4 src) (s_sport s) (pure_syn s) None ->
  own4 (my_addrs n) h k -> src <> 0 -> reach4 (n_tx n) h k src m -> acks s < 2 ^ 32 ->
  exists g, sends_only n f g /\
    goes_out g (ip4_between m (a_mac (my_addrs n)) (h_addr h) src 6 (tcp4_says (reset_says (s_dport s) (s_sport s) (acks s)))).
Proof. exact reset4_reply. Qed.
Print Assumptions C61_reset4_partial.
Theorem C61_reset6_partial : forall n f n1 src h k s m, wf_bytes f -> node_ok n -> socks_ok (n_socks n) -> wf_addrs (my_addrs n) ->
  tcp_in n f n1 (A6 src) (A6 (h_addr h)) s ->
  tcp_target (n_socks n) (A6 (h_addr h)) (s_dport s) (A6 src) (s_sport s) (pure_syn s) None ->
  own6 (my_addrs n) h k -> src <> 0 -> reach6 (n_tx n) h k src m -> acks s < 2 ^ 32 ->
  (forall t, tcp_of_request (reset_for (A6 src) (A6 (h_addr h)) s) = Some t ->
     cksum_lucky (ip6_pseudo (h_addr h) src 20 6) (tcp_tx_wire t 0)) ->
  exists g, sends_only n f g /\
    goes_out g (ip6_between m (a_mac (my_addrs n)) (h_addr h) src 6 (tcp6_says (reset_says (s_dport s) (s_sport s) (acks s)))).
Proof. exact reset6_reply. Qed.
Print Assumptions C61_reset6_partial.
(** a TCP segment leaves while a frame is handled (below the sockets) only as such a reset *)
Theorem C61_C62_only : forall n f n' r, wf_bytes f -> node_ok n -> socks_ok (n_socks n) -> wf_addrs (my_addrs n) ->
  phrx_ether f n = (n', r) ->
  exists new, s_out (n_tx n') = s_out (n_tx n) ++ new /\
  forall g x, In g new -> (exists t, f_pkt g = NIp4 t (PTcp x)) \/ (exists t, f_pkt g = NIp6 t (PTcp x)) ->
    exists n1 src dst s, tcp_in n f n1 src dst s /\
      tcp_target (n_socks n) dst (s_dport s) src (s_sport s) (pure_syn s) None /\
      x_frst x = true /\ x_fack x = true /\ x_sport x = s_dport s /\ x_dport x = s_sport s /\
      x_ack x = s_seq s + b2z (s_fsyn s) + b2z (s_ffin s) + zlen (s_data s).
Proof. exact tcp_only. Qed.
Print Assumptions C61_C62_only.
(** RFC 793 p. 36: a segment with ACK for no connection gets a reset whose sequence number is
    the segment's acknowledgement number. *)
Definition C61_statement : Prop := forall n f n1 src dst s n' g t x, wf_bytes f -> node_ok n -> socks_ok (n_socks n) -> wf_addrs (my_addrs n) ->
  tcp_in n f n1 (A4 src) (A4 dst) s -> s_fack s = true -> phrx_ether f n = (n', Ok tt) ->
  s_out (n_tx n') = s_out (n_tx n) ++ [g] -> f_pkt g = NIp4 t (PTcp x) -> x_frst x = true -> x_seq x = s_ack s.
Definition ex_ack (rst : bool) : payload :=
  PTcp {| x_sport := 5002; x_dport := 81; x_seq := 1000; x_ack := 77;
          x_fns := false; x_fcrw := false; x_fece := false; x_furg := false; x_fack := true;
          x_fpsh := false; x_frst := rst; x_fsyn := false; x_ffin := false; x_win := 100; x_urp := 0; x_opts := []; x_data := [1; 2] |}.
Definition ex_stray (rst : bool) : bytes := from9 0x0A000002 (ex_ack rst).
Definition ex_stray_p (rst : bool) : ip4 := match ip4_parse (skipn 14 (ex_stray rst)) with Ok (inr p) => p | _ => ip4_of [] [] end.
Definition ex_stray_ps (rst : bool) : Z := match i4_pshdr_sum (ex_stray_p rst) with Ok ps => ps | _ => 0 end.
Definition ex_stray_s (rst : bool) : tcp :=
  match tcp_parse (i4_rest (ex_stray_p rst)) (i4_dlen (ex_stray_p rst)) (ex_stray_ps rst) with
  | Ok (inr s) => s
  | _ => {| s_sport := 0; s_dport := 0; s_seq := 0; s_ack := 0; s_hlen := 0; s_fns := false; s_fcrw := false; s_fece := false; s_furg := false;
            s_fack := false; s_fpsh := false; s_frst := false; s_fsyn := false; s_ffin := false; s_win := 0; s_cksum := 0; s_urg := 0;
            s_opts := []; s_data := [] |}
  end.
Lemma ex_stray_in rst : exists s, tcp_in ex_node (ex_stray rst) ex_node (A4 0x0A000009) (A4 0x0A000002) s /\
  s_fack s = true /\ s_ack s = 77 /\ s_frst s = rst.
Proof.
  assert (E1 : i4_src (ex_stray_p rst) = 0x0A000009) by (destruct rst; vm_compute; reflexivity).
  assert (E2 : i4_dst (ex_stray_p rst) = 0x0A000002) by (destruct rst; vm_compute; reflexivity).
  assert (R : rx4 ex_node (ex_stray rst) ex_node (ex_stray_p rst)).
  { eapply (rx4_whole _ _ {| EtherModel.e_dst := 0x020000000007; EtherModel.e_src := 0x020000000009; EtherModel.e_type := 0x0800;
      EtherModel.e_rest := skipn 14 (ex_stray rst) |}).
    - split; [destruct rst; vm_compute; reflexivity|left; reflexivity].
    - reflexivity.
    - reflexivity.
    - destruct rst; vm_compute; reflexivity.
    - left. left. exists ex_h4. split; [left; reflexivity|left; exact E2].
    - destruct rst; vm_compute; reflexivity.
    - destruct rst; vm_compute; reflexivity. }
  exists (ex_stray_s rst). split; [|destruct rst; vm_compute; auto].
  rewrite <- E1, <- E2. apply (tcp_in4 _ _ _ _ (ex_stray_ps rst) (ex_stray_s rst) R); destruct rst; vm_compute; reflexivity.
Qed.
Theorem C61_reset_seq_refuted : ~ C61_statement.
Proof.
  intros H. destruct ex_node_ok as (A & B & C). destruct (ex_stray_in false) as (s & I & Fa & Fk & _).
  assert (X : exists g t x, s_out (n_tx (fst (phrx_ether (ex_stray false) ex_node))) = s_out (n_tx ex_node) ++ [g] /\
    f_pkt g = NIp4 t (PTcp x) /\ x_frst x = true /\ x_seq x = 0).
  { do 3 eexists. split; [vm_compute; reflexivity|]. split; [reflexivity|]. split; reflexivity. }
  destruct X as (g & t & x & O & G & R & S).
  assert (Y : x_seq x = s_ack s).
  { apply (H ex_node (ex_stray false) ex_node 0x0A000009 0x0A000002 s (fst (phrx_ether (ex_stray false) ex_node)) g t x); auto.
    - apply wfb_true. vm_compute. reflexivity. }
  rewrite S, Fk in Y. discriminate Y.
Qed.
Print Assumptions C61_reset_seq_refuted.
(** a SYN to the listener, a segment of the session, a stray segment *)
Example C61_example :
  map (fun p => let '(r, o, _, _, t) := outcome ex_node (from9 0x0A000002 p) in
     (r, map (fun g => match g with NIp4 _ (PTcp x) => Some (x_sport x, x_dport x, x_ack x, x_frst x) | _ => None end) o, map fst t))
    [ex_syn 100 80; ex_syn 100 81; ex_ack false] =
  [(Ok tt, [], [4%nat]); (Ok tt, [Some (81, 5001, 101, true)], []); (Ok tt, [Some (81, 5002, 1002, true)], [])].
Proof. vm_compute. reflexivity. Qed.

(** * C62 *)
Definition C62_statement : Prop := forall n f n1 src dst s n' r, wf_bytes f -> node_ok n -> socks_ok (n_socks n) -> wf_addrs (my_addrs n) ->
  tcp_in n f n1 src dst s -> s_frst s = true -> phrx_ether f n = (n', r) -> s_out (n_tx n') = s_out (n_tx n).
(** a reset for no socket is answered with a reset *)
Theorem C62_refuted : ~ C62_statement.
Proof.
  intros H. destruct ex_node_ok as (A & B & C). destruct (ex_stray_in true) as (s & I & _ & _ & Fr).
  assert (X : s_out (n_tx (fst (phrx_ether (ex_stray true) ex_node))) = s_out (n_tx ex_node)).
  { apply (H ex_node (ex_stray true) ex_node (A4 0x0A000009) (A4 0x0A000002) s _ (snd (phrx_ether (ex_stray true) ex_node))); auto.
    apply wfb_true. vm_compute. reflexivity. }
  vm_compute in X. discriminate X.
Qed.
Print Assumptions C62_refuted.
(** a reset for a socket is handed to it and makes nothing leave at this layer; one with SYN
    also only goes to a session, never to a listener *)
Theorem C62_known_partial : forall n f n1 src dst s i, wf_bytes f -> node_ok n -> socks_ok (n_socks n) -> tcp_in n f n1 src dst s ->
  s_frst s = true -> open_as (n_socks n) Stream dst (s_dport s) src (s_sport s) i ->
  exists n', phrx_ether f n = (n', Ok tt) /\ handed n n' i (segment_of src dst s) /\ s_out (n_tx n') = s_out (n_tx n).
Proof. exact reset_known. Qed.
Print Assumptions C62_known_partial.
