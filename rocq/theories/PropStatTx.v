(** C101 and C102: the transmit statistics. *)
From Verif Require Import Base BaseLemmas CodecModel AddrModel SpecAddr EtherModel Ip4Model Ip6Model UdpModel TcpModel Icmp4Model
  Icmp6Model FragModel RingModel StackModel SpecStack StackTxProofs StackWireProofs StackSendProofs StackRouteProofs
  StatTxModel SpecStatTx StatTxProofs StatTxFrames StatTxStatus StatTxSource StatTxAsk PropTx.

(** C101.  The counters only count: a request sends the same frames and returns the same
    with them. *)
Theorem C101_counting_only_counts : forall q s, snd (x_request q s) = send_request q s.
Proof. intros q s. rewrite spent_run. reflexivity. Qed.
Print Assumptions C101_counting_only_counts.

(** After any requests in any order, all of which returned a status, the counters add up. *)
Theorem C101_transmit_counters_add_up : forall qs s c s' rs, x_requests qs s = (c, (s', rs)) -> Forall returned rs ->
  tx_adds_up (Z.of_nat (length (filter is_direct qs))) c.
Proof. intros qs s c s' rs E F. exact (laws_adds _ _ (g_requests qs s c s' rs E F)). Qed.
Print Assumptions C101_transmit_counters_add_up.
(** UDP to an address outside the network with the gateway unknown, then again once it is
    known, then to the other family, an ARP reply, and a raw packet to a group *)
Definition ex_sends : list request :=
  [QUdp (A4 0x0A000002) (A4 0x08080808) 1024 53 [1; 2]; QUdp (A4 0x0A000002) (A4 0x0A000009) 1024 53 [1; 2];
   QUdp (A4 0x0A000002) (A6 (db8 + 1)) 1024 53 [];
   QArp 0x020000000007 0x020000000009 {| a_oper := 2; a_sha := 0x020000000007; a_spa := 0x0A000002; a_tha := 0x020000000009; a_tpa := 0x0A000009 |};
   QIp4 0x0A000002 0xE0000001 1 (PRaw [7])].
Example C101_example : exists c s' , x_requests ex_sends ex_stack =
    (c, (s', [Ok EtherGatewayArpCacheFail; Ok PassedToTxRing; Ok UdpUnknown; Ok PassedToTxRing; Ok PassedToTxRing])) /\
  tcnt udp__pre_assemble c = 3 /\ tcnt udp__send c = 2 /\ tcnt ip4__pre_assemble c = 3 /\ tcnt ether__pre_assemble c = 5 /\
  tcnt arp__op_request__send c = 1 /\ tcnt ether__dst_spec__send c = 2 /\ length (s_out s') = 4%nat.
Proof. eexists. eexists. split; [reflexivity|]. repeat (split; [reflexivity|]). reflexivity. Qed.

(** C102.  The counters that say a frame was sent are as many as the frames sent, in their
    order, and say of each how its destination was found. *)
Theorem C102_a_counter_for_every_frame : forall q s l s' r, dst_ok q -> x_request q s = (l, (s', r)) ->
  exists new, s_out s' = s_out s ++ new /\ Forall2 (tells (s_addrs s)) (filter says_sent l) new.
Proof. intros q s l s' r D E. destruct (r_request (s_addrs s) q D s l s' r eq_refl E) as (_ & new & O & T). exists new. auto. Qed.
Print Assumptions C102_a_counter_for_every_frame.
Example C102_example_frames : exists s' f, x_request (QUdp (A4 0x0A000002) (A4 0x08080808) 1024 53 [1; 2]) ex_stack =
    ([udp__pre_assemble; udp__send; ip4__pre_assemble; ip4__mtu_ok__send; ether__pre_assemble; ether__src_unspec__fill;
      ether__dst_unspec__ip4_lookup; arp__pre_assemble; arp__op_request__send; ether__pre_assemble; ether__src_spec;
      ether__dst_spec__send; ether__dst_unspec__ip4_lookup__extnet__gw_arp_cache_miss__drop],
     (s', Ok EtherGatewayArpCacheFail)) /\ s_out s' = [f] /\ f_dst f = 0xFFFFFFFFFFFF.
Proof. eexists. eexists. split; [reflexivity|]. split; reflexivity. Qed.

(** The status a request returns and the drop counters agree: after success none has moved,
    after a failure the one for that failure. *)
Theorem C102_the_status_is_counted : forall q s l s' st, x_request q s = (l, (s', Ok st)) -> agrees st l.
Proof. intros q s l s' st E. destruct (o_request (s_addrs s) q s l s' (Ok st) eq_refl E) as (_ & new & _ & T). exact T. Qed.
Print Assumptions C102_the_status_is_counted.

(** What happened to the source address. *)
Theorem C102_ip4_sources_are_counted : forall q src dst ttl p s l s' st, asks4 q src dst ttl p -> a_sup4 (s_addrs s) = true ->
  x_request q s = (l, (s', Ok st)) -> source4 (s_addrs s) src dst p (filter about_source l).
Proof. intros q src dst ttl p s l s' st A H E. destruct (asks4_sources q src dst ttl p (s_addrs s) A H s l s' (Ok st) eq_refl E) as (_ & new & _ & T). exact T. Qed.
Print Assumptions C102_ip4_sources_are_counted.
Theorem C102_ip6_sources_are_counted : forall q src dst hop p s l s' st, asks6 q src dst hop p -> a_sup6 (s_addrs s) = true ->
  x_request q s = (l, (s', Ok st)) -> exists own rest, filter about_source l = own ++ concat rest /\ source6 (s_addrs s) src dst p own /\
    Forall (fun c => exists src' dst' p', follows p' /\ source6 (s_addrs s) src' dst' p' c) rest.
Proof. intros q src dst hop p s l s' st A H E. destruct (asks6_sources q src dst hop p (s_addrs s) A H s l s' (Ok st) eq_refl E) as (_ & new & _ & T). exact T. Qed.
Print Assumptions C102_ip6_sources_are_counted.
(** no source given: the host's address on the destination's network; then the one with a
    gateway; and without any, nothing is sent *)
Example C102_example_source :
  filter about_source (spent (QUdp (A4 0) (A4 0x0A000009) 1 2 []) ex_stack) = [ip4__src_network_unspecified__replace_local] /\
  filter about_source (spent (QUdp (A4 0) (A4 0x08080808) 1 2 []) ex_stack) = [ip4__src_network_unspecified__replace_external] /\
  filter about_source (spent (QUdp (A4 0) (A4 0x08080808) 1 2 []) ex_bare) = [ip4__src_unspecified__drop] /\
  filter about_source (spent (QUdp (A4 0) (A4 0xFFFFFFFF) 68 67 []) ex_bare) = [ip4__src_unspecified__send] /\
  filter about_source (spent (QUdp (A4 0x0A0000FF) (A4 0x0A000009) 1 2 []) ex_stack) = [ip4__src_network_broadcast__replace] /\
  filter about_source (spent (QUdp (A6 0) (A6 (db8 + 9)) 1 2 []) ex_stack) = [ip6__src_network_unspecified__replace_local].
Proof. repeat (split; [vm_compute; reflexivity|]). vm_compute. reflexivity. Qed.

(** Messages, flags and options are counted as asked for. *)
Theorem C102_what_was_asked_for_is_counted : forall q s l s' st, x_request q s = (l, (s', Ok st)) ->
  forall c n, asked_for (s_addrs s) q c = Some n -> tcnt c l = n.
Proof. intros q s l s' st E. destruct (b_request (s_addrs s) q s l s' (Ok st) eq_refl E) as (_ & new & _ & T). exact T. Qed.
Print Assumptions C102_what_was_asked_for_is_counted.
Example C102_example_asked :
  let q := QTcp (A4 0x0A000002) (A4 0x0A000009) 1 2 3 4 true true false false 100 (Some 1460) (Some 7) [] in
  asked_for ex_addrs q tcp__flag_syn = Some 1 /\ asked_for ex_addrs q tcp__flag_fin = Some 0 /\ asked_for ex_addrs q tcp__opt_mss = Some 1 /\
  tcnt tcp__flag_syn (spent q ex_stack) = 1 /\ tcnt tcp__flag_fin (spent q ex_stack) = 0 /\ tcnt tcp__opt_mss (spent q ex_stack) = 1 /\
  snd (snd (x_request q ex_stack)) = Ok PassedToTxRing.
Proof. cbv zeta. repeat (split; [reflexivity|]). vm_compute. reflexivity. Qed.
