(** Frame-level lemmas for replies: one frame when the next hop is known, and its bytes. *)
From Verif Require Import Base BaseLemmas CodecModel CodecLemmas AddrModel AddrProofs SpecAddr CksumModel SpecCksum SpecWire EtherModel EtherProofs
  Ip4Model Ip4Proofs Ip6Model Ip6Proofs PshdrLemmas UdpModel UdpProofs UdpIpProofs TcpModel TcpProofs TcpAsmProofs Icmp4Model Icmp4Proofs
  Icmp6Model Icmp6Proofs Icmp6AsmProofs BufProofs FragModel RingModel StackModel SpecStack StackTxProofs StackWireProofs StackSendProofs
  StackRouteProofs StackRxModel SpecRx RxProofs SpecReact ReactProofs ReplyProofs SpecReply.

Lemma send_one4 s h k dst ttl p m : own4 (s_addrs s) h k -> 0 < ttl < 256 -> 0 < dst < 2 ^ 32 ->
  In (payload_proto p) [1; 17; 6; 255] -> c_len (payload_carried p) <= 1480 -> reach4 s h k dst m ->
  exists s', phtx_ip4 (h_addr h) dst ttl p s = (s', Ok PassedToTxRing) /\
    s_out s' = s_out s ++ [frame_to (s_addrs s) m (NIp4 (ip4_whole_tx (h_addr h) dst ttl (payload_proto p)) p)].
Proof.
  intros (Hs & _ & Hh & Ho & Nm & Nb & Na) Ht Hd Hp Hl (Hm & Hr).
  destruct (phtx_ip4 (h_addr h) dst ttl p s) as [s' r] eqn:E.
  destruct (phtx_ip4_live s h k dst ttl p s' r Hs Ht Hh Ho Nm Nb ltac:(lia) Hd Hp E) as [(e & _ & _ & X & _)|(l & P & _ & -> & O)]; [lia|].
  destruct P as [(_ & ->)|(X & _)]; [|lia]. exists s'.
  assert (V : verdict4 (s_addrs s) (s_arp s) (next_hop4 (h_addr h) k (h_gw h) dst) = inl m).
  { unfold verdict4, resolve. destruct (next_hop4 _ _ _ _); [f_equal; auto| | |contradiction]; destruct Hr as (e & -> & ->); reflexivity. }
  rewrite V in O |- *. split; [reflexivity|exact O].
Qed.
Lemma send_one6 s h k dst hop p m : own6 (s_addrs s) h k -> gws_ok (s_addrs s) -> plain6 (s_addrs s) -> 0 < hop < 256 -> 0 < dst < 2 ^ 128 ->
  In (payload_next p) [58; 17; 6; 255] -> c_len (payload_carried p) <= 1460 -> reach6 s h k dst m ->
  exists s', phtx_ip6 (h_addr h) dst hop p s = (s', Ok PassedToTxRing) /\
    s_out s' = s_out s ++ [frame_to (s_addrs s) m (NIp6 (ip6_plain_tx (h_addr h) dst hop (payload_next p)) p)].
Proof.
  intros (Hs & _ & Hh & Ho & Na) Hg Hp6 Ht Hd Hp Hl (Hm & Hr).
  destruct (phtx_ip6 (h_addr h) dst hop p s) as [s' r] eqn:E.
  destruct (phtx_ip6_live s h k dst hop p s' r Hs Hg Hp6 Ht Hh Ho Hd Hp E) as [(e & _ & _ & X)|(l & P & _ & -> & O)]; [lia|].
  destruct P as [(_ & ->)|(X & _)]; [|lia]. exists s'.
  assert (V : verdict6 (s_addrs s) (s_nd s) (next_hop6 (h_addr h) k (h_gw h) dst) = inl m).
  { unfold verdict6, resolve. destruct (next_hop6 _ _ _ _); [f_equal; auto| | |contradiction]; destruct Hr as (e & -> & ->); reflexivity. }
  rewrite V in O |- *. split; [reflexivity|exact O].
Qed.

(** the bytes *)
Lemma goes_out_intro a m p (P : bytes -> Prop) : 0 <= a_mac a < 2 ^ 48 -> 0 <= m < 2 ^ 48 ->
  (forall b, zlen b = c_len (netpkt_carried p) -> exists w, c_asm (netpkt_carried p) b 0 = Ok w /\ P w) ->
  goes_out (frame_to a m p) (fun w => exists rest, ether_parse w =
    Ok (inr {| EtherModel.e_dst := m; EtherModel.e_src := a_mac a; EtherModel.e_type := netpkt_type p; EtherModel.e_rest := rest |}) /\
    w = eth_wire m (a_mac a) (netpkt_type p) rest /\ P rest).
Proof.
  intros Ha Hm H buf L. destruct (netpkt_indep p) as (L0 & I1 & I2).
  assert (Lz : zlen (repeat 0 (Z.to_nat (c_len (netpkt_carried p)))) = c_len (netpkt_carried p)).
  { unfold zlen. rewrite repeat_length. lia. }
  destruct (H _ Lz) as (w0 & A & Pw).
  destruct (ether_round_trip m (a_mac a) (netpkt_type p) (netpkt_carried p) w0 buf) as (w & E1 & E2 & E3); auto.
  - destruct p; cbn [netpkt_type]; cbn; auto.
  - exact (I2 _ _ _ Lz A).
  - intros b Lb. etransitivity; [apply (I1 b _ 0 Lb Lz)|exact A].
  - exists w. split; [exact E1|]. exists w0. auto.
Qed.

Lemma own4_sane h k a dst ttl proto : own4 a h k -> 0 < dst < 2 ^ 32 -> 0 < ttl < 256 -> In proto [1; 6; 17] ->
  ip4_tx_sane (ip4_whole_tx (h_addr h) dst ttl proto).
Proof.
  intros (_ & _ & _ & _ & _ & _ & Na) Hd Ht Hp. unfold ip4_tx_sane, ip4_whole_tx. cbn [t4_opts t4_offset t4_src t4_df t4_mf].
  split; [|split; [reflexivity|split; [reflexivity|]]].
  - unfold ip4_tx_wf. cbn [t4_src t4_dst t4_opts t4_offset]. split; [|repeat split; try lia; first [apply wf_nil|vm_compute; discriminate|reflexivity]].
    unfold ip4_tx_ok. cbn [t4_ttl t4_dscp t4_ecn t4_id t4_proto t4_offset]. replace ((0 <=? ttl) && (ttl <=? 0xFF)) with true by lia.
    destruct Hp as [<-|[<-|[<-|[]]]]; reflexivity.
  - destruct (ip4_ranges (h_addr h) ltac:(lia)) as (_ & _ & _ & M & _ & _ & B & Rv).
    unfold SpecAddr.between, dot in *.
    repeat split; try reflexivity.
    + destruct (ip4_is_multicast (h_addr h)); [|reflexivity]. destruct M as (M & _). specialize (M eq_refl). lia.
    + destruct (ip4_is_reserved (h_addr h)); [|reflexivity]. destruct Rv as (M' & _). specialize (M' eq_refl). lia.
    + destruct (ip4_is_limited_broadcast (h_addr h)); [|reflexivity]. destruct B as (M' & _). specialize (M' eq_refl). lia.
Qed.

Lemma reply4_bytes a h k m dst t : own4 a h k -> 0 <= m < 2 ^ 48 -> 0 < dst < 2 ^ 32 -> icmp4_tx_ok t ->
  (forall d, t = T4UnreachPort d -> 4 <= zlen d) -> icmp4_tx_len t <= 1480 -> cksum_lucky0 (icmp4_tx_wire t 0) ->
  goes_out (frame_to a m (NIp4 (ip4_whole_tx (h_addr h) dst 64 1) (PIcmp4 t)))
    (ip4_between m (a_mac a) (h_addr h) dst 1
      (icmp4_says (q4_type (icmp4_seen t 0)) (q4_code (icmp4_seen t 0)) (q4_body (icmp4_seen t 0)))).
Proof.
  intros O Hm Hd St Hq Hl Hk. pose proof O as (_ & Ha & _).
  assert (G := goes_out_intro a m (NIp4 (ip4_whole_tx (h_addr h) dst 64 1) (PIcmp4 t))
    (fun rest => exists p, ip4_parse rest = Ok (inr p) /\ i4_src p = h_addr h /\ i4_dst p = dst /\ i4_proto p = 1 /\
      icmp4_says (q4_type (icmp4_seen t 0)) (q4_code (icmp4_seen t 0)) (q4_body (icmp4_seen t 0)) p) Ha Hm).
  intros buf L. destruct G with (buf := buf) as (w & A & rest & E1 & _ & p & E2 & E3 & E4 & E5 & E6); [|exact L|].
  - intros b Lb. cbn [netpkt_carried payload_carried c_len ip4_carried icmp4_carried c_asm] in *.
    destruct (icmp4_over_ip4 (ip4_whole_tx (h_addr h) dst 64 1) t [] b 0 (own4_sane h k a dst 64 1 O Hd ltac:(lia) ltac:(cbn; auto)) eq_refl St wf_nil Hq)
      as (w & p & ck & A & B & C1 & C2 & C3 & C4).
    + cbn [t4_opts ip4_whole_tx]. rewrite zlen_nil. lia.
    + left. reflexivity.
    + exact Hk.
    + rewrite Lb. reflexivity.
    + exists w. split; [exact A|]. exists p. rewrite app_nil_r in B. split; [exact B|]. split; [exact C1|]. split; [exact C2|]. split; [exact C3|].
      eexists. split; [exact C4|]. destruct t; repeat split; reflexivity.
  - exists w. split; [exact A|]. exists rest, p. auto 7.
Qed.
Lemma own6_sane h k a dst hop next : own6 a h k -> 0 < dst < 2 ^ 128 -> 0 < hop < 256 -> In next [58; 6; 17] ->
  ip6_tx_wf (ip6_plain_tx (h_addr h) dst hop next) /\ ip6_is_multicast (h_addr h) = false.
Proof.
  intros (_ & _ & _ & _ & Na) Hd Ht Hp. split.
  - split; [|cbn [t6_src t6_dst ip6_plain_tx]; split; [lia|lia]].
    unfold ip6_tx_ok, ip6_plain_tx. cbn [t6_hop t6_dscp t6_ecn t6_flow t6_next].
    replace ((0 <? hop) && (hop <=? 0xFF)) with true by lia. replace ((0 <=? hop) && (hop <=? 0xFF)) with true by lia.
    destruct Hp as [<-|[<-|[<-|[]]]]; reflexivity.
  - rewrite ip6_multicast_iv by lia. lia.
Qed.
Lemma reply6_bytes a h k m dst hop t : own6 a h k -> 0 <= m < 2 ^ 48 -> 0 < dst < 2 ^ 128 -> 0 < hop < 256 -> icmp6_tx_ok t ->
  icmp6_tx_sane t (h_addr h) dst hop -> icmp6_tx_len t <= 1460 ->
  cksum_lucky (ip6_pseudo (h_addr h) dst (icmp6_tx_len t) 58) (icmp6_tx_wire t 0) ->
  goes_out (frame_to a m (NIp6 (ip6_plain_tx (h_addr h) dst hop 58) (PIcmp6 t)))
    (ip6_between m (a_mac a) (h_addr h) dst 58
      (icmp6_says (q6_type (icmp6_seen t 0)) (q6_code (icmp6_seen t 0)) (q6_body (icmp6_seen t 0)))).
Proof.
  intros O Hm Hd Hh St Hq Hl Hk. pose proof O as (_ & Ha & _).
  destruct (own6_sane h k a dst hop 58 O Hd Hh ltac:(cbn; auto)) as (Sn & Nm).
  assert (G := goes_out_intro a m (NIp6 (ip6_plain_tx (h_addr h) dst hop 58) (PIcmp6 t))
    (fun rest => exists p, ip6_parse rest = Ok (inr p) /\ i6_src p = h_addr h /\ i6_dst p = dst /\ i6_next p = 58 /\
      icmp6_says (q6_type (icmp6_seen t 0)) (q6_code (icmp6_seen t 0)) (q6_body (icmp6_seen t 0)) p) Ha Hm).
  intros buf L. destruct G with (buf := buf) as (w & A & rest & E1 & _ & p & E2 & E3 & E4 & E5 & E6); [|exact L|].
  - intros b Lb. cbn [netpkt_carried payload_carried c_len ip6_carried icmp6_carried c_asm] in *.
    destruct (icmp6_over_ip6 (ip6_plain_tx (h_addr h) dst hop 58) t b 0 Sn eq_refl St ltac:(lia) ltac:(cbn [t6_hop ip6_plain_tx]; lia) Nm Hq Hk Lb)
      as (w & p & ps & ck & A & B & C1 & C2 & C3 & C4 & C5 & C6).
    exists w. split; [exact A|]. exists p. split; [exact B|]. split; [exact C1|]. split; [exact C2|]. split; [exact C3|].
    exists ps. eexists. split; [exact C5|]. split; [exact C6|]. repeat split; reflexivity.
  - exists w. split; [exact A|]. exists rest, p. auto 7.
Qed.

Lemma reset_ok sp dp ack t src dst : 0 < sp < 65536 -> 0 < dp < 65536 -> 0 <= ack < 2 ^ 32 ->
  tcp_of_request (QTcp src dst sp dp 0 ack false true false true 0 None None []) = Some t ->
  tcp_tx_sane t /\ x_len t = 20 /\ forall ck, reset_says sp dp ack (tcp_seen t ck).
Proof.
  intros H1 H2 H3 E. cbn [tcp_of_request] in E. injection E as <-. split; [|split; [reflexivity|intros ck; repeat split; reflexivity]].
  unfold tcp_tx_sane. cbn [x_data x_sport x_dport x_fsyn x_ffin x_frst x_fack x_ack x_urp x_furg].
  split; [|split; [apply wf_nil|split; [vm_compute; discriminate|split; [reflexivity|]]]].
  - unfold tcp_tx_ok. cbn [x_sport x_dport x_seq x_ack x_win x_urp x_opts tcp_phtx_opts].
    replace (0 <=? sp) with true by lia. replace (sp <=? 65535) with true by lia. replace (0 <=? dp) with true by lia.
    replace (dp <=? 65535) with true by lia. replace (0 <=? ack) with true by lia. replace (ack <=? 4294967295) with true by lia. reflexivity.
  - repeat split; try lia; intros (X & Y); try discriminate; contradiction.
Qed.
Lemma reset4_bytes a h k m dst sp dp ack t src' dst' : own4 a h k -> 0 <= m < 2 ^ 48 -> 0 < dst < 2 ^ 32 ->
  0 < sp < 65536 -> 0 < dp < 65536 -> 0 <= ack < 2 ^ 32 ->
  tcp_of_request (QTcp src' dst' sp dp 0 ack false true false true 0 None None []) = Some t ->
  goes_out (frame_to a m (NIp4 (ip4_whole_tx (h_addr h) dst 64 6) (PTcp t)))
    (ip4_between m (a_mac a) (h_addr h) dst 6 (tcp4_says (reset_says sp dp ack))).
Proof.
  intros O Hm Hd H1 H2 H3 Et. pose proof O as (_ & Ha & _). destruct (reset_ok _ _ _ _ _ _ H1 H2 H3 Et) as (St & Lt & Sy).
  assert (G := goes_out_intro a m (NIp4 (ip4_whole_tx (h_addr h) dst 64 6) (PTcp t))
    (fun rest => exists p, ip4_parse rest = Ok (inr p) /\ i4_src p = h_addr h /\ i4_dst p = dst /\ i4_proto p = 6 /\
      tcp4_says (reset_says sp dp ack) p) Ha Hm).
  intros buf L. destruct G with (buf := buf) as (w & A & rest & E1 & _ & p & E2 & E3 & E4 & E5 & E6); [|exact L|].
  - intros b Lb. cbn [netpkt_carried payload_carried c_len ip4_carried tcp_carried c_asm] in *.
    destruct (tcp_over_ip4 (ip4_whole_tx (h_addr h) dst 64 6) t [] b 0 (own4_sane h k a dst 64 6 O Hd ltac:(lia) ltac:(cbn; auto)) eq_refl St wf_nil)
      as (w & p & ps & ck & A & B & C1 & C2 & C3 & C4 & C5).
    + cbn [t4_opts ip4_whole_tx]. rewrite zlen_nil. lia.
    + left. reflexivity.
    + right. split; [|left; unfold ip4_pseudo; rewrite !zlen_app, !be_enc_zlen; reflexivity].
      rewrite <- Lt. apply tcp_tx_wire_len.
    + rewrite Lb. reflexivity.
    + exists w. split; [exact A|]. exists p. rewrite app_nil_r in B. split; [exact B|]. split; [exact C1|]. split; [exact C2|]. split; [exact C3|].
      exists ps. eexists. split; [exact C4|]. split; [exact C5|apply Sy].
  - exists w. split; [exact A|]. exists rest, p. auto 7.
Qed.
Lemma reset6_bytes a h k m dst sp dp ack t src' dst' : own6 a h k -> 0 <= m < 2 ^ 48 -> 0 < dst < 2 ^ 128 ->
  0 < sp < 65536 -> 0 < dp < 65536 -> 0 <= ack < 2 ^ 32 ->
  tcp_of_request (QTcp src' dst' sp dp 0 ack false true false true 0 None None []) = Some t ->
  cksum_lucky (ip6_pseudo (h_addr h) dst 20 6) (tcp_tx_wire t 0) ->
  goes_out (frame_to a m (NIp6 (ip6_plain_tx (h_addr h) dst 64 6) (PTcp t)))
    (ip6_between m (a_mac a) (h_addr h) dst 6 (tcp6_says (reset_says sp dp ack))).
Proof.
  intros O Hm Hd H1 H2 H3 Et Hk. pose proof O as (_ & Ha & _). destruct (reset_ok _ _ _ _ _ _ H1 H2 H3 Et) as (St & Lt & Sy).
  destruct (own6_sane h k a dst 64 6 O Hd ltac:(lia) ltac:(cbn; auto)) as (Sn & Nm).
  assert (G := goes_out_intro a m (NIp6 (ip6_plain_tx (h_addr h) dst 64 6) (PTcp t))
    (fun rest => exists p, ip6_parse rest = Ok (inr p) /\ i6_src p = h_addr h /\ i6_dst p = dst /\ i6_next p = 6 /\
      tcp6_says (reset_says sp dp ack) p) Ha Hm).
  intros buf L. destruct G with (buf := buf) as (w & A & rest & E1 & _ & p & E2 & E3 & E4 & E5 & E6); [|exact L|].
  - intros b Lb. cbn [netpkt_carried payload_carried c_len ip6_carried tcp_carried c_asm] in *.
    destruct (tcp_over_ip6 (ip6_plain_tx (h_addr h) dst 64 6) t b 0 Sn eq_refl St ltac:(cbn [t6_hop ip6_plain_tx]; lia) Nm)
      as (w & p & ps & ck & A & B & C1 & C2 & C3 & C4 & C5).
    + rewrite Lt. exact Hk.
    + exact Lb.
    + exists w. split; [exact A|]. exists p. split; [exact B|]. split; [exact C1|]. split; [exact C2|]. split; [exact C3|].
      exists ps. eexists. split; [exact C4|]. split; [exact C5|apply Sy].
  - exists w. split; [exact A|]. exists rest, p. auto 7.
Qed.

Lemma zlen_slice' {A} (l : list A) : zlen (slice 0 520 l) = Z.min 520 (zlen l).
Proof. unfold slice, zlen. rewrite firstn_length, skipn_length. lia. Qed.

(** ** one reply *)
Lemma one_reply n f n1 q s' st g : reacts n f n1 (RSend q) -> wf_bytes f -> node_ok n -> socks_ok (n_socks n) ->
  send_request q (n_tx n) = (s', Ok st) -> s_out s' = s_out (n_tx n) ++ [g] -> sends_only n f g.
Proof.
  intros H W K N E O. destruct (react_run n f n1 _ H W K N) as (Sb & R). pose proof Sb as (St & Sr). rewrite send_run, St, E in R. cbn [fst snd] in R.
  eexists. split; [exact R|]. split; [exact O|]. unfold same_but_flows in *. cbn [set_tx n_tx n_socks n_udp n_tcp n_dad n_dad_tlla n_ra n_ra_ev n_conflict] in *. tauto.
Qed.

Lemma echo4_reply n f n1 src h k q id seq data m : wf_bytes f -> node_ok n -> socks_ok (n_socks n) ->
  icmp4_in n f n1 src (h_addr h) q -> q4_type q = 8 -> q4_body q = B4Echo id seq data ->
  own4 (my_addrs n) h k -> src <> 0 -> zlen data <= 1472 -> reach4 (n_tx n) h k src m ->
  cksum_lucky0 (icmp4_tx_wire (T4EchoReply id seq data) 0) ->
  exists g, sends_only n f g /\
    goes_out g (ip4_between m (a_mac (my_addrs n)) (h_addr h) src 1 (icmp4_says 0 0 (B4Echo id seq data))).
Proof.
  intros W K N I T B O S0 L Hr Hk. destruct (echo4_body _ _ _ _ _ _ _ _ _ I W K B) as (Hs & Hd & H1 & H2 & Wd & Ld).
  assert (Nw : icmp4_new 0 0 id seq data [] = Ok (T4EchoReply id seq data)).
  { unfold icmp4_new, assert_. replace ((0 <=? id) && (id <=? 0xFFFF)) with true by lia.
    replace ((0 <=? seq) && (seq <=? 0xFFFF)) with true by lia. reflexivity. }
  destruct (send_one4 (n_tx n) h k src 64 (PIcmp4 (T4EchoReply id seq data)) m O ltac:(lia) ltac:(lia) ltac:(cbn; auto)) as (s' & E & Eo).
  { cbn [payload_carried icmp4_carried c_len icmp4_tx_len]. lia. } { exact Hr. }
  eexists. split.
  - eapply one_reply; [exact (re_echo4 n f n1 src _ q id seq data I T B)|auto|auto|auto| |exact Eo].
    cbn [send_request]. unfold phtx_icmp4, mbind, lift. rewrite Nw. exact E.
  - apply (reply4_bytes (my_addrs n) h k m src (T4EchoReply id seq data)); auto; try lia; try (apply Hr); try discriminate.
    + cbn. auto.
    + cbn [icmp4_tx_len]. lia.
Qed.
Lemma echo6_reply n f n1 src h k q id seq data m : wf_bytes f -> node_ok n -> socks_ok (n_socks n) -> wf_addrs (my_addrs n) ->
  icmp6_in n f n1 src (h_addr h) q -> q6_type q = 128 -> q6_body q = B6Echo id seq data ->
  own6 (my_addrs n) h k -> src <> 0 -> zlen data <= 1452 -> reach6 (n_tx n) h k src m ->
  cksum_lucky (ip6_pseudo (h_addr h) src (8 + zlen data) 58) (icmp6_tx_wire (T6EchoReply id seq data) 0) ->
  exists g, sends_only n f g /\
    goes_out g (ip6_between m (a_mac (my_addrs n)) (h_addr h) src 58 (icmp6_says 129 0 (B6Echo id seq data))).
Proof.
  intros W K N (Hg & Hp & _) I T B O S0 L Hr Hk. destruct (echo6_body _ _ _ _ _ _ _ _ _ I W K B) as (Hs & Hd & H1 & H2 & Wd & Ld).
  assert (Nw : icmp6_new (T6EchoReply id seq data) = Ok (T6EchoReply id seq data)).
  { cbn [icmp6_new]. unfold assert_. replace ((0 <=? id) && (id <=? 0xFFFF)) with true by lia.
    replace ((0 <=? seq) && (seq <=? 0xFFFF)) with true by lia. reflexivity. }
  destruct (send_one6 (n_tx n) h k src 255 (PIcmp6 (T6EchoReply id seq data)) m O Hg Hp ltac:(lia) ltac:(lia) ltac:(cbn; auto)) as (s' & E & Eo).
  { cbn [payload_carried icmp6_carried c_len icmp6_tx_len]. lia. } { exact Hr. }
  eexists. split.
  - eapply one_reply; [exact (re_echo6 n f n1 src _ q id seq data I T B)|auto|auto|auto| |exact Eo].
    cbn [send_request]. unfold phtx_icmp6, mbind, lift. rewrite Nw. exact E.
  - apply (reply6_bytes (my_addrs n) h k m src 255 (T6EchoReply id seq data)); auto; try lia; try (apply Hr).
    + cbn. auto.
    + exact Logic.I.
    + cbn [icmp6_tx_len]. lia.
Qed.

Lemma udp_whole_len n f n1 src dst sport dport data whole : udp_in n f n1 src dst sport dport data whole -> wf_bytes f -> node_ok n ->
  20 <= zlen whole.
Proof.
  intros H W K. inversion H as [n1' p sp dp d R T Dg|n1' p sp dp d R T Dg]; subst.
  - destruct (rx4_facts _ _ _ _ R W K) as (_ & _ & _ & _ & _ & _ & Wf & P). destruct (ip4_accept_fields _ _ Wf P) as (L1 & L2 & _).
    rewrite zlen_slice; lia.
  - destruct (rx6_facts _ _ _ _ R W K) as (_ & _ & _ & _ & _ & Wf & P).
    pose proof P as P'. apply (ip6_parse_exact _ _ Wf) in P' as (_ & _ & _ & _ & Hl & _ & _ & _ & _ & _ & _ & L & E).
    rewrite zlen_slice; [unfold i6_plen; lia|unfold i6_plen; lia|]. unfold i6_plen. rewrite E. rewrite zlen_app, L.
    unfold ip6_hdr_wire. rewrite !zlen_app, !be_enc_zlen, !zlen_cons, !zlen_nil. lia.
Qed.
Lemma unreach4_reply n f n1 src h k sport dport data whole m : wf_bytes f -> node_ok n -> socks_ok (n_socks n) ->
  udp_in n f n1 (A4 src) (A4 (h_addr h)) sport dport data whole ->
  udp_target (n_socks n) (A4 (h_addr h)) dport (A4 src) sport None ->
  own4 (my_addrs n) h k -> src <> 0 -> reach4 (n_tx n) h k src m ->
  cksum_lucky0 (icmp4_tx_wire (T4UnreachPort (firstn 520 whole)) 0) ->
  exists g, sends_only n f g /\
    goes_out g (ip4_between m (a_mac (my_addrs n)) (h_addr h) src 1 (icmp4_says 3 3 (B4Unreach (firstn 520 whole)))).
Proof.
  intros W K N I T O S0 Hr Hk. destruct (udp_in_facts _ _ _ _ _ _ _ _ _ I W K) as (_ & Ks & _ & Ww).
  cbn [kind_ok] in Ks. change (firstn 520 whole) with (slice 0 520 whole) in *.
  pose proof (zlen_cut 520 whole ltac:(lia)) as Lc.
  destruct (send_one4 (n_tx n) h k src 64 (PIcmp4 (T4UnreachPort (slice 0 520 whole))) m O ltac:(lia) ltac:(unfold in32 in Ks; lia) ltac:(cbn; auto)) as (s' & E & Eo).
  { cbn [payload_carried icmp4_carried c_len icmp4_tx_len]. lia. } { exact Hr. }
  eexists. split.
  - eapply one_reply; [eapply (re_udp_none n f n1 (A4 src) _ sport dport data whole I T)|auto|auto|auto| |exact Eo].
    + cbn [zero_of]. intros X. injection X as ->. contradiction.
    + exact E.
  - apply (reply4_bytes (my_addrs n) h k m src (T4UnreachPort (slice 0 520 whole))); auto; try (unfold in32 in Ks; lia); try (apply Hr).
    + cbn. apply wf_slice. exact Ww.
    + intros d [= <-]. pose proof (udp_whole_len _ _ _ _ _ _ _ _ _ I W K). rewrite zlen_slice'. lia.
    + cbn [icmp4_tx_len]. lia.
Qed.

Lemma unreach6_reply n f n1 src h k sport dport data whole m : wf_bytes f -> node_ok n -> socks_ok (n_socks n) -> wf_addrs (my_addrs n) ->
  udp_in n f n1 (A6 src) (A6 (h_addr h)) sport dport data whole ->
  udp_target (n_socks n) (A6 (h_addr h)) dport (A6 src) sport None ->
  own6 (my_addrs n) h k -> src <> 0 -> reach6 (n_tx n) h k src m ->
  cksum_lucky (ip6_pseudo (h_addr h) src (8 + zlen (firstn 520 whole)) 58) (icmp6_tx_wire (T6UnreachPort (firstn 520 whole)) 0) ->
  exists g, sends_only n f g /\
    goes_out g (ip6_between m (a_mac (my_addrs n)) (h_addr h) src 58 (icmp6_says 1 4 (B6Unreach (firstn 520 whole)))).
Proof.
  intros W K N (Hg & Hp & _) I T O S0 Hr Hk. destruct (udp_in_facts _ _ _ _ _ _ _ _ _ I W K) as (_ & Ks & _ & Ww).
  cbn [kind_ok] in Ks. change (firstn 520 whole) with (slice 0 520 whole) in *.
  pose proof (zlen_cut 520 whole ltac:(lia)) as Lc.
  destruct (send_one6 (n_tx n) h k src 64 (PIcmp6 (T6UnreachPort (slice 0 520 whole))) m O Hg Hp ltac:(lia) ltac:(unfold in128 in Ks; lia) ltac:(cbn; auto)) as (s' & E & Eo).
  { cbn [payload_carried icmp6_carried c_len icmp6_tx_len]. lia. } { exact Hr. }
  eexists. split.
  - eapply one_reply; [eapply (re_udp_none n f n1 (A6 src) _ sport dport data whole I T)|auto|auto|auto| |exact Eo].
    + cbn [zero_of]. intros X. injection X as ->. contradiction.
    + exact E.
  - apply (reply6_bytes (my_addrs n) h k m src 64 (T6UnreachPort (slice 0 520 whole))); auto; try (unfold in128 in Ks; lia); try (apply Hr).
    + cbn. apply wf_slice. exact Ww.
    + cbn. pose proof (udp_whole_len _ _ _ _ _ _ _ _ _ I W K). rewrite zlen_slice'. lia.
    + cbn [icmp6_tx_len]. lia.
Qed.

(** the acknowledgement number of a reset *)
Definition acks (s : tcp) : Z := s_seq s + b2z (s_fsyn s) + b2z (s_ffin s) + zlen (s_data s).
Lemma acks_pos n f n1 src dst s : tcp_in n f n1 src dst s -> wf_bytes f -> node_ok n -> 0 <= acks s.
Proof.
  intros I W K. destruct (tcp_in_facts _ _ _ _ _ _ I W K) as (_ & _ & _ & _ & _ & Hq & _). unfold acks.
  pose proof (zlen_nonneg (s_data s)). destruct (s_fsyn s), (s_ffin s); cbn [b2z]; lia.
Qed.
Lemma reset4_reply n f n1 src h k s m : wf_bytes f -> node_ok n -> socks_ok (n_socks n) ->
  tcp_in n f n1 (A4 src) (A4 (h_addr h)) s ->
  tcp_target (n_socks n) (A4 (h_addr h)) (s_dport s) (A4 src) (s_sport s) (pure_syn s) None ->
  own4 (my_addrs n) h k -> src <> 0 -> reach4 (n_tx n) h k src m -> acks s < 2 ^ 32 ->
  exists g, sends_only n f g /\
    goes_out g (ip4_between m (a_mac (my_addrs n)) (h_addr h) src 6 (tcp4_says (reset_says (s_dport s) (s_sport s) (acks s)))).
Proof.
  intros W K N I T O S0 Hr Ha. pose proof (acks_pos _ _ _ _ _ _ I W K) as Ha0.
  destruct (tcp_in_facts _ _ _ _ _ _ I W K) as (_ & Ks & _ & P1 & P2 & _).
  cbn [kind_ok] in Ks. unfold in32 in Ks.
  destruct (tcp_of_request (reset_for (A4 src) (A4 (h_addr h)) s)) as [t|] eqn:Et; [|discriminate].
  pose proof Et as Et'. unfold reset_for in Et'. destruct (reset_ok _ _ _ _ _ _ P2 P1 (conj Ha0 Ha) Et') as (St & Lt & _).
  destruct (send_one4 (n_tx n) h k src 64 (PTcp t) m O ltac:(lia) ltac:(lia) ltac:(cbn; auto)) as (s' & E & Eo).
  { cbn [payload_carried tcp_carried c_len]. lia. } { exact Hr. }
  eexists. split.
  - eapply one_reply; [exact (re_tcp_none n f n1 _ _ s I T)|auto|auto|auto| |exact Eo].
    unfold reset_for. cbn [send_request]. unfold phtx_tcp, massert. cbn [tcp_of_request] in Et'. injection Et' as <-.
    destruct St as (K' & _). rewrite K'. exact E.
  - apply (reset4_bytes (my_addrs n) h k m src (s_dport s) (s_sport s) (acks s) t (A4 (h_addr h)) (A4 src)); auto; try lia; apply Hr.
Qed.
Lemma reset6_reply n f n1 src h k s m : wf_bytes f -> node_ok n -> socks_ok (n_socks n) -> wf_addrs (my_addrs n) ->
  tcp_in n f n1 (A6 src) (A6 (h_addr h)) s ->
  tcp_target (n_socks n) (A6 (h_addr h)) (s_dport s) (A6 src) (s_sport s) (pure_syn s) None ->
  own6 (my_addrs n) h k -> src <> 0 -> reach6 (n_tx n) h k src m -> acks s < 2 ^ 32 ->
  (forall t, tcp_of_request (reset_for (A6 src) (A6 (h_addr h)) s) = Some t ->
     cksum_lucky (ip6_pseudo (h_addr h) src 20 6) (tcp_tx_wire t 0)) ->
  exists g, sends_only n f g /\
    goes_out g (ip6_between m (a_mac (my_addrs n)) (h_addr h) src 6 (tcp6_says (reset_says (s_dport s) (s_sport s) (acks s)))).
Proof.
  intros W K N (Hg & Hp & _) I T O S0 Hr Ha Hk. pose proof (acks_pos _ _ _ _ _ _ I W K) as Ha0.
  destruct (tcp_in_facts _ _ _ _ _ _ I W K) as (_ & Ks & _ & P1 & P2 & _).
  cbn [kind_ok] in Ks. unfold in128 in Ks.
  destruct (tcp_of_request (reset_for (A6 src) (A6 (h_addr h)) s)) as [t|] eqn:Et; [|discriminate].
  pose proof Et as Et'. unfold reset_for in Et'. destruct (reset_ok _ _ _ _ _ _ P2 P1 (conj Ha0 Ha) Et') as (St & Lt & _).
  destruct (send_one6 (n_tx n) h k src 64 (PTcp t) m O Hg Hp ltac:(lia) ltac:(lia) ltac:(cbn; auto)) as (s' & E & Eo).
  { cbn [payload_carried tcp_carried c_len]. lia. } { exact Hr. }
  eexists. split.
  - eapply one_reply; [exact (re_tcp_none n f n1 _ _ s I T)|auto|auto|auto| |exact Eo].
    unfold reset_for. cbn [send_request]. unfold phtx_tcp, massert. cbn [tcp_of_request] in Et'. injection Et' as <-.
    destruct St as (K' & _). rewrite K'. exact E.
  - apply (reset6_bytes (my_addrs n) h k m src (s_dport s) (s_sport s) (acks s) t (A6 (h_addr h)) (A6 src)); auto; try lia; apply Hr.
Qed.

(** ** ARP *)
Lemma arp_reply_run n e_dst e_src sha spa tha tpa pad : 
  let f := eth_wire e_dst e_src 0x0806 (arp_wire 1 sha spa tha tpa ++ pad) in
  wf_bytes pad -> node_ok n -> socks_ok (n_socks n) ->
  0 <= e_dst < 2 ^ 48 -> 0 <= e_src < 2 ^ 48 -> our_mac (my_addrs n) e_dst -> a_sup4 (my_addrs n) = true ->
  0 < sha < 2 ^ 48 -> 0 <= spa < 2 ^ 32 -> 0 <= tha < 2 ^ 48 -> 0 <= tpa < 2 ^ 32 -> 0 <= a_mac (my_addrs n) < 2 ^ 48 ->
  In tpa (ip4_unicast (my_addrs n)) -> ~ In spa (ip4_unicast (my_addrs n)) ->
  exists n' g, phrx_ether f n = (n', Ok tt) /\ s_out (n_tx n') = s_out (n_tx n) ++ [g] /\
    s_arp (n_tx n') = cache_set spa {| ce_mac := sha; ce_perm := false; ce_time := s_now (n_tx n); ce_hits := 0 |} (s_arp (n_tx n)) /\
    same_but_flows (set_tx (n_tx n') n) n' /\
    goes_out g (fun w => w = eth_wire sha (a_mac (my_addrs n)) 0x0806 (arp_wire 2 (a_mac (my_addrs n)) tpa sha spa)).
Proof.
  intros f Wp K N Hd Hs Hm Hsup H1 H2 H3 H4 Hmac It Is. set (p := {| a_oper := 1; a_sha := sha; a_spa := spa; a_tha := tha; a_tpa := tpa |}).
  assert (W : wf_bytes f).
  { unfold f, eth_wire, arp_wire. rewrite !wf_app. repeat split; try apply be_enc_wf; auto.
    all: repeat (apply wf_cons; [unfold is_byte; lia|]); apply wf_nil. }
  assert (P : arp_parse (arp_wire 1 sha spa tha tpa ++ pad) = Ok (inr p)).
  { apply (arp_parse_wire p pad). unfold arp_wf. cbn. repeat split; try lia. }
  assert (I : arp_in n f {| EtherModel.e_dst := e_dst; EtherModel.e_src := e_src; EtherModel.e_type := 0x0806; EtherModel.e_rest := arp_wire 1 sha spa tha tpa ++ pad |} p).
  { unfold arp_in, for_us. cbn [EtherModel.e_dst EtherModel.e_type EtherModel.e_rest].
    split; [split; [apply ether_parse_wire; lia|exact Hm]|]. auto. }
  unfold ip4_unicast in *. rewrite in_map_iff in *.
  assert (X : reacts n f n (RArpReply p)).
  { eapply re_arp_reply; [exact I|reflexivity| |]; cbn [a_tpa a_spa p].
    - destruct It as (h & E & Ih). eauto.
    - intros (h & Ih & E). apply Is. eauto. }
  destruct (react_run n f n _ X W K N) as (_ & R). cbn [effect] in R. unfold rbind' at 1, rgets in R. unfold rbind' in R. rewrite tx_run in R. cbn [send_request] in R.
  unfold phtx_arp, mbind at 1 2, gets in R. unfold my_addrs in Hsup. rewrite Hsup in R. cbn [negb] in R.
  unfold massert in R. cbn [a_oper] in R. cbn [Z.eqb ARP_OP_REQUEST ARP_OP_REPLY Pos.eqb orb] in R.
  assert (U : mac_is_unspecified (a_sha p) = false) by (unfold mac_is_unspecified; cbn [a_sha p]; lia).
  rewrite U in R. cbn [negb] in R.
  unfold ether_send, mbind, gets, upd, ret in R. cbn [fst snd] in R. rewrite tx_run in R.
  eexists. exists (frame_to (my_addrs n) sha (NArp {| a_oper := 2; a_sha := a_mac (my_addrs n); a_spa := tpa; a_tha := sha; a_tpa := spa |})).
  split; [exact R|]. split; [|split; [reflexivity|split; [repeat split; reflexivity|]]].
  - cbn [n_tx set_tx fst arp_add upd set_arp put_out s_out]. unfold frame_to.
    destruct (mac_is_unspecified (a_mac (my_addrs n))); reflexivity.
  - intros buf L. set (r := {| a_oper := 2; a_sha := a_mac (my_addrs n); a_spa := tpa; a_tha := sha; a_tpa := spa |}) in *.
    destruct (goes_out_intro (my_addrs n) sha (NArp r) (fun w => w = arp_wire 2 (a_mac (my_addrs n)) tpa sha spa) Hmac ltac:(lia)) with (buf := buf)
      as (w & A & rest & _ & E1 & E2); [|exact L|].
    + intros b Lb. eexists. split; [|reflexivity]. apply (arp_asm_to r 0); [unfold arp_wf; cbn; repeat split; lia|exact Lb].
    + exists w. split; [exact A|]. rewrite E1, E2. reflexivity.
Qed.

(** ** neighbour solicitations *)
Lemma ns_reply n f n1 src dst q h k opts m : wf_bytes f -> node_ok n -> socks_ok (n_socks n) -> wf_addrs (my_addrs n) ->
  icmp6_in n f n1 src dst q -> q6_body q = B6Ns (h_addr h) opts -> ip6_is_unicast src = true \/ src = 0 ->
  own6 (my_addrs n) h k -> ip6_is_unicast (h_addr h) = true ->
  let to := if src =? 0 then 0xFF02 * 2 ^ 112 + 1 else src in
  let learn := if (src =? 0) || (255 * 2 ^ 120 <=? src) then None else nd_slla opts in
  let s1 := learned6 (n_tx n) src learn in
  let t := T6Na false (negb (src =? 0)) (src =? 0) (h_addr h) [TTlla (a_mac (my_addrs n))] in
  reach6 s1 h k to m ->
  cksum_lucky (ip6_pseudo (h_addr h) to (icmp6_tx_len t) 58) (icmp6_tx_wire t 0) ->
  exists n' g, phrx_ether f n = (n', Ok tt) /\ s_out (n_tx n') = s_out (n_tx n) ++ [g] /\
    same_but_flows (set_tx (n_tx n') n) n' /\
    goes_out g (ip6_between m (a_mac (my_addrs n)) (h_addr h) to 58
      (icmp6_says 136 0 (B6Na false (negb (src =? 0)) (src =? 0) (h_addr h) (map nd_topt_seen [TTlla (a_mac (my_addrs n))])))).
Proof.
  intros W K N (Hg & Hp & _) I B Us O Uh to learn s1 t Hr Hk.
  destruct (icmp6_run _ _ _ _ _ _ I W K) as ((St & _) & Hs & Hd & _).
  assert (Hto : 0 < to < 2 ^ 128).
  { unfold to. destruct (Z.eqb_spec src 0); [split; vm_compute; reflexivity|lia]. }
  assert (X : reacts n f n1 (RAdvertise learn src (advertisement (a_mac (my_addrs n)) src (h_addr h)))).
  { eapply re_ns; [exact I|exact B|]. exists h. split; [apply O|reflexivity]. }
  assert (Ea : s_addrs s1 = my_addrs n) by (unfold s1, learned6; destruct learn; reflexivity).
  destruct (send_one6 s1 h k to 255 (PIcmp6 t) m) as (s' & E & Eo); try (rewrite Ea); auto; try lia.
  { cbn; auto. } { cbn. lia. }
  assert (Es : send_request (advertisement (a_mac (my_addrs n)) src (h_addr h)) s1 = (s', Ok PassedToTxRing)).
  { unfold advertisement. revert E. unfold to, t. destruct (Z.eqb_spec src 0); intros E; exact E. }
  destruct (react_run n f n1 _ X W K N) as (Sb & R). pose proof Sb as (_ & Sr).
  cbn [effect] in R.
  assert (R' : phrx_ether f n = (set_tx s' n1, Ok tt)).
  { rewrite R. unfold rbind'. unfold s1 in Es. destruct learn as [l|].
    - rewrite tx_run. cbn [nd_add upd fst snd]. rewrite tx_run. cbn [n_tx set_tx]. rewrite St. cbn [learned6] in Es.
      unfold my_addrs in *. rewrite Es. reflexivity.
    - unfold rret. rewrite tx_run, St. cbn [learned6] in Es. unfold my_addrs in *. rewrite Es. reflexivity. }
  eexists. exists (frame_to (my_addrs n) m (NIp6 (ip6_plain_tx (h_addr h) to 255 58) (PIcmp6 t))).
  split; [exact R'|]. split; [|split].
  - cbn [n_tx set_tx]. rewrite Eo, Ea. unfold s1, learned6. destruct learn; reflexivity.
  - unfold same_but_flows in *. cbn [set_tx n_tx n_socks n_udp n_tcp n_dad n_dad_tlla n_ra n_ra_ev n_conflict] in *. tauto.
  - apply (reply6_bytes (my_addrs n) h k m to 255 t); auto; try lia; try (apply Hr).
    + split; [destruct O as (_ & _ & _ & _ & O); lia|]. constructor; [|constructor]. cbn. destruct O as (_ & O & _). lia.
    + cbn. split; [reflexivity|]. split; [exact Uh|]. unfold to. destruct (Z.eqb_spec src 0) as [E0|E0]; [left; reflexivity|right].
      split; [reflexivity|]. destruct Us; [auto|contradiction].
    + cbn. lia.
Qed.

(** ** what others' traffic does *)
Lemma app_inv_len {A} (a b x y : list A) : a ++ x = b ++ y -> length a = length b -> a = b /\ x = y.
Proof.
  revert b. induction a as [|h a IH]; intros [|k b] E L; try discriminate L; [auto|].
  cbn in E, L. injection E as -> E. destruct (IH b E ltac:(lia)) as (-> & ->). auto.
Qed.
Lemma eth_wire_wf d s t pl : wf_bytes pl -> wf_bytes (eth_wire d s t pl).
Proof. intros. unfold eth_wire. rewrite !wf_app. repeat split; auto; apply be_enc_wf. Qed.
Lemma other_mac n d s t pl : wf_bytes pl -> 0 <= d < 2 ^ 48 -> 0 <= s < 2 ^ 48 -> 0 <= t < 2 ^ 16 -> ~ our_mac (my_addrs n) d ->
  phrx_ether (eth_wire d s t pl) n = (n, Ok tt).
Proof.
  intros W H1 H2 H3 N. unfold phrx_ether, on_parsed, rbind' at 1, rlift.
  destruct (ether_parse_total _ (eth_wire_wf d s t pl W)) as [(x & ->)|(e & Ep & _)]; [reflexivity|]. rewrite Ep.
  assert (Hd : EtherModel.e_dst e = d).
  { pose proof Ep as E2. apply (ether_parse_exact _ _ (eth_wire_wf d s t pl W)) in E2 as (R1 & _ & _ & E2). unfold eth_wire in E2.
    apply app_inv_len in E2 as (E2 & _); [|rewrite !be_enc_length; reflexivity].
    apply (f_equal be) in E2. rewrite !be_be_enc_small in E2 by lia. lia. }
  unfold rbind', rgets. rewrite Hd. destruct (mem d _) eqn:M; [|reflexivity].
  exfalso. apply N. apply our_mac_mem. exact M.
Qed.
Lemma ip4_dst_at f p : wf_bytes f -> ip4_parse f = Ok (inr p) -> i4_dst p = be (slice 16 20 f).
Proof. intros W E. destruct (ip4_accept_fields f p W E) as (_ & _ & _ & _ & _ & _ & _ & _ & _ & Ep). rewrite Ep. reflexivity. Qed.
Lemma ip6_dst_at f p : wf_bytes f -> ip6_parse f = Ok (inr p) -> i6_dst p = be (slice 24 40 f).
Proof.
  intros W E. apply (ip6_parse_exact f p W) in E as (_ & _ & _ & _ & _ & _ & _ & _ & Hd & _ & _ & _ & Ef).
  rewrite Ef. unfold ip6_hdr_wire. rewrite <- !app_assoc.
  rewrite <- (be_be_enc_small 16 (i6_dst p)) at 1 by lia. f_equal.
Qed.
Lemma other_ip4 n d s pl n' r : wf_bytes pl -> 0 <= d < 2 ^ 48 -> 0 <= s < 2 ^ 48 -> a_host4 (my_addrs n) <> [] ->
  ~ our_ip4 (my_addrs n) (be (slice 16 20 pl)) -> phrx_ether (eth_wire d s 0x0800 pl) n = (n', r) ->
  n' = n /\ (r = Ok tt \/ r = Exn IndexError /\ ip4_parse pl = Exn IndexError).
Proof.
  intros W H1 H2 Hh N E. unfold phrx_ether, on_parsed, rbind' at 1, rlift in E. rewrite ether_parse_wire in E by lia.
  unfold rbind' at 1, rgets in E. cbn [EtherModel.e_dst EtherModel.e_type EtherModel.e_rest] in E.
  destruct (negb _); [injection E as <- <-; auto|].
  change (0x800 =? ETHER_TYPE_ARP) with false in E. change (0x800 =? ETHER_TYPE_IP4) with true in E. change (0x800 =? ETHER_TYPE_IP6) with false in E.
  cbn [andb] in E. destruct (a_sup4 (my_addrs n)); [|injection E as <- <-; auto].
  unfold phrx_ip4, on_parsed, rbind' at 1, rlift in E.
  destruct (ip4_parse_cases pl W) as [(x & Ep)|[(Ep & _)|(o & Ep & _)]]; try rewrite Ep in E.
  - injection E as <- <-. auto.
  - injection E as <- <-. auto.
  - set (p := ip4_of pl o) in *. unfold rbind' at 1, rgets in E. pose proof (ip4_dst_at _ _ W Ep) as Ed.
    destruct (takes4_mem (my_addrs n) (i4_dst p)) as (_ & M).
    match type of E with (if ?c then _ else _) _ = _ => destruct c eqn:C end.
    + injection E as <- <-. auto.
    + exfalso. apply N. rewrite <- Ed.
      assert (T : takes4 (my_addrs n) (i4_dst p)) by (apply takes4_mem; exact C).
      destruct T as [T|T]; [exact T|contradiction].
Qed.
Lemma other_ip6 n d s pl : wf_bytes pl -> 0 <= d < 2 ^ 48 -> 0 <= s < 2 ^ 48 ->
  ~ our_ip6 (my_addrs n) (be (slice 24 40 pl)) -> phrx_ether (eth_wire d s 0x86DD pl) n = (n, Ok tt).
Proof.
  intros W H1 H2 N. unfold phrx_ether, on_parsed, rbind' at 1, rlift. rewrite ether_parse_wire by lia.
  unfold rbind' at 1, rgets. cbn [EtherModel.e_dst EtherModel.e_type EtherModel.e_rest].
  destruct (negb _); [reflexivity|].
  change (0x86DD =? ETHER_TYPE_ARP) with false. change (0x86DD =? ETHER_TYPE_IP4) with false. change (0x86DD =? ETHER_TYPE_IP6) with true.
  cbn [andb]. destruct (a_sup6 (my_addrs n)); [|reflexivity].
  unfold phrx_ip6. cbn [phrx_ip6_fuel]. unfold on_parsed, rbind' at 1, rlift at 1.
  destruct (ip6_parse_total pl W) as [(x & Ep)|(p & Ep & _)]; rewrite Ep; [reflexivity|].
  unfold rbind' at 1, rgets at 1. destruct (mem (i6_dst p) _) eqn:M; [|reflexivity].
  exfalso. apply N. rewrite <- (ip6_dst_at _ _ W Ep). apply our_ip6_mem. exact M.
Qed.
