(** UDP carried in IPv4 and IPv6 packets, end to end through both codecs. *)
From Verif Require Import BaseLemmas BitLemmas CodecModel CksumModel AddrModel AddrProofs
  SpecCksum CksumProofs SpecWire Ip4Model Ip4Proofs Ip6Model Ip6Proofs EtherProofs CodecLemmas
  PshdrLemmas UdpModel UdpProofs.

Lemma zlen_zeros n : zlen (repeat 0 n) = Z.of_nat n.
Proof. unfold zlen. rewrite repeat_length. reflexivity. Qed.

Lemma pshdr4_for src dst proto len : 0 <= src < 2 ^ 32 -> 0 <= dst < 2 ^ 32 -> 0 <= proto < 256 ->
  0 <= len < 65536 ->
  pshdr_for (ip4_pseudo src dst proto len) (word_sum 4 3 (ip4_pseudo src dst proto len)).
Proof.
  intros. left. exists src, dst, proto, len. rewrite ip4_pshdr_ok by auto. auto 10.
Qed.
Lemma pshdr6_for src dst len next : 0 <= src < 2 ^ 128 -> 0 <= dst < 2 ^ 128 -> 0 <= next < 256 ->
  0 <= len < 65536 ->
  pshdr_for (ip6_pseudo src dst len next) (word_sum 8 5 (ip6_pseudo src dst len next)).
Proof.
  intros. right. exists src, dst, len, next. rewrite ip6_pshdr_ok by lia. auto 10.
Qed.

(** any transport whose assembler fills its buffer with [pl] under the pseudo
    header of the packet: what the IPv4 parser hands to the transport parser *)
Lemma over_ip4 t c pl pad buf ps0 :
  ip4_tx_sane t -> wf_bytes pl -> wf_bytes pad -> zlen pl = c_len c ->
  let pseudo := ip4_pseudo (t4_src t) (t4_dst t) (t4_proto t) (zlen pl) in
  let ps := word_sum 4 3 pseudo in
  (forall b, zlen b = c_len c -> c_asm c b ps = Ok pl) ->
  let plen := 20 + zlen (t4_opts t) + zlen pl in plen < 65536 ->
  t4_opts t = [] \/ rfc1071 (hdr_of t plen 0) 0 <> 65534 ->
  zlen buf = plen ->
  exists w p, ip4_asm t c buf ps0 = Ok w /\ ip4_parse (w ++ pad) = Ok (inr p) /\
    i4_src p = t4_src t /\ i4_dst p = t4_dst t /\ i4_proto p = t4_proto t /\
    i4_rest p = pl ++ pad /\ i4_dlen p = zlen pl /\ i4_pshdr_sum p = Ok ps.
Proof.
  intros S Wl Wd Lc pseudo ps Ha plen Hp Hc Lb.
  pose proof S as (Hw & _). pose proof Hw as (K & _). destruct (ip4_tx_ok_inv t K) as (_ & _ & _ & _ & Hpr).
  pose proof (zlen_nonneg pl). pose proof (zlen_nonneg (t4_opts t)).
  destruct (ip4_round_trip_fields t c pl pad buf ps0 S Wl Wd Lc) as (A & p & P & F); auto.
  { rewrite <- Lc. intros b Hb. apply Ha. lia. }
  destruct F as (F1 & F2 & F3 & F4 & F5 & F6 & F7 & F8 & F9 & F10 & F11 & F12 & F13 & F14 & F15 & F16).
  do 2 eexists. split; [exact A|]. split; [exact P|].
  assert (D : i4_dlen p = zlen pl) by (unfold i4_dlen; rewrite F2, F3; lia).
  cbn [In] in Hpr. repeat (split; [assumption|]). unfold i4_pshdr_sum. rewrite D, F11, F12, F13.
  apply ip4_pshdr_ok; lia.
Qed.

Lemma over_ip6 t c pl buf ps0 :
  ip6_tx_wf t -> wf_bytes pl -> zlen pl = c_len c -> zlen pl < 65536 ->
  let pseudo := ip6_pseudo (t6_src t) (t6_dst t) (zlen pl) (t6_next t) in
  let ps := word_sum 8 5 pseudo in
  (forall b, zlen b = c_len c -> c_asm c b ps = Ok pl) ->
  t6_hop t <> 0 -> ip6_is_multicast (t6_src t) = false ->
  zlen buf = 40 + zlen pl ->
  exists w p, ip6_asm t c buf ps0 = Ok w /\ ip6_parse w = Ok (inr p) /\
    i6_src p = t6_src t /\ i6_dst p = t6_dst t /\ i6_next p = t6_next t /\
    i6_rest p = pl /\ i6_dlen p = zlen pl /\ i6_pshdr_sum p = Ok ps.
Proof.
  intros Hw Wl Lc Hl pseudo ps Ha Hh Hm Lb.
  pose proof Hw as (K & Hs & Hd). destruct (ip6_tx_ok_inv t K) as (_ & _ & _ & _ & Hn).
  pose proof (zlen_nonneg pl).
  destruct (ip6_round_trip t c pl buf ps0 Hw Wl Lc) as (w & p & A & E & P & F); auto; try lia.
  { rewrite <- Lc. intros b Hb. apply Ha. lia. }
  destruct F as (F1 & F2 & F3 & F4 & F5 & F6 & F7 & F8 & F9 & F10 & F11).
  exists w, p. repeat (split; [assumption|]). unfold i6_pshdr_sum. rewrite F5, F6, F8, F9.
  apply ip6_pshdr_ok; lia.
Qed.

Lemma udp_over_ip4 t sport dport data pad buf ps0 :
  ip4_tx_sane t -> t4_proto t = 17 -> 0 < sport < 65536 -> 0 < dport < 65536 ->
  wf_bytes data -> wf_bytes pad ->
  let len := 8 + zlen data in
  let plen := 20 + zlen (t4_opts t) + len in plen < 65536 ->
  t4_opts t = [] \/ rfc1071 (hdr_of t plen 0) 0 <> 65534 ->
  cksum_lucky (ip4_pseudo (t4_src t) (t4_dst t) 17 len) (udp_wire sport dport len 0 data) ->
  zlen buf = plen ->
  exists w p ps u, ip4_asm t (udp_carried sport dport data) buf ps0 = Ok w /\
    ip4_parse (w ++ pad) = Ok (inr p) /\ i4_src p = t4_src t /\ i4_dst p = t4_dst t /\ i4_proto p = 17 /\
    i4_pshdr_sum p = Ok ps /\ udp_parse (i4_rest p) (i4_dlen p) ps = Ok (inr u) /\
    u_sport u = sport /\ u_dport u = dport /\ u_data u = data.
Proof.
  intros S Hpr Hs Hd Wd Wp len plen Hp Hc Hk Lb. pose proof (zlen_nonneg data). pose proof (zlen_nonneg (t4_opts t)).
  pose proof S as ((_ & As & Ad & _) & _).
  pose proof (pshdr4_for (t4_src t) (t4_dst t) 17 len As Ad ltac:(lia) ltac:(unfold len; lia)) as Hps.
  set (ps := word_sum 4 3 _) in Hps.
  set (w0 := udp_wire sport dport len 0 data) in *.
  set (ck := rfc1071 (ip4_pseudo (t4_src t) (t4_dst t) 17 len ++ w0) 0) in *.
  set (pl := udp_wire sport dport len ck data).
  assert (Lpl : zlen pl = len) by (unfold pl; apply udp_wire_len).
  assert (Ha : forall b, zlen b = len -> udp_asm sport dport data b ps = Ok pl).
  { intros b Lbb. destruct (udp_round_trip sport dport data pad b ps _ Hs Hd Wd Wp ltac:(unfold len in *; lia) Hps Lbb Hk)
      as (w & E & Ew & _). rewrite E, Ew. reflexivity. }
  destruct (udp_round_trip sport dport data pad (repeat 0 (Z.to_nat len)) ps _ Hs Hd Wd Wp ltac:(unfold len in *; lia) Hps
    ltac:(rewrite zlen_zeros; unfold len; lia) Hk) as (w & E & Ew & _ & u & Eu & U1 & U2 & U3 & U4).
  assert (w = pl) as -> by exact Ew.
  destruct (over_ip4 t (udp_carried sport dport data) pl pad buf ps0) as (fr & p & A & P & B1 & B2 & B3 & B4 & B5 & B6); auto.
  { unfold pl. apply udp_wire_wf; auto. }
  { rewrite Lpl, Hpr. exact Ha. }
  { rewrite Lpl. exact Hp. }
  { rewrite Lpl. exact Hc. }
  { rewrite Lpl. exact Lb. }
  exists fr, p, ps, u. rewrite B4, B5. rewrite Lpl, Hpr in *. auto 15.
Qed.

Lemma udp_over_ip6 t sport dport data buf ps0 :
  ip6_tx_wf t -> t6_next t = 17 -> 0 < sport < 65536 -> 0 < dport < 65536 -> wf_bytes data ->
  t6_hop t <> 0 -> ip6_is_multicast (t6_src t) = false ->
  let len := 8 + zlen data in len < 65536 ->
  cksum_lucky (ip6_pseudo (t6_src t) (t6_dst t) len 17) (udp_wire sport dport len 0 data) ->
  zlen buf = 40 + len ->
  exists w p ps u, ip6_asm t (udp_carried sport dport data) buf ps0 = Ok w /\
    ip6_parse w = Ok (inr p) /\ i6_src p = t6_src t /\ i6_dst p = t6_dst t /\ i6_next p = 17 /\
    i6_pshdr_sum p = Ok ps /\ udp_parse (i6_rest p) (i6_dlen p) ps = Ok (inr u) /\
    u_sport u = sport /\ u_dport u = dport /\ u_data u = data.
Proof.
  intros Hw Hpr Hs Hd Wd Hh Hm len Hp Hk Lb. pose proof (zlen_nonneg data).
  pose proof Hw as (_ & As & Ad).
  pose proof (pshdr6_for (t6_src t) (t6_dst t) len 17 As Ad ltac:(lia) ltac:(unfold len; lia)) as Hps.
  set (ps := word_sum 8 5 _) in Hps.
  set (w0 := udp_wire sport dport len 0 data) in *.
  set (ck := rfc1071 (ip6_pseudo (t6_src t) (t6_dst t) len 17 ++ w0) 0) in *.
  set (pl := udp_wire sport dport len ck data).
  assert (Lpl : zlen pl = len) by (unfold pl; apply udp_wire_len).
  assert (Wn : wf_bytes []) by constructor.
  assert (Ha : forall b, zlen b = len -> udp_asm sport dport data b ps = Ok pl).
  { intros b Lbb. destruct (udp_round_trip sport dport data [] b ps _ Hs Hd Wd Wn ltac:(unfold len in *; lia) Hps Lbb Hk)
      as (w & E & Ew & _). rewrite E, Ew. reflexivity. }
  destruct (udp_round_trip sport dport data [] (repeat 0 (Z.to_nat len)) ps _ Hs Hd Wd Wn ltac:(unfold len in *; lia) Hps
    ltac:(rewrite zlen_zeros; unfold len; lia) Hk) as (w & E & Ew & _ & u & Eu & U1 & U2 & U3 & U4).
  assert (w = pl) as -> by exact Ew. rewrite app_nil_r in Eu.
  assert (Wl : wf_bytes pl) by (unfold pl; apply udp_wire_wf; auto).
  clearbody pl. subst ps.
  destruct (over_ip6 t (udp_carried sport dport data) pl buf ps0 Hw Wl Lpl) as (fr & p & A & P & B1 & B2 & B3 & B4 & B5 & B6);
    [rewrite Lpl; exact Hp|rewrite Lpl, Hpr; exact Ha|exact Hh|exact Hm|rewrite Lpl; exact Lb|].
  rewrite Lpl, Hpr in *.
  exists fr, p. do 2 eexists. rewrite B4, B5. 
  split; [exact A|]. split; [exact P|]. split; [exact B1|]. split; [exact B2|]. split; [exact B3|].
  split; [exact B6|]. split; [exact Eu|]. auto.
Qed.

Lemma udp_zero_checksum src dst sport dport data ps :
  0 <= src < 2 ^ 32 -> 0 <= dst < 2 ^ 32 -> 0 < sport < 65536 -> 0 < dport < 65536 ->
  wf_bytes data -> 8 + zlen data < 65536 ->
  ip4_pshdr_sum src dst 17 (8 + zlen data) = Ok ps ->
  ((exists p, udp_parse (udp_wire sport dport (8 + zlen data) 0 data) (8 + zlen data) ps = Ok (inr p)) <->
   rfc1071 (ip4_pseudo src dst 17 (8 + zlen data) ++ udp_wire sport dport (8 + zlen data) 0 data) 0 = 0).
Proof.
  intros H1 H2 H3 H4 Wd L E. pose proof (zlen_nonneg data).
  assert (Hp : pshdr_for (ip4_pseudo src dst 17 (8 + zlen data)) ps).
  { left. exists src, dst, 17, (8 + zlen data). repeat split; auto; lia. }
  set (w := udp_wire sport dport (8 + zlen data) 0 data).
  assert (W : wf_bytes w) by (apply udp_wire_wf; auto).
  assert (Lw : zlen w = 8 + zlen data) by apply udp_wire_len.
  transitivity (rfc1071_verifies (ip4_pseudo src dst 17 (8 + zlen data) ++ w) 0).
  - rewrite (udp_accepts w (8 + zlen data) ps _ W Hp) by lia.
    rewrite slice_all by lia.
    split; [tauto|]. intros V. split; [exact V|]. split; [lia|].
    destruct (udp_reads sport dport (8 + zlen data) 0 data []) as (R0 & R2 & R4 & _); try lia.
    rewrite app_nil_r in *. fold w in R0, R2, R4.
    assert (R : be (slice 0 2 w) = word_at w 0 /\ be (slice 2 4 w) = word_at w 2 /\ be (slice 4 6 w) = word_at w 4).
    { assert (L8 : 8 <= zlen w) by lia. clear - L8. take_bytes L8. readf. rewrite !be2. auto. }
    destruct R as (-> & -> & ->). lia.
  - unfold rfc1071_verifies, rfc1071. lia.
Qed.
