(** Properties C23 to C25: UDP codec. *)
From Verif Require Import BaseLemmas CodecModel CodecLemmas AddrModel CksumModel SpecCksum Ip4Model Ip4Proofs
  Ip6Model SpecWire Ip6Proofs PshdrLemmas UdpModel UdpProofs UdpIpProofs.

(** C23, full statement for IPv4. *)
Definition C23_round_trip_statement : Prop :=
  forall src dst sport dport data buf ps,
  0 <= src < 2 ^ 32 -> 0 <= dst < 2 ^ 32 -> 0 < sport < 65536 -> 0 < dport < 65536 ->
  wf_bytes data -> 8 + zlen data < 65516 -> zlen buf = 8 + zlen data ->
  ip4_pshdr_sum src dst 17 (8 + zlen data) = Ok ps ->
  exists w p, udp_asm sport dport data buf ps = Ok w /\
    udp_parse w (8 + zlen data) ps = Ok (inr p) /\
    u_sport p = sport /\ u_dport p = dport /\ u_data p = data.

(** It is false of some datagrams whose checksum should be 0xFFFE. *)
Definition C23_data : bytes := [199; 221; 1; 228; 136; 117; 52; 162; 15; 11; 13; 4; 68; 163].
Theorem C23_round_trip_refuted : exists src dst sport dport data buf ps w,
  zlen buf = 8 + zlen data /\ ip4_pshdr_sum src dst 17 (8 + zlen data) = Ok ps /\
  udp_asm sport dport data buf ps = Ok w /\
  udp_parse w (8 + zlen data) ps = Ok (inl "UDP integrity - wrong packet checksum"%string).
Proof.
  exists 0x0A000001, 0x0A000002, 1024, 53, C23_data, (repeat 0 22). do 2 eexists.
  split; [reflexivity|]. split; [vm_compute; reflexivity|]. split; [vm_compute; reflexivity|].
  vm_compute; reflexivity.
Qed.
Print Assumptions C23_round_trip_refuted.

Theorem C23_statement_refuted : ~ C23_round_trip_statement.
Proof.
  intros H.
  destruct (H 0x0A000001 0x0A000002 1024 53 C23_data (repeat 0 22)
              (word_sum 4 3 (ip4_pseudo 0x0A000001 0x0A000002 17 22))) as (w & p & A & B & _);
    try lia; try reflexivity.
  - repeat constructor; unfold is_byte; lia.
  - vm_compute in A. injection A as <-. vm_compute in B. discriminate.
Qed.
Print Assumptions C23_statement_refuted.

(** C23, partial: all datagrams whose checksum is computed right ([cksum_lucky]:
    not 0xFFFE; for 12 bytes of data over IPv6, not above 0xFFDF). *)
Theorem C23_round_trip_partial : forall sport dport data pad buf ps pseudo,
  0 < sport < 65536 -> 0 < dport < 65536 -> wf_bytes data -> wf_bytes pad -> 8 + zlen data < 65536 ->
  pshdr_for pseudo ps -> zlen buf = 8 + zlen data ->
  cksum_lucky pseudo (udp_wire sport dport (8 + zlen data) 0 data) ->
  exists w, udp_asm sport dport data buf ps = Ok w /\
    w = udp_wire sport dport (8 + zlen data)
          (rfc1071 (pseudo ++ udp_wire sport dport (8 + zlen data) 0 data) 0) data /\
    rfc1071_verifies (pseudo ++ w) 0 /\
    exists p, udp_parse (w ++ pad) (8 + zlen data) ps = Ok (inr p) /\
      u_sport p = sport /\ u_dport p = dport /\ u_plen p = 8 + zlen data /\ u_data p = data.
Proof. exact udp_round_trip. Qed.
Print Assumptions C23_round_trip_partial.

(** the same through the IPv4 and IPv6 codecs *)
Theorem C23_over_ip4_partial : forall t sport dport data pad buf ps0,
  ip4_tx_sane t -> t4_proto t = 17 -> 0 < sport < 65536 -> 0 < dport < 65536 ->
  wf_bytes data -> wf_bytes pad ->
  let len := 8 + zlen data in
  let plen := 20 + zlen (t4_opts t) + len in plen < 65536 ->
  t4_opts t = [] \/ rfc1071 (hdr_of t plen 0) 0 <> 65534 ->
  cksum_lucky (ip4_pseudo (t4_src t) (t4_dst t) 17 len) (udp_wire sport dport len 0 data) ->
  zlen buf = plen ->
  exists w p ps u, ip4_asm t (udp_carried sport dport data) buf ps0 = Ok w /\
    ip4_parse (w ++ pad) = Ok (inr p) /\ i4_src p = t4_src t /\ i4_dst p = t4_dst t /\ i4_proto p = 17 /\
    i4_pshdr_sum p = Ok ps /\ udp_parse (i4_rest p) (i4_dlen p) ps = Ok (inr u) /\
    u_sport u = sport /\ u_dport u = dport /\ u_data u = data.
Proof. exact udp_over_ip4. Qed.
Print Assumptions C23_over_ip4_partial.

Theorem C23_over_ip6_partial : forall t sport dport data buf ps0,
  ip6_tx_wf t -> t6_next t = 17 -> 0 < sport < 65536 -> 0 < dport < 65536 -> wf_bytes data ->
  t6_hop t <> 0 -> ip6_is_multicast (t6_src t) = false ->
  let len := 8 + zlen data in len < 65536 ->
  cksum_lucky (ip6_pseudo (t6_src t) (t6_dst t) len 17) (udp_wire sport dport len 0 data) ->
  zlen buf = 40 + len ->
  exists w p ps u, ip6_asm t (udp_carried sport dport data) buf ps0 = Ok w /\
    ip6_parse w = Ok (inr p) /\ i6_src p = t6_src t /\ i6_dst p = t6_dst t /\ i6_next p = 17 /\
    i6_pshdr_sum p = Ok ps /\ udp_parse (i6_rest p) (i6_dlen p) ps = Ok (inr u) /\
    u_sport u = sport /\ u_dport u = dport /\ u_data u = data.
Proof. exact udp_over_ip6. Qed.
Print Assumptions C23_over_ip6_partial.

Example C23_example :
  pshdr_for (ip4_pseudo 0x0A000001 0x0A000002 17 10) (word_sum 4 3 (ip4_pseudo 0x0A000001 0x0A000002 17 10)) /\
  cksum_lucky (ip4_pseudo 0x0A000001 0x0A000002 17 10) (udp_wire 1024 53 10 0 [1; 2]) /\
  udp_asm 1024 53 [1; 2] (repeat 44 10) (word_sum 4 3 (ip4_pseudo 0x0A000001 0x0A000002 17 10))
  = Ok [4; 0; 0; 53; 0; 10; 230; 160; 1; 2].
Proof.
  split; [apply pshdr4_for; lia|]. split; [left; split; vm_compute; congruence|]. vm_compute; reflexivity.
Qed.

(** C24 *)
Theorem C24_never_raises : forall f plen ps pseudo,
  wf_bytes f -> pshdr_for pseudo ps -> 0 <= plen < 65536 -> exists r, udp_parse f plen ps = Ok r.
Proof. exact udp_never_raises. Qed.
Print Assumptions C24_never_raises.

Theorem C24_acceptance_exact : forall f plen ps pseudo,
  wf_bytes f -> pshdr_for pseudo ps -> 0 <= plen < 65536 ->
  ((exists p, udp_parse f plen ps = Ok (inr p)) <->
   rfc1071_verifies (pseudo ++ slice 0 plen f) 0 /\ 8 <= plen <= zlen f /\ be (slice 4 6 f) = plen /\
   be (slice 0 2 f) <> 0 /\ be (slice 2 4 f) <> 0).
Proof. exact udp_accepts. Qed.
Print Assumptions C24_acceptance_exact.

(** and the fields of an accepted datagram are those on the wire *)
Theorem C24_fields : forall sport dport ck data pad ps pseudo,
  0 < sport < 65536 -> 0 < dport < 65536 -> 0 <= ck < 65536 ->
  wf_bytes data -> wf_bytes pad -> 8 + zlen data < 65536 -> pshdr_for pseudo ps ->
  rfc1071_verifies (pseudo ++ udp_wire sport dport (8 + zlen data) ck data) 0 ->
  udp_parse (udp_wire sport dport (8 + zlen data) ck data ++ pad) (8 + zlen data) ps
  = Ok (inr {| u_sport := sport; u_dport := dport; u_plen := 8 + zlen data; u_cksum := ck; u_data := data |}).
Proof. exact udp_parse_wire. Qed.
Print Assumptions C24_fields.

Example C24_example :
  udp_parse [4; 0; 0; 53; 0; 10; 230; 160; 1; 2; 0; 0] 10 (word_sum 4 3 (ip4_pseudo 0x0A000001 0x0A000002 17 10))
  = Ok (inr {| u_sport := 1024; u_dport := 53; u_plen := 10; u_cksum := 59040; u_data := [1; 2] |}).
Proof. vm_compute; reflexivity. Qed.

(** C25: both halves are false. *)
Theorem C25_zero_checksum_accepted_refuted : exists src dst data ps,
  ip4_pshdr_sum src dst 17 (8 + zlen data) = Ok ps /\
  udp_parse (udp_wire 1024 53 (8 + zlen data) 0 data) (8 + zlen data) ps
  = Ok (inl "UDP integrity - wrong packet checksum"%string).
Proof.
  exists 0x0A000001, 0x0A000002, [1; 2]. eexists. split; [vm_compute; reflexivity|]. vm_compute; reflexivity.
Qed.
Print Assumptions C25_zero_checksum_accepted_refuted.

Theorem C25_never_sends_zero_refuted : exists src dst data ps,
  ip4_pshdr_sum src dst 17 (8 + zlen data) = Ok ps /\
  udp_asm 1024 53 data (repeat 0 10) ps = Ok (udp_wire 1024 53 (8 + zlen data) 0 data).
Proof.
  exists 0x0A000001, 0x0A000002, [231; 162]. eexists. split; [vm_compute; reflexivity|]. vm_compute; reflexivity.
Qed.
Print Assumptions C25_never_sends_zero_refuted.

(** C25, partial: exactly which datagrams without checksum are accepted *)
Theorem C25_zero_checksum_partial : forall src dst sport dport data ps,
  0 <= src < 2 ^ 32 -> 0 <= dst < 2 ^ 32 -> 0 < sport < 65536 -> 0 < dport < 65536 ->
  wf_bytes data -> 8 + zlen data < 65536 ->
  ip4_pshdr_sum src dst 17 (8 + zlen data) = Ok ps ->
  ((exists p, udp_parse (udp_wire sport dport (8 + zlen data) 0 data) (8 + zlen data) ps = Ok (inr p)) <->
   rfc1071 (ip4_pseudo src dst 17 (8 + zlen data) ++ udp_wire sport dport (8 + zlen data) 0 data) 0 = 0).
Proof. exact udp_zero_checksum. Qed.
Print Assumptions C25_zero_checksum_partial.
