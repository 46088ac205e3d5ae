(** Properties C26 to C28: TCP codec. *)
From Verif Require Import BaseLemmas CodecModel CodecLemmas AddrModel CksumModel SpecCksum Ip4Model Ip4Proofs
  Ip6Model SpecWire Ip6Proofs PshdrLemmas UdpIpProofs TcpModel TcpProofs TcpAsmProofs.

(** C26, full statement for IPv4: whatever segment a TCP may legally send, the
    receiver sees its fields, options up to the first end-of-list, and data. *)
Definition C26_round_trip_statement : Prop :=
  forall src dst t buf ps,
  0 <= src < 2 ^ 32 -> 0 <= dst < 2 ^ 32 -> tcp_tx_sane t -> x_len t < 65516 -> zlen buf = x_len t ->
  ip4_pshdr_sum src dst 6 (x_len t) = Ok ps ->
  exists w ck, tcp_asm t buf ps = Ok w /\ tcp_parse w (x_len t) ps = Ok (inr (tcp_seen t ck)).

(** It is false of some segments whose checksum should be 0xFFFE. *)
Definition C26_seg : tcp_tx :=
  {| x_sport := 1024; x_dport := 80; x_seq := 3569549543; x_ack := 0;
     x_fns := false; x_fcrw := false; x_fece := false; x_furg := false; x_fack := false; x_fpsh := false;
     x_frst := false; x_fsyn := true; x_ffin := false; x_win := 1000; x_urp := 0; x_opts := [];
     x_data := [197; 193; 248; 56] |}.
Lemma C26_seg_sane : tcp_tx_sane C26_seg.
Proof.
  split; [reflexivity|]. split; [repeat constructor; unfold is_byte; lia|].
  split; [vm_compute; congruence|]. split; [vm_compute; congruence|].
  repeat split; cbn; intuition congruence.
Qed.
Theorem C26_round_trip_refuted : exists src dst t buf ps w,
  tcp_tx_sane t /\ zlen buf = x_len t /\ ip4_pshdr_sum src dst 6 (x_len t) = Ok ps /\
  tcp_asm t buf ps = Ok w /\
  tcp_parse w (x_len t) ps = Ok (inl "TCP integrity - wrong packet checksum"%string).
Proof.
  exists 0x0A000001, 0x0A000002, C26_seg, (repeat 0 24). do 2 eexists.
  split; [apply C26_seg_sane|]. split; [reflexivity|]. split; [vm_compute; reflexivity|].
  split; [vm_compute; reflexivity|]. vm_compute; reflexivity.
Qed.
Print Assumptions C26_round_trip_refuted.

Theorem C26_statement_refuted : ~ C26_round_trip_statement.
Proof.
  intros H.
  destruct (H 0x0A000001 0x0A000002 C26_seg (repeat 0 24)
              (word_sum 4 3 (ip4_pseudo 0x0A000001 0x0A000002 6 24))) as (w & ck & A & B);
    try lia; try reflexivity.
  - apply C26_seg_sane.
  - vm_compute in A. injection A as <-. vm_compute in B. discriminate.
Qed.
Print Assumptions C26_statement_refuted.

(** C26, partial: all segments whose checksum is computed right ([cksum_lucky]:
    not 0xFFFE; for segments of 20 bytes over IPv6, not above 0xFFDF).  The bytes
    are those of the RFC layout, and the receiver sees the same segment whatever
    padding follows. *)
Theorem C26_round_trip_partial : forall t pad buf ps pseudo,
  tcp_tx_sane t -> wf_bytes pad -> pshdr_for pseudo ps -> zlen buf = x_len t ->
  cksum_lucky pseudo (tcp_tx_wire t 0) ->
  let ck := rfc1071 (pseudo ++ tcp_tx_wire t 0) 0 in
  tcp_asm t buf ps = Ok (tcp_tx_wire t ck) /\
  rfc1071_verifies (pseudo ++ tcp_tx_wire t ck) 0 /\
  tcp_parse (tcp_tx_wire t ck ++ pad) (x_len t) ps = Ok (inr (tcp_seen t ck)).
Proof. exact tcp_round_trip. Qed.
Print Assumptions C26_round_trip_partial.

(** the same through the IPv4 and IPv6 codecs *)
Theorem C26_over_ip4_partial : forall h t pad buf ps0,
  ip4_tx_sane h -> t4_proto h = 6 -> tcp_tx_sane t -> wf_bytes pad ->
  let plen := 20 + zlen (t4_opts h) + x_len t in plen < 65536 ->
  t4_opts h = [] \/ rfc1071 (hdr_of h plen 0) 0 <> 65534 ->
  cksum_lucky (ip4_pseudo (t4_src h) (t4_dst h) 6 (x_len t)) (tcp_tx_wire t 0) ->
  zlen buf = plen ->
  exists w p ps ck, ip4_asm h (tcp_carried t) buf ps0 = Ok w /\
    ip4_parse (w ++ pad) = Ok (inr p) /\ i4_src p = t4_src h /\ i4_dst p = t4_dst h /\ i4_proto p = 6 /\
    i4_pshdr_sum p = Ok ps /\ tcp_parse (i4_rest p) (i4_dlen p) ps = Ok (inr (tcp_seen t ck)).
Proof. exact tcp_over_ip4. Qed.
Print Assumptions C26_over_ip4_partial.

Theorem C26_over_ip6_partial : forall h t buf ps0,
  ip6_tx_wf h -> t6_next h = 6 -> tcp_tx_sane t -> t6_hop h <> 0 -> ip6_is_multicast (t6_src h) = false ->
  cksum_lucky (ip6_pseudo (t6_src h) (t6_dst h) (x_len t) 6) (tcp_tx_wire t 0) ->
  zlen buf = 40 + x_len t ->
  exists w p ps ck, ip6_asm h (tcp_carried t) buf ps0 = Ok w /\
    ip6_parse w = Ok (inr p) /\ i6_src p = t6_src h /\ i6_dst p = t6_dst h /\ i6_next p = 6 /\
    i6_pshdr_sum p = Ok ps /\ tcp_parse (i6_rest p) (i6_dlen p) ps = Ok (inr (tcp_seen t ck)).
Proof. exact tcp_over_ip6. Qed.
Print Assumptions C26_over_ip6_partial.

(** a SYN with MSS, window scale, SACK-permitted and timestamp options *)
Definition C26_syn : tcp_tx :=
  {| x_sport := 32168; x_dport := 443; x_seq := 0xFFFFFFFF; x_ack := 0;
     x_fns := false; x_fcrw := true; x_fece := true; x_furg := false; x_fack := false; x_fpsh := false;
     x_frst := false; x_fsyn := true; x_ffin := false; x_win := 65535; x_urp := 0;
     x_opts := [TOMss 1460; TONop; TOWscale 7; TOSackPerm; TOTimestamp 1 4294967295; TOEol; TOEol; TONop; TOEol];
     x_data := [] |}.
Example C26_example : tcp_tx_sane C26_syn /\
  cksum_lucky (ip4_pseudo 0x0A000001 0x0A000002 6 44) (tcp_tx_wire C26_syn 0) /\
  (let ps := word_sum 4 3 (ip4_pseudo 0x0A000001 0x0A000002 6 44) in
   exists w ck, tcp_asm C26_syn (repeat 77 44) ps = Ok w /\
     tcp_parse (w ++ [9; 9]) 44 ps = Ok (inr (tcp_seen C26_syn ck)) /\
     s_opts (tcp_seen C26_syn ck) = [OMss 1460; ONop; OWscale 7; OSackPerm; OTimestamp 1 4294967295; OEol]).
Proof.
  split.
  { split; [reflexivity|]. split; [constructor|]. split; [vm_compute; congruence|]. split; [vm_compute; congruence|].
    repeat split; cbn; intuition congruence. }
  split; [left; split; vm_compute; congruence|].
  exists (tcp_tx_wire C26_syn 41685), 41685.
  split; [vm_compute; reflexivity|]. split; [vm_compute; reflexivity|]. vm_compute; reflexivity.
Qed.

(** C27, full statement *)
Definition C27_never_raises_statement : Prop :=
  forall f plen ps pseudo, wf_bytes f -> pshdr_for pseudo ps -> 0 <= plen < 65536 ->
  exists r, tcp_parse f plen ps = Ok r.

(** It is false: every payload shorter than 13 bytes makes the parser raise. *)
Theorem C27_never_raises_refuted : forall f plen ps, zlen f < 13 -> tcp_parse f plen ps = Exn IndexError.
Proof. exact tcp_short_raises. Qed.
Print Assumptions C27_never_raises_refuted.

Theorem C27_statement_refuted : ~ C27_never_raises_statement.
Proof.
  intros H. destruct (H [] 0 (word_sum 4 3 (ip4_pseudo 1 2 6 0)) (ip4_pseudo 1 2 6 0)) as [r E]; try lia.
  - constructor.
  - apply pshdr4_for; lia.
  - rewrite C27_never_raises_refuted in E by (vm_compute; reflexivity). discriminate.
Qed.
Print Assumptions C27_statement_refuted.

(** Two more witnesses: an option kind as the last byte of the segment, and a
    truncated MSS option in an otherwise valid SYN. *)
Theorem C27_option_refuted : exists f g,
  zlen f = 24 /\ zlen g = 24 /\
  tcp_parse f 24 (word_sum 4 3 (ip4_pseudo 0x0A000001 0x0A000002 6 24)) = Exn IndexError /\
  tcp_parse g 24 (word_sum 4 3 (ip4_pseudo 0x0A000001 0x0A000002 6 24)) = Exn StructError.
Proof.
  exists [4; 0; 0; 80; 0; 0; 0; 1; 0; 0; 0; 0; 0x60; 2; 4; 0; 0x81; 0x88; 0; 0; 1; 1; 1; 2],
         [4; 0; 0; 80; 0; 0; 0; 1; 0; 0; 0; 0; 0x60; 2; 4; 0; 0x80; 0x88; 0; 0; 1; 1; 2; 2].
  repeat split; vm_compute; reflexivity.
Qed.
Print Assumptions C27_option_refuted.

(** C27, partial: no exception when there are at least 13 bytes and either no
    options or nine bytes after the header; and whatever the input, nothing but
    IndexError and struct.error can come out. *)
Theorem C27_never_raises_partial : forall f plen ps pseudo,
  wf_bytes f -> pshdr_for pseudo ps -> 0 <= plen < 65536 -> 13 <= zlen f ->
  nth 12 f 0 / 16 * 4 <= 20 \/ nth 12 f 0 / 16 * 4 + 9 <= zlen f ->
  exists r, tcp_parse f plen ps = Ok r.
Proof. exact tcp_no_raise. Qed.
Print Assumptions C27_never_raises_partial.

Theorem C27_exception_kinds_partial : forall f plen ps pseudo e,
  wf_bytes f -> pshdr_for pseudo ps -> 0 <= plen < 65536 ->
  tcp_parse f plen ps = Exn e -> e = IndexError \/ e = StructError.
Proof. exact tcp_exn_kind. Qed.
Print Assumptions C27_exception_kinds_partial.

Example C27_example :
  let f := [4; 0; 0; 80; 0; 0; 0; 1; 0; 0; 0; 0; 0x60; 2; 4; 0; 0x7E; 0x8B; 0; 0; 1; 1; 1; 2; 9; 9; 9; 9; 9; 9; 9; 9; 9] in
  wf_bytes f /\ 13 <= zlen f /\ nth 12 f 0 / 16 * 4 + 9 <= zlen f /\
  tcp_parse f 33 (word_sum 4 3 (ip4_pseudo 0x0A000001 0x0A000002 6 33))
  = Ok (inl "TCP integrity - wrong packet checksum"%string).
Proof.
  split; [repeat constructor; unfold is_byte; lia|]. split; [vm_compute; congruence|]. split; [vm_compute; congruence|].
  vm_compute; reflexivity.
Qed.

(** C28 *)
Theorem C28_acceptance_sound : forall f plen ps pseudo p,
  wf_bytes f -> pshdr_for pseudo ps -> 0 <= plen < 65536 ->
  tcp_parse f plen ps = Ok (inr p) ->
  tcp_acceptable f plen pseudo /\
  s_sport p = be (slice 0 2 f) /\ s_dport p = be (slice 2 4 f) /\ s_seq p = be (slice 4 8 f) /\
  s_ack p = be (slice 8 12 f) /\ s_hlen p = nth 12 f 0 / 16 * 4 /\
  s_fns p = bit_at f 12 0 /\ s_fcrw p = bit_at f 13 7 /\ s_fece p = bit_at f 13 6 /\
  s_furg p = bit_at f 13 5 /\ s_fack p = bit_at f 13 4 /\ s_fpsh p = bit_at f 13 3 /\
  s_frst p = bit_at f 13 2 /\ s_fsyn p = bit_at f 13 1 /\ s_ffin p = bit_at f 13 0 /\
  s_win p = be (slice 14 16 f) /\ s_cksum p = be (slice 16 18 f) /\ s_urg p = be (slice 18 20 f) /\
  s_data p = slice (nth 12 f 0 / 16 * 4) plen f.
Proof. exact tcp_accept_sound. Qed.
Print Assumptions C28_acceptance_sound.

(** Without options the parser accepts exactly the acceptable segments. *)
Theorem C28_acceptance_exact : forall f plen ps pseudo,
  wf_bytes f -> pshdr_for pseudo ps -> 0 <= plen < 65536 -> nth 12 f 0 / 16 = 5 ->
  ((exists p, tcp_parse f plen ps = Ok (inr p)) <-> tcp_acceptable f plen pseudo).
Proof. exact tcp_accept_iff. Qed.
Print Assumptions C28_acceptance_exact.

Example C28_example :
  let ps := word_sum 4 3 (ip4_pseudo 0x0A000001 0x0A000002 6 20) in
  let seg flags ck := [4; 0; 0; 80; 0; 0; 0; 1; 0; 0; 0; 0; 0x50; flags; 4; 0; ck / 256; ck mod 256; 0; 0] in
  (exists p, tcp_parse (seg 2 0x938F) 20 ps = Ok (inr p)) /\
  (* SYN+FIN with a verifying checksum is refused *)
  tcp_parse (seg 3 0x938E) 20 ps
  = Ok (inl "TCP sanity - 'flag_syn' and 'flag_fin' must not be set simultaneously"%string).
Proof. cbv zeta. split; [eexists; vm_compute; reflexivity|vm_compute; reflexivity]. Qed.
