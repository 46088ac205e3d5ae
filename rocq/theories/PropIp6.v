(** Properties C20 to C22: IPv6 and IPv6 fragment header codecs. *)
From Verif Require Import BaseLemmas CodecModel CodecLemmas AddrModel CksumModel SpecCksum Ip4Proofs
  Ip6Model SpecWire Ip6Proofs.

(** C20, full statement: all fields survive, for every packet the constructor's
    assertions admit. *)
Definition C20_round_trip_statement : Prop :=
  forall t pl buf, ip6_tx_wf t -> wf_bytes pl -> zlen pl < 65536 -> t6_hop t <> 0 ->
  ip6_is_multicast (t6_src t) = false -> zlen buf = 40 + zlen pl ->
  exists w p, ip6_asm t (raw_carried pl) buf 0 = Ok w /\ ip6_parse w = Ok (inr p) /\
    i6_dscp p = t6_dscp t /\ i6_flow p = t6_flow t.

Definition C20_sample (dscp flow : Z) : ip6_tx :=
  {| t6_src := 0xFE800000000000000000000000000001; t6_dst := 0xFF020000000000000000000000000001;
     t6_hop := 64; t6_dscp := dscp; t6_ecn := 2; t6_flow := flow; t6_next := 255 |}.

Theorem C20_dscp_refuted : exists t pl buf w p, ip6_tx_wf t /\ zlen buf = 40 + zlen pl /\
  ip6_asm t (raw_carried pl) buf 0 = Ok w /\ ip6_parse w = Ok (inr p) /\
  t6_dscp t = 46 /\ i6_dscp p = 8.
Proof.
  exists (C20_sample 46 0), [1], (repeat 0 41). do 2 eexists.
  split; [unfold ip6_tx_wf; vm_compute; intuition congruence|]. split; [reflexivity|].
  split; [vm_compute; reflexivity|]. split; [vm_compute; reflexivity|]. split; vm_compute; reflexivity.
Qed.
Print Assumptions C20_dscp_refuted.

Theorem C20_flow_refuted : exists t pl buf w p, ip6_tx_wf t /\ zlen buf = 40 + zlen pl /\
  ip6_asm t (raw_carried pl) buf 0 = Ok w /\ ip6_parse w = Ok (inr p) /\
  t6_flow t = 0x100001 /\ i6_flow p = 1.
Proof.
  exists (C20_sample 0 0x100001), [1], (repeat 0 41). do 2 eexists.
  split; [unfold ip6_tx_wf; vm_compute; intuition congruence|]. split; [reflexivity|].
  split; [vm_compute; reflexivity|]. split; [vm_compute; reflexivity|]. split; vm_compute; reflexivity.
Qed.
Print Assumptions C20_flow_refuted.

Theorem C20_statement_refuted : ~ C20_round_trip_statement.
Proof.
  intros H. destruct (H (C20_sample 46 0) [1] (repeat 0 41)) as (w & p & A & B & C & _).
  - unfold ip6_tx_wf; vm_compute; intuition congruence.
  - repeat constructor; unfold is_byte; lia.
  - vm_compute; reflexivity.
  - discriminate.
  - vm_compute; reflexivity.
  - reflexivity.
  - vm_compute in A. injection A as <-. vm_compute in B. injection B as <-. vm_compute in C. discriminate.
Qed.
Print Assumptions C20_statement_refuted.

(** C20, partial: every field survives except that the DSCP becomes the value of
    its two top bits times 4 and the flow label is cut to 20 bits; so the packet
    survives unchanged exactly for DSCP 0 and 20-bit flow labels. *)
Theorem C20_round_trip_partial : forall t c pl buf ps,
  ip6_tx_wf t -> wf_bytes pl -> zlen pl = c_len c -> c_len c < 65536 ->
  (forall b, zlen b = c_len c ->
     c_asm c b (word_sum 8 5 (ip6_pseudo (t6_src t) (t6_dst t) (c_len c) (t6_next t))) = Ok pl) ->
  t6_hop t <> 0 -> ip6_is_multicast (t6_src t) = false ->
  zlen buf = 40 + zlen pl ->
  exists w p, ip6_asm t c buf ps = Ok w /\
    w = ip6_hdr_wire (t6_dscp t / 16 * 4) (t6_ecn t) (t6_flow t mod 2 ^ 20) (zlen pl) (t6_next t)
          (t6_hop t) (t6_src t) (t6_dst t) ++ pl /\
    ip6_parse w = Ok (inr p) /\ i6_ver p = 6 /\ i6_dscp p = t6_dscp t / 16 * 4 /\ i6_ecn p = t6_ecn t /\
    i6_flow p = t6_flow t mod 2 ^ 20 /\ i6_dlen p = zlen pl /\ i6_next p = t6_next t /\
    i6_hop p = t6_hop t /\ i6_src p = t6_src t /\ i6_dst p = t6_dst t /\
    i6_data p = pl /\ i6_rest p = pl.
Proof. exact ip6_round_trip. Qed.
Print Assumptions C20_round_trip_partial.

Example C20_example : ip6_tx_wf (C20_sample 0 0xABCDE) /\
  ip6_asm (C20_sample 0 0xABCDE) (raw_carried [9; 8]) (repeat 7 42) 0
  = Ok [96; 42; 188; 222; 0; 2; 255; 64;
        254; 128; 0; 0; 0; 0; 0; 0; 0; 0; 0; 0; 0; 0; 0; 1;
        255; 2; 0; 0; 0; 0; 0; 0; 0; 0; 0; 0; 0; 0; 0; 1; 9; 8].
Proof. unfold ip6_tx_wf. vm_compute. intuition congruence. Qed.

(** C21 *)
Theorem C21_never_raises : forall f, wf_bytes f -> exists r, ip6_parse f = Ok r.
Proof. exact ip6_parse_never_raises. Qed.
Print Assumptions C21_never_raises.

Theorem C21_parse_exact : forall f p, wf_bytes f ->
  (ip6_parse f = Ok (inr p) <->
   i6_ver p = 6 /\ 0 <= i6_dscp p < 64 /\ 0 <= i6_ecn p < 4 /\ 0 <= i6_flow p < 2 ^ 20 /\
   0 <= i6_dlen p < 65536 /\ 0 <= i6_next p < 256 /\ 0 < i6_hop p < 256 /\
   0 <= i6_src p < 2 ^ 128 /\ 0 <= i6_dst p < 2 ^ 128 /\ ip6_is_multicast (i6_src p) = false /\
   i6_frame p = f /\ zlen (i6_rest p) = i6_dlen p /\
   f = ip6_hdr_wire (i6_dscp p) (i6_ecn p) (i6_flow p) (i6_dlen p) (i6_next p) (i6_hop p)
          (i6_src p) (i6_dst p) ++ i6_rest p).
Proof. exact ip6_parse_exact. Qed.
Print Assumptions C21_parse_exact.

Example C21_example :
  let f := [0x6B; 0xAA; 0xBC; 0xDE; 0; 2; 17; 1] ++ repeat 3 16 ++ repeat 4 16 ++ [9; 8] in
  ip6_parse f = Ok (inr {| i6_ver := 6; i6_dscp := 46; i6_ecn := 2; i6_flow := 0xABCDE; i6_dlen := 2;
    i6_next := 17; i6_hop := 1; i6_src := be (repeat 3 16); i6_dst := be (repeat 4 16); i6_frame := f |})
  /\ ip6_parse (f ++ [0]) = Ok (inl "IPv6 integrity - wrong packet length (II)"%string).
Proof. vm_compute. auto. Qed.

(** C22 *)
Theorem C22_round_trip : forall next offset mf id data buf ps,
  In next [58; 17; 6; 255] -> 0 <= offset < 65536 -> offset mod 8 = 0 -> 0 <= id < 2 ^ 32 ->
  wf_bytes data -> zlen buf = 8 + zlen data ->
  exists w p, frag6_asm next offset mf id data buf ps = Ok w /\
    w = frag6_wire next 0 offset 0 mf id data /\
    frag6_parse w (zlen w) = Ok (inr p) /\
    g_next p = next /\ g_offset p = offset /\ g_mf p = mf /\ g_id p = id /\ g_data p = data /\
    g_dlen p = zlen data.
Proof. exact frag6_round_trip. Qed.
Print Assumptions C22_round_trip.

(** reserved bits are ignored by the parser *)
Theorem C22_parse_wire : forall next reserved offset res2 mf id data plen,
  0 <= next < 256 -> 0 <= reserved < 256 -> 0 <= offset < 65536 -> offset mod 8 = 0 -> 0 <= res2 < 4 ->
  0 <= id < 2 ^ 32 -> wf_bytes data ->
  frag6_parse (frag6_wire next reserved offset res2 mf id data) plen
  = Ok (inr {| g_next := next; g_offset := offset; g_mf := mf; g_id := id; g_plen := plen;
       g_frame := frag6_wire next reserved offset res2 mf id data |}).
Proof. exact frag6_parse_wire. Qed.
Print Assumptions C22_parse_wire.

Theorem C22_never_raises : forall f plen, wf_bytes f -> exists r, frag6_parse f plen = Ok r.
Proof. exact frag6_never_raises. Qed.
Print Assumptions C22_never_raises.

Theorem C22_accepts : forall f plen, wf_bytes f ->
  ((exists p, frag6_parse f plen = Ok (inr p)) <-> 8 <= zlen f).
Proof. exact frag6_accepts. Qed.
Print Assumptions C22_accepts.

Example C22_example :
  frag6_asm 17 1448 true 0x01020304 [5; 6; 7] (repeat 1 11) 0 = Ok [17; 0; 5; 169; 1; 2; 3; 4; 5; 6; 7] /\
  frag6_wire 17 0 1448 0 true 0x01020304 [5; 6; 7] = [17; 0; 5; 169; 1; 2; 3; 4; 5; 6; 7] /\
  frag6_parse [1; 2; 3] 3 = Ok (inl "IPv4 integrity - wrong packet length (I)"%string).
Proof. vm_compute. auto. Qed.
