(** Properties C17 to C19: IPv4 codec. *)
From Verif Require Import BaseLemmas CodecModel CodecLemmas AddrModel CksumModel SpecCksum Ip4Model SpecWire Ip4Proofs.

(** C17: full statement.  Every packet the assembler accepts, with a usable
    source address and consistent flags, parses back. *)
Definition C17_round_trip_statement : Prop :=
  forall t pl pad buf ps, ip4_tx_wf t -> t4_offset t mod 8 = 0 ->
  ip4_is_multicast (t4_src t) = false -> ip4_is_reserved (t4_src t) = false ->
  ip4_is_limited_broadcast (t4_src t) = false ->
  t4_df t && t4_mf t = false -> z2b (t4_offset t) && t4_df t = false ->
  wf_bytes pl -> wf_bytes pad -> ip4_len t (zlen pl) < 65536 -> zlen buf = ip4_len t (zlen pl) ->
  exists w p, ip4_frag_asm t pl buf ps = Ok w /\ ip4_parse (w ++ pad) = Ok (inr p) /\
    i4_src p = t4_src t /\ i4_dst p = t4_dst t /\ i4_data p = pl.

(** It is false: a single NOP option makes the header-length nibble too small. *)
Definition C17_bad_options : ip4_tx :=
  {| t4_src := 0x0A000001; t4_dst := 0x0A000002; t4_ttl := 64; t4_dscp := 0; t4_ecn := 0; t4_id := 1;
     t4_df := false; t4_mf := false; t4_offset := 0; t4_opts := [T4Nop]; t4_proto := 255 |}.
(** It is also false when the header checksum should be 0xFFFE. *)
Definition C17_bad_cksum : ip4_tx :=
  {| t4_src := 0x0A20FFFD; t4_dst := 0xC3E6F1C2; t4_ttl := 64; t4_dscp := 0; t4_ecn := 0; t4_id := 46879;
     t4_df := false; t4_mf := false; t4_offset := 0; t4_opts := [T4Nop; T4Nop; T4Nop; T4Nop]; t4_proto := 255 |}.

Theorem C17_round_trip_refuted : exists t pl buf w r, ip4_tx_wf t /\ zlen buf = ip4_len t (zlen pl) /\
  t4_opts t = [T4Nop] /\
  ip4_frag_asm t pl buf 0 = Ok w /\ ip4_parse w = Ok (inl r).
Proof.
  exists C17_bad_options, [1; 2; 3], (repeat 0 24). do 2 eexists.
  split; [unfold ip4_tx_wf; vm_compute; intuition congruence|].
  split; [reflexivity|]. split; [reflexivity|]. split; [vm_compute; reflexivity|]. vm_compute; reflexivity.
Qed.
Print Assumptions C17_round_trip_refuted.

Theorem C17_checksum_refuted : exists t buf w, ip4_tx_wf t /\ zlen buf = 24 /\ zlen (t4_opts t) mod 4 = 0 /\
  ip4_frag_asm t [] buf 0 = Ok w /\
  ip4_parse w = Ok (inl "IPv4 integriy - wrong packet checksum"%string).
Proof.
  exists C17_bad_cksum, (repeat 0 24). eexists.
  split; [unfold ip4_tx_wf; vm_compute; intuition congruence|].
  split; [reflexivity|]. split; [reflexivity|]. split; [vm_compute; reflexivity|]. vm_compute; reflexivity.
Qed.
Print Assumptions C17_checksum_refuted.

Theorem C17_statement_refuted : ~ C17_round_trip_statement.
Proof.
  intros H. destruct (H C17_bad_options [1; 2; 3] [] (repeat 0 24) 0) as (w & p & A & B & _);
    try reflexivity; try (repeat constructor; unfold is_byte; lia).
  - unfold ip4_tx_wf; vm_compute; intuition congruence.
  - vm_compute in A. injection A as <-. vm_compute in B. discriminate.
Qed.
Print Assumptions C17_statement_refuted.

(** C17, partial: whole options words, and an option-bearing header whose
    checksum is not 0xFFFE.  Missing: the two cases refuted above. *)
Theorem C17_packet_round_trip_partial : forall t c pl pad buf ps,
  ip4_tx_sane t -> wf_bytes pl -> wf_bytes pad ->
  zlen pl = c_len c ->
  (forall b, zlen b = c_len c ->
     c_asm c b (word_sum 4 3 (ip4_pseudo (t4_src t) (t4_dst t) (t4_proto t) (c_len c))) = Ok pl) ->
  let plen := 20 + zlen (t4_opts t) + zlen pl in plen < 65536 ->
  t4_opts t = [] \/ rfc1071 (hdr_of t plen 0) 0 <> 65534 ->
  zlen buf = plen ->
  let ck := rfc1071 (hdr_of t plen 0) 0 in
  ip4_asm t c buf ps = Ok (hdr_of t plen ck ++ pl) /\
  exists p, ip4_parse ((hdr_of t plen ck ++ pl) ++ pad) = Ok (inr p) /\
    i4_ver p = 4 /\ i4_hlen p = 20 + zlen (t4_opts t) /\ i4_plen p = plen /\
    i4_dscp p = t4_dscp t /\ i4_ecn p = t4_ecn t /\ i4_id p = t4_id t /\
    i4_df p = t4_df t /\ i4_mf p = t4_mf t /\ i4_offset p = t4_offset t /\
    i4_ttl p = t4_ttl t /\ i4_proto p = t4_proto t /\ i4_src p = t4_src t /\ i4_dst p = t4_dst t /\
    i4_opts p = upto_eol (t4_opts t) /\ i4_data p = pl /\ i4_rest p = pl ++ pad.
Proof. exact ip4_round_trip_fields. Qed.
Print Assumptions C17_packet_round_trip_partial.

Theorem C17_fragment_round_trip_partial : forall t pl pad buf ps,
  ip4_tx_sane t -> wf_bytes pl -> wf_bytes pad ->
  let plen := 20 + zlen (t4_opts t) + zlen pl in plen < 65536 ->
  t4_opts t = [] \/ rfc1071 (hdr_of t plen 0) 0 <> 65534 ->
  zlen buf = plen ->
  let ck := rfc1071 (hdr_of t plen 0) 0 in
  ip4_frag_asm t pl buf ps = Ok (hdr_of t plen ck ++ pl) /\
  exists p, ip4_parse ((hdr_of t plen ck ++ pl) ++ pad) = Ok (inr p) /\
    i4_ver p = 4 /\ i4_hlen p = 20 + zlen (t4_opts t) /\ i4_plen p = plen /\
    i4_dscp p = t4_dscp t /\ i4_ecn p = t4_ecn t /\ i4_id p = t4_id t /\
    i4_df p = t4_df t /\ i4_mf p = t4_mf t /\ i4_offset p = t4_offset t /\
    i4_ttl p = t4_ttl t /\ i4_proto p = t4_proto t /\ i4_src p = t4_src t /\ i4_dst p = t4_dst t /\
    i4_opts p = upto_eol (t4_opts t) /\ i4_data p = pl /\ i4_rest p = pl ++ pad.
Proof. exact ip4_frag_round_trip_fields. Qed.
Print Assumptions C17_fragment_round_trip_partial.

Definition C17_sample : ip4_tx :=
  {| t4_src := 0x0A000001; t4_dst := 0x0A000002; t4_ttl := 64; t4_dscp := 10; t4_ecn := 2; t4_id := 4660;
     t4_df := false; t4_mf := true; t4_offset := 1480; t4_opts := [T4Nop; T4Nop; T4Eol; T4Nop]; t4_proto := 17 |}.
Example C17_example :
  ip4_tx_sane C17_sample /\ rfc1071 (hdr_of C17_sample 27 0) 0 <> 65534 /\
  ip4_frag_asm C17_sample [1; 2; 3] (repeat 200 27) 0
  = Ok [70; 42; 0; 27; 18; 52; 32; 185; 64; 17; 49; 183; 10; 0; 0; 1; 10; 0; 0; 2; 1; 1; 0; 1; 1; 2; 3].
Proof. unfold ip4_tx_sane, ip4_tx_wf. vm_compute. intuition congruence. Qed.

(** C18: full statement "forall f, wf_bytes f -> exists r, ip4_parse f = Ok r"
    is false. *)
Theorem C18_never_raises_refuted : exists f, wf_bytes f /\ ip4_parse f = Exn IndexError.
Proof.
  exists [70; 0; 0; 24; 0; 0; 0; 0; 64; 17; 99; 208; 10; 0; 0; 1; 10; 0; 0; 2; 1; 1; 1; 2].
  split; [repeat constructor; unfold is_byte; lia|vm_compute; reflexivity].
Qed.
Print Assumptions C18_never_raises_refuted.

(** C18, partial: the only exception is an IndexError for a frame that consists
    of an option-bearing header alone whose last byte is an option kind. *)
Theorem C18_never_raises_partial : forall f, wf_bytes f ->
  (exists r, ip4_parse f = Ok r) \/
  (ip4_parse f = Exn IndexError /\ 24 <= zlen f /\ zlen f = byte_at f 0 mod 16 * 4 /\
   2 <= byte_at f (length f - 1)).
Proof. exact ip4_raises_only. Qed.
Print Assumptions C18_never_raises_partial.

(** C19: the TTL clause is false. *)
Theorem C19_ttl_refuted : exists f p, wf_bytes f /\ ip4_parse f = Ok (inr p) /\ i4_ttl p = 0.
Proof.
  exists [69; 0; 0; 20; 0; 0; 0; 0; 0; 17; 166; 215; 10; 0; 0; 1; 10; 0; 0; 2]. eexists.
  split; [repeat constructor; unfold is_byte; lia|]. split; [vm_compute; reflexivity|]. vm_compute; reflexivity.
Qed.
Print Assumptions C19_ttl_refuted.

(** C19, partial: everything but the TTL clause.  The fields reported are the
    ones on the wire. *)
Theorem C19_acceptance_partial : forall f p, wf_bytes f -> ip4_parse f = Ok (inr p) ->
  20 <= i4_hlen p <= i4_plen p /\ i4_plen p <= zlen f /\
  rfc1071_verifies (slice 0 (i4_hlen p) f) 0 /\
  i4_ver p = 4 /\
  ip4_is_multicast (i4_src p) = false /\ ip4_is_reserved (i4_src p) = false /\
  ip4_is_limited_broadcast (i4_src p) = false /\
  ~ (i4_df p = true /\ i4_mf p = true) /\ ~ (i4_df p = true /\ i4_offset p <> 0) /\
  p = ip4_of f (i4_opts p).
Proof. exact ip4_accept_fields. Qed.
Print Assumptions C19_acceptance_partial.

(** and, without options, nothing else is required *)
Theorem C19_accepts_plain : forall f, wf_bytes f -> byte_at f 0 mod 16 = 5 ->
  (ip4_parse f = Ok (inr (ip4_of f [])) <-> ip4_verifiable f).
Proof. exact ip4_accept_plain_iff. Qed.
Print Assumptions C19_accepts_plain.

Example C19_example :
  ip4_parse ([69; 184; 0; 21; 0; 7; 64; 0; 9; 17; 93; 23; 10; 0; 0; 1; 10; 0; 0; 2; 5] ++ [0; 0])
  = Ok (inr (ip4_of [69; 184; 0; 21; 0; 7; 64; 0; 9; 17; 93; 23; 10; 0; 0; 1; 10; 0; 0; 2; 5; 0; 0] [])).
Proof. vm_compute. reflexivity. Qed.
