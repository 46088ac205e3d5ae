(** Property C29: ICMPv4 codec. *)
From Verif Require Import BaseLemmas CodecModel CodecLemmas AddrModel CksumModel SpecCksum Ip4Model Ip4Proofs
  SpecWire PshdrLemmas UdpIpProofs Icmp4Model Icmp4Proofs.

(** C29, full statement: every message the assembler accepts survives, and parsing
    never raises. *)
Definition C29_round_trip_statement : Prop :=
  forall t buf ps, icmp4_tx_ok t -> icmp4_tx_len t < 65516 -> zlen buf = icmp4_tx_len t ->
  exists w ck, icmp4_asm t buf ps = Ok w /\ icmp4_parse w (icmp4_tx_len t) = Ok (inr (icmp4_seen t ck)).

(** The round trip is false of some echo messages whose checksum should be 0xFFFE,
    and of port-unreachable messages quoting fewer than four bytes. *)
Definition C29_data : bytes := [130; 183; 14; 238; 127; 26; 80; 57; 190; 240; 126; 194; 89; 81].
Theorem C29_round_trip_refuted : exists t buf w,
  icmp4_tx_ok t /\ zlen buf = icmp4_tx_len t /\ icmp4_asm t buf 0 = Ok w /\
  icmp4_parse w (icmp4_tx_len t) = Ok (inl "ICMPv4 integrity - wrong packet checksum"%string).
Proof.
  exists (T4EchoRequest 1 2 C29_data), (repeat 0 22). eexists.
  split; [repeat constructor; unfold is_byte; lia|]. split; [reflexivity|].
  split; [vm_compute; reflexivity|]. vm_compute; reflexivity.
Qed.
Print Assumptions C29_round_trip_refuted.

Theorem C29_short_unreachable_refuted : exists t buf w,
  icmp4_tx_ok t /\ zlen buf = icmp4_tx_len t /\ icmp4_asm t buf 0 = Ok w /\
  icmp4_parse w (icmp4_tx_len t) = Ok (inl "ICMPv6 integrity - wrong packet length (II)"%string).
Proof.
  exists (T4UnreachPort [1; 2; 3]), (repeat 0 11). eexists.
  split; [repeat constructor; unfold is_byte; lia|]. split; [reflexivity|].
  split; [vm_compute; reflexivity|]. vm_compute; reflexivity.
Qed.
Print Assumptions C29_short_unreachable_refuted.

Theorem C29_statement_refuted : ~ C29_round_trip_statement.
Proof.
  intros H. destruct (H (T4EchoRequest 1 2 C29_data) (repeat 0 22) 0) as (w & ck & A & B); try reflexivity.
  - repeat constructor; unfold is_byte; lia.
  - vm_compute in A. injection A as <-. vm_compute in B. discriminate.
Qed.
Print Assumptions C29_statement_refuted.

(** C29, partial: every echo message, and every port-unreachable message quoting at
    least four bytes, whose checksum is computed right ([cksum_lucky0]: 20 bytes
    long or not 0xFFFE). *)
Theorem C29_round_trip_partial : forall t pad buf ps,
  icmp4_tx_ok t -> wf_bytes pad -> icmp4_tx_len t < 65536 ->
  (forall d, t = T4UnreachPort d -> 4 <= zlen d) ->
  zlen buf = icmp4_tx_len t -> cksum_lucky0 (icmp4_tx_wire t 0) ->
  let ck := rfc1071 (icmp4_tx_wire t 0) 0 in
  icmp4_asm t buf ps = Ok (icmp4_tx_wire t ck) /\ rfc1071_verifies (icmp4_tx_wire t ck) 0 /\
  icmp4_parse (icmp4_tx_wire t ck ++ pad) (icmp4_tx_len t) = Ok (inr (icmp4_seen t ck)).
Proof. exact icmp4_round_trip. Qed.
Print Assumptions C29_round_trip_partial.

Theorem C29_over_ip4_partial : forall h t pad buf ps0,
  ip4_tx_sane h -> t4_proto h = 1 -> icmp4_tx_ok t -> wf_bytes pad ->
  (forall d, t = T4UnreachPort d -> 4 <= zlen d) ->
  let plen := 20 + zlen (t4_opts h) + icmp4_tx_len t in plen < 65536 ->
  t4_opts h = [] \/ rfc1071 (hdr_of h plen 0) 0 <> 65534 ->
  cksum_lucky0 (icmp4_tx_wire t 0) -> zlen buf = plen ->
  exists w p ck, ip4_asm h (icmp4_carried t) buf ps0 = Ok w /\
    ip4_parse (w ++ pad) = Ok (inr p) /\ i4_src p = t4_src h /\ i4_dst p = t4_dst h /\ i4_proto p = 1 /\
    icmp4_parse (i4_rest p) (i4_dlen p) = Ok (inr (icmp4_seen t ck)).
Proof. exact icmp4_over_ip4. Qed.
Print Assumptions C29_over_ip4_partial.

(** the constructor builds exactly these messages, with at most 520 quoted bytes *)
Theorem C29_constructor : forall type code id seq ec un t,
  icmp4_new type code id seq ec un = Ok t ->
  (type = 0 /\ code = 0 /\ t = T4EchoReply id seq ec \/
   type = 8 /\ code = 0 /\ t = T4EchoRequest id seq ec \/
   type = 3 /\ code = 3 /\ t = T4UnreachPort (firstn 520 un)) /\
  0 <= id < 65536 /\ 0 <= seq < 65536.
Proof.
  intros type code id seq ec un t. unfold icmp4_new, assert_.
  destruct ((0 <=? id) && (id <=? 0xFFFF)) eqn:E1; [|discriminate].
  destruct ((0 <=? seq) && (seq <=? 0xFFFF)) eqn:E2; [|discriminate].
  destruct ((type =? 0) && (code =? 0)) eqn:E3; [intros H; injection H as <-; split; [left; repeat split; lia|lia]|].
  destruct ((type =? 3) && (code =? 3)) eqn:E4; [intros H; injection H as <-; split; [right; right; repeat split; lia|lia]|].
  destruct ((type =? 8) && (code =? 0)) eqn:E5; [|discriminate].
  intros H; injection H as <-; split; [right; left; repeat split; lia|lia].
Qed.
Print Assumptions C29_constructor.

(** parsing any bytes terminates without raising, and accepts exactly the
    acceptable messages, with the fields at their RFC 792 positions *)
Theorem C29_never_raises : forall f plen, wf_bytes f -> 0 <= plen < 65536 -> exists r, icmp4_parse f plen = Ok r.
Proof. exact icmp4_never_raises. Qed.
Print Assumptions C29_never_raises.

Theorem C29_acceptance : forall f plen, wf_bytes f -> 0 <= plen < 65536 ->
  (forall p, icmp4_parse f plen = Ok (inr p) <-> icmp4_acceptable f plen /\ p = icmp4_of f plen).
Proof. exact icmp4_accepts. Qed.
Print Assumptions C29_acceptance.

Example C29_example :
  icmp4_tx_ok (T4EchoReply 7 65535 [1; 2; 3]) /\ cksum_lucky0 (icmp4_tx_wire (T4EchoReply 7 65535 [1; 2; 3]) 0) /\
  icmp4_asm (T4EchoReply 7 65535 [1; 2; 3]) (repeat 99 11) 0 = Ok [0; 0; 251; 246; 0; 7; 255; 255; 1; 2; 3] /\
  icmp4_parse [0; 0; 251; 246; 0; 7; 255; 255; 1; 2; 3; 0; 0] 11
  = Ok (inr {| q4_type := 0; q4_code := 0; q4_cksum := 64502; q4_body := B4Echo 7 65535 [1; 2; 3] |}).
Proof.
  split; [repeat constructor; unfold is_byte; lia|]. split; [right; vm_compute; congruence|].
  split; vm_compute; reflexivity.
Qed.
