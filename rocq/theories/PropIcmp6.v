(** Properties C30 and C31: ICMPv6 codec. *)
From Verif Require Import BaseLemmas CodecModel CodecLemmas AddrModel SpecAddr AddrProofs CksumModel SpecCksum CksumProofs
  SpecWire SpecNd Ip4Proofs Icmp4Proofs Ip6Model Ip6Proofs PshdrLemmas UdpIpProofs Icmp6Model Icmp6Proofs Icmp6AsmProofs.

(** ** C30: round trip *)

(** Prefix information with any flags, and the receiver's address and hop limit
    requirements without the restrictions of [icmp6_tx_sane]. *)
Definition nd_topt_any (o : nd_topt) : Prop :=
  match o with TPi v p w l a r => nd_topt_ok (TPi v p w l a false) | _ => nd_topt_ok o end.
Definition icmp6_tx_any (t : icmp6_tx) (src dst hop : Z) : Prop :=
  match t with
  | T6UnreachPort d => wf_bytes d
  | T6Rs l => Forall nd_topt_any l /\ hop = 255 /\ ip6_is_unicast src = true /\ dst = ip6_all_routers
  | T6Ra hp m o li re rt l => icmp6_tx_ok (T6Ra hp m o li re rt []) /\ Forall nd_topt_any l /\ icmp6_tx_sane t src dst hop
  | _ => icmp6_tx_ok t /\ icmp6_tx_sane t src dst hop
  end.
(** C30, full statement *)
Definition C30_round_trip_statement : Prop :=
  forall t buf src dst hop,
  0 <= src < 2 ^ 128 -> 0 <= dst < 2 ^ 128 ->
  icmp6_tx_any t src dst hop -> icmp6_tx_len t < 65536 -> zlen buf = icmp6_tx_len t ->
  let ps := word_sum 8 5 (ip6_pseudo src dst (icmp6_tx_len t) 58) in
  exists w ck, icmp6_asm t buf ps = Ok w /\
    icmp6_parse w (icmp6_tx_len t) ps src dst hop = Ok (inr (icmp6_seen t ck)) /\
    (forall l, t = T6Mld2 l -> mld2_records w = Ok l).

Definition C30_a : Z := Z.shiftl 0xFE80 112 + 1.
Definition C30_b : Z := Z.shiftl 0xFE80 112 + 2.
Definition C30_data : bytes := [6; 110; 208; 143; 93; 199; 81; 36; 71; 227; 64; 67; 0; 2; 116; 148].
(** Some echo messages whose checksum should be 0xFFFE are rejected. *)
Theorem C30_checksum_refuted : exists t buf w ps,
  icmp6_tx_ok t /\ zlen buf = icmp6_tx_len t /\
  ps = word_sum 8 5 (ip6_pseudo C30_a C30_b (icmp6_tx_len t) 58) /\ icmp6_asm t buf ps = Ok w /\
  icmp6_parse w (icmp6_tx_len t) ps C30_a C30_b 64 = Ok (inl "ICMPv6 integrity - wrong packet checksum"%string).
Proof.
  exists (T6EchoRequest 1 2 C30_data), (repeat 0 24). do 2 eexists.
  split; [repeat constructor; unfold is_byte; lia|]. split; [reflexivity|].
  split; [vm_compute; reflexivity|]. split; [vm_compute; reflexivity|]. vm_compute; reflexivity.
Qed.
Print Assumptions C30_checksum_refuted.

(** A port unreachable that quotes fewer than four bytes is rejected. *)
Theorem C30_short_unreachable_refuted : exists t buf w ps,
  icmp6_tx_ok t /\ zlen buf = icmp6_tx_len t /\
  ps = word_sum 8 5 (ip6_pseudo C30_a C30_b (icmp6_tx_len t) 58) /\ icmp6_asm t buf ps = Ok w /\
  icmp6_parse w (icmp6_tx_len t) ps C30_a C30_b 64 = Ok (inl "ICMPv6 integrity - wrong packet length (II)"%string).
Proof.
  exists (T6UnreachPort [1; 2; 3]), (repeat 0 11). do 2 eexists.
  split; [repeat constructor; unfold is_byte; lia|]. split; [reflexivity|].
  split; [vm_compute; reflexivity|]. split; [vm_compute; reflexivity|]. vm_compute; reflexivity.
Qed.
Print Assumptions C30_short_unreachable_refuted.

(** The source link-layer address of a router solicitation is read four bytes too
    late: the option comes back as something else. *)
Theorem C30_rs_option_refuted : exists t buf w ps r,
  icmp6_tx_ok t /\ zlen buf = icmp6_tx_len t /\
  ps = word_sum 8 5 (ip6_pseudo C30_a ip6_all_routers (icmp6_tx_len t) 58) /\ icmp6_asm t buf ps = Ok w /\
  icmp6_parse w (icmp6_tx_len t) ps C30_a ip6_all_routers 255 = Ok (inr r) /\
  t = T6Rs [TSlla 0x020007010203] /\ q6_body r = B6Rs [NUnk 7 8 [2; 3]].
Proof.
  exists (T6Rs [TSlla 0x020007010203]), (repeat 0 16). do 3 eexists.
  split; [repeat constructor; lia|]. split; [reflexivity|].
  split; [vm_compute; reflexivity|]. split; [vm_compute; reflexivity|]. split; [vm_compute; reflexivity|].
  split; reflexivity.
Qed.
Print Assumptions C30_rs_option_refuted.

(** The R flag of prefix information is sent as the A flag. *)
Definition C30_prefix : net := {| n_addr := Z.shiftl 0x20010DB8 96; n_mask := prefix_mask 128 64 |}.
Theorem C30_prefix_flag_refuted : exists t buf w ps r,
  zlen buf = icmp6_tx_len t /\ ps = word_sum 8 5 (ip6_pseudo C30_a ip6_all_nodes (icmp6_tx_len t) 58) /\
  icmp6_asm t buf ps = Ok w /\
  icmp6_parse w (icmp6_tx_len t) ps C30_a ip6_all_nodes 255 = Ok (inr r) /\
  t = T6Ra 64 false false 1800 0 0 [TPi 3600 1800 C30_prefix true false true] /\
  q6_body r = B6Ra 64 false false 1800 0 0 [NPi true true false 3600 1800 C30_prefix].
Proof.
  exists (T6Ra 64 false false 1800 0 0 [TPi 3600 1800 C30_prefix true false true]), (repeat 0 48). do 3 eexists.
  split; [reflexivity|]. split; [vm_compute; reflexivity|]. split; [vm_compute; reflexivity|].
  split; [vm_compute; reflexivity|]. split; [reflexivity|]. vm_compute; reflexivity.
Qed.
Print Assumptions C30_prefix_flag_refuted.

(** The records of a report with two records cannot be read. *)
Definition C30_rec : mld2_rec := {| mr_type := 2; mr_addr := ip6_all_nodes; mr_srcs := []; mr_aux := [] |}.
Theorem C30_records_refuted : exists t buf w ps r,
  icmp6_tx_ok t /\ zlen buf = icmp6_tx_len t /\
  ps = word_sum 8 5 (ip6_pseudo C30_a C30_b (icmp6_tx_len t) 58) /\ icmp6_asm t buf ps = Ok w /\
  icmp6_parse w (icmp6_tx_len t) ps C30_a C30_b 1 = Ok (inr r) /\ mld2_records w = Exn IndexError.
Proof.
  exists (T6Mld2 [C30_rec; C30_rec]), (repeat 0 48). do 3 eexists.
  split; [split; [reflexivity|repeat constructor; vm_compute; congruence]|]. split; [reflexivity|].
  split; [vm_compute; reflexivity|]. split; [vm_compute; reflexivity|]. split; [vm_compute; reflexivity|].
  vm_compute; reflexivity.
Qed.
Print Assumptions C30_records_refuted.

(** The auxiliary data length is sent in bytes; RFC 3810 counts 32-bit words. *)
Theorem C30_aux_length_refuted : exists r, mld2_rec_ok r /\ zlen (mr_aux r) mod 4 = 0 /\
  mld2_rec_bytes r <> Ok (mld2_rec_wire (mr_type r) (zlen (mr_aux r) / 4) (mr_addr r) (mr_srcs r) (mr_aux r)).
Proof.
  exists {| mr_type := 2; mr_addr := ip6_all_nodes; mr_srcs := []; mr_aux := [1; 2; 3; 4] |}.
  split; [repeat constructor; vm_compute; congruence|]. split; [reflexivity|]. vm_compute. congruence.
Qed.
Print Assumptions C30_aux_length_refuted.

Theorem C30_statement_refuted : ~ C30_round_trip_statement.
Proof.
  intros H. destruct (H (T6UnreachPort [1; 2; 3]) (repeat 0 11) C30_a C30_b 64) as (w & ck & A & B & _).
  - vm_compute. split; congruence.
  - vm_compute. split; congruence.
  - repeat constructor; unfold is_byte; lia.
  - reflexivity.
  - reflexivity.
  - vm_compute in A. injection A as <-. vm_compute in B. discriminate.
Qed.
Print Assumptions C30_statement_refuted.

(** C30, partial: every echo message; every port unreachable quoting at least four
    bytes; router solicitations without options; router advertisements, neighbour
    solicitations and advertisements with any list of options (prefix information
    without the R flag); listener reports, of which the record count is read back;
    whenever the checksum is computed right ([cksum_lucky]).  Bytes left in the
    buffer by earlier use do not matter. *)
Theorem C30_round_trip_partial : forall t buf ps pseudo src dst hop,
  icmp6_tx_ok t -> icmp6_tx_len t < 65536 ->
  pshdr_for pseudo ps -> icmp6_tx_sane t src dst hop -> zlen buf = icmp6_tx_len t ->
  cksum_lucky pseudo (icmp6_tx_wire t 0) ->
  let ck := rfc1071 (pseudo ++ icmp6_tx_wire t 0) 0 in
  icmp6_asm t buf ps = Ok (icmp6_tx_wire t ck) /\ rfc1071_verifies (pseudo ++ icmp6_tx_wire t ck) 0 /\
  icmp6_parse (icmp6_tx_wire t ck) (icmp6_tx_len t) ps src dst hop = Ok (inr (icmp6_seen t ck)).
Proof. exact icmp6_round_trip. Qed.
Print Assumptions C30_round_trip_partial.

Theorem C30_over_ip6_partial : forall h t buf ps0,
  ip6_tx_wf h -> t6_next h = 58 -> icmp6_tx_ok t -> icmp6_tx_len t < 65536 -> t6_hop h <> 0 ->
  ip6_is_multicast (t6_src h) = false -> icmp6_tx_sane t (t6_src h) (t6_dst h) (t6_hop h) ->
  cksum_lucky (ip6_pseudo (t6_src h) (t6_dst h) (icmp6_tx_len t) 58) (icmp6_tx_wire t 0) ->
  zlen buf = 40 + icmp6_tx_len t ->
  exists w p ps ck, ip6_asm h (icmp6_carried t) buf ps0 = Ok w /\
    ip6_parse w = Ok (inr p) /\ i6_src p = t6_src h /\ i6_dst p = t6_dst h /\ i6_next p = 58 /\ i6_hop p = t6_hop h /\
    i6_pshdr_sum p = Ok ps /\
    icmp6_parse (i6_rest p) (i6_dlen p) ps (i6_src p) (i6_dst p) (i6_hop p) = Ok (inr (icmp6_seen t ck)).
Proof. exact icmp6_over_ip6. Qed.
Print Assumptions C30_over_ip6_partial.

(** the record of a listener report with one record (the only kind whose records
    can be read) *)
Theorem C30_one_record_partial : forall r ck, mld2_rec_ok r -> 0 <= ck < 65536 ->
  mld2_records (icmp6_tx_wire (T6Mld2 [r]) ck) = Ok [r].
Proof.
  intros r ck H Hc. unfold mld2_records. cbn [icmp6_tx_wire]. unfold icmp_wire, mld2_report_body, mld2_txs_wire.
  cbn [map concat]. rewrite app_nil_r. change (zlen [r]) with 1. explode 2%nat ck. cbn [be_enc app]. readf.
  change (Z.to_nat (be [1 / 256 mod 256; 1 mod 256])) with 1%nat. cbn [mld2_read]. rewrite mld2_record_wire by auto.
  cbn [rbind]. reflexivity.
Qed.
Print Assumptions C30_one_record_partial.

Definition C30_ex : icmp6_tx :=
  T6Ra 64 true false 1800 7 9 [TSlla 0x020007010203; TPi 3600 1800 C30_prefix true true false].
Example C30_example :
  let ps := word_sum 8 5 (ip6_pseudo C30_a ip6_all_nodes (icmp6_tx_len C30_ex) 58) in
  icmp6_tx_sane C30_ex C30_a ip6_all_nodes 255 /\
  cksum_lucky (ip6_pseudo C30_a ip6_all_nodes (icmp6_tx_len C30_ex) 58) (icmp6_tx_wire C30_ex 0) /\
  exists w ck, icmp6_asm C30_ex (repeat 77 56) ps = Ok w /\
    icmp6_parse w 56 ps C30_a ip6_all_nodes 255 = Ok (inr (icmp6_seen C30_ex ck)).
Proof.
  split; [split; [reflexivity|split; [reflexivity|right; reflexivity]]|]. split; [left; split; vm_compute; congruence|].
  do 2 eexists. split; [vm_compute; reflexivity|]. vm_compute; reflexivity.
Qed.

(** ** C31: parsing never raises and always terminates *)
Definition C31_statement : Prop := forall f plen ps pseudo src dst hop,
  wf_bytes f -> 0 <= plen < 65536 -> pshdr_for pseudo ps -> 0 <= src < 2 ^ 128 -> 0 <= dst < 2 ^ 128 ->
  exists r, icmp6_parse f plen ps src dst hop = Ok r.

(** The stack's own router solicitation, carrying the link-layer address
    02:00:00:00:00:01: the option reader starts inside that address and never ends,
    however many iterations it is given. *)
Definition C31_rs : bytes := [133; 0; 122; 44; 0; 0; 0; 0; 1; 1; 2; 0; 0; 0; 0; 1].
Definition C31_rs_ps : Z := word_sum 8 5 (ip6_pseudo C30_a ip6_all_routers 16 58).
Theorem C31_rs_loops_refuted :
  icmp6_asm (T6Rs [TSlla 0x020000000001]) (repeat 0 16) C31_rs_ps = Ok C31_rs /\
  icmp6_integrity C31_rs 16 C31_rs_ps = Ok None /\
  icmp6_sanity C31_rs C30_a ip6_all_routers 255 = Ok None /\
  forall fuel, nd_read fuel C31_rs 12 = Exn OutOfFuel.
Proof.
  split; [vm_compute; reflexivity|]. split; [vm_compute; reflexivity|]. split; [vm_compute; reflexivity|].
  apply (nd_read_stuck _ _ (NUnk 0 0 [])); reflexivity.
Qed.
Print Assumptions C31_rs_loops_refuted.

(** A neighbour advertisement with one stray byte after the target address. *)
Definition C31_na : bytes := [136; 0; 123; 162] ++ [0; 0; 0; 0] ++ be_enc 16 C30_b ++ [0].
Theorem C31_trailing_byte_refuted :
  icmp6_parse C31_na 25 (word_sum 8 5 (ip6_pseudo C30_b ip6_all_nodes 25 58)) C30_b ip6_all_nodes 255 = Exn IndexError.
Proof. vm_compute; reflexivity. Qed.
Print Assumptions C31_trailing_byte_refuted.

(** A router advertisement with a prefix length of 129, and one with a prefix
    information option of one unit. *)
Definition C31_ra (plen ck1 ck2 : Z) : bytes :=
  [134; 0; ck1; ck2; 64; 0; 0; 0] ++ repeat 0 8 ++ [3; 4; plen; 0] ++ repeat 0 28.
Theorem C31_prefix_length_refuted :
  icmp6_parse (C31_ra 129 184 9) 48 (word_sum 8 5 (ip6_pseudo C30_b ip6_all_nodes 48 58)) C30_b ip6_all_nodes 255
  = Exn FormatError.
Proof. vm_compute; reflexivity. Qed.
Print Assumptions C31_prefix_length_refuted.
Definition C31_ra_short : bytes := [134; 0; 249; 36; 64; 0; 0; 0] ++ repeat 0 8 ++ [3; 1; 64; 0; 0; 0; 0; 0].
Theorem C31_short_prefix_refuted :
  icmp6_parse C31_ra_short 24 (word_sum 8 5 (ip6_pseudo C30_b ip6_all_nodes 24 58)) C30_b ip6_all_nodes 255
  = Exn StructError.
Proof. vm_compute; reflexivity. Qed.
Print Assumptions C31_short_prefix_refuted.

Theorem C31_statement_refuted : ~ C31_statement.
Proof.
  intros H. destruct (H C31_na 25 (word_sum 8 5 (ip6_pseudo C30_b ip6_all_nodes 25 58)) (ip6_pseudo C30_b ip6_all_nodes 25 58)
    C30_b ip6_all_nodes 255) as [r E].
  - apply wf_bytesb_ok. vm_compute; reflexivity.
  - lia.
  - apply pshdr6_for; try lia; vm_compute; split; congruence.
  - vm_compute; split; congruence.
  - vm_compute; split; congruence.
  - rewrite C31_trailing_byte_refuted in E. discriminate.
Qed.
Print Assumptions C31_statement_refuted.

(** C31, partial.  Messages other than the four neighbour discovery messages that
    carry options never raise. *)
Theorem C31_other_types_partial : forall f plen ps pseudo src dst hop,
  wf_bytes f -> 0 <= plen < 65536 -> pshdr_for pseudo ps ->
  ~ (133 <= nth 0 f 0 <= 136) -> exists r, icmp6_parse f plen ps src dst hop = Ok r.
Proof. exact icmp6_other_total. Qed.
Print Assumptions C31_other_types_partial.

(** Neither do router advertisements and neighbour solicitations/advertisements
    whose options are well formed ([nd_area]), nor router solicitations without
    options. *)
Theorem C31_wellformed_partial : forall f plen ps pseudo src dst hop,
  wf_bytes f -> 0 <= plen < 65536 -> pshdr_for pseudo ps ->
  134 <= nth 0 f 0 <= 136 \/ nth 0 f 0 = 133 /\ zlen f <= 8 ->
  nd_area (slice_from (nd_start (nth 0 f 0)) f) ->
  exists r, icmp6_parse f plen ps src dst hop = Ok r.
Proof. exact icmp6_nd_total. Qed.
Print Assumptions C31_wellformed_partial.

(** Everything but a router solicitation terminates. *)
Theorem C31_terminates_partial : forall f plen ps pseudo src dst hop,
  wf_bytes f -> 0 <= plen < 65536 -> pshdr_for pseudo ps ->
  nth 0 f 0 <> 133 -> icmp6_parse f plen ps src dst hop <> Exn OutOfFuel.
Proof. exact icmp6_terminates. Qed.
Print Assumptions C31_terminates_partial.

(** What is accepted is sound: the checksum verifies, the lengths are right, the
    addresses, hop limit and codes are what RFC 4861 and RFC 3810 require
    ([icmp6_sane]) and the fields are those at the RFC positions. *)
Theorem C31_acceptance_sound : forall f plen ps pseudo src dst hop p,
  wf_bytes f -> 0 <= plen < 65536 -> pshdr_for pseudo ps ->
  icmp6_parse f plen ps src dst hop = Ok (inr p) ->
  rfc1071_verifies (pseudo ++ slice 0 plen f) 0 /\ 4 <= plen <= zlen f /\
  exists opts, icmp6_sane f src dst hop opts /\ p = icmp6_of f plen opts.
Proof.
  intros f plen ps pseudo src dst hop p W L Hp E.
  destruct (icmp6_parse_cases f plen ps pseudo src dst hop W L Hp)
    as [[r E']|[(o & E' & V & L' & _ & S)|(_ & e & E' & _)]]; rewrite E in E'; try discriminate.
  split; [exact V|]. split; [exact L'|]. exists o. split; [exact S|]. congruence.
Qed.
Print Assumptions C31_acceptance_sound.

Example C31_example : nd_area [1; 1; 2; 0; 7; 1; 2; 3; 200; 2; 0; 0; 0; 0; 0; 0; 0; 0; 0; 0; 0; 0; 0; 0].
Proof.
  apply (nd_area_cons 1 1 [2; 0; 7; 1; 2; 3]); [lia|reflexivity|lia|].
  apply (nd_area_cons 200 2 (repeat 0 14) []); [lia|reflexivity|lia|constructor].
Qed.
