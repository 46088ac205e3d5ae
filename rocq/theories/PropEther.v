(** Properties C15 and C16: Ethernet and ARP codecs. *)
From Verif Require Import BaseLemmas CodecModel EtherModel SpecWire EtherProofs.

(** C15: an assembled frame is the wire format and parses back, for every
    carried packet that fills its part of the buffer with [pl]. *)
Theorem C15_round_trip : forall dst src type c pl buf,
  0 <= dst < 2 ^ 48 -> 0 <= src < 2 ^ 48 ->
  In type [0x0806; 0x0800; 0x86DD; 0xFFFF] ->
  zlen pl = c_len c -> (forall b, zlen b = c_len c -> c_asm c b 0 = Ok pl) ->
  zlen buf = ether_len c ->
  exists w, ether_asm dst src type c buf = Ok w /\ w = eth_wire dst src type pl /\
    ether_parse w = Ok (inr {| e_dst := dst; e_src := src; e_type := type; e_rest := pl |}).
Proof. exact ether_round_trip. Qed.
Print Assumptions C15_round_trip.

(** C15: parsing inverts the wire format and accepts nothing else. *)
Theorem C15_parse_exact : forall f p, wf_bytes f ->
  (ether_parse f = Ok (inr p) <->
   0 <= e_dst p < 2 ^ 48 /\ 0 <= e_src p < 2 ^ 48 /\ 0x0600 <= e_type p < 2 ^ 16 /\
   f = eth_wire (e_dst p) (e_src p) (e_type p) (e_rest p)).
Proof. exact ether_parse_exact. Qed.
Print Assumptions C15_parse_exact.

Theorem C15_accepts : forall f, wf_bytes f ->
  ((exists p, ether_parse f = Ok (inr p)) <-> 14 <= zlen f /\ 0x0600 <= be (slice 12 14 f)).
Proof. exact ether_accepts. Qed.
Print Assumptions C15_accepts.

Theorem C15_never_raises : forall f, wf_bytes f -> exists r, ether_parse f = Ok r.
Proof. exact ether_parse_never_raises. Qed.
Print Assumptions C15_never_raises.

Example C15_example :
  ether_asm 0x0203040506FF 0x020000000001 0xFFFF (raw_carried [7; 8; 9]) (repeat 99 17)
  = Ok [2; 3; 4; 5; 6; 255; 2; 0; 0; 0; 0; 1; 255; 255; 7; 8; 9] /\
  ether_parse [1; 2; 3] = Ok (inl "ETHER integrity - wrong packet length (I)"%string) /\
  ether_parse [2; 3; 4; 5; 6; 255; 2; 0; 0; 0; 0; 1; 8; 6; 7; 8; 9]
  = Ok (inr {| e_dst := 0x0203040506FF; e_src := 0x020000000001; e_type := 0x0806; e_rest := [7; 8; 9] |}).
Proof. vm_compute. auto. Qed.

(** C16 *)
Theorem C16_round_trip : forall p buf pad ps,
  (a_oper p = 1 \/ a_oper p = 2) -> 0 <= a_sha p < 2 ^ 48 -> 0 <= a_spa p < 2 ^ 32 ->
  0 <= a_tha p < 2 ^ 48 -> 0 <= a_tpa p < 2 ^ 32 -> zlen buf = 28 ->
  exists w, arp_asm p buf ps = Ok w /\
    w = arp_wire (a_oper p) (a_sha p) (a_spa p) (a_tha p) (a_tpa p) /\
    arp_parse (w ++ pad) = Ok (inr p).
Proof. exact arp_round_trip. Qed.
Print Assumptions C16_round_trip.

(** accepted frames are exactly Ethernet/IPv4 requests and replies *)
Theorem C16_parse_exact : forall f p, wf_bytes f ->
  (arp_parse f = Ok (inr p) <->
   (a_oper p = 1 \/ a_oper p = 2) /\ 0 <= a_sha p < 2 ^ 48 /\ 0 <= a_spa p < 2 ^ 32 /\
   0 <= a_tha p < 2 ^ 48 /\ 0 <= a_tpa p < 2 ^ 32 /\
   exists pad, f = arp_wire (a_oper p) (a_sha p) (a_spa p) (a_tha p) (a_tpa p) ++ pad).
Proof. exact arp_parse_exact. Qed.
Print Assumptions C16_parse_exact.

Theorem C16_never_raises : forall f, wf_bytes f -> exists r, arp_parse f = Ok r.
Proof. exact arp_parse_never_raises. Qed.
Print Assumptions C16_never_raises.

Example C16_example :
  let p := {| a_oper := 1; a_sha := 0x020000000001; a_spa := 0x0A000001; a_tha := 0; a_tpa := 0x0A000002 |} in
  arp_asm p (repeat 77 28) 0
  = Ok [0; 1; 8; 0; 6; 4; 0; 1; 2; 0; 0; 0; 0; 1; 10; 0; 0; 1; 0; 0; 0; 0; 0; 0; 10; 0; 0; 2] /\
  arp_parse ([0; 1; 8; 0; 6; 4; 0; 1; 2; 0; 0; 0; 0; 1; 10; 0; 0; 1; 0; 0; 0; 0; 0; 0; 10; 0; 0; 2] ++ repeat 0 18)
  = Ok (inr p).
Proof. vm_compute. auto. Qed.
