(** Model of the Ethernet and ARP packet parsers and assemblers. *)
From Verif Require Import Base CodecModel AddrModel.

(** pytcp/protocols/ether/ps.py *)
Definition ETHER_TYPE_MIN := 0x0600.
Definition ETHER_TYPE_ARP := 0x0806.
Definition ETHER_TYPE_IP4 := 0x0800.
Definition ETHER_TYPE_IP6 := 0x86DD.
Definition ETHER_TYPE_RAW := 0xFFFF.

(** What EtherParser exposes: dst, src, type (fpp.py:91-116) and
    packet_rx.frame, the rest of the frame (fpp.py:74) *)
Record ether := { e_dst : Z; e_src : Z; e_type : Z; e_rest : bytes }.

(** ether/fpp.py:154-163 *)
Definition ether_integrity (f : bytes) : res verdict :=
  check (zlen f <? 14) "ETHER integrity - wrong packet length (I)" (Ok None).
(** ether/fpp.py:165-174 *)
Definition ether_sanity (f : bytes) : res verdict :=
  t <- u16 f 12 ;;
  check (t <? ETHER_TYPE_MIN) "ETHER sanity - 'ether_type' must be greater than 0x0600" (Ok None).
(** ether/fpp.py:91-116 *)
Definition ether_fields (f : bytes) : res ether :=
  d <- mac_of_bytes (slice 0 6 f) ;;
  s <- mac_of_bytes (slice 6 12 f) ;;
  t <- u16 f 12 ;;
  Ok {| e_dst := d; e_src := s; e_type := t; e_rest := slice_from 14 f |}.
(** ether/fpp.py:60-74 *)
Definition ether_parse (f : bytes) : res (parsed ether) :=
  run_parser (ether_integrity f) (ether_sanity f) (ether_fields f).

(** EtherAssembler.__init__ and assemble, ether/fpa.py:64-98,150-162.  The
    carried packets' assemble(frame) takes no pseudo header here. *)
Definition ether_asm (dst src type : Z) (c : carried) (buf : bytes) : res bytes :=
  assert_ ((type =? ETHER_TYPE_ARP) || (type =? ETHER_TYPE_IP4)
           || (type =? ETHER_TYPE_IP6) || (type =? ETHER_TYPE_RAW))
  (b <- pack_into buf 0 [FB (mac_bytes dst); FB (mac_bytes src); FI 2 type] ;;
   asm_tail b 14 c 0).
(** len(EtherAssembler), ether/fpa.py:100-104 *)
Definition ether_len (c : carried) : Z := 14 + c_len c.

(** ** ARP *)
Definition ARP_OP_REQUEST := 1.
Definition ARP_OP_REPLY := 2.

(** arp/fpp.py:125-168 *)
Record arp := { a_oper : Z; a_sha : Z; a_spa : Z; a_tha : Z; a_tpa : Z }.

(** arp/fpp.py:179-191 *)
Definition arp_integrity (f : bytes) : res verdict :=
  check (zlen f <? 28) "ARP integrity - wrong packet length (I)" (Ok None).
(** arp/fpp.py:193-217 *)
Definition arp_sanity (f : bytes) : res verdict :=
  hrtype <- u16 f 0 ;;
  check (negb (hrtype =? 1)) "ARP sanity - 'arp_hrtype' must be 1" (
  prtype <- u16 f 2 ;;
  check (negb (prtype =? 0x0800)) "ARP sanity - 'arp_prtype' must be 0x0800" (
  hrlen <- u8 f 4 ;;
  check (negb (hrlen =? 6)) "ARP sanity - 'arp_hrlen' must be 6" (
  prlen <- u8 f 5 ;;
  check (negb (prlen =? 4)) "ARP sanity - 'arp_prlen' must be 4" (
  oper <- u16 f 6 ;;
  check (negb ((oper =? 1) || (oper =? 2))) "ARP sanity - 'oper' must be [1-2]" (Ok None))))).
(** arp/fpp.py:125-168 *)
Definition arp_fields (f : bytes) : res arp :=
  oper <- u16 f 6 ;;
  sha <- mac_of_bytes (slice 8 14 f) ;;
  spa <- ip4_of_bytes (slice 14 18 f) ;;
  tha <- mac_of_bytes (slice 18 24 f) ;;
  tpa <- ip4_of_bytes (slice 24 28 f) ;;
  Ok {| a_oper := oper; a_sha := sha; a_spa := spa; a_tha := tha; a_tpa := tpa |}.
(** arp/fpp.py:58-69 *)
Definition arp_parse (f : bytes) : res (parsed arp) :=
  run_parser (arp_integrity f) (arp_sanity f) (arp_fields f).

(** ArpAssembler.__init__ and assemble, arp/fpa.py:55-81,112-129 *)
Definition arp_asm (p : arp) (buf : bytes) (_ : Z) : res bytes :=
  assert_ ((a_oper p =? ARP_OP_REQUEST) || (a_oper p =? ARP_OP_REPLY))
  (pack_into buf 0
     [FI 2 1; FI 2 0x0800; FI 1 6; FI 1 4; FI 2 (a_oper p);
      FB (mac_bytes (a_sha p)); FB (ip4_bytes (a_spa p));
      FB (mac_bytes (a_tha p)); FB (ip4_bytes (a_tpa p))]).
(** len(ArpAssembler) = ARP_HEADER_LEN, arp/fpa.py:83-87 *)
Definition arp_carried (p : arp) : carried := {| c_len := 28; c_asm := arp_asm p |}.
