(** Model of the UDP packet parser and assembler. *)
From Verif Require Import Base CodecModel CksumModel.

(** fields exposed by UdpParser, udp/fpp.py:88-131 *)
Record udp := { u_sport : Z; u_dport : Z; u_plen : Z; u_cksum : Z; u_data : bytes }.

(** udp/fpp.py:169-188; [plen] is self._plen = packet_rx.ip.dlen, [ps] is
    packet_rx.ip.pshdr_sum *)
Definition udp_integrity (f : bytes) (plen ps : Z) : res verdict :=
  check (z2b (inet_cksum (slice 0 plen f) ps)) "UDP integrity - wrong packet checksum" (
  check (negb ((8 <=? plen) && (plen <=? zlen f))) "UDP integrity - wrong packet length (I)" (
  l <- u16 f 4 ;;
  check (negb ((8 <=? l) && (l =? plen) && (plen <=? zlen f)))
    "UDP integrity - wrong packet length (II)" (Ok None))).
(** udp/fpp.py:190-205 *)
Definition udp_sanity (f : bytes) : res verdict :=
  sport <- u16 f 0 ;;
  check (sport =? 0) "UDP sanity - 'udp_sport' must be greater than 0" (
  dport <- u16 f 2 ;;
  check (dport =? 0) "UDP sanity - 'udp_dport' must be greater then 0" (Ok None)).
(** udp/fpp.py:88-131: data is frame[8:plen] *)
Definition udp_fields (f : bytes) : res udp :=
  sport <- u16 f 0 ;;
  dport <- u16 f 2 ;;
  l <- u16 f 4 ;;
  ck <- u16 f 6 ;;
  Ok {| u_sport := sport; u_dport := dport; u_plen := l; u_cksum := ck; u_data := slice 8 l f |}.
(** udp/fpp.py:56-74 *)
Definition udp_parse (f : bytes) (plen ps : Z) : res (parsed udp) :=
  run_parser (udp_integrity f plen ps) (udp_sanity f) (udp_fields f).

(** UdpAssembler.__init__ and assemble, udp/fpa.py:55-74,95-111 *)
Definition udp_asm (sport dport : Z) (data buf : bytes) (ps : Z) : res bytes :=
  assert_ ((0 <=? sport) && (sport <=? 0xFFFF))
  (assert_ ((0 <=? dport) && (dport <=? 0xFFFF))
  (b <- pack_into buf 0 [FI 2 sport; FI 2 dport; FI 2 (8 + zlen data); FI 2 0; FB data] ;;
   pack_into b 6 [FI 2 (inet_cksum b ps)])).
Definition udp_carried (sport dport : Z) (data : bytes) : carried :=
  {| c_len := 8 + zlen data; c_asm := udp_asm sport dport data |}.
