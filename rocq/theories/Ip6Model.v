(** Model of the IPv6 packet and IPv6 fragment header parsers and assemblers. *)
From Verif Require Import Base CodecModel CksumModel AddrModel.

(** pytcp/protocols/ip6/ps.py *)
Definition IP6_NEXT_TCP := 6.
Definition IP6_NEXT_UDP := 17.
Definition IP6_NEXT_EXT_FRAG := 44.
Definition IP6_NEXT_ICMP6 := 58.
Definition IP6_NEXT_RAW := 255.

(** fields exposed by Ip6Parser, ip6/fpp.py:89-170; [i6_frame] is self._frame *)
Record ip6 := {
  i6_ver : Z; i6_dscp : Z; i6_ecn : Z; i6_flow : Z; i6_dlen : Z; i6_next : Z; i6_hop : Z;
  i6_src : Z; i6_dst : Z; i6_frame : bytes }.

(** ip6/fpp.py:238-255 *)
Definition ip6_integrity (f : bytes) : res verdict :=
  check (zlen f <? 40) "IPv6 integrity - wrong packet length (I)" (
  l <- u16 f 4 ;;
  check (negb (l =? zlen f - 40)) "IPv6 integrity - wrong packet length (II)" (Ok None)).
(** ip6/fpp.py:257-275 *)
Definition ip6_sanity (f : bytes) : res verdict :=
  b0 <- u8 f 0 ;;
  check (negb (Z.shiftr b0 4 =? 6)) "IPv6 sanity - 'ver' must be 6" (
  hop <- u8 f 7 ;;
  check (hop =? 0) "IPv6 sanity - 'hop' must not be 0" (
  src <- ip6_of_bytes (slice 8 24 f) ;;
  check (ip6_is_multicast src) "IPv6 sanity - 'src' must not be multicast" (Ok None))).
(** ip6/fpp.py:89-170 *)
Definition ip6_fields (f : bytes) : res ip6 :=
  b0 <- u8 f 0 ;; b1 <- u8 f 1 ;; b2 <- u8 f 2 ;; b3 <- u8 f 3 ;;
  dlen <- u16 f 4 ;;
  next <- u8 f 6 ;;
  hop <- u8 f 7 ;;
  src <- ip6_of_bytes (slice 8 24 f) ;;
  dst <- ip6_of_bytes (slice 24 40 f) ;;
  Ok {| i6_ver := Z.shiftr b0 4;
        i6_dscp := Z.lor (Z.shiftl (Z.land b0 0x0F) 2) (Z.shiftr (Z.land b1 0xC0) 6);
        i6_ecn := Z.shiftr (Z.land b1 0x30) 4;
        i6_flow := Z.lor (Z.lor (Z.shiftl (Z.land b1 0x0F) 16) (Z.shiftl b2 8)) b3;
        i6_dlen := dlen; i6_next := next; i6_hop := hop; i6_src := src; i6_dst := dst;
        i6_frame := f |}.
(** ip6/fpp.py:56-71 *)
Definition ip6_parse (f : bytes) : res (parsed ip6) :=
  run_parser (ip6_integrity f) (ip6_sanity f) (ip6_fields f).

(** packet_rx.frame after a successful parse, ip6/fpp.py:70-71; data_copy and
    plen, ip6/fpp.py:179-204 *)
Definition i6_rest (p : ip6) : bytes := slice_from 40 (i6_frame p).
Definition i6_plen (p : ip6) : Z := 40 + i6_dlen p.
Definition i6_data (p : ip6) : bytes := slice 40 (i6_plen p) (i6_frame p).

(** pshdr_sum of the parser (ip6/fpp.py:215-236) and of the assembler
    (ip6/fpa.py:174-190) *)
Definition ip6_pshdr_sum (src dst dlen next : Z) : res Z :=
  h <- pack [FB (ip6_bytes src); FB (ip6_bytes dst); FI 4 dlen; FI 1 0; FI 1 0; FI 1 0; FI 1 next] ;;
  Ok (word_sum 8 5 h).
Definition i6_pshdr_sum (p : ip6) : res Z :=
  ip6_pshdr_sum (i6_src p) (i6_dst p) (i6_dlen p) (i6_next p).

(** what Ip6Assembler stores, ip6/fpa.py:104-120 *)
Record ip6_tx := {
  t6_src : Z; t6_dst : Z; t6_hop : Z; t6_dscp : Z; t6_ecn : Z; t6_flow : Z; t6_next : Z }.

(** ip6/fpa.py:92-102 *)
Definition ip6_tx_ok (t : ip6_tx) : bool :=
  (0 <=? t6_hop t) && (t6_hop t <=? 0xFF) && (0 <=? t6_dscp t) && (t6_dscp t <=? 0x3F)
  && (0 <=? t6_ecn t) && (t6_ecn t <=? 0x03) && (0 <=? t6_flow t) && (t6_flow t <=? 0xFFFFFF)
  && ((t6_next t =? IP6_NEXT_ICMP6) || (t6_next t =? IP6_NEXT_UDP) || (t6_next t =? IP6_NEXT_TCP)
      || (t6_next t =? IP6_NEXT_EXT_FRAG) || (t6_next t =? IP6_NEXT_RAW)).

(** Ip6Assembler.__init__ and assemble, ip6/fpa.py:71-120,192-212.  In Python
    "dscp & 0b11 << 6 | ecn << 4 | ..." reads ((dscp & (0b11 << 6)) | (ecn << 4)) | ... *)
Definition ip6_asm (t : ip6_tx) (c : carried) (buf : bytes) (_ : Z) : res bytes :=
  assert_ (ip6_tx_ok t)
  (b <- pack_into buf 0
     [FI 1 (Z.lor (Z.shiftl 6 4) (Z.shiftr (t6_dscp t) 4));
      FI 1 (Z.lor (Z.lor (Z.land (t6_dscp t) (Z.shiftl 0x03 6)) (Z.shiftl (t6_ecn t) 4))
                  (Z.shiftr (Z.land (t6_flow t) 0x0F0000) 16));
      FI 1 (Z.shiftr (Z.land (t6_flow t) 0xFF00) 8);
      FI 1 (Z.land (t6_flow t) 0xFF);
      FI 2 (c_len c); FI 1 (t6_next t); FI 1 (t6_hop t);
      FB (ip6_bytes (t6_src t)); FB (ip6_bytes (t6_dst t))] ;;
   ps <- ip6_pshdr_sum (t6_src t) (t6_dst t) (c_len c) (t6_next t) ;;
   asm_tail b 40 c ps).
(** len(Ip6Assembler), ip6/fpa.py:122-127 *)
Definition ip6_carried (t : ip6_tx) (c : carried) : carried :=
  {| c_len := 40 + c_len c; c_asm := ip6_asm t c |}.

(** ** IPv6 fragment extension header *)

(** fields exposed by Ip6ExtFragParser, ip6_ext_frag/fpp.py:94-125 *)
Record frag6 := { g_next : Z; g_offset : Z; g_mf : bool; g_id : Z; g_plen : Z; g_frame : bytes }.

(** ip6_ext_frag/fpp.py:180-192; the sanity check accepts everything *)
Definition frag6_integrity (f : bytes) : res verdict :=
  check (zlen f <? 8) "IPv4 integrity - wrong packet length (I)" (Ok None).
(** ip6_ext_frag/fpp.py:94-125; plen is ip6.dlen *)
Definition frag6_fields (f : bytes) (plen : Z) : res frag6 :=
  next <- u8 f 0 ;;
  w <- u16 f 2 ;;
  b3 <- u8 f 3 ;;
  id <- u32 f 4 ;;
  Ok {| g_next := next; g_offset := Z.land w 0xFFF8; g_mf := z2b (Z.land b3 0x01);
        g_id := id; g_plen := plen; g_frame := f |}.
(** ip6_ext_frag/fpp.py:59-76 *)
Definition frag6_parse (f : bytes) (plen : Z) : res (parsed frag6) :=
  run_parser (frag6_integrity f) (Ok None) (frag6_fields f plen).
(** dlen, data_copy, ip6_ext_frag/fpp.py:135-169; rest of frame :76 *)
Definition g_dlen (p : frag6) : Z := g_plen p - 8.
Definition g_data (p : frag6) : bytes := slice 8 (g_plen p) (g_frame p).

(** Ip6ExtFragAssembler.__init__ and assemble, ip6_ext_frag/fpa.py:64-91,114-127 *)
Definition frag6_asm (next offset : Z) (mf : bool) (id : Z) (data buf : bytes) (_ : Z) : res bytes :=
  assert_ ((next =? IP6_NEXT_ICMP6) || (next =? IP6_NEXT_UDP) || (next =? IP6_NEXT_TCP)
           || (next =? IP6_NEXT_RAW))
  (pack_into buf 0 [FI 1 next; FI 1 0; FI 2 (Z.lor offset (b2z mf)); FI 4 id; FB data]).
Definition frag6_carried (next offset : Z) (mf : bool) (id : Z) (data : bytes) : carried :=
  {| c_len := 8 + zlen data; c_asm := frag6_asm next offset mf id data |}.
