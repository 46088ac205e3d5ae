(** Model of the IPv4 packet parser and assemblers. *)
From Verif Require Import Base CodecModel CksumModel AddrModel.

(** pytcp/protocols/ip4/ps.py *)
Definition IP4_PROTO_ICMP4 := 1.
Definition IP4_PROTO_TCP := 6.
Definition IP4_PROTO_UDP := 17.
Definition IP4_PROTO_RAW := 255.

(** option objects of the parser, ip4/fpp.py:410-460 *)
Inductive ip4_opt := O4Eol | O4Nop | O4Unk (kind len : Z) (data : bytes).

(** fields exposed by Ip4Parser, ip4/fpp.py:102-249; [i4_frame] is self._frame,
    which starts at the IP header and may be followed by link-layer padding *)
Record ip4 := {
  i4_ver : Z; i4_hlen : Z; i4_dscp : Z; i4_ecn : Z; i4_plen : Z; i4_id : Z;
  i4_df : bool; i4_mf : bool; i4_offset : Z; i4_ttl : Z; i4_proto : Z; i4_cksum : Z;
  i4_src : Z; i4_dst : Z; i4_opts : list ip4_opt; i4_frame : bytes }.

(** ip4/fpp.py:102-118 *)
Definition ip4_ver (f : bytes) : res Z := b <- u8 f 0 ;; Ok (Z.shiftr b 4).
Definition ip4_hlen (f : bytes) : res Z := b <- u8 f 0 ;; Ok (Z.shiftl (Z.land b 0x0F) 2).
(** ip4/fpp.py:138-145 *)
Definition ip4_plen (f : bytes) : res Z := u16 f 2.
(** ip4/fpp.py:156-179 *)
Definition ip4_df (f : bytes) : res bool := b <- u8 f 6 ;; Ok (z2b (Z.land b 0x40)).
Definition ip4_mf (f : bytes) : res bool := b <- u8 f 6 ;; Ok (z2b (Z.land b 0x20)).
Definition ip4_offset (f : bytes) : res Z := w <- u16 f 6 ;; Ok (Z.shiftl (Z.land w 0x1FFF) 3).
(** ip4/fpp.py:204-220 *)
Definition ip4_src (f : bytes) : res Z := ip4_of_bytes (slice 12 16 f).
Definition ip4_dst (f : bytes) : res Z := ip4_of_bytes (slice 16 20 f).

(** the "while optr < self.hlen" loop of the integrity check, ip4/fpp.py:348-364.
    The pointer grows in every iteration, so hlen iterations suffice. *)
Fixpoint ip4_opt_check (fuel : nat) (f : bytes) (hlen optr : Z) : res verdict :=
  match fuel with
  | O => Exn OutOfFuel
  | S fuel' =>
      if optr <? hlen then
        k <- u8 f optr ;;
        if k =? 0 then Ok None
        else if k =? 1 then
          check (hlen <? optr + 1) "IPv4 integrity - wrong option length (I)"
            (ip4_opt_check fuel' f hlen (optr + 1))
        else
          check (hlen <? optr + 1) "IPv4 integrity - wrong option length (II)" (
          l <- u8 f (optr + 1) ;;
          check (l =? 0) "IPv4 integrity - wrong option length (III)" (
          check (hlen <? optr + l) "IPv4 integrity - wrong option length (IV)"
            (ip4_opt_check fuel' f hlen (optr + l))))
      else Ok None
  end.

(** Ip4OptUnk(frame), ip4/fpp.py:447-450 *)
Definition ip4_opt_unk (f : bytes) : res ip4_opt :=
  k <- u8 f 0 ;; l <- u8 f 1 ;; Ok (O4Unk k l (slice 2 l f)).

(** the options property, ip4/fpp.py:222-249 *)
Fixpoint ip4_options (fuel : nat) (f : bytes) (hlen optr : Z) : res (list ip4_opt) :=
  match fuel with
  | O => Exn OutOfFuel
  | S fuel' =>
      if optr <? hlen then
        k <- u8 f optr ;;
        if k =? 0 then Ok [O4Eol]
        else if k =? 1 then
          r <- ip4_options fuel' f hlen (optr + 1) ;; Ok (O4Nop :: r)
        else
          o <- ip4_opt_unk (slice_from optr f) ;;
          l <- u8 f (optr + 1) ;;
          r <- ip4_options fuel' f hlen (optr + l) ;; Ok (o :: r)
      else Ok []
  end.

(** fuel for the two loops: the header has at most 60 bytes *)
Definition ip4_fuel : nat := 64.

(** ip4/fpp.py:327-364; config.PACKET_INTEGRITY_CHECK is True *)
Definition ip4_integrity (f : bytes) : res verdict :=
  check (zlen f <? 20) "IPv4 integrity - wrong packet length (I)" (
  hlen <- ip4_hlen f ;;
  plen <- ip4_plen f ;;
  check (negb ((20 <=? hlen) && (hlen <=? plen) && (plen <=? zlen f)))
    "IPv4 integrity - wrong packet length (II)" (
  check (z2b (inet_cksum (slice 0 hlen f) 0)) "IPv4 integriy - wrong packet checksum"
    (ip4_opt_check ip4_fuel f hlen 20))).

(** ip4/fpp.py:366-402; config.PACKET_SANITY_CHECK is True.  The last test
    evaluates self.options before config.IP4_OPTION_PACKET_DROP (False). *)
Definition ip4_sanity (f : bytes) : res verdict :=
  ver <- ip4_ver f ;;
  check (negb (ver =? 4)) "IP sanityi - 'ver' must be 4" (
  check (ver =? 0) "IP sanity - 'ttl' must be greater than 0" (
  src <- ip4_src f ;;
  check (ip4_is_multicast src) "IP sanity - 'src' must not be multicast" (
  check (ip4_is_reserved src) "IP sanity - 'src' must not be reserved" (
  check (ip4_is_limited_broadcast src) "IP sanity - 'src' must not be limited broadcast" (
  df <- ip4_df f ;;
  mf <- ip4_mf f ;;
  check (df && mf) "IP sanity - 'flag_df' and 'flag_mf' must not be set simultaneously" (
  off <- ip4_offset f ;;
  check (z2b off && df) "IP sanity - 'offset' must be 0 when 'df_flag' is set" (
  hlen <- ip4_hlen f ;;
  opts <- ip4_options ip4_fuel f hlen 20 ;;
  Ok None))))))).

(** ip4/fpp.py:102-249 *)
Definition ip4_fields (f : bytes) : res ip4 :=
  ver <- ip4_ver f ;;
  hlen <- ip4_hlen f ;;
  tos <- u8 f 1 ;;
  plen <- ip4_plen f ;;
  id <- u16 f 4 ;;
  df <- ip4_df f ;;
  mf <- ip4_mf f ;;
  off <- ip4_offset f ;;
  ttl <- u8 f 8 ;;
  proto <- u8 f 9 ;;
  ck <- u16 f 10 ;;
  src <- ip4_src f ;;
  dst <- ip4_dst f ;;
  opts <- ip4_options ip4_fuel f hlen 20 ;;
  Ok {| i4_ver := ver; i4_hlen := hlen; i4_dscp := Z.shiftr (Z.land tos 0xFC) 2;
        i4_ecn := Z.land tos 0x03; i4_plen := plen; i4_id := id; i4_df := df; i4_mf := mf;
        i4_offset := off; i4_ttl := ttl; i4_proto := proto; i4_cksum := ck;
        i4_src := src; i4_dst := dst; i4_opts := opts; i4_frame := f |}.

(** ip4/fpp.py:67-82 *)
Definition ip4_parse (f : bytes) : res (parsed ip4) :=
  run_parser (ip4_integrity f) (ip4_sanity f) (ip4_fields f).

(** packet_rx.frame after a successful parse, ip4/fpp.py:81-82 *)
Definition i4_rest (p : ip4) : bytes := slice_from (i4_hlen p) (i4_frame p).
(** dlen and data_copy, ip4/fpp.py:260-267,289-296 *)
Definition i4_dlen (p : ip4) : Z := i4_plen p - i4_hlen p.
Definition i4_data (p : ip4) : bytes := slice (i4_hlen p) (i4_plen p) (i4_frame p).

(** pshdr_sum of the parser (ip4/fpp.py:307-325) and of the assembler
    (ip4/fpa.py:197-211) *)
Definition ip4_pshdr_sum (src dst proto dlen : Z) : res Z :=
  h <- pack [FB (ip4_bytes src); FB (ip4_bytes dst); FI 1 0; FI 1 proto; FI 2 dlen] ;;
  Ok (word_sum 4 3 h).
Definition i4_pshdr_sum (p : ip4) : res Z :=
  ip4_pshdr_sum (i4_src p) (i4_dst p) (i4_proto p) (i4_dlen p).

(** option objects of the assemblers, ip4/fpa.py:388-457 *)
Inductive ip4_topt := T4Eol | T4Nop.
Definition ip4_topt_byte (o : ip4_topt) : Z := match o with T4Eol => 0 | T4Nop => 1 end.
(** _raw_options, ip4/fpa.py:213-218,349-357 *)
Definition ip4_raw_options (l : list ip4_topt) : bytes := map ip4_topt_byte l.

(** what Ip4Assembler / Ip4FragAssembler store, ip4/fpa.py:105-124,281-298.
    _flag_mf and _offset are False and 0 in Ip4Assembler, _flag_df is False in
    Ip4FragAssembler. *)
Record ip4_tx := {
  t4_src : Z; t4_dst : Z; t4_ttl : Z; t4_dscp : Z; t4_ecn : Z; t4_id : Z;
  t4_df : bool; t4_mf : bool; t4_offset : Z; t4_opts : list ip4_topt; t4_proto : Z }.

(** the constructors' assertions, ip4/fpa.py:94-103,270-279 *)
Definition ip4_tx_ok (t : ip4_tx) : bool :=
  (0 <=? t4_ttl t) && (t4_ttl t <=? 0xFF) && (0 <=? t4_dscp t) && (t4_dscp t <=? 0x3F)
  && (0 <=? t4_ecn t) && (t4_ecn t <=? 0x03) && (0 <=? t4_id t) && (t4_id t <=? 0xFFFF)
  && ((t4_proto t =? IP4_PROTO_ICMP4) || (t4_proto t =? IP4_PROTO_UDP)
      || (t4_proto t =? IP4_PROTO_TCP) || (t4_proto t =? IP4_PROTO_RAW)).

(** _hlen, ip4/fpa.py:123,297 *)
Definition t4_hlen (t : ip4_tx) : Z := 20 + zlen (ip4_raw_options (t4_opts t)).
(** len(self): every option has length 1, ip4/fpa.py:126-135,300-308 *)
Definition ip4_len (t : ip4_tx) (dlen : Z) : Z := 20 + zlen (t4_opts t) + dlen.

(** the header fields given to struct.pack_into, ip4/fpa.py:228-238,367-377 *)
Definition ip4_hdr_flds (t : ip4_tx) (plen : Z) : list fld :=
  [FI 1 (Z.lor (Z.shiftl 4 4) (Z.shiftr (t4_hlen t) 2));
   FI 1 (Z.lor (Z.shiftl (t4_dscp t) 2) (t4_ecn t));
   FI 2 plen; FI 2 (t4_id t);
   FI 2 (Z.lor (Z.lor (Z.shiftl (b2z (t4_df t)) 14) (Z.shiftl (b2z (t4_mf t)) 13))
               (Z.shiftr (t4_offset t) 3));
   FI 1 (t4_ttl t); FI 1 (t4_proto t); FI 2 0;
   FB (ip4_bytes (t4_src t)); FB (ip4_bytes (t4_dst t)); FB (ip4_raw_options (t4_opts t))].

(** Ip4Assembler.__init__ and assemble, ip4/fpa.py:75-124,220-241.  The caller
    passes flag_mf = False, offset = 0 through [t]. *)
Definition ip4_asm (t : ip4_tx) (c : carried) (buf : bytes) (_ : Z) : res bytes :=
  assert_ (ip4_tx_ok t)
  (let hlen := t4_hlen t in
   let plen := ip4_len t (c_len c) in
   b <- pack_into buf 0 (ip4_hdr_flds t plen) ;;
   b <- pack_into b 10 [FI 2 (inet_cksum (slice 0 hlen b) 0)] ;;
   ps <- ip4_pshdr_sum (t4_src t) (t4_dst t) (t4_proto t) (plen - hlen) ;;
   asm_tail b hlen c ps).
Definition ip4_carried (t : ip4_tx) (c : carried) : carried :=
  {| c_len := ip4_len t (c_len c); c_asm := ip4_asm t c |}.

(** Ip4FragAssembler.__init__ and assemble, ip4/fpa.py:251-298,359-380 *)
Definition ip4_frag_asm (t : ip4_tx) (data buf : bytes) (_ : Z) : res bytes :=
  assert_ (ip4_tx_ok t)
  (let hlen := t4_hlen t in
   let plen := ip4_len t (zlen data) in
   b <- pack_into buf 0 (ip4_hdr_flds t plen ++ [FB data]) ;;
   pack_into b 10 [FI 2 (inet_cksum (slice 0 hlen b) 0)]).
Definition ip4_frag_carried (t : ip4_tx) (data : bytes) : carried :=
  {| c_len := ip4_len t (zlen data); c_asm := ip4_frag_asm t data |}.
