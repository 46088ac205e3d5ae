(** Model of the TCP packet parser and assembler. *)
From Verif Require Import Base CodecModel CksumModel.

(** option objects of the parser, tcp/fpp.py:514-695.  The length byte that the
    objects of known kinds also keep is only used for len(option). *)
Inductive tcp_opt :=
  | OEol | ONop | OMss (mss : Z) | OWscale (wscale : Z) | OSackPerm | OTimestamp (tsval tsecr : Z)
  | OUnk (kind len : Z) (data : bytes).

(** fields exposed by TcpParser, tcp/fpp.py:113-293 *)
Record tcp := {
  s_sport : Z; s_dport : Z; s_seq : Z; s_ack : Z; s_hlen : Z;
  s_fns : bool; s_fcrw : bool; s_fece : bool; s_furg : bool; s_fack : bool; s_fpsh : bool;
  s_frst : bool; s_fsyn : bool; s_ffin : bool;
  s_win : Z; s_cksum : Z; s_urg : Z; s_opts : list tcp_opt; s_data : bytes }.

(** tcp/fpp.py:149-155 *)
Definition tcp_hlen (f : bytes) : res Z := b <- u8 f 12 ;; Ok (Z.shiftr (Z.land b 0xF0) 2).
(** flag bits, tcp/fpp.py:158-236 *)
Definition tcp_flag (f : bytes) (i m : Z) : res bool := b <- u8 f i ;; Ok (z2b (Z.land b m)).

(** the option loop of the integrity check, tcp/fpp.py:453-469 *)
Fixpoint tcp_opt_check (fuel : nat) (f : bytes) (hlen optr : Z) : res verdict :=
  match fuel with
  | O => Exn OutOfFuel
  | S fuel' =>
      if optr <? hlen then
        k <- u8 f optr ;;
        if k =? 0 then Ok None
        else if k =? 1 then
          check (hlen <? optr + 1) "TCP integrity - wrong option length (I)"
            (tcp_opt_check fuel' f hlen (optr + 1))
        else
          check (hlen <? optr + 1) "TCP integrity - wrong option length (II)" (
          l <- u8 f (optr + 1) ;;
          check (l =? 0) "TCP integrity - wrong option length (III)" (
          check (hlen <? optr + l) "TCP integrity - wrong option length (IV)"
            (tcp_opt_check fuel' f hlen (optr + l))))
      else Ok None
  end.

(** constructors of the option objects, given frame[optr:], tcp/fpp.py:566-695 *)
Definition tcp_opt_read (f : bytes) : res tcp_opt :=
  k <- u8 f 0 ;;
  if k =? 2 then _ <- u8 f 1 ;; m <- unpack_from 2 f 2 ;; Ok (OMss m)
  else if k =? 3 then _ <- u8 f 1 ;; w <- u8 f 2 ;; Ok (OWscale w)
  else if k =? 4 then _ <- u8 f 1 ;; Ok OSackPerm
  else if k =? 8 then
    _ <- u8 f 1 ;; a <- unpack_from 4 f 2 ;; b <- unpack_from 4 f 6 ;; Ok (OTimestamp a b)
  else l <- u8 f 1 ;; Ok (OUnk k l (slice 2 l f)).

(** the options property, tcp/fpp.py:337-374 *)
Fixpoint tcp_options (fuel : nat) (f : bytes) (hlen optr : Z) : res (list tcp_opt) :=
  match fuel with
  | O => Exn OutOfFuel
  | S fuel' =>
      if optr <? hlen then
        k <- u8 f optr ;;
        if k =? 0 then Ok [OEol]
        else if k =? 1 then r <- tcp_options fuel' f hlen (optr + 1) ;; Ok (ONop :: r)
        else
          o <- tcp_opt_read (slice_from optr f) ;;
          l <- u8 f (optr + 1) ;;
          r <- tcp_options fuel' f hlen (optr + l) ;; Ok (o :: r)
      else Ok []
  end.
(** fuel for the loops: the header has at most 60 bytes *)
Definition tcp_fuel : nat := 64.

(** tcp/fpp.py:435-471; [plen] is packet_rx.ip.dlen, [ps] packet_rx.ip.pshdr_sum *)
Definition tcp_integrity (f : bytes) (plen ps : Z) : res verdict :=
  check (z2b (inet_cksum (slice 0 plen f) ps)) "TCP integrity - wrong packet checksum" (
  check (negb ((20 <=? plen) && (plen <=? zlen f))) "TCP integrity - wrong packet length (I)" (
  hlen <- tcp_hlen f ;;
  check (negb ((20 <=? hlen) && (hlen <=? plen) && (plen <=? zlen f)))
    "TCP integrity - wrong packet length (II)"
    (tcp_opt_check tcp_fuel f hlen 20))).

(** tcp/fpp.py:473-513 *)
Definition tcp_sanity (f : bytes) : res verdict :=
  sport <- u16 f 0 ;;
  check (sport =? 0) "TCP sanity - 'sport' must be greater than 0" (
  dport <- u16 f 2 ;;
  check (dport =? 0) "TCP sanity - 'dport' must be greater than  0" (
  syn <- tcp_flag f 13 0x02 ;;
  fin <- tcp_flag f 13 0x01 ;;
  check (syn && fin) "TCP sanity - 'flag_syn' and 'flag_fin' must not be set simultaneously" (
  rst <- tcp_flag f 13 0x04 ;;
  check (syn && rst) "TCP sanity - 'flag_syn' and 'flag_rst' must not set simultaneously" (
  check (fin && rst) "TCP sanity - 'flag_fin' and 'flag_rst' must not be set simultaneously" (
  fack <- tcp_flag f 13 0x10 ;;
  check (fin && negb fack) "TCP sanity - 'flag_ack' must be set when 'flag_fin' is set" (
  ack <- u32 f 8 ;;
  check (z2b ack && negb fack) "TCP sanity - 'flag_ack' must be set when 'ack' is not 0" (
  urg <- u16 f 18 ;;
  furg <- tcp_flag f 13 0x20 ;;
  check (z2b urg && negb furg) "TCP sanity - 'flag_urg' must be set when 'urg' is not 0" (Ok None)))))))).

(** tcp/fpp.py:113-293,337-374.  The options are read lazily in Python: first by
    the log statement of the packet handler, which runs for every accepted
    segment (tcp/phrx.py:68). *)
Definition tcp_fields (f : bytes) (plen : Z) : res tcp :=
  sport <- u16 f 0 ;; dport <- u16 f 2 ;; seq <- u32 f 4 ;; ack <- u32 f 8 ;;
  hlen <- tcp_hlen f ;;
  ns <- tcp_flag f 12 0x01 ;;
  crw <- tcp_flag f 13 0x80 ;; ece <- tcp_flag f 13 0x40 ;; furg <- tcp_flag f 13 0x20 ;;
  fack <- tcp_flag f 13 0x10 ;; psh <- tcp_flag f 13 0x08 ;; rst <- tcp_flag f 13 0x04 ;;
  syn <- tcp_flag f 13 0x02 ;; fin <- tcp_flag f 13 0x01 ;;
  win <- u16 f 14 ;; ck <- u16 f 16 ;; urg <- u16 f 18 ;;
  opts <- tcp_options tcp_fuel f hlen 20 ;;
  Ok {| s_sport := sport; s_dport := dport; s_seq := seq; s_ack := ack; s_hlen := hlen;
        s_fns := ns; s_fcrw := crw; s_fece := ece; s_furg := furg; s_fack := fack; s_fpsh := psh;
        s_frst := rst; s_fsyn := syn; s_ffin := fin;
        s_win := win; s_cksum := ck; s_urg := urg; s_opts := opts; s_data := slice hlen plen f |}.

(** tcp/fpp.py:68-87: when a check fails, the frame is advanced by self.hlen,
    which reads frame[12] *)
Definition tcp_parse (f : bytes) (plen ps : Z) : res (parsed tcp) :=
  r <- run_parser (tcp_integrity f plen ps) (tcp_sanity f) (tcp_fields f plen) ;;
  match r with
  | inl reason => _ <- tcp_hlen f ;; Ok (inl reason)
  | inr p => Ok (inr p)
  end.

(** option getters, tcp/fpp.py:376-433; wscale is the factor 1 << shift *)
Fixpoint opt_mss (l : list tcp_opt) : Z :=
  match l with [] => 536 | OMss m :: _ => m | _ :: r => opt_mss r end.
Fixpoint opt_wscale (l : list tcp_opt) : option Z :=
  match l with [] => None | OWscale w :: _ => Some (Z.shiftl 1 w) | _ :: r => opt_wscale r end.

(** option objects of the assembler, tcp/fpa.py:219-465 *)
Inductive tcp_topt :=
  | TOEol | TONop | TOMss (mss : Z) | TOWscale (wscale : Z) | TOSackPerm | TOTimestamp (tsval tsecr : Z).
(** __len__ *)
Definition tcp_topt_len (o : tcp_topt) : Z :=
  match o with TOEol => 1 | TONop => 1 | TOMss _ => 4 | TOWscale _ => 3 | TOSackPerm => 2 | TOTimestamp _ _ => 10 end.
(** the constructors' assertions *)
Definition tcp_topt_ok (o : tcp_topt) : bool :=
  match o with
  | TOMss m => (0 <=? m) && (m <=? 0xFFFF)
  | TOWscale w => (0 <=? w) && (w <=? 0xFF)
  | TOTimestamp a b => (0 <=? a) && (a <=? 0xFFFFFFFF) && (0 <=? b) && (b <=? 0xFFFFFFFF)
  | _ => true
  end.
(** __bytes__ *)
Definition tcp_topt_bytes (o : tcp_topt) : res bytes :=
  match o with
  | TOEol => pack [FI 1 0]
  | TONop => pack [FI 1 1]
  | TOMss m => pack [FI 1 2; FI 1 4; FI 2 m]
  | TOWscale w => pack [FI 1 3; FI 1 3; FI 1 w]
  | TOSackPerm => pack [FI 1 4; FI 1 2]
  | TOTimestamp a b => pack [FI 1 8; FI 1 10; FI 4 a; FI 4 b]
  end.
(** _raw_options, tcp/fpa.py:176-181 *)
Fixpoint tcp_raw_options (l : list tcp_topt) : res bytes :=
  match l with
  | [] => Ok []
  | o :: r => b <- tcp_topt_bytes o ;; t <- tcp_raw_options r ;; Ok (b ++ t)
  end.

(** what TcpAssembler stores, tcp/fpa.py:111-137 *)
Record tcp_tx := {
  x_sport : Z; x_dport : Z; x_seq : Z; x_ack : Z;
  x_fns : bool; x_fcrw : bool; x_fece : bool; x_furg : bool; x_fack : bool; x_fpsh : bool;
  x_frst : bool; x_fsyn : bool; x_ffin : bool;
  x_win : Z; x_urp : Z; x_opts : list tcp_topt; x_data : bytes }.

(** _hlen, tcp/fpa.py:137 *)
Definition x_hlen (t : tcp_tx) : Z := 20 + fold_right Z.add 0 (map tcp_topt_len (x_opts t)).
(** len(self), tcp/fpa.py:144-148 *)
Definition x_len (t : tcp_tx) : Z := x_hlen t + zlen (x_data t).

(** the constructors' assertions, tcp/fpa.py:104-109,139-142, and those of the
    option objects *)
Definition tcp_tx_ok (t : tcp_tx) : bool :=
  (0 <=? x_sport t) && (x_sport t <=? 0xFFFF) && (0 <=? x_dport t) && (x_dport t <=? 0xFFFF)
  && (0 <=? x_seq t) && (x_seq t <=? 0xFFFFFFFF) && (0 <=? x_ack t) && (x_ack t <=? 0xFFFFFFFF)
  && (0 <=? x_win t) && (x_win t <=? 0xFFFF) && (0 <=? x_urp t) && (x_urp t <=? 0xFFFF)
  && forallb tcp_topt_ok (x_opts t) && (x_hlen t mod 4 =? 0).

(** TcpAssembler.__init__ and assemble, tcp/fpa.py:71-142,183-212 *)
Definition tcp_asm (t : tcp_tx) (buf : bytes) (ps : Z) : res bytes :=
  assert_ (tcp_tx_ok t)
  (raw <- tcp_raw_options (x_opts t) ;;
   b <- pack_into buf 0
     [FI 2 (x_sport t); FI 2 (x_dport t); FI 4 (x_seq t); FI 4 (x_ack t);
      FI 1 (Z.lor (Z.shiftl (x_hlen t) 2) (b2z (x_fns t)));
      FI 1 (Z.lor (Z.lor (Z.lor (Z.lor (Z.lor (Z.lor (Z.lor (Z.shiftl (b2z (x_fcrw t)) 7)
              (Z.shiftl (b2z (x_fece t)) 6)) (Z.shiftl (b2z (x_furg t)) 5))
              (Z.shiftl (b2z (x_fack t)) 4)) (Z.shiftl (b2z (x_fpsh t)) 3))
              (Z.shiftl (b2z (x_frst t)) 2)) (Z.shiftl (b2z (x_fsyn t)) 1)) (b2z (x_ffin t)));
      FI 2 (x_win t); FI 2 0; FI 2 (x_urp t); FB raw; FB (x_data t)] ;;
   pack_into b 16 [FI 2 (inet_cksum b ps)]).
Definition tcp_carried (t : tcp_tx) : carried := {| c_len := x_len t; c_asm := tcp_asm t |}.
