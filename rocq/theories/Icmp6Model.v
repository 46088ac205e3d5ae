(** Model of the ICMPv6 packet parser and assembler (with the Neighbour Discovery
    options and the MLDv2 records). *)
From Verif Require Import Base CodecModel CksumModel AddrModel.

(** ** parsed Neighbour Discovery options, icmp6/fpp.py:719-827 *)
Inductive nd_opt :=
  | NSlla (mac : Z) | NTlla (mac : Z)
  | NPi (l a r : bool) (valid prefer : Z) (prefix : net)
  | NUnk (code len : Z) (data : bytes).

(** Icmp6NdOptSLLA/TLLA, fpp.py:719-776, constructed from frame[optr:] *)
Definition nd_lla (mk : Z -> nd_opt) (g : bytes) : res nd_opt :=
  _ <- u8 g 0 ;; _ <- u8 g 1 ;; m <- mac_of_bytes (slice 2 8 g) ;; Ok (mk m).
(** Icmp6NdOptPI, fpp.py:779-808 *)
Definition nd_pi (g : bytes) : res nd_opt :=
  _ <- u8 g 0 ;; _ <- u8 g 1 ;; fl <- u8 g 3 ;;
  v <- unpack_from 4 g 4 ;; p <- unpack_from 4 g 8 ;;
  a <- ip6_of_bytes (slice 16 32 g) ;;
  k <- u8 g 2 ;; m <- mask_of_prefix 128 k ;;
  w <- mk_net 128 a m ;;
  Ok (NPi (z2b (Z.land fl 0x80)) (z2b (Z.land fl 0x40)) (z2b (Z.land fl 0x20)) v p w).
(** Icmp6NdOptUnk, fpp.py:811-827 *)
Definition nd_unk (g : bytes) : res nd_opt :=
  c <- u8 g 0 ;; n <- u8 g 1 ;; Ok (NUnk c (Z.shiftl n 3) (slice 2 (Z.shiftl n 3) g)).
Definition nd_opt_read (g : bytes) : res nd_opt :=
  c <- u8 g 0 ;;
  if c =? 1 then nd_lla NSlla g else if c =? 2 then nd_lla NTlla g
  else if c =? 3 then nd_pi g else nd_unk g.

(** _read_nd_options, fpp.py:382-398; the loop gets [fuel] iterations *)
Fixpoint nd_read (fuel : nat) (f : bytes) (optr : Z) : res (list nd_opt) :=
  match fuel with
  | O => Exn OutOfFuel
  | S k =>
      if optr <? zlen f then
        o <- nd_opt_read (slice_from optr f) ;;
        n <- u8 f (optr + 1) ;;
        l <- nd_read k f (optr + Z.shiftl n 3) ;; Ok (o :: l)
      else Ok []
  end.
(** one iteration per byte of the frame is enough for every loop that makes progress *)
Definition nd_options (f : bytes) (optr : Z) : res (list nd_opt) := nd_read (S (length f)) f optr.

(** nd_opt_slla, nd_opt_tlla, nd_opt_pi, fpp.py:426-486 *)
Fixpoint nd_slla (l : list nd_opt) : option Z :=
  match l with [] => None | NSlla m :: _ => Some m | _ :: r => nd_slla r end.
Fixpoint nd_tlla (l : list nd_opt) : option Z :=
  match l with [] => None | NTlla m :: _ => Some m | _ :: r => nd_tlla r end.
Fixpoint nd_prefixes (l : list nd_opt) : list net :=
  match l with
  | [] => []
  | NPi _ a _ _ _ w :: r => if a && (mask_len (n_mask w) =? 64) then w :: nd_prefixes r else nd_prefixes r
  | _ :: r => nd_prefixes r
  end.

(** _nd_option_integrity_check, fpp.py:501-513 *)
Fixpoint nd_check (fuel : nat) (f : bytes) (optr : Z) : res verdict :=
  match fuel with
  | O => Exn OutOfFuel
  | S k =>
      if optr <? zlen f then
        check (zlen f <? optr + 1) "ICMPv6 sanity check fail - wrong option length (I)" (
        n <- u8 f (optr + 1) ;;
        check (n =? 0) "ICMPv6 sanity check fail - wrong option length (II)" (
        let optr := optr + Z.shiftl n 3 in
        check (zlen f <? optr) "ICMPv6 sanity check fail - wrong option length (III)" (nd_check k f optr)))
      else Ok None
  end.
Definition nd_option_check (f : bytes) (optr : Z) : res verdict := nd_check (S (length f)) f optr.

(** the record loop of the MLDv2 report check, fpp.py:572-584 *)
Fixpoint mld2_walk (n : nat) (f : bytes) (plen optr : Z) : res verdict :=
  match n with
  | O => check (negb (optr =? plen)) "ICMPv6 integrity - wrong packet length (IV)" (Ok None)
  | S k =>
      check (plen <? optr + 20) "ICMPv6 integrity - wrong packet length (III)" (
      a <- u8 f (optr + 1) ;; s <- unpack_from 2 f (optr + 2) ;;
      mld2_walk k f plen (optr + (20 + a + s * 16)))
  end.

(** _packet_integrity_check, fpp.py:515-586 *)
Definition icmp6_integrity (f : bytes) (plen ps : Z) : res verdict :=
  check (z2b (inet_cksum (slice 0 plen f) ps)) "ICMPv6 integrity - wrong packet checksum" (
  check (negb ((4 <=? plen) && (plen <=? zlen f))) "ICMPv6 integrity - wrong packet length (I)" (
  t <- u8 f 0 ;;
  let atleast n k := check (negb ((n <=? plen) && (plen <=? zlen f)))
                           "ICMPv6 integrity - wrong packet length (II)" k in
  if t =? 1 then atleast 12 (Ok None)
  else if (t =? 128) || (t =? 129) then atleast 8 (Ok None)
  else if t =? 130 then
    atleast 28 (n <- u16 f 26 ;;
                check (negb (plen =? 28 + n * 16)) "ICMPv6 integrity - wrong packet length (III)" (Ok None))
  else if t =? 133 then atleast 8 (nd_option_check f 8)
  else if t =? 134 then atleast 16 (nd_option_check f 16)
  else if t =? 135 then atleast 24 (nd_option_check f 24)
  else if t =? 136 then atleast 24 (nd_option_check f 24)
  else if t =? 143 then atleast 8 (n <- u16 f 6 ;; mld2_walk (Z.to_nat n) f plen 8)
  else Ok None)).

(** Ip6Address("ff02::1") and Ip6Address("ff02::2") *)
Definition ip6_all_nodes : Z := Z.shiftl 0xFF02 112 + 1.
Definition ip6_all_routers : Z := Z.shiftl 0xFF02 112 + 2.

(** _packet_sanity_check, fpp.py:588-711 *)
Definition icmp6_sanity (f : bytes) (src dst hop : Z) : res verdict :=
  t <- u8 f 0 ;;
  c <- u8 f 1 ;;
  if t =? 1 then check (negb (c <=? 6)) "ICMPv6 sanity - 'code' must be [0-6] (RFC 4861)" (Ok None)
  else if t =? 2 then check (negb (c =? 0)) "ICMPv6 sanity - 'code' should be 0 (RFC 4861)" (Ok None)
  else if t =? 3 then check (negb (c <=? 1)) "ICMPv6 sanity - 'code' must be [0-1] (RFC 4861)" (Ok None)
  else if t =? 4 then check (negb (c <=? 2)) "ICMPv6 sanity - 'code' must be [0-2] (RFC 4861)" (Ok None)
  else if (t =? 128) || (t =? 129) then
    check (negb (c =? 0)) "ICMPv6 sanity - 'code' should be 0 (RFC 4861)" (Ok None)
  else if t =? 130 then
    check (negb (c =? 0)) "ICMPv6 sanity - 'code' must be 0 (RFC 3810)" (
    check (negb (hop =? 1)) "ICMPv6 sanity - 'hop' must be 255 (RFC 3810)" (Ok None))
  else if t =? 133 then
    check (negb (c =? 0)) "ICMPv6 sanity - 'code' must be 0 (RFC 4861)" (
    check (negb (hop =? 255)) "ICMPv6 sanity - 'hop' must be 255 (RFC 4861)" (
    check (negb (ip6_is_unicast src || ip6_is_unspecified src))
          "ICMPv6 sanity - 'src' must be unicast or unspecified (RFC 4861)" (
    check (negb (dst =? ip6_all_routers)) "ICMPv6 sanity - 'dst' must be all-routers (RFC 4861)" (
    if ip6_is_unspecified src then
      l <- nd_options f 12 ;;
      check (match nd_slla l with Some _ => true | None => false end)
        "ICMPv6 sanity - 'nd_opt_slla' must not be included if 'src' is unspecified (RFC 4861)" (Ok None)
    else Ok None))))
  else if t =? 134 then
    check (negb (c =? 0)) "ICMPv6 sanity - 'code' must be 0 (RFC 4861)" (
    check (negb (hop =? 255)) "ICMPv6 sanity - 'hop' must be 255 (RFC 4861)" (
    check (negb (ip6_is_link_local src)) "ICMPv6 sanity - 'src' must be link local (RFC 4861)" (
    check (negb (ip6_is_unicast dst || (dst =? ip6_all_nodes)))
          "ICMPv6 sanity - 'dst' must be unicast or all-nodes (RFC 4861)" (Ok None))))
  else if t =? 135 then
    check (negb (c =? 0)) "ICMPv6 sanity - 'code' must be 0 (RFC 4861)" (
    check (negb (hop =? 255)) "ICMPv6 sanity - 'hop' must be 255 (RFC 4861)" (
    check (negb (ip6_is_unicast src || ip6_is_unspecified src))
          "ICMPv6 sanity - 'src' must be unicast or unspecified (RFC 4861)" (
    tg <- ip6_of_bytes (slice 8 24 f) ;;
    sn <- ip6_solicited_node_multicast tg ;;
    check (negb ((dst =? tg) || (dst =? sn)))
      "ICMPv6 sanity - 'dst' must be 'ns_target_address' or it's solicited-node multicast (RFC 4861)" (
    check (negb (ip6_is_unicast tg)) "ICMPv6 sanity - 'ns_target_address' must be unicast (RFC 4861)" (
    if ip6_is_unspecified src then
      l <- nd_options f 24 ;;
      check (match nd_slla l with Some _ => true | None => false end)
        "ICMPv6 sanity - 'nd_opt_slla' must not be included if 'src' is unspecified" (Ok None)
    else Ok None)))))
  else if t =? 136 then
    check (negb (c =? 0)) "ICMPv6 sanity - 'code' must be 0 (RFC 4861)" (
    check (negb (hop =? 255)) "ICMPv6 sanity - 'hop' must be 255 (RFC 4861)" (
    check (negb (ip6_is_unicast src)) "ICMPv6 sanity - 'src' must be unicast (RFC 4861)" (
    fl <- u8 f 4 ;;
    let s := z2b (Z.land fl 0x40) in
    check (s && negb (ip6_is_unicast dst || (dst =? ip6_all_nodes)))
      "ICMPv6 sanity - if 'na_flag_s' is set then 'dst' must be unicast or all-nodes (RFC 4861)" (
    check (negb s && negb (dst =? ip6_all_nodes))
      "ICMPv6 sanity - if 'na_flag_s' is not set then 'dst' must be all-nodes (RFC 4861)" (Ok None)))))
  else if t =? 143 then
    check (negb (c =? 0)) "ICMPv6 sanity - 'code' must be 0 (RFC 3810)" (
    check (negb (hop =? 1)) "ICMPv6 sanity - 'hop' must be 1 (RFC 3810)" (Ok None))
  else Ok None.

(** message-specific fields, fpp.py:199-380,400-424 *)
Inductive icmp6_body :=
  | B6Unreach (data : bytes)
  | B6Echo (id seq : Z) (data : bytes)
  | B6Rs (opts : list nd_opt)
  | B6Ra (hop : Z) (m o : bool) (life reach retrans : Z) (opts : list nd_opt)
  | B6Ns (target : Z) (opts : list nd_opt)
  | B6Na (r s o : bool) (target : Z) (opts : list nd_opt)
  | B6Mld2 (nor : Z)
  | B6Other.
Record icmp6 := { q6_type : Z; q6_code : Z; q6_cksum : Z; q6_body : icmp6_body }.

(** The fields that the packet log string (fpp.py:104-175) and the handler read
    from an accepted message.  mld2_rep_records is read on demand only: see
    mld2_records. *)
Definition icmp6_fields (f : bytes) (plen : Z) : res icmp6 :=
  t <- u8 f 0 ;;
  c <- u8 f 1 ;;
  ck <- u16 f 2 ;;
  b <- (if t =? 1 then Ok (B6Unreach (slice 8 plen f))
        else if (t =? 128) || (t =? 129) then
          id <- u16 f 4 ;; seq <- u16 f 6 ;; Ok (B6Echo id seq (slice 8 plen f))
        else if t =? 133 then l <- nd_options f 12 ;; Ok (B6Rs l)
        else if t =? 134 then
          l <- nd_options f 16 ;;
          h <- u8 f 4 ;; fl <- u8 f 5 ;; li <- u16 f 6 ;; re <- u32 f 8 ;; rt <- u32 f 12 ;;
          Ok (B6Ra h (z2b (Z.land fl 0x80)) (z2b (Z.land fl 0x40)) li re rt l)
        else if t =? 135 then
          l <- nd_options f 24 ;; tg <- ip6_of_bytes (slice 8 24 f) ;; Ok (B6Ns tg l)
        else if t =? 136 then
          l <- nd_options f 24 ;; tg <- ip6_of_bytes (slice 8 24 f) ;; fl <- u8 f 4 ;;
          Ok (B6Na (z2b (Z.land fl 0x80)) (z2b (Z.land fl 0x40)) (z2b (Z.land fl 0x20)) tg l)
        else if t =? 143 then n <- u16 f 6 ;; Ok (B6Mld2 n)
        else Ok B6Other) ;;
  Ok {| q6_type := t; q6_code := c; q6_cksum := ck; q6_body := b |}.
(** Icmp6Parser.__init__, fpp.py:75-95 *)
Definition icmp6_parse (f : bytes) (plen ps src dst hop : Z) : res (parsed icmp6) :=
  run_parser (icmp6_integrity f plen ps) (icmp6_sanity f src dst hop) (icmp6_fields f plen).

(** MulticastAddressRecord.__init__, fpp.py:835-851 *)
Record mld2_rec := { mr_type : Z; mr_addr : Z; mr_srcs : list Z; mr_aux : bytes }.
Fixpoint mld2_sources (n : nat) (i : Z) (raw : bytes) : res (list Z) :=
  match n with
  | O => Ok []
  | S k => a <- ip6_of_bytes (slice (20 + 16 * i) (20 + 16 * (i + 1)) raw) ;;
           l <- mld2_sources k (i + 1) raw ;; Ok (a :: l)
  end.
Definition mld2_record (raw : bytes) : res mld2_rec :=
  t <- u8 raw 0 ;; _ <- u8 raw 1 ;; n <- u16 raw 2 ;;
  a <- ip6_of_bytes (slice 4 20 raw) ;;
  l <- mld2_sources (Z.to_nat n) 0 raw ;;
  Ok {| mr_type := t; mr_addr := a; mr_srcs := l; mr_aux := slice_from (20 + 16 * n) raw |}.
(** mld2_rep_records, fpp.py:366-380.  len(record) is the length of the bytes the
    record was built from, that is of everything that was left. *)
Fixpoint mld2_read (n : nat) (raw : bytes) : res (list mld2_rec) :=
  match n with
  | O => Ok []
  | S k => r <- mld2_record raw ;; l <- mld2_read k (slice_from (zlen raw) raw) ;; Ok (r :: l)
  end.
Definition mld2_records (f : bytes) : res (list mld2_rec) :=
  n <- u16 f 6 ;; mld2_read (Z.to_nat n) (slice_from 8 f).

(** ** the assembler *)

(** Neighbour Discovery options to send, fpa.py:503-691 *)
Inductive nd_topt :=
  | TSlla (mac : Z) | TTlla (mac : Z)
  | TPi (valid prefer : Z) (prefix : net) (l a r : bool).
(** __bytes__, fpa.py:533-543,583-593,671-686 *)
Definition nd_topt_bytes (o : nd_topt) : res bytes :=
  match o with
  | TSlla m => pack [FI 1 1; FI 1 1; FB (mac_bytes m)]
  | TTlla m => pack [FI 1 2; FI 1 1; FB (mac_bytes m)]
  | TPi v p w l a r =>
      pack [FI 1 3; FI 1 4; FI 1 (mask_len (n_mask w));
            FI 1 (Z.lor (Z.lor (Z.shiftl (b2z l) 7) (Z.shiftl (b2z a) 6)) (Z.shiftl (b2z r) 6));
            FI 4 v; FI 4 p; FI 4 0; FB (ip6_bytes (n_addr w))]
  end.
Definition nd_topt_len (o : nd_topt) : Z := match o with TPi _ _ _ _ _ _ => 32 | _ => 8 end.
(** the PI constructor's assertions, fpa.py:618-619 *)
Definition nd_pi_new (valid prefer : Z) (w : net) (l a r : bool) : res nd_topt :=
  assert_ ((0 <=? valid) && (valid <=? 0xFFFFFFFF))
  (assert_ ((0 <=? prefer) && (prefer <=? 0xFFFFFFFF)) (Ok (TPi valid prefer w l a r))).
(** b"".join(...) *)
Fixpoint rconcat (l : list (res bytes)) : res bytes :=
  match l with [] => Ok [] | x :: r => a <- x ;; b <- rconcat r ;; Ok (a ++ b) end.
(** _raw_nd_options, fpa.py:490-495 *)
Definition nd_topts_bytes (l : list nd_topt) : res bytes := rconcat (map nd_topt_bytes l).
Definition zsum (l : list Z) : Z := fold_right Z.add 0 l.

(** Icmp6MulticastAddressRecord.raw_record, fpa.py:729-744.  Its __len__ is
    len(raw_record); for a record that raw_record cannot pack, Python's len raises
    the same struct.error that assemble raises here. *)
Definition mld2_rec_bytes (r : mld2_rec) : res bytes :=
  b <- pack [FI 1 (mr_type r); FI 1 (zlen (mr_aux r)); FI 2 (zlen (mr_srcs r)); FB (ip6_bytes (mr_addr r))] ;;
  Ok (b ++ concat (map ip6_bytes (mr_srcs r)) ++ mr_aux r).
Definition mld2_rec_len (r : mld2_rec) : Z := 20 + 16 * zlen (mr_srcs r) + zlen (mr_aux r).

(** the messages Icmp6Assembler builds *)
Inductive icmp6_tx :=
  | T6UnreachPort (data : bytes)
  | T6EchoRequest (id seq : Z) (data : bytes) | T6EchoReply (id seq : Z) (data : bytes)
  | T6Rs (opts : list nd_topt)
  | T6Ra (hop : Z) (m o : bool) (life reach retrans : Z) (opts : list nd_topt)
  | T6Ns (target : Z) (opts : list nd_topt)
  | T6Na (r s o : bool) (target : Z) (opts : list nd_topt)
  | T6Mld2 (recs : list mld2_rec).

(** the constructor's assertions, fpa.py:86-221, for a message of known shape; the
    quoted data of a port unreachable is cut to 520 bytes *)
Definition icmp6_new (t : icmp6_tx) : res icmp6_tx :=
  match t with
  | T6UnreachPort d => Ok (T6UnreachPort (slice 0 520 d))
  | T6EchoRequest id seq _ | T6EchoReply id seq _ =>
      assert_ ((0 <=? id) && (id <=? 0xFFFF)) (assert_ ((0 <=? seq) && (seq <=? 0xFFFF)) (Ok t))
  | T6Ra hop _ _ li re rt _ =>
      assert_ ((0 <=? hop) && (hop <=? 0xFF)) (assert_ ((0 <=? li) && (li <=? 0xFFFF))
      (assert_ ((0 <=? re) && (re <=? 0xFFFFFFFF)) (assert_ ((0 <=? rt) && (rt <=? 0xFFFFFFFF)) (Ok t))))
  | _ => Ok t
  end.
(** __len__, fpa.py:223-274 *)
Definition icmp6_tx_len (t : icmp6_tx) : Z :=
  match t with
  | T6UnreachPort d | T6EchoRequest _ _ d | T6EchoReply _ _ d => 8 + zlen d
  | T6Rs l => 8 + zsum (map nd_topt_len l)
  | T6Ra _ _ _ _ _ _ l => 16 + zsum (map nd_topt_len l)
  | T6Ns _ l | T6Na _ _ _ _ l => 24 + zsum (map nd_topt_len l)
  | T6Mld2 l => 8 + zsum (map mld2_rec_len l)
  end.
(** assemble, fpa.py:358-488 *)
Definition icmp6_asm (t : icmp6_tx) (buf : bytes) (ps : Z) : res bytes :=
  flds <- match t with
    | T6UnreachPort d => Ok [FI 1 1; FI 1 4; FI 2 0; FI 4 0; FB d]
    | T6EchoRequest id seq d => Ok [FI 1 128; FI 1 0; FI 2 0; FI 2 id; FI 2 seq; FB d]
    | T6EchoReply id seq d => Ok [FI 1 129; FI 1 0; FI 2 0; FI 2 id; FI 2 seq; FB d]
    | T6Rs l => o <- nd_topts_bytes l ;; Ok [FI 1 133; FI 1 0; FI 2 0; FI 4 0; FB o]
    | T6Ra hop m ot li re rt l =>
        o <- nd_topts_bytes l ;;
        Ok [FI 1 134; FI 1 0; FI 2 0; FI 1 hop; FI 1 (Z.lor (Z.shiftl (b2z m) 7) (Z.shiftl (b2z ot) 6));
            FI 2 li; FI 4 re; FI 4 rt; FB o]
    | T6Ns tg l => o <- nd_topts_bytes l ;; Ok [FI 1 135; FI 1 0; FI 2 0; FI 4 0; FB (ip6_bytes tg); FB o]
    | T6Na r s ov tg l =>
        o <- nd_topts_bytes l ;;
        Ok [FI 1 136; FI 1 0; FI 2 0;
            FI 4 (Z.lor (Z.lor (Z.lor (Z.shiftl (b2z r) 31) (Z.shiftl (b2z s) 30)) (Z.shiftl (b2z ov) 29)) 0);
            FB (ip6_bytes tg); FB o]
    | T6Mld2 l =>
        o <- rconcat (map mld2_rec_bytes l) ;;
        Ok [FI 1 143; FI 1 0; FI 2 0; FI 2 0; FI 2 (zlen l); FB o]
    end ;;
  b <- pack_into buf 0 flds ;;
  pack_into b 2 [FI 2 (inet_cksum b ps)].
Definition icmp6_carried (t : icmp6_tx) : carried := {| c_len := icmp6_tx_len t; c_asm := icmp6_asm t |}.
