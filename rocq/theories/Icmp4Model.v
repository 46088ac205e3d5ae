(** Model of the ICMPv4 packet parser and assembler. *)
From Verif Require Import Base CodecModel CksumModel.

(** the message-specific fields, icmp4/fpp.py:120-165: the echo fields exist for
    types 0 and 8, un_data for type 3 *)
Inductive icmp4_body :=
  | B4Echo (id seq : Z) (data : bytes) | B4Unreach (data : bytes) | B4Other.
(** fields exposed by Icmp4Parser, icmp4/fpp.py:98-181 *)
Record icmp4 := { q4_type : Z; q4_code : Z; q4_cksum : Z; q4_body : icmp4_body }.

(** icmp4/fpp.py:183-206; [plen] is packet_rx.ip4.dlen *)
Definition icmp4_integrity (f : bytes) (plen : Z) : res verdict :=
  check (z2b (inet_cksum (slice 0 plen f) 0)) "ICMPv4 integrity - wrong packet checksum" (
  check (negb ((4 <=? plen) && (plen <=? zlen f))) "ICMPv4 integrity - wrong packet length (I)" (
  t <- u8 f 0 ;;
  if (t =? 8) || (t =? 0) then
    check (negb ((8 <=? plen) && (plen <=? zlen f))) "ICMPv6 integrity - wrong packet length (II)" (Ok None)
  else if t =? 3 then
    check (negb ((12 <=? plen) && (plen <=? zlen f))) "ICMPv6 integrity - wrong packet length (II)" (Ok None)
  else Ok None)).
(** icmp4/fpp.py:208-243 *)
Definition icmp4_sanity (f : bytes) : res verdict :=
  t <- u8 f 0 ;;
  c <- u8 f 1 ;;
  check (((t =? 8) || (t =? 0)) && negb (c =? 0)) "ICMPv4 sanity - 'code' should be set to 0 (RFC 792)" (
  check ((t =? 3) && negb ((0 <=? c) && (c <=? 15))) "ICMPv4 sanity - 'code' must be set to [0-15] (RFC 792)"
  (Ok None)).
(** icmp4/fpp.py:98-165.  The packet log string (fpp.py:85-104) reads no more
    than these. *)
Definition icmp4_fields (f : bytes) (plen : Z) : res icmp4 :=
  t <- u8 f 0 ;;
  c <- u8 f 1 ;;
  ck <- u16 f 2 ;;
  b <- (if (t =? 8) || (t =? 0) then
          id <- u16 f 4 ;; seq <- u16 f 6 ;; Ok (B4Echo id seq (slice 8 plen f))
        else if t =? 3 then Ok (B4Unreach (slice 8 plen f))
        else Ok B4Other) ;;
  Ok {| q4_type := t; q4_code := c; q4_cksum := ck; q4_body := b |}.
(** icmp4/fpp.py:63-77 *)
Definition icmp4_parse (f : bytes) (plen : Z) : res (parsed icmp4) :=
  run_parser (icmp4_integrity f plen) (icmp4_sanity f) (icmp4_fields f plen).

(** the three messages Icmp4Assembler builds *)
Inductive icmp4_tx := T4EchoReply (id seq : Z) (data : bytes) | T4UnreachPort (data : bytes)
  | T4EchoRequest (id seq : Z) (data : bytes).
(** Icmp4Assembler.__init__, icmp4/fpa.py:62-107 (arguments given, not None) *)
Definition icmp4_new (type code id seq : Z) (ec_data un_data : bytes) : res icmp4_tx :=
  assert_ ((0 <=? id) && (id <=? 0xFFFF))
  (assert_ ((0 <=? seq) && (seq <=? 0xFFFF))
  (if (type =? 0) && (code =? 0) then Ok (T4EchoReply id seq ec_data)
   else if (type =? 3) && (code =? 3) then Ok (T4UnreachPort (slice 0 520 un_data))
   else if (type =? 8) && (code =? 0) then Ok (T4EchoRequest id seq ec_data)
   else Exn AssertionError)).
(** __len__, icmp4/fpa.py:109-127 *)
Definition icmp4_tx_len (t : icmp4_tx) : Z :=
  match t with T4EchoReply _ _ d | T4EchoRequest _ _ d | T4UnreachPort d => 8 + zlen d end.
(** assemble, icmp4/fpa.py:161-209; the pseudo-header sum is ignored *)
Definition icmp4_asm (t : icmp4_tx) (buf : bytes) (_ : Z) : res bytes :=
  b <- pack_into buf 0
    match t with
    | T4EchoReply id seq d => [FI 1 0; FI 1 0; FI 2 0; FI 2 id; FI 2 seq; FB d]
    | T4UnreachPort d => [FI 1 3; FI 1 3; FI 2 0; FI 4 0; FB d]
    | T4EchoRequest id seq d => [FI 1 8; FI 1 0; FI 2 0; FI 2 id; FI 2 seq; FB d]
    end ;;
  pack_into b 2 [FI 2 (inet_cksum b 0)].
Definition icmp4_carried (t : icmp4_tx) : carried := {| c_len := icmp4_tx_len t; c_asm := icmp4_asm t |}.
