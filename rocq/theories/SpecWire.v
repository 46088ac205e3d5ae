(** Independent descriptions of the wire formats, as concatenations of
    big-endian fields with plain arithmetic for sub-byte fields. *)
From Verif Require Import Base SpecCksum.

(** IEEE 802.3 / Ethernet II: destination, source, EtherType, payload *)
Definition eth_wire (dst src type : Z) (payload : bytes) : bytes :=
  be_enc 6 dst ++ be_enc 6 src ++ be_enc 2 type ++ payload.

(** RFC 826 for Ethernet (hardware type 1, length 6) and IPv4 (0x0800, 4) *)
Definition arp_wire (oper sha spa tha tpa : Z) : bytes :=
  be_enc 2 1 ++ be_enc 2 2048 ++ [6] ++ [4] ++ be_enc 2 oper
  ++ be_enc 6 sha ++ be_enc 4 spa ++ be_enc 6 tha ++ be_enc 4 tpa.

(** RFC 791 header, figure 4, with the RFC 2474/3168 reading of the TOS byte.
    [offset] counts bytes, [opts] is the option area (a multiple of 4 bytes). *)
Definition ip4_hdr_wire (dscp ecn total id : Z) (df mf : bool) (offset ttl proto cksum src dst : Z)
    (opts : bytes) : bytes :=
  [4 * 16 + (20 + zlen opts) / 4] ++ [dscp * 4 + ecn] ++ be_enc 2 total
  ++ be_enc 2 id ++ be_enc 2 (b2z df * 16384 + b2z mf * 8192 + offset / 8)
  ++ [ttl] ++ [proto] ++ be_enc 2 cksum ++ be_enc 4 src ++ be_enc 4 dst ++ opts.

(** RFC 8200 header: version, traffic class (DSCP, ECN), flow label, payload
    length, next header, hop limit, addresses *)
Definition ip6_hdr_wire (dscp ecn flow dlen next hop src dst : Z) : bytes :=
  be_enc 4 (6 * 2 ^ 28 + dscp * 2 ^ 22 + ecn * 2 ^ 20 + flow)
  ++ be_enc 2 dlen ++ [next] ++ [hop] ++ be_enc 16 src ++ be_enc 16 dst.

(** RFC 8200 section 4.5 fragment header; [offset] counts bytes *)
Definition frag6_wire (next reserved offset res2 : Z) (mf : bool) (id : Z) (data : bytes) : bytes :=
  [next] ++ [reserved] ++ be_enc 2 (offset / 8 * 8 + res2 * 2 + b2z mf) ++ be_enc 4 id ++ data.

(** RFC 768 header and data *)
Definition udp_wire (sport dport len cksum : Z) (data : bytes) : bytes :=
  be_enc 2 sport ++ be_enc 2 dport ++ be_enc 2 len ++ be_enc 2 cksum ++ data.

(** Pseudo headers: RFC 768/793 and RFC 8200 section 8.1 *)
Definition ip4_pseudo (src dst proto len : Z) : bytes :=
  be_enc 4 src ++ be_enc 4 dst ++ [0] ++ [proto] ++ be_enc 2 len.
Definition ip6_pseudo (src dst len next : Z) : bytes :=
  be_enc 16 src ++ be_enc 16 dst ++ be_enc 4 len ++ [0; 0; 0] ++ [next].

(** RFC 793 header: data offset in 32-bit words, then the flag bits NS, CWR, ECE,
    URG, ACK, PSH, RST, SYN, FIN from bit 8 down to bit 0 (RFC 3540, RFC 3168) *)
Definition tcp_flags_word (ns cwr ece urg ack psh rst syn fin : bool) : Z :=
  b2z ns * 256 + b2z cwr * 128 + b2z ece * 64 + b2z urg * 32 + b2z ack * 16 + b2z psh * 8
  + b2z rst * 4 + b2z syn * 2 + b2z fin.
Definition tcp_wire (sport dport seq ack flags win cksum urg : Z) (opts data : bytes) : bytes :=
  be_enc 2 sport ++ be_enc 2 dport ++ be_enc 4 seq ++ be_enc 4 ack
  ++ be_enc 2 ((20 + zlen opts) / 4 * 4096 + flags)
  ++ be_enc 2 win ++ be_enc 2 cksum ++ be_enc 2 urg ++ opts ++ data.
(** TCP options: RFC 793 (EOL, NOP, MSS), RFC 7323 (window scale, timestamps),
    RFC 2018 (SACK permitted) *)
Definition tcp_eol_wire : bytes := [0].
Definition tcp_nop_wire : bytes := [1].
Definition tcp_mss_wire (mss : Z) : bytes := [2; 4] ++ be_enc 2 mss.
Definition tcp_wscale_wire (w : Z) : bytes := [3; 3; w].
Definition tcp_sackperm_wire : bytes := [4; 2].
Definition tcp_timestamp_wire (a b : Z) : bytes := [8; 10] ++ be_enc 4 a ++ be_enc 4 b.

(** bit k of byte i *)
Definition bit_at (f : bytes) (i : nat) (k : Z) : bool := nth i f 0 / 2 ^ k mod 2 =? 1.

(** What a TCP receiver may accept out of the first [plen] bytes of [f]: the
    checksum verifies, the data offset is in range, the ports are not zero, and the
    flags are not contradictory.  SYN, FIN, RST, ACK, URG are bits 1, 0, 2, 4, 5. *)
Definition tcp_acceptable (f : bytes) (plen : Z) (pseudo : bytes) : Prop :=
  rfc1071_verifies (pseudo ++ slice 0 plen f) 0 /\
  20 <= nth 12 f 0 / 16 * 4 <= plen /\ plen <= zlen f /\
  be (slice 0 2 f) <> 0 /\ be (slice 2 4 f) <> 0 /\
  ~ (bit_at f 13 1 = true /\ bit_at f 13 0 = true) /\
  ~ (bit_at f 13 1 = true /\ bit_at f 13 2 = true) /\
  ~ (bit_at f 13 0 = true /\ bit_at f 13 2 = true) /\
  ~ (bit_at f 13 0 = true /\ bit_at f 13 4 = false) /\
  ~ (be (slice 8 12 f) <> 0 /\ bit_at f 13 4 = false) /\
  ~ (be (slice 18 20 f) <> 0 /\ bit_at f 13 5 = false).

(** RFC 792: type, code, checksum, then for echo messages identifier, sequence
    number and data, and for unreachable messages four unused bytes and data *)
Definition icmp_wire (type code cksum : Z) (body : bytes) : bytes :=
  [type; code] ++ be_enc 2 cksum ++ body.
Definition icmp_echo_body (id seq : Z) (data : bytes) : bytes := be_enc 2 id ++ be_enc 2 seq ++ data.
Definition icmp_unreach_body (data : bytes) : bytes := [0; 0; 0; 0] ++ data.
