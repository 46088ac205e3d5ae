(** What a frame put on the wire says to whoever receives it, and when the stack knows
    where to send. *)
From Verif Require Import Base CodecModel AddrModel EtherModel Ip4Model Ip6Model Icmp4Model Icmp6Model TcpModel
  RingModel StackModel SpecStack StackTxProofs StackRxModel SpecRx.

(** the transmit ring turns the frame object into bytes satisfying [P], whatever its buffer held *)
Definition goes_out (g : oframe) (P : bytes -> Prop) : Prop :=
  forall buf, zlen buf = frame_len (frame_of g) -> exists w, frame_asm (frame_of g) buf = Ok w /\ P w.

(** the bytes are a frame from [ms] to [md] with an IPv4 packet from [src] to [dst] *)
Definition ip4_between (md ms src dst proto : Z) (Q : ip4 -> Prop) (w : bytes) : Prop :=
  exists rest p, ether_parse w = Ok (inr {| EtherModel.e_dst := md; EtherModel.e_src := ms; EtherModel.e_type := 0x0800; EtherModel.e_rest := rest |}) /\
    ip4_parse rest = Ok (inr p) /\ i4_src p = src /\ i4_dst p = dst /\ i4_proto p = proto /\ Q p.
Definition ip6_between (md ms src dst next : Z) (Q : ip6 -> Prop) (w : bytes) : Prop :=
  exists rest p, ether_parse w = Ok (inr {| EtherModel.e_dst := md; EtherModel.e_src := ms; EtherModel.e_type := 0x86DD; EtherModel.e_rest := rest |}) /\
    ip6_parse rest = Ok (inr p) /\ i6_src p = src /\ i6_dst p = dst /\ i6_next p = next /\ Q p.
Definition icmp4_says (type code : Z) (body : icmp4_body) (p : ip4) : Prop :=
  exists q, icmp4_parse (i4_rest p) (i4_dlen p) = Ok (inr q) /\ q4_type q = type /\ q4_code q = code /\ q4_body q = body.
Definition icmp6_says (type code : Z) (body : icmp6_body) (p : ip6) : Prop :=
  exists ps q, i6_pshdr_sum p = Ok ps /\
    icmp6_parse (i6_rest p) (i6_dlen p) ps (i6_src p) (i6_dst p) (i6_hop p) = Ok (inr q) /\
    q6_type q = type /\ q6_code q = code /\ q6_body q = body.
(** a reset without data from port [sport] to [dport] acknowledging up to [ack] *)
Definition reset_says (sport dport ack : Z) (s : tcp) : Prop :=
  s_sport s = sport /\ s_dport s = dport /\ s_frst s = true /\ s_fack s = true /\ s_fsyn s = false /\ s_ffin s = false /\
  s_seq s = 0 /\ s_ack s = ack /\ s_data s = [].
Definition tcp4_says (P : tcp -> Prop) (p : ip4) : Prop :=
  exists ps s, i4_pshdr_sum p = Ok ps /\ tcp_parse (i4_rest p) (i4_dlen p) ps = Ok (inr s) /\ P s.
Definition tcp6_says (P : tcp -> Prop) (p : ip6) : Prop :=
  exists ps s, i6_pshdr_sum p = Ok ps /\ tcp_parse (i6_rest p) (i6_dlen p) ps = Ok (inr s) /\ P s.

(** [h] is an address of the stack with prefix length [k], usable as a source *)
Definition own4 (a : addrs) (h : host) (k : Z) : Prop :=
  a_sup4 a = true /\ 0 <= a_mac a < 2 ^ 48 /\ host_ok 32 k h /\ only_host h (a_host4 a) /\
  ~ In (h_addr h) (a_mcast4 a) /\ ~ In (h_addr h) (ip4_broadcasts a) /\ 0 < h_addr h < 224 * 2 ^ 24.
Definition own6 (a : addrs) (h : host) (k : Z) : Prop :=
  a_sup6 a = true /\ 0 <= a_mac a < 2 ^ 48 /\ host_ok 128 k h /\ only_host h (a_host6 a) /\
  0 < h_addr h < 255 * 2 ^ 120.
(** the link-layer address of the next hop from [h] to [dst] is known to be [m] *)
Definition reach4 (s : stack) (h : host) (k dst m : Z) : Prop :=
  0 <= m < 2 ^ 48 /\
  match next_hop4 (h_addr h) k (h_gw h) dst with
  | ToMac x => m = x
  | ToHost x | ToGateway x => exists e, cache_get x (s_arp s) = Some e /\ ce_mac e = m
  | Unroutable => False
  end.
Definition reach6 (s : stack) (h : host) (k dst m : Z) : Prop :=
  0 <= m < 2 ^ 48 /\
  match next_hop6 (h_addr h) k (h_gw h) dst with
  | ToMac x => m = x
  | ToHost x | ToGateway x => exists e, cache_get x (s_nd s) = Some e /\ ce_mac e = m
  | Unroutable => False
  end.

(** handling [f] ends normally, sends exactly the frame [g], and changes nothing else outside
    the transmit path but the fragments waiting for reassembly *)
Definition sends_only (n : node) (f : bytes) (g : oframe) : Prop :=
  exists n', phrx_ether f n = (n', Ok tt) /\ s_out (n_tx n') = s_out (n_tx n) ++ [g] /\
    same_but_flows (set_tx (n_tx n') n) n'.
(** the stack after it has learnt where [src] is *)
Definition learned6 (s : stack) (src : Z) (l : option Z) : stack :=
  match l with
  | Some m => set_nd (cache_set src {| ce_mac := m; ce_perm := false; ce_time := s_now s; ce_hits := 0 |} (s_nd s)) s
  | None => s
  end.
