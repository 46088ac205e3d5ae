(** What it means for a frame to be addressed to the stack, and for a network packet to
    arrive in it.  Uses the parsers (characterised by the codec theorems) and the
    reassembly (characterised by C36-C39), not the receive handlers. *)
From Verif Require Import Base CodecModel AddrModel EtherModel Ip4Model Ip6Model FragModel StackModel StackRxModel.

(** ** addresses *)
(** the link-layer addresses the stack listens on *)
Definition our_mac (a : addrs) (m : Z) : Prop := m = a_mac a \/ In m (a_mac_mcast a) \/ m = 2 ^ 48 - 1.
(** the last address of the host's network: the address with all host bits set *)
Definition last_of (h : host) : Z := n_addr (h_net h) + (-1 - n_mask (h_net h)) mod 2 ^ 32.
Definition our_ip4 (a : addrs) (x : Z) : Prop :=
  (exists h, In h (a_host4 a) /\ (x = h_addr h \/ x = last_of h)) \/ In x (a_mcast4 a) \/ x = 2 ^ 32 - 1.
Definition our_ip6 (a : addrs) (x : Z) : Prop :=
  (exists h, In h (a_host6 a) /\ x = h_addr h) \/ In x (a_mcast6 a).
(** an IPv4 destination the stack takes: one of its own, or any while it has no address
    (it must hear the DHCP server) *)
Definition takes4 (a : addrs) (x : Z) : Prop := our_ip4 a x \/ a_host4 a = [].

(** ** arrival *)
(** the frame [f] is one the stack listens to *)
Definition for_us (n : node) (f : bytes) (e : ether) : Prop :=
  ether_parse f = Ok (inr e) /\ our_mac (my_addrs n) (EtherModel.e_dst e).

(** the packet [p] has arrived, whole or by its last fragment, with the frame [f]; [n1] is
    the state without the fragments it was made of *)
Inductive rx4 (n : node) (f : bytes) : node -> ip4 -> Prop :=
| rx4_whole e p :
    for_us n f e -> EtherModel.e_type e = 0x0800 -> a_sup4 (my_addrs n) = true ->
    ip4_parse (EtherModel.e_rest e) = Ok (inr p) -> takes4 (my_addrs n) (i4_dst p) ->
    i4_offset p = 0 -> i4_mf p = false -> rx4 n f n p
| rx4_last e p fs w q :
    for_us n f e -> EtherModel.e_type e = 0x0800 -> a_sup4 (my_addrs n) = true ->
    ip4_parse (EtherModel.e_rest e) = Ok (inr p) -> takes4 (my_addrs n) (i4_dst p) ->
    i4_offset p <> 0 \/ i4_mf p = true ->
    defrag4 (s_now (n_tx n)) p (n_flows4 n) = (fs, Ok (Some w)) -> ip4_parse w = Ok (inr q) ->
    rx4 n f (set_flows4 fs n) q.

Inductive rx6_net : node -> bytes -> node -> ip6 -> Prop :=
| rx6_whole n f p :
    ip6_parse f = Ok (inr p) -> our_ip6 (my_addrs n) (i6_dst p) -> i6_next p <> 44 -> rx6_net n f n p
| rx6_last n f p g fs w n1 q :
    ip6_parse f = Ok (inr p) -> our_ip6 (my_addrs n) (i6_dst p) -> i6_next p = 44 ->
    frag6_parse (i6_rest p) (i6_dlen p) = Ok (inr g) ->
    defrag6 (s_now (n_tx n)) p g (n_flows6 n) = (fs, Ok (Some w)) ->
    rx6_net (set_flows6 fs n) w n1 q -> rx6_net n f n1 q.
Definition rx6 (n : node) (f : bytes) (n1 : node) (p : ip6) : Prop :=
  exists e, for_us n f e /\ EtherModel.e_type e = 0x86DD /\ a_sup6 (my_addrs n) = true /\
    rx6_net n (EtherModel.e_rest e) n1 p.

(** the two states differ at most in the fragments waiting for reassembly *)
Definition same_but_flows (n n' : node) : Prop :=
  n_tx n' = n_tx n /\ n_socks n' = n_socks n /\ n_udp n' = n_udp n /\ n_tcp n' = n_tcp n /\
  n_dad n' = n_dad n /\ n_dad_tlla n' = n_dad_tlla n /\ n_ra n' = n_ra n /\ n_ra_ev n' = n_ra_ev n /\
  n_conflict n' = n_conflict n.
