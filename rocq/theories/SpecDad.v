(** The messages of address autoconfiguration, RFC 4862 and RFC 4861. *)
From Verif Require Import Base AddrModel SpecAddr FragModel EtherModel Icmp6Model StackModel SpecStack StackRxModel AcquireModel SpecAcquire.

(** the neighbour solicitation that asks whether [c] is in use, from [src]; it has no options *)
Definition dad_frame (mac src c : Z) : oframe :=
  {| f_dst := group_mac (solicited_node c); f_src := mac;
     f_pkt := NIp6 (ip6_plain_tx src (solicited_node c) 255 58) (PIcmp6 (T6Ns c [])) |}.
(** the router solicitation, to all routers, ff02::2 *)
Definition rs_frame (mac src : Z) : oframe :=
  {| f_dst := 0x333300000002; f_src := mac;
     f_pkt := NIp6 (ip6_plain_tx src (0xFF02 * 2 ^ 112 + 2) 255 58) (PIcmp6 (T6Rs [TSlla mac])) |}.
(** no address has a gateway and no network has [g] *)
Definition no_route (a : addrs) (g : Z) : Prop :=
  forall h, In h (a_host6 a) -> h_gw h = None /\ net_contains 128 (h_net h) g = false.
