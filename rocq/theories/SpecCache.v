(** What the ARP and ND caches promise, in terms of a history of calls. *)
From Verif Require Import Base AddrModel EtherModel Ip6Model Icmp6Model StackModel SpecStack CacheModel.

(** time that goes by in a history *)
Fixpoint elapsed (h : list cop) : Z :=
  match h with [] => 0 | CClock d :: r => d + elapsed r | _ :: r => elapsed r end.
Definition clock_ok (h : list cop) : Prop := forall d, In (CClock d) h -> 0 <= d.

(** [h] ends with [ip] bound to [mac] since [age] milliseconds: the last update of [ip]
    gave [mac], and [age] went by since *)
Definition latest (ip mac age : Z) (h : list cop) : Prop :=
  exists h1 h2, h = h1 ++ CUpdate ip mac :: h2 /\ (forall m, ~ In (CUpdate ip m) h2) /\ elapsed h2 = age.
(** some maintenance pass ran when the binding was older than an hour *)
Definition expired (ip : Z) (h : list cop) : Prop :=
  exists h1 mac h2 h3, h = h1 ++ CUpdate ip mac :: h2 ++ CMaintain :: h3 /\
    (forall m, ~ In (CUpdate ip m) (h2 ++ h3)) /\ elapsed h2 > 3600 * 1000.
(** [ip] was looked up since it was last updated, and no pass with the binding older than
    55 minutes has happened since that lookup *)
Definition in_use (ip : Z) (h : list cop) : Prop :=
  exists h1 mac h2 h3, h = h1 ++ CUpdate ip mac :: h2 ++ CLookup ip :: h3 /\
    (forall m, ~ In (CUpdate ip m) (h2 ++ h3)) /\
    (forall h4 h5, h3 = h4 ++ CMaintain :: h5 -> elapsed h2 + elapsed h4 <= 3300 * 1000).
(** addresses fit the address size *)
Definition addr_ok (w : which) (ip : Z) : Prop := 0 <= ip < 2 ^ match w with Arp => 32 | Nd => 128 end.

(** [f] asks the link for the owner of [ip]: a broadcast ARP request, or a neighbour
    solicitation to the address's solicited-node group *)
Definition asks (w : which) (ip : Z) (f : oframe) : Prop :=
  match w, f_pkt f with
  | Arp, NArp p => a_oper p = 1 /\ a_tpa p = ip /\ f_dst f = 0xFFFFFFFFFFFF
  | Nd, NIp6 t (PIcmp6 (T6Ns target _)) =>
      target = ip /\ t6_dst t = solicited_node ip /\ f_dst f = 0x3333FF000000 + ip mod 2 ^ 24
  | _, _ => False
  end.
(** the stack can ask for [ip]: the protocol is on and, for IPv6, one of its addresses is
    on the link of [ip] and its unicast addresses are neither zero nor group addresses *)
Definition can_ask (w : which) (a : addrs) (ip : Z) : Prop :=
  match w with
  | Arp => a_sup4 a = true
  | Nd => a_sup6 a = true /\ (exists h, In h (a_host6 a) /\ net_contains 128 (h_net h) ip = true) /\
      forall h, In h (a_host6 a) -> h_addr h <> 0 /\ ~ In (h_addr h) (a_mcast6 a)
  end.
(** the addresses a history speaks of *)
Definition speaks_of (ip : Z) (h : list cop) : Prop := (exists m, In (CUpdate ip m) h) \/ In (CLookup ip) h.

(** the same for histories in which the maintenance thread interleaves with the others *)
Definition latest_f (ip mac : Z) (h : list fop) : Prop :=
  exists h1 h2, h = h1 ++ FUpdate ip mac :: h2 /\ (forall m, ~ In (FUpdate ip m) h2).
Definition speaks_of_f (ip : Z) (h : list fop) : Prop := (exists m, In (FUpdate ip m) h) \/ In (FLookup ip) h.
