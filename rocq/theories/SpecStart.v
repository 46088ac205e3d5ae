(** What starting a stack from a textual configuration must do. *)
From Verif Require Import Base AddrModel SpecAddr CodecModel EtherModel Icmp6Model StackModel StackRxModel SpecRx SpecReact AcquireModel SpecAcquire SpecIpText.

(** ** configuration *)
(** the text [t] names the address [x]: four decimal octets; RFC 4291 without the one form
    that is not accepted (C93) *)
Definition names (v6 : bool) (t : list Z) (x : Z) : Prop :=
  if v6 then denotes6 t x /\ ~ six_and_quad t else quad t x.
(** [y] may be the gateway of [x] in its network of [k] leading bits: for IPv4 another
    address of that network, neither the first nor the last; for IPv6 any of fe80::/10 *)
Definition gateway_for (v6 : bool) (x k y : Z) : Prop :=
  if v6 then same_prefix 128 10 y (0xFE80 * 2 ^ 112)
  else same_prefix 32 k y x /\ y <> x /\ 0 < y mod 2 ^ (32 - k) < 2 ^ (32 - k) - 1.
(** no gateway is given *)
Definition no_gateway (gw : option (list Z)) : Prop := gw = None \/ gw = Some [].
(** the host [h] is the address [x] in its network of [k] leading bits *)
Definition host_at (v6 : bool) (k : Z) (h : host) : Prop :=
  ip_range v6 (h_addr h) /\ 0 <= k <= Z.of_nat (width v6)
  /\ n_mask (h_net h) = prefix_mask (Z.of_nat (width v6)) k
  /\ n_addr (h_net h) = h_addr h - h_addr h mod 2 ^ (Z.of_nat (width v6) - k).
(** "address/length" and the text of a gateway describe the host [h] *)
Definition describes (v6 : bool) (t : list Z) (gw : option (list Z)) (h : host) : Prop :=
  exists a m k, t = a ++ 47 :: m /\ names v6 a (h_addr h) /\ dec_num m k /\ 1 <= zlen m <= 3
    /\ host_at v6 k h
    /\ match h_gw h with
       | None => no_gateway gw
       | Some y => exists u, gw = Some u /\ names v6 u y /\ gateway_for v6 (h_addr h) k y
       end.

(** each of the three may be left out *)
Definition opt_describes (v6 : bool) (t gw : option (list Z)) (l : list host) : Prop :=
  match t with None => l = [] | Some t => exists h, l = [h] /\ describes v6 t gw h end.
Definition opt_mac (t : option (list Z)) (old new : Z) : Prop :=
  match t with None => new = old | Some t => mac_of_text t = Ok new end.
(** what a text of any form can lead to: a host in some network, whose gateway, if one is
    given, is usable *)
Definition opt_sound (v6 : bool) (t gw : option (list Z)) (l : list host) : Prop :=
  match t with
  | None => l = []
  | Some _ => exists h k, l = [h] /\ host_at v6 k h /\
      match h_gw h with None => no_gateway gw | Some y => ~ no_gateway gw /\ ip_range v6 y /\ gateway_for v6 (h_addr h) k y end
  end.

(** ** router advertisements *)
(** the frame [f], handled in state [m], is a router advertisement offering the prefixes
    and the gateway in [l] *)
Definition offers (e : node * bytes) (l : list (net * Z)) : Prop :=
  exists n1 src dst q h m o rl rt rr opts, icmp6_in (fst e) (snd e) n1 src dst q
    /\ q6_body q = B6Ra h m o rl rt rr opts /\ l = map (fun w => (w, src)) (nd_prefixes opts).
(** the offers known after the frames [seg]: those of the last advertisement *)
Inductive heard : list (node * bytes) -> list (net * Z) -> list (net * Z) -> Prop :=
| hd_none l : heard [] l l
| hd_other e seg l l' : (forall x, ~ offers e x) -> heard seg l l' -> heard (e :: seg) l l'
| hd_ra e x seg l l' : offers e x -> heard seg x l' -> heard (e :: seg) l l'.

(** ** IPv6 acquisition *)
(** the candidates of which the claim succeeded *)
Definition claimed (l : list (host * bool * list (node * bytes))) : list host :=
  map (fun x => fst (fst x)) (filter (fun x => snd (fst x)) l).
(** a candidate is rejected exactly if the advertisements heard for the candidates so far,
    each while it was probed, outnumber the rejections so far (C49) *)
Definition verdicts (l : list (host * bool * list (node * bytes))) : Prop :=
  forall p h ok seg r, l = p ++ (h, ok, seg) :: r ->
    exists hits rej k, tally p hits rej /\ counted (answers_probe (h_addr h)) seg k /\ (ok = false <-> rej < hits + k).
(** the frames handled during these claims are among [log] *)
Definition parts (l : list (host * bool * list (node * bytes))) (log : list (node * bytes)) : Prop :=
  Forall (fun x => exists p q, log = p ++ snd x ++ q) l.
(** the address formed from the prefix and the gateway of an offer and the interface's MAC
    address (C13), and the link-local one *)
Definition formed (mac : Z) (o : net * Z) (h : host) : Prop :=
  exists h0, ip6_eui64 (fst o) mac = Ok h0 /\ h = {| h_addr := h_addr h0; h_net := h_net h0; h_gw := Some (snd o) |}.
Definition formed_local (mac : Z) (h : host) : Prop :=
  ip6_eui64 {| n_addr := 0xFE80 * 2 ^ 112; n_mask := prefix_mask 128 64 |} mac = Ok h.
(** fe80::/10 *)
Definition local_host (h : host) : bool := h_addr h / 2 ^ 118 =? 0x3FA.
(** everything but the IPv6 addresses, groups and the switch *)
Definition same4 (a b : addrs) : Prop :=
  a_mac b = a_mac a /\ a_host4 b = a_host4 a /\ a_mcast4 b = a_mcast4 a /\ a_cand4 b = a_cand4 a /\ a_sup4 b = a_sup4 a.
Definition hosts_of (l : list (host * bool * list (node * bytes))) : list host := map (fun x => fst (fst x)) l.
(** The IPv6 addresses a start acquires: first the link-local candidates and, if asked for,
    the one formed from the MAC address; if none of them could be claimed and there was none
    before, IPv6 is switched off; else the other candidates and, if asked for, one address
    for each prefix in the last router advertisement. *)
Definition acquired6 (lla gua : bool) (cands : list host) (w w' : world) : Prop :=
  let a := my_addrs (w_node w) in let b := my_addrs (w_node w') in
  exists l1 l2 l3 log1 log2 offered own,
    w_log w' = w_log w ++ log1 ++ log2 /\ heard log1 (n_ra (w_node w)) offered
    /\ parts (l1 ++ l2) log1 /\ parts l3 log2 /\ verdicts (l1 ++ l2 ++ l3)
    /\ a_host6 b = a_host6 a ++ claimed (l1 ++ l2 ++ l3) /\ same4 a b
    /\ hosts_of l1 = filter local_host cands ++ own
    /\ (if lla then exists h, own = [h] /\ formed_local (a_mac a) h else own = [])
    /\ (a_sup6 b = false <-> a_host6 a ++ claimed l1 = [])
    /\ (a_host6 a ++ claimed l1 = [] -> l2 = [] /\ l3 = [])
    /\ (a_host6 a ++ claimed l1 <> [] -> hosts_of l2 = filter (fun h => negb (local_host h)) cands /\
         if gua then Forall2 (formed (a_mac a)) offered (hosts_of l3) else l3 = []).
