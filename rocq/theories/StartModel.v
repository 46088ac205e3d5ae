(** How a stack is configured from text and started: TcpIpStack.__init__ and start(),
    pytcp/__init__.py.  No proofs here.

    The threads of the caches, the timer and the rings are started by start() before the
    packet handler; they are modelled elsewhere and are not part of this state. *)
From Verif Require Import Base AddrModel StackModel StackRxModel AcquireModel IpTextModel.

(** what the packet handler and the configuration module hold besides the address lists:
    ip6_host_candidate, IP4_HOST_DHCP, IP6_LLA_AUTOCONFIG, IP6_GUA_AUTOCONFIG *)
Record conf := { c_cand6 : list host; c_dhcp : bool; c_lla : bool; c_gua : bool }.
Record setup := { p_conf : conf; p_addrs : addrs }.

(** the exceptions of the constructor: MacAddressFormatError, those of the IP text forms,
    Ip4HostGatewayError and Ip6HostGatewayError *)
Inductive start_err := BadMac | BadText (e : terr) | BadGateway.

Definition with_mac (m : Z) (a : addrs) : addrs :=
  {| a_mac := m; a_mac_mcast := a_mac_mcast a; a_host4 := a_host4 a; a_mcast4 := a_mcast4 a; a_host6 := a_host6 a;
     a_mcast6 := a_mcast6 a; a_cand4 := a_cand4 a; a_cand6 := a_cand6 a; a_sup4 := a_sup4 a; a_sup6 := a_sup6 a |}.

(** Ip4Host(address) and, if the text of the gateway is neither None nor empty, its
    gateway; __init__.py:104-106 and, for IPv6, 117-119 *)
Definition host_from (v6 : bool) (address : text) (gateway : option text) : host + start_err :=
  match host_of_text v6 address with
  | TErr e => inr (BadText e)
  | TOk h =>
      match gateway with
      | None | Some [] => inl h
      | Some g =>
          match (if v6 then ip6_of_text g else ip4_of_text g) with
          | TErr e => inr (BadText e)
          | TOk x =>
              match (if v6 then ip6_set_gateway h (Some x) else ip4_set_gateway h (Some x)) with
              | (h', None) => inl h'
              | (_, Some _) => inr BadGateway
              end
          end
      end
  end.

(** __init__.py:93-97 *)
Definition init_mac (mac : option text) (s : setup) : setup * option start_err :=
  match mac with
  | None => (s, None)
  | Some t =>
      match mac_of_text t with
      | Ok m => ({| p_conf := p_conf s; p_addrs := with_mac m (p_addrs s) |}, None)
      | Exn _ => (s, Some BadMac)
      end
  end.
(** __init__.py:99-109 with assign_ip4_address, packet_handler.py:226-230 *)
Definition init_ip4 (address gateway : option text) (s : setup) : setup * option start_err :=
  let c := p_conf s in
  match address with
  | None =>
      ({| p_conf := {| c_cand6 := c_cand6 c; c_dhcp := true; c_lla := c_lla c; c_gua := c_gua c |};
          p_addrs := with_sup4 true (p_addrs s) |}, None)
  | Some t =>
      match host_from false t gateway with
      | inr e => (s, Some e)
      | inl h =>
          ({| p_conf := {| c_cand6 := c_cand6 c; c_dhcp := false; c_lla := c_lla c; c_gua := c_gua c |};
              p_addrs := with_sup4 true (with_cand4 (a_cand4 (p_addrs s) ++ [h]) (p_addrs s)) |}, None)
      end
  end.
(** __init__.py:111-123 with assign_ip6_address, packet_handler.py:212-216 *)
Definition init_ip6 (address gateway : option text) (s : setup) : setup * option start_err :=
  let c := p_conf s in
  match address with
  | None =>
      ({| p_conf := {| c_cand6 := c_cand6 c; c_dhcp := c_dhcp c; c_lla := true; c_gua := true |};
          p_addrs := with_sup6 true (p_addrs s) |}, None)
  | Some t =>
      match host_from true t gateway with
      | inr e => (s, Some e)
      | inl h =>
          ({| p_conf := {| c_cand6 := c_cand6 c ++ [h]; c_dhcp := c_dhcp c; c_lla := true; c_gua := false |};
              p_addrs := with_sup6 true (p_addrs s) |}, None)
      end
  end.
(** TcpIpStack.__init__, __init__.py:79-123 *)
Definition stack_init (mac ip4 gw4 ip6 gw6 : option text) (s : setup) : setup * option start_err :=
  match init_mac mac s with
  | (s1, Some e) => (s1, Some e)
  | (s1, None) =>
      match init_ip4 ip4 gw4 s1 with
      | (s2, Some e) => (s2, Some e)
      | (s2, None) => init_ip6 ip6 gw6 s2
      end
  end.

(** acquire_ip4_addresses, packet_handler.py:232-241; [fetch] is the DHCP client's fetch() *)
Definition acquire_ip4 (dhcp : bool) (fetch : W (option host)) : W unit :=
  a <^ act (rgets my_addrs) ;;
  if a_sup4 a then
    _ <^ match a_cand4 a with
         | [] =>
             if dhcp then
               h <^ fetch ;;
               match h with
               | Some h => act (rupd (set_my (fun a => with_cand4 (a_cand4 a ++ [h]) a)))
               | None => wret tt
               end
             else wret tt
         | _ => wret tt
         end ;;
    create_ip4
  else wret tt.
(** the part of TcpIpStack.start that acquires addresses, __init__.py:137-138 *)
Definition stack_start (c : conf) (fetch : W (option host)) : W unit :=
  _ <^ acquire_ip6 (c_lla c) (c_gua c) (c_cand6 c) ;;
  acquire_ip4 (c_dhcp c) fetch.
