(** How the packet handler acquires its addresses: multicast lists, duplicate address
    detection for IPv4 and IPv6, address autoconfiguration.  No proofs here.

    The acquisition runs in the application's thread while the receive thread handles
    frames.  A schedule lists, for each point where frames can come in between, the frames
    that do; the points are written [yield].  Each handler call is one step.  The timeouts
    are not clocked: a wait ends when the frames of its point are used up. *)
From Verif Require Import Base CodecModel AddrModel EtherModel Icmp6Model StackModel StackRxModel.

(** the addresses of the node after a change *)
Definition set_my (g : addrs -> addrs) (n : node) : node := set_tx (set_addrs (g (s_addrs (n_tx n))) (n_tx n)) n.
Definition with_mac_mcast (l : list Z) (a : addrs) : addrs :=
  {| a_mac := a_mac a; a_mac_mcast := l; a_host4 := a_host4 a; a_mcast4 := a_mcast4 a; a_host6 := a_host6 a;
     a_mcast6 := a_mcast6 a; a_cand4 := a_cand4 a; a_cand6 := a_cand6 a; a_sup4 := a_sup4 a; a_sup6 := a_sup6 a |}.
Definition with_host4 (l : list host) (a : addrs) : addrs :=
  {| a_mac := a_mac a; a_mac_mcast := a_mac_mcast a; a_host4 := l; a_mcast4 := a_mcast4 a; a_host6 := a_host6 a;
     a_mcast6 := a_mcast6 a; a_cand4 := a_cand4 a; a_cand6 := a_cand6 a; a_sup4 := a_sup4 a; a_sup6 := a_sup6 a |}.
Definition with_host6 (l : list host) (a : addrs) : addrs :=
  {| a_mac := a_mac a; a_mac_mcast := a_mac_mcast a; a_host4 := a_host4 a; a_mcast4 := a_mcast4 a; a_host6 := l;
     a_mcast6 := a_mcast6 a; a_cand4 := a_cand4 a; a_cand6 := a_cand6 a; a_sup4 := a_sup4 a; a_sup6 := a_sup6 a |}.
Definition with_mcast6 (l : list Z) (a : addrs) : addrs :=
  {| a_mac := a_mac a; a_mac_mcast := a_mac_mcast a; a_host4 := a_host4 a; a_mcast4 := a_mcast4 a; a_host6 := a_host6 a;
     a_mcast6 := l; a_cand4 := a_cand4 a; a_cand6 := a_cand6 a; a_sup4 := a_sup4 a; a_sup6 := a_sup6 a |}.
Definition with_cand4 (l : list host) (a : addrs) : addrs :=
  {| a_mac := a_mac a; a_mac_mcast := a_mac_mcast a; a_host4 := a_host4 a; a_mcast4 := a_mcast4 a; a_host6 := a_host6 a;
     a_mcast6 := a_mcast6 a; a_cand4 := l; a_cand6 := a_cand6 a; a_sup4 := a_sup4 a; a_sup6 := a_sup6 a |}.
Definition with_cand6 (c : option Z) (a : addrs) : addrs :=
  {| a_mac := a_mac a; a_mac_mcast := a_mac_mcast a; a_host4 := a_host4 a; a_mcast4 := a_mcast4 a; a_host6 := a_host6 a;
     a_mcast6 := a_mcast6 a; a_cand4 := a_cand4 a; a_cand6 := c; a_sup4 := a_sup4 a; a_sup6 := a_sup6 a |}.
Definition with_sup4 (b : bool) (a : addrs) : addrs :=
  {| a_mac := a_mac a; a_mac_mcast := a_mac_mcast a; a_host4 := a_host4 a; a_mcast4 := a_mcast4 a; a_host6 := a_host6 a;
     a_mcast6 := a_mcast6 a; a_cand4 := a_cand4 a; a_cand6 := a_cand6 a; a_sup4 := b; a_sup6 := a_sup6 a |}.
Definition with_sup6 (b : bool) (a : addrs) : addrs :=
  {| a_mac := a_mac a; a_mac_mcast := a_mac_mcast a; a_host4 := a_host4 a; a_mcast4 := a_mcast4 a; a_host6 := a_host6 a;
     a_mcast6 := a_mcast6 a; a_cand4 := a_cand4 a; a_cand6 := a_cand6 a; a_sup4 := a_sup4 a; a_sup6 := b |}.
(** the two semaphores after a successful acquire *)
Definition dad_taken (n : node) : node :=
  {| n_tx := n_tx n; n_flows4 := n_flows4 n; n_flows6 := n_flows6 n; n_socks := n_socks n; n_udp := n_udp n; n_tcp := n_tcp n;
     n_dad := n_dad n - 1; n_dad_tlla := n_dad_tlla n; n_ra := n_ra n; n_ra_ev := n_ra_ev n; n_conflict := n_conflict n |}.
Definition ra_taken (n : node) : node :=
  {| n_tx := n_tx n; n_flows4 := n_flows4 n; n_flows6 := n_flows6 n; n_socks := n_socks n; n_udp := n_udp n; n_tcp := n_tcp n;
     n_dad := n_dad n; n_dad_tlla := n_dad_tlla n; n_ra := n_ra n; n_ra_ev := n_ra_ev n - 1; n_conflict := n_conflict n |}.

(** ** lists *)

(** list.remove: the first equal element goes; ValueError if there is none *)
Fixpoint list_remove {A} (eqb : A -> A -> bool) (x : A) (l : list A) : option (list A) :=
  match l with
  | [] => None
  | y :: r => if eqb x y then Some r else match list_remove eqb x r with Some r' => Some (y :: r') | None => None end
  end.
(** IpHost.__eq__ compares the texts "address/length", ip_address.py:454-458,438-452; the
    gateway does not count *)
Definition host_eqb (a b : host) : bool := (h_addr a =? h_addr b) && (n_mask (h_net a) =? n_mask (h_net b)).
(** a set of equal records keeps one of each, packet_handler.py:524-530; the order, which
    Python leaves open, is taken to be that of the list *)
Fixpoint distinct (l : list Z) : list Z :=
  match l with [] => [] | x :: r => x :: filter (fun y => negb (y =? x)) (distinct r) end.

Definition all_nodes := 0xFF020000000000000000000000000001.
Definition all_mld2 := 0xFF020000000000000000000000000016.
Definition all_routers := 0xFF020000000000000000000000000002.

(** ** multicast *)

(** _send_icmp6_multicast_listener_report, packet_handler.py:516-546; record type 4 is
    CHANGE_TO_EXCLUDE *)
Definition mld_records (a : addrs) : list mld2_rec :=
  map (fun g => {| mr_type := 4; mr_addr := g; mr_srcs := []; mr_aux := [] |})
      (filter (fun g => negb (g =? all_nodes)) (distinct (a_mcast6 a))).
Definition send_mld : R unit :=
  a <+ rgets my_addrs ;;
  match mld_records a with
  | [] => rret tt
  | recs => tx_ (phtx_icmp6 (match ip6_unicast a with x :: _ => x | [] => 0 end) all_mld2 1 (T6Mld2 recs))
  end.
(** _assign_ip6_multicast with _assign_mac_multicast, packet_handler.py:595-603,613-618 *)
Definition assign_mcast6 (g : Z) : R unit :=
  _ <+ rupd (set_my (fun a => with_mcast6 (a_mcast6 a ++ [g]) a)) ;;
  m <+ rlift (ip6_multicast_mac g) ;;
  _ <+ rupd (set_my (fun a => with_mac_mcast (a_mac_mcast a ++ [m]) a)) ;;
  send_mld.
(** _remove_ip6_multicast with _remove_mac_multicast, packet_handler.py:605-611,620-625 *)
Definition remove_mcast6 (g : Z) : R unit :=
  a <+ rgets my_addrs ;;
  l <+ rlift (match list_remove Z.eqb g (a_mcast6 a) with Some l => Ok l | None => Exn ValueError end) ;;
  _ <+ rupd (set_my (with_mcast6 l)) ;;
  m <+ rlift (ip6_multicast_mac g) ;;
  k <+ rlift (match list_remove Z.eqb m (a_mac_mcast a) with Some k => Ok k | None => Exn ValueError end) ;;
  rupd (set_my (with_mac_mcast k)).
(** _assign_ip6_host, packet_handler.py:579-585 *)
Definition assign_host6 (h : host) : R unit :=
  _ <+ rupd (set_my (fun a => with_host6 (a_host6 a ++ [h]) a)) ;;
  g <+ rlift (ip6_solicited_node_multicast (h_addr h)) ;;
  assign_mcast6 g.
(** _remove_ip6_host, packet_handler.py:587-593 *)
Definition remove_host6 (h : host) : R unit :=
  a <+ rgets my_addrs ;;
  l <+ rlift (match list_remove host_eqb h (a_host6 a) with Some l => Ok l | None => Exn ValueError end) ;;
  _ <+ rupd (set_my (with_host6 l)) ;;
  g <+ rlift (ip6_solicited_node_multicast (h_addr h)) ;;
  remove_mcast6 g.

(** ** the acquisition thread and the receive thread *)

Definition schedule := list (list bytes).
(** the state of the node, the frames still to come, and a record of every frame handled
    with the state it was handled in *)
Record world := { w_node : node; w_sched : schedule; w_log : list (node * bytes) }.
Definition W (A : Type) := world -> world * res A.
Definition wret {A} (a : A) : W A := fun w => (w, Ok a).
Definition wbind {A B} (m : W A) (k : A -> W B) : W B :=
  fun w => match m w with (w', Ok a) => k a w' | (w', Exn e) => (w', Exn e) end.
Notation "x <^ m ;; k" := (wbind m (fun x => k)) (at level 61, m at next level, right associativity).
(** a statement of the acquisition thread *)
Definition act {A} (m : R A) : W A :=
  fun w => let (n, r) := m (w_node w) in ({| w_node := n; w_sched := w_sched w; w_log := w_log w |}, r).
(** the receive thread's loop body, packet_handler.py:301-303.  An exception ends that
    thread; the schedules in which no frame is handled after one are among those
    considered. *)
Definition rx_frame (f : bytes) (w : world) : world :=
  {| w_node := fst (phrx_ether f (w_node w)); w_sched := w_sched w; w_log := w_log w ++ [(w_node w, f)] |}.
Definition rx_frames (l : list bytes) (w : world) : world := fold_left (fun w f => rx_frame f w) l w.
(** the frames of the next point *)
Definition next_frames (w : world) : list bytes := match w_sched w with [] => [] | l :: _ => l end.
Definition advance (w : world) : world := {| w_node := w_node w; w_sched := tl (w_sched w); w_log := w_log w |}.
Definition yield : W unit := fun w => (rx_frames (next_frames w) (advance w), Ok tt).

(** Semaphore.acquire(timeout=1): True as soon as the counter is positive, after which the
    remaining frames of this point are handled *)
Definition on_node (g : node -> node) (w : world) : world :=
  {| w_node := g (w_node w); w_sched := w_sched w; w_log := w_log w |}.
Fixpoint wait_sem (count : node -> Z) (taken : node -> node) (l : list bytes) (w : world) : world * bool :=
  if 0 <? count (w_node w) then (rx_frames l (on_node taken w), true)
  else match l with [] => (w, false) | f :: r => wait_sem count taken r (rx_frame f w) end.
Definition acquire (count : node -> Z) (taken : node -> node) : W bool :=
  fun w => let (w', b) := wait_sem count taken (next_frames w) (advance w) in (w', Ok b).

(** ** IPv4, packet_handler.py:425-514 *)

(** _send_arp_probe, packet_handler.py:469-482 *)
Definition send_arp_probe (ip : Z) : R unit :=
  a <+ rgets my_addrs ;;
  tx_ (phtx_arp (a_mac a) mac_broadcast
        {| a_oper := ARP_OP_REQUEST; a_sha := a_mac a; a_spa := 0; a_tha := 0; a_tpa := ip |}).
(** _send_arp_announcement, packet_handler.py:484-499 *)
Definition send_arp_announcement (ip : Z) : R unit :=
  a <+ rgets my_addrs ;;
  tx_ (phtx_arp (a_mac a) mac_broadcast
        {| a_oper := ARP_OP_REQUEST; a_sha := a_mac a; a_spa := ip; a_tha := 0; a_tpa := ip |}).

(** self.arp_probe_unicast_conflict, packet_handler.py:167.  Nothing writes it: the handler
    of ARP replies adds to stack.arp_probe_unicast_conflict (n_conflict), arp/phrx.py:140. *)
Definition self_conflict : list Z := [].

(** one round of probes, packet_handler.py:433-438 *)
Fixpoint probe_round (l : list Z) : W unit :=
  match l with
  | [] => wret tt
  | ip :: r =>
      _ <^ yield ;;
      _ <^ (if mem ip self_conflict then wret tt else act (send_arp_probe ip)) ;;
      probe_round r
  end.
(** three rounds with a pause after each, packet_handler.py:432-439; [k] rounds *)
Fixpoint probe_rounds (k : nat) : W unit :=
  match k with
  | O => wret tt
  | S k' =>
      l <^ act (rgets (fun n => map h_addr (a_cand4 (my_addrs n)))) ;;
      _ <^ probe_round l ;;
      _ <^ yield ;;
      probe_rounds k'
  end.
(** claiming, packet_handler.py:448-456 *)
Fixpoint claim_all4 (l : list host) : W unit :=
  match l with
  | [] => wret tt
  | h :: r =>
      _ <^ yield ;;
      a <^ act (rgets my_addrs) ;;
      c <^ act (rlift (match list_remove host_eqb h (a_cand4 a) with Some c => Ok c | None => Exn ValueError end)) ;;
      _ <^ act (rupd (set_my (with_cand4 c))) ;;
      _ <^ (if mem (h_addr h) self_conflict then wret tt
            else _ <^ act (rupd (set_my (fun a => with_host4 (a_host4 a ++ [h]) a))) ;;
                 act (send_arp_announcement (h_addr h))) ;;
      claim_all4 r
  end.
(** _create_stack_ip4_addressing, packet_handler.py:425-467 *)
Definition create_ip4 : W unit :=
  _ <^ probe_rounds 3 ;;
  l <^ act (rgets (fun n => a_cand4 (my_addrs n))) ;;
  _ <^ claim_all4 l ;;
  _ <^ yield ;;
  a <^ act (rgets my_addrs) ;;
  match a_host4 a with [] => act (rupd (set_my (with_sup4 false))) | _ => wret tt end.

(** ** IPv6, packet_handler.py:330-423 *)

(** _send_icmp6_nd_dad_message, packet_handler.py:548-564 *)
Definition send_dad (c : Z) : R unit :=
  g <+ rlift (ip6_solicited_node_multicast c) ;;
  tx_ (phtx_icmp6 0 g 255 (T6Ns c [])).
(** _perform_ip6_nd_dad, packet_handler.py:330-361 *)
Definition nd_dad (c : Z) : W bool :=
  g <^ act (rlift (ip6_solicited_node_multicast c)) ;;
  _ <^ yield ;;
  _ <^ act (assign_mcast6 g) ;;
  _ <^ yield ;;
  _ <^ act (rupd (set_my (with_cand6 (Some c)))) ;;
  _ <^ yield ;;
  _ <^ act (send_dad c) ;;
  ev <^ acquire n_dad dad_taken ;;
  _ <^ act (rupd (set_my (with_cand6 None))) ;;
  _ <^ yield ;;
  _ <^ act (remove_mcast6 g) ;;
  wret (negb ev).
(** _claim_ip6_address, packet_handler.py:369-379 *)
Definition claim6 (h : host) : W unit :=
  ok <^ nd_dad (h_addr h) ;;
  _ <^ yield ;;
  if ok : bool then act (assign_host6 h) else wret tt.
Fixpoint claim_all6 (l : list host) : W unit :=
  match l with [] => wret tt | h :: r => _ <^ claim6 h ;; claim_all6 r end.
(** Ip6Network("fe80::/64") *)
Definition ll_net64 : net := {| n_addr := Z.shiftl 0xFE80 112; n_mask := 2 ^ 128 - 2 ^ 64 |}.
(** ip6_host.gateway = g, ip6_address.py:456-468 *)
Definition with_gateway6 (h : host) (g : option Z) : res host :=
  match ip6_set_gateway h g with (h', None) => Ok h' | (_, Some e) => Exn e end.
(** _send_icmp6_nd_router_solicitation, packet_handler.py:566-577 *)
Definition send_rs : R unit :=
  a <+ rgets my_addrs ;;
  src <+ rlift (match ip6_unicast a with x :: _ => Ok x | [] => Exn IndexError end) ;;
  tx_ (phtx_icmp6 src all_routers 255 (T6Rs [TSlla (a_mac a)])).
(** the loop over the advertised prefixes, packet_handler.py:415-423 *)
Fixpoint claim_prefixes (l : list (net * Z)) : W unit :=
  match l with
  | [] => wret tt
  | (p, g) :: r =>
      a <^ act (rgets my_addrs) ;;
      h <^ act (rlift (ip6_eui64 p (a_mac a))) ;;
      h <^ act (rlift (with_gateway6 h (Some g))) ;;
      _ <^ claim6 h ;;
      claim_prefixes r
  end.
(** _create_stack_ip6_addressing, packet_handler.py:363-423; [cands] is
    ip6_host_candidate, which nothing else uses and which both loops empty, [lla] and [gua]
    the two autoconfiguration switches *)
Definition create_ip6 (lla gua : bool) (cands : list host) : W unit :=
  _ <^ claim_all6 (filter (fun h => ip6_is_link_local (h_addr h)) cands) ;;
  a <^ act (rgets my_addrs) ;;
  _ <^ (if lla then
          h <^ act (rlift (ip6_eui64 ll_net64 (a_mac a))) ;;
          h <^ act (rlift (with_gateway6 h None)) ;;
          claim6 h
        else wret tt) ;;
  a <^ act (rgets my_addrs) ;;
  match a_host6 a with
  | [] => act (rupd (set_my (with_sup6 false)))
  | _ =>
      _ <^ claim_all6 (filter (fun h => negb (ip6_is_link_local (h_addr h))) cands) ;;
      if gua then
        _ <^ yield ;;
        _ <^ act send_rs ;;
        _ <^ acquire n_ra_ev ra_taken ;;
        l <^ act (rgets n_ra) ;;
        claim_prefixes l
      else wret tt
  end.
(** acquire_ip6_addresses, packet_handler.py:218-224 *)
Definition acquire_ip6 (lla gua : bool) (cands : list host) : W unit :=
  a <^ act (rgets my_addrs) ;;
  if a_sup6 a then _ <^ act (assign_mcast6 all_nodes) ;; create_ip6 lla gua cands else wret tt.

(** ** histories for the multicast filters *)

Inductive mop :=
| MAllNodes               (* acquire_ip6_addresses: listen to all nodes *)
| MAssign (h : host)      (* _assign_ip6_host *)
| MRemove (h : host)      (* _remove_ip6_host *)
| MProbe (c : Z)          (* _perform_ip6_nd_dad *)
| MWait.                  (* nothing: frames come in *)
Definition mop_do (o : mop) : W unit :=
  match o with
  | MAllNodes => act (assign_mcast6 all_nodes)
  | MAssign h => act (assign_host6 h)
  | MRemove h => act (remove_host6 h)
  | MProbe c => _ <^ nd_dad c ;; wret tt
  | MWait => yield
  end.
(** the calls return to a caller who goes on, whatever the outcome *)
Fixpoint mop_run (l : list mop) (w : world) : world * list (res unit) :=
  match l with
  | [] => (w, [])
  | o :: r => let (w1, x) := mop_do o w in let (w2, xs) := mop_run r w1 in (w2, x :: xs)
  end.
