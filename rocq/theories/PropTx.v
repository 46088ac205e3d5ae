(** C41-C44: what the packet handler sends, from where, to where, and what it reports. *)
From Verif Require Import Base BaseLemmas CodecModel AddrModel SpecAddr EtherModel Ip4Model Ip6Model UdpModel TcpModel Icmp4Model
  Icmp6Model FragModel RingModel StackModel SpecStack StackTxProofs StackWireProofs StackSendProofs StackRouteProofs.

(** A stack for the examples: 10.0.0.2/24 via 10.0.0.1, 2001:db8::2/64 via 2001:db8::1,
    10.0.0.9 and the IPv6 gateway in the caches. *)
Definition ex_h4 : host :=
  {| h_addr := 0x0A000002; h_net := {| n_addr := 0x0A000000; n_mask := 0xFFFFFF00 |}; h_gw := Some 0x0A000001 |}.
Definition db8 : Z := 0x20010DB8 * 2 ^ 96.
Definition ex_h6 : host :=
  {| h_addr := db8 + 2; h_net := {| n_addr := db8; n_mask := 2 ^ 128 - 2 ^ 64 |}; h_gw := Some (db8 + 1) |}.
Definition ex_addrs : addrs :=
  {| a_mac := 0x020000000007; a_mac_mcast := [0x333300000001; 0x3333FF000002];
     a_host4 := [ex_h4]; a_mcast4 := [0xE0000001];
     a_host6 := [ex_h6]; a_mcast6 := [0xFF02 * 2 ^ 112 + 1; 0xFF02 * 2 ^ 112 + 0x1FF000002];
     a_cand4 := []; a_cand6 := None; a_sup4 := true; a_sup6 := true |}.
Definition ex_entry (m : Z) : entry := {| ce_mac := m; ce_perm := false; ce_time := 0; ce_hits := 0 |}.
Definition ex_stack : stack :=
  {| s_addrs := ex_addrs; s_arp := [(0x0A000009, ex_entry 0x020000000009)]; s_nd := [(db8 + 1, ex_entry 0x02000000000A)];
     s_id4 := 0; s_id6 := 0; s_now := 100; s_out := [] |}.
Example ex_wf : wf_addrs ex_addrs.
Proof.
  split; [|split].
  - intros h g [<-|[]] E. injection E as <-. unfold db8. lia.
  - intros x [<-|[]]. split; [discriminate|]. cbn. intros [X|[X|[]]]; discriminate.
  - intros x [<-|[]]. split; [vm_compute; discriminate|vm_compute; reflexivity].
Qed.
Example ex_host4_ok : host_ok 32 24 ex_h4 /\ only_host ex_h4 (a_host4 ex_addrs).
Proof.
  split; [split; [lia|]; split; [cbn; lia|reflexivity]|]. split; [left; reflexivity|]. intros h' [<-|[]] _. reflexivity.
Qed.
Example ex_host6_ok : host_ok 128 64 ex_h6 /\ only_host ex_h6 (a_host6 ex_addrs).
Proof.
  split; [split; [lia|]; split; [split; [vm_compute; discriminate|vm_compute; reflexivity]|vm_compute; reflexivity]|].
  split; [left; reflexivity|]. intros h' [<-|[]] _. reflexivity.
Qed.

(** C41.  The bytes of every frame a send puts on the wire, when they are an IPv4 packet,
    have a unicast address of the stack in the source field, or 0.0.0.0 and the request
    was for DHCP client traffic. *)
Theorem C41_ip4_source : forall s q s' r, wf_addrs (s_addrs s) -> dst_ok q -> send_request q s = (s', r) ->
  exists new, s_out s' = s_out s ++ new /\
  forall f buf w, In f new -> zlen buf = frame_len (frame_of f) -> frame_asm (frame_of f) buf = Ok w ->
    slice 12 14 w = [0x08; 0x00] ->
    exists x, slice 26 30 w = be_enc 4 x /\ (In x (ip4_unicast (s_addrs s)) \/ (x = 0 /\ dhcp_request q)).
Proof.
  intros s q s' r W D E. destruct (send_sources s q s' r W D E) as (new & En & _ & F). exists new. split; [exact En|].
  intros f buf w I L A T. rewrite Forall_forall in F. exact (src4_on_wire _ _ _ _ _ (F f I) L A T).
Qed.
Print Assumptions C41_ip4_source.
(** Asked to send from an address that is not the stack's, it sends nothing and says so. *)
Theorem C41_foreign_dropped : forall s src dst ttl p, a_sup4 (s_addrs s) = true -> 0 < ttl < 256 ->
  ~ In src (ip4_unicast (s_addrs s)) -> ~ In src (a_mcast4 (s_addrs s)) -> ~ In src (ip4_broadcasts (s_addrs s)) -> src <> 0 ->
  send_request (QIp4 src dst ttl p) s = (s, Ok Ip4SrcNotOwned).
Proof. exact phtx_ip4_foreign. Qed.
Print Assumptions C41_foreign_dropped.
(** the premises hold of real sends: the frame of an UDP datagram, and the drop *)
Example C41_example : exists s' f w,
  send_request (QUdp (A4 0x0A000002) (A4 0x0A000009) 1000 2000 [1; 2; 3]) ex_stack = (s', Ok PassedToTxRing) /\
  s_out s' = [f] /\ frame_asm (frame_of f) (repeat 255 (Z.to_nat (frame_len (frame_of f)))) = Ok w /\
  slice 12 14 w = [8; 0] /\ slice 26 30 w = [10; 0; 0; 2].
Proof. do 3 eexists. split; [vm_compute; reflexivity|]. repeat split; vm_compute; reflexivity. Qed.
Example C41_example_drop : send_request (QIp4 0x0A0000FE 0x0A000009 64 (PRaw [1])) ex_stack = (ex_stack, Ok Ip4SrcNotOwned).
Proof. vm_compute; reflexivity. Qed.
(** a DHCP discover from a stack with no address leaves from 0.0.0.0 *)
Definition ex_bare : stack :=
  set_addrs {| a_mac := 0x020000000007; a_mac_mcast := []; a_host4 := []; a_mcast4 := [0xE0000001]; a_host6 := []; a_mcast6 := [];
     a_cand4 := []; a_cand6 := None; a_sup4 := true; a_sup6 := true |} ex_stack.
Example C41_example_dhcp : exists s' f w,
  send_request (QUdp (A4 0) (A4 0xFFFFFFFF) 68 67 [1; 2; 3]) ex_bare = (s', Ok PassedToTxRing) /\
  s_out s' = [f] /\ frame_asm (frame_of f) (repeat 255 (Z.to_nat (frame_len (frame_of f)))) = Ok w /\
  slice 26 30 w = [0; 0; 0; 0].
Proof. do 3 eexists. split; [vm_compute; reflexivity|]. repeat split; vm_compute; reflexivity. Qed.

(** C42.  The same for IPv6; :: only in a neighbour solicitation with no option (the
    78-byte frame of duplicate address detection) or in an MLDv2 report. *)
Theorem C42_ip6_source : forall s q s' r, wf_addrs (s_addrs s) -> dst_ok q -> send_request q s = (s', r) ->
  exists new, s_out s' = s_out s ++ new /\
  forall f buf w, In f new -> zlen buf = frame_len (frame_of f) -> frame_asm (frame_of f) buf = Ok w ->
    slice 12 14 w = [0x86; 0xDD] ->
    exists x, slice 22 38 w = be_enc 16 x /\
      (In x (ip6_unicast (s_addrs s)) \/
       (x = 0 /\ slice 20 21 w = [58] /\
        ((slice 54 55 w = [135] /\ zlen w = 78) \/ slice 54 55 w = [143]))).
Proof.
  intros s q s' r W D E. destruct (send_sources s q s' r W D E) as (new & En & _ & F). exists new. split; [exact En|].
  intros f buf w I L A T. rewrite Forall_forall in F. destruct W as (_ & _ & Wr).
  exact (src6_on_wire _ _ _ _ _ Wr (F f I) L A T).
Qed.
Print Assumptions C42_ip6_source.
Theorem C42_foreign_dropped : forall s src dst hop p, a_sup6 (s_addrs s) = true -> 0 < hop < 256 ->
  ~ In src (ip6_unicast (s_addrs s)) -> ~ In src (a_mcast6 (s_addrs s)) -> src <> 0 ->
  send_request (QIp6 src dst hop p) s = (s, Ok Ip6SrcNotOwned).
Proof. exact phtx_ip6_foreign. Qed.
Print Assumptions C42_foreign_dropped.
Example C42_example : exists s' f w,
  send_request (QUdp (A6 0) (A6 (db8 + 2 ^ 80)) 1000 2000 [1; 2; 3]) ex_stack = (s', Ok PassedToTxRing) /\
  s_out s' = [f] /\ f_dst f = 0x02000000000A /\
  frame_asm (frame_of f) (repeat 255 (Z.to_nat (frame_len (frame_of f)))) = Ok w /\
  slice 12 14 w = [0x86; 0xDD] /\ slice 22 38 w = be_enc 16 (db8 + 2).
Proof. do 3 eexists. split; [vm_compute; reflexivity|]. repeat split; vm_compute; reflexivity. Qed.
(** a DAD solicitation from a stack with no address *)
Example C42_example_dad : exists s' f w,
  send_request (QIcmp6 0 (solicited_node (db8 + 2)) 255 (T6Ns (db8 + 2) [])) ex_bare = (s', Ok PassedToTxRing) /\
  s_out s' = [f] /\ frame_asm (frame_of f) (repeat 255 (Z.to_nat (frame_len (frame_of f)))) = Ok w /\
  slice 22 38 w = repeat 0 16 /\ slice 54 55 w = [135] /\ zlen w = 78.
Proof. do 3 eexists. split; [vm_compute; reflexivity|]. repeat split; vm_compute; reflexivity. Qed.

(** C43.  A valid packet from the address of host [h] (network prefix [k]): the next hop
    computed by the plain arithmetic of SpecStack decides.  A known link-layer address gets
    every packet or fragment; an unresolved one gets none: only requests to resolve that
    very address are sent, at least one, and the caller is told.  The exception is that of
    a packet too large to be built and cut (C35, C40). *)
Theorem C43_next_hop4 : forall s h k dst ttl p s' r,
  a_sup4 (s_addrs s) = true -> 0 < ttl < 256 -> host_ok 32 k h -> only_host h (a_host4 (s_addrs s)) ->
  ~ In (h_addr h) (a_mcast4 (s_addrs s)) -> ~ In (h_addr h) (ip4_broadcasts (s_addrs s)) -> h_addr h <> 0 ->
  0 < dst < 2 ^ 32 -> In (payload_proto p) [1; 17; 6; 255] ->
  send_request (QIp4 (h_addr h) dst ttl p) s = (s', r) ->
  (exists e, r = Exn e /\ s_out s' = s_out s /\ 1480 < c_len (payload_carried p)) \/
  exists new, s_out s' = s_out s ++ new /\
    let mac := a_mac (s_addrs s) in
    let by_entry x fail :=
      match cache_get x (s_arp s) with
      | Some e => r = Ok PassedToTxRing /\ new <> [] /\ Forall (frame4 mac (ce_mac e) (h_addr h) dst) new
      | None => r = Ok fail /\ new <> [] /\ Forall (arp_query mac x) new
      end in
    match next_hop4 (h_addr h) k (h_gw h) dst with
    | ToMac m => r = Ok PassedToTxRing /\ new <> [] /\ Forall (frame4 mac m (h_addr h) dst) new
    | ToHost x => by_entry x EtherArpCacheFail
    | ToGateway x => by_entry x EtherGatewayArpCacheFail
    | Unroutable => r = Ok EtherNoGatewayIp4 /\ new = []
    end.
Proof. exact phtx_ip4_hop. Qed.
Print Assumptions C43_next_hop4.
Theorem C43_next_hop6 : forall s h k dst hop p s' r,
  a_sup6 (s_addrs s) = true -> gws_ok (s_addrs s) -> plain6 (s_addrs s) -> 0 < hop < 256 ->
  host_ok 128 k h -> only_host h (a_host6 (s_addrs s)) ->
  0 < dst < 2 ^ 128 -> In (payload_next p) [58; 17; 6; 255] ->
  send_request (QIp6 (h_addr h) dst hop p) s = (s', r) ->
  (exists e, r = Exn e /\ s_out s' = s_out s /\ 1460 < c_len (payload_carried p)) \/
  exists new, s_out s' = s_out s ++ new /\
    let mac := a_mac (s_addrs s) in
    let by_entry x fail :=
      match cache_get x (s_nd s) with
      | Some e => r = Ok PassedToTxRing /\ new <> [] /\ Forall (frame6 mac (ce_mac e) (h_addr h) dst) new
      | None => r = Ok fail /\ new <> [] /\ Forall (ns_query (s_addrs s) x) new
      end in
    match next_hop6 (h_addr h) k (h_gw h) dst with
    | ToMac m => r = Ok PassedToTxRing /\ new <> [] /\ Forall (frame6 mac m (h_addr h) dst) new
    | ToHost x => by_entry x EtherNdCacheFail
    | ToGateway x => by_entry x EtherGatewayNdCacheFail
    | Unroutable => r = Ok EtherNoGatewayIp6 /\ new = []
    end.
Proof. exact phtx_ip6_hop. Qed.
Print Assumptions C43_next_hop6.
(** on-link and cached; on-link and unknown; via an unknown gateway; multicast; broadcast *)
Example C43_example4 :
  map (fun d => match send_request (QIp4 0x0A000002 d 64 (PRaw [1])) ex_stack with
     | (s', r) => (r, map (fun f => (f_dst f, match f_pkt f with NArp p => Some (a_tpa p) | _ => None end)) (s_out s')) end)
   [0x0A000009; 0x0A000008; 0x08080808; 0xE0810203; 0x0A0000FF] =
  [(Ok PassedToTxRing, [(0x020000000009, None)]);
   (Ok EtherArpCacheFail, [(0xFFFFFFFFFFFF, Some 0x0A000008)]);
   (Ok EtherGatewayArpCacheFail, [(0xFFFFFFFFFFFF, Some 0x0A000001)]);
   (Ok PassedToTxRing, [(0x01005E010203, None)]);
   (Ok PassedToTxRing, [(0xFFFFFFFFFFFF, None)])].
Proof. vm_compute; reflexivity. Qed.
Example C43_example6 :
  map (fun d => match send_request (QIp6 (db8 + 2) d 64 (PRaw [1])) ex_stack with
     | (s', r) => (r, map (fun f => (f_dst f, match f_pkt f with NIp6 _ (PIcmp6 (T6Ns t _)) => Some t | _ => None end)) (s_out s')) end)
   [db8 + 9; db8 + 2 ^ 80; 0xFF02 * 2 ^ 112 + 0x10002] =
  [(Ok EtherNdCacheFail, [(0x3333FF000009, Some (db8 + 9))]);
   (Ok PassedToTxRing, [(0x02000000000A, None)]);
   (Ok PassedToTxRing, [(0x333300010002, None)])].
Proof. vm_compute; reflexivity. Qed.

(** C44.  A send (an atomic step of the handler) that reports success queued exactly the
    packet asked for, or all its fragments, to one link-layer address; one that reports a
    drop queued nothing but requests to resolve a link-layer address; one that raises
    queued nothing. *)
Theorem C44_status_partial : forall s q s' r, wf_addrs (s_addrs s) -> dst_ok q -> send_request q s = (s', r) ->
  exists new, s_out s' = s_out s ++ new /\
  match r with
  | Ok PassedToTxRing => exists m src l, new = map (fun p => {| f_dst := m; f_src := src; f_pkt := p |}) l /\ l <> [] /\ packets_of s q l
  | Ok _ => Forall resolution_frame new
  | Exn _ => new = []
  end.
Proof. exact send_status. Qed.
Print Assumptions C44_status_partial.
(** three fragments, each queued *)
Example C44_example : match send_request (QIp4 0x0A000002 0x0A000009 64 (PRaw (repeat 5 3000))) ex_stack with
  | (s', r) => r = Ok PassedToTxRing /\ map (fun f => (f_dst f, match f_pkt f with NIp4Frag t d => (t4_offset t, t4_mf t, zlen d) | _ => (0, false, 0) end)) (s_out s') =
     [(0x020000000009, (0, true, 1480)); (0x020000000009, (1480, true, 1480)); (0x020000000009, (2960, false, 40))]
  end.
Proof. vm_compute. split; reflexivity. Qed.

(** The full statement allows the receive thread to run between two fragments (send and
    receive are different threads and nothing is locked); [env] is what it does there.
    ip4/phtx.py:294-317 as send_frags4, with [env] after each fragment. *)
Fixpoint send_frags4_env (env : stack -> stack) (src dst : Z) (l : list (ip4_tx * bytes)) : M (list tx_status) :=
  match l with
  | [] => ret []
  | (t, d) :: r => x <~ ether_ip4 src dst (NIp4Frag t d) ;; _ <~ upd env ;; xs <~ send_frags4_env env src dst r ;; ret (x :: xs)
  end.
(** the environment only adds cache entries *)
Definition C44_statement : Prop :=
  forall s src dst ttl p fs id ip mac s' l new, ip4_fragment TAP_MTU src dst ttl (payload_proto p) (s_id4 s) (payload_carried p) = Ok (fs, id) ->
  send_frags4_env (fun s => fst (arp_add ip mac s)) src dst fs s = (s', Ok l) ->
  worst severity4 Ip4Unknown l <> PassedToTxRing ->
  s_out s' = s_out s ++ new -> Forall (fun f => match f_pkt f with NIp4Frag _ _ => False | _ => True end) new.
(** A reply that arrives after the first fragment was refused: the second fragment leaves,
    the caller is told that nothing did. *)
Theorem C44_interleaved_refuted : ~ C44_statement.
Proof.
  intros H.
  destruct (ip4_fragment TAP_MTU 0x0A000002 0x0A000008 64 255 0 (raw_carried (repeat 5 1500))) as [[fs id]|] eqn:E; [|vm_compute in E; discriminate].
  destruct (send_frags4_env (fun s => fst (arp_add 0x0A000008 0x020000000008 s)) 0x0A000002 0x0A000008 fs ex_stack) as [s' [l|]] eqn:E'.
  2:{ vm_compute in E. injection E as <- <-. vm_compute in E'. discriminate. }
  assert (F : Forall (fun f => match f_pkt f with NIp4Frag _ _ => False | _ => True end) (s_out s')).
  { apply (H ex_stack 0x0A000002 0x0A000008 64 (PRaw (repeat 5 1500)) fs id 0x0A000008 0x020000000008 s' l (s_out s') E E'); [|reflexivity].
    vm_compute in E. injection E as <- <-. vm_compute in E'. injection E' as <- <-. vm_compute. discriminate. }
  vm_compute in E. injection E as <- <-. vm_compute in E'. injection E' as <- <-. cbn [s_out] in F.
  inversion F as [|? ? _ F1]; subst. inversion F1 as [|? ? F2 _]; subst. exact F2.
Qed.
Print Assumptions C44_interleaved_refuted.
