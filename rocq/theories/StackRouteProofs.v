(** Where a packet is sent, and what its sender is told. *)
From Verif Require Import Base BaseLemmas CodecModel CodecLemmas AddrModel SpecAddr AddrProofs EtherModel
  Ip4Model Ip6Model UdpModel TcpModel Icmp4Model Icmp6Model Icmp6Proofs FragModel FragProofs FragRunProofs FragSendProofs BufProofs
  RingModel RingProofs StackModel SpecStack StackTxProofs StackWireProofs StackSendProofs.

(** ** IPv4 *)

(** a frame with an IPv4 packet from [src] to [dst], sent by [mac] to [m] *)
Definition frame4 (mac m src dst : Z) (f : oframe) : Prop :=
  f_dst f = m /\ f_src f = mac /\
  match f_pkt f with NIp4 t _ | NIp4Frag t _ => t4_src t = src /\ t4_dst t = dst | _ => False end.
(** a broadcast ARP request for [x] *)
Definition arp_query (mac x : Z) (f : oframe) : Prop :=
  f_dst f = 2 ^ 48 - 1 /\ f_src f = mac /\
  match f_pkt f with NArp p => a_oper p = 1 /\ a_sha p = mac /\ a_tpa p = x | _ => False end.

Lemma packets4_frames src dst ttl id0 p l mac m : packets4 src dst ttl id0 p l ->
  Forall (fun q => frame4 mac m src dst {| f_dst := m; f_src := mac; f_pkt := q |}) l.
Proof.
  intros [(_ & ->)|(_ & fs & E & ->)].
  - constructor; [|constructor]. repeat split.
  - apply Forall_map, Forall_forall. intros x Ix.
    destruct (frag4_src 1500 _ _ _ _ _ _ _ _ ltac:(lia) E x Ix) as (E1 & E2). repeat split; auto.
Qed.

Lemma frags_ne4 p ps data (fs : list (ip4_tx * bytes)) : c_asm (payload_carried p) (repeat 0 (Z.to_nat (c_len (payload_carried p)))) ps = Ok data ->
  concat (map snd fs) = data -> 1480 < c_len (payload_carried p) -> fs <> [].
Proof.
  intros Ed C1 Hl ->. cbn in C1. destruct (payload_indep p) as (L0 & _ & Ln).
  specialize (Ln (repeat 0 (Z.to_nat (c_len (payload_carried p)))) ps data).
  rewrite Ed in Ln. rewrite <- C1 in Ln. cbn in Ln.
  assert (X : zlen (repeat 0 (Z.to_nat (c_len (payload_carried p)))) = c_len (payload_carried p)).
  { unfold zlen. rewrite repeat_length. lia. }
  specialize (Ln X eq_refl). change (zlen []) with 0 in Ln. lia.
Qed.

Lemma phtx_ip4_live s h k dst ttl p s' r :
  a_sup4 (s_addrs s) = true -> 0 < ttl < 256 -> host_ok 32 k h -> only_host h (a_host4 (s_addrs s)) ->
  ~ In (h_addr h) (a_mcast4 (s_addrs s)) -> ~ In (h_addr h) (ip4_broadcasts (s_addrs s)) -> h_addr h <> 0 ->
  0 < dst < 2 ^ 32 -> In (payload_proto p) [1; 17; 6; 255] ->
  phtx_ip4 (h_addr h) dst ttl p s = (s', r) ->
  let v := verdict4 (s_addrs s) (s_arp s) (next_hop4 (h_addr h) k (h_gw h) dst) in
  (exists e, r = Exn e /\ s_out s' = s_out s /\ 1480 < c_len (payload_carried p) /\
     exists src, ip4_fragment TAP_MTU src dst ttl (payload_proto p) (s_id4 s) (payload_carried p) = Exn e) \/
  exists l, packets4 (h_addr h) dst ttl (s_id4 s) p l /\ l <> [] /\ r = Ok (status_of v) /\
    s_out s' = s_out s ++ frames_for (s_addrs s) v l.
Proof.
  intros Hs Ht Hh Ho Nm Nb N0 Hd Hp E v. unfold phtx_ip4, massert in E.
  replace ((0 <? ttl) && (ttl <? 256)) with true in E by lia.
  unfold mbind at 1, gets at 1 in E. rewrite Hs in E. cbn [negb] in E.
  assert (V : validate_src4 (s_addrs s) (h_addr h) dst p = inl (h_addr h)).
  { unfold validate_src4. replace (mem (h_addr h) (ip4_unicast (s_addrs s))) with true.
    2:{ symmetry. apply mem_In. apply in_map, Ho. }
    cbn [orb negb]. rewrite (mem_not _ _ Nm), (mem_not _ _ Nb). unfold ip4_is_limited_broadcast, ip4_is_unspecified.
    destruct (Z.eqb_spec (h_addr h) 0xFFFFFFFF) as [Eb|_].
    { exfalso. apply Nb. unfold ip4_broadcasts. apply in_app_iff. right. left. exact (eq_sym Eb). }
    replace (h_addr h =? 0) with false by lia. reflexivity. }
  rewrite V in E. unfold ip4_is_unspecified in E. replace (dst =? 0) with false in E by lia.
  assert (K : ip4_tx_ok (ip4_whole_tx (h_addr h) dst ttl (payload_proto p)) = true).
  { unfold ip4_tx_ok, ip4_whole_tx. cbn [t4_ttl t4_dscp t4_ecn t4_id t4_proto].
    replace ((0 <=? ttl) && (ttl <=? 0xFF)) with true by lia.
    destruct Hp as [<-|[<-|[<-|[<-|[]]]]]; reflexivity. }
  cbv zeta in E. rewrite K in E.
  assert (R : forall s0 q, s_addrs s0 = s_addrs s -> ether_ip4 (h_addr h) dst q s0 = route4 s0 (next_hop4 (h_addr h) k (h_gw h) dst) q).
  { intros s0 q Ea. apply ether_ip4_route; try rewrite Ea; auto; lia. }
  change (ip4_len _ _) with (20 + 0 + c_len (payload_carried p)) in E. unfold TAP_MTU in E at 1.
  destruct (20 + 0 + c_len (payload_carried p) <=? 1500) eqn:Hl.
  - right. exists [NIp4 (ip4_whole_tx (h_addr h) dst ttl (payload_proto p)) p].
    rewrite R in E by reflexivity. destruct (route4_spec _ _ _ _ _ E) as (-> & S1 & N1).
    split; [left; split; [lia|reflexivity]|]. split; [discriminate|]. split; [reflexivity|]. apply S1.
  - unfold mbind at 1, gets at 1 in E.
    destruct (ip4_fragment TAP_MTU (h_addr h) dst ttl (payload_proto p) (s_id4 s) (payload_carried p)) as [[fs id]|e] eqn:Ef.
    + right. unfold mbind at 1, upd at 1 in E.
      destruct (ip4_fragment_ok 1500 _ _ _ _ _ _ _ _ ltac:(lia) Ef) as (ps & data & Ep & Ed & -> & (C1 & _) & _).
      pose proof (frags_ne4 _ _ _ _ Ed C1 ltac:(lia)) as Hne.
      unfold mbind at 1 in E.
      destruct (send_frags4 (h_addr h) dst fs (set_id4 (s_id4 s + 1) s)) as [s2 r2] eqn:E2.
      destruct (send_frags4_spec (s_addrs s) (h_addr h) dst _ R fs (set_id4 (s_id4 s + 1) s) _ _ eq_refl E2) as (-> & S2 & N2).
      injection E as <- <-.
      exists (map (fun x => NIp4Frag (fst x) (snd x)) fs). split; [right; split; [lia|]; exists fs; auto|].
      split; [destruct fs; [congruence|discriminate]|]. split; [|apply S2].
      f_equal. apply worst_repeat; [apply verdict4_severity|auto using tx_status_eqb_eq|destruct fs; [congruence|cbn; lia]].
    + left. exists e. split; [destruct e; injection E as <- <-; reflexivity|].
      split; [destruct e; injection E as <- <-; reflexivity|]. split; [lia|]. eauto.
Qed.

Lemma phtx_ip4_hop s h k dst ttl p s' r :
  a_sup4 (s_addrs s) = true -> 0 < ttl < 256 -> host_ok 32 k h -> only_host h (a_host4 (s_addrs s)) ->
  ~ In (h_addr h) (a_mcast4 (s_addrs s)) -> ~ In (h_addr h) (ip4_broadcasts (s_addrs s)) -> h_addr h <> 0 ->
  0 < dst < 2 ^ 32 -> In (payload_proto p) [1; 17; 6; 255] ->
  phtx_ip4 (h_addr h) dst ttl p s = (s', r) ->
  (exists e, r = Exn e /\ s_out s' = s_out s /\ 1480 < c_len (payload_carried p)) \/
  exists new, s_out s' = s_out s ++ new /\
    let mac := a_mac (s_addrs s) in
    let by_entry x fail :=
      match cache_get x (s_arp s) with
      | Some e => r = Ok PassedToTxRing /\ new <> [] /\ Forall (frame4 mac (ce_mac e) (h_addr h) dst) new
      | None => r = Ok fail /\ new <> [] /\ Forall (arp_query mac x) new
      end in
    match next_hop4 (h_addr h) k (h_gw h) dst with
    | ToMac m => r = Ok PassedToTxRing /\ new <> [] /\ Forall (frame4 mac m (h_addr h) dst) new
    | ToHost x => by_entry x EtherArpCacheFail
    | ToGateway x => by_entry x EtherGatewayArpCacheFail
    | Unroutable => r = Ok EtherNoGatewayIp4 /\ new = []
    end.
Proof.
  intros Hs Ht Hh Ho Nm Nb N0 Hd Hp E.
  destruct (phtx_ip4_live _ _ _ _ _ _ _ _ Hs Ht Hh Ho Nm Nb N0 Hd Hp E) as [(e & A & B & C & _)|(l & P & Nl & Er & Eo)].
  { left. exists e. auto. }
  right. eexists. split; [exact Eo|]. cbv zeta.
  assert (F : forall m, map (frame_to (s_addrs s) m) l <> [] /\
            Forall (frame4 (a_mac (s_addrs s)) m (h_addr h) dst) (map (frame_to (s_addrs s) m) l)).
  { intros m. split; [destruct l; [congruence|discriminate]|]. apply Forall_map. exact (packets4_frames _ _ _ _ _ _ _ _ P). }
  assert (G : forall x, concat (map (fun _ : netpkt => [arp_request (s_addrs s) x]) l) <> [] /\
            Forall (arp_query (a_mac (s_addrs s)) x) (concat (map (fun _ => [arp_request (s_addrs s) x]) l))).
  { intros x. split; [destruct l; [congruence|discriminate]|]. clear. induction l; cbn; constructor; auto. repeat split. }
  destruct (next_hop4 (h_addr h) k (h_gw h) dst) as [m|x|x|]; cbn [verdict4] in Er |- *; unfold resolve in Er |- *;
    try destruct (cache_get _ _) as [en|]; cbn [status_of frames_for] in Er |- *; try (split; [exact Er|]); auto.
  clear. induction l; [reflexivity|exact IHl].
Qed.

(** ** IPv6 *)

Definition frame6 (mac m src dst : Z) (f : oframe) : Prop :=
  f_dst f = m /\ f_src f = mac /\
  match f_pkt f with NIp6 t _ => t6_src t = src /\ t6_dst t = dst | _ => False end.
(** a neighbour solicitation for [x], with our link-layer address, to the
    solicited-node multicast address of [x] and its link-layer address *)
Definition ns_query (a : addrs) (x : Z) (f : oframe) : Prop :=
  f_dst f = 0x3333FF000000 + x mod 2 ^ 24 /\ f_src f = a_mac a /\
  match f_pkt f with
  | NIp6 t (PIcmp6 m) => In (t6_src t) (ip6_unicast a) /\ t6_dst t = solicited_node x /\ t6_hop t = 255 /\ m = T6Ns x [TSlla (a_mac a)]
  | _ => False
  end.

Lemma packets6_frames src dst hop id0 p l mac m : packets6 src dst hop id0 p l ->
  Forall (fun q => frame6 mac m src dst {| f_dst := m; f_src := mac; f_pkt := q |}) l.
Proof.
  intros [(_ & ->)|(_ & fs & E & ->)].
  - constructor; [|constructor]. repeat split.
  - apply Forall_map, Forall_forall. intros x Ix. repeat split; auto.
Qed.
Lemma solicited_low x : solicited_node x mod 2 ^ 32 = 0xFF000000 + x mod 2 ^ 24.
Proof.
  unfold solicited_node. pose proof (Z.mod_pos_bound x (2 ^ 24) ltac:(lia)).
  symmetry. apply (Z.mod_unique_pos _ _ (0xFF02 * 2 ^ 80 + 1)); lia.
Qed.
Lemma ns_source_acc x l : forall acc,
  (exists h, In h l /\ net_contains 128 (h_net h) x = true /\ fold_left (fun acc h => if net_contains 128 (h_net h) x then h_addr h else acc) l acc = h_addr h) \/
  ((forall h, In h l -> net_contains 128 (h_net h) x = false) /\
   fold_left (fun acc h => if net_contains 128 (h_net h) x then h_addr h else acc) l acc = acc).
Proof.
  induction l as [|h l IH]; intros acc; cbn [fold_left].
  - right. split; [intros ? []|reflexivity].
  - destruct (IH (if net_contains 128 (h_net h) x then h_addr h else acc)) as [(g & Ig & Cg & ->)|(N & ->)].
    + left. exists g. repeat split; auto. right; auto.
    + destruct (net_contains 128 (h_net h) x) eqn:C.
      * left. exists h. repeat split; auto. left; reflexivity.
      * right. split; [|reflexivity]. intros g [<-|Ig]; auto.
Qed.
Lemma ns_frames_query a x : plain6 a ->
  (exists h, In h (a_host6 a) /\ (net_contains 128 (h_net h) x = true \/ h_gw h <> None)) ->
  ns_frames a x <> [] /\ Forall (ns_query a x) (ns_frames a x).
Proof.
  intros Pl (h & Ih & Hh). unfold ns_frames.
  assert (V : exists src, validate_src6 a (ns_source (a_host6 a) x) (solicited_node x) (PIcmp6 (T6Ns x [TSlla (a_mac a)])) = inl src /\
            In src (ip6_unicast a)).
  { unfold ns_source. destruct (ns_source_acc x (a_host6 a) 0) as [(g & Ig & Cg & ->)|(N & ->)].
    - exists (h_addr g). assert (Iu : In (h_addr g) (ip6_unicast a)) by (apply in_map, Ig).
      split; [apply validate_src6_again; auto|exact Iu].
    - destruct Hh as [Hh|Hh]; [rewrite N in Hh by auto; discriminate|].
      destruct (validate_src6 a 0 _ _) as [src|st] eqn:E.
      + exists src. split; [reflexivity|]. destruct (validate_src6_inl _ _ _ _ _ E) as [X|(_ & _ & [] & _)]. exact X.
      + exfalso. unfold validate_src6 in E. rewrite Z.eqb_refl, !orb_true_r in E. cbn [negb] in E.
        destruct (mem 0 (a_mcast6 a)).
        * unfold ip6_unicast in E. destruct (a_host6 a); [destruct Ih|discriminate].
        * cbn [ip6_is_unspecified Z.eqb negb] in E. destruct (pick_by_net 128 (a_host6 a) _); [discriminate|].
          destruct (pick_by_gw (a_host6 a)) eqn:G; [discriminate|]. clear - Ih Hh G.
          induction (a_host6 a) as [|g l IH]; [destruct Ih|]. cbn [pick_by_gw] in G.
          destruct (h_gw g) eqn:Eg; [discriminate|]. destruct Ih as [->|Ih]; [congruence|auto]. }
  destruct V as (src & -> & Is). split; [discriminate|]. constructor; [|constructor].
  unfold ns_query, frame_to, ns_packet. cbn [f_dst f_src f_pkt ip6_plain_tx t6_src t6_dst t6_hop].
  rewrite solicited_low. repeat split; auto. lia.
Qed.

Lemma phtx_ip6_live s h k dst hop p s' r :
  a_sup6 (s_addrs s) = true -> gws_ok (s_addrs s) -> plain6 (s_addrs s) -> 0 < hop < 256 ->
  host_ok 128 k h -> only_host h (a_host6 (s_addrs s)) ->
  0 < dst < 2 ^ 128 -> In (payload_next p) [58; 17; 6; 255] ->
  phtx_ip6 (h_addr h) dst hop p s = (s', r) ->
  let v := verdict6 (s_addrs s) (s_nd s) (next_hop6 (h_addr h) k (h_gw h) dst) in
  (exists e, r = Exn e /\ s_out s' = s_out s /\ 1460 < c_len (payload_carried p)) \/
  exists l, packets6 (h_addr h) dst hop (s_id6 s) p l /\ l <> [] /\ r = Ok (status_of v) /\
    s_out s' = s_out s ++ frames_for (s_addrs s) v l.
Proof.
  intros Hs Hg Pl Ht Hh Ho Hd Hp E v.
  assert (V : validate_src6 (s_addrs s) (h_addr h) dst p = inl (h_addr h)).
  { apply validate_src6_again; [exact Pl|]. apply in_map, Ho. }
  unfold phtx_ip6 in E.
  destruct (Z_le_gt_dec (c_len (payload_carried p)) 1460) as [Hl|Hl].
  { right. destruct (phtx_ip6_small 1 s _ dst hop p _ _ ltac:(lia) Hg Hl E)
      as [(st & V' & _)|[(_ & Nn)|(src' & _ & _ & _ & V' & Er & S1 & _)]].
    - congruence.
    - exfalso. apply Nn. repeat split; auto; try lia. clear - Hp. cbn in *. tauto.
    - rewrite V in V'. injection V' as <-. rewrite (hop6_next _ _ k) in Er, S1 by (auto; lia).
      eexists. split; [left; split; [exact Hl|reflexivity]|]. split; [discriminate|]. split; [exact Er|]. apply S1. }
  rewrite phtx_ip6_step in E. unfold massert at 1 in E.
  replace ((0 <? hop) && (hop <? 256)) with true in E by lia.
  unfold mbind at 1, gets at 1 in E. rewrite Hs in E. cbn [negb] in E. rewrite V in E.
  unfold ip6_is_unspecified in E. replace (dst =? 0) with false in E by lia. cbv zeta in E. unfold massert in E at 1.
  replace (ip6_tx_ok (ip6_plain_tx (h_addr h) dst hop (payload_next p))) with true in E.
  2:{ symmetry. unfold ip6_tx_ok. cbn [t6_hop t6_dscp t6_ecn t6_flow t6_next ip6_plain_tx].
      replace ((0 <=? hop) && (hop <=? 0xFF)) with true by lia.
      destruct Hp as [<-|[<-|[<-|[<-|[]]]]]; reflexivity. }
  unfold TAP_MTU in E at 1. replace (40 + c_len (payload_carried p) <=? 1500) with false in E by lia.
  unfold mbind at 1, gets at 1 in E. unfold mbind at 1, lift at 1 in E.
  destruct (ip6_fragment TAP_MTU (h_addr h) dst (payload_next p) (s_id6 s) (payload_carried p)) as [[fs id]|e] eqn:Ef.
  2:{ left. injection E as <- <-. exists e. repeat split; auto. lia. }
  right. unfold mbind at 1, upd at 1 in E. cbn [fst snd] in E.
  unfold massert in E. replace (frag6_next_ok (payload_next p)) with true in E.
  2:{ symmetry. destruct Hp as [<-|[<-|[<-|[<-|[]]]]]; reflexivity. }
  destruct (ip6_fragment_ok 1500 _ _ _ _ _ _ _ ltac:(lia) Ef) as (ps & data & Ep & Ed & -> & (C1 & C2 & C3) & _).
  assert (Fl : Forall (fun x : Z * bool * bytes => zlen (snd x) <= 1448) fs).
  { apply Forall_forall. intros x Ix. rewrite Forall_forall in C2.
    specialize (C2 (snd x) (in_map snd _ _ Ix)). cbv beta in C2. change ((1500 - 48) / 8 * 8) with 1448 in C2. lia. }
  assert (Hne : fs <> []).
  { intros ->. cbn in C1. destruct (payload_indep p) as (L0 & _ & Ln).
    specialize (Ln (repeat 0 (Z.to_nat (c_len (payload_carried p)))) ps data).
    rewrite Ed in Ln. rewrite <- C1 in Ln. cbn in Ln.
    assert (X : zlen (repeat 0 (Z.to_nat (c_len (payload_carried p)))) = c_len (payload_carried p)).
    { unfold zlen. rewrite repeat_length. lia. }
    specialize (Ln X eq_refl). change (zlen []) with 0 in Ln. lia. }
  unfold mbind in E.
  destruct (send_frags6 (phtx_ip6_fuel 2 (h_addr h) dst 64) (payload_next p) (s_id6 s + 1) fs (set_id6 (s_id6 s + 1) s)) as [s2 r2] eqn:E2.
  destruct (send_frags6_spec 0 (s_addrs s) (h_addr h) dst (payload_next p) (s_id6 s + 1) ltac:(lia) Hg Pl Hs ltac:(lia)
      ltac:(apply in_map, Ho) fs (set_id6 (s_id6 s + 1) s) _ _ eq_refl Fl E2) as (-> & S2 & N2).
  injection E as <- <-. rewrite (hop6_next _ _ k) in S2 |- * by (auto; lia).
  eexists. split; [right; split; [lia|]; exists fs; split; [exact Ef|reflexivity]|].
  split; [destruct fs; [congruence|discriminate]|]. split; [|apply S2].
  f_equal. apply worst_repeat; [apply verdict6_severity|auto using tx_status_eqb_eq|destruct fs; [congruence|cbn; lia]].
Qed.

Lemma phtx_ip6_hop s h k dst hop p s' r :
  a_sup6 (s_addrs s) = true -> gws_ok (s_addrs s) -> plain6 (s_addrs s) -> 0 < hop < 256 ->
  host_ok 128 k h -> only_host h (a_host6 (s_addrs s)) ->
  0 < dst < 2 ^ 128 -> In (payload_next p) [58; 17; 6; 255] ->
  phtx_ip6 (h_addr h) dst hop p s = (s', r) ->
  (exists e, r = Exn e /\ s_out s' = s_out s /\ 1460 < c_len (payload_carried p)) \/
  exists new, s_out s' = s_out s ++ new /\
    let mac := a_mac (s_addrs s) in
    let by_entry x fail :=
      match cache_get x (s_nd s) with
      | Some e => r = Ok PassedToTxRing /\ new <> [] /\ Forall (frame6 mac (ce_mac e) (h_addr h) dst) new
      | None => r = Ok fail /\ new <> [] /\ Forall (ns_query (s_addrs s) x) new
      end in
    match next_hop6 (h_addr h) k (h_gw h) dst with
    | ToMac m => r = Ok PassedToTxRing /\ new <> [] /\ Forall (frame6 mac m (h_addr h) dst) new
    | ToHost x => by_entry x EtherNdCacheFail
    | ToGateway x => by_entry x EtherGatewayNdCacheFail
    | Unroutable => r = Ok EtherNoGatewayIp6 /\ new = []
    end.
Proof.
  intros Hs Hg Pl Ht Hh Ho Hd Hp E.
  destruct (phtx_ip6_live _ _ _ _ _ _ _ _ Hs Hg Pl Ht Hh Ho Hd Hp E) as [(e & A & B & C)|(l & P & Nl & Er & Eo)].
  { left. exists e. auto. }
  right. eexists. split; [exact Eo|]. cbv zeta.
  assert (F : forall m, map (frame_to (s_addrs s) m) l <> [] /\
            Forall (frame6 (a_mac (s_addrs s)) m (h_addr h) dst) (map (frame_to (s_addrs s) m) l)).
  { intros m. split; [destruct l; [congruence|discriminate]|]. apply Forall_map. exact (packets6_frames _ _ _ _ _ _ _ _ P). }
  assert (G : forall x, (exists h, In h (a_host6 (s_addrs s)) /\ (net_contains 128 (h_net h) x = true \/ h_gw h <> None)) ->
            concat (map (fun _ : netpkt => ns_frames (s_addrs s) x) l) <> [] /\
            Forall (ns_query (s_addrs s) x) (concat (map (fun _ => ns_frames (s_addrs s) x) l))).
  { intros x Hx. destruct (ns_frames_query _ _ Pl Hx) as (Q1 & Q2). split.
    - destruct l; [congruence|]. cbn. destruct (ns_frames (s_addrs s) x); [congruence|discriminate].
    - clear - Q2. induction l; cbn; [constructor|]. apply Forall_app; auto. }
  assert (Gh : forall x, next_hop6 (h_addr h) k (h_gw h) dst = ToHost x \/ next_hop6 (h_addr h) k (h_gw h) dst = ToGateway x ->
     exists h, In h (a_host6 (s_addrs s)) /\ (net_contains 128 (h_net h) x = true \/ h_gw h <> None)).
  { intros x Hx. exists h. split; [apply Ho|]. unfold next_hop6 in Hx. destruct (_ <=? dst); [destruct Hx; discriminate|].
    destruct (on_link 128 k (h_addr h) dst) eqn:Ol.
    - left. destruct Hx as [Hx|Hx]; [|discriminate]. injection Hx as <-. rewrite (host_ok_in 128 k) by auto. exact Ol.
    - right. destruct (h_gw h); [discriminate|]. destruct Hx; discriminate. }
  destruct (next_hop6 (h_addr h) k (h_gw h) dst) as [m|x|x|]; cbn [verdict6] in Er |- *; unfold resolve in Er |- *;
    try destruct (cache_get _ _) as [en|]; cbn [status_of frames_for] in Er |- *; try (split; [exact Er|]); auto.
  clear. induction l; [reflexivity|exact IHl].
Qed.

(** ** the status tells what happened *)

(** an ARP request or a neighbour solicitation with our link-layer address *)
Definition resolution_frame (f : oframe) : Prop :=
  match f_pkt f with
  | NArp p => a_oper p = 1
  | NIp6 _ (PIcmp6 (T6Ns _ [TSlla _])) => True
  | _ => False
  end.
(** the packets a request stands for: the one packet, or all its fragments *)
Definition packets_of (s : stack) (q : request) (l : list netpkt) : Prop :=
  (exists src dst ttl p, asks4 q src dst ttl p /\ exists src', packets4 src' dst ttl (s_id4 s) p l) \/
  (exists src dst hop p, asks6 q src dst hop p /\ exists src', packets6 src' dst hop (s_id6 s) p l) \/
  (exists esrc edst p, q = QArp esrc edst p /\ l = [NArp p]).

Lemma ns_frames_res a x : Forall resolution_frame (ns_frames a x).
Proof. unfold ns_frames. destruct (validate_src6 _ _ _ _); constructor; [exact I|constructor]. Qed.
Lemma concat_res fs (l : list netpkt) : Forall resolution_frame fs -> Forall resolution_frame (concat (map (fun _ => fs) l)).
Proof. intros F. induction l; cbn; [constructor|]. apply Forall_app; auto. Qed.
Lemma arp_res a x : Forall resolution_frame [arp_request a x]. Proof. constructor; [reflexivity|constructor]. Qed.

Lemma send_status s q s' r : wf_addrs (s_addrs s) -> dst_ok q -> send_request q s = (s', r) ->
  exists new, s_out s' = s_out s ++ new /\
  match r with
  | Ok PassedToTxRing => exists m src l, new = map (fun p => {| f_dst := m; f_src := src; f_pkt := p |}) l /\ l <> [] /\ packets_of s q l
  | Ok _ => Forall resolution_frame new
  | Exn _ => new = []
  end.
Proof.
  intros (Wg & Wp & Wr) Hd E.
  assert (D : forall st (X : Prop) new, st <> PassedToTxRing -> Forall resolution_frame new ->
     match st with PassedToTxRing => X | _ => Forall resolution_frame new end).
  { intros st X new H F. destruct st; try exact F. congruence. }
  assert (N0 : forall st, st <> PassedToTxRing \/ False -> st <> PassedToTxRing) by tauto.
  assert (Nn : forall err, nothing err s s' r -> exists new, s_out s' = s_out s ++ new /\
    match r with
    | Ok PassedToTxRing => exists m src l, new = map (fun p => {| f_dst := m; f_src := src; f_pkt := p |}) l /\ l <> [] /\ packets_of s q l
    | Ok _ => Forall resolution_frame new
    | Exn _ => new = []
    end).
  { intros err (S0 & _ & _ & X). exists []. split; [apply S0|]. destruct r as [st|]; [|reflexivity].
    apply D; [exact X|constructor]. }
  destruct (send_request_cases _ _ _ _ E)
    as [(-> & X)|[(src & dst & ttl & p & A & E1)|[(src & dst & hop & p & A & E1)|(esrc & edst & p & -> & E1)]]].
  - exists []. split; [rewrite app_nil_r; reflexivity|]. destruct r as [st|]; [|reflexivity]. apply D; [exact X|constructor].
  - destruct (phtx_ip4_cases _ _ _ _ _ _ _ (asks4_dst _ _ _ _ _ A Hd) E1)
      as [S0|(src' & h & l & _ & _ & _ & V & _ & P & Nl & -> & S1 & _)]; [exact (Nn _ S0)|].
    eexists. split; [apply S1|].
    destruct (verdict4 (s_addrs s) (s_arp s) h) as [m|[st fs]] eqn:Ev; cbn [status_of frames_for].
    + exists m, (a_mac (s_addrs s)), l. split; [reflexivity|]. split; [exact Nl|]. left. exists src, dst, ttl, p. eauto.
    + assert (K : st <> PassedToTxRing /\ Forall resolution_frame fs).
      { destruct h; cbn [verdict4] in Ev; unfold resolve in Ev; try destruct (cache_get _ _); try discriminate;
          injection Ev as <- <-; (split; [discriminate|]); try apply arp_res; constructor. }
      apply D; [apply K|]. apply concat_res, K.
  - destruct (phtx_ip6_cases _ _ _ _ _ _ _ (asks6_dst _ _ _ _ _ A Hd) Wg Wp E1)
      as [S0|(src' & l & _ & _ & _ & V & P & Nl & _ & -> & S1 & _)]; [exact (Nn _ S0)|].
    eexists. split; [apply S1|].
    destruct (verdict6 (s_addrs s) (s_nd s) (hop6 (s_addrs s) src' dst)) as [m|[st fs]] eqn:Ev; cbn [status_of frames_for].
    + exists m, (a_mac (s_addrs s)), l. split; [reflexivity|]. split; [exact Nl|]. right; left. exists src, dst, hop, p. eauto.
    + assert (K : st <> PassedToTxRing /\ Forall resolution_frame fs).
      { destruct (hop6 (s_addrs s) src' dst); cbn [verdict6] in Ev; unfold resolve in Ev; try destruct (cache_get _ _); try discriminate;
          injection Ev as <- <-; (split; [discriminate|]); try apply ns_frames_res; constructor. }
      apply D; [apply K|]. apply concat_res, K.
  - unfold phtx_arp, mbind at 1, gets at 1 in E1. destruct (negb (a_sup4 (s_addrs s))).
    { injection E1 as <- <-. exists []. split; [rewrite app_nil_r; reflexivity|constructor]. }
    unfold massert in E1. destruct (_ || _).
    2:{ injection E1 as <- <-. exists []. split; [rewrite app_nil_r; reflexivity|reflexivity]. }
    destruct (negb (mac_is_unspecified edst)).
    2:{ injection E1 as <- <-. exists []. split; [rewrite app_nil_r; reflexivity|constructor]. }
    cbn in E1. injection E1 as <- <-. eexists. split; [reflexivity|].
    do 2 eexists. exists [NArp p]. split; [reflexivity|]. split; [discriminate|]. right; right. eauto.
Qed.

(** a source that is none of the stack's *)
Lemma phtx_ip4_foreign s src dst ttl p : a_sup4 (s_addrs s) = true -> 0 < ttl < 256 ->
  ~ In src (ip4_unicast (s_addrs s)) -> ~ In src (a_mcast4 (s_addrs s)) -> ~ In src (ip4_broadcasts (s_addrs s)) -> src <> 0 ->
  phtx_ip4 src dst ttl p s = (s, Ok Ip4SrcNotOwned).
Proof.
  intros Hs Ht N1 N2 N3 N4. unfold phtx_ip4, massert. replace ((0 <? ttl) && (ttl <? 256)) with true by lia.
  unfold mbind at 1, gets at 1. rewrite Hs. cbn [negb]. unfold validate_src4.
  rewrite (mem_not _ _ N1), (mem_not _ _ N2), (mem_not _ _ N3). replace (src =? 0) with false by lia. reflexivity.
Qed.
Lemma phtx_ip6_foreign s src dst hop p : a_sup6 (s_addrs s) = true -> 0 < hop < 256 ->
  ~ In src (ip6_unicast (s_addrs s)) -> ~ In src (a_mcast6 (s_addrs s)) -> src <> 0 ->
  phtx_ip6 src dst hop p s = (s, Ok Ip6SrcNotOwned).
Proof.
  intros Hs Ht N1 N2 N4. unfold phtx_ip6. rewrite phtx_ip6_step. unfold massert at 1. replace ((0 <? hop) && (hop <? 256)) with true by lia.
  unfold mbind at 1, gets at 1. rewrite Hs. cbn [negb]. unfold validate_src6.
  rewrite (mem_not _ _ N1), (mem_not _ _ N2). replace (src =? 0) with false by lia. reflexivity.
Qed.
