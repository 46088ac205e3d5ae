(** What was seen, or made a packet be dropped, is counted. *)
From Verif Require Import Base BaseLemmas CodecModel AddrModel AddrProofs SpecWire SpecCksum EtherModel EtherProofs Ip4Model Ip4Proofs Ip6Model Ip6Proofs
  UdpModel UdpProofs TcpModel TcpProofs Icmp4Model Icmp4Proofs Icmp6Model Icmp6Proofs FragModel StackModel StackTxProofs StackRxModel StatRxModel
  SpecRx SpecReact SpecStat RxProofs ReactProofs StatRxProofs StatMeanProofs StatSeenProofs PshdrLemmas.

Definition hits (c : rxc) {A} (t : T A) (n : node) : Prop := In c (fst (t n)).
Lemma hi_tick c {A} d (k : unit -> T A) n : hits c (tbind (tick d) k) n <-> d = c \/ hits c (k tt) n.
Proof. unfold hits, tbind, tick. destruct (k tt n) as [l x]. reflexivity. Qed.
Lemma hi_end c d n : hits c (tick d) n <-> d = c.
Proof. unfold hits, tick. cbn. tauto. Qed.
Lemma hi_tick_if c {A} b d (k : unit -> T A) n : hits c (tbind (tick_if b d) k) n <-> (b = true /\ d = c) \/ hits c (k tt) n.
Proof. unfold hits, tbind, tick_if. destruct (k tt n) as [l x]. destruct b; cbn [fst app In]; intuition congruence. Qed.
Lemma hi_gets c {A B} (g : node -> A) (k : A -> T B) n : hits c (tbind (plain (rgets g)) k) n <-> hits c (k (g n)) n.
Proof. unfold hits, tbind, plain, rgets. destruct (k (g n) n). reflexivity. Qed.
Lemma hi_upd c {B} (g : node -> node) (k : unit -> T B) n : hits c (tbind (plain (rupd g)) k) n <-> hits c (k tt) (g n).
Proof. unfold hits, tbind, plain, rupd. destruct (k tt (g n)). reflexivity. Qed.
Lemma hi_ok c {A B} (a : A) (k : A -> T B) n : hits c (tbind (plain (rlift (Ok a))) k) n <-> hits c (k a) n.
Proof. unfold hits, tbind, plain, rlift. destruct (k a n). reflexivity. Qed.
Lemma hi_parsed c {A} (p : A) d k n : hits c (t_parsed (Ok (inr p)) d k) n <-> hits c (k p) n.
Proof. unfold t_parsed. rewrite hi_ok. reflexivity. Qed.
Lemma hi_failed c {A} x d (k : A -> T unit) n : hits c (t_parsed (Ok (inl x)) d k) n <-> d = c.
Proof. unfold t_parsed. rewrite hi_ok. apply hi_end. Qed.
Lemma hi_seq c {A B} (m : T A) (k : A -> T B) n n' a : snd (m n) = (n', Ok a) -> hits c (k a) n' -> hits c (tbind m k) n.
Proof.
  intros E H. unfold hits, tbind in *. destruct (m n) as [l x]. cbn [snd] in E. subst x. destruct (k a n') as [l' y]. apply in_app_iff. right. exact H.
Qed.

(** ** down to the packet *)
Lemma hi_ether c n f e : for_us n f e ->
  hits c (if (EtherModel.e_type e =? ETHER_TYPE_ARP) && a_sup4 (my_addrs n) then t_arp e
        else if (EtherModel.e_type e =? ETHER_TYPE_IP4) && a_sup4 (my_addrs n) then t_ip4 (EtherModel.e_rest e)
        else if (EtherModel.e_type e =? ETHER_TYPE_IP6) && a_sup6 (my_addrs n) then t_ip6 (EtherModel.e_rest e)
        else plain (rret tt)) n -> hits c (t_ether f) n.
Proof.
  intros (P & M) H. apply our_mac_mem in M. unfold t_ether. rewrite hi_tick, P, hi_parsed, hi_gets, M. cbn [negb].
  rewrite !hi_tick_if. auto.
Qed.
Lemma hi_arp c n f b : arp_packet n f b -> exists e, for_us n f e /\ EtherModel.e_rest e = b /\ (hits c (t_arp e) n -> hits c (t_ether f) n).
Proof.
  intros ((e & U & T & E) & S). exists e. split; [exact U|]. split; [exact E|]. intros H. apply (hi_ether c n f e U). rewrite T, S. exact H.
Qed.
Lemma hi_arp_in c n f e p : arp_in n f e p ->
  hits c (a <% plain (rgets my_addrs) ;;
    if a_oper p =? ARP_OP_REQUEST then
      _ <% tick arp__op_request ;;
      (if mem (a_spa p) (ip4_unicast a) then tick arp__op_request__ip_conflict
       else if mem (a_tpa p) (ip4_unicast a) then plain (rret tt) else tick arp__op_request__tpa_unknown__drop)
    else if a_oper p =? ARP_OP_REPLY then tick arp__op_reply else plain (rret tt)) n -> hits c (t_ether f) n.
Proof.
  intros (U & T & S & P). rewrite hi_gets. intros H. apply (hi_ether c n f e U). rewrite T, S. change ((0x0806 =? ETHER_TYPE_ARP) && true) with true. cbv iota.
  unfold t_arp. rewrite hi_tick, P, hi_parsed, hi_gets. right. destruct (_ =? _).
  - rewrite hi_tick in *. destruct H as [H|H]; [auto|right]. destruct (mem _ _); [exact H|]. destruct (mem _ _); [destruct H|exact H].
  - destruct (_ =? _); [|exact H]. rewrite hi_tick. left. apply hi_end in H. exact H.
Qed.
Lemma hi_ip4 c n f b : ip4_packet n f b -> hits c (t_ip4 b) n -> hits c (t_ether f) n.
Proof. intros ((e & U & T & <-) & S) H. apply (hi_ether c n f e U). rewrite T, S. exact H. Qed.
Lemma hi_ip4_taken c n f p : ip4_taken n f p ->
  hits c (_ <% tick_if (mem (i4_dst p) (ip4_unicast (my_addrs n))) ip4__dst_unicast ;;
    _ <% tick_if (mem (i4_dst p) (a_mcast4 (my_addrs n))) ip4__dst_multicast ;;
    _ <% tick_if (mem (i4_dst p) (ip4_broadcasts (my_addrs n))) ip4__dst_broadcast ;;
    if negb (i4_offset p =? 0) || i4_mf p then
      _ <% tick ip4__frag ;;
      let (fs, r) := defrag4 (s_now (n_tx n)) p (n_flows4 n) in
      _ <% plain (rupd (set_flows4 fs)) ;;
      o <% plain (rlift r) ;;
      match o with
      | None => plain (rret tt)
      | Some w =>
          q <% plain (rlift (ip4_parse w)) ;;
          match q with
          | inr q => _ <% tick ip4__defrag ;; t_dispatch4 q (i4_rest q)
          | inl _ => _ <% tick ip4__defrag ;; q <% plain (rlift (ip4_fields w)) ;; t_dispatch4 q w
          end
      end
    else t_dispatch4 p (i4_rest p)) n -> hits c (t_ether f) n.
Proof.
  intros (b & B & P & Tk) H. apply (hi_ip4 c n f b B). apply takes4_mem in Tk. unfold t_ip4. rewrite hi_tick, P, hi_parsed, hi_gets, Tk. right.
  rewrite !hi_tick_if in *. destruct H as [H|[H|[H|H]]]; auto. do 3 right. destruct (negb _ || _); [|exact H]. rewrite hi_tick in *.
  destruct H as [H|H]; [auto|right]. rewrite hi_gets. exact H.
Qed.
Lemma hi_rx4 c n f n1 p : rx4 n f n1 p -> hits c (t_dispatch4 p (i4_rest p)) n1 -> hits c (t_ether f) n.
Proof.
  intros H X. inversion H as [e p0 U T S P Tk O M|e p0 fs w q U T S P Tk O Ed Pq]; subst.
  - apply (hi_ip4_taken c n1 f p); [exists (EtherModel.e_rest e); repeat split; auto; exists e; auto|]. rewrite !hi_tick_if, O, M. auto.
  - apply (hi_ip4_taken c n f p0); [exists (EtherModel.e_rest e); repeat split; auto; exists e; auto|]. rewrite !hi_tick_if. do 3 right.
    replace (negb (i4_offset p0 =? 0) || i4_mf p0) with true by (destruct (i4_mf p0); destruct (Z.eqb_spec (i4_offset p0) 0); destruct O; try reflexivity; congruence).
    rewrite hi_tick, Ed, hi_upd, hi_ok, Pq, hi_ok, hi_tick. auto.
Qed.
(** the handler of these bytes is reached, with fuel left *)
Lemma hi_packet n f n1 b : ip6_packet n f n1 b -> wf_bytes f -> node_ok n ->
  same_but_flows n n1 /\ wf_bytes b /\ Forall flow6_ok (n_flows6 n1) /\
  exists fuel, (length b + flows_bytes (n_flows6 n1) <= fuel)%nat /\ forall c, hits c (t_ip6_fuel (S fuel) b) n1 -> hits c (t_ether f) n.
Proof.
  intros H W (K4 & K6). induction H as [b (e & U & T & <-) S|n1 b p g fs w H (Sf & Wb & F & fuel & L & IH) P M X G D].
  - split; [unfold same_but_flows; auto 10|]. split; [apply (for_us_wf n f e W U)|]. split; [exact K6|].
    exists (length (EtherModel.e_rest e) + flows_bytes (n_flows6 n))%nat. split; [lia|]. intros c H. apply (hi_ether c n f e U). rewrite T, S. exact H.
  - destruct Sf as (St & Sr). assert (Ea : my_addrs n1 = my_addrs n) by (unfold my_addrs; rewrite St; reflexivity).
    destruct (reassemble6 _ _ _ _ _ _ _ Wb P G F D) as (F' & (q & Ww & Pq & _) & Lw).
    split; [exact (conj St Sr)|]. split; [exact Ww|]. split; [exact F'|]. destruct fuel as [|fuel]; [lia|]. exists fuel.
    split; [cbn [n_flows6 set_flows6]; lia|]. intros c Hc. apply IH. apply our_ip6_mem in M.
    cbn [t_ip6_fuel]. rewrite hi_tick, P, hi_parsed, hi_gets, Ea, M. cbn [negb]. rewrite !hi_tick_if, X. change (44 =? IP6_NEXT_EXT_FRAG) with true. cbv iota.
    do 3 right. rewrite hi_tick, G, hi_parsed, hi_gets, St, D, hi_upd, hi_ok, hi_tick. auto.
Qed.
Lemma hi_ip6_taken c n f n1 p : ip6_taken n f n1 p -> wf_bytes f -> node_ok n ->
  hits c (_ <% tick_if (mem (i6_dst p) (ip6_unicast (my_addrs n))) ip6__dst_unicast ;;
    _ <% tick_if (mem (i6_dst p) (a_mcast6 (my_addrs n))) ip6__dst_multicast ;;
    if i6_next p =? 44 then
      _ <% tick ip6_ext_frag__pre_parse ;;
      t_parsed (frag6_parse (i6_rest p) (i6_dlen p)) ip6_ext_frag__failed_parse (fun g =>
      let (fs, r) := defrag6 (s_now (n_tx n)) p g (n_flows6 n1) in
      match r with Ok (Some w) => tick ip6_ext_frag__defrag | _ => plain (rret tt) end)
    else t_dispatch6 p) n1 -> hits c (t_ether f) n.
Proof.
  intros (b & B & P & M) W K H. destruct (hi_packet n f n1 b B W K) as ((St & Sr) & Wb & F & fuel & L & Hf).
  assert (Ea : my_addrs n1 = my_addrs n) by (unfold my_addrs; rewrite St; reflexivity). apply our_ip6_mem in M.
  apply Hf. cbn [t_ip6_fuel]. rewrite hi_tick, P, hi_parsed, hi_gets, Ea, M. cbn [negb]. rewrite !hi_tick_if in *. right.
  destruct H as [H|[H|H]]; auto. do 2 right. change IP6_NEXT_EXT_FRAG with 44. destruct (i6_next p =? 44); [|exact H]. rewrite hi_tick in *.
  destruct H as [H|H]; [auto|right]. destruct (frag6_parse _ _) as [[x|g]|x]; [exact H| |exact H]. rewrite hi_parsed in *. rewrite hi_gets, St.
  destruct (defrag6 _ _ _ _) as [fs [[w|]|e]]; [|destruct H|destruct H]. rewrite hi_upd, hi_ok, hi_tick. left. apply hi_end in H. exact H.
Qed.
Lemma hi_rx6 c n f n1 p : rx6 n f n1 p -> wf_bytes f -> node_ok n -> hits c (t_dispatch6 p) n1 -> hits c (t_ether f) n.
Proof.
  intros (e & U & T & S & H) W K X.
  assert (B : ip6_packet n f n (EtherModel.e_rest e)) by (apply p6_frame; [exists e; auto|exact S]).
  remember (EtherModel.e_rest e) as b eqn:Eb. clear Eb U T S e.
  assert (G : forall m b n1 p, rx6_net m b n1 p -> ip6_packet n f m b -> hits c (t_dispatch6 p) n1 -> hits c (t_ether f) n).
  { clear n1 p b H X B. intros m b n1 p H. induction H as [m b p P M Nx|m b p g fs w n1 q P M Nx G D H IH]; intros B X.
    - destruct (packet_net n f m b B) as ((St & _) & _). unfold my_addrs in M. rewrite St in M.
      apply (hi_ip6_taken c n f m p); [exists b; auto|auto|auto|]. rewrite !hi_tick_if. do 2 right. apply Z.eqb_neq in Nx. rewrite Nx. exact X.
    - destruct (packet_net n f m b B) as ((St & _) & _). unfold my_addrs in M. rewrite St in M, D. apply IH; [|exact X]. eapply p6_made; eauto. }
  eauto.
Qed.

(** ** the handlers *)
Lemma hi_udp c src dst b plen ps whole n : c = udp__pre_parse \/
  (c = udp__failed_parse__drop /\ exists x, udp_parse b plen ps = Ok (inl x)) \/
  (c = udp__ip_source_unspecified /\ is_unspecified src = true /\ exists u, udp_parse b plen ps = Ok (inr u) /\
     first_match (socket_patterns dst (u_dport u) src (u_sport u)) (n_socks n) = None) ->
  hits c (t_udp src dst b plen (Ok ps) whole) n.
Proof.
  intros H. unfold t_udp. rewrite hi_tick. destruct H as [->|[(-> & x & E)|(-> & U & u & E & F)]]; [auto| |]; right; rewrite hi_ok, E.
  - apply hi_failed. reflexivity.
  - rewrite hi_parsed, hi_gets, F, U. apply hi_end. reflexivity.
Qed.
Lemma hi_udp4 c n f n1 p : rx4 n f n1 p -> i4_proto p = 17 -> wf_bytes f -> node_ok n ->
  hits c (t_udp (A4 (i4_src p)) (A4 (i4_dst p)) (i4_rest p) (i4_dlen p) (i4_pshdr_sum p) (slice 0 (i4_plen p) (i4_frame p))) n1 -> hits c (t_ether f) n.
Proof. intros R T W K H. apply (hi_rx4 c n f n1 p R). unfold t_dispatch4. rewrite T. exact H. Qed.
Lemma hi_udp6 c n f n1 p : rx6 n f n1 p -> i6_next p = 17 -> wf_bytes f -> node_ok n ->
  hits c (t_udp (A6 (i6_src p)) (A6 (i6_dst p)) (i6_rest p) (i6_dlen p) (i6_pshdr_sum p) (slice 0 (i6_plen p) (i6_frame p))) n1 -> hits c (t_ether f) n.
Proof. intros R T W K H. apply (hi_rx6 c n f n1 p R W K). unfold t_dispatch6. rewrite T. exact H. Qed.
Lemma hi_tcp c n f r : tcp_bytes n f r -> wf_bytes f -> node_ok n ->
  (c = tcp__pre_parse \/ c = tcp__failed_parse__drop /\ exists x, r = Ok (inl x)) -> hits c (t_ether f) n.
Proof.
  intros B W K H. destruct B as [n1 p ps R T E|n1 p ps R T E].
  - apply (hi_rx4 c n f n1 p R). unfold t_dispatch4. rewrite T, E. cbv zeta. change (6 =? IP4_PROTO_ICMP4) with false. change (6 =? IP4_PROTO_UDP) with false.
    change (6 =? IP4_PROTO_TCP) with true. cbv iota. unfold t_tcp. rewrite hi_tick. destruct H as [->|(-> & x & H)]; [auto|right]. rewrite hi_ok, H. apply hi_failed. reflexivity.
  - apply (hi_rx6 c n f n1 p R W K). unfold t_dispatch6. rewrite T, E. change (6 =? IP6_NEXT_ICMP6) with false. change (6 =? IP6_NEXT_UDP) with false.
    change (6 =? IP6_NEXT_TCP) with true. cbv iota. unfold t_tcp. rewrite hi_tick. destruct H as [->|(-> & x & H)]; [auto|right]. rewrite hi_ok, H. apply hi_failed. reflexivity.
Qed.
Lemma hi_icmp4 c n f r : icmp4_bytes n f r ->
  (c = icmp4__pre_parse \/ (c = icmp4__failed_parse__drop /\ exists x, r = Ok (inl x)) \/
   (c = icmp4__unreachable /\ exists q d, r = Ok (inr q) /\ q4_body q = B4Unreach d)) -> hits c (t_ether f) n.
Proof.
  intros (n1 & p & R & T & ->) H. apply (hi_rx4 c n f n1 p R). unfold t_dispatch4. rewrite T. cbv zeta. change (1 =? IP4_PROTO_ICMP4) with true. cbv iota.
  unfold t_icmp4. rewrite hi_tick. destruct H as [->|[(-> & x & H)|(-> & q & d & H & B)]]; [auto| |]; right; rewrite H.
  - apply hi_failed. reflexivity.
  - rewrite hi_parsed, B, hi_tick. auto.
Qed.
Lemma hi_icmp6_bytes c n f r : icmp6_bytes n f r -> wf_bytes f -> node_ok n ->
  (c = icmp6__pre_parse \/ (c = icmp6__failed_parse__drop /\ exists x, r = Ok (inl x))) -> hits c (t_ether f) n.
Proof.
  intros (n1 & p & ps & R & T & E & ->) W K H. apply (hi_rx6 c n f n1 p R W K). unfold t_dispatch6. rewrite T, E. change (58 =? IP6_NEXT_ICMP6) with true. cbv iota.
  unfold t_icmp6. rewrite hi_tick. destruct H as [->|(-> & x & H)]; [auto|]; right; rewrite hi_ok, H. apply hi_failed. reflexivity.
Qed.
(** the counters of a message that was read *)
Lemma hi_icmp6 c n f src body : icmp6_has n f src body -> wf_bytes f -> node_ok n ->
  match body with
  | B6Ns t _ => c = icmp6__nd_neighbor_solicitation \/
      (c = icmp6__nd_neighbor_solicitation__target_unknown__drop /\ ~ has6 n t) \/
      (c = icmp6__nd_neighbor_solicitation__dad /\ src = 0 /\ has6 n t)
  | B6Na _ _ _ _ _ => c = icmp6__nd_neighbor_advertisement
  | B6Rs _ => c = icmp6__nd_router_solicitation
  | B6Unreach _ => c = icmp6__unreachable
  | _ => False
  end -> hits c (t_ether f) n.
Proof.
  intros (n1 & dst & q & (p & ps & R & T & -> & -> & Eps & E) & <-) W K H. apply (hi_rx6 c n f n1 p R W K).
  destruct (rx6_facts n f n1 p R W K) as ((St & _) & _). assert (Ea : my_addrs n1 = my_addrs n) by (unfold my_addrs; rewrite St; reflexivity).
  unfold t_dispatch6. rewrite T, Eps. change (58 =? IP6_NEXT_ICMP6) with true. cbv iota.
  unfold t_icmp6. rewrite hi_tick, hi_ok, E, hi_parsed, hi_gets, Ea. right.
  destruct (q6_body q) as [d|id seq d|os|hp mm o rl rt rr os|tg os|br bs bo tg os|nor|]; try contradiction.
  - rewrite hi_tick. auto.
  - apply hi_end. auto.
  - rewrite hi_tick. destruct H as [H|H]; [auto|right]. unfold has6 in H. rewrite <- unicast6_mem in H.
    destruct (mem tg (ip6_unicast (my_addrs n))); cbn [negb]; [|destruct H as [(H & _)|(_ & _ & H)]; [apply hi_end; auto|discriminate]].
    destruct H as [(_ & H)|(-> & H & _)]; [congruence|]. rewrite H.
    eapply hi_seq with (a := tt).
    { destruct (nd_slla os); reflexivity. }
    cbv zeta. rewrite hi_tick_if. left. auto.
  - rewrite hi_tick. auto.
Qed.
Lemma means_counted n f c : wf_bytes f -> node_ok n -> socks_ok (n_socks n) -> says_done c = false -> means n f c -> In c (counted f n).
Proof.
  intros W K N A. change (In c (counted f n)) with (hits c (t_ether f) n).
  assert (E0 : forall e, ether_parse f = Ok (inr e) -> our_mac (my_addrs n) (EtherModel.e_dst e) ->
    (c = ether__dst_unicast /\ EtherModel.e_dst e = a_mac (my_addrs n)) \/ (c = ether__dst_multicast /\ In (EtherModel.e_dst e) (a_mac_mcast (my_addrs n))) \/
    (c = ether__dst_broadcast /\ EtherModel.e_dst e = 2 ^ 48 - 1) -> hits c (t_ether f) n).
  { intros e P M H. apply our_mac_mem in M. unfold t_ether. rewrite hi_tick, P, hi_parsed, hi_gets, M. cbn [negb]. rewrite !hi_tick_if, mem_In, !Z.eqb_eq.
    destruct H as [(-> & H)|[(-> & H)|(-> & H)]]; auto 6. }
  assert (E4 : forall p, ip4_taken n f p ->
    (c = ip4__dst_unicast /\ has4 n (i4_dst p)) \/ (c = ip4__dst_multicast /\ In (i4_dst p) (a_mcast4 (my_addrs n))) \/
    (c = ip4__dst_broadcast /\ (i4_dst p = 2 ^ 32 - 1 \/ exists h, In h (a_host4 (my_addrs n)) /\ i4_dst p = last_of h)) ->
    hits c (t_ether f) n).
  { intros p Q H. apply (hi_ip4_taken c n f p Q). rewrite !hi_tick_if, unicast4_mem, !mem_In.
    destruct H as [(-> & H)|[(-> & H)|(-> & H)]]; auto 6. do 2 right. left. split; [|reflexivity]. unfold ip4_broadcasts. rewrite in_app_iff, in_map_iff. cbn [In].
    destruct H as [H|(h & I1 & H)]; [right; left; symmetry; exact H|left; exists h; rewrite last_of_eq; auto]. }
  destruct c; try discriminate A; clear A; cbn [means].
  - intros _. unfold t_ether. rewrite hi_tick. auto.
  - intros (x & E). unfold t_ether. rewrite hi_tick, E, hi_failed. auto.
  - intros (e & E & M). unfold t_ether. rewrite hi_tick, E, hi_parsed, hi_gets. rewrite <- our_mac_mem in M.
    destruct (mem _ _); [congruence|]. cbn [negb]. rewrite hi_end. auto.
  - intros (e & E & M). apply (E0 e E); [left; exact M|auto].
  - intros (e & E & M). apply (E0 e E); [right; left; exact M|auto].
  - intros (e & E & M). apply (E0 e E); [right; right; exact M|auto].
  - intros (b & B). destruct (hi_arp arp__pre_parse n f b B) as (e & U & <- & H). apply H. unfold t_arp. rewrite hi_tick. auto.
  - intros (b & x & B & E). destruct (hi_arp arp__failed_parse__drop n f b B) as (e & U & Er & H). apply H. unfold t_arp. rewrite hi_tick, Er, E, hi_failed. auto.
  - intros (p & e & J & O). apply (hi_arp_in _ n f e p J). rewrite hi_gets, O. apply hi_tick. auto.
  - intros (p & (e & J & O) & H). apply (hi_arp_in _ n f e p J). rewrite hi_gets, O. apply hi_tick. right. apply unicast4_mem in H. rewrite H. apply hi_end. reflexivity.
  - intros (p & (e & J & O) & H1 & H2). apply (hi_arp_in _ n f e p J). rewrite hi_gets, O. apply hi_tick. right. unfold has4 in *. rewrite <- unicast4_mem in H1, H2.
    destruct (mem (a_spa p) _); [congruence|]. destruct (mem (a_tpa p) _); [congruence|]. apply hi_end. reflexivity.
  - intros (p & e & J & O). apply (hi_arp_in _ n f e p J). rewrite hi_gets, O. apply hi_end. reflexivity.
  - intros (b & B). apply (hi_ip4 _ n f b B). unfold t_ip4. rewrite hi_tick. auto.
  - intros (b & x & B & E). apply (hi_ip4 _ n f b B). unfold t_ip4. rewrite hi_tick, E, hi_failed. auto.
  - intros (b & p & B & E & M). apply (hi_ip4 _ n f b B). unfold t_ip4. rewrite hi_tick, E, hi_parsed, hi_gets. right. rewrite <- takes4_mem in M.
    destruct (_ && negb _); [apply hi_end; reflexivity|congruence].
  - intros (p & Q & M). apply (E4 p Q). auto.
  - intros (p & Q & M). apply (E4 p Q). auto.
  - intros (p & Q & M). apply (E4 p Q). auto.
  - intros (p & Q & O). apply (hi_ip4_taken _ n f p Q). rewrite !hi_tick_if. do 3 right.
    replace (negb (i4_offset p =? 0) || i4_mf p) with true by (destruct (i4_mf p); destruct (Z.eqb_spec (i4_offset p) 0); destruct O; try reflexivity; congruence).
    rewrite hi_tick. auto.
  - intros (p & fs & w & Q & O & D). pose proof Q as (b & ((e & U & _ & Er) & _) & P & _). pose proof (for_us_wf n f e W U) as Wb. rewrite Er in Wb.
    destruct (reassemble4 _ _ _ _ _ _ Wb P (proj1 K) D) as (_ & q & Ww & Pq & _).
    apply (hi_ip4_taken _ n f p Q). rewrite !hi_tick_if. do 3 right.
    replace (negb (i4_offset p =? 0) || i4_mf p) with true by (destruct (i4_mf p); destruct (Z.eqb_spec (i4_offset p) 0); destruct O; try reflexivity; congruence).
    rewrite hi_tick, D, hi_upd, hi_ok, Pq, hi_ok, hi_tick. auto.
  - intros (n1 & b & B). destruct (hi_packet n f n1 b B W K) as (_ & _ & _ & fuel & _ & H). apply H. cbn [t_ip6_fuel]. rewrite hi_tick. auto.
  - intros (n1 & b & x & B & E). destruct (hi_packet n f n1 b B W K) as (_ & _ & _ & fuel & _ & H). apply H. cbn [t_ip6_fuel]. rewrite hi_tick, E, hi_failed. auto.
  - intros (n1 & b & p & B & E & M). destruct (hi_packet n f n1 b B W K) as ((St & _) & _ & _ & fuel & _ & H). apply H. cbn [t_ip6_fuel].
    rewrite hi_tick, E, hi_parsed, hi_gets. right. unfold my_addrs at 1 2. rewrite St. fold (my_addrs n). rewrite <- our_ip6_mem in M.
    destruct (mem _ _); [congruence|]. cbn [negb]. apply hi_end. reflexivity.
  - intros (n1 & p & Q & M). apply (hi_ip6_taken _ n f n1 p Q W K). rewrite !hi_tick_if, unicast6_mem. auto.
  - intros (n1 & p & Q & M). apply (hi_ip6_taken _ n f n1 p Q W K). rewrite !hi_tick_if, !mem_In. auto.
  - intros (n1 & p & Q & X). apply (hi_ip6_taken _ n f n1 p Q W K). rewrite !hi_tick_if, X. do 2 right. cbn [Z.eqb Pos.eqb]. rewrite hi_tick. auto.
  - intros (n1 & p & x & Q & X & G). apply (hi_ip6_taken _ n f n1 p Q W K). rewrite !hi_tick_if, X. do 2 right. cbn [Z.eqb Pos.eqb]. rewrite hi_tick, G, hi_failed. auto.
  - intros (n1 & p & g & fs & w & Q & X & G & D). apply (hi_ip6_taken _ n f n1 p Q W K). rewrite !hi_tick_if, X. do 2 right. cbn [Z.eqb Pos.eqb].
    rewrite hi_tick, G, hi_parsed, D, hi_end. auto.
  - intros (r & B). apply (hi_icmp4 _ n f r B). auto.
  - intros (x & B). apply (hi_icmp4 _ n f _ B). eauto.
  - intros (q & d & B & E). apply (hi_icmp4 _ n f _ B). eauto 8.
  - intros (r & B). apply (hi_icmp6_bytes _ n f r B W K). auto.
  - intros (x & B). apply (hi_icmp6_bytes _ n f _ B W K). eauto.
  - intros (src & t & opts & B). apply (hi_icmp6 _ n f src _ B W K). auto.
  - intros (src & t & opts & B & H). apply (hi_icmp6 _ n f src _ B W K). auto.
  - intros (t & opts & B & H). apply (hi_icmp6 _ n f 0 _ B W K). auto 6.
  - intros (src & r & s & o & t & opts & B). apply (hi_icmp6 _ n f src _ B W K). reflexivity.
  - intros (src & opts & B). apply (hi_icmp6 _ n f src _ B W K). reflexivity.
  - intros (src & d & B). apply (hi_icmp6 _ n f src _ B W K). reflexivity.
  - intros (pseudo & seg & [n1 p R T|n1 p R T]).
    + destruct (rx4_facts n f n1 p R W K) as (_ & _ & _ & _ & _ & _ & Wf & P). destruct (in4_facts _ _ Wf P) as (_ & _ & _ & _ & _ & _ & _ & _ & ps & Eps & _).
      apply (hi_udp4 _ n f n1 p R T W K). rewrite Eps. apply hi_udp. auto.
    + destruct (rx6_facts n f n1 p R W K) as (_ & _ & _ & _ & _ & Wf & P). destruct (in6_facts _ _ Wf P) as (_ & _ & _ & _ & _ & _ & _ & ps & Eps & _).
      apply (hi_udp6 _ n f n1 p R T W K). rewrite Eps. apply hi_udp. auto.
  - intros (pseudo & seg & [n1 p R T|n1 p R T] & X).
    + destruct (rx4_facts n f n1 p R W K) as (_ & _ & _ & _ & _ & _ & Wf & P). destruct (in4_facts _ _ Wf P) as (Wr & Hl & Lr & Ed & _ & _ & _ & _ & ps & Eps & Hps).
      apply (hi_udp4 _ n f n1 p R T W K). rewrite Eps. apply hi_udp. right. left. split; [reflexivity|]. rewrite T in Hps.
      destruct (udp_parse_total _ _ _ _ Wr Hps Hl) as [(x & Ep & _)|(u & Ep & _)]; [eauto|]. exfalso. apply X. rewrite Ed.
      eexists _, _, _. apply (datagram_iff _ _ _ _ _ _ _ Wr Hps Hl Lr). eauto.
    + destruct (rx6_facts n f n1 p R W K) as (_ & _ & _ & _ & _ & Wf & P). destruct (in6_facts _ _ Wf P) as (Wr & Hl & Lr & Ed & _ & _ & _ & ps & Eps & Hps).
      apply (hi_udp6 _ n f n1 p R T W K). rewrite Eps. apply hi_udp. right. left. split; [reflexivity|]. rewrite T in Hps.
      destruct (udp_parse_total _ _ _ _ Wr Hps Hl) as [(x & Ep & _)|(u & Ep & _)]; [eauto|]. exfalso. apply X. rewrite Ed.
      eexists _, _, _. apply (datagram_iff _ _ _ _ _ _ _ Wr Hps Hl Lr). eauto.
  - intros (n1 & src & dst & sport & dport & data & whole & [n1' p sp dp dt R T Dg|n1' p sp dp dt R T Dg] & Z0 & Tg).
    + destruct (rx4_facts n f n1' p R W K) as ((_ & Ss & _) & _ & _ & _ & _ & _ & Wf & P). destruct (in4_facts _ _ Wf P) as (Wr & Hl & Lr & Ed & _ & _ & _ & _ & ps & Eps & Hps).
      apply (hi_udp4 _ n f n1' p R T W K). rewrite Eps. apply hi_udp. do 2 right. split; [reflexivity|]. split; [apply is_unspecified_spec; exact Z0|]. rewrite T in Hps.
      rewrite Ed in Dg. apply (datagram_iff _ _ _ _ _ _ _ Wr Hps Hl Lr) in Dg as (u & Eu & <- & <- & <-). exists u. split; [exact Eu|]. rewrite Ss. apply udp_target_iff; auto.
    + destruct (rx6_facts n f n1' p R W K) as ((_ & Ss & _) & _ & _ & _ & _ & Wf & P). destruct (in6_facts _ _ Wf P) as (Wr & Hl & Lr & Ed & _ & _ & _ & ps & Eps & Hps).
      apply (hi_udp6 _ n f n1' p R T W K). rewrite Eps. apply hi_udp. do 2 right. split; [reflexivity|]. split; [apply is_unspecified_spec; exact Z0|]. rewrite T in Hps.
      rewrite Ed in Dg. apply (datagram_iff _ _ _ _ _ _ _ Wr Hps Hl Lr) in Dg as (u & Eu & <- & <- & <-). exists u. split; [exact Eu|]. rewrite Ss. apply udp_target_iff; auto.
  - intros (r & B). apply (hi_tcp _ n f r B W K). auto.
  - intros (x & B). apply (hi_tcp _ n f _ B W K). eauto.
Qed.
