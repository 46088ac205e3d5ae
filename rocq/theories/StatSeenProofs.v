(** The counters that name what was seen, or why something was dropped, are right. *)
From Verif Require Import Base BaseLemmas CodecModel AddrModel AddrProofs SpecWire SpecCksum EtherModel EtherProofs Ip4Model Ip4Proofs Ip6Model Ip6Proofs
  UdpModel UdpProofs TcpModel TcpProofs Icmp4Model Icmp4Proofs Icmp6Model Icmp6Proofs FragModel StackModel StackTxProofs StackRxModel StatRxModel
  SpecRx SpecReact SpecStat RxProofs ReactProofs StatRxProofs StatMeanProofs PshdrLemmas.

(** every counter that moves is right *)
Definition every (P : rxc -> Prop) {A} (t : T A) (n : node) : Prop := Forall P (fst (t n)).
Lemma ev_tick (P : rxc -> Prop) {A} c (k : unit -> T A) n : P c -> every P (k tt) n -> every P (tbind (tick c) k) n.
Proof. intros H K. unfold every, tbind, tick. destruct (k tt n) as [l x] eqn:E. unfold every in K. rewrite E in K. cbn [fst app]. constructor; auto. Qed.
Lemma ev_end (P : rxc -> Prop) c n : P c -> every P (tick c) n.
Proof. intros H. constructor; [exact H|constructor]. Qed.
Lemma ev_tick_if (P : rxc -> Prop) {A} b c (k : unit -> T A) n : (b = true -> P c) -> every P (k tt) n -> every P (tbind (tick_if b c) k) n.
Proof.
  intros H K. unfold every, tbind, tick_if. destruct (k tt n) as [l x] eqn:E. unfold every in K. rewrite E in K. cbn [fst] in *.
  destruct b; cbn [app]; [constructor|]; auto.
Qed.
Lemma ev_plain (P : rxc -> Prop) {A} (m : R A) n : every P (plain m) n.
Proof. constructor. Qed.
Lemma ev_do (P : rxc -> Prop) {A B} (m : R A) (k : A -> T B) n : (forall n' a, m n = (n', Ok a) -> every P (k a) n') -> every P (tbind (plain m) k) n.
Proof.
  intros H. unfold every, tbind, plain. destruct (m n) as [n' [a|e]]; [|constructor]. specialize (H n' a eq_refl). unfold every in H.
  destruct (k a n') as [l x]. exact H.
Qed.
Lemma ev_gets (P : rxc -> Prop) {A B} (g : node -> A) (k : A -> T B) n : every P (k (g n)) n -> every P (tbind (plain (rgets g)) k) n.
Proof. intros H. apply ev_do. intros n' a E. injection E as <- <-. exact H. Qed.
Lemma ev_upd (P : rxc -> Prop) {B} (g : node -> node) (k : unit -> T B) n : every P (k tt) (g n) -> every P (tbind (plain (rupd g)) k) n.
Proof. intros H. apply ev_do. intros n' a E. injection E as <- <-. exact H. Qed.
Lemma ev_lift (P : rxc -> Prop) {A B} (r : res A) (k : A -> T B) n : (forall a, r = Ok a -> every P (k a) n) -> every P (tbind (plain (rlift r)) k) n.
Proof. intros H. apply ev_do. intros n' a E. unfold rlift in E. injection E as <- E. auto. Qed.
Lemma ev_seq (P : rxc -> Prop) {A B} (m : T A) (k : A -> T B) n : every P m n -> (forall n' a, snd (m n) = (n', Ok a) -> every P (k a) n') -> every P (tbind m k) n.
Proof.
  intros H K. unfold every, tbind in *. destruct (m n) as [l [n' [a|e]]]; [|exact H]. specialize (K n' a eq_refl). unfold every in K.
  destruct (k a n') as [l' x]. apply Forall_app. auto.
Qed.
Lemma ev_parsed (P : rxc -> Prop) {A} (r : res (parsed A)) c k n : (forall x, r = Ok (inl x) -> P c) -> (forall p, r = Ok (inr p) -> every P (k p) n) ->
  every P (t_parsed r c k) n.
Proof. intros F K. unfold t_parsed. apply ev_lift. intros [x|p] E; [apply ev_end; eauto|eauto]. Qed.
(** counters of actions say nothing here *)
Ltac said := apply ev_tick; [exact I|].

Lemma se_arp n f e : for_us n f e -> EtherModel.e_type e = 0x0806 -> a_sup4 (my_addrs n) = true -> every (means n f) (t_arp e) n.
Proof.
  intros U T S. assert (B : arp_packet n f (EtherModel.e_rest e)) by (split; [exists e; auto|exact S]).
  unfold t_arp. apply ev_tick; [exists (EtherModel.e_rest e); exact B|].
  apply ev_parsed; [intros x E; exists (EtherModel.e_rest e), x; auto|]. intros p P. apply ev_gets.
  assert (J : arp_in n f e p) by (unfold arp_in; auto).
  change ARP_OP_REQUEST with 1. change ARP_OP_REPLY with 2. destruct (Z.eqb_spec (a_oper p) 1) as [O|O].
  - assert (Q : arp_of n f 1 p) by (exists e; auto). apply ev_tick; [exists p; exact Q|].
    destruct (mem (a_spa p) (ip4_unicast (my_addrs n))) eqn:M1; [apply ev_end; exists p; split; [exact Q|apply unicast4_mem; exact M1]|].
    destruct (mem (a_tpa p) (ip4_unicast (my_addrs n))) eqn:M2.
    + said. apply ev_do. intros n' [] _. said. apply ev_plain.
    + apply ev_end. exists p. split; [exact Q|]. unfold has4. rewrite <- !unicast4_mem, M1, M2. split; discriminate.
  - destruct (Z.eqb_spec (a_oper p) 2) as [O2|]; [|apply ev_plain]. apply ev_tick; [exists p; exists e; auto|].
    destruct (_ && (_ && _ && _)); [said; apply ev_plain|]. destruct (_ =? _); [said; apply ev_plain|].
    destruct (_ && _); [said; apply ev_plain|apply ev_plain].
Qed.
(** a datagram of [n]'s packet; [m] has the sockets of [n] *)
Lemma se_udp n f m n1 src dst b plen ps pseudo whole : n_socks m = n_socks n -> same_kind src dst -> socks_ok (n_socks n) ->
  wf_bytes b -> pshdr_for pseudo ps -> 0 <= plen < 65536 -> plen <= zlen b ->
  udp_bytes n f pseudo (slice 0 plen b) ->
  (forall sport dport data, datagram pseudo (slice 0 plen b) sport dport data -> udp_in n f n1 src dst sport dport data whole) ->
  every (means n f) (t_udp src dst b plen (Ok ps) whole) m.
Proof.
  intros Ss K N Wb Hp Hl Lb U J. unfold t_udp. apply ev_tick; [eexists _, _; exact U|]. apply ev_lift. intros a [= <-].
  pose proof (datagram_iff b plen ps pseudo) as D.
  apply ev_parsed.
  - intros x E. exists pseudo, (slice 0 plen b). split; [exact U|]. intros (sport & dport & data & X).
    apply (D sport dport data Wb Hp Hl Lb) in X as (u & X & _). congruence.
  - intros u E. apply ev_gets. rewrite Ss. destruct (first_match _ _) as [i|] eqn:M; [said; apply ev_plain|].
    destruct (is_unspecified src) eqn:Z0.
    + apply ev_end. apply is_unspecified_spec in Z0. apply udp_target_iff in M; [|exact N].
      exists n1, src, dst, (u_sport u), (u_dport u), (u_data u), whole. split; [|auto]. apply J. apply (D _ _ _ Wb Hp Hl Lb). eauto.
    + destruct dst, src; try contradiction; (said; apply ev_plain).
Qed.
Lemma se_tcp n f src dst b plen ps m : (forall s, ps = Ok s -> tcp_bytes n f (tcp_parse b plen s)) -> (exists s, ps = Ok s) ->
  every (means n f) (t_tcp src dst b plen ps) m.
Proof.
  intros H (s0 & ->). specialize (H s0 eq_refl). unfold t_tcp. apply ev_tick; [eexists; exact H|]. apply ev_lift. intros s [= <-].
  apply ev_parsed; [intros x E; exists x; rewrite <- E; exact H|]. intros q E. apply ev_gets.
  destruct (sock_get _ _); [said; apply ev_plain|]. destruct (if _ : bool then _ else None); said; apply ev_plain.
Qed.
Lemma se_icmp4 n f src dst b plen m : icmp4_bytes n f (icmp4_parse b plen) -> every (means n f) (t_icmp4 src dst b plen) m.
Proof.
  intros H. unfold t_icmp4. apply ev_tick; [eexists; exact H|]. apply ev_parsed; [intros x E; exists x; rewrite <- E; exact H|].
  intros q E. rewrite E in H. destruct (q4_body q) as [id seq d|d|] eqn:B; [| |apply ev_plain].
  - destruct (_ =? _); [said; apply ev_plain|apply ev_plain].
  - apply ev_tick; [exists q, d; auto|]. apply ev_lift. intros [[[[x y] z] w]|] _; [|apply ev_plain]. apply ev_gets.
    destruct (first_match _ _); apply ev_plain.
Qed.
Lemma se_icmp6 n f n1 p ps m : my_addrs m = my_addrs n -> rx6 n f n1 p -> i6_next p = 58 -> i6_pshdr_sum p = Ok ps ->
  every (means n f) (t_icmp6 (i6_src p) (i6_dst p) (i6_hop p) (i6_rest p) (i6_dlen p) (Ok ps)) m.
Proof.
  intros Ea R X Eps. assert (H : icmp6_bytes n f (icmp6_parse (i6_rest p) (i6_dlen p) ps (i6_src p) (i6_dst p) (i6_hop p))) by (exists n1, p, ps; auto).
  unfold t_icmp6. apply ev_tick; [eexists; exact H|]. apply ev_lift. intros s [= <-].
  apply ev_parsed; [intros x E; exists x; rewrite <- E; exact H|]. intros q E. apply ev_gets. rewrite Ea.
  assert (J : icmp6_has n f (i6_src p) (q6_body q)). { exists n1, (i6_dst p), q. split; [|reflexivity]. exists p, ps. auto 8. }
  clear H. destruct (q6_body q) as [d|id seq d|os|hp mm o rl rt rr os|tg os|br bs bo tg os|nor|] eqn:B.
  - apply ev_tick; [exists (i6_src p), d; exact J|]. apply ev_lift. intros [[[[x y] z] w]|] _; [|apply ev_plain]. apply ev_gets.
    destruct (first_match _ _); apply ev_plain.
  - destruct (_ =? _); [said; apply ev_plain|apply ev_plain].
  - apply ev_end. exists (i6_src p), os. exact J.
  - said. apply ev_plain.
  - apply ev_tick; [exists (i6_src p), tg, os; exact J|].
    destruct (mem tg (ip6_unicast (my_addrs n))) eqn:M; cbn [negb].
    + apply ev_seq.
      { destruct (nd_slla os); [|apply ev_plain]. destruct (_ || _); [apply ev_plain|]. said. apply ev_plain. }
      intros n' a _. cbv zeta. apply ev_tick_if; [|said; apply ev_plain].
      intros D. unfold ip6_is_unspecified in D. apply Z.eqb_eq in D. rewrite D in J. exists tg, os. split; [exact J|apply unicast6_mem; exact M].
    + apply ev_end. exists (i6_src p), tg, os. split; [exact J|]. unfold has6. rewrite <- unicast6_mem, M. discriminate.
  - apply ev_tick; [exists (i6_src p), br, bs, bo, tg, os; exact J|]. destruct (match a_cand6 _ with Some _ => _ | None => _ end); [said; apply ev_plain|].
    destruct (nd_tlla os); [said; apply ev_plain|apply ev_plain].
  - apply ev_plain.
  - apply ev_plain.
Qed.
Lemma se_dispatch4 n f n1 p : rx4 n f n1 p -> wf_bytes f -> node_ok n -> socks_ok (n_socks n) -> every (means n f) (t_dispatch4 p (i4_rest p)) n1.
Proof.
  intros H W K N. destruct (rx4_facts n f n1 p H W K) as ((St & Ss & _) & _ & _ & _ & _ & _ & Wf & P).
  destruct (in4_facts _ _ Wf P) as (Wr & Hl & Lr & Ed & Hs & Hd & Hp & _ & ps & Eps & Hps).
  unfold t_dispatch4. cbv zeta. change IP4_PROTO_ICMP4 with 1. change IP4_PROTO_UDP with 17. change IP4_PROTO_TCP with 6.
  destruct (Z.eqb_spec (i4_proto p) 1) as [T|T1]; [apply se_icmp4; exists n1, p; auto|].
  destruct (Z.eqb_spec (i4_proto p) 17) as [T|T17].
  { rewrite Eps. rewrite T in Hps. eapply (se_udp n f n1 n1); [exact Ss|exact I|exact N|exact Wr|exact Hps|exact Hl|exact Lr| |].
    - rewrite <- Ed. apply (ub4 n f n1 p); auto.
    - intros sport dport data Dg. apply udp_in4; auto. rewrite Ed. exact Dg. }
  destruct (Z.eqb_spec (i4_proto p) 6) as [T|T6]; [|apply ev_plain].
  apply se_tcp; [|eauto]. intros s E. apply (tb4 n f n1 p s); auto.
Qed.
Lemma se_dispatch6 n f n1 p : rx6 n f n1 p -> wf_bytes f -> node_ok n -> socks_ok (n_socks n) -> every (means n f) (t_dispatch6 p) n1.
Proof.
  intros H W K N. destruct (rx6_facts n f n1 p H W K) as ((St & Ss & _) & _ & _ & _ & _ & Wf & P).
  destruct (in6_facts _ _ Wf P) as (Wr & Hl & Lr & Ed & Hs & Hd & _ & ps & Eps & Hps).
  assert (Ea : my_addrs n1 = my_addrs n) by (unfold my_addrs; rewrite St; reflexivity).
  unfold t_dispatch6. change IP6_NEXT_ICMP6 with 58. change IP6_NEXT_UDP with 17. change IP6_NEXT_TCP with 6.
  destruct (Z.eqb_spec (i6_next p) 58) as [T|T1]; [rewrite Eps; apply (se_icmp6 n f n1 p ps n1); auto|].
  destruct (Z.eqb_spec (i6_next p) 17) as [T|T17].
  { rewrite Eps. rewrite T in Hps. eapply (se_udp n f n1 n1); [exact Ss|exact I|exact N|exact Wr|exact Hps|exact Hl|exact Lr| |].
    - rewrite <- Ed. apply (ub6 n f n1 p); auto.
    - intros sport dport data Dg. apply udp_in6; auto. rewrite Ed. exact Dg. }
  destruct (Z.eqb_spec (i6_next p) 6) as [T|T6]; [|apply ev_plain].
  apply se_tcp; [|eauto]. intros s E. apply (tb6 n f n1 p s); auto.
Qed.
Lemma se_ip4 n f b : ip4_packet n f b -> wf_bytes f -> node_ok n -> socks_ok (n_socks n) -> every (means n f) (t_ip4 b) n.
Proof.
  intros B W K N. pose proof B as ((e & U & T & Er) & S). pose proof (for_us_wf n f e W U) as Wr. rewrite Er in Wr.
  unfold t_ip4. apply ev_tick; [exists b; exact B|]. apply ev_parsed; [intros x E; exists b, x; auto|]. intros p P. apply ev_gets.
  destruct (match ip4_unicast (my_addrs n) with [] => false | _ => true end && negb (mem (i4_dst p)
    (ip4_unicast (my_addrs n) ++ a_mcast4 (my_addrs n) ++ ip4_broadcasts (my_addrs n)))) eqn:Tk.
  { apply ev_end. exists b, p. split; [exact B|]. split; [exact P|]. rewrite <- takes4_mem, Tk. discriminate. }
  apply takes4_mem in Tk. assert (Q : ip4_taken n f p) by (exists b; auto).
  apply ev_tick_if; [intros M; apply unicast4_mem in M; exists p; auto|].
  apply ev_tick_if; [intros M; apply mem_In in M; exists p; auto|].
  apply ev_tick_if.
  { intros M. apply mem_In in M. exists p. split; [exact Q|]. unfold ip4_broadcasts in M. rewrite in_app_iff, in_map_iff in M.
    destruct M as [(h & E & M)|[M|[]]]; [right; exists h; rewrite <- last_of_eq; auto|left; symmetry; exact M]. }
  destruct (negb (i4_offset p =? 0) || i4_mf p) eqn:Fr.
  2:{ apply se_dispatch4; auto. apply orb_false_iff in Fr as [Fr1 Fr2]. rewrite <- Er in P. eapply rx4_whole; eauto. lia. }
  assert (Fr' : i4_offset p <> 0 \/ i4_mf p = true) by (destruct (i4_mf p); [auto|left; lia]).
  apply ev_tick; [exists p; auto|]. apply ev_gets. destruct (defrag4 (s_now (n_tx n)) p (n_flows4 n)) as [fs o] eqn:Ed.
  destruct (reassemble4 _ _ _ _ _ _ Wr P (proj1 K) Ed) as (K4' & Ho). apply ev_upd. apply ev_lift. intros [w|] E; [|apply ev_plain].
  subst o. destruct Ho as (q & Ww & Pq & _). rewrite Pq. apply ev_lift. intros r [= <-].
  apply ev_tick; [exists p, fs, w; auto|]. apply se_dispatch4; auto. rewrite <- Er in P. eapply rx4_last; eauto.
Qed.
Lemma packet_net n f n1 b : ip6_packet n f n1 b -> same_but_flows n n1 /\ forall n2 p, rx6_net n1 b n2 p -> rx6 n f n2 p.
Proof.
  induction 1 as [b (e & U & T & <-) S|n1 b p g fs w H (Sf & IH) P M X G D].
  - split; [unfold same_but_flows; auto 10|]. intros n2 p H. exists e. auto.
  - split; [exact Sf|]. intros n2 q Hq. apply IH. eapply rx6_last; eauto.
    + destruct Sf as (E & _). unfold my_addrs. rewrite E. exact M.
    + destruct Sf as (E & _). rewrite E. exact D.
Qed.
Lemma se_ip6 n f : wf_bytes f -> node_ok n -> socks_ok (n_socks n) -> forall fuel n1 b, ip6_packet n f n1 b ->
  every (means n f) (t_ip6_fuel fuel b) n1.
Proof.
  intros W K N. induction fuel as [|fuel IH]; intros n1 b B; [constructor|]. destruct (packet_net n f n1 b B) as ((St & Sr) & Hn).
  assert (Ea : my_addrs n1 = my_addrs n) by (unfold my_addrs; rewrite St; reflexivity).
  cbn [t_ip6_fuel]. apply ev_tick; [exists n1, b; exact B|]. apply ev_parsed; [intros x E; exists n1, b, x; auto|]. intros p P. apply ev_gets. rewrite Ea.
  destruct (mem (i6_dst p) (ip6_unicast (my_addrs n) ++ a_mcast6 (my_addrs n))) eqn:M; cbn [negb].
  2:{ apply ev_end. exists n1, b, p. split; [exact B|]. split; [exact P|]. rewrite <- our_ip6_mem, M. discriminate. }
  apply our_ip6_mem in M. assert (Q : ip6_taken n f n1 p) by (exists b; auto).
  apply ev_tick_if; [intros X; apply unicast6_mem in X; exists n1, p; auto|].
  apply ev_tick_if; [intros X; apply mem_In in X; exists n1, p; auto|].
  change IP6_NEXT_EXT_FRAG with 44. destruct (Z.eqb_spec (i6_next p) 44) as [X|X].
  - apply ev_tick; [exists n1, p; auto|]. apply ev_parsed; [intros x E; exists n1, p, x; auto|]. intros g G. apply ev_gets. rewrite St.
    destruct (defrag6 (s_now (n_tx n)) p g (n_flows6 n1)) as [fs r] eqn:D. apply ev_upd. apply ev_lift. intros [w|] E; [|apply ev_plain]. subst r.
    apply ev_tick; [exists n1, p, g, fs, w; auto|]. apply IH. eapply p6_made; eauto.
  - apply (se_dispatch6 n f n1 p); auto. apply Hn. apply rx6_whole; auto. rewrite Ea. exact M.
Qed.
Lemma se_ether n f : wf_bytes f -> node_ok n -> socks_ok (n_socks n) -> every (means n f) (t_ether f) n.
Proof.
  intros W K N. unfold t_ether. said. apply ev_parsed; [intros x E; exists x; exact E|]. intros e E. apply ev_gets.
  destruct (mem (EtherModel.e_dst e) (a_mac (my_addrs n) :: a_mac_mcast (my_addrs n) ++ [mac_broadcast])) eqn:M; cbn [negb].
  2:{ apply ev_end. exists e. split; [exact E|]. rewrite <- our_mac_mem, M. discriminate. }
  apply our_mac_mem in M. assert (U : for_us n f e) by (split; auto).
  apply ev_tick_if; [intros X; apply Z.eqb_eq in X; exists e; auto|].
  apply ev_tick_if; [intros X; apply mem_In in X; exists e; auto|].
  apply ev_tick_if; [intros X; apply Z.eqb_eq in X; exists e; auto|].
  destruct (_ && _) eqn:T1; [apply andb_true_iff in T1 as [T1 S1]; apply Z.eqb_eq in T1; apply (se_arp n f e); auto|].
  destruct (_ && _) eqn:T2 in |- *; [apply andb_true_iff in T2 as [T2 S2]; apply Z.eqb_eq in T2; apply se_ip4; auto; split; [exists e; auto|auto]|].
  destruct (_ && _) eqn:T3 in |- *; [|apply ev_plain]. apply andb_true_iff in T3 as [T3 S3]; apply Z.eqb_eq in T3.
  apply (se_ip6 n f W K N (S (length (EtherModel.e_rest e) + flows_bytes (n_flows6 n))) n (EtherModel.e_rest e)). apply p6_frame; [exists e; auto|exact S3].
Qed.
Lemma counted_means n f c : wf_bytes f -> node_ok n -> socks_ok (n_socks n) -> In c (counted f n) -> means n f c.
Proof. intros W K N H. pose proof (se_ether n f W K N) as E. unfold every in E. rewrite Forall_forall in E. apply E. exact H. Qed.
