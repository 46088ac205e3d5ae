(** The messages of address autoconfiguration. *)
From Verif Require Import Base BaseLemmas CodecModel AddrModel AddrProofs RingModel Ip6Model FragModel EtherModel Icmp6Model StackModel SpecStack StackTxProofs StackRxModel
  SpecRx RxProofs SpecReact ReactProofs AcquireModel SpecAcquire AcquireProofs SpecDad.

(** the source that an unspecified one is replaced with *)
Definition dad_source (a : addrs) (g : Z) : Z :=
  match pick_by_net 128 (a_host6 a) g with Some x => x | None => match pick_by_gw (a_host6 a) with Some x => x | None => 0 end end.
Lemma dad_valid a c g : ~ In 0 (a_mcast6 a) -> validate_src6 a 0 g (PIcmp6 (T6Ns c [])) = inl (dad_source a g).
Proof.
  intros N. unfold validate_src6, dad_source. rewrite (mem_not _ _ N). change (0 =? 0) with true. rewrite orb_true_r. cbn [negb].
  change (ip6_is_unspecified 0) with true. cbn [negb]. destruct (pick_by_net _ _ _); [reflexivity|]. destruct (pick_by_gw _); reflexivity.
Qed.
Lemma pick_net_none n l g : (forall h, In h l -> net_contains n (h_net h) g = false) -> pick_by_net n l g = None.
Proof. induction l as [|h l IH]; intros H; [reflexivity|]. cbn. rewrite H by (left; reflexivity). apply IH. intros x X. apply H. right. exact X. Qed.
Lemma pick_gw_none l : (forall h, In h l -> h_gw h = None) -> pick_by_gw l = None.
Proof. induction l as [|h l IH]; intros H; [reflexivity|]. cbn. rewrite H by (left; reflexivity). apply IH. intros x X. apply H. right. exact X. Qed.
Lemma dad_source_free a g : no_route a g -> dad_source a g = 0.
Proof. intros H. unfold dad_source. rewrite pick_net_none, pick_gw_none; [reflexivity|intros h I; apply H; exact I|intros h I; apply H; exact I]. Qed.
Lemma dad_source_own a g : dad_source a g <> 0 -> In (dad_source a g) (ip6_unicast a).
Proof.
  unfold dad_source. destruct (pick_by_net _ _ _) eqn:E; [intros _; eapply pick_by_net_In; eauto|].
  destruct (pick_by_gw _) eqn:E'; [intros _; eapply pick_by_gw_In; eauto|congruence].
Qed.
Lemma icmp6_group s src dst t : 0 < dst < 2 ^ 128 -> ip6_is_multicast dst = true -> a_sup6 (s_addrs s) = true -> icmp6_new t = Ok t -> icmp6_tx_len t <= 1460 ->
  forall x, validate_src6 (s_addrs s) src dst (PIcmp6 t) = inl x ->
  phtx_icmp6 src dst 255 t s = (addl [{| f_dst := group_mac dst; f_src := a_mac (s_addrs s); f_pkt := NIp6 (ip6_plain_tx x dst 255 58) (PIcmp6 t) |}] s, Ok PassedToTxRing).
Proof.
  intros R MC S N L x V. unfold phtx_icmp6, mbind at 1, lift at 1. rewrite N. unfold phtx_ip6. rewrite phtx_ip6_step.
  change (massert ((0 <? 255) && (255 <? 256))) with (fun k : M tx_status => k). cbv beta.
  unfold mbind at 1, gets at 1. rewrite S. cbn [negb]. rewrite V. unfold ip6_is_unspecified. replace (dst =? 0) with false by lia.
  cbv zeta. change (massert (ip6_tx_ok _)) with (fun k : M tx_status => k). cbv beta.
  change (c_len (payload_carried (PIcmp6 t))) with (icmp6_tx_len t). replace (40 + icmp6_tx_len t <=? TAP_MTU) with true by (unfold TAP_MTU; lia).
  rewrite ether_ip6_multicast by (auto; lia). reflexivity.
Qed.
Lemma send_dad_out c n : 0 <= c < 2 ^ 128 -> a_sup6 (my_addrs n) = true -> ~ In 0 (a_mcast6 (my_addrs n)) ->
  exists n', send_dad c n = (n', Ok tt) /\
    s_out (n_tx n') = s_out (n_tx n) ++ [dad_frame (a_mac (my_addrs n)) (dad_source (my_addrs n) (solicited_node c)) c].
Proof.
  intros H S N. destruct (group_ok c H) as (Eg & Hg & Mg). unfold send_dad, rbind' at 1, rlift. rewrite Eg. unfold tx_, rbind', tx.
  pose proof (solicited_node_pos c) as P.
  rewrite (icmp6_group (n_tx n) 0 (solicited_node c) (T6Ns c [])) with (x := dad_source (my_addrs n) (solicited_node c)); auto; try lia.
  - eexists. split; reflexivity.
  - cbn. lia.
  - apply dad_valid. exact N.
Qed.
Lemma send_rs_out n x l : a_sup6 (my_addrs n) = true -> ip6_unicast (my_addrs n) = x :: l -> x <> 0 -> ~ In x (a_mcast6 (my_addrs n)) ->
  exists n', send_rs n = (n', Ok tt) /\ s_out (n_tx n') = s_out (n_tx n) ++ [rs_frame (a_mac (my_addrs n)) x].
Proof.
  intros S U N0 N. unfold send_rs, rbind' at 1, rgets. unfold rbind' at 1, rlift. rewrite U. unfold tx_, rbind', tx.
  rewrite (icmp6_group (n_tx n) x all_routers (T6Rs [TSlla (a_mac (my_addrs n))])) with (x := x); auto.
  - eexists. split; reflexivity.
  - unfold all_routers. lia.
  - cbn. lia.
  - change (s_addrs (n_tx n)) with (my_addrs n). unfold validate_src6. rewrite U. unfold mem at 1. cbn [existsb]. rewrite Z.eqb_refl. cbn [orb negb].
    rewrite (mem_not _ _ N). unfold ip6_is_unspecified. replace (x =? 0) with false by lia. reflexivity.
Qed.
Lemma nd_dad_sent c w w' v : 0 <= c < 2 ^ 128 -> fit w -> quiet (w_node w) -> a_sup6 (my_addrs (w_node w)) = true -> ~ In 0 (a_mcast6 (my_addrs (w_node w))) ->
  nd_dad c w = (w', Ok v) -> let a := my_addrs (w_node w) in
  exists o, s_out (n_tx (w_node w')) = s_out (n_tx (w_node w)) ++ o /\ In (dad_frame (a_mac a) (dad_source a (solicited_node c)) c) o.
Proof.
  intros Hc F Q S N0 E a. destruct (group_ok c Hc) as (Eg & Hg & Mg). set (g := solicited_node c) in *.
  unfold nd_dad in E. rewrite Eg in E.
  apply wbind_ok in E as (w0 & g' & E0 & E). apply act_inv in E0 as (E0 & S0 & L0). cbn [rlift] in E0.
  apply pair_equal_spec in E0 as [Nn G0]. apply ok_inj in G0. subst g'.
  assert (W0 : w0 = w) by (destruct w, w0; cbn in *; congruence). clear Nn S0 L0. subst w0.
  apply wbind_ok in E as (w1 & u1 & E1 & E). destruct (yield_step _ _ _ F E1) as (_ & s1 & k1 & M1). clear E1.
  destruct M1 as (L1 & G1 & A1 & F1 & (o1 & O1) & K1 & D1).
  apply wbind_ok in E as (w2 & u2 & E2 & E). pose proof (act_inv _ _ _ _ E2) as (E2' & _).
  apply assign_mcast_step in E2'; auto. destruct (moved_act _ _ _ _ _ E2 E2' F1) as (F2 & A2 & D2 & L2 & o2 & O2). clear E2 E2'.
  rewrite A1 in A2. fold a in A1, A2, G1.
  apply wbind_ok in E as (w3 & u3 & E3 & E). destruct (yield_step _ _ _ F2 E3) as (_ & s3 & k3 & M3). clear E3.
  destruct M3 as (L3 & G3 & A3 & F3 & (o3 & O3) & K3 & D3). rewrite A2 in A3, G3.
  apply wbind_ok in E as (w4 & u4 & E4 & E). pose proof (act_inv _ _ _ _ E4) as (E4' & _). unfold rupd in E4'.
  apply pair_equal_spec in E4' as [E4' _].
  assert (R4 : rsteps (with_cand6 (Some c) (my_addrs (w_node w3))) (w_node w3) (w_node w4)) by (rewrite <- E4'; apply rsteps_set).
  destruct (moved_act _ _ _ _ _ E4 R4 F3) as (F4 & A4 & D4 & L4 & o4 & O4). clear E4 E4' R4. rewrite A3 in A4.
  apply wbind_ok in E as (w5 & u5 & E5 & E). destruct (yield_step _ _ _ F4 E5) as (_ & s5 & k5 & M5). clear E5.
  destruct M5 as (L5 & G5 & A5 & F5 & (o5 & O5) & K5 & D5). rewrite A4 in A5, G5.
  apply wbind_ok in E as (w6 & u6 & E6 & E). pose proof (act_inv _ _ _ _ E6) as (E6' & _).
  destruct (send_dad_out c (w_node w5) Hc) as (n6 & X6 & O6).
  { rewrite A5. exact S. }
  { rewrite A5. cbn. intros I. apply in_app_or in I. destruct I as [I|[I|[]]]; [contradiction|]. pose proof (solicited_node_pos c). fold g in H. lia. }
  rewrite A5 in O6. rewrite X6 in E6'. apply pair_equal_spec in E6' as [E6' _]. subst n6.
  assert (R6 : rsteps (my_addrs (w_node w5)) (w_node w5) (w_node w6)).
  { unfold send_dad, rbind' at 1, rlift in X6. rewrite Eg in X6. apply rstep_rsteps. eapply rstep_tx; [|exact X6]. apply mg_icmp6. }
  destruct (moved_act _ _ _ _ _ E6 R6 F5) as (F6 & A6 & D6 & L6 & _). clear E6 X6 R6. rewrite A5 in A6.
  apply wbind_ok in E as (w7 & b & E7 & E).
  unfold acquire in E7. destruct (wait_sem n_dad dad_taken (next_frames w6) (advance w6)) as [w7' b'] eqn:E7'.
  apply pair_equal_spec in E7 as [X7 Y7]. apply ok_inj in Y7. subst w7' b'.
  destruct (fit_advance w6 F6) as (F6' & W6). destruct Q as [_ Qd].
  pose proof (counted_nonneg _ _ _ K1) as P1. pose proof (counted_nonneg _ _ _ K3) as P3. pose proof (counted_nonneg _ _ _ K5) as P5.
  apply (wait_step _ _ _ _ W6 F6') in E7'; [|cbn [advance w_node]; lia].
  destruct E7' as (s7 & k7 & L7 & G7 & A7 & F7 & (o7 & O7) & K7 & B7 & D7). cbn [advance w_node w_log] in *. rewrite A6 in A7, G7.
  apply wbind_ok in E as (w8 & u8 & E8 & E). pose proof (act_inv _ _ _ _ E8) as (E8' & _). unfold rupd in E8'.
  apply pair_equal_spec in E8' as [E8' _].
  assert (R8 : rsteps (with_cand6 None (my_addrs (w_node w7))) (w_node w7) (w_node w8)) by (rewrite <- E8'; apply rsteps_set).
  destruct (moved_act _ _ _ _ _ E8 R8 F7) as (F8 & A8 & D8 & L8 & o8 & O8). clear E8 E8' R8.
  apply wbind_ok in E as (w9 & u9 & E9 & E). destruct (yield_step _ _ _ F8 E9) as (_ & s9 & k9 & M9). clear E9.
  destruct M9 as (L9 & G9 & A9 & F9 & (o9 & O9) & K9 & D9).
  apply wbind_ok in E as (w10 & u10 & E10 & E). pose proof (act_inv _ _ _ _ E10) as (E10' & _). destruct u10.
  apply remove_mcast_step in E10' as (l & m & El & Em & E10'); auto.
  destruct (moved_act _ _ _ _ _ E10 E10' F9) as (F10 & A10 & D10 & L10 & o10 & O10). clear E10 E10'.
  unfold wret in E. apply pair_equal_spec in E as [<- E].
  exists (o1 ++ o2 ++ o3 ++ o4 ++ o5 ++ [dad_frame (a_mac a) (dad_source a g) c] ++ o7 ++ o8 ++ o9 ++ o10).
  split; [rewrite O10, O9, O8, O7, O6, O5, O4, O3, O2, O1, !app_assoc; reflexivity|].
  do 5 (apply in_or_app; right). left. reflexivity.
Qed.
