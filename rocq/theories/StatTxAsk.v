(** The counters that tell what a request asked for. *)
From Verif Require Import Base BaseLemmas CodecModel AddrModel AddrProofs EtherModel Ip4Model Ip6Model UdpModel TcpModel
  Icmp4Model Icmp6Model FragModel FragSendProofs RingModel BufProofs StackModel StackTxProofs StackRouteProofs StackSendProofs
  StatTxModel SpecStatTx StatTxProofs StatTxFrames StatTxStatus StatTxSource.

Definition upper (c : txc) : bool :=
  match c with
  | udp__pre_assemble | udp__send | udp__unknown__drop | tcp__pre_assemble | tcp__send | tcp__unknown__drop
  | tcp__flag_syn | tcp__flag_ack | tcp__flag_fin | tcp__flag_rst | tcp__opt_mss | tcp__opt_wscale
  | icmp4__pre_assemble | icmp4__echo_reply__send | icmp4__echo_request__send | icmp4__unreachable_port__send
  | icmp6__echo_reply__send | icmp6__echo_request__send | icmp6__unreachable_port__send
  | icmp6__nd_router_solicitation__send | icmp6__nd_router_advertisement__send
  | icmp6__nd_neighbor_advertisement__send | icmp6__mld2_report__send | arp__op_reply__send => true
  | _ => false
  end.
Definition bare (l : list txc) : Prop := existsb upper l = false.
Lemma bare_app l l' : bare l -> bare l' -> bare (l ++ l').
Proof. intros H K. unfold bare. rewrite existsb_app, H, K. reflexivity. Qed.
Ltac bar := repeat first [assumption | reflexivity | apply bare_app].
Lemma bare_none c l : bare l -> upper c = true -> tcnt c l = 0.
Proof.
  intros B U. unfold tcnt. destruct (in_dec txc_eq_dec c l) as [I|N].
  - assert (existsb upper l = true); [|unfold bare in B; congruence]. apply existsb_exists. exists c. auto.
  - apply (count_occ_not_In txc_eq_dec) in N. rewrite N. reflexivity.
Qed.
Lemma tcnt_app' c l l' : tcnt c (l ++ l') = tcnt c l + tcnt c l'.
Proof. unfold tcnt. rewrite count_occ_app. lia. Qed.
Lemma b_arp a e d p : a_oper p = ARP_OP_REQUEST -> runs a (x_arp e d p) (fun l _ _ => bare l).
Proof. intros E. unfold x_arp, ether_head, when. rewrite E. destruct (mac_is_unspecified e); r; bar. Qed.
Lemma b_arp_find a ip : runs a (x_arp_find ip) (fun l _ _ => bare l).
Proof.
  unfold x_arp_find, x_arp_request. r; bar. eapply r_bind with (Q := fun l _ _ => bare l); [|intros ? ? ? H; r; bar|auto].
  r. eapply r_bind; [apply b_arp; reflexivity| |auto]. intros ? ? ? H. r; bar.
Qed.
Lemma b_ether_ip4 a s d p : runs a (x_ether_ip4 s d p) (fun l _ _ => bare l).
Proof.
  unfold x_ether_ip4. change (ether_head 0) with (count [ether__pre_assemble; ether__src_unspec__fill]).
  r; bar; (eapply r_bind; [apply b_arp_find|intros m l n H; r; bar|intros; bar]).
Qed.
Lemma b_frags4 a s d l : runs a (x_frags4 s d l) (fun l _ _ => bare l).
Proof.
  induction l as [|[t b] l IH]; cbn [x_frags4]; r; bar.
  eapply r_bind; [apply b_ether_ip4| |intros; bar]. intros x l1 n1 H1. eapply r_bind; [apply IH| |intros; bar]. intros xs l2 n2 H2. r; bar.
Qed.
Lemma src4_bare a s d p : bare (fst (x_src4 a s d p)).
Proof.
  unfold x_src4. repeat match goal with |- bare (fst (if ?b then _ else _)) => destruct b
    | |- bare (fst (match ?x with _ => _ end)) => destruct x end; reflexivity.
Qed.
Lemma src6_bare a s d p : bare (fst (x_src6 a s d p)).
Proof.
  unfold x_src6. repeat match goal with |- bare (fst (if ?b then _ else _)) => destruct b
    | |- bare (fst (match ?x with _ => _ end)) => destruct x end; reflexivity.
Qed.
Lemma b_ip4 a s d t p : runs a (x_ip4 s d t p) (fun l _ _ => bare l).
Proof.
  pose proof (src4_bare a s d p) as V. unfold x_ip4. apply r_count, r_assert; [intros _|bar]. apply r_addrs. destruct (negb _); [r; bar|]. cbv zeta.
  apply r_count. revert V. destruct (x_src4 a s d p) as [cs v]. cbn [fst snd]. intros V. destruct v as [src|st]; [|r; bar].
  destruct (ip4_is_unspecified d); [r; bar|]. apply r_assert; [intros _|bar]. destruct (_ <=? _).
  - apply r_count. eapply r_weaken; [apply b_ether_ip4|]. intros l n x H. bar.
  - r; bar. eapply r_bind; [apply b_frags4| |intros; bar]. intros xs l2 n2 H2. r; bar.
Qed.
Lemma b_ether_ip6 a f s d p : (forall x, runs a (f x) (fun l _ _ => bare l)) -> runs a (x_ether_ip6 f s d p) (fun l _ _ => bare l).
Proof.
  intros F. unfold x_ether_ip6. change (ether_head 0) with (count [ether__pre_assemble; ether__src_unspec__fill]).
  assert (N : forall x, runs a (x_nd_find f x) (fun l _ _ => bare l)).
  { intros x. unfold x_nd_find. r; bar. eapply r_bind; [apply F| |intros; bar]. intros ? ? ? H. r; bar. }
  r; bar; (eapply r_bind; [apply N|intros m l n H; r; bar|intros; bar]).
Qed.
Lemma b_frags6 a f n i l : (forall x, runs a (f (PFrag6 n i x)) (fun l _ _ => bare l)) -> runs a (x_frags6 f n i l) (fun l _ _ => bare l).
Proof.
  intros F. induction l as [|x l IH]; cbn [x_frags6]; r; bar.
  eapply r_bind; [apply F| |intros; bar]. intros y l1 n1 H1. eapply r_bind; [apply IH| |intros; bar]. intros xs l2 n2 H2. r; bar.
Qed.
Lemma b_ip6_fuel a fuel : forall s d h p, runs a (x_ip6_fuel fuel s d h p) (fun l _ _ => bare l).
Proof.
  induction fuel as [|fuel IH]; intros s d h p; cbn [x_ip6_fuel]; [r; bar|]. cbv zeta. pose proof (src6_bare a s d p) as V.
  apply r_count, r_assert; [intros _|bar]. apply r_addrs. destruct (negb _); [r; bar|]. apply r_count.
  revert V. destruct (x_src6 a s d p) as [cs v]. cbn [fst snd]. intros V. destruct v as [src|st]; [|r; bar].
  destruct (ip6_is_unspecified d); [r; bar|]. apply r_assert; [intros _|bar]. destruct (_ <=? _).
  - apply r_count. eapply r_weaken; [apply b_ether_ip6|intros l n x H; bar].
    intros x. r; bar. eapply r_bind; [apply IH| |intros; bar]. intros st l n H0. r; bar.
  - apply r_count, r_gets. intros id0. apply r_lift; [intros [fs id] _|intros; bar]. r; bar.
    eapply r_bind; [apply b_frags6; intros; apply IH| |intros; bar]. intros xs l2 n2 H2. r; bar.
Qed.
Definition as_asked a q (l : list txc) : Prop := forall c z, asked_for a q c = Some z -> tcnt c l = z.
Lemma asked_upper a q c z : asked_for a q c = Some z -> upper c = true.
Proof. destruct c; cbn; try discriminate; reflexivity. Qed.
Lemma asked_pre a q pre l : bare l -> as_asked a q pre -> as_asked a q (pre ++ l).
Proof. intros B H c z E. rewrite tcnt_app', (bare_none c l B (asked_upper _ _ _ _ E)), Z.add_0_r. apply H. exact E. Qed.
Lemma b_request a q : runs a (x_request q) (fun l _ r => ok (as_asked a q) l r).
Proof.
  assert (K4 : forall pre s d t x, as_asked a q pre -> runs a (x_ip4 s d t x) (fun l _ r => ok (as_asked a q) (pre ++ l) r)).
  { intros. eapply r_weaken; [apply b_ip4|]. intros l n [y|y] H0; [|exact I]. apply asked_pre; assumption. }
  assert (K6 : forall pre s d t x, as_asked a q pre -> runs a (x_ip6 s d t x) (fun l _ r => ok (as_asked a q) (pre ++ l) r)).
  { intros. eapply r_weaken; [apply b_ip6_fuel|]. intros l n [y|y] H0; [|exact I]. apply asked_pre; assumption. }
  destruct q; cbn [x_request].
  - unfold x_arp. apply r_count, r_addrs.
    assert (H : a_oper p = 2 -> (a_oper p =? ARP_OP_REQUEST) = false) by (unfold ARP_OP_REQUEST; lia).
    destruct (a_sup4 a) eqn:Hs; cbn [negb].
    2:{ r. intros c z E. destruct c; cbn in E; rewrite ?Hs in E; try discriminate; injection E as <-; reflexivity. }
    unfold when, ether_head, ARP_OP_REPLY. destruct (Z.eqb_spec (a_oper p) 2) as [E2|E2].
    + rewrite (H E2). destruct (mac_is_unspecified esrc); r; try exact I; intros c z E; destruct c; cbn in E; rewrite ?Hs, ?E2 in E; try discriminate; injection E as <-; reflexivity.
    + assert (Q : (a_oper p =? 2) = false) by lia. destruct (a_oper p =? ARP_OP_REQUEST), (mac_is_unspecified esrc); r; try exact I; intros c z E; destruct c; cbn in E; rewrite ?Hs, ?Q in E; try discriminate; injection E as <-; reflexivity.
  - apply (K4 []). intros c z E. destruct c; cbn in E; try discriminate; injection E as <-; reflexivity.
  - apply (K6 []). intros c z E. destruct c; cbn in E; try discriminate; injection E as <-; reflexivity.
  - unfold x_udp. destruct src, dst; r; try exact I;
      try (intros c z E; destruct c; cbn in E; try discriminate; injection E as <-; reflexivity);
      (apply (K4 ([_] ++ [_])) || apply (K6 ([_] ++ [_]))); intros c z E; destruct c; cbn in E; try discriminate; injection E as <-; reflexivity.
  - unfold x_tcp. cbv zeta.
    assert (O : forall c, tcnt c (tcp_opt_counts mss wscale) =
      match c with tcp__opt_mss => if nonzero mss then 1 else 0 | tcp__opt_wscale | tcp__opt_nop => if nonzero wscale then 1 else 0 | _ => 0 end).
    { intros c. unfold tcp_opt_counts, nonzero. destruct mss as [m|], wscale as [w|]; try destruct (m =? 0); try destruct (w =? 0); destruct c; reflexivity. }
    assert (F : forall c, tcnt c (when fack tcp__flag_ack ++ when frst tcp__flag_rst ++ when fsyn tcp__flag_syn ++ when ffin tcp__flag_fin) =
      match c with tcp__flag_ack => if fack then 1 else 0 | tcp__flag_rst => if frst then 1 else 0 | tcp__flag_syn => if fsyn then 1 else 0
      | tcp__flag_fin => if ffin then 1 else 0 | _ => 0 end).
    { intros c. destruct fack, frst, fsyn, ffin, c; reflexivity. }
    revert O F. generalize (tcp_opt_counts mss wscale).
    generalize (when fack tcp__flag_ack ++ when frst tcp__flag_rst ++ when fsyn tcp__flag_syn ++ when ffin tcp__flag_fin). intros lf lo O F.
    assert (W : forall k, as_asked a (QTcp src dst sport dport seq ack fsyn fack ffin frst win mss wscale data) ([tcp__pre_assemble] ++ lo ++ lf ++ [k]) ->
      as_asked a (QTcp src dst sport dport seq ack fsyn fack ffin frst win mss wscale data) ((tcp__pre_assemble :: lo) ++ lf ++ [k])) by (intros k X; exact X).
    destruct src, dst; r; try exact I.
    + eapply r_weaken; [apply (K4 (((tcp__pre_assemble :: lo) ++ lf ++ [tcp__send])))|cbv beta; intros ? ? ? H0; rewrite <- !app_assoc in H0; exact H0].
      apply W. intros c z E. rewrite !tcnt_app', O, F. destruct c; cbn in E; try discriminate; injection E as <-; cbn; lia.
    + apply W. intros c z E. rewrite !tcnt_app', O, F. destruct c; cbn in E; try discriminate; injection E as <-; cbn; lia.
    + apply W. intros c z E. rewrite !tcnt_app', O, F. destruct c; cbn in E; try discriminate; injection E as <-; cbn; lia.
    + eapply r_weaken; [apply (K6 (((tcp__pre_assemble :: lo) ++ lf ++ [tcp__send])))|cbv beta; intros ? ? ? H0; rewrite <- !app_assoc in H0; exact H0].
      apply W. intros c z E. rewrite !tcnt_app', O, F. destruct c; cbn in E; try discriminate; injection E as <-; cbn; lia.
  - unfold x_icmp4. apply r_count, r_lift; [intros t Et|intros; exact I]. apply r_count, (K4 ([_] ++ [_])).
    assert (Ty : type = match t with T4EchoReply _ _ _ => 0 | T4EchoRequest _ _ _ => 8 | T4UnreachPort _ => 3 end).
    { unfold icmp4_new, assert_ in Et. repeat match type of Et with (if ?b then _ else _) = _ => destruct b eqn:?; try discriminate end; injection Et as <-; lia. }
    subst type. clear. intros c z E. destruct t, c; cbn in E; try discriminate; injection E as <-; reflexivity.
  - unfold x_icmp6. apply r_count, r_lift; [intros t' Et|intros; exact I]. apply r_count, (K6 ([_] ++ [_])).
    assert (Ty : icmp6_counter t' = icmp6_counter t).
    { unfold icmp6_new, assert_ in Et. destruct t; repeat match type of Et with (if ?b then _ else _) = _ => destruct b; try discriminate end; injection Et as <-; reflexivity. }
    rewrite Ty. clear. intros c z E. destruct t, c; cbn in E; try discriminate; injection E as <-; reflexivity.
Qed.

(** ** sequences *)
Lemma g_requests qs : forall s c s' rs, x_requests qs s = (c, (s', rs)) -> Forall returned rs ->
  laws (Z.of_nat (length (filter is_direct qs))) 0 0 0 c.
Proof.
  induction qs as [|q qs IH]; intros s c s' rs E F; cbn [x_requests] in E.
  { injection E as <- <- <-. split; reflexivity || (cbn; lia). }
  destruct (x_request q s) as [l [s1 x]] eqn:E1. destruct (x_requests qs s1) as [l2 [s2 xs]] eqn:E2. injection E as <- <- <-.
  inversion F as [|? ? R Rs]; subst. destruct x as [st|e]; [|destruct R].
  pose proof (g_request q s l s1 st E1) as L1. pose proof (IH _ _ _ _ E2 Rs) as L2.
  pose proof (laws_app _ _ _ _ _ _ _ _ _ _ L1 L2) as L. cbn [filter] in *. destruct (is_direct q); cbn [length]; [|exact L].
  replace (Z.of_nat (S (length (filter is_direct qs)))) with (1 + Z.of_nat (length (filter is_direct qs))) by lia. exact L.
Qed.
Lemma requests_run qs : forall s, snd (x_requests qs s) = (fix go l s := match l with [] => (s, []) | q :: r => let '(s', x) := send_request q s in let '(s'', xs) := go r s' in (s'', x :: xs) end) qs s.
Proof.
  induction qs as [|q qs IH]; intros s; [reflexivity|]. cbn [x_requests]. rewrite (spent_run q s). destruct (send_request q s) as [s1 x].
  specialize (IH s1). destruct (x_requests qs s1) as [l2 [s2 xs]]. cbn [snd] in IH. rewrite <- IH. reflexivity.
Qed.
