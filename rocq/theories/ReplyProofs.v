(** What the replies of the receive path come down to on the wire, and when sending one
    raises. *)
From Verif Require Import Base BaseLemmas CksumModel SpecCksum CodecModel CodecLemmas AddrModel SpecAddr AddrProofs SpecWire EtherModel EtherProofs
  Ip4Model Ip4Proofs PshdrLemmas Ip6Model Ip6Proofs UdpModel UdpProofs UdpIpProofs TcpModel TcpProofs TcpAsmProofs Icmp4Model Icmp4Proofs
  Icmp6Model Icmp6Proofs Icmp6AsmProofs FragModel FragProofs FragSendProofs BufProofs RingModel RingProofs
  StackModel SpecStack StackTxProofs StackWireProofs StackSendProofs StackRouteProofs StackRxModel SpecRx RxProofs SpecReact ReactProofs.

(** ** messages that arrived *)
Lemma be_word f a : wf_bytes f -> 0 <= be (slice a (a + 2) f) < 65536.
Proof.
  intros W. assert (Ws : wf_bytes (slice a (a + 2) f)) by (apply wf_slice; auto).
  pose proof (be_bound _ Ws) as B. assert (L : (length (slice a (a + 2) f) <= 2)%nat).
  { unfold slice. rewrite firstn_length. lia. }
  destruct B as [B1 B2]. split; [exact B1|]. eapply Z.lt_le_trans; [exact B2|].
  change 65536 with (256 ^ 2). apply Z.pow_le_mono_r; unfold zlen; lia.
Qed.
Lemma echo4_body n f n1 src dst q id seq data : icmp4_in n f n1 src dst q -> wf_bytes f -> node_ok n ->
  q4_body q = B4Echo id seq data ->
  0 <= src < 2 ^ 32 /\ 0 <= dst < 2 ^ 32 /\ 0 <= id < 65536 /\ 0 <= seq < 65536 /\ wf_bytes data /\ zlen data < 65528.
Proof.
  intros (p & R & T & -> & -> & Ep) W K B.
  destruct (rx4_facts _ _ _ _ R W K) as (_ & _ & _ & _ & _ & _ & Wf & P).
  destruct (in4_facts _ _ Wf P) as (Wr & Hl & Lr & _ & Hs & Hd & _).
  destruct (icmp4_parse_total _ _ Wr Hl) as [(x & X & _)|(X & _)]; rewrite X in Ep; [discriminate|].
  injection Ep as <-. unfold icmp4_of in B. cbn [q4_body] in B.
  destruct (_ || _); [|destruct (_ =? 3); discriminate]. injection B as <- <- <-.
  split; [auto|]. split; [auto|]. split; [apply (be_word _ 4 Wr)|]. split; [apply (be_word _ 6 Wr)|].
  split; [apply wf_slice; auto|]. unfold zlen, slice. rewrite firstn_length, skipn_length. lia.
Qed.
Lemma icmp6_shape n f n1 src dst q : icmp6_in n f n1 src dst q -> wf_bytes f -> node_ok n ->
  0 <= src < 2 ^ 128 /\ 0 <= dst < 2 ^ 128 /\ exists seg plen opts, wf_bytes seg /\ 0 <= plen < 65536 /\ q = icmp6_of seg plen opts.
Proof.
  intros (p & ps & R & T & -> & -> & Eps & Ep) W K.
  destruct (rx6_facts _ _ _ _ R W K) as (_ & _ & _ & _ & _ & Wf & P).
  destruct (in6_facts _ _ Wf P) as (Wr & Hl & _ & _ & Hs & Hd & _ & ps' & Eps' & Hps). split; [auto|]. split; [auto|].
  rewrite Eps in Eps'. injection Eps' as <-.
  destruct (icmp6_parse_cases _ _ _ _ (i6_src p) (i6_dst p) (i6_hop p) Wr Hl Hps) as [(x & X)|[(opts & X & _)|(_ & x & X & _)]];
      rewrite X in Ep; try discriminate. injection Ep as <-. eauto 7.
Qed.
Lemma echo6_body n f n1 src dst q id seq data : icmp6_in n f n1 src dst q -> wf_bytes f -> node_ok n ->
  q6_body q = B6Echo id seq data ->
  0 <= src < 2 ^ 128 /\ 0 <= dst < 2 ^ 128 /\ 0 <= id < 65536 /\ 0 <= seq < 65536 /\ wf_bytes data /\ zlen data < 65528.
Proof.
  intros I W K B. destruct (icmp6_shape _ _ _ _ _ _ I W K) as (Hs & Hd & seg & plen & opts & Wr & Hl & ->).
  unfold icmp6_of in B. cbn [q6_body] in B.
  repeat match type of B with (if ?b then _ else _) = _ => destruct b end; try discriminate. injection B as <- <- <-.
  split; [auto|]. split; [auto|]. split; [apply (be_word _ 4 Wr)|]. split; [apply (be_word _ 6 Wr)|].
  split; [apply wf_slice; auto|]. unfold zlen, slice. rewrite firstn_length, skipn_length. lia.
Qed.
Definition kind_ok (a : ipaddr) : Prop := match a with A4 x => in32 x | A6 x => in128 x end.
Lemma udp_in_facts n f n1 src dst sport dport data whole : udp_in n f n1 src dst sport dport data whole -> wf_bytes f -> node_ok n ->
  same_kind src dst /\ kind_ok src /\ kind_ok dst /\ wf_bytes whole.
Proof.
  intros H W K. inversion H as [n1' p sp dp d R T Dg|n1' p sp dp d R T Dg]; subst.
  - destruct (rx4_facts _ _ _ _ R W K) as (_ & _ & _ & _ & _ & _ & Wf & P).
    destruct (in4_facts _ _ Wf P) as (_ & _ & _ & _ & Hs & Hd & _). cbn. repeat split; auto; try apply Hs; try apply Hd. apply wf_slice; auto.
  - destruct (rx6_facts _ _ _ _ R W K) as (_ & _ & _ & _ & _ & Wf & P).
    destruct (in6_facts _ _ Wf P) as (_ & _ & _ & _ & Hs & Hd & _). cbn. repeat split; auto; try apply Hs; try apply Hd. apply wf_slice; auto.
Qed.
Lemma be_dword f a : wf_bytes f -> 0 <= be (slice a (a + 4) f) < 2 ^ 32.
Proof.
  intros W. assert (Ws : wf_bytes (slice a (a + 4) f)) by (apply wf_slice; auto).
  pose proof (be_bound _ Ws) as B. assert (L : (length (slice a (a + 4) f) <= 4)%nat).
  { unfold slice. rewrite firstn_length. lia. }
  destruct B as [B1 B2]. split; [exact B1|]. eapply Z.lt_le_trans; [exact B2|].
  change (2 ^ 32) with (256 ^ 4). apply Z.pow_le_mono_r; unfold zlen; lia.
Qed.
Lemma tcp_in_facts n f n1 src dst s : tcp_in n f n1 src dst s -> wf_bytes f -> node_ok n ->
  same_kind src dst /\ kind_ok src /\ kind_ok dst /\ 0 < s_sport s < 65536 /\ 0 < s_dport s < 65536 /\
  0 <= s_seq s < 2 ^ 32 /\ wf_bytes (s_data s) /\ zlen (s_data s) < 65536.
Proof.
  intros H W K.
  assert (G : forall seg plen ps pseudo, wf_bytes seg -> pshdr_for pseudo ps -> 0 <= plen < 65536 -> tcp_parse seg plen ps = Ok (inr s) ->
    0 < s_sport s < 65536 /\ 0 < s_dport s < 65536 /\ 0 <= s_seq s < 2 ^ 32 /\ wf_bytes (s_data s) /\ zlen (s_data s) < 65536).
  { intros seg plen ps pseudo Ws Hp Hl E.
    destruct (tcp_accept_sound _ _ _ _ _ Ws Hp Hl E) as (A & E1 & E2 & E3 & _ & _ & _ & _ & _ & _ & _ & _ & _ & _ & _ & _ & _ & _ & E4).
    unfold tcp_acceptable in A. rewrite E1, E2, E3, E4. pose proof (be_word seg 0 Ws). pose proof (be_word seg 2 Ws).
    pose proof (be_dword seg 4 Ws). change (0 + 2) with 2 in *. change (2 + 2) with 4 in *. change (4 + 4) with 8 in *.
    split; [lia|]. split; [lia|]. split; [lia|]. split; [apply wf_slice; auto|].
    unfold zlen, slice. rewrite firstn_length, skipn_length. 
    assert (0 <= nth 12 seg 0 / 16 * 4) by lia. lia. }
  inversion H as [n1' p ps q R T Eps Ep|n1' p ps q R T Eps Ep]; subst.
  - destruct (rx4_facts _ _ _ _ R W K) as (_ & _ & _ & _ & _ & _ & Wf & P).
    destruct (in4_facts _ _ Wf P) as (Wr & Hl & _ & _ & Hs & Hd & _ & _ & ps' & Eps' & Hps). rewrite Eps in Eps'. injection Eps' as <-.
    split; [exact I|]. split; [exact Hs|]. split; [exact Hd|]. apply (G _ _ _ _ Wr Hps Hl Ep).
  - destruct (rx6_facts _ _ _ _ R W K) as (_ & _ & _ & _ & _ & Wf & P).
    destruct (in6_facts _ _ Wf P) as (Wr & Hl & _ & _ & Hs & Hd & _ & ps' & Eps' & Hps). rewrite Eps in Eps'. injection Eps' as <-.
    split; [exact I|]. split; [exact Hs|]. split; [exact Hd|]. apply (G _ _ _ _ Wr Hps Hl Ep).
Qed.

(** ** when sending raises *)
Lemma phtx_ip4_raises s src dst ttl p s' e : 0 <= dst < 2 ^ 32 -> 0 < ttl < 256 -> In (payload_proto p) [1; 17; 6; 255] ->
  phtx_ip4 src dst ttl p s = (s', Exn e) ->
  1480 < c_len (payload_carried p) /\ exists src', ip4_fragment TAP_MTU src' dst ttl (payload_proto p) (s_id4 s) (payload_carried p) = Exn e.
Proof.
  intros Hd Ht Hp E.
  destruct (phtx_ip4_cases s src dst ttl p s' (Exn e) Hd E) as [(_ & _ & _ & [X|X])|(src' & h & l & _ & _ & _ & _ & _ & _ & _ & X & _)];
    [|exact X|discriminate].
  unfold phtx_ip4, massert in E. replace ((0 <? ttl) && (ttl <? 256)) with true in E by lia.
  unfold mbind at 1, gets at 1 in E. destruct (a_sup4 (s_addrs s)) eqn:Hs; cbn [negb] in E; [|discriminate].
  destruct (validate_src4 (s_addrs s) src dst p) as [src'|st] eqn:Ev; [|discriminate].
  destruct (ip4_is_unspecified dst) eqn:Hu; [discriminate|].
  assert (Hok : ip4_tx_ok (ip4_whole_tx src' dst ttl (payload_proto p)) = true).
  { unfold ip4_tx_ok. cbn [t4_ttl t4_dscp t4_ecn t4_id t4_proto ip4_whole_tx].
    replace ((0 <=? ttl) && (ttl <=? 0xFF)) with true by lia. cbn [Z.leb Z.compare andb].
    unfold IP4_PROTO_ICMP4, IP4_PROTO_UDP, IP4_PROTO_TCP, IP4_PROTO_RAW.
    destruct Hp as [Hp|[Hp|[Hp|[Hp|[]]]]]; rewrite <- Hp; reflexivity. }
  rewrite Hok in E.
  destruct (ether_ip4_some_route (s_addrs s) src' dst Hs Hd) as (h & R).
  change (ip4_len _ _) with (20 + 0 + c_len (payload_carried p)) in E. unfold TAP_MTU in E at 1.
  destruct (20 + 0 + c_len (payload_carried p) <=? 1500) eqn:Hl.
  - rewrite R in E by reflexivity. destruct (route4_spec _ _ _ _ _ E) as (Y & _). discriminate.
  - split; [lia|]. exists src'. unfold mbind at 1, gets at 1 in E.
    destruct (ip4_fragment TAP_MTU src' dst ttl (payload_proto p) (s_id4 s) (payload_carried p)) as [[fs id]|e'] eqn:Ef.
    + unfold mbind at 1, upd at 1 in E. unfold mbind at 1 in E.
      destruct (send_frags4 src' dst fs (set_id4 id s)) as [s2 r2] eqn:E2.
      destruct (send_frags4_spec (s_addrs s) src' dst h R fs (set_id4 id s) _ _ eq_refl E2) as (-> & _). discriminate.
    + destruct e'; injection E as _ <-; reflexivity.
Qed.

Lemma phtx_ip6_raises s src dst hop p s' e : 0 <= dst < 2 ^ 128 -> gws_ok (s_addrs s) -> plain6 (s_addrs s) ->
  0 < hop < 256 -> In (payload_next p) [58; 17; 6; 255] ->
  phtx_ip6 src dst hop p s = (s', Exn e) ->
  1460 < c_len (payload_carried p) /\ exists src', ip6_fragment TAP_MTU src' dst (payload_next p) (s_id6 s) (payload_carried p) = Exn e /\
    (validate_src6 (s_addrs s) src dst p = inl src').
Proof.
  intros Hd Hg Hp Hh Hn E. pose proof E as E0. unfold phtx_ip6 in E.
  assert (Hn' : In (payload_next p) [58; 17; 6; 44; 255]) by (cbn in *; tauto).
  destruct (Z_le_gt_dec (c_len (payload_carried p)) 1460) as [Hl|Hl].
  { destruct (phtx_ip6_small 1 s src dst hop p _ _ Hd Hg Hl E)
      as [(st & V & _ & X & _)|[((S0 & N0 & A0 & X) & Nn)|(src' & Hs & _ & H0 & V & X & _)]]; try discriminate.
    exfalso. apply Nn. repeat split; try lia; auto.
    - destruct (a_sup6 (s_addrs s)) eqn:Y; [reflexivity|]. rewrite phtx_ip6_step in E. unfold massert at 1 in E.
      replace ((0 <? hop) && (hop <? 256)) with true in E by lia. unfold mbind at 1, gets at 1 in E. rewrite Y in E. discriminate.
    - intros ->. rewrite phtx_ip6_step in E. unfold massert at 1 in E.
      replace ((0 <? hop) && (hop <? 256)) with true in E by lia. unfold mbind at 1, gets at 1 in E.
      destruct (a_sup6 (s_addrs s)); cbn [negb] in E; [|discriminate].
      destruct (validate_src6 _ _ _ _); discriminate. }
  split; [lia|].
    rewrite phtx_ip6_step in E. unfold massert at 1 in E.
    replace ((0 <? hop) && (hop <? 256)) with true in E by lia. unfold mbind at 1, gets at 1 in E.
    destruct (a_sup6 (s_addrs s)) eqn:Hs; cbn [negb] in E; [|discriminate].
    destruct (validate_src6 (s_addrs s) src dst p) as [src'|st] eqn:Ev; [|discriminate].
    destruct (ip6_is_unspecified dst); [discriminate|]. cbv zeta in E. unfold massert in E at 1.
    assert (Hok : ip6_tx_ok (ip6_plain_tx src' dst hop (payload_next p)) = true).
    { unfold ip6_tx_ok. cbn [t6_hop t6_dscp t6_ecn t6_flow t6_next ip6_plain_tx].
      replace ((0 <=? hop) && (hop <=? 0xFF)) with true by lia. cbn [Z.leb Z.compare andb].
      unfold IP6_NEXT_ICMP6, IP6_NEXT_UDP, IP6_NEXT_TCP, IP6_NEXT_EXT_FRAG, IP6_NEXT_RAW.
      destruct Hn as [N|[N|[N|[N|[]]]]]; rewrite <- N; reflexivity. }
    rewrite Hok in E. unfold TAP_MTU in E at 1. replace (40 + c_len (payload_carried p) <=? 1500) with false in E by lia.
    unfold mbind at 1, gets at 1 in E. unfold mbind at 1, lift at 1 in E. exists src'. split; [|reflexivity].
    destruct (ip6_fragment TAP_MTU src' dst (payload_next p) (s_id6 s) (payload_carried p)) as [[fs id]|e'] eqn:Ef.
    2:{ injection E as _ <-. reflexivity. }
    exfalso.
    unfold mbind at 1, upd at 1 in E. cbn [fst snd] in E. unfold massert in E.
    assert (Hf : frag6_next_ok (payload_next p) = true).
    { unfold frag6_next_ok, IP6_NEXT_ICMP6, IP6_NEXT_UDP, IP6_NEXT_TCP, IP6_NEXT_RAW. destruct Hn as [N|[N|[N|[N|[]]]]]; rewrite <- N; reflexivity. }
    rewrite Hf in E. unfold mbind in E.
    destruct (send_frags6 (phtx_ip6_fuel 2 src' dst 64) (payload_next p) id fs (set_id6 id s)) as [s2 [r2|r2]] eqn:E2; [discriminate|].
    destruct (ip6_fragment_ok 1500 _ _ _ _ _ _ _ ltac:(lia) Ef) as (ps & data & Ep & Ed & -> & (C1 & C2 & C3) & _).
    assert (Fl : Forall (fun x : Z * bool * bytes => zlen (snd x) <= 1448) fs).
    { apply Forall_forall. intros x Ix. rewrite Forall_forall in C2.
      specialize (C2 (snd x) (in_map snd _ _ Ix)). cbv beta in C2. change ((1500 - 48) / 8 * 8) with 1448 in C2. lia. }
    assert (H0 : dst <> 0).
    { intros ->. unfold phtx_ip6 in E0. rewrite phtx_ip6_step in E0. unfold massert at 1 in E0.
      replace ((0 <? hop) && (hop <? 256)) with true in E0 by lia. unfold mbind at 1, gets at 1 in E0. rewrite Hs, Ev in E0. discriminate. }
    destruct (validate_src6_inl _ _ _ _ _ Ev) as [Hi|(-> & -> & Hx & Pn & Pg)].
    + destruct (send_frags6_spec 0 (s_addrs s) src' dst (payload_next p) (s_id6 s + 1) Hd Hg Hp Hs H0 Hi fs
        (set_id6 (s_id6 s + 1) s) _ _ eq_refl Fl E2) as (X & _). discriminate.
    + assert (Hv : forall x, exists st, st <> PassedToTxRing /\ ~ In st severity6 /\
              validate_src6 (s_addrs s) 0 dst (PFrag6 (payload_next p) (s_id6 s + 1) x) = inr st).
      { intros x. unfold validate_src6 at 1. rewrite Pn, Pg. cbn [Z.eqb]. rewrite orb_true_r. cbn [negb].
        destruct (mem 0 (a_mcast6 (s_addrs s))) eqn:M.
        - exfalso. unfold validate_src6 in Ev. rewrite M in Ev.
          rewrite orb_true_r in Ev. cbn [negb] in Ev. destruct (ip6_unicast (s_addrs s)) eqn:U; [discriminate|].
          cbn [orb negb] in Ev. injection Ev as ->. destruct (Hp 0); [rewrite U; left; reflexivity|lia].
        - exists Ip6SrcUnspecified. repeat split; try discriminate. cbn. intuition discriminate. }
      destruct (send_frags6_zero 0 (s_addrs s) dst (payload_next p) (s_id6 s + 1) Hd Hg Hs H0 Hv fs
        (set_id6 (s_id6 s + 1) s) _ _ eq_refl Fl E2) as (l & X & _). discriminate.
Qed.

Lemma tx_run {A} (m : M A) n : tx_ m n = (set_tx (fst (m (n_tx n))) n, match snd (m (n_tx n)) with Ok _ => Ok tt | Exn e => Exn e end).
Proof. unfold tx_, rbind', tx, rret. destruct (m (n_tx n)) as [t [x|e]]; reflexivity. Qed.
Lemma send_run q n : effect (RSend q) n =
  (set_tx (fst (send_request q (n_tx n))) n, match snd (send_request q (n_tx n)) with Ok _ => Ok tt | Exn e => Exn e end).
Proof. apply tx_run. Qed.

Lemma echo4_raises s src dst id seq data s' e : in32 dst -> 0 <= s_id4 s -> 0 <= id < 65536 -> 0 <= seq < 65536 -> wf_bytes data -> zlen data < 65528 ->
  send_request (QIcmp4 src dst 0 0 id seq data []) s = (s', Exn e) -> 1472 < zlen data /\ 65535 <= s_id4 s /\ e = AssertionError.
Proof.
  intros Hd Hi H1 H2 Wd Ld E. cbn [send_request] in E. unfold phtx_icmp4, mbind, lift in E.
  unfold icmp4_new, assert_ in E. replace ((0 <=? id) && (id <=? 0xFFFF)) with true in E by lia.
  replace ((0 <=? seq) && (seq <=? 0xFFFF)) with true in E by lia. cbn [Z.eqb andb] in E.
  destruct (phtx_ip4_raises s src dst 64 (PIcmp4 (T4EchoReply id seq data)) s' e Hd ltac:(lia) ltac:(left; reflexivity) E) as (L & src' & Ef).
  cbn [payload_carried icmp4_carried c_len icmp4_tx_len] in L.
  destruct (icmp4_asm_to (T4EchoReply id seq data) (word_sum 4 3 (ip4_pseudo src' dst 1 (8 + zlen data))) ltac:(cbn; auto)) as [_ A].
  specialize (A (repeat 0 (Z.to_nat (8 + zlen data)))). pose proof (zlen_nonneg data).
  assert (Lr : zlen (repeat 0 (Z.to_nat (8 + zlen data))) = 8 + zlen data) by (unfold zlen at 1; rewrite repeat_length; lia).
  specialize (A Lr).
  pose proof (ip4_pshdr_ok src' dst 1 (8 + zlen data) ltac:(lia) ltac:(lia)) as Ps.
  split; [lia|]. destruct (Z_lt_le_dec (s_id4 s) 65535) as [X|X].
  - exfalso. destruct (ip4_fragment_sends TAP_MTU src' dst 64 1 (s_id4 s) (icmp4_carried (T4EchoReply id seq data)) _ _ ltac:(unfold TAP_MTU; lia) Ps A)
      as (fs & F); [lia|left; reflexivity|lia|]. cbn [payload_proto payload_carried] in Ef. change IP4_PROTO_ICMP4 with 1 in Ef. rewrite F in Ef. discriminate.
  - split; [exact X|].
    assert (Nn : icmp4_tx_wire (T4EchoReply id seq data) (inet_cksum (icmp4_tx_wire (T4EchoReply id seq data) 0) 0) <> []).
    { intros Y. pose proof (icmp4_tx_wire_len (T4EchoReply id seq data) (inet_cksum (icmp4_tx_wire (T4EchoReply id seq data) 0) 0)) as Z0.
      rewrite Y in Z0. cbn [icmp4_tx_len] in Z0. change (zlen []) with 0 in Z0. lia. }
    pose proof (ip4_fragment_stuck TAP_MTU src' dst 64 1 (s_id4 s) (icmp4_carried (T4EchoReply id seq data)) _ _ ltac:(unfold TAP_MTU; lia) Ps A Nn X) as F.
    cbn [payload_proto payload_carried] in Ef. change IP4_PROTO_ICMP4 with 1 in Ef. rewrite F in Ef. injection Ef as <-. reflexivity.
Qed.

Lemma icmp6_sends s src dst hop t t' : in128 dst -> wf_addrs (s_addrs s) -> 0 < hop < 256 -> icmp6_new t = Ok t' -> icmp6_tx_ok t' ->
  icmp6_tx_len t' < 65544 -> exists s' st, send_request (QIcmp6 src dst hop t) s = (s', Ok st).
Proof.
  intros Hd (Wg & Wp & Wu) Hh Ht Hk Hl. cbn [send_request]. unfold phtx_icmp6, mbind, lift. rewrite Ht.
  destruct (phtx_ip6 src dst hop (PIcmp6 t') s) as [s' [st|e]] eqn:E; [eauto|]. exfalso.
  destruct (phtx_ip6_raises s src dst hop (PIcmp6 t') s' e Hd Wg Wp Hh ltac:(left; reflexivity) E) as (L & src' & Ef & V).
  cbn [payload_carried icmp6_carried c_len payload_next] in *. change IP6_NEXT_ICMP6 with 58 in Ef.
  assert (Hs : 0 <= src' < 2 ^ 128).
  { destruct (validate_src6_inl _ _ _ _ _ V) as [Hi|(-> & _)]; [apply Wu; exact Hi|lia]. }
  destruct (icmp6_asm_to t' (word_sum 8 5 (ip6_pseudo src' dst (icmp6_tx_len t') 58)) Hk) as [_ A].
  specialize (A (repeat 0 (Z.to_nat (icmp6_tx_len t')))).
  assert (Lr : zlen (repeat 0 (Z.to_nat (icmp6_tx_len t'))) = icmp6_tx_len t') by (unfold zlen; rewrite repeat_length; lia).
  specialize (A Lr).
  pose proof (ip6_pshdr_ok src' dst (icmp6_tx_len t') 58 Hs Hd ltac:(lia) ltac:(lia)) as Ps.
  unfold ip6_fragment in Ef. cbn [icmp6_carried c_len] in Ef, A. change (c_len (icmp6_carried t')) with (icmp6_tx_len t') in Ef.
  rewrite Ps in Ef. cbn [rbind] in Ef. rewrite A in Ef. cbn [rbind] in Ef.
  unfold chunks in Ef. rewrite data_mtu_spec in Ef by (unfold TAP_MTU; lia). change ((TAP_MTU - 48) / 8 * 8) with 1448 in Ef. discriminate.
Qed.

Lemma small4_sends s src dst type code id seq ec un t : in32 dst -> icmp4_new type code id seq ec un = Ok t -> icmp4_tx_len t <= 1480 ->
  exists s' st, send_request (QIcmp4 src dst type code id seq ec un) s = (s', Ok st).
Proof.
  intros Hd Ht Hl. cbn [send_request]. unfold phtx_icmp4, mbind, lift. rewrite Ht.
  destruct (phtx_ip4 src dst 64 (PIcmp4 t) s) as [s' [st|e]] eqn:E; [eauto|]. exfalso.
  destruct (phtx_ip4_raises s src dst 64 (PIcmp4 t) s' e Hd ltac:(lia) ltac:(left; reflexivity) E) as (L & _).
  cbn [payload_carried icmp4_carried c_len] in L. lia.
Qed.
Lemma small6_sends s src dst hop t t' : in128 dst -> wf_addrs (s_addrs s) -> 0 < hop < 256 -> icmp6_new t = Ok t' -> icmp6_tx_len t' <= 1460 ->
  exists s' st, send_request (QIcmp6 src dst hop t) s = (s', Ok st).
Proof.
  intros Hd (Wg & Wp & _) Hh Ht Hl. cbn [send_request]. unfold phtx_icmp6, mbind, lift. rewrite Ht.
  destruct (phtx_ip6 src dst hop (PIcmp6 t') s) as [s' [st|e]] eqn:E; [eauto|]. exfalso.
  destruct (phtx_ip6_raises s src dst hop (PIcmp6 t') s' e Hd Wg Wp Hh ltac:(left; reflexivity) E) as (L & _).
  cbn [payload_carried icmp6_carried c_len] in L. lia.
Qed.
Lemma zlen_cut n (d : bytes) : 0 <= n -> zlen (slice 0 n d) <= n.
Proof. intros H. unfold zlen, slice. rewrite firstn_length. lia. Qed.
Lemma reset_len src dst sp dp ack t : tcp_of_request (QTcp src dst sp dp 0 ack false true false true 0 None None []) = Some t -> x_len t = 20.
Proof. cbn [tcp_of_request]. intros [= <-]. reflexivity. Qed.

Lemma react_raises n f n1 x n' e : reacts n f n1 x -> wf_bytes f -> node_ok n -> wf_addrs (my_addrs n) -> 0 <= s_id4 (n_tx n) ->
  effect x n1 = (n', Exn e) -> reply_raises n f e.
Proof.
  intros H W K Wa Hi E.
  assert (X : forall {A} (m : M A) n n' e, tx_ m n = (n', Exn e) -> exists s', m (n_tx n) = (s', Exn e)).
  { intros A m k k' e' Y. rewrite tx_run in Y. destruct (m (n_tx k)) as [s' [z|z]]; [discriminate|]. injection Y as _ <-. eauto. }
  destruct H as
   [e0 p I O Ht Hs|e0 p I O D C Th Tp|e0 p I O D C|e0 p I O D B G
   |n1 src dst sport dport data whole i I T|n1 src dst sport dport data whole I T Z0
   |n1 src dst s i I T|n1 src dst s I T
   |n1 src dst q id seq data I T B|n1 src dst q id seq data I T B
   |n1 src dst q d lip lport rip rport i I B Q T|n1 src dst q d lip lport rip rport i I B Q T
   |n1 src dst q target opts I B Hh|n1 src dst q br bs bo target opts I B C|n1 src dst q br bs bo target opts m I B C O
   |n1 src dst q h m o rl rt rr opts I B]; cbn [effect] in E;
   try (unfold rupd in E; discriminate); try (apply X in E as (s' & E); unfold arp_add, nd_add, upd in E; discriminate E).
  - exfalso. unfold rbind' at 1, rgets in E. unfold rbind' in E. rewrite tx_run in E. cbn [send_request] in E.
    unfold phtx_arp, mbind at 1 2, gets in E. destruct (a_sup4 _); cbn [negb fst snd] in E; [|unfold tx_, rbind', tx, rret in E; discriminate].
    unfold massert in E. cbn [a_oper] in E. cbn [Z.eqb ARP_OP_REQUEST ARP_OP_REPLY Pos.eqb orb] in E.
    destruct (negb _) in E; unfold tx_, rbind', tx, rret in E; discriminate.
  - apply X in E as (s' & E). destruct (udp_in_facts _ _ _ _ _ _ _ _ _ I W K) as (Sk & Ks & Kd & Ww).
    destruct (udp_run _ _ _ _ _ _ _ _ _ I W K) as ((St & _) & _). rewrite St in E. unfold my_addrs in Wa.
    exfalso. destruct src as [a|a], dst as [b|b]; try contradiction; cbn [unreachable_for] in E.
    + destruct (small4_sends (n_tx n) b a 3 3 0 0 [] whole (T4UnreachPort (slice 0 520 whole)) Ks eq_refl) as (s1 & st & E1).
      { cbn [icmp4_tx_len]. pose proof (zlen_cut 520 whole ltac:(lia)). lia. }
      rewrite E1 in E. discriminate.
    + destruct (icmp6_sends (n_tx n) b a 64 (T6UnreachPort whole) (T6UnreachPort (slice 0 520 whole)) Ks Wa ltac:(lia) eq_refl) as (s1 & st & E1).
      { cbn. apply wf_slice; auto. } { cbn [icmp6_tx_len]. pose proof (zlen_cut 520 whole ltac:(lia)). lia. }
      rewrite E1 in E. discriminate.
  - apply X in E as (s' & E). destruct (tcp_in_facts _ _ _ _ _ _ I W K) as (Sk & Ks & Kd & Hsp & Hdp & Hsq & Wd & Ld).
    destruct (tcp_run _ _ _ _ _ _ I W K) as ((St & _) & _). rewrite St in E. unfold my_addrs in Wa. destruct Wa as (Wg & Wp & Wu).
    unfold reset_for in E. pose proof (zlen_nonneg (s_data s)).
    assert (Hb : 0 <= b2z (s_fsyn s) <= 1 /\ 0 <= b2z (s_ffin s) <= 1) by (destruct (s_fsyn s), (s_ffin s); cbn; lia).
    set (ack := s_seq s + b2z (s_fsyn s) + b2z (s_ffin s) + zlen (s_data s)) in *.
    destruct (Z_lt_le_dec ack (2 ^ 32)) as [L|L].
    + exfalso. cbn [send_request] in E. unfold phtx_tcp, massert in E.
      match type of E with context [tcp_tx_ok ?t] => set (tt0 := t) in E; assert (Hk : tcp_tx_ok tt0 = true) end.
      { unfold tcp_tx_ok, tt0. cbn [x_sport x_dport x_seq x_ack x_win x_urp x_opts x_hlen tcp_phtx_opts].
        change (x_hlen _ mod 4 =? 0) with true. change (forallb tcp_topt_ok _) with true. rewrite !andb_true_r.
        rewrite !andb_true_iff. repeat split; lia. }
      rewrite Hk in E.
      destruct src as [a|a], dst as [b|b]; try contradiction.
      * destruct (phtx_ip4_raises (n_tx n) b a 64 (PTcp tt0) s' e Ks ltac:(lia) ltac:(right; right; left; reflexivity) E) as (Lc & _).
        change (c_len (payload_carried (PTcp tt0))) with 20 in Lc. lia.
      * destruct (phtx_ip6_raises (n_tx n) b a 64 (PTcp tt0) s' e Ks Wg Wp ltac:(lia) ltac:(right; right; left; reflexivity) E) as (Lc & _).
        change (c_len (payload_carried (PTcp tt0))) with 20 in Lc. lia.
    + assert (e = AssertionError) as ->.
      { cbn [send_request] in E. unfold phtx_tcp, massert in E.
        match type of E with context [tcp_tx_ok ?t] => assert (Hk : tcp_tx_ok t = false) end.
        { unfold tcp_tx_ok. cbn [x_sport x_dport x_seq x_ack]. replace (ack <=? 0xFFFFFFFF) with false by lia.
          rewrite !andb_false_r. reflexivity. }
        rewrite Hk in E. injection E as _ <-. reflexivity. }
      apply (rp_reset n f n1 src dst s I T L).
  - apply X in E as (s' & E). destruct (echo4_body _ _ _ _ _ _ _ _ _ I W K B) as (Hs & Hd & H1 & H2 & Wd & Ld).
    destruct (icmp4_run _ _ _ _ _ _ I W K) as ((St & _) & _). rewrite St in E.
    destruct (echo4_raises _ _ _ _ _ _ _ _ Hs Hi H1 H2 Wd Ld E) as (L1 & L2 & ->). apply (rp_echo n f n1 src dst q id seq data I T B L1 L2).
  - apply X in E as (s' & E). destruct (echo6_body _ _ _ _ _ _ _ _ _ I W K B) as (Hs & Hd & H1 & H2 & Wd & Ld).
    destruct (icmp6_run _ _ _ _ _ _ I W K) as ((St & _) & _). rewrite St in E. exfalso.
    destruct (icmp6_sends (n_tx n) dst src 255 (T6EchoReply id seq data) (T6EchoReply id seq data) Hs Wa ltac:(lia)) as (s1 & st & E1).
    { cbn [icmp6_new]. unfold assert_. replace ((0 <=? id) && (id <=? 0xFFFF)) with true by lia.
      replace ((0 <=? seq) && (seq <=? 0xFFFF)) with true by lia. reflexivity. }
    { cbn. auto. } { cbn [icmp6_tx_len]. lia. }
    rewrite E1 in E. discriminate.
  - exfalso. destruct (icmp6_run _ _ _ _ _ _ I W K) as ((St & _) & Hs & Hd & _).
    set (l := if (src =? 0) || _ then _ else _) in E. clearbody l.
    assert (G : forall st0, s_addrs st0 = s_addrs (n_tx n) -> exists s' st, send_request (advertisement (a_mac (my_addrs n)) src target) st0 = (s', Ok st)).
    { intros st0 Ea. assert (Wa' : wf_addrs (s_addrs st0)) by (rewrite Ea; exact Wa). unfold advertisement. destruct (src =? 0).
      - apply (small6_sends st0 target _ 255 _ (T6Na false false true target [TTlla (a_mac (my_addrs n))])); auto; try lia; [|cbn; lia].
        unfold in128; lia.
      - apply (small6_sends st0 target _ 255 _ (T6Na false true false target [TTlla (a_mac (my_addrs n))])); auto; try lia. cbn; lia. }
    unfold rbind' in E. destruct l as [m|].
    + rewrite tx_run in E. cbn [nd_add upd fst snd] in E. apply X in E as (s' & E). cbn [n_tx set_tx] in E. rewrite St in E.
      match type of E with send_request _ ?st0 = _ => destruct (G st0 eq_refl) as (s1 & st & E1) end. rewrite E1 in E. discriminate.
    + unfold rret in E. apply X in E as (s' & E). rewrite St in E. destruct (G (n_tx n) eq_refl) as (s1 & st & E1). rewrite E1 in E. discriminate.
Qed.

(** ** which frames leave *)
Lemma resolution_explained n f g : resolution_frame g -> explained n f g.
Proof.
  unfold resolution_frame. destruct (f_pkt g) as [p| | |t p|] eqn:E; try contradiction.
  - intros H. apply (ex_arp_request n f g p E H).
  - destruct p as [| | |m| |]; try contradiction. destruct m as [| | | | |x l| |]; try contradiction.
    all: destruct l as [|[m|m|] [|]]; try contradiction; intros _; eapply ex_solicitation; exact E.
Qed.

Lemma request_explained s q s' r : wf_addrs (s_addrs s) -> dst_ok q -> send_request q s = (s', r) ->
  exists new, s_out s' = s_out s ++ new /\
  forall g, In g new -> resolution_frame g \/ exists l, In (f_pkt g) l /\ packets_of s q l.
Proof.
  intros Wa Hd E. destruct (send_status s q s' r Wa Hd E) as (new & En & H). exists new. split; [exact En|].
  assert (G : Forall resolution_frame new -> forall g, In g new -> resolution_frame g \/ exists l, In (f_pkt g) l /\ packets_of s q l).
  { intros F g I. left. rewrite Forall_forall in F. auto. }
  destruct r as [st|e].
  - destruct st; try exact (G H). destruct H as (m & src & l & -> & _ & P). intros g I. right. exists l.
    apply in_map_iff in I as (p & <- & Ip). auto.
  - subst new. intros g [].
Qed.

Lemma icmp4_packets s src dst type code id seq ec un t l p : icmp4_new type code id seq ec un = Ok t ->
  packets_of s (QIcmp4 src dst type code id seq ec un) l -> In p l ->
  (exists h, p = NIp4 h (PIcmp4 t) /\ t4_dst h = dst) \/
  (1480 < icmp4_tx_len t /\ exists h d, p = NIp4Frag h d /\ t4_dst h = dst).
Proof.
  intros Ht [(a & b & c & x & A & src' & P)|[(a & b & c & x & A & _)|(a & b & c & A & _)]] I; try (cbn in A; contradiction); [|discriminate].
  cbn [asks4] in A. destruct A as (<- & <- & -> & t' & Ht' & ->). rewrite Ht in Ht'. injection Ht' as <-.
  destruct P as [(_ & ->)|(L & fs & Ef & ->)].
  - destruct I as [<-|[]]. left. eexists. split; reflexivity.
  - right. split; [exact L|]. apply in_map_iff in I as ([h d] & <- & Ix). exists h, d. split; [reflexivity|].
    destruct (frag4_src 1500 _ _ _ _ _ _ _ _ ltac:(lia) Ef (h, d) Ix) as (_ & E2). exact E2.
Qed.
Lemma icmp6_packets s src dst hop t t' l p : icmp6_new t = Ok t' ->
  packets_of s (QIcmp6 src dst hop t) l -> In p l ->
  (exists h, p = NIp6 h (PIcmp6 t') /\ t6_dst h = dst) \/
  (1460 < icmp6_tx_len t' /\ exists h i d, p = NIp6 h (PFrag6 58 i d) /\ t6_dst h = dst).
Proof.
  intros Ht [(a & b & c & x & A & _)|[(a & b & c & x & A & src' & P)|(a & b & c & A & _)]] I; try (cbn in A; contradiction); [|discriminate].
  cbn [asks6] in A. destruct A as (<- & <- & <- & t2 & Ht' & ->). rewrite Ht in Ht'. injection Ht' as <-.
  destruct P as [(_ & ->)|(L & fs & Ef & ->)].
  - destruct I as [<-|[]]. left. eexists. split; reflexivity.
  - right. split; [exact L|]. apply in_map_iff in I as (x & <- & Ix). do 3 eexists. split; reflexivity.
Qed.
Lemma tcp_packets s src dst sp dp sq ak sy ac fi rs wi ms ws data l p : same_kind src dst ->
  let q := QTcp src dst sp dp sq ak sy ac fi rs wi ms ws data in
  forall t, tcp_of_request q = Some t -> x_len t <= 1460 -> packets_of s q l -> In p l ->
  (exists a h, dst = A4 a /\ p = NIp4 h (PTcp t) /\ t4_dst h = a) \/ (exists a h, dst = A6 a /\ p = NIp6 h (PTcp t) /\ t6_dst h = a).
Proof.
  intros Sk q t Ht Hl [(a & b & c & x & A & src' & P)|[(a & b & c & x & A & src' & P)|(a & b & c & A & _)]] I; [| |discriminate].
  - left. unfold q in A, Ht. destruct src as [s4|s6], dst as [d4|d6]; cbn [asks4] in A; try contradiction.
    destruct A as (<- & <- & -> & t2 & Ht2 & ->). rewrite Ht in Ht2. injection Ht2 as <-.
    destruct P as [(_ & ->)|(L & _)]; [|cbn [payload_carried tcp_carried c_len] in L; lia].
    destruct I as [<-|[]]. eexists _, _. split; [reflexivity|]. split; reflexivity.
  - right. unfold q in A, Ht. destruct src as [s4|s6], dst as [d4|d6]; cbn [asks6] in A; try contradiction.
    destruct A as (<- & <- & -> & t2 & Ht2 & ->). rewrite Ht in Ht2. injection Ht2 as <-.
    destruct P as [(_ & ->)|(L & _)]; [|cbn [payload_carried tcp_carried c_len] in L; lia].
    destruct I as [<-|[]]. eexists _, _. split; [reflexivity|]. split; reflexivity.
Qed.

Lemma kind_dst_ok q d : match q with QTcp _ d' _ _ _ _ _ _ _ _ _ _ _ _ => d' = d | _ => False end -> kind_ok d -> dst_ok q.
Proof. destruct q; try contradiction. intros ->. destruct d; auto. Qed.

Lemma react_explained n f n1 x n' r : reacts n f n1 x -> wf_bytes f -> node_ok n -> wf_addrs (my_addrs n) ->
  effect x n1 = (n', r) -> exists new, s_out (n_tx n') = s_out (n_tx n) ++ new /\ forall g, In g new -> explained n f g.
Proof.
  intros H W K Wa E.
  assert (Q : forall q, dst_ok q -> n_tx n1 = n_tx n -> effect (RSend q) n1 = (n', r) ->
    exists new, s_out (n_tx n') = s_out (n_tx n) ++ new /\
      forall g, In g new -> resolution_frame g \/ exists l, In (f_pkt g) l /\ packets_of (n_tx n) q l).
  { intros q Hq St Y. rewrite send_run, St in Y. destruct (send_request q (n_tx n)) as [s' st] eqn:Es. cbn [fst snd] in Y.
    injection Y as <- _. cbn [n_tx set_tx]. exact (request_explained _ _ _ _ Wa Hq Es). }
  assert (R0 : forall g, resolution_frame g -> explained n f g) by (intros; apply resolution_explained; auto).
  assert (Z0 : s_out (n_tx n') = s_out (n_tx n) -> exists new, s_out (n_tx n') = s_out (n_tx n) ++ new /\ forall g, In g new -> explained n f g).
  { intros Y. exists []. rewrite app_nil_r. split; [exact Y|]. intros g []. }
  destruct H as
   [e0 p I O Ht Hs|e0 p I O D C Th Tp|e0 p I O D C|e0 p I O D B G
   |n1 src dst sport dport data whole i I T|n1 src dst sport dport data whole I T S0
   |n1 src dst s i I T|n1 src dst s I T
   |n1 src dst q id seq data I T B|n1 src dst q id seq data I T B
   |n1 src dst q d lip lport rip rport i I B Qt T|n1 src dst q d lip lport rip rport i I B Qt T
   |n1 src dst q target opts I B Hh|n1 src dst q br bs bo target opts I B C|n1 src dst q br bs bo target opts m I B C O
   |n1 src dst q h m o rl rt rr opts I B].
  - cbn [effect] in E. unfold rbind' at 1, rgets in E. unfold rbind' in E. rewrite tx_run in E. cbn [send_request] in E.
    pose proof I as (_ & _ & Hs4 & _).
    unfold phtx_arp, mbind at 1 2, gets in E. unfold my_addrs in Hs4. rewrite Hs4 in E. cbn [negb] in E.
    unfold massert in E. cbn [a_oper] in E. cbn [Z.eqb ARP_OP_REQUEST ARP_OP_REPLY Pos.eqb orb] in E.
    destruct (mac_is_unspecified (a_sha p)) eqn:U; cbn [negb] in E.
    + cbn [ret fst snd] in E. rewrite tx_run in E. injection E as <- _. apply Z0. reflexivity.
    + unfold ether_send, mbind, gets, upd, ret in E. cbn [fst snd] in E. rewrite tx_run in E. injection E as <- _.
      eexists. split; [reflexivity|]. intros g [<-|[]]. apply (ex_arp_reply n f _ e0 p I O Ht Hs); try reflexivity.
      cbn [f_src]. destruct (mac_is_unspecified (a_mac (my_addrs n))); reflexivity.
  - injection E as <- _. apply Z0. reflexivity.
  - cbn [effect] in E. rewrite tx_run in E. injection E as <- _. apply Z0. reflexivity.
  - cbn [effect] in E. rewrite tx_run in E. injection E as <- _. apply Z0. reflexivity.
  - destruct (udp_run _ _ _ _ _ _ _ _ _ I W K) as ((St & _) & _). injection E as <- _. apply Z0. cbn. rewrite St. reflexivity.
  - destruct (udp_run _ _ _ _ _ _ _ _ _ I W K) as ((St & _) & _). destruct (udp_in_facts _ _ _ _ _ _ _ _ _ I W K) as (Sk & Ks & Kd & Ww).
    destruct src as [a|a], dst as [b|b]; try contradiction.
    + destruct (Q (unreachable_for (A4 a) (A4 b) whole) Ks St E) as (new & En & Hn). exists new. split; [exact En|]. intros g Ig.
      destruct (Hn g Ig) as [X|(l & Il & P)]; [auto|]. cbn [unreachable_for] in P.
      destruct (icmp4_packets (n_tx n) b a 3 3 0 0 [] whole (T4UnreachPort (slice 0 520 whole)) l (f_pkt g) eq_refl P Il) as [(h & Eg & Eh)|(L & _)].
      * eapply ex_unreachable4; eauto. intros ->. apply S0. reflexivity.
      * cbn [icmp4_tx_len] in L. pose proof (zlen_cut 520 whole ltac:(lia)). lia.
    + destruct (Q (unreachable_for (A6 a) (A6 b) whole) Ks St E) as (new & En & Hn). exists new. split; [exact En|]. intros g Ig.
      destruct (Hn g Ig) as [X|(l & Il & P)]; [auto|]. cbn [unreachable_for] in P.
      destruct (icmp6_packets (n_tx n) b a _ (T6UnreachPort whole) (T6UnreachPort (slice 0 520 whole)) l (f_pkt g) eq_refl P Il) as [(h & Eg & Eh)|(L & _)].
      * eapply ex_unreachable6; eauto. intros ->. apply S0. reflexivity.
      * cbn [icmp6_tx_len] in L. pose proof (zlen_cut 520 whole ltac:(lia)). lia.
  - destruct (tcp_run _ _ _ _ _ _ I W K) as ((St & _) & _). injection E as <- _. apply Z0. cbn. rewrite St. reflexivity.
  - destruct (tcp_run _ _ _ _ _ _ I W K) as ((St & _) & _). destruct (tcp_in_facts _ _ _ _ _ _ I W K) as (Sk & Ks & Kd & _).
    destruct (Q (reset_for src dst s) ltac:(destruct src; exact Ks) St E) as (new & En & Hn). exists new. split; [exact En|]. intros g Ig.
    destruct (Hn g Ig) as [X|(l & Il & P)]; [auto|].
    assert (Sk' : same_kind dst src) by (destruct src, dst; auto).
    destruct (tcp_of_request (reset_for src dst s)) as [t|] eqn:Et; [|discriminate].
    assert (Lt : x_len t <= 1460) by (unfold reset_for in Et; rewrite (reset_len _ _ _ _ _ _ Et); lia).
    destruct (tcp_packets (n_tx n) dst src _ _ _ _ _ _ _ _ _ _ _ _ l (f_pkt g) Sk' t Et Lt P Il)
      as [(a & h & Ea & Eg & Eh)|(a & h & Ea & Eg & Eh)].
    + unfold reset_for in Et; injection Et as <-. eapply (ex_reset n f g n1 src dst s _ h (ip6_plain_tx 0 0 0 0) I T); [left; exists a; repeat split; eassumption|..]; reflexivity.
    + unfold reset_for in Et; injection Et as <-. eapply (ex_reset n f g n1 src dst s _ (ip4_whole_tx 0 0 0 0) h I T); [right; exists a; repeat split; eassumption|..]; reflexivity.
  - destruct (icmp4_run _ _ _ _ _ _ I W K) as ((St & _) & _). destruct (echo4_body _ _ _ _ _ _ _ _ _ I W K B) as (Hs & Hd & H1 & H2 & Wd & Ld).
    destruct (Q (QIcmp4 dst src 0 0 id seq data []) Hs St E) as (new & En & Hn). exists new. split; [exact En|]. intros g Ig.
    destruct (Hn g Ig) as [X|(l & Il & P)]; [auto|].
    assert (Nw : icmp4_new 0 0 id seq data [] = Ok (T4EchoReply id seq data)).
    { unfold icmp4_new, assert_. replace ((0 <=? id) && (id <=? 0xFFFF)) with true by lia.
      replace ((0 <=? seq) && (seq <=? 0xFFFF)) with true by lia. reflexivity. }
    apply (ex_echo4 n f g n1 src dst q id seq data I T B).
    destruct (icmp4_packets _ _ _ _ _ _ _ _ _ _ l (f_pkt g) Nw P Il) as [(h & Eg & Eh)|(L & h & d & Eg & Eh)]; [left; eauto|].
    right. exists h, d. cbn [icmp4_tx_len] in L. repeat split; auto. lia.
  - destruct (icmp6_run _ _ _ _ _ _ I W K) as ((St & _) & _). destruct (echo6_body _ _ _ _ _ _ _ _ _ I W K B) as (Hs & Hd & H1 & H2 & Wd & Ld).
    destruct (Q (QIcmp6 dst src 255 (T6EchoReply id seq data)) Hs St E) as (new & En & Hn). exists new. split; [exact En|]. intros g Ig.
    destruct (Hn g Ig) as [X|(l & Il & P)]; [auto|].
    assert (Nw : icmp6_new (T6EchoReply id seq data) = Ok (T6EchoReply id seq data)).
    { cbn [icmp6_new]. unfold assert_. replace ((0 <=? id) && (id <=? 0xFFFF)) with true by lia.
      replace ((0 <=? seq) && (seq <=? 0xFFFF)) with true by lia. reflexivity. }
    apply (ex_echo6 n f g n1 src dst q id seq data I T B).
    destruct (icmp6_packets _ _ _ _ _ _ l (f_pkt g) Nw P Il) as [(h & Eg & Eh)|(L & h & i & d & Eg & Eh)]; [left; eauto|].
    right. exists h, i, d. cbn [icmp6_tx_len] in L. repeat split; auto. lia.
  - destruct (icmp4_run _ _ _ _ _ _ I W K) as ((St & _) & _). injection E as <- _. apply Z0. cbn. rewrite St. reflexivity.
  - destruct (icmp6_run _ _ _ _ _ _ I W K) as ((St & _) & _). injection E as <- _. apply Z0. cbn. rewrite St. reflexivity.
  - destruct (icmp6_run _ _ _ _ _ _ I W K) as ((St & _) & Hs & Hd & _). cbn [effect] in E.
    set (l := if (src =? 0) || _ then _ else _) in E. clearbody l.
    assert (G : forall st0 s' st, s_addrs st0 = s_addrs (n_tx n) -> s_out st0 = s_out (n_tx n) ->
      send_request (advertisement (a_mac (my_addrs n)) src target) st0 = (s', st) ->
      exists new, s_out s' = s_out (n_tx n) ++ new /\ forall g, In g new -> explained n f g).
    { intros st0 s' st Ea Eo Es. rewrite <- Eo. assert (Wa' : wf_addrs (s_addrs st0)) by (rewrite Ea; exact Wa).
      assert (Dk : dst_ok (advertisement (a_mac (my_addrs n)) src target)).
      { unfold advertisement. destruct (src =? 0); cbn [dst_ok]; unfold in128; [split; [vm_compute; discriminate|vm_compute; reflexivity]|exact Hs]. }
      destruct (request_explained st0 _ s' st Wa' Dk Es) as (new & En & Hn).
      exists new. split; [exact En|]. intros g Ig. destruct (Hn g Ig) as [X|(l' & Il & P)]; [auto|].
      unfold advertisement in P. destruct (Z.eqb_spec src 0) as [Es0|Es0].
      - pose proof (fun t' H => icmp6_packets _ _ _ _ _ t' l' (f_pkt g) H P Il) as X. destruct (X _ eq_refl) as [(h & Eg & Eh)|(L & _)]; [|cbn in L; lia].
        eapply (ex_advert n f g n1 src dst q target opts); eauto.
      - pose proof (fun t' H => icmp6_packets _ _ _ _ _ t' l' (f_pkt g) H P Il) as X. destruct (X _ eq_refl) as [(h & Eg & Eh)|(L & _)]; [|cbn in L; lia].
        eapply (ex_advert n f g n1 src dst q target opts); eauto. }
    unfold rbind' in E. destruct l as [m|].
    + rewrite tx_run in E. cbn [nd_add upd fst snd] in E. rewrite tx_run in E. cbn [n_tx set_tx] in E. rewrite St in E.
      match type of E with context [send_request _ ?st0] => destruct (send_request (advertisement (a_mac (my_addrs n)) src target) st0) as [s' st] eqn:Es end.
      cbn [fst snd] in E. injection E as <- _. cbn [n_tx set_tx]. refine (G _ _ _ _ _ Es); reflexivity.
    + unfold rret in E. rewrite tx_run in E. rewrite St in E.
      destruct (send_request (advertisement (a_mac (my_addrs n)) src target) (n_tx n)) as [s' st] eqn:Es.
      cbn [fst snd] in E. injection E as <- _. cbn [n_tx set_tx]. refine (G _ _ _ _ _ Es); reflexivity.
  - destruct (icmp6_run _ _ _ _ _ _ I W K) as ((St & _) & _). injection E as <- _. apply Z0. cbn. rewrite St. reflexivity.
  - destruct (icmp6_run _ _ _ _ _ _ I W K) as ((St & _) & _). cbn [effect] in E. rewrite tx_run in E. injection E as <- _. apply Z0. cbn. rewrite St. reflexivity.
  - destruct (icmp6_run _ _ _ _ _ _ I W K) as ((St & _) & _). injection E as <- _. apply Z0. cbn. rewrite St. reflexivity.
Qed.

(** Every frame that leaves is explained. *)
Lemma rx_explained n f n' r : wf_bytes f -> node_ok n -> socks_ok (n_socks n) -> wf_addrs (my_addrs n) ->
  phrx_ether f n = (n', r) -> exists new, s_out (n_tx n') = s_out (n_tx n) ++ new /\ forall g, In g new -> explained n f g.
Proof.
  intros W K N Wa E. destruct (react_total n f n' r W K N E) as [((St & _) & _)|(n1 & x & H & Ex & _)].
  - exists []. rewrite St, app_nil_r. split; [reflexivity|]. intros g [].
  - exact (react_explained n f n1 x n' r H W K Wa Ex).
Qed.
(** When receiving raises. *)
Lemma rx_exceptions n f n' e : wf_bytes f -> node_ok n -> socks_ok (n_socks n) -> wf_addrs (my_addrs n) -> 0 <= s_id4 (n_tx n) ->
  phrx_ether f n = (n', Exn e) -> rx_raises n f e \/ reply_raises n f e.
Proof.
  intros W K N Wa Hi E. destruct (react_total n f n' (Exn e) W K N E) as [(_ & _ & [X|(e' & X & R)])|(n1 & x & H & Ex & _)].
  - discriminate.
  - injection X as <-. auto.
  - right. exact (react_raises n f n1 x n' e H W K Wa Hi Ex).
Qed.
