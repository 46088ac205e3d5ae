(** Which frames leave no outcome in the receive statistics. *)
From Verif Require Import Base BaseLemmas CodecModel AddrModel AddrProofs SpecWire SpecCksum EtherModel EtherProofs Ip4Model Ip4Proofs Ip6Model Ip6Proofs
  UdpModel UdpProofs TcpModel TcpProofs Icmp4Model Icmp4Proofs Icmp6Model Icmp6Proofs FragModel StackModel StackRxModel StatRxModel
  SpecRx SpecReact SpecStat RxProofs ReactProofs StatRxProofs StatMeanProofs PshdrLemmas.

Notation outs := (seen says_outcome).
Lemma ou_tick {A} c (k : unit -> T A) n : says_outcome c = true -> outs (tbind (tick c) k) n <> [].
Proof. intros H. rewrite ac_tick. cbn [filter]. rewrite H. discriminate. Qed.
Lemma ou_skip {A} c (k : unit -> T A) n : says_outcome c = false -> outs (tbind (tick c) k) n = outs (k tt) n.
Proof. intros H. rewrite ac_tick. cbn [filter]. rewrite H. reflexivity. Qed.

Lemma ou_ether_in f n e : ether_parse f = Ok (inr e) -> our_mac (my_addrs n) (EtherModel.e_dst e) ->
  outs (t_ether f) n =
  outs (if (EtherModel.e_type e =? ETHER_TYPE_ARP) && a_sup4 (my_addrs n) then t_arp e
        else if (EtherModel.e_type e =? ETHER_TYPE_IP4) && a_sup4 (my_addrs n) then t_ip4 (EtherModel.e_rest e)
        else if (EtherModel.e_type e =? ETHER_TYPE_IP6) && a_sup6 (my_addrs n) then t_ip6 (EtherModel.e_rest e)
        else plain (rret tt)) n.
Proof.
  intros P M. apply our_mac_mem in M. unfold t_ether. rewrite ou_skip, P, ac_parsed, ac_gets, M by reflexivity. cbn [negb].
  rewrite !ac_tick_if by reflexivity. reflexivity.
Qed.
Lemma ou_ip4_in f n p : ip4_parse f = Ok (inr p) -> takes4 (my_addrs n) (i4_dst p) ->
  (i4_offset p = 0 /\ i4_mf p = false /\ outs (t_ip4 f) n = outs (t_dispatch4 p (i4_rest p)) n) \/
  (~ (i4_offset p = 0 /\ i4_mf p = false) /\ outs (t_ip4 f) n <> []).
Proof.
  intros P M. apply takes4_mem in M. unfold t_ip4. rewrite ou_skip, P, ac_parsed, ac_gets, M by reflexivity.
  rewrite !ac_tick_if by reflexivity. destruct (Z.eqb_spec (i4_offset p) 0) as [O|O]; cbn [negb orb].
  - destruct (i4_mf p); [right|left]; [|auto]. split; [intros (_ & X); discriminate|]. apply ou_tick. reflexivity.
  - right. split; [tauto|]. apply ou_tick. reflexivity.
Qed.
Lemma ou_ip6_in f n p : ip6_parse f = Ok (inr p) -> our_ip6 (my_addrs n) (i6_dst p) ->
  (i6_next p <> 44 /\ outs (t_ip6 f) n = outs (t_dispatch6 p) n) \/ (i6_next p = 44 /\ outs (t_ip6 f) n <> []).
Proof.
  intros P M. apply our_ip6_mem in M.
  change (outs (t_ip6 f) n) with (outs (t_ip6_fuel (S (length f + flows_bytes (n_flows6 n))) f) n).
  cbn [t_ip6_fuel]. rewrite ou_skip, P, ac_parsed, ac_gets, M by reflexivity. cbn [negb].
  rewrite !ac_tick_if by reflexivity. change IP6_NEXT_EXT_FRAG with 44. destruct (Z.eqb_spec (i6_next p) 44) as [X|X].
  - right. split; [auto|]. apply ou_tick. reflexivity.
  - left. split; [auto|]. reflexivity.
Qed.
Lemma ou_udp src dst f plen ps w n : same_kind src dst -> (exists x, ps = Ok x) -> (exists x, udp_parse f plen match ps with Ok x => x | _ => 0 end = Ok x) ->
  outs (t_udp src dst f plen ps w) n <> [].
Proof.
  intros K (s & ->) ([x|u] & E); unfold t_udp; rewrite ou_skip, ac_ok, E by reflexivity; [rewrite ac_failed; discriminate|].
  rewrite ac_parsed, ac_gets. destruct (first_match _ _); [apply ou_tick; reflexivity|].
  destruct (is_unspecified src); [discriminate|]. destruct src, dst; try contradiction; apply ou_tick; reflexivity.
Qed.
Lemma ou_tcp src dst f plen ps n : outs (t_tcp src dst f plen (Ok ps)) n = [] -> exists e, tcp_parse f plen ps = Exn e.
Proof.
  unfold t_tcp. rewrite ou_skip, ac_ok by reflexivity. destruct (tcp_parse f plen ps) as [[x|s]|e]; [rewrite ac_failed; discriminate| |eauto].
  rewrite ac_parsed, ac_gets. destruct (sock_get _ _); [intros X; exfalso; revert X; apply ou_tick; reflexivity|].
  destruct (if _ : bool then _ else None); intros X; exfalso; revert X; apply ou_tick; reflexivity.
Qed.
Lemma ou_icmp4 src dst f plen n : wf_bytes f -> 0 <= plen < 65536 ->
  (outs (t_icmp4 src dst f plen) n = [] <-> exists q, icmp4_parse f plen = Ok (inr q) /\ q4_type q <> 8).
Proof.
  intros W L. unfold t_icmp4. rewrite ou_skip by reflexivity.
  destruct (icmp4_parse_total f plen W L) as [(x & -> & _)|(-> & _)].
  { rewrite ac_failed. split; [discriminate|]. intros (q & X & _). discriminate. }
  rewrite ac_parsed. unfold icmp4_of. cbn [q4_body q4_type].
  destruct (Z.eqb_spec (nth 0 f 0) 8) as [E|E]; cbn [orb].
  { split; [intros X; exfalso; revert X; apply ou_tick; reflexivity|]. intros (q & [= <-] & X). exfalso. apply X. exact E. }
  split; [eauto|]. intros _. destruct (nth 0 f 0 =? 0); [reflexivity|]. destruct (nth 0 f 0 =? 3); [|reflexivity].
  rewrite ou_skip by reflexivity. destruct (quoted4 _) as [[[[[a b] c] d]|]|x]; [|reflexivity|reflexivity].
  rewrite ac_ok, ac_gets. destruct (first_match _ _); reflexivity.
Qed.
Lemma ou_icmp6 src dst hop f plen ps n pseudo : wf_bytes f -> 0 <= plen < 65536 -> pshdr_for pseudo ps ->
  (exists q, icmp6_parse f plen ps src dst hop = Ok q) ->
  (outs (t_icmp6 src dst hop f plen (Ok ps)) n = [] <-> exists q, icmp6_parse f plen ps src dst hop = Ok (inr q) /\
     (~ In (q6_type q) [128; 134; 135; 136] \/
      exists r s o t opts, q6_body q = B6Na r s o t opts /\ a_cand6 (my_addrs n) <> Some t /\ nd_tlla opts = None)).
Proof.
  intros W L Hp (v & V). unfold t_icmp6. rewrite ou_skip, ac_ok by reflexivity.
  destruct (icmp6_parse_cases f plen ps pseudo src dst hop W L Hp) as [(x & E)|[(opts & E & _)|(_ & x & E & _)]]; [| |congruence].
  { rewrite E, ac_failed. split; [discriminate|]. intros (q & X & _). discriminate. }
  rewrite E, ac_parsed, ac_gets. unfold icmp6_of. cbn [q6_body q6_type]. set (t := nth 0 f 0) in *.
  assert (Ne : forall P, (exists q, Ok (inr (icmp6_of f plen opts) : parsed icmp6) = Ok (inr q) /\ P q) <-> P (icmp6_of f plen opts)).
  { intros P. split; [intros (q & [= <-] & H); exact H|eauto]. }
  change {| q6_type := t; q6_code := nth 1 f 0; q6_cksum := be (slice 2 4 f); q6_body := _ |} with (icmp6_of f plen opts).
  rewrite Ne. unfold icmp6_of. cbn [q6_body q6_type]. fold t. cbn [In].
  destruct (Z.eqb_spec t 1) as [T|T1].
  { split; [intros _; left; lia|]. intros _. rewrite ou_skip by reflexivity. destruct (quoted6 _) as [[[[[a b] c] d]|]|x]; [|reflexivity|reflexivity].
    rewrite ac_ok, ac_gets. destruct (first_match _ _); reflexivity. }
  destruct (Z.eqb_spec t 128) as [T|T2]; cbn [orb].
  { split; [intros X; exfalso; revert X; apply ou_tick; reflexivity|]. intros [X|(? & ? & ? & ? & ? & X & _)]; [exfalso; apply X; auto|discriminate]. }
  destruct (Z.eqb_spec t 129) as [T|T3]; [split; [intros _; left; lia|reflexivity]|].
  destruct (Z.eqb_spec t 133) as [T|T4]; [split; [intros _; left; lia|reflexivity]|].
  destruct (Z.eqb_spec t 134) as [T|T5].
  { split; [intros X; exfalso; revert X; apply ou_tick; reflexivity|]. intros [X|(? & ? & ? & ? & ? & X & _)]; [exfalso; apply X; auto|discriminate]. }
  destruct (Z.eqb_spec t 135) as [T|T6].
  { split; [|intros [X|(? & ? & ? & ? & ? & X & _)]; [exfalso; apply X; auto|discriminate]].
    intros X. exfalso. revert X. rewrite ou_skip by reflexivity. destruct (negb _); [discriminate|].
    cbv zeta. destruct (nd_slla opts) as [m|]; [destruct (_ || _)|].
    - erewrite ac_unit by reflexivity. rewrite ac_tick_if by reflexivity. apply ou_tick. reflexivity.
    - rewrite ac_tick2. discriminate.
    - erewrite ac_unit by reflexivity. rewrite ac_tick_if by reflexivity. apply ou_tick. reflexivity. }
  destruct (Z.eqb_spec t 136) as [T|T7].
  { rewrite ou_skip by reflexivity. set (tg := be (slice 8 24 f)).
    destruct (match a_cand6 (my_addrs n) with Some c => tg =? c | None => false end) eqn:C.
    - split; [intros X; exfalso; revert X; apply ou_tick; reflexivity|].
      intros [X|(? & ? & ? & ? & ? & [= <- <- <- <- <-] & N & _)]; exfalso; [apply X; auto|].
      destruct (a_cand6 (my_addrs n)); [|discriminate]. apply Z.eqb_eq in C. congruence.
    - destruct (nd_tlla opts) eqn:O.
      + split; [intros X; exfalso; revert X; apply ou_tick; reflexivity|].
        intros [X|(? & ? & ? & ? & ? & [= <- <- <- <- <-] & N & X)]; exfalso; [apply X; auto|congruence].
      + split; [|reflexivity]. intros _. right. do 5 eexists. split; [reflexivity|]. split; [|exact O].
        intros X. rewrite X, Z.eqb_refl in C. discriminate. }
  destruct (Z.eqb_spec t 143) as [T|T8]; (split; [intros _; left; lia|reflexivity]).
Qed.
Lemma whole4_rx4 n f p : whole4 n f p -> rx4 n f n p.
Proof. intros (e & U & T & S & P & Tk & O & M). eapply rx4_whole; eauto. Qed.
Lemma whole6_rx6 n f p : whole6 n f p -> rx6 n f n p.
Proof. intros (e & U & T & S & P & Tk & O). exists e. split; [exact U|]. split; [exact T|]. split; [exact S|]. apply rx6_whole; auto. Qed.
Lemma ou_whole4 n f p : whole4 n f p -> outs (t_ether f) n = outs (t_dispatch4 p (i4_rest p)) n.
Proof.
  intros (e & (Pe & U) & T & S & P & Tk & O & M). rewrite (ou_ether_in f n e Pe U), T, S.
  change (0x0800 =? ETHER_TYPE_ARP) with false. change (0x0800 =? ETHER_TYPE_IP4) with true. cbn [andb].
  destruct (ou_ip4_in _ n p P Tk) as [(_ & _ & E)|(N & _)]; [exact E|tauto].
Qed.
Lemma ou_whole6 n f p : whole6 n f p -> outs (t_ether f) n = outs (t_dispatch6 p) n.
Proof.
  intros (e & (Pe & U) & T & S & P & Tk & O). rewrite (ou_ether_in f n e Pe U), T, S.
  change (0x86DD =? ETHER_TYPE_ARP) with false. change (0x86DD =? ETHER_TYPE_IP4) with false. change (0x86DD =? ETHER_TYPE_IP6) with true. cbn [andb].
  destruct (ou_ip6_in _ n p P Tk) as [(_ & E)|(N & _)]; [exact E|tauto].
Qed.
Lemma ou_dispatch4 n f p n' : whole4 n f p -> wf_bytes f -> node_ok n -> phrx_ether f n = (n', Ok tt) ->
  outs (t_dispatch4 p (i4_rest p)) n = [] -> unaccounted n f.
Proof.
  intros H W K R E. pose proof (whole4_rx4 n f p H) as Rx. rewrite (rx4_run _ _ _ _ Rx W K) in R.
  destruct (rx4_facts n f n p Rx W K) as (_ & _ & _ & _ & _ & _ & Wf & P).
  destruct (in4_facts _ _ Wf P) as (Wr & Hl & Lr & Ed & Hs & Hd & Hp & _ & ps & Eps & Hps).
  unfold t_dispatch4 in E. unfold ip4_dispatch in R. cbv zeta in E, R. change IP4_PROTO_ICMP4 with 1 in *. change IP4_PROTO_UDP with 17 in *. change IP4_PROTO_TCP with 6 in *.
  destruct (Z.eqb_spec (i4_proto p) 1) as [T|T1].
  { apply ou_icmp4 in E; auto. destruct E as (q & Eq & Q). apply (un_icmp4 n f p q); auto. }
  destruct (Z.eqb_spec (i4_proto p) 17) as [T|T17].
  { exfalso. revert E. apply ou_udp; [exact I|eauto|]. rewrite Eps.
    destruct (udp_parse_total _ _ _ _ Wr Hps Hl) as [(x & Ep & _)|(u & Ep & _)]; eauto. }
  destruct (Z.eqb_spec (i4_proto p) 6) as [T|T6].
  { exfalso. rewrite Eps in *. apply ou_tcp in E as (x & E). unfold phrx_tcp, on_parsed, rbind', rlift in R. rewrite E in R. discriminate. }
  apply (un_proto4 n f p); auto.
Qed.
Lemma ou_dispatch6 n f p n' : whole6 n f p -> wf_bytes f -> node_ok n -> phrx_ether f n = (n', Ok tt) ->
  outs (t_dispatch6 p) n = [] -> unaccounted n f.
Proof.
  intros H W K R E. pose proof (whole6_rx6 n f p H) as Rx. rewrite (rx6_run _ _ _ _ Rx W K) in R.
  destruct (rx6_facts n f n p Rx W K) as (_ & _ & _ & _ & _ & Wf & P).
  destruct (in6_facts _ _ Wf P) as (Wr & Hl & Lr & Ed & Hs & Hd & _ & ps & Eps & Hps).
  unfold t_dispatch6 in E. unfold ip6_dispatch in R. change IP6_NEXT_ICMP6 with 58 in *. change IP6_NEXT_UDP with 17 in *. change IP6_NEXT_TCP with 6 in *.
  destruct (Z.eqb_spec (i6_next p) 58) as [T|T1].
  { rewrite Eps in *. destruct (icmp6_parse (i6_rest p) (i6_dlen p) ps (i6_src p) (i6_dst p) (i6_hop p)) as [v|x] eqn:V.
    2:{ exfalso. unfold phrx_icmp6, on_parsed, rbind', rlift in R. rewrite V in R. discriminate. }
    rewrite T in Hps. eapply ou_icmp6 in E; eauto. destruct E as (q & Eq & [Q|(r & s & o & t & opts & B & C & O)]).
    - apply (un_icmp6 n f p ps q); auto.
    - apply (un_na n f p ps q r s o t opts); auto. }
  destruct (Z.eqb_spec (i6_next p) 17) as [T|T17].
  { exfalso. revert E. apply ou_udp; [exact I|eauto|]. rewrite Eps.
    destruct (udp_parse_total _ _ _ _ Wr Hps Hl) as [(x & Ep & _)|(u & Ep & _)]; eauto. }
  destruct (Z.eqb_spec (i6_next p) 6) as [T|T6].
  { exfalso. rewrite Eps in *. apply ou_tcp in E as (x & E). unfold phrx_tcp, on_parsed, rbind', rlift in R. rewrite E in R. discriminate. }
  apply (un_proto6 n f p); auto.
Qed.
Lemma unaccounted_iff n f n' : wf_bytes f -> node_ok n -> phrx_ether f n = (n', Ok tt) ->
  (filter says_outcome (counted f n) = [] <-> unaccounted n f).
Proof.
  intros W K R. change (filter says_outcome (counted f n)) with (outs (t_ether f) n). split.
  - intros E.
    destruct (ether_parse_total f W) as [(x & Ep)|(e & Ep & _)].
    { exfalso. revert E. unfold t_ether. rewrite ou_skip, Ep, ac_failed by reflexivity. discriminate. }
    destruct (mem (EtherModel.e_dst e) (a_mac (my_addrs n) :: a_mac_mcast (my_addrs n) ++ [mac_broadcast])) eqn:M.
    2:{ exfalso. revert E. unfold t_ether. rewrite ou_skip, Ep, ac_parsed, ac_gets, M by reflexivity. discriminate. }
    apply our_mac_mem in M. assert (U : for_us n f e) by (split; auto). pose proof (for_us_wf n f e W U) as Wr.
    rewrite (ou_ether_in f n e Ep M) in E.
    change ETHER_TYPE_ARP with 0x0806 in E. change ETHER_TYPE_IP4 with 0x0800 in E. change ETHER_TYPE_IP6 with 0x86DD in E.
    destruct (Z.eqb_spec (EtherModel.e_type e) 0x0806) as [T|T1]; cbn [andb] in E.
    { destruct (a_sup4 (my_addrs n)) eqn:S; [|apply (un_no4 n f e); auto].
      revert E. unfold t_arp. rewrite ou_skip by reflexivity.
      destruct (arp_parse (EtherModel.e_rest e)) as [[x|p]|x] eqn:P; [rewrite ac_failed; discriminate| |].
      2:{ destruct (arp_parse_total _ Wr) as [(m & X)|(p & pad & X & _)]; congruence. }
      assert (I : arp_in n f e p) by (unfold arp_in; auto). rewrite ac_parsed, ac_gets.
      apply (arp_parse_exact _ p Wr) in P as (O & _). change ARP_OP_REQUEST with 1. change ARP_OP_REPLY with 2.
      destruct O as [O|O]; rewrite O; cbn [Z.eqb Pos.eqb]; rewrite ou_skip by reflexivity.
      - destruct (mem (a_spa p) _); [discriminate|]. destruct (mem (a_tpa p) _); [|discriminate].
        intros X. exfalso. revert X. apply ou_tick. reflexivity.
      - destruct (Z.eqb_spec (EtherModel.e_dst e) (a_mac (my_addrs n))) as [D|D]; cbn [andb].
        + destruct (_ && _ && _); intros X; exfalso; revert X; apply ou_tick; reflexivity.
        + unfold mac_is_broadcast. destruct (Z.eqb_spec (EtherModel.e_dst e) 0xFFFFFFFFFFFF) as [B|B]; cbn [andb].
          * destruct (Z.eqb_spec (a_spa p) (a_tpa p)) as [G|G]; [intros X; exfalso; revert X; apply ou_tick; reflexivity|].
            intros _. apply (un_arp n f e p); auto. tauto.
          * intros _. apply (un_arp n f e p); auto. intros (X & _). apply B. exact X. }
    destruct (Z.eqb_spec (EtherModel.e_type e) 0x0800) as [T|T2]; cbn [andb] in E.
    { destruct (a_sup4 (my_addrs n)) eqn:S; [|rewrite T in E; apply (un_no4 n f e); auto].
      destruct (ip4_parse (EtherModel.e_rest e)) as [[x|p]|x] eqn:P.
      - exfalso. revert E. unfold t_ip4. rewrite ou_skip, P, ac_failed by reflexivity. discriminate.
      - destruct (match ip4_unicast (my_addrs n) with [] => false | _ => true end && negb (mem (i4_dst p)
           (ip4_unicast (my_addrs n) ++ a_mcast4 (my_addrs n) ++ ip4_broadcasts (my_addrs n)))) eqn:Tk.
        { exfalso. revert E. unfold t_ip4. rewrite ou_skip, P, ac_parsed, ac_gets, Tk by reflexivity. discriminate. }
        apply takes4_mem in Tk. destruct (ou_ip4_in _ n p P Tk) as [(O & Mf & E')|(_ & N)]; [|contradiction].
        rewrite E' in E. apply (ou_dispatch4 n f p n'); auto. exists e. auto 10.
      - exfalso. unfold phrx_ether, on_parsed at 1, rbind' at 1, rlift at 1 in R. rewrite Ep in R. unfold rbind' at 1, rgets at 1 in R.
        apply our_mac_mem in M. rewrite M, T, S in R. cbn [negb andb] in R. change (0x0800 =? ETHER_TYPE_ARP) with false in R. change (0x0800 =? ETHER_TYPE_IP4) with true in R.
        cbn [andb] in R. unfold phrx_ip4, on_parsed, rbind' at 1, rlift at 1 in R. rewrite P in R. discriminate. }
    destruct (Z.eqb_spec (EtherModel.e_type e) 0x86DD) as [T|T3]; cbn [andb] in E; [|apply (un_type n f e); auto].
    destruct (a_sup6 (my_addrs n)) eqn:S; [|apply (un_no6 n f e); auto].
    destruct (ip6_parse_total _ Wr) as [(x & P)|(p & P & _)].
    { exfalso. revert E. change (outs (t_ip6 (EtherModel.e_rest e)) n) with
        (outs (t_ip6_fuel (Datatypes.S (length (EtherModel.e_rest e) + flows_bytes (n_flows6 n))) (EtherModel.e_rest e)) n).
      cbn [t_ip6_fuel]. rewrite ou_skip, P, ac_failed by reflexivity. discriminate. }
    destruct (mem (i6_dst p) (ip6_unicast (my_addrs n) ++ a_mcast6 (my_addrs n))) eqn:Tk.
    2:{ exfalso. revert E. change (outs (t_ip6 (EtherModel.e_rest e)) n) with
        (outs (t_ip6_fuel (Datatypes.S (length (EtherModel.e_rest e) + flows_bytes (n_flows6 n))) (EtherModel.e_rest e)) n).
      cbn [t_ip6_fuel]. rewrite ou_skip, P, ac_parsed, ac_gets, Tk by reflexivity. discriminate. }
    apply our_ip6_mem in Tk. destruct (ou_ip6_in _ n p P Tk) as [(O & E')|(_ & N)]; [|contradiction].
    rewrite E' in E. apply (ou_dispatch6 n f p n'); auto. exists e. auto 10.
  - intros [e (Pe & U) T1 T2 T3|e (Pe & U) T S|e (Pe & U) T S|e p I O D N|p H P1 P6 P17|p H P1 P6 P17|p q H P1 Eq Q|p ps q H P1 Eps Eq Q|p ps q r s o t opts H P1 Eps Eq B C O].
    + rewrite (ou_ether_in f n e Pe U). change ETHER_TYPE_ARP with 0x0806. change ETHER_TYPE_IP4 with 0x0800. change ETHER_TYPE_IP6 with 0x86DD.
      repeat match goal with |- context [?a =? ?b] => destruct (Z.eqb_spec a b); [contradiction|] end. reflexivity.
    + rewrite (ou_ether_in f n e Pe U), S, !andb_false_r. destruct T as [T|T]; rewrite T; reflexivity.
    + rewrite (ou_ether_in f n e Pe U), S, !andb_false_r, T. reflexivity.
    + destruct I as ((Pe & U) & T & S & P). rewrite (ou_ether_in f n e Pe U), T, S. change (0x0806 =? ETHER_TYPE_ARP) with true. cbn [andb].
      unfold t_arp. rewrite ou_skip, P, ac_parsed, ac_gets, O by reflexivity. change (2 =? ARP_OP_REQUEST) with false. change (2 =? ARP_OP_REPLY) with true. cbv iota.
      rewrite ou_skip by reflexivity. destruct (Z.eqb_spec (EtherModel.e_dst e) (a_mac (my_addrs n))) as [|]; [contradiction|]. cbn [andb].
      unfold mac_is_broadcast. destruct (Z.eqb_spec (EtherModel.e_dst e) 0xFFFFFFFFFFFF) as [B|B]; cbn [andb]; [|reflexivity].
      destruct (Z.eqb_spec (a_spa p) (a_tpa p)) as [G|G]; [|reflexivity]. exfalso. apply N. split; [exact B|exact G].
    + rewrite (ou_whole4 n f p H). unfold t_dispatch4. cbv zeta. change IP4_PROTO_ICMP4 with 1. change IP4_PROTO_UDP with 17. change IP4_PROTO_TCP with 6.
      repeat match goal with |- context [?a =? ?b] => destruct (Z.eqb_spec a b); [contradiction|] end. reflexivity.
    + rewrite (ou_whole6 n f p H). unfold t_dispatch6. change IP6_NEXT_ICMP6 with 58. change IP6_NEXT_UDP with 17. change IP6_NEXT_TCP with 6.
      repeat match goal with |- context [?a =? ?b] => destruct (Z.eqb_spec a b); [contradiction|] end. reflexivity.
    + rewrite (ou_whole4 n f p H). unfold t_dispatch4. cbv zeta. rewrite P1. change (1 =? IP4_PROTO_ICMP4) with true. cbv iota.
      destruct (rx4_facts n f n p (whole4_rx4 n f p H) W K) as (_ & _ & _ & _ & _ & _ & Wf & P).
      destruct (in4_facts _ _ Wf P) as (Wr & Hl & _). apply ou_icmp4; eauto.
    + rewrite (ou_whole6 n f p H). unfold t_dispatch6. rewrite P1, Eps. change (58 =? IP6_NEXT_ICMP6) with true. cbv iota.
      destruct (rx6_facts n f n p (whole6_rx6 n f p H) W K) as (_ & _ & _ & _ & _ & Wf & P).
      destruct (in6_facts _ _ Wf P) as (Wr & Hl & Lr & Ed & Hs & Hd & _ & ps' & Eps' & Hps). rewrite Eps in Eps'. injection Eps' as <-.
      eapply ou_icmp6; eauto.
    + rewrite (ou_whole6 n f p H). unfold t_dispatch6. rewrite P1, Eps. change (58 =? IP6_NEXT_ICMP6) with true. cbv iota.
      destruct (rx6_facts n f n p (whole6_rx6 n f p H) W K) as (_ & _ & _ & _ & _ & Wf & P).
      destruct (in6_facts _ _ Wf P) as (Wr & Hl & Lr & Ed & Hs & Hd & _ & ps' & Eps' & Hps). rewrite Eps in Eps'. injection Eps' as <-.
      eapply ou_icmp6; eauto. exists q. split; [exact Eq|]. right. eauto 10.
Qed.
