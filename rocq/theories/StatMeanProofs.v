(** The counters that name an action say what was done. *)
From Verif Require Import Base BaseLemmas CodecModel AddrModel AddrProofs SpecWire SpecCksum EtherModel EtherProofs Ip4Model Ip4Proofs Ip6Model Ip6Proofs
  UdpModel UdpProofs TcpModel TcpProofs Icmp4Model Icmp4Proofs Icmp6Model Icmp6Proofs FragModel StackModel StackRxModel StatRxModel
  SpecRx SpecReact SpecStat RxProofs ReactProofs StatRxProofs.

(** the counters of a kind that a handler increments *)
Definition seen (w : rxc -> bool) {A} (t : T A) (n : node) : list rxc := filter w (fst (t n)).
Lemma ac_tick w {A} c (k : unit -> T A) n : seen w (tbind (tick c) k) n = filter w [c] ++ seen w (k tt) n.
Proof. unfold seen, tbind, tick. destruct (k tt n) as [l x]. cbn [fst]. apply filter_app. Qed.
Lemma ac_tick2 w {A B} c (k : unit -> T A) (k' : A -> T B) n :
  seen w (tbind (tbind (tick c) k) k') n = filter w [c] ++ seen w (tbind (k tt) k') n.
Proof.
  unfold seen, tbind, tick. destruct (k tt n) as [l [n1 [a|e]]]; [|cbn [fst]; apply filter_app].
  destruct (k' a n1) as [l' x]. cbn [fst]. rewrite <- filter_app, app_assoc. reflexivity.
Qed.
Lemma ac_tick_if w {A} b c (k : unit -> T A) n : w c = false -> seen w (tbind (tick_if b c) k) n = seen w (k tt) n.
Proof. intros H. unfold seen, tbind, tick_if. destruct (k tt n) as [l x]. destruct b; cbn [fst app filter]; [rewrite H|]; reflexivity. Qed.
Lemma ac_gets w {A B} (g : node -> A) (k : A -> T B) n : seen w (tbind (plain (rgets g)) k) n = seen w (k (g n)) n.
Proof. unfold seen, tbind, plain, rgets. destruct (k (g n) n). reflexivity. Qed.
Lemma ac_upd w {B} (g : node -> node) (k : unit -> T B) n : seen w (tbind (plain (rupd g)) k) n = seen w (k tt) (g n).
Proof. unfold seen, tbind, plain, rupd. destruct (k tt (g n)). reflexivity. Qed.
Lemma ac_ok w {A B} (a : A) (k : A -> T B) n : seen w (tbind (plain (rlift (Ok a))) k) n = seen w (k a) n.
Proof. unfold seen, tbind, plain, rlift. destruct (k a n). reflexivity. Qed.
Lemma ac_exn w {A B} e (k : A -> T B) n : seen w (tbind (plain (rlift (Exn e))) k) n = [].
Proof. reflexivity. Qed.
Lemma ac_plain w {A} (m : R A) n : seen w (plain m) n = [].
Proof. reflexivity. Qed.
Lemma ac_end w c n : seen w (tick c) n = filter w [c].
Proof. reflexivity. Qed.
Lemma ac_parsed w {A} (p : A) c k n : seen w (t_parsed (Ok (inr p)) c k) n = seen w (k p) n.
Proof. unfold t_parsed. rewrite ac_ok. reflexivity. Qed.
Lemma ac_failed w {A} x c (k : A -> T unit) n : seen w (t_parsed (Ok (inl x)) c k) n = filter w [c].
Proof. unfold t_parsed. rewrite ac_ok. reflexivity. Qed.
Lemma ac_raised w {A} e c (k : A -> T unit) n : seen w (t_parsed (Exn e) c k) n = [].
Proof. reflexivity. Qed.
(** [nd_add] and [arp_add] cannot raise *)
Lemma ac_unit w {B} (m : R unit) (k : unit -> T B) n n' : m n = (n', Ok tt) -> seen w (tbind (plain m) k) n = seen w (k tt) n'.
Proof. intros H. unfold seen, tbind, plain. rewrite H. destruct (k tt n'). reflexivity. Qed.

Notation acts := (seen says_done).

(** ** to the network packet *)
Lemma ac_ether_in f n e : ether_parse f = Ok (inr e) -> our_mac (my_addrs n) (EtherModel.e_dst e) ->
  acts (t_ether f) n =
  acts (if (EtherModel.e_type e =? ETHER_TYPE_ARP) && a_sup4 (my_addrs n) then t_arp e
        else if (EtherModel.e_type e =? ETHER_TYPE_IP4) && a_sup4 (my_addrs n) then t_ip4 (EtherModel.e_rest e)
        else if (EtherModel.e_type e =? ETHER_TYPE_IP6) && a_sup6 (my_addrs n) then t_ip6 (EtherModel.e_rest e)
        else plain (rret tt)) n.
Proof.
  intros P M. apply our_mac_mem in M. unfold t_ether. rewrite ac_tick, P, ac_parsed, ac_gets, M. cbn [negb].
  rewrite !ac_tick_if by reflexivity. reflexivity.
Qed.
Lemma ac_ip4_in f n p : ip4_parse f = Ok (inr p) -> takes4 (my_addrs n) (i4_dst p) ->
  acts (t_ip4 f) n =
  acts (if negb (i4_offset p =? 0) || i4_mf p then
      let (fs, r) := defrag4 (s_now (n_tx n)) p (n_flows4 n) in
      _ <% plain (rupd (set_flows4 fs)) ;;
      o <% plain (rlift r) ;;
      match o with
      | None => plain (rret tt)
      | Some w =>
          q <% plain (rlift (ip4_parse w)) ;;
          match q with
          | inr q => _ <% tick ip4__defrag ;; t_dispatch4 q (i4_rest q)
          | inl _ => _ <% tick ip4__defrag ;; q <% plain (rlift (ip4_fields w)) ;; t_dispatch4 q w
          end
      end
    else t_dispatch4 p (i4_rest p)) n.
Proof.
  intros P M. apply takes4_mem in M. unfold t_ip4. rewrite ac_tick, P, ac_parsed, ac_gets, M.
  rewrite !ac_tick_if by reflexivity. destruct (negb _ || _); [|reflexivity]. rewrite ac_tick, ac_gets. reflexivity.
Qed.
Lemma ac_rx4 n f n1 p : rx4 n f n1 p -> acts (t_ether f) n = acts (t_dispatch4 p (i4_rest p)) n1.
Proof.
  intros H. inversion H as [e p0 (Pe & U) T S P Tk O M|e p0 fs w q (Pe & U) T S P Tk O Ed Pq]; subst;
    rewrite (ac_ether_in f _ e Pe U), T, S; change (0x0800 =? ETHER_TYPE_ARP) with false; change (0x0800 =? ETHER_TYPE_IP4) with true;
    cbn [andb]; rewrite (ac_ip4_in _ _ _ P Tk).
  - rewrite O, M. reflexivity.
  - replace (negb (i4_offset p0 =? 0) || i4_mf p0) with true by (destruct (i4_mf p0); destruct (Z.eqb_spec (i4_offset p0) 0); destruct O; try reflexivity; congruence).
    rewrite Ed, ac_upd, ac_ok, Pq, ac_ok, ac_tick. reflexivity.
Qed.
(** the end of [t_ip6] *)
Definition t_dispatch6 (p : ip6) : T unit :=
  if i6_next p =? IP6_NEXT_ICMP6 then
    t_icmp6 (i6_src p) (i6_dst p) (i6_hop p) (i6_rest p) (i6_dlen p) (i6_pshdr_sum p)
  else if i6_next p =? IP6_NEXT_UDP then
    t_udp (A6 (i6_src p)) (A6 (i6_dst p)) (i6_rest p) (i6_dlen p) (i6_pshdr_sum p) (slice 0 (i6_plen p) (i6_frame p))
  else if i6_next p =? IP6_NEXT_TCP then
    t_tcp (A6 (i6_src p)) (A6 (i6_dst p)) (i6_rest p) (i6_dlen p) (i6_pshdr_sum p)
  else plain (rret tt).
Lemma ac_ip6_in fuel f n p : ip6_parse f = Ok (inr p) -> our_ip6 (my_addrs n) (i6_dst p) ->
  acts (t_ip6_fuel (S fuel) f) n =
  if i6_next p =? IP6_NEXT_EXT_FRAG then
    acts (t_parsed (frag6_parse (i6_rest p) (i6_dlen p)) ip6_ext_frag__failed_parse (fun g =>
          n <% plain (rgets (fun n => n)) ;;
          let (fs, r) := defrag6 (s_now (n_tx n)) p g (n_flows6 n) in
          _ <% plain (rupd (set_flows6 fs)) ;;
          o <% plain (rlift r) ;;
          match o with
          | None => plain (rret tt)
          | Some w => _ <% tick ip6_ext_frag__defrag ;; t_ip6_fuel fuel w
          end)) n
  else acts (t_dispatch6 p) n.
Proof.
  intros P M. apply our_ip6_mem in M. cbn [t_ip6_fuel]. rewrite ac_tick, P, ac_parsed, ac_gets, M. cbn [negb].
  rewrite !ac_tick_if by reflexivity. destruct (i6_next p =? IP6_NEXT_EXT_FRAG); [rewrite ac_tick; reflexivity|].
  unfold t_dispatch6. reflexivity.
Qed.
(** either no counter of an action moves, or a packet arrives whose handler moves them *)
Lemma ac_ip6_cases : forall fuel f n, wf_bytes f -> Forall flow6_ok (n_flows6 n) ->
  (length f + flows_bytes (n_flows6 n) < fuel)%nat ->
  (acts (t_ip6_fuel fuel f) n = [] /\ ~ exists n1 p, rx6_net n f n1 p) \/
  (exists n1 p, rx6_net n f n1 p /\ acts (t_ip6_fuel fuel f) n = acts (t_dispatch6 p) n1).
Proof.
  induction fuel as [|fuel IH]; intros f n W F L; [lia|].
  destruct (ip6_parse_total f W) as [(x & Ep)|(p & Ep & _)].
  { left. split; [cbn [t_ip6_fuel]; rewrite ac_tick, Ep; reflexivity|]. intros (n1 & q & H). inversion H; subst; congruence. }
  destruct (mem (i6_dst p) (ip6_unicast (my_addrs n) ++ a_mcast6 (my_addrs n))) eqn:M.
  2:{ left. split; [cbn [t_ip6_fuel]; rewrite ac_tick, Ep, ac_parsed, ac_gets, M; reflexivity|]. intros (n1 & q & H).
      assert (X : our_ip6 (my_addrs n) (i6_dst p)) by (inversion H; subst; congruence). apply our_ip6_mem in X. congruence. }
  apply our_ip6_mem in M. rewrite (ac_ip6_in fuel f n p Ep M).
  destruct (Z.eqb_spec (i6_next p) IP6_NEXT_EXT_FRAG) as [Nx|Nx].
  2:{ right. exists n, p. split; [apply rx6_whole; auto|]. reflexivity. }
  change IP6_NEXT_EXT_FRAG with 44 in Nx.
  destruct (frag6_parse (i6_rest p) (i6_dlen p)) as [[x|g]|e] eqn:G.
  { left. split; [rewrite ac_failed; reflexivity|]. intros (n1 & q & H). inversion H; subst; congruence. }
  2:{ left. split; [reflexivity|]. intros (n1 & q & H). inversion H; subst; congruence. }
  rewrite ac_parsed, ac_gets. destruct (defrag6 (s_now (n_tx n)) p g (n_flows6 n)) as [fs' r'] eqn:Ed.
  destruct (reassemble6 _ _ _ _ _ _ _ W Ep G F Ed) as (F' & Hr). rewrite ac_upd.
  destruct r' as [[w|]|e].
  - destruct Hr as ((q & Ww & Pq & _) & Lw). rewrite ac_ok, ac_tick. cbn [says_done filter app].
    destruct (IH w (set_flows6 fs' n) Ww F' ltac:(cbn [n_flows6 set_flows6]; lia)) as [(-> & S5)|(n1 & q' & H & Eq)].
    + left. split; [reflexivity|]. intros (n1 & q' & H). apply S5. exists n1, q'. inversion H; subst; [congruence|]. congruence.
    + right. exists n1, q'. split; [|exact Eq]. eapply rx6_last; eauto.
  - left. split; [reflexivity|]. intros (n1 & q & H). inversion H; subst; [congruence|]. congruence.
  - left. split; [reflexivity|]. intros (n1 & q & H). inversion H; subst; [congruence|]. congruence.
Qed.
Lemma for_us_wf n f e : wf_bytes f -> for_us n f e -> wf_bytes (EtherModel.e_rest e).
Proof.
  intros W (Ep & _). apply (ether_parse_exact f e W) in Ep as (_ & _ & _ & Ef). rewrite Ef in W. unfold eth_wire in W. rewrite !wf_app in W. tauto.
Qed.
Lemma ac_rx6 n f n1 p : rx6 n f n1 p -> wf_bytes f -> node_ok n -> acts (t_ether f) n = acts (t_dispatch6 p) n1.
Proof.
  intros (e & (Pe & U) & T & S & H) W (_ & K6). rewrite (ac_ether_in f n e Pe U), T, S.
  change (0x86DD =? ETHER_TYPE_ARP) with false. change (0x86DD =? ETHER_TYPE_IP4) with false. change (0x86DD =? ETHER_TYPE_IP6) with true. cbn [andb].
  destruct (ac_ip6_cases (Datatypes.S (length (EtherModel.e_rest e) + flows_bytes (n_flows6 n))) (EtherModel.e_rest e) n
    (for_us_wf n f e W (conj Pe U)) K6 ltac:(lia)) as [(_ & N)|(n2 & q & H' & E)]; [exfalso; eauto|].
  destruct (rx6_net_det _ _ _ _ H _ _ H') as (-> & ->). exact E.
Qed.
Lemma ac_arp n f e p : arp_in n f e p -> acts (t_ether f) n = acts (t_arp e) n.
Proof. intros ((Pe & U) & T & S & _). rewrite (ac_ether_in f n e Pe U), T, S. reflexivity. Qed.
Lemma ac_ether_cases f n : wf_bytes f -> node_ok n ->
  acts (t_ether f) n = [] \/
  (exists e, for_us n f e /\ EtherModel.e_type e = 0x0806 /\ a_sup4 (my_addrs n) = true /\ acts (t_ether f) n = acts (t_arp e) n) \/
  (exists n1 p, rx4 n f n1 p /\ acts (t_ether f) n = acts (t_dispatch4 p (i4_rest p)) n1) \/
  (exists n1 p, rx6 n f n1 p /\ acts (t_ether f) n = acts (t_dispatch6 p) n1).
Proof.
  intros W (K4 & K6).
  destruct (ether_parse_total f W) as [(x & Ep)|(e & Ep & _)].
  { left. unfold t_ether. rewrite ac_tick, Ep. reflexivity. }
  destruct (mem (EtherModel.e_dst e) (a_mac (my_addrs n) :: a_mac_mcast (my_addrs n) ++ [mac_broadcast])) eqn:M.
  2:{ left. unfold t_ether. rewrite ac_tick, Ep, ac_parsed, ac_gets, M. reflexivity. }
  apply our_mac_mem in M. rewrite (ac_ether_in f n e Ep M). assert (U : for_us n f e) by (split; auto). pose proof (for_us_wf n f e W U) as Wr.
  destruct ((EtherModel.e_type e =? ETHER_TYPE_ARP) && a_sup4 (my_addrs n)) eqn:T1.
  { right; left. apply andb_true_iff in T1 as [T1 T1']. apply Z.eqb_eq in T1. exists e. auto. }
  destruct ((EtherModel.e_type e =? ETHER_TYPE_IP4) && a_sup4 (my_addrs n)) eqn:T2.
  { apply andb_true_iff in T2 as [T2 T2']. apply Z.eqb_eq in T2. change ETHER_TYPE_IP4 with 0x0800 in T2.
    destruct (ip4_parse (EtherModel.e_rest e)) as [[x|p]|x] eqn:P.
    - left. unfold t_ip4. rewrite ac_tick, P. reflexivity.
    - destruct (match ip4_unicast (my_addrs n) with [] => false | _ => true end && negb (mem (i4_dst p)
         (ip4_unicast (my_addrs n) ++ a_mcast4 (my_addrs n) ++ ip4_broadcasts (my_addrs n)))) eqn:Tk.
      { left. unfold t_ip4. rewrite ac_tick, P, ac_parsed, ac_gets, Tk. reflexivity. }
      apply takes4_mem in Tk. rewrite (ac_ip4_in _ _ _ P Tk).
      destruct (negb (i4_offset p =? 0) || i4_mf p) eqn:Fr.
      + assert (Fr' : i4_offset p <> 0 \/ i4_mf p = true) by (destruct (i4_mf p); [auto|left; lia]).
        destruct (defrag4 (s_now (n_tx n)) p (n_flows4 n)) as [fs o] eqn:Ed.
        destruct (reassemble4 _ _ _ _ _ _ Wr P K4 Ed) as (K4' & Ho). rewrite ac_upd.
        destruct o as [[w|]|x]; [|left; reflexivity|left; reflexivity].
        destruct Ho as (q & Ww & Pq & _). rewrite ac_ok, Pq, ac_ok, ac_tick.
        right; right; left. exists (set_flows4 fs n), q. split; [|reflexivity]. eapply rx4_last; eauto.
      + right; right; left. exists n, p. split; [|reflexivity].
        apply orb_false_iff in Fr as [Fr1 Fr2]. eapply rx4_whole; eauto. lia.
    - left. unfold t_ip4. rewrite ac_tick, P. reflexivity. }
  destruct ((EtherModel.e_type e =? ETHER_TYPE_IP6) && a_sup6 (my_addrs n)) eqn:T3; [|left; reflexivity].
  apply andb_true_iff in T3 as [T3 T3']. apply Z.eqb_eq in T3. change ETHER_TYPE_IP6 with 0x86DD in T3.
  destruct (ac_ip6_cases (S (length (EtherModel.e_rest e) + flows_bytes (n_flows6 n))) (EtherModel.e_rest e) n Wr K6 ltac:(lia))
    as [(A & _)|(n1 & p & H & A)]; [left; exact A|].
  right; right; right. exists n1, p. split; [|exact A]. exists e. auto.
Qed.

(** ** the handlers *)
Lemma reply_sent a b p n : a_oper p = 2 -> exists n', tx_ (phtx_arp a b p) n = (n', Ok tt).
Proof.
  intros O. unfold tx_, rbind', tx, phtx_arp, mbind, gets. destruct (a_sup4 _); [|eexists; reflexivity].
  unfold massert. rewrite O. destruct (mac_is_unspecified b); eexists; reflexivity.
Qed.
Definition explained_by (n : node) (f : bytes) (l : list rxc) : Prop := l = [] \/ exists n1 x, reacts n f n1 x /\ stands_for n f x l.
Lemma ac_arp_cases n f e : for_us n f e -> EtherModel.e_type e = 0x0806 -> a_sup4 (my_addrs n) = true -> explained_by n f (acts (t_arp e) n).
Proof.
  intros U T S. unfold t_arp. rewrite ac_tick. cbn [says_done filter app].
  destruct (arp_parse (EtherModel.e_rest e)) as [[x|p]|x] eqn:P; [left; reflexivity| |left; reflexivity].
  assert (I : arp_in n f e p) by (unfold arp_in; auto). rewrite ac_parsed, ac_gets.
  change ARP_OP_REQUEST with 1. change ARP_OP_REPLY with 2.
  destruct (Z.eqb_spec (a_oper p) 1) as [O|O].
  - rewrite ac_tick. destruct (mem (a_spa p) (ip4_unicast (my_addrs n))) eqn:M1; [left; reflexivity|].
    destruct (mem (a_tpa p) (ip4_unicast (my_addrs n))) eqn:M2; [|left; reflexivity].
    right. exists n, (RArpReply p). split.
    { apply (re_arp_reply n f e p I O); [apply unicast4_mem; exact M2|]. intros X. apply unicast4_mem in X. congruence. }
    rewrite ac_tick. match goal with |- context [tx_ (phtx_arp ?a ?b ?r)] => destruct (reply_sent a b r n eq_refl) as (n' & R) end.
    rewrite (ac_unit _ _ _ _ _ R), ac_tick, ac_plain. constructor.
  - destruct (Z.eqb_spec (a_oper p) 2) as [O2|]; [|left; reflexivity]. rewrite ac_tick.
    destruct (Z.eqb_spec (EtherModel.e_dst e) (a_mac (my_addrs n))) as [D|D]; cbn [andb].
    + destruct (mem (a_spa p) (map h_addr (a_cand4 (my_addrs n))) && (a_tha p =? a_mac (my_addrs n)) && ip4_is_unspecified (a_tpa p)) eqn:C.
      * right. exists n, (RConflict (a_spa p)). split; [|rewrite ac_tick, ac_plain; constructor].
        rewrite !andb_true_iff, cand4_mem in C. destruct C as ((C1 & C2) & C3).
        apply Z.eqb_eq in C2. apply Z.eqb_eq in C3. apply (re_arp_conflict n f e p); auto.
      * right. exists n, (RLearn4 (a_spa p) (a_sha p)). split; [|rewrite ac_tick, ac_plain; apply (sf_learn4 n f e); auto].
        apply (re_arp_learn n f e p); auto.
        intros (C1 & C2 & C3). apply cand4_mem in C1. rewrite C1, C2, C3, Z.eqb_refl in C. discriminate.
    + unfold mac_is_broadcast. destruct (Z.eqb_spec (EtherModel.e_dst e) 0xFFFFFFFFFFFF) as [B|B]; cbn [andb]; [|left; reflexivity].
      destruct (Z.eqb_spec (a_spa p) (a_tpa p)) as [G|G]; [|left; reflexivity].
      right. exists n, (RLearn4 (a_spa p) (a_sha p)). split; [|rewrite ac_tick, ac_plain; apply (sf_learn4_all n f e); auto].
      apply (re_arp_gratuitous n f e p); auto.
Qed.
Lemma ac_udp src dst f plen ps w u n : udp_parse f plen ps = Ok (inr u) ->
  acts (t_udp src dst f plen (Ok ps) w) n =
  match first_match (socket_patterns dst (u_dport u) src (u_sport u)) (n_socks n) with
  | Some i => [udp__socket_match]
  | None => if is_unspecified src then []
            else match dst, src with
                 | A6 _, A6 _ => [udp__no_socket_match__respond_icmp6_unreachable]
                 | A4 _, A4 _ => [udp__no_socket_match__respond_icmp4_unreachable]
                 | _, _ => [] end
  end.
Proof.
  intros E. unfold t_udp. rewrite ac_tick, ac_ok, E, ac_parsed, ac_gets.
  destruct (first_match _ _); [rewrite ac_tick; reflexivity|]. destruct (is_unspecified src); [reflexivity|].
  destruct dst, src; try reflexivity; rewrite ac_tick; reflexivity.
Qed.
Lemma ac_tcp src dst f plen ps s n : tcp_parse f plen ps = Ok (inr s) ->
  acts (t_tcp src dst f plen (Ok ps)) n =
  match sock_get {| k_type := Stream; k_lip := dst; k_lport := s_dport s; k_rip := src; k_rport := s_sport s |} (n_socks n) with
  | Some _ => [tcp__socket_match_active__forward_to_socket]
  | None => match tcp_lookup (n_socks n) dst (s_dport s) src (s_sport s) (pure_syn s) with
            | Some _ => [tcp__socket_match_listening__forward_to_socket]
            | None => [tcp__no_socket_match__respond_rst] end
  end.
Proof.
  intros E. unfold t_tcp. rewrite ac_tick, ac_ok, E, ac_parsed, ac_gets. unfold tcp_lookup.
  destruct (sock_get _ _); [rewrite ac_tick; reflexivity|]. rewrite pure_syn_eq.
  destruct (pure_syn s); [|rewrite ac_tick; reflexivity]. destruct (first_match _ _); rewrite ac_tick; reflexivity.
Qed.
(** the two ways to a socket for a segment *)
Lemma sf_tcp n f i d b : socks_ok (n_socks n) ->
  tcp_target (n_socks n) (d_lip d) (d_lport d) (d_rip d) (d_rport d) b (Some i) ->
  stands_for n f (RSegment i d)
   (match sock_get {| k_type := Stream; k_lip := d_lip d; k_lport := d_lport d; k_rip := d_rip d; k_rport := d_rport d |} (n_socks n) with
    | Some _ => [tcp__socket_match_active__forward_to_socket]
    | None => [tcp__socket_match_listening__forward_to_socket] end).
Proof.
  intros N T. inversion T as [j O|j B X O|j B X Y O|]; subst.
  - pose proof O as O'. apply (open_get _ _ _ _ _ _ _ N) in O'. rewrite O'. apply sf_session. exact O.
  - pose proof X as X'. apply none_get in X'. rewrite X'. apply sf_listener. exact X.
  - pose proof X as X'. apply none_get in X'. rewrite X'. apply sf_listener. exact X.
Qed.
Lemma target_none_get t lip lport rip rport b : tcp_target t lip lport rip rport b None ->
  sock_get {| k_type := Stream; k_lip := lip; k_lport := lport; k_rip := rip; k_rport := rport |} t = None.
Proof. intros T. inversion T; subst. apply none_get. assumption. Qed.
Lemma ac_icmp4 src dst f plen q n : icmp4_parse f plen = Ok (inr q) ->
  acts (t_icmp4 src dst f plen) n =
  match q4_body q with B4Echo _ _ _ => if q4_type q =? 8 then [icmp4__echo_request__respond_echo_reply] else [] | _ => [] end.
Proof.
  intros E. unfold t_icmp4. rewrite ac_tick, E, ac_parsed. cbn [says_done filter app].
  destruct (q4_body q) as [id seq d|d|]; [destruct (q4_type q =? 8); [rewrite ac_tick|]; reflexivity| |reflexivity].
  rewrite ac_tick. cbn [says_done filter app]. destruct (quoted4 d) as [[[[[a b] c] e]|]|x]; [|reflexivity|reflexivity].
  rewrite ac_ok, ac_gets. destruct (first_match _ _); reflexivity.
Qed.
Lemma ac_icmp6 src dst hop f plen ps q n : icmp6_parse f plen ps src dst hop = Ok (inr q) -> 0 <= src < 2 ^ 128 ->
  acts (t_icmp6 src dst hop f plen (Ok ps)) n =
  match q6_body q with
  | B6Echo _ _ _ => if q6_type q =? 128 then [icmp6__echo_request__respond_echo_reply] else []
  | B6Ra _ _ _ _ _ _ _ => [icmp6__nd_router_advertisement]
  | B6Ns t opts =>
      if mem t (ip6_unicast (my_addrs n)) then
        match (if (src =? 0) || (255 * 2 ^ 120 <=? src) then None else nd_slla opts) with
        | Some _ => [icmp6__nd_neighbor_solicitation__update_nd_cache; icmp6__nd_neighbor_solicitation__target_stack__respond]
        | None => [icmp6__nd_neighbor_solicitation__target_stack__respond] end
      else []
  | B6Na _ _ _ t opts =>
      if match a_cand6 (my_addrs n) with Some c => t =? c | None => false end then [icmp6__nd_neighbor_advertisement__run_dad]
      else match nd_tlla opts with Some _ => [icmp6__nd_neighbor_advertisement__update_nd_cache] | None => [] end
  | _ => [] end.
Proof.
  intros E Hs. unfold t_icmp6. rewrite ac_tick, ac_ok, E, ac_parsed, ac_gets. cbn [says_done filter app].
  destruct (q6_body q) as [d|id seq d|os|hp m o rl rt rr os|tg os|br bs bo tg os|nor|]; try reflexivity.
  - rewrite ac_tick. cbn [says_done filter app]. destruct (quoted6 d) as [[[[[a b] c] e]|]|x]; [|reflexivity|reflexivity].
    rewrite ac_ok, ac_gets. destruct (first_match _ _); reflexivity.
  - destruct (q6_type q =? 128); [rewrite ac_tick|]; reflexivity.
  - rewrite ac_tick. cbn [says_done filter app]. destruct (mem tg (ip6_unicast (my_addrs n))) eqn:M; cbn [negb]; [|reflexivity].
    rewrite ip6_multicast_iv by auto. unfold ip6_is_unspecified.
    replace ((0xFF00 * 2 ^ 112 <=? src) && (src <=? 2 ^ 128 - 1)) with (255 * 2 ^ 120 <=? src) by lia.
    assert (Z0 : forall n', acts (_ <% tick_if (src =? 0) icmp6__nd_neighbor_solicitation__dad ;;
        _ <% tick icmp6__nd_neighbor_solicitation__target_stack__respond ;;
        plain (tx_ (phtx_icmp6 tg (if src =? 0 then ip6_all_nodes else src) 255
               (T6Na false (negb (src =? 0)) (src =? 0) tg [TTlla (a_mac (my_addrs n))])))) n' = [icmp6__nd_neighbor_solicitation__target_stack__respond]).
    { intros n'. rewrite ac_tick_if by reflexivity. rewrite ac_tick. reflexivity. }
    cbv zeta. destruct (nd_slla os) as [m|].
    + destruct ((src =? 0) || (255 * 2 ^ 120 <=? src)).
      * erewrite ac_unit by reflexivity. apply Z0.
      * rewrite ac_tick2.
        erewrite ac_unit by reflexivity. rewrite Z0. reflexivity.
    + erewrite ac_unit by reflexivity. rewrite Z0. destruct (_ || _); reflexivity.
  - rewrite ac_tick. cbn [says_done filter app]. destruct (match a_cand6 _ with Some c => _ | None => _ end); [rewrite ac_tick; reflexivity|].
    destruct (nd_tlla os); [rewrite ac_tick; reflexivity|reflexivity].
Qed.
Lemma ac_udp_in n f n1 src dst sport dport data whole : udp_in n f n1 src dst sport dport data whole -> wf_bytes f -> node_ok n ->
  acts (t_ether f) n =
  match first_match (socket_patterns dst dport src sport) (n_socks n) with
  | Some i => [udp__socket_match]
  | None => if is_unspecified src then []
            else match dst, src with
                 | A6 _, A6 _ => [udp__no_socket_match__respond_icmp6_unreachable]
                 | A4 _, A4 _ => [udp__no_socket_match__respond_icmp4_unreachable]
                 | _, _ => [] end
  end.
Proof.
  intros H W K. inversion H as [n1' p sp dp d R T Dg|n1' p sp dp d R T Dg]; subst.
  - destruct (rx4_facts _ _ _ _ R W K) as ((_ & Ss & _) & _ & _ & _ & _ & _ & Wf & P).
    destruct (in4_facts _ _ Wf P) as (Wr & Hl & Lr & Ed & _ & _ & _ & _ & ps & Eps & Hps).
    rewrite (ac_rx4 _ _ _ _ R). unfold t_dispatch4. rewrite T, Eps. change (17 =? IP4_PROTO_ICMP4) with false. change (17 =? IP4_PROTO_UDP) with true.
    rewrite T in Hps. rewrite Ed in Dg.
    apply (datagram_iff _ _ _ _ _ _ _ Wr Hps Hl Lr) in Dg as (u & Ep & <- & <- & <-).
    cbv iota zeta. rewrite (ac_udp _ _ _ _ _ _ u n1 Ep), Ss. reflexivity.
  - destruct (rx6_facts _ _ _ _ R W K) as ((_ & Ss & _) & _ & _ & _ & _ & Wf & P).
    destruct (in6_facts _ _ Wf P) as (Wr & Hl & Lr & Ed & _ & _ & _ & ps & Eps & Hps).
    rewrite (ac_rx6 _ _ _ _ R W K). unfold t_dispatch6. rewrite T, Eps. change (17 =? IP6_NEXT_ICMP6) with false. change (17 =? IP6_NEXT_UDP) with true.
    rewrite T in Hps. rewrite Ed in Dg.
    apply (datagram_iff _ _ _ _ _ _ _ Wr Hps Hl Lr) in Dg as (u & Ep & <- & <- & <-).
    cbv iota. rewrite (ac_udp _ _ _ _ _ _ u n1 Ep), Ss. reflexivity.
Qed.
Lemma ac_tcp_in n f n1 src dst s : tcp_in n f n1 src dst s -> wf_bytes f -> node_ok n ->
  acts (t_ether f) n =
  match sock_get {| k_type := Stream; k_lip := dst; k_lport := s_dport s; k_rip := src; k_rport := s_sport s |} (n_socks n) with
  | Some _ => [tcp__socket_match_active__forward_to_socket]
  | None => match tcp_lookup (n_socks n) dst (s_dport s) src (s_sport s) (pure_syn s) with
            | Some _ => [tcp__socket_match_listening__forward_to_socket]
            | None => [tcp__no_socket_match__respond_rst] end
  end.
Proof.
  intros H W K. inversion H as [n1' p ps q R T Eps Ep|n1' p ps q R T Eps Ep]; subst.
  - destruct (rx4_facts _ _ _ _ R W K) as ((_ & Ss & _) & _).
    rewrite (ac_rx4 _ _ _ _ R). unfold t_dispatch4. rewrite T, Eps.
    change (6 =? IP4_PROTO_ICMP4) with false. change (6 =? IP4_PROTO_UDP) with false. change (6 =? IP4_PROTO_TCP) with true. cbv iota zeta.
    rewrite (ac_tcp _ _ _ _ _ s n1 Ep), Ss. reflexivity.
  - destruct (rx6_facts _ _ _ _ R W K) as ((_ & Ss & _) & _).
    rewrite (ac_rx6 _ _ _ _ R W K). unfold t_dispatch6. rewrite T, Eps.
    change (6 =? IP6_NEXT_ICMP6) with false. change (6 =? IP6_NEXT_UDP) with false. change (6 =? IP6_NEXT_TCP) with true. cbv iota.
    rewrite (ac_tcp _ _ _ _ _ s n1 Ep), Ss. reflexivity.
Qed.
Lemma ac_icmp4_in n f n1 src dst q : icmp4_in n f n1 src dst q -> wf_bytes f -> node_ok n ->
  acts (t_ether f) n =
  match q4_body q with B4Echo _ _ _ => if q4_type q =? 8 then [icmp4__echo_request__respond_echo_reply] else [] | _ => [] end.
Proof.
  intros (p & R & T & -> & -> & Ep) W K. rewrite (ac_rx4 _ _ _ _ R). unfold t_dispatch4. rewrite T.
  change (1 =? IP4_PROTO_ICMP4) with true. cbv iota zeta. apply ac_icmp4. exact Ep.
Qed.
Lemma ac_icmp6_in n f n1 src dst q : icmp6_in n f n1 src dst q -> wf_bytes f -> node_ok n ->
  acts (t_ether f) n =
  match q6_body q with
  | B6Echo _ _ _ => if q6_type q =? 128 then [icmp6__echo_request__respond_echo_reply] else []
  | B6Ra _ _ _ _ _ _ _ => [icmp6__nd_router_advertisement]
  | B6Ns t opts =>
      if mem t (ip6_unicast (my_addrs n)) then
        match (if (src =? 0) || (255 * 2 ^ 120 <=? src) then None else nd_slla opts) with
        | Some _ => [icmp6__nd_neighbor_solicitation__update_nd_cache; icmp6__nd_neighbor_solicitation__target_stack__respond]
        | None => [icmp6__nd_neighbor_solicitation__target_stack__respond] end
      else []
  | B6Na _ _ _ t opts =>
      if match a_cand6 (my_addrs n) with Some c => t =? c | None => false end then [icmp6__nd_neighbor_advertisement__run_dad]
      else match nd_tlla opts with Some _ => [icmp6__nd_neighbor_advertisement__update_nd_cache] | None => [] end
  | _ => [] end.
Proof.
  intros (p & ps & R & T & -> & -> & Eps & Ep) W K.
  destruct (rx6_facts _ _ _ _ R W K) as ((St & _) & _ & _ & _ & _ & Wf & P).
  destruct (in6_facts _ _ Wf P) as (_ & _ & _ & _ & Hs & _).
  assert (Ea : my_addrs n1 = my_addrs n) by (unfold my_addrs; rewrite St; reflexivity).
  rewrite (ac_rx6 _ _ _ _ R W K). unfold t_dispatch6. rewrite T, Eps. change (58 =? IP6_NEXT_ICMP6) with true. cbv iota.
  rewrite (ac_icmp6 _ _ _ _ _ _ q n1 Ep Hs), Ea. reflexivity.
Qed.

(** A reaction is counted as what it is. *)
Lemma counted_as n f n1 x : reacts n f n1 x -> wf_bytes f -> node_ok n -> socks_ok (n_socks n) ->
  stands_for n f x (acts (t_ether f) n).
Proof.
  intros H W K N. destruct H as
   [e p I O Ht Hs|e p I O D C Th Tp|e p I O D C|e p I O D B G
   |n1 src dst sport dport data whole i I T|n1 src dst sport dport data whole I T Z0
   |n1 src dst s i I T|n1 src dst s I T
   |n1 src dst q id seq data I T B|n1 src dst q id seq data I T B
   |n1 src dst q d lip lport rip rport i I B Q T|n1 src dst q d lip lport rip rport i I B Q T
   |n1 src dst q target opts I B Hh|n1 src dst q br bs bo target opts I B C|n1 src dst q br bs bo target opts m I B C O
   |n1 src dst q h m o rl rt rr opts I B].
  - rewrite (ac_arp _ _ _ _ I). destruct I as (_ & _ & _ & P). unfold t_arp. rewrite ac_tick, P, ac_parsed, ac_gets, O.
    change (1 =? ARP_OP_REQUEST) with true. cbv iota. rewrite ac_tick.
    apply unicast4_mem in Ht. destruct (mem (a_spa p) _) eqn:M; [apply unicast4_mem in M; contradiction|]. rewrite Ht, ac_tick.
    match goal with |- context [tx_ (phtx_arp ?a ?b ?r)] => destruct (reply_sent a b r n eq_refl) as (n' & R) end.
    rewrite (ac_unit _ _ _ _ _ R), ac_tick, ac_plain. constructor.
  - rewrite (ac_arp _ _ _ _ I). destruct I as (_ & _ & _ & P). unfold t_arp. rewrite ac_tick, P, ac_parsed, ac_gets, O.
    change (2 =? ARP_OP_REQUEST) with false. change (2 =? ARP_OP_REPLY) with true. cbv iota. rewrite ac_tick.
    apply cand4_mem in C. rewrite D, C, Th, Tp, !Z.eqb_refl. cbn [andb ip4_is_unspecified Z.eqb]. rewrite ac_tick. constructor.
  - pose proof I as (U & _ & _ & P). rewrite (ac_arp _ _ _ _ I). unfold t_arp. rewrite ac_tick, P, ac_parsed, ac_gets, O.
    change (2 =? ARP_OP_REQUEST) with false. change (2 =? ARP_OP_REPLY) with true. cbv iota. rewrite ac_tick, D, Z.eqb_refl. cbn [andb].
    destruct (mem (a_spa p) (map h_addr (a_cand4 (my_addrs n))) && (a_tha p =? a_mac (my_addrs n)) && ip4_is_unspecified (a_tpa p)) eqn:M.
    { rewrite !andb_true_iff, cand4_mem in M. destruct M as ((C1 & C2) & C3). apply Z.eqb_eq in C2. apply Z.eqb_eq in C3. tauto. }
    rewrite ac_tick. apply (sf_learn4 n f e); auto.
  - pose proof I as (U & _ & _ & P). rewrite (ac_arp _ _ _ _ I). unfold t_arp. rewrite ac_tick, P, ac_parsed, ac_gets, O.
    change (2 =? ARP_OP_REQUEST) with false. change (2 =? ARP_OP_REPLY) with true. cbv iota. rewrite ac_tick.
    destruct (Z.eqb_spec (EtherModel.e_dst e) (a_mac (my_addrs n))) as [|]; [contradiction|]. cbn [andb].
    unfold mac_is_broadcast. rewrite B, G, !Z.eqb_refl. cbn [andb]. rewrite ac_tick.
    apply (sf_learn4_all n f e); auto.
  - rewrite (ac_udp_in _ _ _ _ _ _ _ _ _ I W K). apply udp_target_iff in T; [|auto]. rewrite T. constructor.
  - rewrite (ac_udp_in _ _ _ _ _ _ _ _ _ I W K). apply udp_target_iff in T; [|auto]. rewrite T.
    destruct (is_unspecified src) eqn:U; [apply is_unspecified_spec in U; contradiction|].
    inversion I; subst; cbn [unreachable_for]; constructor.
  - rewrite (ac_tcp_in _ _ _ _ _ _ I W K). pose proof T as T'. apply tcp_target_iff in T'; [|auto]. rewrite T'.
    exact (sf_tcp n f i {| d_lip := dst; d_lport := s_dport s; d_rip := src; d_rport := s_sport s;
         d_syn := s_fsyn s; d_ack := s_fack s; d_fin := s_ffin s; d_rst := s_frst s;
         d_seq := s_seq s; d_ackn := s_ack s; d_win := s_win s; d_wscale := opt_wscale (s_opts s);
         d_mss := opt_mss (s_opts s); d_data := s_data s |} _ N T).
  - rewrite (ac_tcp_in _ _ _ _ _ _ I W K). rewrite (target_none_get _ _ _ _ _ _ T). apply tcp_target_iff in T; [|auto]. rewrite T. constructor.
  - rewrite (ac_icmp4_in _ _ _ _ _ _ I W K), B, T. constructor.
  - rewrite (ac_icmp6_in _ _ _ _ _ _ I W K), B, T. constructor.
  - rewrite (ac_icmp4_in _ _ _ _ _ _ I W K), B. constructor.
  - rewrite (ac_icmp6_in _ _ _ _ _ _ I W K), B. constructor.
  - rewrite (ac_icmp6_in _ _ _ _ _ _ I W K), B. apply unicast6_mem in Hh. rewrite Hh. destruct (if _ : bool then None else nd_slla opts); constructor.
  - rewrite (ac_icmp6_in _ _ _ _ _ _ I W K), B, C, Z.eqb_refl. constructor.
  - rewrite (ac_icmp6_in _ _ _ _ _ _ I W K), B, O.
    destruct (a_cand6 (my_addrs n)) as [c|]; [destruct (Z.eqb_spec target c); [congruence|]|]; constructor.
  - rewrite (ac_icmp6_in _ _ _ _ _ _ I W K), B. constructor.
Qed.

(** Nothing is counted as done that was not done. *)
Lemma ac_dispatch4_cases n f n1 p : rx4 n f n1 p -> wf_bytes f -> node_ok n -> socks_ok (n_socks n) ->
  acts (t_dispatch4 p (i4_rest p)) n1 = [] \/ exists n1 x, reacts n f n1 x.
Proof.
  intros H W K N. destruct (rx4_facts n f n1 p H W K) as ((St & Ss & _) & _ & _ & _ & _ & _ & Wf & P).
  destruct (in4_facts _ _ Wf P) as (Wr & Hl & Lr & Ed & Hs & Hd & Hp & _ & ps & Eps & Hps).
  unfold t_dispatch4. cbv zeta. change IP4_PROTO_ICMP4 with 1. change IP4_PROTO_UDP with 17. change IP4_PROTO_TCP with 6.
  destruct (Z.eqb_spec (i4_proto p) 1) as [T|T1].
  { destruct (icmp4_parse (i4_rest p) (i4_dlen p)) as [[x|q]|x] eqn:Ep.
    - left. unfold t_icmp4. rewrite ac_tick, Ep. reflexivity.
    - rewrite (ac_icmp4 _ _ _ _ q n1 Ep).
      assert (I : icmp4_in n f n1 (i4_src p) (i4_dst p) q) by (exists p; auto 6).
      destruct (q4_body q) as [id seq d|d|] eqn:B; [|left; reflexivity|left; reflexivity].
      destruct (Z.eqb_spec (q4_type q) 8) as [T8|]; [|left; reflexivity].
      right. do 2 eexists. apply (re_echo4 n f n1 (i4_src p) (i4_dst p) q id seq d); auto.
    - left. unfold t_icmp4. rewrite ac_tick, Ep. reflexivity. }
  destruct (Z.eqb_spec (i4_proto p) 17) as [T|T17].
  { rewrite Eps. destruct (udp_parse_total _ _ _ _ Wr Hps Hl) as [(x & Ep & _)|(u & Ep & _)].
    { left. unfold t_udp. rewrite ac_tick, ac_ok, Ep. reflexivity. }
    rewrite (ac_udp _ _ _ _ _ _ u n1 Ep), Ss. rewrite T in Hps.
    assert (Dg : udp_in n f n1 (A4 (i4_src p)) (A4 (i4_dst p)) (u_sport u) (u_dport u) (u_data u) (slice 0 (i4_plen p) (i4_frame p))).
    { apply udp_in4; auto. rewrite Ed. apply (datagram_iff _ _ _ _ _ _ _ Wr Hps Hl Lr). eauto. }
    destruct (first_match _ _) as [i|] eqn:M.
    - apply udp_target_iff in M; [|auto]. right. do 2 eexists. apply (re_udp _ _ _ _ _ _ _ _ _ _ Dg M).
    - apply udp_target_iff in M; [|auto]. destruct (is_unspecified (A4 (i4_src p))) eqn:U; [left; reflexivity|].
      right. do 2 eexists. apply (re_udp_none _ _ _ _ _ _ _ _ _ Dg M).
      intros X. apply is_unspecified_spec in X. congruence. }
  destruct (Z.eqb_spec (i4_proto p) 6) as [T|T6]; [|left; reflexivity].
  rewrite Eps. destruct (tcp_parse (i4_rest p) (i4_dlen p) ps) as [[x|s]|x] eqn:Ep.
  - left. unfold t_tcp. rewrite ac_tick, ac_ok, Ep. reflexivity.
  - assert (Tg : tcp_in n f n1 (A4 (i4_src p)) (A4 (i4_dst p)) s) by (apply (tcp_in4 n f n1 p ps); auto). right.
    destruct (tcp_lookup (n_socks n) (A4 (i4_dst p)) (s_dport s) (A4 (i4_src p)) (s_sport s) (pure_syn s)) as [i|] eqn:M;
      apply tcp_target_iff in M; auto; do 2 eexists.
    + apply (re_tcp _ _ _ _ _ _ _ Tg M).
    + apply (re_tcp_none _ _ _ _ _ _ Tg M).
  - left. unfold t_tcp. rewrite ac_tick, ac_ok, Ep. reflexivity.
Qed.
Lemma ac_dispatch6_cases n f n1 p : rx6 n f n1 p -> wf_bytes f -> node_ok n -> socks_ok (n_socks n) ->
  acts (t_dispatch6 p) n1 = [] \/ exists n1 x, reacts n f n1 x.
Proof.
  intros H W K N. destruct (rx6_facts n f n1 p H W K) as ((St & Ss & _) & _ & _ & _ & _ & Wf & P).
  destruct (in6_facts _ _ Wf P) as (Wr & Hl & Lr & Ed & Hs & Hd & _ & ps & Eps & Hps).
  unfold t_dispatch6. change IP6_NEXT_ICMP6 with 58. change IP6_NEXT_UDP with 17. change IP6_NEXT_TCP with 6.
  assert (Ea : my_addrs n1 = my_addrs n) by (unfold my_addrs; rewrite St; reflexivity).
  destruct (Z.eqb_spec (i6_next p) 58) as [T|T1].
  { rewrite Eps. destruct (icmp6_parse (i6_rest p) (i6_dlen p) ps (i6_src p) (i6_dst p) (i6_hop p)) as [[x|q]|x] eqn:Ep.
    - left. unfold t_icmp6. rewrite ac_tick, ac_ok, Ep. reflexivity.
    - rewrite (ac_icmp6 _ _ _ _ _ _ q n1 Ep Hs), Ea.
      assert (I : icmp6_in n f n1 (i6_src p) (i6_dst p) q) by (exists p, ps; auto 8).
      destruct (q6_body q) as [d|id seq d|os|hp m o rl rt rr os|tg os|br bs bo tg os|nor|] eqn:B; try (left; reflexivity).
      + destruct (Z.eqb_spec (q6_type q) 128) as [T8|]; [|left; reflexivity].
        right. do 2 eexists. apply (re_echo6 n f n1 (i6_src p) (i6_dst p) q id seq d); auto.
      + right. do 2 eexists. apply (re_ra n f n1 (i6_src p) (i6_dst p) q hp m o rl rt rr os); auto.
      + destruct (mem tg (ip6_unicast (my_addrs n))) eqn:M; [|left; reflexivity]. apply unicast6_mem in M.
        right. do 2 eexists. apply (re_ns n f n1 (i6_src p) (i6_dst p) q tg os I B M).
      + destruct (a_cand6 (my_addrs n)) as [c|] eqn:C.
        * destruct (Z.eqb_spec tg c) as [X|X].
          -- right. do 2 eexists. apply (re_na_taken n f n1 (i6_src p) (i6_dst p) q br bs bo tg os); auto; congruence.
          -- destruct (nd_tlla os) as [m|] eqn:O; [|left; reflexivity].
             right. do 2 eexists. apply (re_na_learn n f n1 (i6_src p) (i6_dst p) q br bs bo tg os m); auto; congruence.
        * destruct (nd_tlla os) as [m|] eqn:O; [|left; reflexivity].
          right. do 2 eexists. apply (re_na_learn n f n1 (i6_src p) (i6_dst p) q br bs bo tg os m); auto; congruence.
    - left. unfold t_icmp6. rewrite ac_tick, ac_ok, Ep. reflexivity. }
  destruct (Z.eqb_spec (i6_next p) 17) as [T|T17].
  { rewrite Eps. destruct (udp_parse_total _ _ _ _ Wr Hps Hl) as [(x & Ep & _)|(u & Ep & _)].
    { left. unfold t_udp. rewrite ac_tick, ac_ok, Ep. reflexivity. }
    rewrite (ac_udp _ _ _ _ _ _ u n1 Ep), Ss. rewrite T in Hps.
    assert (Dg : udp_in n f n1 (A6 (i6_src p)) (A6 (i6_dst p)) (u_sport u) (u_dport u) (u_data u) (slice 0 (i6_plen p) (i6_frame p))).
    { apply udp_in6; auto. rewrite Ed. apply (datagram_iff _ _ _ _ _ _ _ Wr Hps Hl Lr). eauto. }
    destruct (first_match _ _) as [i|] eqn:M.
    - apply udp_target_iff in M; [|auto]. right. do 2 eexists. apply (re_udp _ _ _ _ _ _ _ _ _ _ Dg M).
    - apply udp_target_iff in M; [|auto]. destruct (is_unspecified (A6 (i6_src p))) eqn:U; [left; reflexivity|].
      right. do 2 eexists. apply (re_udp_none _ _ _ _ _ _ _ _ _ Dg M).
      intros X. apply is_unspecified_spec in X. congruence. }
  destruct (Z.eqb_spec (i6_next p) 6) as [T|T6]; [|left; reflexivity].
  rewrite Eps. destruct (tcp_parse (i6_rest p) (i6_dlen p) ps) as [[x|s]|x] eqn:Ep.
  - left. unfold t_tcp. rewrite ac_tick, ac_ok, Ep. reflexivity.
  - assert (Tg : tcp_in n f n1 (A6 (i6_src p)) (A6 (i6_dst p)) s) by (apply (tcp_in6 n f n1 p ps); auto). right.
    destruct (tcp_lookup (n_socks n) (A6 (i6_dst p)) (s_dport s) (A6 (i6_src p)) (s_sport s) (pure_syn s)) as [i|] eqn:M;
      apply tcp_target_iff in M; auto; do 2 eexists.
    + apply (re_tcp _ _ _ _ _ _ _ Tg M).
    + apply (re_tcp_none _ _ _ _ _ _ Tg M).
  - left. unfold t_tcp. rewrite ac_tick, ac_ok, Ep. reflexivity.
Qed.
Lemma done_is_done n f : wf_bytes f -> node_ok n -> socks_ok (n_socks n) ->
  filter says_done (counted f n) <> [] -> exists n1 x, reacts n f n1 x.
Proof.
  intros W K N. change (filter says_done (counted f n)) with (acts (t_ether f) n). intros H.
  destruct (ac_ether_cases f n W K) as [E|[(e & U & T & S & E)|[(n1 & p & R & E)|(n1 & p & R & E)]]].
  - contradiction.
  - destruct (ac_arp_cases n f e U T S) as [E'|(n1 & x & Hx & _)]; [congruence|eauto].
  - destruct (ac_dispatch4_cases n f n1 p R W K N) as [E'|X]; [congruence|exact X].
  - destruct (ac_dispatch6_cases n f n1 p R W K N) as [E'|X]; [congruence|exact X].
Qed.
