(** Whole runs of the echo service: what it holds, and what ends it. *)
From Verif Require Import Base BaseLemmas CksumModel SpecCksum CodecModel CodecLemmas AddrModel SpecAddr AddrProofs SpecWire EtherModel EtherProofs Ip4Model Ip4Proofs PshdrLemmas Ip6Model Ip6Proofs UdpModel UdpProofs UdpIpProofs TcpModel TcpProofs TcpAsmProofs Icmp4Model Icmp4Proofs Icmp6Model Icmp6Proofs Icmp6AsmProofs FragModel FragProofs FragSendProofs BufProofs RingModel RingProofs StackModel SpecStack StackTxProofs StackWireProofs StackSendProofs StackRouteProofs StackRxModel SpecRx RxProofs SpecReact ReactProofs ReplyProofs RxSockProofs AcquireProofs UdpApiModel SpecUdpApi UdpApiProofs SpecUdpSend UdpSendProofs EchoModel SpecEcho EchoProofs EchoSendProofs.

(** ** the identification counter stays a natural number *)
Definition mnat {A} (m : M A) : Prop := forall s s' r, m s = (s', r) -> 0 <= s_id4 s -> 0 <= s_id4 s'.
Lemma mn_ret {A} (a : A) : mnat (ret a).
Proof. intros s s' r E. injection E as <- _. auto. Qed.
Lemma mn_raise {A} e : mnat (@raise A e).
Proof. intros s s' r E. injection E as <- _. auto. Qed.
Lemma mn_lift {A} (a : res A) : mnat (lift a).
Proof. intros s s' r E. injection E as <- _. auto. Qed.
Lemma mn_gets {A} (f : stack -> A) : mnat (gets f).
Proof. intros s s' r E. injection E as <- _. auto. Qed.
Lemma mn_bind {A B} (m : M A) (k : A -> M B) : mnat m -> (forall a, mnat (k a)) -> mnat (x <~ m ;; k x).
Proof.
  intros Hm Hk s s' r E. unfold mbind in E. destruct (m s) as [s1 [a|e]] eqn:E1.
  - intros H. eapply (Hk a); eauto.
  - injection E as <- _. eauto.
Qed.
Lemma mn_upd f : (forall s, 0 <= s_id4 s -> 0 <= s_id4 (f s)) -> mnat (upd f).
Proof. intros H s s' r E. injection E as <- _. auto. Qed.
Lemma mn_assert {A} b (m : M A) : mnat m -> mnat (massert b m).
Proof. unfold massert. destruct b; [auto|]. intros _. apply mn_raise. Qed.
Ltac mn := repeat (cbv zeta; match goal with
  | |- mnat (mbind _ _) => apply mn_bind; [|intros]
  | |- mnat (ret _) => apply mn_ret
  | |- mnat (raise _) => apply mn_raise
  | |- mnat (lift _) => apply mn_lift
  | |- mnat (gets _) => apply mn_gets
  | |- mnat (massert _ _) => apply mn_assert
  | |- mnat (upd _) => apply mn_upd; intros ? ?; assumption
  | |- mnat (if ?b then _ else _) => destruct b
  | |- mnat (match ?x with _ => _ end) => destruct x
  end; auto).
Lemma mn_ether_send a b p : mnat (ether_send a b p).
Proof. unfold ether_send. mn. Qed.
Lemma mn_phtx_arp a b p : mnat (phtx_arp a b p).
Proof. unfold phtx_arp. mn. apply mn_ether_send. Qed.
Lemma mn_arp_add a b : mnat (arp_add a b).
Proof. unfold arp_add. mn. Qed.
Lemma mn_nd_add a b : mnat (nd_add a b).
Proof. unfold nd_add. mn. Qed.
Lemma mn_arp_find a : mnat (arp_find a).
Proof. unfold arp_find, send_arp_request. mn. apply mn_phtx_arp. Qed.
Lemma mn_ether_ip4 a b p : mnat (ether_ip4 a b p).
Proof. unfold ether_ip4. mn; auto using mn_ether_send, mn_arp_find. Qed.
Lemma mn_frags4 a b l : mnat (send_frags4 a b l).
Proof. induction l as [|[t d] l IH]; cbn [send_frags4]; mn. apply mn_ether_ip4. Qed.
Lemma frag_id mtu src dst ttl proto id0 c fs id : ip4_fragment mtu src dst ttl proto id0 c = Ok (fs, id) -> id = id0 + 1.
Proof.
  unfold ip4_fragment. destruct (ip4_pshdr_sum src dst proto (c_len c)) as [ps|]; cbn [rbind]; [|discriminate].
  destruct (c_asm c _ ps) as [data|]; cbn [rbind]; [|discriminate]. destruct (chunks _ data) as [l|]; cbn [rbind]; [|discriminate]. cbv zeta.
  destruct (map _ _) as [|[t x] r]; [|unfold assert_; destruct (ip4_tx_ok t); [|discriminate]]; intros E; injection E as _ <-; reflexivity.
Qed.
Lemma mn_ip4 a b t p : mnat (phtx_ip4 a b t p).
Proof.
  unfold phtx_ip4. apply mn_assert. apply mn_bind; [apply mn_gets|intros ad]. destruct (negb _); [apply mn_ret|].
  destruct (validate_src4 ad a b p) as [src|st]; [|apply mn_ret]. destruct (ip4_is_unspecified b); [apply mn_ret|]. cbv zeta. apply mn_assert.
  destruct (_ <=? TAP_MTU); [apply mn_ether_ip4|]. intros s s' r E. unfold mbind at 1, gets at 1 in E.
  destruct (ip4_fragment _ _ _ _ _ _ _) as [[fs id]|e] eqn:F.
  - apply frag_id in F. subst id. intros H. unfold mbind at 1, upd in E.
    assert (X : mnat (l <~ send_frags4 src b fs ;; ret (worst severity4 Ip4Unknown l))) by (apply mn_bind; [apply mn_frags4|intros; apply mn_ret]).
    eapply X; [exact E|]. cbn. lia.
  - intros H. destruct e; try (injection E as <- _; exact H). unfold mbind, upd, raise in E. injection E as <- _. cbn. lia.
Qed.
Lemma mn_ether_ip6 f a b p : (forall x, mnat (f x)) -> mnat (ether_ip6 f a b p).
Proof. intros H. unfold ether_ip6, nd_find. mn; auto using mn_ether_send. Qed.
Lemma mn_frags6 f n i l : (forall x, mnat (f x)) -> mnat (send_frags6 f n i l).
Proof. intros H. induction l; cbn [send_frags6]; mn. Qed.
Lemma mn_ip6_fuel fuel : forall a b h p, mnat (phtx_ip6_fuel fuel a b h p).
Proof.
  induction fuel; intros; cbn [phtx_ip6_fuel]; [apply mn_raise|]. mn.
  - apply mn_ether_ip6. intros. mn.
  - apply mn_frags6. auto.
Qed.
Lemma mn_udp a b sp dp d : mnat (phtx_udp a b sp dp d).
Proof. unfold phtx_udp. mn; auto using mn_ip4; apply mn_ip6_fuel. Qed.
Lemma mn_request q : mnat (send_request q).
Proof.
  destruct q; cbn [send_request]; auto using mn_phtx_arp, mn_ip4, mn_udp; try apply mn_ip6_fuel.
  - unfold phtx_tcp. mn; auto using mn_ip4; apply mn_ip6_fuel.
  - unfold phtx_icmp4. mn. apply mn_ip4.
  - unfold phtx_icmp6. mn. apply mn_ip6_fuel.
Qed.
Definition rnat {A} (m : R A) : Prop := forall n n' r, m n = (n', r) -> 0 <= s_id4 (n_tx n) -> 0 <= s_id4 (n_tx n').
Lemma rn_tx {A} (m : M A) : mnat m -> rnat (tx_ m).
Proof.
  intros G n n' r E. unfold tx_, rbind', tx in E. destruct (m (n_tx n)) as [t x] eqn:Em. destruct x; injection E as <- _; cbn; eapply G; eauto.
Qed.
Lemma rn_bind {A B} (m : R A) (k : A -> R B) : rnat m -> (forall a, rnat (k a)) -> rnat (x <+ m ;; k x).
Proof. intros H K n n' r E I. apply UdpApiProofs.bind_inv in E. destruct E as [(n1 & a & E1 & E2)|(e & E1 & _)]; [eapply K; eauto|eapply H; eauto]. Qed.
Lemma rn_upd f : (forall n, n_tx (f n) = n_tx n) -> rnat (rupd f).
Proof. intros H n n' r E. injection E as <- _. rewrite H. auto. Qed.
Lemma rn_effect x : rnat (effect x).
Proof.
  destruct x; cbn [effect]; try (apply rn_upd; reflexivity); try (apply rn_tx; auto using mn_request, mn_arp_add, mn_nd_add).
  - apply rn_bind; [intros n n' r E; injection E as <- _; auto|intros a]. apply rn_bind; [apply rn_tx, mn_request|intros _; apply rn_tx, mn_arp_add].
  - apply rn_bind; [destruct learn; [apply rn_tx, mn_nd_add|intros n n' r E; injection E as <- _; auto]|intros _; apply rn_tx, mn_request].
Qed.
Lemma rx_nat n f : wf_bytes f -> node_fit n -> 0 <= s_id4 (n_tx n) -> 0 <= s_id4 (n_tx (fst (phrx_ether f n))).
Proof.
  intros W (K & N) I. destruct (phrx_ether f n) as [n' r] eqn:E. cbn [fst].
  destruct (react_total n f n' r W K N E) as [((T & _) & _)|(n1 & x & _ & Ex & (T & _) & _)]; [rewrite T; exact I|].
  apply (rn_effect x _ _ _ Ex). rewrite T. exact I.
Qed.

(** ** the calls leave everything but the sockets and what was sent *)
Definition mild {A} (m : R A) : Prop := forall n n' r, m n = (n', r) ->
  n_flows4 n' = n_flows4 n /\ n_flows6 n' = n_flows6 n /\ my_addrs n' = my_addrs n /\ (0 <= s_id4 (n_tx n) -> 0 <= s_id4 (n_tx n')).
Lemma mi_ret {A} (a : A) : mild (rret a).
Proof. intros n n' r E. injection E as <- _. auto. Qed.
Lemma mi_lift {A} (a : res A) : mild (rlift a).
Proof. intros n n' r E. injection E as <- _. auto. Qed.
Lemma mi_gets {A} (f : node -> A) : mild (rgets f).
Proof. intros n n' r E. injection E as <- _. auto. Qed.
Lemma mi_pick c : mild (fun n => rlift (pick_port c (n_socks n)) n).
Proof. intros n n' r E. injection E as <- _. auto. Qed.
Lemma mi_bind {A B} (m : R A) (k : A -> R B) : mild m -> (forall a, mild (k a)) -> mild (x <+ m ;; k x).
Proof.
  intros H K n n' r E. apply UdpApiProofs.bind_inv in E. destruct E as [(n1 & a & E1 & E2)|(e & E1 & _)]; [|eapply H; eauto].
  destruct (H _ _ _ E1) as (A1 & A2 & A3 & A4'). destruct (K a _ _ _ E2) as (B1 & B2 & B3 & B4). repeat split; try congruence. auto.
Qed.
Lemma mi_upd f : (forall n, n_flows4 (f n) = n_flows4 n /\ n_flows6 (f n) = n_flows6 n /\ n_tx (f n) = n_tx n) -> mild (rupd f).
Proof. intros H n n' r E. injection E as <- _. destruct (H n) as (A & B & C). unfold my_addrs. rewrite C. auto. Qed.
Lemma mi_tx {A} (m : M A) : mgrows m -> mnat m -> mild (tx m).
Proof.
  intros G N n n' r E. unfold tx in E. destruct (m (n_tx n)) as [t x] eqn:Em. destruct (G _ _ _ Em) as [S _]. pose proof (N _ _ _ Em). injection E as <- _.
  unfold my_addrs. cbn. auto.
Qed.
Ltac mi := repeat (cbv zeta; match goal with
  | |- mild (rbind' _ _) => apply mi_bind; [|intros]
  | |- mild (rret _) => apply mi_ret
  | |- mild (rlift _) => apply mi_lift
  | |- mild (rgets _) => apply mi_gets
  | |- mild (rupd _) => apply mi_upd; intros; repeat split; reflexivity
  | |- mild (fun n => rlift _ n) => apply mi_pick
  | |- mild (if ?b then _ else _) => destruct b
  | |- mild (match ?x with _ => _ end) => destruct x
  end; auto).
Lemma mi_set_ip i t l p rp : mild (udp_set_ip i t l p rp).
Proof. unfold udp_set_ip. mi. Qed.
Lemma mg_udp a b sp dp d : mgrows (phtx_udp a b sp dp d).
Proof. exact (mg_request (QUdp a b sp dp d)). Qed.
Lemma mi_udp a b sp dp d : mild (tx (phtx_udp a b sp dp d)).
Proof. apply mi_tx; [apply mg_udp|apply mn_udp]. Qed.
Lemma mi_bind_ c i t p : mild (udp_bind c i t p).
Proof. unfold udp_bind. mi. Qed.
Lemma mi_connect c i t p : mild (udp_connect c i t p).
Proof. unfold udp_connect. mi; apply mi_set_ip. Qed.
Lemma mi_send i d : mild (udp_send i d).
Proof. unfold udp_send. mi; apply mi_udp. Qed.
Lemma mi_sendto c i d t p : mild (udp_sendto c i d t p).
Proof. unfold udp_sendto. mi; auto using mi_set_ip, mi_udp. Qed.
Lemma mi_take i : mild (udp_take i).
Proof. unfold udp_take. mi. Qed.
Lemma mi_recv i : mild (udp_recv i).
Proof. unfold udp_recv. mi; apply mi_take. Qed.
Lemma mi_recvfrom i : mild (udp_recvfrom i).
Proof. unfold udp_recvfrom. mi; apply mi_take. Qed.
Lemma mi_close i : mild (udp_close i).
Proof. unfold udp_close. mi. Qed.

(** ** one happening *)
Definition calm_op (o : uop) : Prop := match o with UFrame fr => wf_bytes fr | UAddrs a => wf_addrs a | _ => True end.
Definition good (n : node) : Prop := node_ok n /\ wf_addrs (my_addrs n) /\ 0 <= s_id4 (n_tx n).
Lemma good_step o w : calm_op o -> socks_ok (n_socks (w_node w)) -> good (w_node w) -> good (w_node (fst (uop_do o w))).
Proof.
  intros C S G.
  assert (N : forall A (m : R A) f, mild m -> good (w_node (fst (on_node m f w)))).
  { intros A m f H. unfold on_node. destruct (m (w_node w)) as [n' r] eqn:E. cbn. destruct (H _ _ _ E) as (H1 & H2 & H3 & H4). destruct G as (G1 & G2 & G3).
    unfold good, node_ok. rewrite H1, H2, H3. auto. }
  assert (K : forall j A (m : R A) f, mild m -> good (w_node (fst (on_sock j m f w)))).
  { intros j A m f H. unfold on_sock. destruct (known j w); [apply N; exact H|exact G]. }
  destruct o; cbn [uop_do]; auto using mi_bind_, mi_connect, mi_send, mi_sendto, mi_recv, mi_recvfrom, mi_close.
  - cbn in C. unfold on_node. destruct G as (G1 & G2 & G3).
    destruct (rx_node_step (w_node w) f C (conj G1 S)) as (A & (B & _) & _). pose proof (rx_nat (w_node w) f C (conj G1 S) G3) as I.
    destruct (phrx_ether f (w_node w)) as [n' r]. cbn [fst w_node] in *. split; [exact B|]. split; [rewrite A; exact G2|exact I].
  - cbn. destruct G as (G1 & G2 & G3). split; [exact G1|]. split; [exact C|exact G3].
Qed.

(** ** what a frame adds *)
Lemma datagram_short pseudo seg sp dp d : zlen seg < 65536 -> datagram pseudo seg sp dp d -> 0 < sp < 65536 /\ zlen d < 65528.
Proof.
  intros L (ck & _ & P & _ & E & _). split; [exact P|]. rewrite E in L. unfold udp_wire in L. rewrite !zlen_app in L.
  rewrite !be_enc_zlen in L. lia.
Qed.
Lemma udp_in_short n f n1 src dst sp dp d wh : udp_in n f n1 src dst sp dp d wh -> wf_bytes f -> node_ok n -> 0 < sp < 65536 /\ zlen d < 65528.
Proof.
  intros H W K. inversion H as [n1' p sp' dp' d' R T Dg|n1' p sp' dp' d' R T Dg]; subst.
  - destruct (rx4_facts _ _ _ _ R W K) as (_ & _ & _ & _ & _ & _ & Wf & P). destruct (in4_facts _ _ Wf P) as (_ & L1 & L2 & L3 & _).
    eapply datagram_short; [|exact Dg]. rewrite L3, zlen_slice; lia.
  - destruct (rx6_facts _ _ _ _ R W K) as (_ & _ & _ & _ & _ & Wf & P).
    destruct (in6_facts _ _ Wf P) as (_ & L1 & L2 & L3 & _). eapply datagram_short; [|exact Dg]. rewrite L3, zlen_slice; lia.
Qed.

Lemma skipn_more {A} (q : list A) (x : list A) : skipn (length q) (q ++ x) = x.
Proof. induction q; cbn; auto. Qed.
Lemma skipn_same {A} (q : list A) : skipn (length q) q = [].
Proof. induction q; cbn; auto. Qed.
Lemma open_key closed w ty lip lport rip rport i : inv closed w -> ty = Dgram -> open_as (n_socks (w_node w)) ty lip lport rip rport i ->
  lip = u_lip (n_udp (w_node w) i) /\ lport = u_lport0 (n_udp (w_node w) i).
Proof.
  intros V -> O. destruct (inv_entry _ _ V _ _ O eq_refl) as (_ & _ & K & _). unfold udp_key in K. injection K as <- <- _ _. auto.
Qed.
Lemma added_meant o w i closed : calm_op o -> inv closed w -> node_ok (w_node w) -> Forall (meant_for (n_udp (w_node w) i)) (added i o w).
Proof.
  intros C V K. destruct o; cbn [added]; try constructor. cbn [calm_op] in C. cbn [uop_do]. unfold on_node.
  pose proof (inv_nodup _ _ V) as N. destruct (phrx_ether f (w_node w)) as [n' r] eqn:E. cbn [fst w_node].
  destruct (udp_changes _ _ _ _ C K N E) as [->|[(n1 & src & dst & sp & dp & d & wh & j & I & T & _ & D & Dj & _)|[(n1 & src & dst & q & d & li & lp & ri & rp & j & _ & _ & _ & _ & _ & D & Dj & _)|(n1 & src & dst & q & d & li & lp & ri & rp & j & _ & _ & _ & _ & _ & D & Dj & _)]]].
  - rewrite skipn_same. constructor.
  - destruct (Nat.eq_dec i j) as [<-|Nj]; [|rewrite Dj by auto; rewrite skipn_same; constructor].
    rewrite D. cbn [u_queue]. rewrite skipn_more. constructor; [|constructor].
    destruct (udp_in_facts _ _ _ _ _ _ _ _ _ I C K) as (Sk & Ks & _). destruct (udp_in_short _ _ _ _ _ _ _ _ _ I C K) as (Hp & Hd).
    unfold meant_for. cbn [m_rip m_rport m_data m_lip m_lport].
    assert (X : family_of src = family_of (u_lip (n_udp (w_node w) i)) /\ dp = u_lport0 (n_udp (w_node w) i) /\ (dst = u_lip (n_udp (w_node w) i) \/ unspec (u_lip (n_udp (w_node w) i)))).
    { assert (FS : family_of src = family_of dst) by (destruct src, dst; try contradiction; reflexivity).
      inversion T as [j' O|j' _ O|j' _ _ O|x j' Ex _ _ _ O|]; subst;
        (destruct (open_key _ _ _ _ _ _ _ _ V eq_refl O) as (L & P); rewrite <- L; split; [|split; [exact P|]]).
      1,3: exact FS. 1,2: left; reflexivity.
      - rewrite FS. destruct dst; reflexivity.
      - right. unfold unspec. destruct dst; cbn; auto.
      - rewrite FS. reflexivity.
      - right. left. reflexivity. }
    destruct X as (X1 & X2 & X3). split; [exact X1|]. split; [destruct src; exact Ks|]. auto.
  - destruct (Nat.eq_dec i j) as [<-|Nj]; [|rewrite Dj by auto; rewrite skipn_same; constructor]. rewrite D. cbn [u_queue]. rewrite skipn_same. constructor.
  - destruct (Nat.eq_dec i j) as [<-|Nj]; [|rewrite Dj by auto; rewrite skipn_same; constructor]. rewrite D. cbn [u_queue]. rewrite skipn_same. constructor.
Qed.
Lemma meant_ends u u' m : ends u' = ends u -> meant_for u m -> meant_for u' m.
Proof. intros E. apply ends_fields in E. destruct E as (L & P & _). unfold meant_for. rewrite L, P. auto. Qed.

(** ** a run *)
Definition calm (es : list echo_ev) : Prop := forall o, In (EWorld o) es -> calm_op o.
Definition steady (i : nat) (f : family) (s : echo) : Prop :=
  running i f s /\ good (w_node (e_world s)) /\ Forall (meant_for (sock_of s)) (u_queue (sock_of s)) /\
  exists h, in_hand (e_at s) h /\ Forall (meant_for (sock_of s)) h.
Lemma run_app a b w : uop_run (a ++ b) w = uop_run b (uop_run a w).
Proof. revert w. induction a; cbn; auto. Qed.
Lemma erun_app a b s : echo_run (a ++ b) s = echo_run b (echo_run a s).
Proof. revert s. induction a; cbn; auto. Qed.
Lemma ops_app a b s : ops_of (a ++ b) s = ops_of a s ++ ops_of b (echo_run a s).
Proof. revert s. induction a as [|e a IH]; intros s; cbn [app ops_of echo_run]; [reflexivity|]. rewrite IH, app_assoc. reflexivity. Qed.
Lemma nuac_prefix a b : no_use_after_close (a ++ b) -> no_use_after_close a.
Proof. intros H x i y E o I. apply (H x i (y ++ b)); [rewrite E, <- app_assoc; reflexivity|apply in_or_app; auto]. Qed.
Lemma steady_step e s i f closed : steady i f s -> inv closed (e_world s) -> (forall o, e = EWorld o -> ~ call_on i o /\ calm_op o) -> steady i f (echo_do e s).
Proof.
  intros (Rn & G & Q & h & H & FH) V P.
  destruct (echo_step e s i f h Rn) as (Rn' & EN & done & h' & _ & H' & Eq); [intros o Eo; apply P; exact Eo|exact H|].
  assert (CO : forall o, echo_op e s = Some o -> calm_op o).
  { intros o Eo. destruct e as [c| |o']; cbn [echo_op] in Eo; [|discriminate|injection Eo as <-; apply P; reflexivity].
    destruct (e_at s); try discriminate; [destruct (echo_waits s); [discriminate|]|]; injection Eo as <-; exact I. }
  assert (WD : e_world (echo_do e s) = match echo_op e s with Some o => fst (uop_do o (e_world s)) | None => e_world s end).
  { pose proof (ops_world [e] s) as X. cbn [echo_run ops_of] in X. rewrite app_nil_r in X. rewrite X. destruct (echo_op e s); reflexivity. }
  assert (AD : Forall (meant_for (sock_of s)) match echo_op e s with Some o => added i o (e_world s) | None => [] end).
  { destruct (echo_op e s) as [o|]; [|constructor]. pose proof Rn as (Ei & _). unfold sock_of. rewrite Ei. eapply added_meant; eauto. apply G. }
  assert (ALL : Forall (meant_for (sock_of s)) (done ++ h' ++ u_queue (sock_of (echo_do e s)))).
  { rewrite Eq. apply Forall_app. split; [exact FH|]. apply Forall_app. auto. }
  apply Forall_app in ALL as (_ & ALL). apply Forall_app in ALL as (A1 & A2).
  assert (T : forall l, Forall (meant_for (sock_of s)) l -> Forall (meant_for (sock_of (echo_do e s))) l).
  { intros l. apply Forall_impl. intros m. apply meant_ends. exact EN. }
  split; [exact Rn'|]. split; [|split; [apply T; exact A2|exists h'; auto]].
  rewrite WD. destruct (echo_op e s) as [o|]; [|exact G]. apply good_step; auto. apply (inv_nodup _ _ V).
Qed.
Lemma start_world f a port w : e_world (echo_start f a port true w) = uop_run (startup f a port w) w.
Proof. unfold echo_start, startup. cbn [uop_run]. destruct (uop_do (UBind _ _ _ _) _); reflexivity. Qed.
Lemma steady_run f a port w : 0 < port -> fresh_world w -> good (w_node w) -> let s := echo_start f a port true w in e_at s = AtTest ->
  forall es, private (e_sock s) es -> calm es -> no_use_after_close (startup f a port w ++ ops_of es s) ->
  steady (e_sock s) f (echo_run es s).
Proof.
  intros P F G s A. destruct (start_ok f a port w P A) as (_ & Rn & Q0 & _ & _ & T). fold s in Rn, Q0, T.
  induction es as [|e es IH] using rev_ind; intros Pr C NU.
  - cbn [echo_run]. split; [exact Rn|]. split; [|split; [rewrite Q0; constructor|exists []; rewrite A; split; [reflexivity|constructor]]].
    unfold s. rewrite start_world. unfold startup. cbn [uop_run]. 
    assert (V : inv (closed_in [UNew f]) (fst (uop_do (UNew f) w))) by (apply (inv_history [UNew f] w F); intros x i y E o Io; destruct x as [|? [|? ?]]; discriminate).
    apply good_step; [exact I|apply (inv_nodup _ _ V)|]. apply good_step; [exact I| |exact G]. destruct F as [_ ->]. constructor.
  - rewrite ops_app in NU. rewrite app_assoc in NU. pose proof (nuac_prefix _ _ NU) as NU'.
    rewrite erun_app. cbn [echo_run]. eapply steady_step.
    + apply IH; [|intros o Io; apply C, in_or_app; auto|exact NU']. intros o Io. apply Pr, in_or_app. auto.
    + rewrite ops_world. unfold s. rewrite start_world, <- run_app. apply inv_history; auto.
    + intros o ->. split; [apply Pr|apply C]; apply in_or_app; right; left; reflexivity.
Qed.
Lemma steady_holds i f s d r p : steady i f s -> e_at s = Holding d r p ->
  exists m, meant_for (sock_of s) m /\ d = m_data m /\ r = m_rip m /\ p = m_rport m.
Proof.
  intros (_ & _ & _ & h & H & FH) A. rewrite A in H. destruct H as (m & -> & E). injection E as -> -> ->. exists m. inversion FH; auto.
Qed.
Lemma steady_sent i f s c d r p : steady i f s -> e_at s = Holding d r p ->
  let n := w_node (e_world s) in let u := sock_of s in let s' := echo_do (EThread c) s in let n' := w_node (e_world s') in
  exists x, answer_to d x /\
  ((e_at s' = AtTest /\ exists k, send_result n n' (source_for n u r) r (u_lport0 u) p x k) \/
   (exists e, e_at s' = Died e /\ s_out (n_tx n') = s_out (n_tx n) /\
     ((e = GaiError /\ unspec (u_lip u) /\ unspec (pick_local_ip (my_addrs n) r)) \/
      (e = AssertionError /\ f = Fam4 /\ 1472 < zlen x /\ 65535 <= s_id4 (n_tx n))))).
Proof.
  intros S A. destruct (steady_holds _ _ _ _ _ _ S A) as (m & (M1 & M2 & M3 & M4 & _) & -> & -> & ->).
  destruct S as (Rn & (_ & G2 & G3) & _). apply (echo_sent i f s c _ _ _ Rn A G2 G3); auto; [|lia].
  rewrite M1. apply Rn.
Qed.
Lemma step_died i f s ev e : steady i f s -> e_at (echo_do ev s) = Died e -> e_at s = Died e \/ (exists c, ev = EThread c) /\ ended_by f s e.
Proof.
  intros S D. destruct ev as [c| |o]; [|left; exact D|left; exact D].
  destruct (e_at s) eqn:A.
  - cbn [echo_do] in D. rewrite A in D. cbn in D. destruct (e_run s); discriminate.
  - pose proof (echo_takes i f s c (proj1 S) A) as T. destruct (u_queue (sock_of s)); [rewrite T in D; congruence|]. destruct T as (T & _). congruence.
  - right. split; [eauto|]. destruct (steady_sent i f s c _ _ _ S A) as (x & AN & [(T & _)|(e' & T & _ & R)]); [congruence|].
    assert (e' = e) by congruence. subst e'. exists m, a, p, x. auto.
  - cbn [echo_do] in D. rewrite A in D. congruence.
  - cbn [echo_do] in D. rewrite A in D. left. congruence.
Qed.
Lemma echo_died f a port w : 0 < port -> fresh_world w -> good (w_node w) -> let s := echo_start f a port true w in e_at s = AtTest ->
  forall es, private (e_sock s) es -> calm es -> no_use_after_close (startup f a port w ++ ops_of es s) ->
  forall e, e_at (echo_run es s) = Died e -> exists es1 c es2, es = es1 ++ EThread c :: es2 /\ ended_by f (echo_run es1 s) e.
Proof.
  intros P F G s A. induction es as [|ev es IH] using rev_ind; intros Pr C NU e D.
  - cbn in D. congruence.
  - rewrite ops_app, app_assoc in NU. pose proof (nuac_prefix _ _ NU) as NU'.
    assert (Pr' : private (e_sock s) es) by (intros o Io; apply Pr, in_or_app; auto). assert (C' : calm es) by (intros o Io; apply C, in_or_app; auto).
    rewrite erun_app in D. cbn [echo_run] in D.
    destruct (step_died _ f _ _ _ (steady_run f a port w P F G A es Pr' C' NU') D) as [D'|((c & ->) & B)].
    + destruct (IH Pr' C' NU' e D') as (es1 & c & es2 & -> & B). exists es1, c, (es2 ++ [ev]). rewrite <- app_assoc. auto.
    + exists es, c, []. auto.
Qed.
Lemma steady_reverses i f s c d r p : steady i f s -> e_at s = Holding d r p -> ~ unspec (u_lip (sock_of s)) ->
  exists m x k, d = m_data m /\ r = m_rip m /\ p = m_rport m /\ answer_to (m_data m) x /\
  ((e_at (echo_do (EThread c) s) = AtTest /\
    send_result (w_node (e_world s)) (w_node (e_world (echo_do (EThread c) s))) (m_lip m) (m_rip m) (m_lport m) (m_rport m) x k) \/
   (e_at (echo_do (EThread c) s) = Died AssertionError /\ f = Fam4 /\ 1472 < zlen x /\ 65535 <= s_id4 (n_tx (w_node (e_world s))))).
Proof.
  intros S A N. destruct (steady_holds _ _ _ _ _ _ S A) as (m & M & -> & -> & ->).
  destruct (steady_sent i f s c _ _ _ S A) as (x & AN & [(T & k & R)|(e & T & _ & [(_ & U & _)|(-> & R)])]).
  - destruct M as (_ & _ & _ & _ & Mp & [Ml|U]); [|contradiction]. exists m, x, k. rewrite Mp, Ml.
    do 4 (split; [auto|]). left. split; [exact T|]. unfold source_for in R. destruct (is_unspecified (u_lip (sock_of s))) eqn:U; [apply UdpApiProofs.unspecified_iff in U; contradiction|].
    exact R.
  - contradiction.
  - exists m, x, 0. do 4 (split; [auto|]). right. auto.
Qed.
