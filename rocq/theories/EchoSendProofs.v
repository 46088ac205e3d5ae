(** When an answer of the echo service fails, and where it leaves from. *)
From Verif Require Import Base BaseLemmas CksumModel SpecCksum CodecModel CodecLemmas AddrModel SpecAddr AddrProofs SpecWire EtherModel EtherProofs Ip4Model Ip4Proofs PshdrLemmas Ip6Model Ip6Proofs UdpModel UdpProofs UdpIpProofs TcpModel TcpProofs TcpAsmProofs Icmp4Model Icmp4Proofs Icmp6Model Icmp6Proofs Icmp6AsmProofs FragModel FragProofs FragSendProofs BufProofs RingModel RingProofs StackModel SpecStack StackTxProofs StackWireProofs StackSendProofs StackRouteProofs StackRxModel SpecRx RxProofs SpecReact ReactProofs ReplyProofs UdpApiModel SpecUdpApi UdpApiProofs SpecUdpSend UdpSendProofs EchoModel SpecEcho EchoProofs.

Lemma udp4_raises s src dst sp dp data s' e : in32 dst -> 0 <= s_id4 s -> 0 <= sp < 65536 -> 0 <= dp < 65536 -> zlen data < 65528 ->
  phtx_udp (A4 src) (A4 dst) sp dp data s = (s', Exn e) -> 1472 < zlen data /\ 65535 <= s_id4 s /\ e = AssertionError.
Proof.
  intros Hd Hi H1 H2 Ld E. unfold phtx_udp, massert in E. replace ((0 <=? sp) && (sp <=? 0xFFFF)) with true in E by lia.
  replace ((0 <=? dp) && (dp <=? 0xFFFF)) with true in E by lia.
  destruct (phtx_ip4_raises s src dst 64 (PUdp sp dp data) s' e Hd ltac:(lia) ltac:(right; left; reflexivity) E) as (L & src' & Ef).
  cbn [payload_carried udp_carried c_len] in L.
  destruct (udp_asm_to sp dp data (word_sum 4 3 (ip4_pseudo src' dst 17 (8 + zlen data))) ltac:(lia) ltac:(lia) ltac:(lia)) as [_ A].
  specialize (A (repeat 0 (Z.to_nat (8 + zlen data)))). pose proof (zlen_nonneg data).
  assert (Lr : zlen (repeat 0 (Z.to_nat (8 + zlen data))) = 8 + zlen data) by (unfold zlen at 1; rewrite repeat_length; lia).
  specialize (A Lr).
  pose proof (ip4_pshdr_ok src' dst 17 (8 + zlen data) ltac:(lia) ltac:(lia)) as Ps.
  split; [lia|]. cbn [payload_proto payload_carried] in Ef. change IP4_PROTO_UDP with 17 in Ef.
  destruct (Z_lt_le_dec (s_id4 s) 65535) as [X|X].
  - exfalso. destruct (ip4_fragment_sends TAP_MTU src' dst 64 17 (s_id4 s) (udp_carried sp dp data) _ _ ltac:(unfold TAP_MTU; lia) Ps A)
      as (fs & F); [lia|right; left; reflexivity|lia|]. rewrite F in Ef. discriminate.
  - split; [exact X|].
    match type of A with _ = Ok ?d => assert (Nn : d <> []) by discriminate end.
    pose proof (ip4_fragment_stuck TAP_MTU src' dst 64 17 (s_id4 s) (udp_carried sp dp data) _ _ ltac:(unfold TAP_MTU; lia) Ps A Nn X) as F.
    rewrite F in Ef. injection Ef as <-. reflexivity.
Qed.
Lemma udp6_sends s src dst sp dp data : in128 dst -> wf_addrs (s_addrs s) -> 0 <= sp < 65536 -> 0 <= dp < 65536 -> zlen data < 65528 ->
  exists s' st, phtx_udp (A6 src) (A6 dst) sp dp data s = (s', Ok st).
Proof.
  intros Hd (Wg & Wp & Wu) H1 H2 Ld. unfold phtx_udp, massert. replace ((0 <=? sp) && (sp <=? 0xFFFF)) with true by lia.
  replace ((0 <=? dp) && (dp <=? 0xFFFF)) with true by lia.
  destruct (phtx_ip6 src dst 64 (PUdp sp dp data) s) as [s' [st|e]] eqn:E; [eauto|]. exfalso.
  destruct (phtx_ip6_raises s src dst 64 (PUdp sp dp data) s' e Hd Wg Wp ltac:(lia) ltac:(right; left; reflexivity) E) as (L & src' & Ef & V).
  cbn [payload_carried udp_carried c_len payload_next] in *. change IP6_NEXT_UDP with 17 in Ef. pose proof (zlen_nonneg data).
  assert (Hs : 0 <= src' < 2 ^ 128).
  { destruct (validate_src6_inl _ _ _ _ _ V) as [Hi|(-> & _)]; [apply Wu; exact Hi|lia]. }
  destruct (udp_asm_to sp dp data (word_sum 8 5 (ip6_pseudo src' dst (8 + zlen data) 17)) ltac:(lia) ltac:(lia) ltac:(lia)) as [_ A].
  specialize (A (repeat 0 (Z.to_nat (8 + zlen data)))).
  assert (Lr : zlen (repeat 0 (Z.to_nat (8 + zlen data))) = 8 + zlen data) by (unfold zlen at 1; rewrite repeat_length; lia).
  specialize (A Lr).
  pose proof (ip6_pshdr_ok src' dst (8 + zlen data) 17 Hs Hd ltac:(lia) ltac:(lia)) as Ps.
  unfold ip6_fragment in Ef. change (c_len (udp_carried sp dp data)) with (8 + zlen data) in Ef.
  rewrite Ps in Ef. cbn [rbind] in Ef. rewrite A in Ef. cbn [rbind] in Ef.
  unfold chunks in Ef. rewrite data_mtu_spec in Ef by (unfold TAP_MTU; lia). change ((TAP_MTU - 48) / 8 * 8) with 1448 in Ef. discriminate.
Qed.
Lemma sendto_fails c i d x p n n' e : let u := n_udp n i in let f := family_of (u_lip u) in let rip := in_family f x in
  wf_addrs (my_addrs n) -> 0 <= s_id4 (n_tx n) -> bound_port (u_lport0 u) = true -> addr_ok rip -> 0 <= p < 65536 -> zlen d < 65528 ->
  udp_sendto c i d (Some x) p n = (n', Exn e) ->
  (e = GaiError /\ is_unspecified (u_lip u) = true /\ is_unspecified (pick_local_ip (my_addrs n) rip) = true) \/
  (e = AssertionError /\ f = Fam4 /\ 1472 < zlen d /\ 65535 <= s_id4 (n_tx n)).
Proof.
  intros u f rip W I4 B A P L E. unfold udp_sendto in E. destruct (negb _) eqn:RP; [apply negb_true_iff in RP; lia|]. clear RP.
  unfold rbind' at 1, rgets at 1 in E. fold u in E. rewrite B in E. unfold rbind' at 1, rret at 1 in E. unfold rbind' at 1, rgets at 1 in E. fold u in E.
  apply bind_inv in E. destruct E as [(n1 & [l q] & E1 & E2)|(e' & E1 & E2)].
  - right. destruct (set_ip_result _ _ _ _ _ _ _ _ E1) as (T & _ & _ & a & TA & Q & LQ). injection TA as <-. fold f in Q. fold rip in Q. subst q.
    assert (FL : family_of l = f).
    { rewrite LQ. destruct (is_unspecified (u_lip u)); [|reflexivity]. unfold rip. destruct f; reflexivity. }
    cbn [fst snd] in E2. unfold rbind', tx in E2. rewrite T in E2. destruct (phtx_udp l rip (u_lport0 u) p d (n_tx n)) as [t [st|e']] eqn:S; [discriminate|].
    injection E2 as _ <-. assert (SP : 0 <= u_lport0 u < 65536) by (unfold bound_port in B; lia). subst rip. destruct f eqn:Ff, l as [s|s]; try discriminate FL; cbn [in_family] in *.
    + destruct (udp4_raises _ _ _ _ _ _ _ _ A I4 SP P L S) as (X & Y & ->). auto.
    + destruct (udp6_sends (n_tx n) s x (u_lport0 u) p d A W SP P L) as (s' & st & X). congruence.
  - left. destruct (set_ip_result _ _ _ _ _ _ _ _ E1) as (_ & _ & _ & ->). injection E2 as <-. split; [reflexivity|].
    unfold udp_set_ip in E1. fold f rip in E1. unfold rbind' at 1 in E1.
    assert (M : exists n2, (if is_unspecified rip then rupd (fun n => set_udp i (set_unreach true (n_udp n i)) n) else rret tt) n = (n2, Ok tt) /\ n_tx n2 = n_tx n)
      by (destruct (is_unspecified rip); eexists; (split; [reflexivity|reflexivity])).
    destruct M as (n2 & M1 & M2). rewrite M1 in E1. destruct (is_unspecified (u_lip u)); [|discriminate]. split; [reflexivity|].
    unfold rbind', rgets in E1. unfold my_addrs in *. rewrite M2 in E1. destruct (is_unspecified (pick_local_ip (s_addrs (n_tx n)) rip)); [reflexivity|discriminate].
Qed.
(** the only address of the stack is the one picked, or none *)
Lemma pick_only n h r : pick_local n [h] r = h_addr h \/ pick_local n [h] r = 0.
Proof. unfold pick_local. cbn. destruct (net_contains n (h_net h) r); auto. destruct (h_gw h); auto. Qed.

(** ** the start *)
Lemma start_ok f a port w : 0 < port -> let s := echo_start f a port true w in e_at s = AtTest ->
  e_sock s = w_next w /\ running (e_sock s) f s /\ u_queue (sock_of s) = [] /\ u_lip (sock_of s) = in_family f a /\ u_lport0 (sock_of s) = port /\
  n_tx (w_node (e_world s)) = n_tx (w_node w).
Proof.
  intros P. unfold echo_start. cbn [uop_do fst]. set (n0 := set_udp (w_next w) (new_udp f) (w_node w)). set (w1 := {| w_node := n0; w_next := S (w_next w) |}).
  unfold on_sock. replace (known (w_next w) w1) with true by (symmetry; apply Nat.ltb_lt; cbn; lia).
  unfold on_node. change (w_node w1) with n0. destruct (udp_bind 0 (w_next w) (Some a) port n0) as [n' r] eqn:E. cbn [fst snd e_at].
  destruct r as [x|e]; [|intros H; cbn in H; destruct e; discriminate H]. intros _. cbn [e_sock e_world w_node w_next].
  assert (U0 : n_udp n0 (w_next w) = new_udp f) by (unfold n0; cbn; rewrite Nat.eqb_refl; reflexivity).
  unfold udp_bind in E. unfold rbind' at 1, rgets at 1 in E. rewrite U0 in E. change (bound_port (u_lport0 (new_udp f))) with false in E. cbv iota in E.
  unfold rbind' at 1, rgets at 1 in E. destruct (negb (mem a _)); [discriminate|]. destruct (negb ((0 <=? port) && (port <? 65536))) eqn:PR; [discriminate|].
  apply negb_false_iff in PR. cbv zeta in E. unfold rbind' at 1 in E. replace (0 <? port) with true in E by lia. unfold rbind', rgets in E.
  destruct (udp_in_use _ _ _); [discriminate|]. injection E as <- _.
  unfold running, sock_of, counted. cbn [e_sock e_world w_node w_next re_register set_socks set_udp n_udp n_tx]. rewrite Nat.eqb_refl, U0.
  assert (BP : bound_port port = true) by (unfold bound_port; lia).
  destruct f; cbn [set_local u_lip u_lport0 u_queue u_ready new_udp family_of in_family zero_addr zlen length];
    (split; [reflexivity|]); (split; [split; [reflexivity|]; split; [apply Nat.lt_succ_diag_r|]; split; [reflexivity|]; split; [exact BP|reflexivity]|]); repeat split; reflexivity.
Qed.
Lemma echo_takes i f s c : running i f s -> e_at s = InRecv ->
  match u_queue (sock_of s) with
  | [] => echo_do (EThread c) s = s
  | m :: q => e_at (echo_do (EThread c) s) = Holding (m_data m) (m_rip m) (m_rport m) /\ u_queue (sock_of (echo_do (EThread c) s)) = q
  end.
Proof.
  intros (Ei & L & C & _) A. unfold sock_of in *. rewrite Ei in *. cbn [echo_do echo_op]. rewrite A. unfold echo_waits. rewrite Ei.
  unfold counted in C. rewrite C. destruct (u_queue (n_udp (w_node (e_world s)) i)) as [|m q] eqn:Q.
  - reflexivity.
  - replace (zlen (m :: q) <=? 0) with false by (symmetry; apply Z.leb_gt; rewrite zlen_cons; pose proof (zlen_nonneg q); lia).
    cbn [uop_do]. unfold on_sock. replace (known i (e_world s)) with true by (symmetry; apply Nat.ltb_lt; exact L). unfold on_node.
    destruct (udp_recvfrom i (w_node (e_world s))) as [n' r] eqn:E. rewrite <- Q in C. destruct (recvfrom_spec _ _ _ _ E C) as (_ & _ & D).
    cbn [e_with e_at e_world e_sock w_node]. rewrite Ei. rewrite Q in D. destruct r as [x|e].
    + destruct D as (m' & -> & D). injection D as <- <-. cbn. auto.
    + destruct D as ((_ & D) & _). discriminate.
Qed.
Lemma answer_short d : zlen d < 65528 -> zlen (echo_message d) < 65528.
Proof.
  intros H. unfold echo_message. destruct (contains w_malpka _); [vm_compute; reflexivity|]. destruct (contains w_malpa _); [vm_compute; reflexivity|].
  destruct (contains w_malpi _); [vm_compute; reflexivity|exact H].
Qed.
Lemma echo_sent i f s c d a p : running i f s -> e_at s = Holding d a p ->
  let n := w_node (e_world s) in let u := sock_of s in let s' := echo_do (EThread c) s in let n' := w_node (e_world s') in
  wf_addrs (my_addrs n) -> 0 <= s_id4 (n_tx n) -> family_of a = f -> addr_ok a -> 0 <= p < 65536 -> zlen d < 65528 ->
  exists x, answer_to d x /\
  ((e_at s' = AtTest /\ exists k, send_result n n' (source_for n u a) a (u_lport0 u) p x k) \/
   (exists e, e_at s' = Died e /\ s_out (n_tx n') = s_out (n_tx n) /\
     ((e = GaiError /\ unspec (u_lip u) /\ unspec (pick_local_ip (my_addrs n) a)) \/
      (e = AssertionError /\ f = Fam4 /\ 1472 < zlen x /\ 65535 <= s_id4 (n_tx n))))).
Proof.
  intros (Ei & L & C & B & F) A n u s' n' W I4 Fa Ao P Ld. exists (echo_message d). split; [apply echo_answer|].
  subst s' n'. cbn [echo_do echo_op]. rewrite A. fold (sock_of s). fold u. cbn [uop_do]. rewrite Ei. unfold on_sock.
  replace (known i (e_world s)) with true by (symmetry; apply Nat.ltb_lt; exact L). unfold on_node. fold n.
  subst u. unfold sock_of in *. rewrite Ei in *. fold n in B, F. fold n.
  assert (X : exists x, text_for (family_of (u_lip (n_udp n i))) a = Some x /\ a = in_family (family_of (u_lip (n_udp n i))) x).
  { rewrite F, <- Fa. clear. destruct a as [x|x]; exists x; split; reflexivity. }
  destruct X as (x & -> & Ea).
  destruct (udp_sendto c i (echo_message d) (Some x) p n) as [n' r] eqn:E. cbn [e_with e_at e_world w_node].
  assert (A' : addr_ok (in_family (family_of (u_lip (n_udp n i))) x)) by (rewrite <- Ea; exact Ao).
  assert (SA : match family_of (u_lip (n_udp n i)) with Fam4 => in32 x | Fam6 => in128 x end) by (destruct (family_of (u_lip (n_udp n i))); exact A').
  destruct (sendto_sends c i (echo_message d) x p n n' r W SA E) as (_ & UP & R). rewrite <- Ea in R.
  destruct r as [k|e].
  - left. cbn [ret_of]. split; [reflexivity|]. exists k. destruct R as (_ & _ & R). rewrite (UP B) in R. exact R.
  - right. exists e. cbn [ret_of]. split; [reflexivity|]. split; [exact R|].
    destruct (sendto_fails c i (echo_message d) x p n n' e W I4 B A' P (answer_short d Ld) E) as [(-> & U1 & U2)|(-> & U1 & U2 & U3)].
    + left. split; [reflexivity|]. rewrite <- Ea in U2. split; apply UdpApiProofs.unspecified_iff; assumption.
    + right. rewrite <- F. auto.
Qed.
Lemma echo_source i f s c d a p : running i f s -> e_at s = Holding d a p ->
  let n := w_node (e_world s) in let u := sock_of s in let s' := echo_do (EThread c) s in let n' := w_node (e_world s') in
  wf_addrs (my_addrs n) -> 0 <= s_id4 (n_tx n) -> family_of a = f -> addr_ok a -> 0 <= p < 65536 -> zlen d < 65528 -> e_at s' = AtTest ->
  exists x k, answer_to d x /\
    (~ unspec (u_lip u) -> send_result n n' (u_lip u) a (u_lport0 u) p x k) /\
    (forall h, u_lip u = A4 0 -> a_host4 (my_addrs n) = [h] -> u_lport0 u <> 68 -> send_result n n' (A4 (h_addr h)) a (u_lport0 u) p x k).
Proof.
  intros Rn A n u s' n' W I4 Fa Ao P Ld T.
  pose proof Rn as (Ei & L & C & B & F).
  assert (PK : u_lip u = A4 0 -> u_lport0 u <> 68 -> ~ unspec (pick_local_ip (my_addrs n) a)).
  { intros Z0 N68 Un. subst s'. cbn [echo_do echo_op] in T. rewrite A in T. fold (sock_of s) in T. fold u in T. cbn [uop_do] in T. rewrite Ei in T. unfold on_sock in T.
    replace (known i (e_world s)) with true in T by (symmetry; apply Nat.ltb_lt; exact L). unfold on_node in T. fold n in T.
    subst u. unfold sock_of in *. rewrite Ei in *. fold n in B, F, Z0, N68, T. rewrite Z0 in F. cbn in F. rewrite <- F in Fa. destruct a as [x|x]; [|discriminate Fa].
    rewrite Z0 in T. cbn [family_of text_for] in T.
    unfold udp_sendto in T. replace (negb _) with false in T by (symmetry; apply negb_false_iff; lia).
    unfold rbind' at 1, rgets at 1 in T. rewrite B in T. unfold rbind' at 1, rret at 1 in T. unfold rbind' at 1, rgets at 1 in T.
    unfold udp_set_ip in T. rewrite Z0 in T. cbn [family_of in_family] in T. change (is_unspecified (A4 0)) with true in T. cbv iota in T.
    apply UdpApiProofs.unspecified_iff in Un. apply Z.eqb_neq in N68.
    destruct (is_unspecified (A4 x)); unfold rbind', rgets, rupd, rret, rlift in T; unfold my_addrs in T, Un; cbn [set_udp n_tx] in T;
      rewrite Un, N68 in T; discriminate T. }
  destruct (echo_sent i f s c d a p Rn A W I4 Fa Ao P Ld) as (x & AN & [(_ & k & R)|(e & T' & _)]); [|fold s' in T'; congruence].
  exists x, k. split; [exact AN|]. fold n u s' n' in R. unfold source_for in R. split.
  - intros N. destruct (is_unspecified (u_lip u)) eqn:U; [apply UdpApiProofs.unspecified_iff in U; contradiction|exact R].
  - intros h Z0 H1 N68. specialize (PK Z0 N68). rewrite Z0 in R. change (is_unspecified (A4 0)) with true in R. cbv iota in R.
    assert (FA : exists y, a = A4 y).
    { fold u in F. rewrite Z0 in F. cbn in F. rewrite <- F in Fa. destruct a as [y|y]; [eauto|discriminate Fa]. }
    destruct FA as (y & ->). cbn [pick_local_ip] in *. rewrite H1 in *. destruct (pick_only 32 h y) as [X|X]; rewrite X in *; [exact R|].
    exfalso. apply PK. left. reflexivity.
Qed.
Lemma echo_stops es : forall s, e_run s = false -> (length (tried es s) <= match e_at s with InRecv | Holding _ _ _ => 1 | _ => 0 end)%nat.
Proof.
  induction es as [|e es IH]; intros s R; cbn [tried]; [cbn; lia|]. rewrite app_length.
  assert (R' : e_run (echo_do e s) = false).
  { destruct e as [c| |o]; cbn [echo_do]; try exact R; try reflexivity. destruct (e_at s); try exact R; destruct (echo_op _ _); try exact R; destruct (uop_do _ _); exact R. }
  specialize (IH _ R'). destruct e as [c| |o]; [|cbn in *; exact IH|cbn in *; exact IH].
  cbn [attempt echo_op echo_do] in *. destruct (e_at s) eqn:A; cbn [length] in *.
  - rewrite R in *. exact IH.
  - revert IH. destruct (echo_waits s); cbn [length Nat.add]; [rewrite A; intros IH; exact IH|].
    destruct (uop_do _ _) as [w r]. intros IH. cbn [e_with e_at] in IH. destruct r; lia.
  - revert IH. cbn [uop_do]. unfold on_sock, on_node. destruct (known _ _); [|intros IH; cbn [e_with e_at] in IH; lia].
    destruct (udp_sendto _ _ _ _ _ _) as [n' [x|x]]; intros IH; cbn [e_with e_at ret_of] in IH |- *; cbn [length Nat.add]; lia.
  - rewrite A in IH. exact IH.
  - rewrite A in IH. exact IH.
Qed.
