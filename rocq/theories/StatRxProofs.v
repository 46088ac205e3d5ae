(** The handlers with counters are the handlers of StackRxModel, and their counters add up. *)
From Verif Require Import Base BaseLemmas CodecModel AddrModel SpecWire SpecCksum EtherModel EtherProofs Ip4Model Ip6Model UdpModel TcpModel
  Icmp4Model Icmp6Model FragModel StackModel StackRxModel StatRxModel SpecRx SpecReact SpecStat RxProofs ReactProofs.

(** ** erasure *)
Definition erases {A} (t : T A) (m : R A) : Prop := forall n, snd (t n) = m n.
Lemma er_plain {A} (m : R A) : erases (plain m) m.
Proof. intros n. reflexivity. Qed.
Lemma er_bind {A B} (t : T A) (m : R A) (k : A -> T B) (k' : A -> R B) : erases t m -> (forall a, erases (k a) (k' a)) ->
  erases (tbind t k) (rbind' m k').
Proof.
  intros H K n. unfold tbind, rbind'. specialize (H n). destruct (t n) as [l [n' [a|e]]]; cbn [snd] in H; rewrite <- H; [|reflexivity].
  specialize (K a n'). destruct (k a n') as [l' x]. exact K.
Qed.
Lemma er_tick {A} c (k : unit -> T A) m : erases (k tt) m -> erases (tbind (tick c) k) m.
Proof. intros H n. unfold tbind, tick. specialize (H n). destruct (k tt n). exact H. Qed.
Lemma er_tick_if {A} b c (k : unit -> T A) m : erases (k tt) m -> erases (tbind (tick_if b c) k) m.
Proof. intros H n. unfold tbind, tick_if. specialize (H n). destruct (k tt n). exact H. Qed.
Lemma er_end c : erases (tick c) (rret tt).
Proof. intros n. reflexivity. Qed.
Lemma er_parsed {A} (r : res (parsed A)) c k k' : (forall p, erases (k p) (k' p)) -> erases (t_parsed r c k) (on_parsed r k').
Proof. intros H. apply er_bind; [apply er_plain|]. intros [x|p]; [apply er_end|apply H]. Qed.

Ltac er :=
  repeat match goal with
  | |- erases (plain _) _ => apply er_plain
  | |- erases (tick _) _ => apply er_end
  | |- erases (tbind (tick _) _) _ => apply er_tick
  | |- erases (tbind (tick_if _ _) _) _ => apply er_tick_if
  | |- erases (t_parsed _ _ _) _ => apply er_parsed; intros ?
  | |- erases (tbind _ _) (rbind' _ _) => apply er_bind; [|intros ?]
  | |- erases (if ?b then _ else _) _ => destruct b
  | |- erases (match ?x with _ => _ end) _ => destruct x
  | |- erases (let (_, _) := ?x in _) _ => destruct x
  end.
Lemma er_arp e : erases (t_arp e) (phrx_arp e).
Proof. unfold t_arp, phrx_arp. er. Qed.
Lemma er_udp src dst f plen ps w : erases (t_udp src dst f plen ps w) (phrx_udp src dst f plen ps w).
Proof. unfold t_udp, phrx_udp. er. Qed.
Lemma er_tcp src dst f plen ps : erases (t_tcp src dst f plen ps) (phrx_tcp src dst f plen ps).
Proof. unfold t_tcp, phrx_tcp. er. Qed.
Lemma er_icmp4 src dst f plen : erases (t_icmp4 src dst f plen) (phrx_icmp4 src dst f plen).
Proof. unfold t_icmp4, phrx_icmp4. er. Qed.
Lemma er_icmp6 src dst hop f plen ps : erases (t_icmp6 src dst hop f plen ps) (phrx_icmp6 src dst hop f plen ps).
Proof. unfold t_icmp6, phrx_icmp6. er. Qed.
Lemma er_dispatch4 p f : erases (t_dispatch4 p f) (ip4_dispatch p f).
Proof. unfold t_dispatch4, ip4_dispatch. cbv zeta. repeat destruct (_ =? _); auto using er_icmp4, er_udp, er_tcp, er_plain. Qed.
Lemma er_ip4 f : erases (t_ip4 f) (phrx_ip4 f).
Proof. unfold t_ip4, phrx_ip4. er; apply er_dispatch4. Qed.
Lemma er_ip6_fuel fuel : forall f, erases (t_ip6_fuel fuel f) (phrx_ip6_fuel fuel f).
Proof.
  induction fuel as [|fuel IH]; intros f; cbn [t_ip6_fuel phrx_ip6_fuel]; er;
    first [apply IH | apply er_icmp6 | apply er_udp | apply er_tcp].
Qed.
Lemma er_ether f : erases (t_ether f) (phrx_ether f).
Proof.
  unfold t_ether, phrx_ether. er; [apply er_arp|apply er_ip4|]. intros n. apply er_ip6_fuel.
Qed.
Lemma counted_run f n : t_ether f n = (counted f n, phrx_ether f n).
Proof. unfold counted. rewrite <- (er_ether f n). destruct (t_ether f n) as [l x]. reflexivity. Qed.

(** ** sums *)
Lemma cnt_app c a b : cnt c (a ++ b) = cnt c a + cnt c b.
Proof. unfold cnt. rewrite count_occ_app. lia. Qed.
Lemma cnt_pos c l : 0 <= cnt c l. Proof. unfold cnt. lia. Qed.

(** [adds_up] for a part of the increments, with a credit of frames and of IPv4 and IPv6
    packets that the rest has passed on *)
Definition part (fr tk w4 w6 : Z) (l : list rxc) : Prop :=
  let k c := cnt c l in
  let taken := tk + fr - k ether__failed_parse__drop - k ether__dst_unknown__drop in
  let taken4 := k ip4__pre_parse - k ip4__failed_parse__drop - k ip4__dst_unknown__drop in
  let taken6 := k ip6__pre_parse - k ip6__failed_parse__drop - k ip6__dst_unknown__drop in
  let whole4 := w4 + taken4 - k ip4__frag + k ip4__defrag in
  let whole6 := w6 + taken6 - k ip6_ext_frag__pre_parse in
  k ether__pre_parse = fr /\ 0 <= fr - k ether__failed_parse__drop - k ether__dst_unknown__drop /\
  fr - k ether__failed_parse__drop - k ether__dst_unknown__drop <= k ether__dst_unicast + k ether__dst_multicast + k ether__dst_broadcast /\
  k arp__pre_parse + k ip4__pre_parse + k ip6__pre_parse <= taken + k ip6_ext_frag__defrag /\
  k arp__pre_parse = k arp__failed_parse__drop + k arp__op_request + k arp__op_reply /\
  k arp__op_request = k arp__op_request__ip_conflict + k arp__op_request__tpa_stack__respond + k arp__op_request__tpa_unknown__drop /\
  k arp__op_request__update_arp_cache = k arp__op_request__tpa_stack__respond /\
  k arp__op_reply__ip_conflict + k arp__op_reply__update_arp_cache + k arp__op_reply__update_arp_cache_gratuitous <= k arp__op_reply /\
  k ip4__defrag <= k ip4__frag /\ k ip4__frag <= taken4 /\
  k ip6_ext_frag__failed_parse + k ip6_ext_frag__defrag <= k ip6_ext_frag__pre_parse /\ k ip6_ext_frag__pre_parse <= taken6 /\
  taken6 <= k ip6__dst_unicast + k ip6__dst_multicast /\
  k icmp4__pre_parse <= whole4 /\ k icmp6__pre_parse <= whole6 /\
  k icmp4__pre_parse + k icmp6__pre_parse + k udp__pre_parse + k tcp__pre_parse <= whole4 + whole6 /\
  k icmp4__failed_parse__drop + k icmp4__echo_request__respond_echo_reply + k icmp4__unreachable <= k icmp4__pre_parse /\
  k icmp6__failed_parse__drop + k icmp6__nd_neighbor_solicitation + k icmp6__nd_neighbor_advertisement +
    k icmp6__nd_router_solicitation + k icmp6__nd_router_advertisement + k icmp6__echo_request__respond_echo_reply +
    k icmp6__unreachable <= k icmp6__pre_parse /\
  k icmp6__nd_neighbor_solicitation =
    k icmp6__nd_neighbor_solicitation__target_unknown__drop + k icmp6__nd_neighbor_solicitation__target_stack__respond /\
  k icmp6__nd_neighbor_solicitation__dad + k icmp6__nd_neighbor_solicitation__update_nd_cache <=
    k icmp6__nd_neighbor_solicitation__target_stack__respond /\
  k icmp6__nd_neighbor_advertisement__run_dad + k icmp6__nd_neighbor_advertisement__update_nd_cache <=
    k icmp6__nd_neighbor_advertisement /\
  k udp__pre_parse = k udp__failed_parse__drop + k udp__socket_match + k udp__ip_source_unspecified +
    k udp__no_socket_match__respond_icmp4_unreachable + k udp__no_socket_match__respond_icmp6_unreachable /\
  k udp__echo_native__respond_udp = 0 /\
  k tcp__pre_parse = k tcp__failed_parse__drop + k tcp__socket_match_active__forward_to_socket +
    k tcp__socket_match_listening__forward_to_socket + k tcp__no_socket_match__respond_rst.
Lemma part_app a b c d l a' b' c' d' l' : part a b c d l -> part a' b' c' d' l' ->
  part (a + a') (b + b') (c + c') (d + d') (l ++ l').
Proof. unfold part. cbv zeta. rewrite !cnt_app. intros H H'. repeat match goal with H : _ /\ _ |- _ => destruct H end. repeat (split; [lia|]). lia. Qed.
Lemma part_adds fr l : part fr 0 0 0 l -> adds_up fr l.
Proof. unfold part, adds_up. cbv zeta. intros H. repeat match goal with H : _ /\ _ |- _ => destruct H end. repeat (split; [lia|]). lia. Qed.

Definition yields (t : T unit) (P : list rxc -> Prop) : Prop := forall n l n', t n = (l, (n', Ok tt)) -> P l.
Lemma y_tick c k P : yields (k tt) (fun l => P ([c] ++ l)) -> yields (tbind (tick c) k) P.
Proof. intros H n l n' E. unfold tbind, tick in E. specialize (H n). destruct (k tt n) as [l' x]. injection E as <- ->. exact (H _ _ eq_refl). Qed.
Lemma y_tick_if (b : bool) c k P : yields (k tt) (fun l => P ((if b then [c] else []) ++ l)) -> yields (tbind (tick_if b c) k) P.
Proof. intros H n l n' E. unfold tbind, tick_if in E. specialize (H n). destruct (k tt n) as [l' x]. injection E as <- ->. exact (H _ _ eq_refl). Qed.
Lemma y_plain_bind {A} (m : R A) k P : (forall a, yields (k a) P) -> yields (tbind (plain m) k) P.
Proof.
  intros H n l n' E. unfold tbind, plain in E. destruct (m n) as [n1 [a|e]]; [|discriminate].
  specialize (H a n1). destruct (k a n1) as [l' x]. injection E as <- ->. exact (H _ _ eq_refl).
Qed.
Lemma y_bind t k P (Q : list rxc -> Prop) : yields t Q -> (forall l, Q l -> yields (k tt) (fun l' => P (l ++ l'))) -> yields (tbind t k) P.
Proof.
  intros H K n l n' E. unfold tbind in E. specialize (H n). destruct (t n) as [l1 [n1 [[]|e]]]; [|discriminate].
  specialize (K _ (H _ _ eq_refl) n1). destruct (k tt n1) as [l2 x]. injection E as <- ->. exact (K _ _ eq_refl).
Qed.
Lemma y_plain m (P : list rxc -> Prop) : P [] -> yields (plain m) P.
Proof. intros H n l n' E. unfold plain in E. injection E as <- _. exact H. Qed.
Lemma y_end c (P : list rxc -> Prop) : P [c] -> yields (tick c) P.
Proof. intros H n l n' E. unfold tick in E. injection E as <- _. exact H. Qed.
Lemma y_parsed {A} (r : res (parsed A)) c k (P : list rxc -> Prop) : P [c] -> (forall p, r = Ok (inr p) -> yields (k p) P) -> yields (t_parsed r c k) P.
Proof.
  intros H K n l n' E. unfold t_parsed, tbind, plain, rlift in E. destruct r as [[x|p]|e]; [| |discriminate].
  - injection E as <- _. exact H.
  - specialize (K p eq_refl n). destruct (k p n) as [l' x]. injection E as <- ->. exact (K _ _ eq_refl).
Qed.
Lemma y_weaken t (P Q : list rxc -> Prop) : yields t P -> (forall l, P l -> Q l) -> yields t Q.
Proof. intros H K n l n' E. apply K. eauto. Qed.

Ltac conc := unfold part; cbv zeta; cbn -[Z.add Z.sub]; repeat (split; [lia|]); lia.
Ltac y :=
  repeat match goal with
  | |- yields (plain _) _ => apply y_plain
  | |- yields (tick _) _ => apply y_end
  | |- yields (tbind (tick _) _) _ => apply y_tick
  | |- yields (tbind (tick_if ?b _) _) _ => apply y_tick_if; destruct b
  | |- yields (t_parsed _ _ _) _ => apply y_parsed; [|intros ? ?]
  | |- yields (tbind (plain _) _) _ => apply y_plain_bind; intros ?
  | |- yields (if ?b then _ else _) _ => destruct b eqn:?
  | |- yields (match ?x with _ => _ end) _ => destruct x
  | |- yields (let (_, _) := ?x in _) _ => destruct x
  end.

Lemma part_pre {a b c d} a' b' c' d' p l : part a b c d l -> part a' b' c' d' p ->
  part (a' + a) (b' + b) (c' + c) (d' + d) (p ++ l).
Proof. intros H H'. apply part_app; assumption. Qed.
Ltac conc_after fr tk w4 w6 := let l := fresh in let H := fresh in intros l H; rewrite !app_assoc;
  apply (part_pre fr tk w4 w6 _ _ H); clear H; conc.
Lemma y_udp4 s d f plen ps w : yields (t_udp (A4 s) (A4 d) f plen ps w) (part 0 0 1 0).
Proof. unfold t_udp. y; conc. Qed.
Lemma y_udp6 s d f plen ps w : yields (t_udp (A6 s) (A6 d) f plen ps w) (part 0 0 0 1).
Proof. unfold t_udp. y; conc. Qed.
Lemma y_tcp4 s d f plen ps : yields (t_tcp s d f plen ps) (part 0 0 1 0).
Proof. unfold t_tcp. y; conc. Qed.
Lemma y_tcp6 s d f plen ps : yields (t_tcp s d f plen ps) (part 0 0 0 1).
Proof. unfold t_tcp. y; conc. Qed.
Lemma y_icmp4 s d f plen : yields (t_icmp4 s d f plen) (part 0 0 1 0).
Proof. unfold t_icmp4. y; conc. Qed.
Lemma y_icmp6 s d h f plen ps : yields (t_icmp6 s d h f plen ps) (part 0 0 0 1).
Proof.
  unfold t_icmp6. apply y_tick, y_plain_bind. intros sum. apply y_parsed; [conc|]. intros q _. apply y_plain_bind. intros a.
  destruct (q6_body q) as [dt|id seq dt|os|hp m o rl rt rr os|tg os|br bs bo tg os|nor|]; try (y; conc).
  apply y_tick. destruct (negb _); [y; conc|].
  apply (y_bind _ _ _ (fun l => l = [] \/ l = [icmp6__nd_neighbor_solicitation__update_nd_cache] /\ ip6_is_unspecified s = false)).
  { destruct (nd_slla os); [|y; auto]. destruct (ip6_is_unspecified s || ip6_is_multicast s) eqn:E; y; [auto|].
    apply orb_false_iff in E as (E & _). auto. }
  intros l [->|(-> & U)]; cbv zeta; [y; conc|]. rewrite U. apply y_tick_if. y; conc.
Qed.
Lemma y_dispatch4 p f : yields (t_dispatch4 p f) (part 0 0 1 0).
Proof. unfold t_dispatch4. cbv zeta. repeat destruct (_ =? _); auto using y_icmp4, y_udp4, y_tcp4. apply y_plain. conc. Qed.
Lemma y_ip4 f : yields (t_ip4 f) (part 0 1 0 0).
Proof. unfold t_ip4. y; try conc; (eapply y_weaken; [apply y_dispatch4|]; conc_after 0 1 (-1) 0). Qed.
Lemma mem_app x a b : mem x (a ++ b) = mem x a || mem x b.
Proof. apply existsb_app. Qed.
Lemma y_ip6 fuel : forall f, yields (t_ip6_fuel fuel f) (part 0 1 0 0).
Proof.
  induction fuel as [|fuel IH]; intros f; cbn [t_ip6_fuel].
  { intros n l n' E. discriminate. }
  apply y_tick, y_parsed; [conc|]. intros p _. apply y_plain_bind. intros a. rewrite mem_app.
  destruct (mem (i6_dst p) (ip6_unicast a)) eqn:U; destruct (mem (i6_dst p) (a_mcast6 a)) eqn:M; cbn [orb negb]; [| | |y; conc];
  apply y_tick_if; apply y_tick_if; y; try conc;
    first [ eapply y_weaken; [apply IH|]; conc_after 0 0 0 0 | eapply y_weaken; [apply y_icmp6|]; conc_after 0 1 0 (-1)
          | eapply y_weaken; [apply y_udp6|]; conc_after 0 1 0 (-1) | eapply y_weaken; [apply y_tcp6|]; conc_after 0 1 0 (-1) ].
Qed.
Lemma y_ip6_top f : yields (t_ip6 f) (part 0 1 0 0).
Proof. intros n l n' E. exact (y_ip6 _ f n l n' E). Qed.
Lemma y_arp e : wf_bytes (EtherModel.e_rest e) -> yields (t_arp e) (part 0 1 0 0).
Proof.
  intros W. unfold t_arp. apply y_tick, y_parsed; [conc|]. intros p P.
  assert (O : a_oper p = 1 \/ a_oper p = 2) by (apply (arp_parse_exact _ p W) in P; tauto).
  apply y_plain_bind. intros a. change ARP_OP_REQUEST with 1. change ARP_OP_REPLY with 2.
  destruct O as [-> | ->]; cbn [Z.eqb Pos.eqb]; y; conc.
Qed.
Lemma y_ether f : wf_bytes f -> yields (t_ether f) (part 1 0 0 0).
Proof.
  intros W. unfold t_ether. apply y_tick, y_parsed; [conc|]. intros e Ep. apply y_plain_bind. intros a.
  assert (We : wf_bytes (EtherModel.e_rest e)).
  { apply (ether_parse_exact f e W) in Ep as (_ & _ & _ & Ef). rewrite Ef in W. unfold eth_wire in W. rewrite !wf_app in W. tauto. }
  change (a_mac a :: a_mac_mcast a ++ [mac_broadcast]) with ([a_mac a] ++ a_mac_mcast a ++ [mac_broadcast]).
  rewrite !mem_app. unfold mem at 1 3. cbn [existsb]. rewrite !orb_false_r.
  destruct (EtherModel.e_dst e =? a_mac a); destruct (mem (EtherModel.e_dst e) (a_mac_mcast a));
  destruct (EtherModel.e_dst e =? mac_broadcast); cbn [orb negb]; try (y; conc);
  do 3 apply y_tick_if;
  (destruct (_ && _); [eapply y_weaken; [apply (y_arp e We)|]; conc_after 1 (-1) 0 0|]);
  (destruct (_ && _); [eapply y_weaken; [apply y_ip4|]; conc_after 1 (-1) 0 0|]);
  (destruct (_ && _); [|y; conc]);
  (eapply y_weaken; [apply y_ip6_top|]; conc_after 1 (-1) 0 0).
Qed.
Lemma adds_one f n n' : wf_bytes f -> phrx_ether f n = (n', Ok tt) -> adds_up 1 (counted f n).
Proof. intros W E. apply part_adds. apply (y_ether f W n _ n'). rewrite counted_run, E. reflexivity. Qed.
Lemma adds_app a b l l' : adds_up a l -> adds_up b l' -> adds_up (a + b) (l ++ l').
Proof.
  unfold adds_up. cbv zeta. rewrite !cnt_app. intros H H'. repeat match goal with H : _ /\ _ |- _ => destruct H end. repeat (split; [lia|]). lia.
Qed.
Lemma adds_run (l : list (bytes * node)) :
  Forall (fun x => wf_bytes (fst x) /\ snd (phrx_ether (fst x) (snd x)) = Ok tt) l ->
  adds_up (zlen l) (flat_map (fun x => counted (fst x) (snd x)) l).
Proof.
  induction 1 as [|[f n] l (W & E) _ IH]; [unfold adds_up; cbn; lia|].
  cbn [flat_map fst snd] in *. rewrite zlen_cons. apply adds_app; [|exact IH].
  destruct (phrx_ether f n) as [n' r] eqn:X. cbn in E. subst r. exact (adds_one f n n' W X).
Qed.
