(** The transmit handlers with counters are the handlers of StackModel, and their counters
    add up. *)
From Verif Require Import Base BaseLemmas CodecModel AddrModel EtherModel Ip4Model Ip6Model UdpModel TcpModel
  Icmp4Model Icmp6Model FragModel FragSendProofs RingModel BufProofs StackModel StackTxProofs StackRouteProofs
  StatTxModel SpecStatTx.

(** ** erasure *)
Definition xer {A} (t : X A) (m : M A) : Prop := forall s, snd (t s) = m s.
Lemma xer_quiet {A} (m : M A) : xer (quiet m) m.
Proof. intros s. reflexivity. Qed.
Lemma xer_bind {A B} (t : X A) (m : M A) (k : A -> X B) (k' : A -> M B) : xer t m -> (forall a, xer (k a) (k' a)) ->
  xer (xbind t k) (mbind m k').
Proof.
  intros H K s. unfold xbind, mbind. specialize (H s). destruct (t s) as [l [s' [a|e]]]; cbn [snd] in H; rewrite <- H; [|reflexivity].
  specialize (K a s'). destruct (k a s') as [l' x]. exact K.
Qed.
Lemma xer_count {A} c (k : unit -> X A) m : xer (k tt) m -> xer (xbind (count c) k) m.
Proof. intros H s. unfold xbind, count. specialize (H s). destruct (k tt s). exact H. Qed.
Lemma xer_head {A} c (k : unit -> X A) m : xer (k tt) m -> xer (xbind (ether_head c) k) m.
Proof. apply xer_count. Qed.
Lemma xer_assert {A} b (t : X A) m : xer t m -> xer (xassert b t) (massert b m).
Proof. intros H. destruct b; [exact H|apply xer_quiet]. Qed.
Lemma xer_send c a b p : xer (x_send c a b p) (ether_send a b p).
Proof. apply xer_count, xer_quiet. Qed.
Lemma xer_drop c st : xer (x_drop c st) (ret st).
Proof. apply xer_count, xer_quiet. Qed.
Ltac xer :=
  repeat match goal with
  | |- xer (quiet _) _ => apply xer_quiet
  | |- xer (x_send _ _ _ _) _ => apply xer_send
  | |- xer (x_drop _ _) _ => apply xer_drop
  | |- xer (xbind (count _) _) _ => apply xer_count
  | |- xer (xbind (ether_head _) _) _ => apply xer_head
  | |- xer (xassert _ _) _ => apply xer_assert
  | |- xer (xbind _ _) (mbind _ _) => apply xer_bind; [|intros ?]
  | |- xer (if ?b then _ else _) _ => destruct b
  | |- xer (match ?x with _ => _ end) _ => destruct x
  end.
Lemma xer_arp a b p : xer (x_arp a b p) (phtx_arp a b p).
Proof. unfold x_arp, phtx_arp. xer. Qed.
Lemma xer_arp_find ip : xer (x_arp_find ip) (arp_find ip).
Proof. unfold x_arp_find, arp_find, x_arp_request, send_arp_request. xer. apply xer_arp. Qed.
Lemma xer_ether_ip4 a b p : xer (x_ether_ip4 a b p) (ether_ip4 a b p).
Proof. unfold x_ether_ip4, ether_ip4. xer; apply xer_arp_find. Qed.
Lemma x_src4_snd a s d p : snd (x_src4 a s d p) = validate_src4 a s d p.
Proof.
  unfold x_src4, validate_src4.
  repeat match goal with |- snd (if ?b then _ else _) = _ => destruct b | |- snd (match ?x with _ => _ end) = _ => destruct x end; reflexivity.
Qed.
Lemma xer_frags4 a b l : xer (x_frags4 a b l) (send_frags4 a b l).
Proof. induction l as [|[t d] l IH]; cbn [x_frags4 send_frags4]; xer; [apply xer_ether_ip4|exact IH]. Qed.
Lemma xer_ip4 a b t p : xer (x_ip4 a b t p) (phtx_ip4 a b t p).
Proof.
  unfold x_ip4, phtx_ip4. apply xer_count, xer_assert. apply xer_bind; [apply xer_quiet|]. intros ad.
  destruct (negb _); [apply xer_drop|]. cbv zeta. apply xer_count. rewrite x_src4_snd. xer; auto using xer_ether_ip4, xer_frags4.
Qed.
Lemma xer_ether_ip6 f g a b p : (forall x, xer (f x) (g x)) -> xer (x_ether_ip6 f a b p) (ether_ip6 g a b p).
Proof. intros H. unfold x_ether_ip6, ether_ip6, x_nd_find, nd_find. xer; apply H. Qed.
Lemma x_src6_snd a s d p : snd (x_src6 a s d p) = validate_src6 a s d p.
Proof.
  unfold x_src6, validate_src6.
  repeat match goal with |- snd (if ?b then _ else _) = _ => destruct b | |- snd (match ?x with _ => _ end) = _ => destruct x end; reflexivity.
Qed.
Lemma xer_frags6 f g n i l : (forall x, xer (f x) (g x)) -> xer (x_frags6 f n i l) (send_frags6 g n i l).
Proof. intros H. induction l; cbn [x_frags6 send_frags6]; xer; auto. Qed.
Lemma xer_ip6_fuel fuel : forall a b h p, xer (x_ip6_fuel fuel a b h p) (phtx_ip6_fuel fuel a b h p).
Proof.
  induction fuel as [|fuel IH]; intros; cbn [x_ip6_fuel phtx_ip6_fuel]; [apply xer_quiet|].
  apply xer_count, xer_assert. apply xer_bind; [apply xer_quiet|]. intros ad.
  destruct (negb _); [apply xer_drop|]. cbv zeta. apply xer_count. rewrite x_src6_snd.
  destruct (validate_src6 _ _ _ _); [|apply xer_quiet]. destruct (ip6_is_unspecified _); [apply xer_drop|].
  apply xer_assert. destruct (_ <=? _).
  - apply xer_count, xer_ether_ip6. intros x. xer. apply IH.
  - xer. apply xer_frags6. intros x. apply IH.
Qed.
Lemma xer_ip6 a b h p : xer (x_ip6 a b h p) (phtx_ip6 a b h p).
Proof. apply xer_ip6_fuel. Qed.
Lemma xer_request q : xer (x_request q) (send_request q).
Proof.
  destruct q; cbn [x_request send_request]; auto using xer_arp, xer_ip4, xer_ip6.
  - unfold x_udp, phtx_udp. xer; auto using xer_ip4, xer_ip6.
  - unfold x_tcp, phtx_tcp. cbv zeta. xer; auto using xer_ip4, xer_ip6.
  - unfold x_icmp4, phtx_icmp4. xer; auto using xer_ip4.
  - unfold x_icmp6, phtx_icmp6. xer; auto using xer_ip6.
Qed.
Lemma spent_run q s : x_request q s = (spent q s, send_request q s).
Proof. unfold spent. rewrite <- (xer_request q s). destruct (x_request q s) as [l x]. reflexivity. Qed.

(** ** sums, as weights of the counters *)
Definition bal (w : txc -> Z) (l : list txc) : Z := fold_right (fun c n => w c + n) 0 l.
Lemma bal_app w a b : bal w (a ++ b) = bal w a + bal w b.
Proof. unfold bal. induction a; cbn [app fold_right]; lia. Qed.
Definition one (c d : txc) : Z := if txc_eq_dec c d then 1 else 0.
Lemma tcnt_bal c l : tcnt c l = bal (one c) l.
Proof.
  unfold tcnt, bal. induction l as [|d l IH]; [reflexivity|]. cbn [count_occ fold_right].
  unfold one at 1. destruct (txc_eq_dec d c), (txc_eq_dec c d); try congruence; lia.
Qed.
Definition plus (f g : txc -> Z) (c : txc) := f c + g c.
Definition minus (f g : txc -> Z) (c : txc) := f c - g c.
Lemma bal_ext w v l : (forall c, w c = v c) -> bal w l = bal v l.
Proof. intros H. unfold bal. induction l; cbn [fold_right]; [reflexivity|]. rewrite H, IHl. reflexivity. Qed.
Lemma bal_plus f g l : bal (plus f g) l = bal f l + bal g l.
Proof. unfold bal, plus. induction l; cbn [fold_right]; lia. Qed.
Lemma bal_minus f g l : bal (minus f g) l = bal f l - bal g l.
Proof. unfold bal, minus. induction l; cbn [fold_right]; lia. Qed.

(** the two sides of each sum *)
Definition w_src (c : txc) := match c with ether__pre_assemble => 1 | ether__src_unspec__fill | ether__src_spec => -1 | _ => 0 end.
Definition w_way (c : txc) := match c with ether__pre_assemble => 1
  | ether__dst_spec__send | ether__dst_unspec__ip6_lookup | ether__dst_unspec__ip4_lookup | ether__dst_unspec__drop => -1 | _ => 0 end.
Definition w_look6 (c : txc) := match c with ether__dst_unspec__ip6_lookup => 1
  | ether__dst_unspec__ip6_lookup__multicast__send | ether__dst_unspec__ip6_lookup__extnet__no_gw__drop
  | ether__dst_unspec__ip6_lookup__extnet__gw_nd_cache_hit__send | ether__dst_unspec__ip6_lookup__extnet__gw_nd_cache_miss__drop
  | ether__dst_unspec__ip6_lookup__locnet__nd_cache_hit__send | ether__dst_unspec__ip6_lookup__locnet__nd_cache_miss__drop => -1 | _ => 0 end.
Definition w_look4 (c : txc) := match c with ether__dst_unspec__ip4_lookup => 1
  | ether__dst_unspec__ip4_lookup__multicast__send | ether__dst_unspec__ip4_lookup__limited_broadcast__send
  | ether__dst_unspec__ip4_lookup__network_broadcast__send | ether__dst_unspec__ip4_lookup__extnet__no_gw__drop
  | ether__dst_unspec__ip4_lookup__extnet__gw_arp_cache_hit__send | ether__dst_unspec__ip4_lookup__extnet__gw_arp_cache_miss__drop
  | ether__dst_unspec__ip4_lookup__locnet__arp_cache_hit__send | ether__dst_unspec__ip4_lookup__locnet__arp_cache_miss__drop => -1 | _ => 0 end.
Definition w_down (c : txc) := match c with ether__pre_assemble => 1
  | arp__op_request__send | arp__op_reply__send | ip4__mtu_ok__send | ip4__mtu_exceed__frag__send | ip6__mtu_ok__send => -1 | _ => 0 end.
Definition w_fill (c : txc) := match c with ether__src_unspec__fill => 1
  | ether__dst_unspec__ip4_lookup | ether__dst_unspec__ip6_lookup => -1 | _ => 0 end.
Definition w_arp (c : txc) := match c with arp__pre_assemble => 1
  | arp__no_proto_support__drop | arp__op_request__send | arp__op_reply__send => -1 | _ => 0 end.
Definition w_ip4 (c : txc) := match c with ip4__pre_assemble => 1
  | ip4__no_proto_support__drop | ip4__src_not_owned__drop | ip4__src_multicast__drop | ip4__src_limited_broadcast__drop
  | ip4__src_unspecified__drop | ip4__dst_unspecified__drop | ip4__mtu_ok__send | ip4__mtu_exceed__frag => -1 | _ => 0 end.
Definition w_ip6 (c : txc) := match c with ip6__pre_assemble => 1
  | ip6__no_proto_support__drop | ip6__src_not_owned__drop | ip6__src_multicast__drop | ip6__src_unspecified__drop
  | ip6__dst_unspecified__drop | ip6__mtu_ok__send | ip6__mtu_exceed__frag => -1 | _ => 0 end.
Definition w_cut4 (c : txc) := match c with ip4__mtu_exceed__frag__send => 1 | ip4__mtu_exceed__frag => -2 | _ => 0 end.
Definition w_cut (c : txc) := match c with ip6_ext_frag__pre_assemble => 1 | ip6__mtu_exceed__frag => -1 | _ => 0 end.
Definition w_cut6 (c : txc) := match c with ip6_ext_frag__send => 1 | ip6_ext_frag__pre_assemble => -2 | _ => 0 end.
Definition w_up (c : txc) := match c with ip4__pre_assemble | ip6__pre_assemble => 1
  | udp__send | tcp__send | icmp4__pre_assemble | icmp6__pre_assemble | ip6_ext_frag__send => -1 | _ => 0 end.
Definition w_icmp4 (c : txc) := match c with icmp4__pre_assemble => 1
  | icmp4__echo_reply__send | icmp4__echo_request__send | icmp4__unreachable_port__send => -1 | _ => 0 end.
Definition w_icmp6 (c : txc) := match c with icmp6__pre_assemble => 1
  | icmp6__echo_reply__send | icmp6__echo_request__send | icmp6__unreachable_port__send
  | icmp6__nd_router_solicitation__send | icmp6__nd_router_advertisement__send
  | icmp6__nd_neighbor_solicitation__send | icmp6__nd_neighbor_advertisement__send | icmp6__mld2_report__send => -1 | _ => 0 end.
Definition w_udp (c : txc) := match c with udp__pre_assemble => 1 | udp__send | udp__unknown__drop => -1 | _ => 0 end.
Definition w_tcp (c : txc) := match c with tcp__pre_assemble => 1 | tcp__send | tcp__unknown__drop => -1 | _ => 0 end.
Definition w_nop (c : txc) := match c with tcp__opt_nop => 1 | tcp__opt_wscale => -1 | _ => 0 end.
Definition w_dead (c : txc) := match c with icmp4__unknown__drop | icmp6__unknown__drop | tcp__flag_ns | tcp__flag_crw
  | tcp__flag_ece | tcp__flag_urg | tcp__flag_psh => 1 | _ => 0 end.

Record laws (d e f g : Z) (l : list txc) : Prop := {
  l_src : bal w_src l = 0; l_way : bal w_way l = 0; l_look6 : bal w_look6 l = 0; l_look4 : bal w_look4 l = 0;
  l_down : bal w_down l = e; l_fill : 0 <= bal w_fill l; l_arp : bal w_arp l = 0; l_ip4 : bal w_ip4 l = 0; l_ip6 : bal w_ip6 l = 0;
  l_cut4 : f <= bal w_cut4 l; l_cut : bal w_cut l = 0; l_cut6 : g <= bal w_cut6 l; l_up : bal w_up l = d;
  l_icmp4 : bal w_icmp4 l = 0; l_icmp6 : bal w_icmp6 l = 0; l_udp : bal w_udp l = 0; l_tcp : bal w_tcp l = 0;
  l_nop : bal w_nop l = 0; l_dead : bal w_dead l = 0 }.
Lemma laws_app d e f g l d' e' f' g' l' : laws d e f g l -> laws d' e' f' g' l' -> laws (d + d') (e + e') (f + f') (g + g') (l ++ l').
Proof. intros [] []. split; rewrite bal_app; lia. Qed.
Ltac side w v H :=
  rewrite (bal_ext w v) in H by (intros c; destruct c; reflexivity); rewrite ?bal_minus, ?bal_plus, <- ?tcnt_bal in H.
Lemma laws_adds d l : laws d 0 0 0 l -> tx_adds_up d l.
Proof.
  assert (D : forall c, w_dead c = 1 -> bal w_dead l = 0 -> tcnt c l = 0).
  { intros c W. rewrite tcnt_bal. assert (N : forall l, 0 <= bal (one c) l <= bal w_dead l).
    { clear l. intros l. unfold bal. induction l as [|x l IH]; cbn [fold_right]; [lia|].
      unfold one at 1 3. destruct (txc_eq_dec c x) as [<-|]; [lia|]. assert (0 <= w_dead x) by (destruct x; cbn; lia). lia. }
    specialize (N l). lia. }
  intros H. unfold tx_adds_up. specialize (fun c W => D c W (l_dead _ _ _ _ _ H)) as D'. clear D.
  pose proof (l_src _ _ _ _ _ H) as L_src. side w_src (minus (one ether__pre_assemble) (plus (one ether__src_unspec__fill) (one ether__src_spec))) L_src.
  pose proof (l_way _ _ _ _ _ H) as L_way. side w_way (minus (one ether__pre_assemble) (plus (plus (plus (one ether__dst_spec__send) (one ether__dst_unspec__ip6_lookup)) (one ether__dst_unspec__ip4_lookup)) (one ether__dst_unspec__drop))) L_way.
  pose proof (l_look6 _ _ _ _ _ H) as L_look6. side w_look6 (minus (one ether__dst_unspec__ip6_lookup) (plus (plus (plus (plus (plus (one ether__dst_unspec__ip6_lookup__multicast__send) (one ether__dst_unspec__ip6_lookup__extnet__no_gw__drop)) (one ether__dst_unspec__ip6_lookup__extnet__gw_nd_cache_hit__send)) (one ether__dst_unspec__ip6_lookup__extnet__gw_nd_cache_miss__drop)) (one ether__dst_unspec__ip6_lookup__locnet__nd_cache_hit__send)) (one ether__dst_unspec__ip6_lookup__locnet__nd_cache_miss__drop))) L_look6.
  pose proof (l_look4 _ _ _ _ _ H) as L_look4. side w_look4 (minus (one ether__dst_unspec__ip4_lookup) (plus (plus (plus (plus (plus (plus (plus (one ether__dst_unspec__ip4_lookup__multicast__send) (one ether__dst_unspec__ip4_lookup__limited_broadcast__send)) (one ether__dst_unspec__ip4_lookup__network_broadcast__send)) (one ether__dst_unspec__ip4_lookup__extnet__no_gw__drop)) (one ether__dst_unspec__ip4_lookup__extnet__gw_arp_cache_hit__send)) (one ether__dst_unspec__ip4_lookup__extnet__gw_arp_cache_miss__drop)) (one ether__dst_unspec__ip4_lookup__locnet__arp_cache_hit__send)) (one ether__dst_unspec__ip4_lookup__locnet__arp_cache_miss__drop))) L_look4.
  pose proof (l_down _ _ _ _ _ H) as L_down. side w_down (minus (one ether__pre_assemble) (plus (plus (plus (plus (one arp__op_request__send) (one arp__op_reply__send)) (one ip4__mtu_ok__send)) (one ip4__mtu_exceed__frag__send)) (one ip6__mtu_ok__send))) L_down.
  pose proof (l_fill _ _ _ _ _ H) as L_fill. side w_fill (minus (one ether__src_unspec__fill) (plus (one ether__dst_unspec__ip4_lookup) (one ether__dst_unspec__ip6_lookup))) L_fill.
  pose proof (l_arp _ _ _ _ _ H) as L_arp. side w_arp (minus (one arp__pre_assemble) (plus (plus (one arp__no_proto_support__drop) (one arp__op_request__send)) (one arp__op_reply__send))) L_arp.
  pose proof (l_ip4 _ _ _ _ _ H) as L_ip4. side w_ip4 (minus (one ip4__pre_assemble) (plus (plus (plus (plus (plus (plus (plus (one ip4__no_proto_support__drop) (one ip4__src_not_owned__drop)) (one ip4__src_multicast__drop)) (one ip4__src_limited_broadcast__drop)) (one ip4__src_unspecified__drop)) (one ip4__dst_unspecified__drop)) (one ip4__mtu_ok__send)) (one ip4__mtu_exceed__frag))) L_ip4.
  pose proof (l_ip6 _ _ _ _ _ H) as L_ip6. side w_ip6 (minus (one ip6__pre_assemble) (plus (plus (plus (plus (plus (plus (one ip6__no_proto_support__drop) (one ip6__src_not_owned__drop)) (one ip6__src_multicast__drop)) (one ip6__src_unspecified__drop)) (one ip6__dst_unspecified__drop)) (one ip6__mtu_ok__send)) (one ip6__mtu_exceed__frag))) L_ip6.
  pose proof (l_cut4 _ _ _ _ _ H) as L_cut4. side w_cut4 (minus (one ip4__mtu_exceed__frag__send) (plus (one ip4__mtu_exceed__frag) (one ip4__mtu_exceed__frag))) L_cut4.
  pose proof (l_cut _ _ _ _ _ H) as L_cut. side w_cut (minus (one ip6_ext_frag__pre_assemble) (one ip6__mtu_exceed__frag)) L_cut.
  pose proof (l_cut6 _ _ _ _ _ H) as L_cut6. side w_cut6 (minus (one ip6_ext_frag__send) (plus (one ip6_ext_frag__pre_assemble) (one ip6_ext_frag__pre_assemble))) L_cut6.
  pose proof (l_up _ _ _ _ _ H) as L_up. side w_up (minus (plus (one ip4__pre_assemble) (one ip6__pre_assemble)) (plus (plus (plus (plus (one udp__send) (one tcp__send)) (one icmp4__pre_assemble)) (one icmp6__pre_assemble)) (one ip6_ext_frag__send))) L_up.
  pose proof (l_icmp4 _ _ _ _ _ H) as L_icmp4. side w_icmp4 (minus (one icmp4__pre_assemble) (plus (plus (one icmp4__echo_reply__send) (one icmp4__echo_request__send)) (one icmp4__unreachable_port__send))) L_icmp4.
  pose proof (l_icmp6 _ _ _ _ _ H) as L_icmp6. side w_icmp6 (minus (one icmp6__pre_assemble) (plus (plus (plus (plus (plus (plus (plus (one icmp6__echo_reply__send) (one icmp6__echo_request__send)) (one icmp6__unreachable_port__send)) (one icmp6__nd_router_solicitation__send)) (one icmp6__nd_router_advertisement__send)) (one icmp6__nd_neighbor_solicitation__send)) (one icmp6__nd_neighbor_advertisement__send)) (one icmp6__mld2_report__send))) L_icmp6.
  pose proof (l_udp _ _ _ _ _ H) as L_udp. side w_udp (minus (one udp__pre_assemble) (plus (one udp__send) (one udp__unknown__drop))) L_udp.
  pose proof (l_tcp _ _ _ _ _ H) as L_tcp. side w_tcp (minus (one tcp__pre_assemble) (plus (one tcp__send) (one tcp__unknown__drop))) L_tcp.
  pose proof (l_nop _ _ _ _ _ H) as L_nop. side w_nop (minus (one tcp__opt_nop) (one tcp__opt_wscale)) L_nop.
  cbv zeta. repeat match goal with |- _ /\ _ => split end; first [apply D'; reflexivity | lia].
Qed.

(** ** what the handlers give *)
Definition gives {A} (t : X A) (P : list txc -> Prop) : Prop := forall s l s' a, t s = (l, (s', Ok a)) -> P l.
Lemma g_quiet {A} (m : M A) (P : list txc -> Prop) : P [] -> gives (quiet m) P.
Proof. intros H s l s' a E. unfold quiet in E. injection E as <- _. exact H. Qed.
Lemma g_quiet_bind {A B} (m : M A) (k : A -> X B) P : (forall a, gives (k a) P) -> gives (xbind (quiet m) k) P.
Proof.
  intros H s l s' b E. unfold xbind, quiet in E. destruct (m s) as [s1 [a|e]]; [|discriminate].
  destruct (k a s1) as [l1 x] eqn:K. injection E as <- ->. exact (H a _ _ _ _ K).
Qed.
Lemma g_count {B} c (k : unit -> X B) P : gives (k tt) (fun l => P (c ++ l)) -> gives (xbind (count c) k) P.
Proof.
  intros H s l s' b E. unfold xbind, count in E. destruct (k tt s) as [l1 x] eqn:K. injection E as <- ->. exact (H _ _ _ _ K).
Qed.
Lemma g_bind {A B} (t : X A) (k : A -> X B) P (Q : list txc -> Prop) : gives t Q ->
  (forall a l, Q l -> gives (k a) (fun l' => P (l ++ l'))) -> gives (xbind t k) P.
Proof.
  intros H K s l s' b E. unfold xbind in E. destruct (t s) as [l1 [s1 [a|e]]] eqn:T; [|discriminate].
  destruct (k a s1) as [l2 x] eqn:K1. injection E as <- ->. exact (K a l1 (H _ _ _ _ T) _ _ _ _ K1).
Qed.
Lemma g_lift {A B} (r : res A) (k : A -> X B) P : (forall a, r = Ok a -> gives (k a) P) -> gives (xbind (quiet (lift r)) k) P.
Proof.
  intros H s l s' b E. unfold xbind, quiet, lift in E. destruct r as [a|e]; [|discriminate].
  destruct (k a s) as [l1 x] eqn:K. injection E as <- ->. exact (H a eq_refl _ _ _ _ K).
Qed.
Lemma g_raise {A} e (P : list txc -> Prop) : gives (@quiet A (raise e)) P.
Proof. intros s l s' a E. discriminate. Qed.
Lemma g_assert {A} b (t : X A) P : gives t P -> gives (xassert b t) P.
Proof. intros H. destruct b; [exact H|apply g_raise]. Qed.
Lemma g_weaken {A} (t : X A) (P Q : list txc -> Prop) : gives t P -> (forall l, P l -> Q l) -> gives t Q.
Proof. intros H W s l s' a E. eauto. Qed.
Lemma g_send c a b p (P : list txc -> Prop) : P [c] -> gives (x_send c a b p) P.
Proof. intros H. apply g_count, g_quiet. exact H. Qed.
Lemma g_drop c st (P : list txc -> Prop) : P [c] -> gives (x_drop c st) P.
Proof. intros H. apply g_count, g_quiet. exact H. Qed.
Ltac g := cbv zeta;
  repeat match goal with
  | |- gives (quiet (raise _)) _ => apply g_raise
  | |- gives (quiet _) _ => apply g_quiet
  | |- gives (x_send _ _ _ _) _ => apply g_send
  | |- gives (x_drop _ _) _ => apply g_drop
  | |- gives (xbind (quiet _) _) _ => apply g_quiet_bind; intros ?
  | |- gives (xbind (count _) _) _ => apply g_count
  | |- gives (xbind (ether_head _) _) _ => apply g_count
  | |- gives (xassert _ _) _ => apply g_assert
  | |- gives (if ?b then _ else _) _ => destruct b eqn:?
  | |- gives (match ?x with _ => _ end) _ => destruct x eqn:?
  end.
(** a list written out *)
Ltac plain_laws := cbn [app]; split; cbn; lia.
Lemma laws_pre {d e f g} d' e' f' g' p l : laws d e f g l -> laws d' e' f' g' p -> laws (d' + d) (e' + e) (f' + f) (g' + g) (p ++ l).
Proof. intros H K. apply laws_app; assumption. Qed.
Lemma laws_eq d e f g d' e' f' g' l : laws d e f g l -> d = d' -> e = e' -> f' <= f -> g' <= g -> laws d' e' f' g' l.
Proof. intros [] -> -> F G. split; auto; lia. Qed.

Lemma g_arp a b p : gives (x_arp a b p) (laws 0 0 0 0).
Proof.
  unfold x_arp, ether_head, when. destruct (mac_is_unspecified a), (mac_is_unspecified b);
    (destruct (a_oper p =? ARP_OP_REQUEST) eqn:E1; destruct (a_oper p =? ARP_OP_REPLY) eqn:E2;
     [exfalso; unfold ARP_OP_REQUEST, ARP_OP_REPLY in *; lia|..]); cbn [orb xassert negb]; g; plain_laws.
Qed.
Lemma g_arp_find ip : gives (x_arp_find ip) (laws 0 0 0 0).
Proof.
  unfold x_arp_find, x_arp_request. g; [plain_laws|].
  apply g_bind with (Q := laws 0 0 0 0).
  - g. eapply g_bind; [apply g_arp|]. intros _ l L. g. rewrite app_nil_r. exact L.
  - intros _ l L. g. rewrite app_nil_r. exact L.
Qed.
Lemma g_found {B} (P : list txc -> Prop) ip (k : option Z -> X B) :
  (forall l m, laws 0 0 0 0 l -> gives (k m) (fun l' => P (l ++ l'))) -> gives (xbind (x_arp_find ip) k) P.
Proof. intros H. eapply g_bind; [apply g_arp_find|]. intros m l L. apply H. exact L. Qed.
(** written-out lists and lists of which the laws are known *)
Ltac fin :=
  repeat match goal with L : laws _ _ _ _ _ |- _ => destruct L end;
  split; rewrite ?bal_app;
  repeat match goal with
  | |- context [bal ?w []] => change (bal w []) with 0
  | |- context [bal ?w (?x :: ?l)] => let v := eval cbv in (bal w (x :: l)) in change (bal w (x :: l)) with v
  end; lia.
Lemma g_ether_ip4 a b p : gives (x_ether_ip4 a b p) (laws 0 1 0 0).
Proof.
  unfold x_ether_ip4. change (ether_head 0) with (count [ether__pre_assemble; ether__src_unspec__fill]). g; try fin.
  all: apply g_found; intros l m L; g; fin.
Qed.
Lemma g_frags4 a b n l : length l = n -> gives (x_frags4 a b l) (laws 0 0 (Z.of_nat n) 0).
Proof.
  revert n. induction l as [|[t d] l IH]; intros n <-; cbn [x_frags4 length]; g; [fin|].
  eapply g_bind; [apply g_ether_ip4|]. intros x l1 L1. eapply g_bind; [apply IH; reflexivity|]. intros xs l2 L2. g.
  fin.
Qed.
(** what the source check counts: nothing that matters for the sums, or the drop *)
Lemma src4_laws a s d p : match snd (x_src4 a s d p) with
  | inl _ => laws 0 0 0 0 (fst (x_src4 a s d p))
  | inr _ => laws 1 0 0 0 (ip4__pre_assemble :: fst (x_src4 a s d p))
  end.
Proof.
  unfold x_src4.
  repeat match goal with |- match snd (if ?b then _ else _) with _ => _ end => destruct b
  | |- match snd (match ?x with _ => _ end) with _ => _ end => destruct x end; cbn [fst snd]; fin.
Qed.
Lemma src6_laws a s d p : match snd (x_src6 a s d p) with
  | inl _ => laws 0 0 0 0 (fst (x_src6 a s d p))
  | inr _ => laws 1 0 0 0 (ip6__pre_assemble :: fst (x_src6 a s d p))
  end.
Proof.
  unfold x_src6.
  repeat match goal with |- match snd (if ?b then _ else _) with _ => _ end => destruct b
  | |- match snd (match ?x with _ => _ end) with _ => _ end => destruct x end; cbn [fst snd]; fin.
Qed.

(** ** two pieces at least *)
Lemma asm_zlen p ps data : c_asm (payload_carried p) (repeat 0 (Z.to_nat (c_len (payload_carried p)))) ps = Ok data ->
  0 <= c_len (payload_carried p) -> zlen data = c_len (payload_carried p).
Proof.
  intros E H. destruct (payload_indep p) as (L0 & _ & Ln). eapply Ln; [|exact E]. unfold zlen. rewrite repeat_length. lia.
Qed.
Lemma two_pieces n data (l : list bytes) : 0 < n -> cut n data l -> n < zlen data -> 2 <= zlen l.
Proof.
  intros Hn (C & F & _) H. destruct l as [|x [|y l]]; [exfalso|exfalso|unfold zlen; cbn [length]; lia].
  - cbn in C. subst data. unfold zlen in H. cbn in H. lia.
  - inversion F; subst. cbn [concat] in H. rewrite app_nil_r in H. lia.
Qed.
Lemma two_pieces4 src dst ttl id0 p fs id : 1480 < c_len (payload_carried p) ->
  ip4_fragment TAP_MTU src dst ttl (payload_proto p) id0 (payload_carried p) = Ok (fs, id) -> 2 <= Z.of_nat (length fs).
Proof.
  intros H E. destruct (ip4_fragment_ok 1500 _ _ _ _ _ _ _ _ ltac:(lia) E) as (ps & data & Ep & Ed & _ & C & _).
  apply two_pieces in C; [unfold zlen in C; rewrite map_length in C; lia|cbn; lia|].
  rewrite (asm_zlen _ _ _ Ed) by lia. change ((1500 - 20) / 8 * 8) with 1480. lia.
Qed.
Lemma two_pieces6 src dst id0 p fs id : 1460 < c_len (payload_carried p) ->
  ip6_fragment TAP_MTU src dst (payload_next p) id0 (payload_carried p) = Ok (fs, id) -> 2 <= Z.of_nat (length fs).
Proof.
  intros H E. destruct (ip6_fragment_ok 1500 _ _ _ _ _ _ _ ltac:(lia) E) as (ps & data & Ep & Ed & _ & C & _).
  apply two_pieces in C; [unfold zlen in C; rewrite map_length in C; lia|cbn; lia|].
  rewrite (asm_zlen _ _ _ Ed) by lia. change ((1500 - 48) / 8 * 8) with 1448. lia.
Qed.

Lemma g_ip4 a b t p : gives (x_ip4 a b t p) (laws 1 0 0 0).
Proof.
  unfold x_ip4. apply g_count, g_assert, g_quiet_bind. intros ad. destruct (negb _); [g; fin|]. cbv zeta.
  apply g_count. pose proof (src4_laws ad a b p) as S4. destruct (x_src4 ad a b p) as [c [src|st]]; cbn [fst snd] in *.
  2:{ g. rewrite app_nil_r. exact S4. }
  destruct (ip4_is_unspecified b); [g; fin|]. apply g_assert.
  change (ip4_len _ _) with (20 + 0 + c_len (payload_carried p)). unfold TAP_MTU at 1. destruct (_ <=? _) eqn:Hl.
  - apply g_count. eapply g_weaken; [apply g_ether_ip4|]. intros l L. cbv beta. fin.
  - g. match goal with H : ip4_fragment _ _ _ _ _ _ _ = Ok _ |- _ => apply two_pieces4 in H; [|lia] end.
    eapply g_bind; [apply g_frags4; reflexivity|]. intros x l2 L2. g. fin.
Qed.
Lemma g_nd_find f ip : (forall x, gives (f x) (laws 0 0 0 0)) -> gives (x_nd_find f ip) (laws 0 0 0 0).
Proof.
  intros H. unfold x_nd_find. g; [fin|]. eapply g_bind; [apply H|]. intros _ l L. g. fin.
Qed.
Lemma g_ether_ip6 f a b p : (forall x, gives (f x) (laws 0 0 0 0)) -> gives (x_ether_ip6 f a b p) (laws 0 1 0 0).
Proof.
  intros H. unfold x_ether_ip6. change (ether_head 0) with (count [ether__pre_assemble; ether__src_unspec__fill]). g; try fin.
  all: eapply g_bind; [apply g_nd_find, H|]; intros m l L; g; fin.
Qed.
Lemma g_frags6 f n i l : (forall x, gives (f x) (laws 1 0 0 0)) -> gives (x_frags6 f n i l) (laws 0 0 0 (Z.of_nat (length l))).
Proof.
  intros H. induction l as [|x l IH]; cbn [x_frags6 length]; g; [fin|].
  eapply g_bind; [apply H|]. intros y l1 L1. eapply g_bind; [apply IH; reflexivity|]. intros xs l2 L2. g. fin.
Qed.
Lemma g_ip6_fuel fuel : forall a b h p, gives (x_ip6_fuel fuel a b h p) (laws 1 0 0 0).
Proof.
  induction fuel as [|fuel IH]; intros; cbn [x_ip6_fuel]; [apply g_raise|]. cbv zeta.
  apply g_count, g_assert, g_quiet_bind. intros ad. destruct (negb _); [g; fin|].
  apply g_count. pose proof (src6_laws ad a b p) as S6. destruct (x_src6 ad a b p) as [c [src|st]]; cbn [fst snd] in *.
  2:{ g. rewrite app_nil_r. exact S6. }
  destruct (ip6_is_unspecified b); [g; fin|]. apply g_assert. unfold TAP_MTU at 1. destruct (_ <=? _) eqn:Hl.
  - apply g_count. eapply g_weaken; [apply g_ether_ip6|intros l L; cbv beta; fin].
    intros x. g. eapply g_bind; [apply IH|]. intros _ l L. g. fin.
  - apply g_count, g_quiet_bind. intros id0.
    apply g_lift. intros [fs id] Ef. apply two_pieces6 in Ef; [|lia]. cbn [fst snd]. g.
    eapply g_bind; [apply g_frags6; intros; apply IH|]. intros x l2 L2. g. fin.
Qed.
Lemma g_ip6 a b h p : gives (x_ip6 a b h p) (laws 1 0 0 0).
Proof. apply g_ip6_fuel. Qed.
Lemma opts_laws mss wscale : laws 0 0 0 0 (tcp_opt_counts mss wscale).
Proof. unfold tcp_opt_counts. destruct mss as [m|], wscale as [w|]; try destruct (m =? 0); try destruct (w =? 0); fin. Qed.
Lemma flags_laws a r s f : laws 0 0 0 0 (when a tcp__flag_ack ++ when r tcp__flag_rst ++ when s tcp__flag_syn ++ when f tcp__flag_fin).
Proof. destruct a, r, s, f; cbn [when]; fin. Qed.
Lemma g_request q : gives (x_request q) (laws (if is_direct q then 1 else 0) 0 0 0).
Proof.
  destruct q; cbn [x_request is_direct]; auto using g_arp, g_ip4, g_ip6.
  - unfold x_udp. g; try fin; (eapply g_weaken; [apply g_ip6 || apply g_ip4|]; intros l L; cbv beta; fin).
  - unfold x_tcp. cbv zeta. apply g_count. change (tcp__pre_assemble :: tcp_opt_counts mss wscale) with ([tcp__pre_assemble] ++ tcp_opt_counts mss wscale).
    pose proof (opts_laws mss wscale) as O. pose proof (flags_laws fack frst fsyn ffin) as F.
    apply g_assert, g_count. revert O F. generalize (tcp_opt_counts mss wscale). intros lo O.
    generalize (when fack tcp__flag_ack ++ when frst tcp__flag_rst ++ when fsyn tcp__flag_syn ++ when ffin tcp__flag_fin). intros lf F.
    g; try fin; (eapply g_weaken; [apply g_ip6 || apply g_ip4|]; intros l L; cbv beta; fin).
  - unfold x_icmp4. apply g_count, g_quiet_bind. intros t. apply g_count. eapply g_weaken; [apply g_ip4|]. intros l L. cbv beta.
    destruct t; cbn [icmp4_counter]; fin.
  - unfold x_icmp6. apply g_count, g_quiet_bind. intros t'. apply g_count. eapply g_weaken; [apply g_ip6|]. intros l L. cbv beta.
    destruct t'; cbn [icmp6_counter]; fin.
Qed.
