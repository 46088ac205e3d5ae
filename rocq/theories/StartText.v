(** Lemmas: a stack configured from text. *)
From Verif Require Import Base BaseLemmas AddrModel SpecAddr AddrProofs CodecModel EtherModel StackModel StackRxModel AcquireModel SpecIpText IpTextModel IpText1 IpText2 IpText3 IpText4 IpText5 StartModel SpecStart.

Lemma names_parses v6 t x : names v6 t x -> ip_of_text v6 t = TOk x.
Proof. destruct v6; cbn; [apply ip6_text_iff|apply ip4_text_complete]. Qed.

Definition netat (v6 : bool) (x : Z) (w : net) : Prop :=
  exists k, 0 <= k <= Z.of_nat (width v6) /\ w = network_at v6 x k.
Lemma mask6_sound t m : mask6_of_text t = TOk m -> exists k, 0 <= k <= 128 /\ m = prefix_mask 128 k.
Proof.
  unfold mask6_of_text. destruct (rfull _ t); [|discriminate]. destruct (py_int (tl t)) as [k|]; [|discriminate].
  destruct ((0 <=? k) && (k <? 129)) eqn:E; [|discriminate]. intros H. injection H as <-. exists k. split; [lia|].
  apply (ones_zeros_prefix 128 k). lia.
Qed.
Lemma host_text_sound v6 t h : host_of_text v6 t = TOk h -> h_gw h = None /\ exists k, host_at v6 k h.
Proof.
  unfold host_of_text. destruct (split_slash t) as [|a [|m [|? ?]]] eqn:S; try discriminate.
  fold (ip_of_text v6 a). destruct (ip_of_text v6 a) as [x|] eqn:A; [|discriminate].
  pose proof (ip_of_text_range _ _ _ A) as R.
  assert (N : forall w, (if v6 then net6_of_text t else net4_of_text t) = TOk w -> netat v6 x w).
  { intros w. destruct v6; cbn [ip_of_text] in A.
    - unfold net6_of_text. rewrite S. destruct (mask6_of_text _) as [mask|] eqn:M; [|discriminate]. rewrite A.
      apply mask6_sound in M as (k & K & ->). change 128 with (Z.of_nat 128) in K |- * at 1. change (prefix_mask 128 k) with (prefix_mask (Z.of_nat 128) k).
      rewrite mk_net_spec; [|exact K|exact R]. intros E. injection E as <-. exists k. split; [exact K|reflexivity].
    - unfold net4_of_text. rewrite S. destruct (py_int m) as [k0|]; [|discriminate]. destruct (negb _); [discriminate|].
      destruct (mask_of_int 32 (ones_zeros 32 k0)) as [mask|] eqn:M; [|discriminate]. rewrite A.
      assert (X : mask = ones_zeros 32 k0) by (destruct (proj2 (mask_of_int_spec 32 (ones_zeros 32 k0))); congruence).
      rewrite <- X in M. apply mask_of_int_spec in M as (k & K & ->).
      rewrite mk_net_spec; [|exact K|exact R]. intros E. injection E as <-. exists k. split; [exact K|reflexivity]. }
  destruct (if v6 then net6_of_text t else net4_of_text t) as [w|] eqn:W; [|discriminate].
  destruct (N _ eq_refl) as (k & K & ->). intros E. injection E as <-. split; [reflexivity|]. exists k.
  unfold host_at, network_at. cbn. auto.
Qed.
(** the gateway *)
Lemma gateway4_iff k h y : host_at false k h -> 0 <= y < 2 ^ 32 ->
  (negb (net_contains 32 (h_net h) y) || (y =? n_addr (h_net h)) || (y =? ip4_broadcast (h_net h)) || (y =? h_addr h) = false
   <-> gateway_for false (h_addr h) k y).
Proof.
  intros (R & K & M & N) Hy. cbn [width ip_range] in *. set (x := h_addr h) in *.
  assert (Mk : mk_net 32 x (prefix_mask (Z.of_nat 32) k) = Ok (h_net h)).
  { rewrite mk_net_spec by auto. destruct (h_net h) as [p q]. cbn in M, N. subst. reflexivity. }
  destruct (net_contains_spec 32 k x y (h_net h) K R Mk) as (Ct & _).
  assert (L : net_last 32 (h_net h) = x - x mod 2 ^ (32 - k) + 2 ^ (32 - k) - 1).
  { pose proof Mk as Mk'. rewrite mk_net_spec in Mk' by auto. injection Mk' as <-. apply net_last_spec; auto. }
  unfold ip4_broadcast. rewrite L, N. cbn [gateway_for]. unfold same_prefix in *.
  change (Z.of_nat 32) with 32 in *. set (P := 2 ^ (32 - k)) in *.
  assert (Pp : 0 < P) by (apply Z.pow_pos_nonneg; lia).
  pose proof (Z.mod_pos_bound y P Pp). pose proof (Z.mod_pos_bound x P Pp).
  pose proof (Z.div_mod y P ltac:(lia)). pose proof (Z.div_mod x P ltac:(lia)).
  destruct (net_contains 32 (h_net h) y) eqn:C; cbn [negb orb].
  - assert (Q : y / P = x / P) by (apply Ct; reflexivity). rewrite Q in *. rewrite !orb_false_iff, !Z.eqb_neq. 
    split; [intros ((A & B) & D); split; [auto|]; split; [lia|lia]|]. intros (_ & A & B). split; [split; lia|lia].
  - split; [discriminate|]. intros (Q & _). apply Ct in Q. discriminate.
Qed.
Lemma gateway6_iff k h y : 0 <= y < 2 ^ 128 ->
  (negb (net_contains 128 ip6_ll_net y) = false <-> gateway_for true (h_addr h) k y).
Proof.
  intros Hy. rewrite ip6_ll_contains by auto. cbn [gateway_for]. destruct (ip6_prefixes y Hy) as (_ & _ & P & _).
  rewrite <- P, negb_false_iff. reflexivity.
Qed.
Lemma set_gw_iff v6 k h y : host_at v6 k h -> ip_range v6 y ->
  (gateway_for v6 (h_addr h) k y /\ (if v6 then ip6_set_gateway h (Some y) else ip4_set_gateway h (Some y))
     = ({| h_addr := h_addr h; h_net := h_net h; h_gw := Some y |}, None))
  \/ (~ gateway_for v6 (h_addr h) k y /\ exists e, (if v6 then ip6_set_gateway h (Some y) else ip4_set_gateway h (Some y)) = (h, Some e)).
Proof.
  intros H R. destruct v6; cbn [ip_range] in R.
  - pose proof (gateway6_iff k h y R) as G. unfold ip6_set_gateway. destruct (negb _).
    + right. split; [rewrite <- G; discriminate|eauto].
    + left. split; [apply G|]; reflexivity.
  - pose proof (gateway4_iff k h y H R) as G. unfold ip4_set_gateway. destruct (_ || _).
    + right. split; [rewrite <- G; discriminate|eauto].
    + left. split; [apply G|]; reflexivity.
Qed.
Lemma host_from_sound v6 t gw h : host_from v6 t gw = inl h ->
  exists k, host_at v6 k h /\ match h_gw h with None => no_gateway gw | Some y => ~ no_gateway gw /\ ip_range v6 y /\ gateway_for v6 (h_addr h) k y end.
Proof.
  unfold host_from. destruct (host_of_text v6 t) as [h0|] eqn:E; [|discriminate].
  destruct (host_text_sound _ _ _ E) as (G0 & k & A).
  destruct gw as [[|c u]|].
  - intros X. injection X as <-. exists k. split; [exact A|]. rewrite G0. unfold no_gateway. auto.
  - fold (ip_of_text v6 (c :: u)). destruct (ip_of_text v6 (c :: u)) as [y|] eqn:Y; [|discriminate].
    pose proof (ip_of_text_range _ _ _ Y) as R. destruct (set_gw_iff v6 k h0 y A R) as [(G & ->)|(_ & e & ->)]; [|discriminate].
    intros X. injection X as <-. exists k. split; [exact A|]. cbn. split; [intros [X|X]; discriminate|auto].
  - intros X. injection X as <-. exists k. split; [exact A|]. rewrite G0. unfold no_gateway. auto.
Qed.
Lemma hex_no_slash t v : hex_num t v -> no_slash t.
Proof.
  induction 1 as [|t v c d _ IH Hc]; [constructor|]. apply Forall_app. split; [exact IH|]. repeat constructor. unfold hex_char in Hc. lia.
Qed.
Lemma groups_no_slash t vs : groups t vs -> no_slash t.
Proof.
  induction 1 as [t v (H & _)|t v u vs (H & _) _ IH]; [eapply hex_no_slash; eauto|].
  apply Forall_app. split; [eapply hex_no_slash; eauto|]. constructor; [lia|exact IH].
Qed.
Lemma quad_no_slash t v : quad t v -> no_slash t.
Proof. intros H. eapply Forall_impl; [|exact (quad_chars _ _ H)]. intros c [X|X]; [unfold dec_char in X|]; lia. Qed.
Lemma tail_no_slash t vs : tail6 t vs -> no_slash t.
Proof.
  destruct 1 as [t vs H|t v H|t vs u v H H']; [eapply groups_no_slash; eauto|eapply quad_no_slash; eauto|].
  apply Forall_app. split; [eapply groups_no_slash; eauto|]. constructor; [lia|eapply quad_no_slash; eauto].
Qed.
Lemma names_no_slash v6 t x : names v6 t x -> no_slash t.
Proof.
  destruct v6; cbn [names]; [|apply quad_no_slash]. intros ([(ws & H & _)|(l & r & lw & rw & -> & L & R & _)] & _).
  - eapply tail_no_slash; eauto.
  - apply Forall_app. split; [destruct L as [(-> & _)|L]; [constructor|eapply groups_no_slash; eauto]|].
    constructor; [lia|]. constructor; [lia|]. destruct R as [(-> & _)|R]; [constructor|eapply tail_no_slash; eauto].
Qed.
Lemma names_nonempty v6 t x : names v6 t x -> t <> [].
Proof. intros H ->. apply names_parses in H. destruct v6; vm_compute in H; discriminate. Qed.
Lemma host_from_complete v6 t gw h : describes v6 t gw h -> host_from v6 t gw = inl h.
Proof.
  intros (a & m & k & -> & Na & Dm & Lm & A & G). unfold host_from.
  pose proof (names_no_slash _ _ _ Na) as Ns. pose proof (names_parses _ _ _ Na) as Pa.
  assert (Nm : m <> []) by (intros ->; cbn in Lm; lia).
  set (h0 := {| h_addr := h_addr h; h_net := h_net h; h_gw := None |}).
  assert (H0 : host_of_text v6 (a ++ 47 :: m) = TOk h0).
  { apply (host_digits v6 a m k h0 Ns Dm Nm ltac:(lia)). destruct A as (R & K & M & N). split; [lia|]. exists (h_addr h). split; [exact Pa|].
    unfold h0, network_at. rewrite <- M, <- N. destruct (h_net h); reflexivity. }
  rewrite H0. assert (A0 : host_at v6 k h0) by exact A.
  destruct (h_gw h) as [y|] eqn:Gw.
  - destruct G as (u & -> & Nu & Gf). pose proof (names_nonempty _ _ _ Nu) as Ne. destruct u as [|c u]; [contradiction|].
    fold (ip_of_text v6 (c :: u)). rewrite (names_parses _ _ _ Nu).
    pose proof (ip_of_text_range _ _ _ (names_parses _ _ _ Nu)) as R.
    destruct (set_gw_iff v6 k h0 y A0 R) as [(_ & ->)|(X & _)]; [|contradiction]. unfold h0. cbn. destruct h; cbn in *; subst; reflexivity.
  - assert (h0 = h) by (unfold h0; destruct h; cbn in *; subst; reflexivity). destruct G as [->| ->]; congruence.
Qed.

(** ** the constructor *)
Lemma init_complete mac ip4 gw4 ip6 gw6 s m l4 l6 :
  opt_mac mac (a_mac (p_addrs s)) m -> opt_describes false ip4 gw4 l4 -> opt_describes true ip6 gw6 l6 ->
  stack_init mac ip4 gw4 ip6 gw6 s =
    ({| p_conf := {| c_cand6 := c_cand6 (p_conf s) ++ l6; c_dhcp := match ip4 with None => true | _ => false end; c_lla := true;
                     c_gua := match ip6 with None => true | _ => false end |};
        p_addrs := let a := p_addrs s in
          {| a_mac := m; a_mac_mcast := a_mac_mcast a; a_host4 := a_host4 a; a_mcast4 := a_mcast4 a; a_host6 := a_host6 a;
             a_mcast6 := a_mcast6 a; a_cand4 := a_cand4 a ++ l4; a_cand6 := a_cand6 a; a_sup4 := true; a_sup6 := true |} |}, None).
Proof.
  intros M H4 H6. unfold stack_init, init_mac, init_ip4, init_ip6. destruct s as [[cc cd cl cg] [am amm h4 m4 h6 m6 c4 c6 s4 s6]]. cbn in *.
  destruct mac as [t|]; cbn in M; [rewrite M|subst m]; (destruct ip4 as [t4|]; cbn in H4;
    [destruct H4 as (x4 & -> & D4); rewrite (host_from_complete _ _ _ _ D4)|subst l4]);
    (destruct ip6 as [t6|]; cbn in H6; [destruct H6 as (x6 & -> & D6); cbn; rewrite (host_from_complete _ _ _ _ D6)|subst l6]); cbn;
    rewrite ?app_nil_r; reflexivity.
Qed.
Lemma init_sound mac ip4 gw4 ip6 gw6 s s' : stack_init mac ip4 gw4 ip6 gw6 s = (s', None) ->
  exists m l4 l6, opt_mac mac (a_mac (p_addrs s)) m /\ opt_sound false ip4 gw4 l4 /\ opt_sound true ip6 gw6 l6 /\
  s' = {| p_conf := {| c_cand6 := c_cand6 (p_conf s) ++ l6; c_dhcp := match ip4 with None => true | _ => false end; c_lla := true;
                     c_gua := match ip6 with None => true | _ => false end |};
        p_addrs := let a := p_addrs s in
          {| a_mac := m; a_mac_mcast := a_mac_mcast a; a_host4 := a_host4 a; a_mcast4 := a_mcast4 a; a_host6 := a_host6 a;
             a_mcast6 := a_mcast6 a; a_cand4 := a_cand4 a ++ l4; a_cand6 := a_cand6 a; a_sup4 := true; a_sup6 := true |} |}.
Proof.
  unfold stack_init. destruct (init_mac mac s) as [s1 [e|]] eqn:E1; [discriminate|]. destruct (init_ip4 ip4 gw4 s1) as [s2 [e|]] eqn:E2; [discriminate|].
  intros E3. 
  assert (M : exists m, opt_mac mac (a_mac (p_addrs s)) m /\ s1 = {| p_conf := p_conf s; p_addrs := with_mac m (p_addrs s) |}).
  { unfold init_mac in E1. destruct mac as [t|].
    - cbn. destruct (mac_of_text t) as [m|] eqn:X; [|discriminate]. injection E1 as <-. exists m. auto.
    - injection E1 as <-. exists (a_mac (p_addrs s)). split; [reflexivity|]. destruct s as [c []]; reflexivity. }
  destruct M as (m & M & ->).
  assert (L4 : exists l4, opt_sound false ip4 gw4 l4 /\ s2 = {| p_conf := {| c_cand6 := c_cand6 (p_conf s); c_dhcp := match ip4 with None => true | _ => false end; c_lla := c_lla (p_conf s); c_gua := c_gua (p_conf s) |};
     p_addrs := with_sup4 true (with_cand4 (a_cand4 (p_addrs s) ++ l4) (with_mac m (p_addrs s))) |}).
  { unfold init_ip4 in E2. destruct ip4 as [t|].
    - destruct (host_from false t gw4) as [h|] eqn:X; [|discriminate]. injection E2 as <-. destruct (host_from_sound _ _ _ _ X) as (k & A & G).
      exists [h]. split; [exists h, k; auto|reflexivity].
    - injection E2 as <-. exists []. split; [reflexivity|]. rewrite app_nil_r. destruct s as [c []]; reflexivity. }
  destruct L4 as (l4 & L4 & ->).
  assert (L6 : exists l6, opt_sound true ip6 gw6 l6 /\ s' = {| p_conf := {| c_cand6 := c_cand6 (p_conf s) ++ l6; c_dhcp := match ip4 with None => true | _ => false end; c_lla := true; c_gua := match ip6 with None => true | _ => false end |};
     p_addrs := with_sup6 true (with_sup4 true (with_cand4 (a_cand4 (p_addrs s) ++ l4) (with_mac m (p_addrs s)))) |}).
  { unfold init_ip6 in E3. destruct ip6 as [t|].
    - destruct (host_from true t gw6) as [h|] eqn:X; [|discriminate]. injection E3 as <-. destruct (host_from_sound _ _ _ _ X) as (k & A & G).
      exists [h]. split; [exists h, k; auto|reflexivity].
    - injection E3 as <-. exists []. split; [reflexivity|]. rewrite app_nil_r. reflexivity. }
  destruct L6 as (l6 & L6 & ->). exists m, l4, l6. split; [exact M|]. split; [exact L4|]. split; [exact L6|]. reflexivity.
Qed.
(** which errors *)
Lemma init_raises mac ip4 gw4 ip6 gw6 s s' e : stack_init mac ip4 gw4 ip6 gw6 s = (s', Some e) ->
  let a := p_addrs s in let b := p_addrs s' in
  c_cand6 (p_conf s') = c_cand6 (p_conf s) /\ c_lla (p_conf s') = c_lla (p_conf s) /\ c_gua (p_conf s') = c_gua (p_conf s) /\
  a_host4 b = a_host4 a /\ a_host6 b = a_host6 a /\ a_mcast4 b = a_mcast4 a /\ a_mcast6 b = a_mcast6 a /\ a_mac_mcast b = a_mac_mcast a /\
  a_sup6 b = a_sup6 a /\ a_cand6 b = a_cand6 a /\
  (e = BadMac -> s' = s /\ exists t, mac = Some t /\ forall m, mac_of_text t <> Ok m).
Proof.
  unfold stack_init, init_mac, init_ip4, init_ip6. intros E. 
  assert (N : forall v6 t gw x, host_from v6 t gw = inr x -> x <> BadMac).
  { intros v6 t gw x H. unfold host_from in H. destruct (host_of_text v6 t); [|congruence].
    destruct gw as [[|c u]|]; try discriminate. destruct (if v6 then _ else _); [|congruence].
    destruct (if v6 then ip6_set_gateway _ _ else _) as [? [?|]]; congruence. }
  cbv zeta. destruct mac as [t|]; [destruct (mac_of_text t) as [m|x] eqn:Em|].
  - destruct ip4 as [t4|]; [destruct (host_from false t4 gw4) as [h4|x4] eqn:E4|]; (destruct ip6 as [t6|]; [destruct (host_from true t6 gw6) as [h6|x6] eqn:E6|]);
      cbn in E; try discriminate; injection E as <- <-; cbn; do 10 (split; [reflexivity|]); intros X; exfalso; match goal with H : host_from _ _ _ = inr _ |- _ => exact (N _ _ _ _ H X) end.
  - injection E as <- <-. do 10 (split; [reflexivity|]). intros _. split; [auto|]. exists t. split; [auto|]. intros m. rewrite Em. discriminate.
  - destruct ip4 as [t4|]; [destruct (host_from false t4 gw4) as [h4|x4] eqn:E4|]; (destruct ip6 as [t6|]; [destruct (host_from true t6 gw6) as [h6|x6] eqn:E6|]);
      cbn in E; try discriminate; injection E as <- <-; cbn; do 10 (split; [reflexivity|]); intros X; exfalso; match goal with H : host_from _ _ _ = inr _ |- _ => exact (N _ _ _ _ H X) end.
Qed.
