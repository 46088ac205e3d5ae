(** C96, C97, C98: a stack configured from text and started. *)
From Verif Require Import Base BaseLemmas AddrModel SpecAddr FragModel CodecModel EtherModel Icmp6Model StackModel SpecStack StackRxModel SpecRx RxProofs AcquireModel SpecAcquire AcquireProofs SpecIpText IpTextModel IpText2 IpText3 IpText5 StartModel SpecStart StartProofs StartText StartRun PropTx PropRx PropAcquire.

(** * C96 Configuration from text *)
(** Texts that describe a MAC address and hosts are accepted, and configure exactly those;
    what is left out is to be found out by DHCP and autoconfiguration. *)
Theorem C96_accepts : forall mac ip4 gw4 ip6 gw6 s m l4 l6,
  opt_mac mac (a_mac (p_addrs s)) m -> opt_describes false ip4 gw4 l4 -> opt_describes true ip6 gw6 l6 ->
  stack_init mac ip4 gw4 ip6 gw6 s =
    ({| p_conf := {| c_cand6 := c_cand6 (p_conf s) ++ l6; c_dhcp := match ip4 with None => true | _ => false end; c_lla := true;
                     c_gua := match ip6 with None => true | _ => false end |};
        p_addrs := let a := p_addrs s in
          {| a_mac := m; a_mac_mcast := a_mac_mcast a; a_host4 := a_host4 a; a_mcast4 := a_mcast4 a; a_host6 := a_host6 a;
             a_mcast6 := a_mcast6 a; a_cand4 := a_cand4 a ++ l4; a_cand6 := a_cand6 a; a_sup4 := true; a_sup6 := true |} |}, None).
Proof. exact init_complete. Qed.
Print Assumptions C96_accepts.
(** Whatever the texts, hosts that come out are in range, in the network of a prefix, and
    have a gateway if and only if one was given, and then a usable one. *)
Theorem C96_sound : forall mac ip4 gw4 ip6 gw6 s s', stack_init mac ip4 gw4 ip6 gw6 s = (s', None) ->
  exists m l4 l6, opt_mac mac (a_mac (p_addrs s)) m /\ opt_sound false ip4 gw4 l4 /\ opt_sound true ip6 gw6 l6 /\
  s' = {| p_conf := {| c_cand6 := c_cand6 (p_conf s) ++ l6; c_dhcp := match ip4 with None => true | _ => false end; c_lla := true;
                     c_gua := match ip6 with None => true | _ => false end |};
        p_addrs := let a := p_addrs s in
          {| a_mac := m; a_mac_mcast := a_mac_mcast a; a_host4 := a_host4 a; a_mcast4 := a_mcast4 a; a_host6 := a_host6 a;
             a_mcast6 := a_mcast6 a; a_cand4 := a_cand4 a ++ l4; a_cand6 := a_cand6 a; a_sup4 := true; a_sup6 := true |} |}.
Proof. exact init_sound. Qed.
Print Assumptions C96_sound.
(** start(), when it returns, for every schedule of received frames and every DHCP client
    that leaves the address lists alone: the IPv4 addresses are the configured ones, or, if
    there are none and DHCP is on, the one of the lease; IPv4 stays on exactly if there is
    one.  The client is not asked if an address is configured. *)
Theorem C96_start : forall c fetch w w', fit w -> quiet (w_node w) -> leaves_addrs fetch ->
  let a := my_addrs (w_node w) in
  a_sup4 a = true -> a_sup6 a = true -> Forall (fun h => 0 <= h_addr h < 2 ^ 128) (c_cand6 c) ->
  stack_start c fetch w = (w', Ok tt) ->
  exists w1 lease, acquired6 (c_lla c) (c_gua c) (c_cand6 c) w w1 /\
    let b := my_addrs (w_node w') in
    a_host6 b = a_host6 (my_addrs (w_node w1)) /\ a_sup6 b = a_sup6 (my_addrs (w_node w1)) /\ a_mac b = a_mac a /\
    a_host4 b = a_host4 a ++ a_cand4 a ++ lease /\ a_cand4 b = [] /\ (a_sup4 b = false <-> a_host4 b = []) /\
    (if c_dhcp c then a_cand4 a <> [] -> lease = [] else lease = []) /\
    (a_cand4 a = [] -> c_dhcp c = true -> exists w2 r, fetch w1 = (w2, Ok r) /\ lease = match r with Some h => [h] | None => [] end).
Proof. exact start_outcome. Qed.
Print Assumptions C96_start.

(** 10.0.0.9/24 via 10.0.0.1 and 2001:db8::9/64 via fe80::1 *)
Definition ex_h4 : host := {| h_addr := 0x0A000009; h_net := {| n_addr := 0x0A000000; n_mask := 2 ^ 32 - 2 ^ 8 |}; h_gw := Some 0x0A000001 |}.
Definition ex_h6 : host := {| h_addr := 0x20010db8000000000000000000000009;
  h_net := {| n_addr := 0x20010db8000000000000000000000000; n_mask := 2 ^ 128 - 2 ^ 64 |}; h_gw := Some 0xfe800000000000000000000000000001 |}.
Lemma ex_octet n : 0 <= n <= 255 -> (forall u, dec_str n = 48 :: u -> u = []) -> octet (dec_str n) n.
Proof. intros H Z0. destruct (dec_str_num n ltac:(lia)) as (D & N). split; [exact D|]. split; [exact N|]. split; [exact H|exact Z0]. Qed.
Lemma ex_quad d : 0 <= d <= 9 -> names false (lit "10.0.0." ++ dec_str d) (0x0A000000 + d).
Proof.
  intros H. exists (dec_str 10), (dec_str 0), (dec_str 0), (dec_str d), 10, 0, 0, d.
  assert (Z0 : forall u, dec_str d = 48 :: u -> u = []).
  { assert (X : d = 0 \/ d = 1 \/ d = 2 \/ d = 3 \/ d = 4 \/ d = 5 \/ d = 6 \/ d = 7 \/ d = 8 \/ d = 9) by lia.
    decompose [or] X; subst d; vm_compute; intros u E; injection E; auto; discriminate. }
  split; [apply ex_octet; [lia|vm_compute; intros u E; discriminate]|].
  split; [apply ex_octet; [lia|vm_compute; intros u E; injection E; auto]|].
  split; [apply ex_octet; [lia|vm_compute; intros u E; injection E; auto]|].
  split; [apply ex_octet; [lia|exact Z0]|]. split; [reflexivity|lia].
Qed.
Example C96_ex_describes :
  describes false (lit "10.0.0.9/24") (Some (lit "10.0.0.1")) ex_h4 /\
  describes true (lit "2001:db8::9/64") (Some (lit "fe80::1")) ex_h6.
Proof.
  assert (D : forall n, 0 <= n -> dec_num (dec_str n) n) by (intros n H; apply dec_str_num; auto).
  split.
  - exists (lit "10.0.0.9"), (lit "24"), 24. split; [reflexivity|]. split; [exact (ex_quad 9 ltac:(lia))|].
    split; [exact (D 24 ltac:(lia))|]. split; [cbn; lia|]. split; [split; [unfold ip_range, ex_h4, ex_h6; cbn [h_addr]; lia|]; split; [cbn; lia|]; split; reflexivity|].
    cbn [h_gw ex_h4]. exists (lit "10.0.0.1"). split; [reflexivity|]. split; [exact (ex_quad 1 ltac:(lia))|]. split; [reflexivity|].
    split; [cbn; lia|vm_compute; split; reflexivity].
  - exists (lit "2001:db8::9"), (lit "64"), 64. split; [reflexivity|].
    split; [apply ip6_text_iff; vm_compute; reflexivity|].
    split; [exact (D 64 ltac:(lia))|]. split; [cbn; lia|]. split; [split; [unfold ip_range, ex_h4, ex_h6; cbn [h_addr]; lia|]; split; [cbn; lia|]; split; reflexivity|].
    cbn [h_gw ex_h6]. exists (lit "fe80::1"). split; [reflexivity|]. split; [apply ip6_text_iff; vm_compute; reflexivity|]. reflexivity.
Qed.
Definition ex_fresh : setup := {| p_conf := {| c_cand6 := []; c_dhcp := true; c_lla := true; c_gua := true |};
  p_addrs := my_addrs (w_node (ex_bare6)) |}.
Definition ex_setup : setup := Eval vm_compute in
  fst (stack_init (Some (lit "02:00:00:00:00:07")) (Some (lit "10.0.0.9/24")) (Some (lit "10.0.0.1"))
         (Some (lit "2001:db8::9/64")) (Some (lit "fe80::1")) ex_fresh).
(** what is configured is what runs *)
Definition ex_run : world := {| w_node := set_my (fun _ => p_addrs ex_setup) (w_node ex_bare6); w_sched := [[ex_reply]]; w_log := [] |}.
Example C96_ex_start : fit ex_run /\ quiet (w_node ex_run) /\ a_sup4 (my_addrs (w_node ex_run)) = true /\ a_sup6 (my_addrs (w_node ex_run)) = true /\
  c_cand6 (p_conf ex_setup) = [ex_h6] /\
  let (w', r) := stack_start (p_conf ex_setup) (fun w => (w, Ok None)) ex_run in
  r = Ok tt /\ a_host4 (my_addrs (w_node w')) = [ex_h4] /\
  map h_addr (a_host6 (my_addrs (w_node w'))) = [0xFE80 * 2 ^ 112 + 0x000000FFFE000007; 0x20010db8000000000000000000000009].
Proof.
  split; [split; [split; [split; constructor|constructor]|]|].
  { repeat (constructor; try (apply wfb_true; vm_compute; reflexivity)). }
  split; [split; reflexivity|]. split; [reflexivity|]. split; [reflexivity|]. split; [reflexivity|].
  vm_compute. repeat split; reflexivity.
Qed.

(** * C97 The IPv6 addresses a start acquires *)
Theorem C97_acquire_ip6 : forall lla gua cands w w', fit w -> quiet (w_node w) -> a_sup6 (my_addrs (w_node w)) = true ->
  Forall (fun h => 0 <= h_addr h < 2 ^ 128) cands -> acquire_ip6 lla gua cands w = (w', Ok tt) -> acquired6 lla gua cands w w'.
Proof. exact acquire6_did. Qed.
Print Assumptions C97_acquire_ip6.
(** nobody answers for the link-local address; a router offers 2001:db8::/64 *)
Definition ex_ra : bytes := Eval vm_compute in
  wire_of {| f_dst := 0x333300000001; f_src := 0x020000000001;
             f_pkt := NIp6 (ip6_plain_tx (0xFE80 * 2 ^ 112 + 1) all_nodes 255 58)
               (PIcmp6 (T6Ra 64 false false 1800 0 0 [TPi 3600 1800 {| n_addr := db8; n_mask := 2 ^ 128 - 2 ^ 64 |} true true false])) |}.
Definition ex_w97 : world :=
  {| w_node := w_node ex_bare6; w_sched := [[]; []; []; []; []; []; []; [ex_ra]]; w_log := [] |}.
Example C97_example : fit ex_w97 /\ quiet (w_node ex_w97) /\
  let (w', r) := acquire_ip6 true true [] ex_w97 in
  r = Ok tt /\ map (fun e => snd e) (w_log w') = [ex_ra] /\
  map (fun h => (h_addr h, h_gw h)) (a_host6 (my_addrs (w_node w'))) =
    [(0xFE80 * 2 ^ 112 + 0x000000FFFE000007, None); (db8 + 0x000000FFFE000007, Some (0xFE80 * 2 ^ 112 + 1))].
Proof.
  split; [split; [split; [split; constructor|constructor]|]|].
  { repeat (constructor; try (apply wfb_true; vm_compute; reflexivity)). }
  split; [split; reflexivity|]. vm_compute. repeat split; reflexivity.
Qed.

(** * C98 A refused configuration *)
Definition C98_statement : Prop := forall mac ip4 gw4 ip6 gw6 s s' e,
  stack_init mac ip4 gw4 ip6 gw6 s = (s', Some e) -> s' = s.
(** the MAC address and the IPv4 candidate are there when the IPv6 text is refused *)
Definition ex_refused := stack_init (Some (lit "02:00:00:00:00:08")) (Some (lit "10.0.0.9/24")) None (Some (lit "fe80::/129")) None ex_fresh.
Theorem C98_refuted : ~ C98_statement.
Proof.
  intros H. assert (E : snd ex_refused = Some (BadText NetErr)) by (vm_compute; reflexivity).
  assert (X : fst ex_refused = ex_fresh) by (eapply H; rewrite <- E; apply surjective_pairing).
  assert (Y : a_mac (p_addrs (fst ex_refused)) = 0x020000000008) by (vm_compute; reflexivity).
  rewrite X in Y. vm_compute in Y. discriminate.
Qed.
Print Assumptions C98_refuted.
(** What a refusal leaves alone: the addresses in use, the groups, the IPv6 candidates and
    switches; a bad MAC address leaves everything. *)
Theorem C98_partial : forall mac ip4 gw4 ip6 gw6 s s' e, stack_init mac ip4 gw4 ip6 gw6 s = (s', Some e) ->
  let a := p_addrs s in let b := p_addrs s' in
  c_cand6 (p_conf s') = c_cand6 (p_conf s) /\ c_lla (p_conf s') = c_lla (p_conf s) /\ c_gua (p_conf s') = c_gua (p_conf s) /\
  a_host4 b = a_host4 a /\ a_host6 b = a_host6 a /\ a_mcast4 b = a_mcast4 a /\ a_mcast6 b = a_mcast6 a /\ a_mac_mcast b = a_mac_mcast a /\
  a_sup6 b = a_sup6 a /\ a_cand6 b = a_cand6 a /\
  (e = BadMac -> s' = s /\ exists t, mac = Some t /\ forall m, mac_of_text t <> Ok m).
Proof. exact init_raises. Qed.
Print Assumptions C98_partial.
Example C98_example : exists s', ex_refused = (s', Some (BadText NetErr)) /\ a_host4 (p_addrs s') = [] /\ length (a_cand4 (p_addrs s')) = 1%nat.
Proof. eexists. vm_compute. repeat split; reflexivity. Qed.
