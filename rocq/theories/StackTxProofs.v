From Verif Require Import Base BaseLemmas CodecModel CodecLemmas AddrModel SpecAddr AddrProofs EtherModel
  Ip4Model Ip6Model UdpModel TcpModel Icmp4Model Icmp6Model FragModel FragProofs FragRunProofs FragSendProofs BufProofs RingModel RingProofs StackModel SpecStack.

(** ** caches *)

Lemma cache_get_set k v k' c : cache_get k (cache_set k' v c) = if k =? k' then Some v else cache_get k c.
Proof.
  unfold cache_get. induction c as [|[a e] c IH]; cbn [cache_set find fst snd].
  - destruct (Z.eqb_spec k k'); reflexivity.
  - destruct (Z.eqb_spec k' a) as [->|N]; cbn [find fst snd].
    + destruct (Z.eqb_spec k a) as [->|]; reflexivity.
    + destruct (Z.eqb_spec k a) as [->|].
      * destruct (Z.eqb_spec a k'); [congruence|reflexivity].
      * exact IH.
Qed.

(** ** the state changes a send makes *)

(** [l] appended to what was handed to the transmit ring *)
Definition addl (l : list oframe) (s : stack) : stack :=
  {| s_addrs := s_addrs s; s_arp := s_arp s; s_nd := s_nd s; s_id4 := s_id4 s; s_id6 := s_id6 s; s_now := s_now s;
     s_out := s_out s ++ l |}.
Lemma addl_nil s : addl [] s = s. Proof. unfold addl. rewrite app_nil_r. destruct s; reflexivity. Qed.
Lemma addl_app l m s : addl m (addl l s) = addl (l ++ m) s.
Proof. unfold addl. cbn. rewrite app_assoc. reflexivity. Qed.

Lemma ether_send0 m p s : ether_send 0 m p s = (addl [{| f_dst := m; f_src := a_mac (s_addrs s); f_pkt := p |}] s, Ok PassedToTxRing).
Proof. reflexivity. Qed.

Definition arp_request (a : addrs) (tpa : Z) : oframe :=
  {| f_dst := mac_broadcast; f_src := a_mac a;
     f_pkt := NArp {| a_oper := ARP_OP_REQUEST; a_sha := a_mac a;
           a_spa := match ip4_unicast a with x :: _ => x | [] => 0 end; a_tha := 0; a_tpa := tpa |} |}.
Lemma send_arp_request_eq x s : a_sup4 (s_addrs s) = true ->
  send_arp_request x s = (addl [arp_request (s_addrs s) x] s, Ok tt).
Proof. intros H. unfold send_arp_request, phtx_arp, mbind, gets. rewrite H. cbn -[mac_is_unspecified]. unfold ether_send, mbind, gets, upd, ret.
  destruct (mac_is_unspecified (a_mac (s_addrs s))); reflexivity.
Qed.

Definition used (fail : tx_status) (a : Z) (p : netpkt) (s : stack) : stack * res tx_status :=
  match cache_get a (s_arp s) with
  | Some e => (addl [{| f_dst := ce_mac e; f_src := a_mac (s_addrs s); f_pkt := p |}] (set_arp (cache_set a (hit e) (s_arp s)) s),
               Ok PassedToTxRing)
  | None => (addl [arp_request (s_addrs s) a] s, Ok fail)
  end.
Lemma arp_find_send a fail p s : a_sup4 (s_addrs s) = true ->
  (m <~ arp_find a ;; match m with Some mac => ether_send 0 mac p | None => ret fail end) s = used fail a p s.
Proof.
  intros H. unfold used, mbind at 1, arp_find, mbind at 1, gets. destruct (cache_get a (s_arp s)) as [e|] eqn:E.
  - reflexivity.
  - unfold mbind. rewrite send_arp_request_eq by auto. reflexivity.
Qed.

(** ** routing an IPv4 packet *)

(** a host object the code can build, with prefix length [k] *)
Definition host_ok (n : nat) (k : Z) (h : host) : Prop :=
  0 <= k <= Z.of_nat n /\ 0 <= h_addr h < 2 ^ Z.of_nat n /\
  mk_net n (h_addr h) (prefix_mask (Z.of_nat n) k) = Ok (h_net h).
Lemma host_ok_net n k h : host_ok n k h ->
  n_addr (h_net h) = h_addr h / 2 ^ (Z.of_nat n - k) * 2 ^ (Z.of_nat n - k) /\
  net_last n (h_net h) = h_addr h / 2 ^ (Z.of_nat n - k) * 2 ^ (Z.of_nat n - k) + 2 ^ (Z.of_nat n - k) - 1 /\
  0 < 2 ^ (Z.of_nat n - k).
Proof.
  intros (Hk & Ha & E). rewrite mk_net_spec in E by auto. injection E as <-.
  rewrite net_last_spec by auto. cbn [n_addr].
  assert (P : 0 < 2 ^ (Z.of_nat n - k)) by (apply Z.pow_pos_nonneg; lia).
  set (q := 2 ^ (Z.of_nat n - k)) in *. pose proof (Z.div_mod (h_addr h) q ltac:(lia)). lia.
Qed.
Lemma host_ok_in n k h d : host_ok n k h ->
  net_contains n (h_net h) d = on_link (Z.of_nat n) k (h_addr h) d.
Proof.
  intros H. destruct (host_ok_net _ _ _ H) as (E1 & E2 & P). unfold net_contains, on_link. rewrite E1, E2.
  set (q := 2 ^ (Z.of_nat n - k)) in *. clearbody q. set (x := h_addr h / q). clearbody x.
  pose proof (Z.div_mod d q ltac:(lia)) as D. pose proof (Z.mod_pos_bound d q P).
  destruct (Z.eqb_spec (d / q) x) as [Q|N].
  - apply andb_true_iff; split; apply Z.leb_le; nia.
  - apply andb_false_iff. destruct (Z.leb_spec (x * q) d); [right|left; reflexivity].
    apply Z.leb_gt. assert (x < d / q) by nia. nia.
Qed.

Definition route4 (s : stack) (h : hop) (p : netpkt) : stack * res tx_status :=
  match h with
  | ToMac m => (addl [{| f_dst := m; f_src := a_mac (s_addrs s); f_pkt := p |}] s, Ok PassedToTxRing)
  | ToHost a => used EtherArpCacheFail a p s
  | ToGateway a => used EtherGatewayArpCacheFail a p s
  | Unroutable => (s, Ok EtherNoGatewayIp4)
  end.

(** every host with this address is this host *)
Definition only_host (h : host) (l : list host) : Prop :=
  In h l /\ forall h', In h' l -> h_addr h' = h_addr h -> h' = h.
Lemma only_find h l f : only_host h l ->
  find (fun h' => (h_addr h' =? h_addr h) && f h') l = if f h then Some h else None.
Proof.
  intros (I & U). destruct (f h) eqn:F.
  - destruct (find _ l) as [g|] eqn:E.
    + apply find_some in E. destruct E as (Ig & Eg). apply andb_true_iff in Eg. destruct Eg as (Eg & _).
      apply Z.eqb_eq in Eg. rewrite (U g Ig Eg). reflexivity.
    + pose proof (find_none _ _ E h I) as N. cbv beta in N. rewrite Z.eqb_refl, F in N. discriminate.
  - destruct (find _ l) as [g|] eqn:E; [|reflexivity].
    apply find_some in E. destruct E as (Ig & Eg). apply andb_true_iff in Eg. destruct Eg as (Eg & Fg).
    apply Z.eqb_eq in Eg. rewrite (U g Ig Eg), F in Fg. discriminate.
Qed.
Lemma only_exists h l f : only_host h l ->
  existsb (fun h' => (h_addr h' =? h_addr h) && f h') l = f h.
Proof.
  intros (I & U). destruct (f h) eqn:F.
  - apply existsb_exists. exists h. rewrite Z.eqb_refl, F. auto.
  - destruct (existsb _ l) eqn:E; [|reflexivity]. apply existsb_exists in E. destruct E as (g & Ig & Eg).
    apply andb_true_iff in Eg. destruct Eg as (Eg & Fg). apply Z.eqb_eq in Eg. rewrite (U g Ig Eg), F in Fg. discriminate.
Qed.

Lemma next_hop4_multicast addr k gw dst : 0 <= dst < 2 ^ 32 -> ip4_is_multicast dst = true ->
  exists m, ip4_multicast_mac dst = Ok m /\ next_hop4 addr k gw dst = ToMac m.
Proof.
  intros Hd E. pose proof (ip4_multicast_mac_spec dst Hd) as Mm. rewrite E in Mm.
  destruct Mm as (m & -> & -> & _). eexists; split; [reflexivity|].
  rewrite ip4_multicast_iv in E by auto. unfold next_hop4.
  replace (_ && _) with true by lia. reflexivity.
Qed.
Lemma next_hop4_unicast addr k gw dst : 0 <= dst < 2 ^ 32 -> ip4_is_multicast dst = false ->
  next_hop4 addr k gw dst =
  if dst =? 2 ^ 32 - 1 then ToMac (2 ^ 48 - 1)
  else if on_link 32 k addr dst then
    (if (dst mod 2 ^ (32 - k) =? 0) || (dst mod 2 ^ (32 - k) =? 2 ^ (32 - k) - 1)
     then ToMac (2 ^ 48 - 1) else ToHost dst)
  else match gw with Some g => ToGateway g | None => Unroutable end.
Proof.
  intros Hd E. rewrite ip4_multicast_iv in E by auto. unfold next_hop4.
  destruct ((224 * 2 ^ 24 <=? dst) && (dst <? 240 * 2 ^ 24)) eqn:X; [lia|reflexivity].
Qed.

Lemma ether_ip4_route s h k dst p : a_sup4 (s_addrs s) = true -> host_ok 32 k h -> only_host h (a_host4 (s_addrs s)) ->
  0 <= dst < 2 ^ 32 ->
  ether_ip4 (h_addr h) dst p s = route4 s (next_hop4 (h_addr h) k (h_gw h) dst) p.
Proof.
  intros Hs Hh Ho Hd. unfold ether_ip4, mbind at 1, gets.
  destruct (ip4_is_multicast dst) eqn:Em.
  { destruct (next_hop4_multicast (h_addr h) k (h_gw h) dst Hd Em) as (m & E1 & ->).
    unfold mbind, lift. rewrite E1. reflexivity. }
  rewrite next_hop4_unicast by auto.
  change (ip4_is_limited_broadcast dst) with (dst =? 2 ^ 32 - 1).
  destruct (dst =? 2 ^ 32 - 1); [reflexivity|].
  rewrite (only_exists h _ (fun h' => (dst =? n_addr (h_net h')) || (dst =? ip4_broadcast (h_net h')))) by auto.
  rewrite (only_find h _ (fun h' => negb (net_contains 32 (h_net h') dst))) by auto.
  rewrite (host_ok_in 32 k) by auto. change (Z.of_nat 32) with 32.
  destruct (host_ok_net _ _ _ Hh) as (E1 & E2 & P). change (Z.of_nat 32) with 32 in *.
  unfold ip4_broadcast. rewrite E1, E2. unfold on_link.
  set (q := 2 ^ (32 - k)) in *. clearbody q.
  pose proof (Z.div_mod dst q ltac:(lia)) as D. pose proof (Z.mod_pos_bound dst q P) as B.
  set (x := h_addr h / q) in *. clearbody x. set (r := dst mod q) in *. clearbody r. set (y := dst / q) in *. clearbody y.
  destruct (Z.eqb_spec y x) as [->|N].
  - replace ((dst =? x * q) || (dst =? x * q + q - 1)) with ((r =? 0) || (r =? q - 1)) by (f_equal; lia).
    destruct ((r =? 0) || (r =? q - 1)); [reflexivity|]. cbn [negb]. exact (arp_find_send dst _ p s Hs).
  - replace ((dst =? x * q) || (dst =? x * q + q - 1)) with false.
    2:{ symmetry. apply orb_false_iff. split; apply Z.eqb_neq; nia. }
    cbn [negb]. destruct (h_gw h) as [g|]; [exact (arp_find_send g _ p s Hs)|reflexivity].
Qed.

(** any source: the route depends on nothing but the addresses *)
Lemma ether_ip4_some_route a src dst : a_sup4 a = true -> 0 <= dst < 2 ^ 32 ->
  exists h, forall s p, s_addrs s = a -> ether_ip4 src dst p s = route4 s h p.
Proof.
  intros Hs Hd. unfold ether_ip4, mbind at 1, gets.
  destruct (ip4_is_multicast dst) eqn:Em.
  { destruct (next_hop4_multicast 0 0 None dst Hd Em) as (m & E1 & _). exists (ToMac m). intros s p <-.
    unfold mbind, lift. rewrite E1. reflexivity. }
  destruct (ip4_is_limited_broadcast dst); [exists (ToMac mac_broadcast); intros s p <-; reflexivity|].
  destruct (existsb (fun h => (h_addr h =? src) && ((dst =? n_addr (h_net h)) || (dst =? ip4_broadcast (h_net h)))) (a_host4 a)) eqn:Ex;
    [exists (ToMac mac_broadcast); intros s p <-; rewrite Ex; reflexivity|].
  destruct (find (fun h => (h_addr h =? src) && negb (net_contains 32 (h_net h) dst)) (a_host4 a)) as [h|] eqn:Ef;
    [destruct (h_gw h) as [g|] eqn:Eg|].
  - exists (ToGateway g). intros s p <-. rewrite Ex, Ef, Eg. exact (arp_find_send g _ p s Hs).
  - exists Unroutable. intros s p <-. rewrite Ex, Ef, Eg. reflexivity.
  - exists (ToHost dst). intros s p <-. rewrite Ex, Ef. exact (arp_find_send dst _ p s Hs).
Qed.

(** what happens to packets sent along a route: they go to a link-layer address, or
    each is dropped with a status and makes the given frames go out instead *)
Definition verdict := (Z + tx_status * list oframe)%type.
Definition resolve (c : cache) (fail : tx_status) (reqs : list oframe) (a : Z) : verdict :=
  match cache_get a c with Some e => inl (ce_mac e) | None => inr (fail, reqs) end.
Definition verdict4 (a : addrs) (c : cache) (h : hop) : verdict :=
  match h with
  | ToMac m => inl m
  | ToHost x => resolve c EtherArpCacheFail [arp_request a x] x
  | ToGateway x => resolve c EtherGatewayArpCacheFail [arp_request a x] x
  | Unroutable => inr (EtherNoGatewayIp4, [])
  end.
Definition frame_to (a : addrs) (m : Z) (p : netpkt) : oframe := {| f_dst := m; f_src := a_mac a; f_pkt := p |}.
Definition frames_for (a : addrs) (v : verdict) (l : list netpkt) : list oframe :=
  match v with inl m => map (frame_to a m) l | inr (_, fs) => concat (map (fun _ => fs) l) end.
Definition status_of (v : verdict) : tx_status := match v with inl _ => PassedToTxRing | inr (st, _) => st end.

(** nothing but the output and the two caches differs, and those only in hit counts *)
Definition same_macs (c c' : cache) : Prop :=
  forall k, option_map (fun e => (ce_mac e, ce_perm e, ce_time e)) (cache_get k c) =
            option_map (fun e => (ce_mac e, ce_perm e, ce_time e)) (cache_get k c').
Record sent (s s' : stack) (l : list oframe) : Prop := {
  se_addrs : s_addrs s' = s_addrs s; se_arp : same_macs (s_arp s) (s_arp s'); se_nd : same_macs (s_nd s) (s_nd s');
  se_now : s_now s' = s_now s; se_out : s_out s' = s_out s ++ l }.
Lemma same_macs_refl c : same_macs c c. Proof. intros k; reflexivity. Qed.
Lemma same_macs_trans a b c : same_macs a b -> same_macs b c -> same_macs a c.
Proof. intros H H' k. rewrite H. apply H'. Qed.
Lemma same_macs_hit c k e : cache_get k c = Some e -> same_macs c (cache_set k (hit e) c).
Proof. intros E j. rewrite cache_get_set. destruct (Z.eqb_spec j k) as [->|]; [rewrite E|]; reflexivity. Qed.
Lemma same_macs_resolve c c' f r a : same_macs c c' -> resolve c f r a = resolve c' f r a.
Proof.
  intros H. unfold resolve. specialize (H a). destruct (cache_get a c), (cache_get a c'); cbn in H; congruence.
Qed.
Lemma verdict4_same a c c' h : same_macs c c' -> verdict4 a c h = verdict4 a c' h.
Proof. intros H. destruct h; cbn [verdict4]; auto using same_macs_resolve. Qed.
Lemma sent_refl s : sent s s []. Proof. split; auto using same_macs_refl. rewrite app_nil_r; auto. Qed.
Lemma sent_trans s1 s2 s3 l m : sent s1 s2 l -> sent s2 s3 m -> sent s1 s3 (l ++ m).
Proof.
  intros [A1 B1 C1 D1 E1] [A2 B2 C2 D2 E2]. split; try congruence; eauto using same_macs_trans.
  rewrite E2, E1, app_assoc. reflexivity.
Qed.
Lemma sent_addl s l : sent s (addl l s) l. Proof. split; auto using same_macs_refl. Qed.
Lemma sent_set_id4 s n : sent s (set_id4 n s) []. Proof. split; auto using same_macs_refl. cbn. rewrite app_nil_r; auto. Qed.
Lemma sent_set_id6 s n : sent s (set_id6 n s) []. Proof. split; auto using same_macs_refl. cbn. rewrite app_nil_r; auto. Qed.

Lemma route4_spec s h p s' r : route4 s h p = (s', r) ->
  let v := verdict4 (s_addrs s) (s_arp s) h in
  r = Ok (status_of v) /\ sent s s' (frames_for (s_addrs s) v [p]) /\ s_nd s' = s_nd s.
Proof.
  intros E v. subst v. unfold route4, used in E. destruct h as [m|x|x|]; cbn [verdict4]; unfold resolve;
    try destruct (cache_get x (s_arp s)) as [e|] eqn:C; injection E as <- <-; cbn [status_of frames_for map concat app].
  all: repeat split; cbn; auto using same_macs_refl, same_macs_hit, app_nil_r.
Qed.
Lemma frames_for_app a v l m : frames_for a v (l ++ m) = frames_for a v l ++ frames_for a v m.
Proof. destruct v as [x|[st f]]; cbn; rewrite map_app; [reflexivity|apply concat_app]. Qed.

Lemma payload_indep p : indep (payload_carried p).
Proof. apply tx_packet_indep. destruct p; cbn [payload_carried]; constructor. Qed.

(** the packets that make up a send: the whole, or its fragments *)
Definition packets4 (src dst ttl id0 : Z) (p : payload) (l : list netpkt) : Prop :=
  (c_len (payload_carried p) <= 1480 /\ l = [NIp4 (ip4_whole_tx src dst ttl (payload_proto p)) p]) \/
  (1480 < c_len (payload_carried p) /\ exists fs,
     ip4_fragment TAP_MTU src dst ttl (payload_proto p) id0 (payload_carried p) = Ok (fs, id0 + 1) /\
     l = map (fun x => NIp4Frag (fst x) (snd x)) fs).

Lemma send_frags4_spec a src dst h : (forall s p, s_addrs s = a -> ether_ip4 src dst p s = route4 s h p) ->
  forall fs s s' r, s_addrs s = a -> send_frags4 src dst fs s = (s', r) ->
  let v := verdict4 a (s_arp s) h in
  r = Ok (repeat (status_of v) (length fs)) /\
  sent s s' (frames_for a v (map (fun x => NIp4Frag (fst x) (snd x)) fs)) /\ s_nd s' = s_nd s.
Proof.
  intros R. induction fs as [|[t d] fs IH]; intros s s' r Ea E; cbn [send_frags4] in E.
  - injection E as <- <-. cbn. destruct (verdict4 a (s_arp s) h) as [m|[st l]]; cbn; auto using sent_refl.
  - unfold mbind at 1 in E. rewrite R in E by auto. destruct (route4 s h (NIp4Frag t d)) as [s1 r1] eqn:E1.
    destruct (route4_spec _ _ _ _ _ E1) as (-> & S1 & N1). rewrite Ea in *.
    unfold mbind in E. destruct (send_frags4 src dst fs s1) as [s2 r2] eqn:E2.
    assert (Ea1 : s_addrs s1 = a) by (rewrite (se_addrs _ _ _ S1); auto).
    destruct (IH _ _ _ Ea1 E2) as (-> & S2 & N2).
    rewrite <- (verdict4_same a _ _ h (se_arp _ _ _ S1)) in *. injection E as <- <-.
    split; [reflexivity|]. split; [|congruence].
    change (map (fun x => NIp4Frag (fst x) (snd x)) ((t, d) :: fs))
      with ([NIp4Frag t d] ++ map (fun x => NIp4Frag (fst x) (snd x)) fs).
    rewrite frames_for_app. eapply sent_trans; eauto.
Qed.

Lemma worst_repeat order dflt st n : In st order -> (forall x y, In x order -> tx_status_eqb x y = true -> x = y) ->
  (0 < n)%nat -> worst order dflt (repeat st n) = st.
Proof.
  intros I U Hn. unfold worst. destruct (find _ order) as [x|] eqn:E.
  - apply find_some in E. destruct E as (Ix & Ex). apply existsb_exists in Ex. destruct Ex as (y & Iy & Ey).
    apply repeat_spec in Iy. subst y. apply U; auto.
  - pose proof (find_none _ _ E st I) as N. cbv beta in N. destruct n; [lia|]. cbn in N.
    replace (tx_status_eqb st st) with true in N by (destruct st; reflexivity). discriminate.
Qed.
Lemma tx_status_eqb_eq x y : tx_status_eqb x y = true -> x = y.
Proof. destruct x, y; cbn; congruence. Qed.
Lemma verdict4_severity a c h : In (status_of (verdict4 a c h)) severity4.
Proof.
  destruct h; cbn [verdict4]; unfold resolve; try destruct (cache_get _ _); cbn; auto 6.
Qed.

(** The whole of _phtx_ip4: nothing is sent, or the packets go along one route. *)
Definition nothing (err : exn -> Prop) (s s' : stack) (r : res tx_status) : Prop :=
  sent s s' [] /\ s_nd s' = s_nd s /\ s_arp s' = s_arp s /\
  match r with Ok st => st <> PassedToTxRing | Exn e => e = AssertionError \/ err e end.
(** the exceptions of assembling a packet that must be cut *)
Definition cut_error4 (s : stack) (dst ttl : Z) (p : payload) (e : exn) : Prop :=
  1480 < c_len (payload_carried p) /\ exists src,
  ip4_fragment TAP_MTU src dst ttl (payload_proto p) (s_id4 s) (payload_carried p) = Exn e.
Lemma validate_src4_status a src dst p st : validate_src4 a src dst p = inr st -> st <> PassedToTxRing.
Proof.
  unfold validate_src4. intros E X. subst st.
  repeat match type of E with
  | context [match ?x with _ => _ end] => destruct x; try discriminate
  end.
Qed.
Lemma phtx_ip4_cases s src dst ttl p s' r : 0 <= dst < 2 ^ 32 -> phtx_ip4 src dst ttl p s = (s', r) ->
  nothing (cut_error4 s dst ttl p) s s' r \/
  exists src' h l, a_sup4 (s_addrs s) = true /\ 0 < ttl < 256 /\ dst <> 0 /\
    validate_src4 (s_addrs s) src dst p = inl src' /\
    (forall s0 q, s_addrs s0 = s_addrs s -> ether_ip4 src' dst q s0 = route4 s0 h q) /\
    packets4 src' dst ttl (s_id4 s) p l /\ l <> [] /\
    let v := verdict4 (s_addrs s) (s_arp s) h in
    r = Ok (status_of v) /\ sent s s' (frames_for (s_addrs s) v l) /\ s_nd s' = s_nd s.
Proof.
  intros Hd E. unfold phtx_ip4, massert in E.
  destruct ((0 <? ttl) && (ttl <? 256)) eqn:Ht.
  2:{ left. injection E as <- <-. split; [apply sent_refl|]. repeat split; auto; discriminate. }
  unfold mbind at 1, gets at 1 in E. destruct (a_sup4 (s_addrs s)) eqn:Hs; cbn [negb] in E.
  2:{ left. injection E as <- <-. split; [apply sent_refl|]. repeat split; auto; discriminate. }
  destruct (validate_src4 (s_addrs s) src dst p) as [src'|st] eqn:Ev.
  2:{ left. injection E as <- <-. split; [apply sent_refl|]. repeat split; auto.
      apply (validate_src4_status _ _ _ _ _ Ev). }
  destruct (ip4_is_unspecified dst) eqn:Hu.
  { left. injection E as <- <-. split; [apply sent_refl|]. repeat split; auto; discriminate. }
  destruct (ip4_tx_ok _) eqn:Hok.
  2:{ left. injection E as <- <-. split; [apply sent_refl|]. repeat split; auto; discriminate. }
  assert (Hd0 : dst <> 0) by (unfold ip4_is_unspecified in Hu; lia).
  destruct (ether_ip4_some_route (s_addrs s) src' dst Hs Hd) as (h & R).
  change (ip4_len _ _) with (20 + 0 + c_len (payload_carried p)) in E. unfold TAP_MTU in E at 1.
  destruct (20 + 0 + c_len (payload_carried p) <=? 1500) eqn:Hl.
  - right. exists src', h, [NIp4 (ip4_whole_tx src' dst ttl (payload_proto p)) p].
    rewrite R in E by reflexivity. destruct (route4_spec _ _ _ _ _ E) as (-> & S1 & N1).
    repeat match goal with |- _ /\ _ => split end; auto; try lia; try discriminate.
    left. split; [lia|reflexivity].
  - unfold mbind at 1, gets at 1 in E.
    destruct (ip4_fragment TAP_MTU src' dst ttl (payload_proto p) (s_id4 s) (payload_carried p)) as [[fs id]|e] eqn:Ef.
    + right. unfold mbind at 1, upd at 1 in E.
      destruct (ip4_fragment_ok 1500 _ _ _ _ _ _ _ _ ltac:(lia) Ef) as (ps & data & Ep & Ed & -> & (C1 & _) & _).
      assert (Hne : fs <> []).
      { intros ->. cbn in C1. destruct (payload_indep p) as (L0 & _ & Ln).
        specialize (Ln (repeat 0 (Z.to_nat (c_len (payload_carried p)))) ps data).
        rewrite Ed in Ln. rewrite <- C1 in Ln. cbn in Ln.
        assert (X : zlen (repeat 0 (Z.to_nat (c_len (payload_carried p)))) = c_len (payload_carried p)).
        { unfold zlen. rewrite repeat_length. lia. }
        specialize (Ln X eq_refl). change (zlen []) with 0 in Ln. lia. }
      unfold mbind at 1 in E.
      destruct (send_frags4 src' dst fs (set_id4 (s_id4 s + 1) s)) as [s2 r2] eqn:E2.
      destruct (send_frags4_spec (s_addrs s) src' dst h R fs (set_id4 (s_id4 s + 1) s) _ _ eq_refl E2) as (-> & S2 & N2).
      injection E as <- <-.
      exists src', h, (map (fun x => NIp4Frag (fst x) (snd x)) fs).
      repeat match goal with |- _ /\ _ => split end; auto; try lia.
      * right. split; [lia|]. exists fs. auto.
      * destruct fs; [congruence|discriminate].
      * intros v. subst v. split; [|split; [|exact N2]].
        2:{ exact (sent_trans _ _ _ _ _ (sent_set_id4 s (s_id4 s + 1)) S2). }
        f_equal. apply worst_repeat; [apply verdict4_severity|auto using tx_status_eqb_eq|destruct fs; [congruence|cbn; lia]].
    + left. destruct e; injection E as <- <-; (split; [auto using sent_refl, sent_set_id4|]; repeat split; auto);
        right; (split; [lia|]; exists src'; exact Ef).
Qed.

(** ** IPv6 *)

Lemma solicited_node_eq a : 0 <= a < 2 ^ 128 ->
  ip6_solicited_node_multicast a = Ok (solicited_node a) /\ 0 <= solicited_node a < 2 ^ 128 /\
  ip6_is_multicast (solicited_node a) = true.
Proof.
  intros H. destruct (solicited_node_spec a H) as (g & E & G & R & _ & M).
  assert (g = solicited_node a) as -> by (rewrite G; reflexivity). auto.
Qed.
Lemma multicast_mac6_eq a : 0 <= a < 2 ^ 128 -> ip6_is_multicast a = true ->
  ip6_multicast_mac a = Ok (0x333300000000 + a mod 2 ^ 32).
Proof.
  intros H M. pose proof (ip6_multicast_mac_spec a H) as X. rewrite M in X. destruct X as (m & -> & -> & _). reflexivity.
Qed.

(** the solicitation sent for an address that is not in the cache *)
Definition ns_packet (a : addrs) (src target : Z) : netpkt :=
  NIp6 (ip6_plain_tx src (solicited_node target) 255 IP6_NEXT_ICMP6) (PIcmp6 (T6Ns target [TSlla (a_mac a)])).
Definition ns_frames (a : addrs) (target : Z) : list oframe :=
  match validate_src6 a (ns_source (a_host6 a) target) (solicited_node target) (PIcmp6 (T6Ns target [TSlla (a_mac a)])) with
  | inl src => [frame_to a (0x333300000000 + solicited_node target mod 2 ^ 32) (ns_packet a src target)]
  | inr _ => []
  end.
Definition solicit (fuel : nat) (target : Z) : M unit :=
  a <~ gets s_addrs ;;
  sn <~ lift (ip6_solicited_node_multicast target) ;;
  _ <~ phtx_ip6_fuel fuel (ns_source (a_host6 a) target) sn 255 (PIcmp6 (T6Ns target [TSlla (a_mac a)])) ;;
  ret tt.
Lemma phtx_ip6_step fuel src dst hop p s :
  phtx_ip6_fuel (S fuel) src dst hop p s =
      massert ((0 <? hop) && (hop <? 256))
      (a <~ gets s_addrs ;;
       if negb (a_sup6 a) then ret Ip6NoSupport
       else match validate_src6 a src dst p with
       | inr st => ret st
       | inl src =>
           if ip6_is_unspecified dst then ret Ip6DstUnspecified
           else
             let t := ip6_plain_tx src dst hop (payload_next p) in
             let c := payload_carried p in
             massert (ip6_tx_ok t)
             (if 40 + c_len c <=? TAP_MTU then ether_ip6 (solicit fuel) src dst (NIp6 t p)
              else
                id0 <~ gets s_id6 ;;
                fi <~ lift (ip6_fragment TAP_MTU src dst (payload_next p) id0 c) ;;
                _ <~ upd (set_id6 (snd fi)) ;;
                massert (frag6_next_ok (payload_next p))
                (l <~ send_frags6 (phtx_ip6_fuel fuel src dst 64) (payload_next p) (snd fi) (fst fi) ;;
                 ret (worst severity6 Ip6FragUnknown l)))
       end) s.
Proof. reflexivity. Qed.

Lemma ether_ip6_multicast f src dst p s : 0 <= dst < 2 ^ 128 -> ip6_is_multicast dst = true ->
  ether_ip6 f src dst p s = (addl [frame_to (s_addrs s) (0x333300000000 + dst mod 2 ^ 32) p] s, Ok PassedToTxRing).
Proof.
  intros H M. unfold ether_ip6, mbind at 1, gets. rewrite M. unfold mbind at 1, lift. rewrite multicast_mac6_eq by auto. reflexivity.
Qed.
Lemma solicited_node_pos a : 0 < solicited_node a.
Proof. unfold solicited_node. pose proof (Z.mod_pos_bound a (2 ^ 24) ltac:(lia)). lia. Qed.
Lemma solicit_eq fuel target s : 0 <= target < 2 ^ 128 -> a_sup6 (s_addrs s) = true ->
  solicit (S fuel) target s = (addl (ns_frames (s_addrs s) target) s, Ok tt).
Proof.
  intros Ht Hs. unfold solicit. unfold mbind at 1, gets at 1. destruct (solicited_node_eq _ Ht) as (-> & Rn & Mn).
  unfold mbind at 1, lift at 1. unfold mbind at 1. rewrite phtx_ip6_step.
  change (massert ((0 <? 255) && (255 <? 256))) with (fun k : M tx_status => k). cbv beta.
  unfold mbind at 1, gets at 1. rewrite Hs. cbn [negb]. unfold ns_frames.
  destruct (validate_src6 _ _ _ _) as [src|st]; [|rewrite addl_nil; reflexivity].
  unfold ip6_is_unspecified. pose proof (solicited_node_pos target). replace (solicited_node target =? 0) with false by lia.
  cbv zeta. change (massert (ip6_tx_ok _)) with (fun k : M tx_status => k). cbv beta.
  change (40 + c_len _ <=? TAP_MTU) with true. cbv iota.
  rewrite ether_ip6_multicast by auto. reflexivity.
Qed.

Definition verdict6 (a : addrs) (c : cache) (h : hop) : verdict :=
  match h with
  | ToMac m => inl m
  | ToHost x => resolve c EtherNdCacheFail (ns_frames a x) x
  | ToGateway x => resolve c EtherGatewayNdCacheFail (ns_frames a x) x
  | Unroutable => inr (EtherNoGatewayIp6, [])
  end.
Lemma verdict6_same a c c' h : same_macs c c' -> verdict6 a c h = verdict6 a c' h.
Proof. intros H. destruct h; cbn [verdict6]; auto using same_macs_resolve. Qed.
Lemma verdict6_severity a c h : In (status_of (verdict6 a c h)) severity6.
Proof. destruct h; cbn [verdict6]; unfold resolve; try destruct (cache_get _ _); cbn; auto 6. Qed.

Lemma nd_find_send fuel x fail p s s' r : 0 <= x < 2 ^ 128 -> a_sup6 (s_addrs s) = true ->
  (m <~ nd_find (solicit (S fuel)) x ;; match m with Some mac => ether_send 0 mac p | None => ret fail end) s = (s', r) ->
  let v := resolve (s_nd s) fail (ns_frames (s_addrs s) x) x in
  r = Ok (status_of v) /\ sent s s' (frames_for (s_addrs s) v [p]) /\ s_arp s' = s_arp s.
Proof.
  intros Hx Hs E v. subst v. unfold mbind at 1, nd_find, mbind at 1, gets in E. unfold resolve.
  destruct (cache_get x (s_nd s)) as [e|] eqn:C.
  - cbn in E. injection E as <- <-. repeat split; cbn; auto using same_macs_refl, same_macs_hit.
  - unfold mbind in E. rewrite solicit_eq in E by auto. injection E as <- <-.
    cbn [status_of frames_for map concat]. rewrite app_nil_r. repeat split; auto using same_macs_refl.
Qed.

Definition gws_ok (a : addrs) : Prop := forall h g, In h (a_host6 a) -> h_gw h = Some g -> 0 <= g < 2 ^ 128.

(** the hop of an IPv6 packet, for any source *)
Definition hop6 (a : addrs) (src dst : Z) : hop :=
  if ip6_is_multicast dst then ToMac (0x333300000000 + dst mod 2 ^ 32)
  else match find (fun h => (h_addr h =? src) && negb (net_contains 128 (h_net h) dst)) (a_host6 a) with
  | Some h => match h_gw h with None => Unroutable | Some g => ToGateway g end
  | None => ToHost dst
  end.
Lemma ether_ip6_spec fuel src dst p s s' r : 0 <= dst < 2 ^ 128 -> gws_ok (s_addrs s) -> a_sup6 (s_addrs s) = true ->
  ether_ip6 (solicit (S fuel)) src dst p s = (s', r) ->
  let v := verdict6 (s_addrs s) (s_nd s) (hop6 (s_addrs s) src dst) in
  r = Ok (status_of v) /\ sent s s' (frames_for (s_addrs s) v [p]) /\ s_arp s' = s_arp s.
Proof.
  intros Hd Hg Hs E v. subst v. unfold hop6. destruct (ip6_is_multicast dst) eqn:Em.
  { rewrite ether_ip6_multicast in E by auto. injection E as <- <-. repeat split; auto using same_macs_refl. }
  unfold ether_ip6, mbind at 1, gets at 1 in E. rewrite Em in E.
  destruct (find (fun h => (h_addr h =? src) && negb (net_contains 128 (h_net h) dst)) (a_host6 (s_addrs s))) as [h|] eqn:Ef.
  - apply find_some in Ef. destruct Ef as (Ih & _). destruct (h_gw h) as [g|] eqn:Eg.
    + cbn [verdict6]. apply (nd_find_send _ _ _ _ _ _ _ (Hg _ _ Ih Eg) Hs E).
    + injection E as <- <-. repeat split; auto using same_macs_refl. cbn. rewrite app_nil_r; auto.
  - cbn [verdict6]. apply (nd_find_send _ _ _ _ _ _ _ Hd Hs E).
Qed.

Lemma hop6_next a h k dst : host_ok 128 k h -> only_host h (a_host6 a) -> 0 <= dst < 2 ^ 128 ->
  hop6 a (h_addr h) dst = next_hop6 (h_addr h) k (h_gw h) dst.
Proof.
  intros Hh Ho Hd. unfold hop6, next_hop6.
  rewrite ip6_multicast_iv by auto.
  replace ((0xFF00 * 2 ^ 112 <=? dst) && (dst <=? 2 ^ 128 - 1)) with (255 * 2 ^ 120 <=? dst) by lia.
  destruct (255 * 2 ^ 120 <=? dst); [reflexivity|].
  rewrite (only_find h _ (fun h' => negb (net_contains 128 (h_net h') dst))) by auto.
  rewrite (host_ok_in 128 k) by auto. change (Z.of_nat 128) with 128.
  destruct (on_link 128 k (h_addr h) dst); cbn [negb]; [reflexivity|]. destruct (h_gw h); reflexivity.
Qed.

Definition cut_error6 (s : stack) (dst : Z) (p : payload) (e : exn) : Prop :=
  1460 < c_len (payload_carried p) /\ exists src,
  ip6_fragment TAP_MTU src dst (payload_next p) (s_id6 s) (payload_carried p) = Exn e.
Lemma validate_src6_status a src dst p st : validate_src6 a src dst p = inr st ->
  st = Ip6SrcNotOwned \/ st = Ip6SrcMulticast \/ st = Ip6SrcUnspecified.
Proof.
  unfold validate_src6. intros E.
  repeat match type of E with
  | context [match ?x with _ => _ end] => destruct x; try discriminate
  end; injection E as <-; auto.
Qed.

(** a packet that need not be cut *)
Lemma phtx_ip6_small fuel s src dst hop p s' r : 0 <= dst < 2 ^ 128 -> gws_ok (s_addrs s) ->
  c_len (payload_carried p) <= 1460 ->
  phtx_ip6_fuel (S (S fuel)) src dst hop p s = (s', r) ->
  (exists st, validate_src6 (s_addrs s) src dst p = inr st /\ s' = s /\ r = Ok st /\ a_sup6 (s_addrs s) = true /\ 0 < hop < 256) \/
  (nothing (fun _ => False) s s' r /\
   ~ (0 < hop < 256 /\ a_sup6 (s_addrs s) = true /\ dst <> 0 /\ In (payload_next p) [58; 17; 6; 44; 255])) \/
  exists src', a_sup6 (s_addrs s) = true /\ 0 < hop < 256 /\ dst <> 0 /\
    validate_src6 (s_addrs s) src dst p = inl src' /\
    let v := verdict6 (s_addrs s) (s_nd s) (hop6 (s_addrs s) src' dst) in
    r = Ok (status_of v) /\
    sent s s' (frames_for (s_addrs s) v [NIp6 (ip6_plain_tx src' dst hop (payload_next p)) p]) /\ s_arp s' = s_arp s.
Proof.
  intros Hd Hg Hl E. rewrite phtx_ip6_step in E. unfold massert at 1 in E.
  destruct ((0 <? hop) && (hop <? 256)) eqn:Ht.
  2:{ right; left. injection E as <- <-. split; [|lia]. split; [apply sent_refl|]. repeat split; auto. }
  unfold mbind at 1, gets at 1 in E. destruct (a_sup6 (s_addrs s)) eqn:Hs; cbn [negb] in E.
  2:{ right; left. injection E as <- <-. split; [|intros (_ & X & _); discriminate]. split; [apply sent_refl|]. repeat split; auto; discriminate. }
  destruct (validate_src6 (s_addrs s) src dst p) as [src'|st] eqn:Ev.
  2:{ left. injection E as <- <-. exists st. repeat split; auto; lia. }
  unfold ip6_is_unspecified in E. destruct (Z.eqb_spec dst 0) as [H0|H0].
  { right; left. injection E as <- <-. split; [|lia]. split; [apply sent_refl|]. repeat split; auto; discriminate. }
  cbv zeta in E. unfold massert in E. destruct (ip6_tx_ok _) eqn:Hok.
  2:{ right; left. injection E as <- <-. split; [split; [apply sent_refl|]; repeat split; auto|].
      intros (_ & _ & _ & N). unfold ip6_tx_ok in Hok. cbn [t6_hop t6_dscp t6_ecn t6_flow t6_next ip6_plain_tx] in Hok.
      replace ((0 <=? hop) && (hop <=? 0xFF)) with true in Hok by lia. cbn [Z.leb Z.compare andb] in Hok.
      unfold IP6_NEXT_ICMP6, IP6_NEXT_UDP, IP6_NEXT_TCP, IP6_NEXT_EXT_FRAG, IP6_NEXT_RAW in Hok.
      destruct N as [N|[N|[N|[N|[N|[]]]]]]; rewrite <- N in Hok; discriminate. }
  unfold TAP_MTU in E at 1. replace (40 + c_len (payload_carried p) <=? 1500) with true in E by lia.
  right; right. exists src'. destruct (ether_ip6_spec _ _ _ _ _ _ _ Hd Hg Hs E) as (-> & S1 & N1).
  repeat split; auto; try lia; apply S1.
Qed.

(** addresses of the stack are neither :: nor one of its multicast addresses *)
Definition plain6 (a : addrs) : Prop := forall x, In x (ip6_unicast a) -> x <> 0 /\ ~ In x (a_mcast6 a).

Lemma mem_In x l : mem x l = true <-> In x l.
Proof.
  unfold mem. rewrite existsb_exists. split.
  - intros (y & I & E). apply Z.eqb_eq in E. congruence.
  - intros I. exists x. rewrite Z.eqb_refl. auto.
Qed.
Lemma mem_not x l : ~ In x l -> mem x l = false.
Proof. intros N. destruct (mem x l) eqn:E; [apply mem_In in E; contradiction|reflexivity]. Qed.
Lemma pick_by_net_In n l d x : pick_by_net n l d = Some x -> In x (map h_addr l).
Proof. induction l as [|h l IH]; cbn; [discriminate|]. destruct (net_contains _ _ _); intros E; [injection E; auto|auto]. Qed.
Lemma pick_by_gw_In l x : pick_by_gw l = Some x -> In x (map h_addr l).
Proof. induction l as [|h l IH]; cbn; [discriminate|]. destruct (h_gw h); intros E; [injection E; auto|auto]. Qed.

(** what the validated source is *)
Definition needs_no_source6 (p : payload) : Prop :=
  match p with PIcmp6 (T6Ns _ []) | PIcmp6 (T6Mld2 _) => True | _ => False end.
Lemma validate_src6_inl a src dst p x : validate_src6 a src dst p = inl x ->
  In x (ip6_unicast a) \/ (x = 0 /\ src = 0 /\ needs_no_source6 p /\ pick_by_net 128 (a_host6 a) dst = None /\ pick_by_gw (a_host6 a) = None).
Proof.
  unfold validate_src6. destruct (negb _) eqn:E1; [discriminate|].
  apply negb_false_iff in E1.
  destruct (mem src (a_mcast6 a)) eqn:E2.
  { destruct (ip6_unicast a); [discriminate|]. intros E; injection E as <-. left. left; reflexivity. }
  rewrite orb_false_r in E1. unfold ip6_is_unspecified.
  destruct (Z.eqb_spec src 0) as [->|N]; cbn [negb].
  2:{ intros E; injection E as <-. rewrite orb_false_r in E1. left. apply mem_In, E1. }
  destruct (pick_by_net 128 (a_host6 a) dst) eqn:E3.
  { intros E; injection E as <-. left. eapply pick_by_net_In; eauto. }
  destruct (pick_by_gw (a_host6 a)) eqn:E4.
  { intros E; injection E as <-. left. eapply pick_by_gw_In; eauto. }
  intros E. right. destruct p as [| | |t| |]; try discriminate.
  destruct t; try discriminate; [destruct opts; try discriminate|]; injection E as <-; cbn; auto 6.
Qed.
Lemma validate_src6_again a x dst p : plain6 a -> In x (ip6_unicast a) -> validate_src6 a x dst p = inl x.
Proof.
  intros P I. destruct (P x I) as (N0 & Nm). unfold validate_src6.
  rewrite (proj2 (mem_In _ _) I). cbn [orb negb]. rewrite (mem_not _ _ Nm). unfold ip6_is_unspecified.
  replace (x =? 0) with false by lia. reflexivity.
Qed.

Definition packets6 (src dst hop id0 : Z) (p : payload) (l : list netpkt) : Prop :=
  (c_len (payload_carried p) <= 1460 /\ l = [NIp6 (ip6_plain_tx src dst hop (payload_next p)) p]) \/
  (1460 < c_len (payload_carried p) /\ exists fs,
     ip6_fragment TAP_MTU src dst (payload_next p) id0 (payload_carried p) = Ok (fs, id0 + 1) /\
     l = map (fun x => NIp6 (ip6_frag_tx src dst) (PFrag6 (payload_next p) (id0 + 1) x)) fs).

Lemma sent_same s s' : sent s s' [] -> s_out s' = s_out s.
Proof. intros [_ _ _ _ E]. rewrite app_nil_r in E. exact E. Qed.

(** the fragments, from an owned address *)
Lemma send_frags6_spec fuel a src dst next id : 0 <= dst < 2 ^ 128 -> gws_ok a -> plain6 a -> a_sup6 a = true -> dst <> 0 ->
  In src (ip6_unicast a) ->
  forall fs s s' r, s_addrs s = a -> Forall (fun x => zlen (snd x) <= 1448) fs ->
  send_frags6 (phtx_ip6_fuel (S (S fuel)) src dst 64) next id fs s = (s', r) ->
  let v := verdict6 a (s_nd s) (hop6 a src dst) in
  r = Ok (repeat (status_of v) (length fs)) /\
  sent s s' (frames_for a v (map (fun x => NIp6 (ip6_frag_tx src dst) (PFrag6 next id x)) fs)) /\ s_arp s' = s_arp s.
Proof.
  intros Hd Hg Hp Hs H0 Hi. induction fs as [|x fs IH]; intros s s' r Ea Fl E; cbn [send_frags6] in E.
  - injection E as <- <-. cbn. destruct (verdict6 a (s_nd s) (hop6 a src dst)) as [m|[st l]]; cbn; auto using sent_refl.
  - inversion Fl as [|? ? Lx Fl']; subst. unfold mbind at 1 in E.
    destruct (phtx_ip6_fuel (S (S fuel)) src dst 64 (PFrag6 next id x) s) as [s1 r1] eqn:E1.
    destruct (phtx_ip6_small fuel s src dst 64 (PFrag6 next id x) _ _ Hd Hg ltac:(destruct x as [[o m] d]; cbn in Lx |- *; lia) E1)
      as [(st & V & _)|[(_ & Nn)|(src' & _ & _ & _ & V & -> & S1 & N1)]].
    { rewrite validate_src6_again in V by auto. discriminate. }
    { exfalso. apply Nn. cbn. repeat split; auto; try lia. }
    rewrite validate_src6_again in V by auto. injection V as <-.
    unfold mbind in E. destruct (send_frags6 (phtx_ip6_fuel (S (S fuel)) src dst 64) next id fs s1) as [s2 r2] eqn:E2.
    destruct (IH _ _ _ (se_addrs _ _ _ S1) Fl' E2) as (-> & S2 & N2).
    rewrite <- (verdict6_same (s_addrs s) _ _ (hop6 (s_addrs s) src dst) (se_nd _ _ _ S1)) in *. injection E as <- <-.
    split; [reflexivity|]. split; [|congruence].
    change (map (fun x => NIp6 (ip6_frag_tx src dst) (PFrag6 next id x)) (x :: fs))
      with ([NIp6 (ip6_frag_tx src dst) (PFrag6 next id x)] ++ map (fun x => NIp6 (ip6_frag_tx src dst) (PFrag6 next id x)) fs).
    rewrite frames_for_app. eapply sent_trans; eauto.
Qed.
(** and from :: *)
Lemma send_frags6_zero fuel a dst next id : 0 <= dst < 2 ^ 128 -> gws_ok a -> a_sup6 a = true -> dst <> 0 ->
  (forall x, exists st, st <> PassedToTxRing /\ ~ In st severity6 /\ validate_src6 a 0 dst (PFrag6 next id x) = inr st) ->
  forall fs s s' r, s_addrs s = a -> Forall (fun x => zlen (snd x) <= 1448) fs ->
  send_frags6 (phtx_ip6_fuel (S (S fuel)) 0 dst 64) next id fs s = (s', r) ->
  exists l, r = Ok l /\ Forall (fun st => ~ In st severity6) l /\ s' = s.
Proof.
  intros Hd Hg Hs H0 Hv. induction fs as [|x fs IH]; intros s s' r Ea Fl E; cbn [send_frags6] in E.
  - injection E as <- <-. exists []. auto.
  - inversion Fl as [|? ? Lx Fl']; subst. unfold mbind at 1 in E.
    destruct (phtx_ip6_fuel (S (S fuel)) 0 dst 64 (PFrag6 next id x) s) as [s1 r1] eqn:E1.
    destruct (Hv x) as (st & Np & Ns & V).
    destruct (phtx_ip6_small fuel s 0 dst 64 (PFrag6 next id x) _ _ Hd Hg ltac:(destruct x as [[o m] d]; cbn in Lx |- *; lia) E1)
      as [(st' & V' & -> & -> & _)|[((S0 & N0 & A0 & X) & Nn)|(src' & _ & _ & _ & V' & _)]]; [| |congruence].
    + unfold mbind in E. destruct (send_frags6 (phtx_ip6_fuel (S (S fuel)) 0 dst 64) next id fs s) as [s2 r2] eqn:E2.
      destruct (IH _ _ _ eq_refl Fl' E2) as (l & -> & F & ->). injection E as <- <-.
      exists (st' :: l). repeat split; auto. constructor; auto. congruence.
    + exfalso. apply Nn. cbn. repeat split; auto; try lia.
Qed.

Lemma worst_none order dflt l : Forall (fun st => ~ In st order) l -> worst order dflt l = dflt.
Proof.
  intros F. unfold worst. destruct (find _ order) as [x|] eqn:E; [|reflexivity].
  apply find_some in E. destruct E as (Ix & Ex). apply existsb_exists in Ex. destruct Ex as (y & Iy & Ey).
  apply tx_status_eqb_eq in Ey. subst y. rewrite Forall_forall in F. destruct (F x Iy Ix).
Qed.

Lemma phtx_ip6_cases s src dst hop p s' r : 0 <= dst < 2 ^ 128 -> gws_ok (s_addrs s) -> plain6 (s_addrs s) ->
  phtx_ip6 src dst hop p s = (s', r) ->
  nothing (cut_error6 s dst p) s s' r \/
  exists src' l, a_sup6 (s_addrs s) = true /\ 0 < hop < 256 /\ dst <> 0 /\
    validate_src6 (s_addrs s) src dst p = inl src' /\
    packets6 src' dst hop (s_id6 s) p l /\ l <> [] /\
    (In src' (ip6_unicast (s_addrs s)) \/ c_len (payload_carried p) <= 1460) /\
    let v := verdict6 (s_addrs s) (s_nd s) (hop6 (s_addrs s) src' dst) in
    r = Ok (status_of v) /\ sent s s' (frames_for (s_addrs s) v l) /\ s_arp s' = s_arp s.
Proof.
  intros Hd Hg Hp E. unfold phtx_ip6 in E.
  destruct (Z_le_gt_dec (c_len (payload_carried p)) 1460) as [Hl|Hl].
  { destruct (phtx_ip6_small 1 s src dst hop p _ _ Hd Hg Hl E)
      as [(st & V & -> & -> & _)|[((S0 & N0 & A0 & X) & Nn)|(src' & Hs & Hh & H0 & V & -> & S1 & N1)]].
    - left. split; [apply sent_refl|]. repeat split; auto.
      destruct (validate_src6_status _ _ _ _ _ V) as [->|[->| ->]]; discriminate.
    - left. split; [auto|]. split; [auto|]. split; [auto|]. destruct r; [exact X|]. destruct X as [X|[]]; auto.
    - right. exists src', [NIp6 (ip6_plain_tx src' dst hop (payload_next p)) p].
      repeat match goal with |- _ /\ _ => split end; auto; try lia; try discriminate.
      left. split; [lia|reflexivity]. }
  rewrite phtx_ip6_step in E. unfold massert at 1 in E.
  destruct ((0 <? hop) && (hop <? 256)) eqn:Ht.
  2:{ left. injection E as <- <-. split; [apply sent_refl|]. repeat split; auto. }
  unfold mbind at 1, gets at 1 in E. destruct (a_sup6 (s_addrs s)) eqn:Hs; cbn [negb] in E.
  2:{ left. injection E as <- <-. split; [apply sent_refl|]. repeat split; auto; discriminate. }
  destruct (validate_src6 (s_addrs s) src dst p) as [src'|st] eqn:Ev.
  2:{ left. injection E as <- <-. split; [apply sent_refl|]. repeat split; auto.
      destruct (validate_src6_status _ _ _ _ _ Ev) as [->|[->| ->]]; discriminate. }
  unfold ip6_is_unspecified in E. destruct (Z.eqb_spec dst 0) as [H0|H0].
  { left. injection E as <- <-. split; [apply sent_refl|]. repeat split; auto; discriminate. }
  cbv zeta in E. unfold massert in E at 1. destruct (ip6_tx_ok _) eqn:Hok.
  2:{ left. injection E as <- <-. split; [apply sent_refl|]. repeat split; auto. }
  unfold TAP_MTU in E at 1. replace (40 + c_len (payload_carried p) <=? 1500) with false in E by lia.
  unfold mbind at 1, gets at 1 in E. unfold mbind at 1, lift at 1 in E.
  destruct (ip6_fragment TAP_MTU src' dst (payload_next p) (s_id6 s) (payload_carried p)) as [[fs id]|e] eqn:Ef.
  2:{ left. injection E as <- <-. split; [apply sent_refl|]. repeat split; auto. right. split; [lia|]. exists src'. exact Ef. }
  unfold mbind at 1, upd at 1 in E. cbn [fst snd] in E.
  unfold massert in E. destruct (frag6_next_ok _) eqn:Hnx.
  2:{ left. injection E as <- <-. split; [apply sent_set_id6|]. repeat split; auto. }
  destruct (ip6_fragment_ok 1500 _ _ _ _ _ _ _ ltac:(lia) Ef) as (ps & data & Ep & Ed & -> & (C1 & C2 & C3) & _).
  assert (Fl : Forall (fun x : Z * bool * bytes => zlen (snd x) <= 1448) fs).
  { apply Forall_forall. intros x Ix. rewrite Forall_forall in C2.
    specialize (C2 (snd x) (in_map snd _ _ Ix)). cbv beta in C2. change ((1500 - 48) / 8 * 8) with 1448 in C2. lia. }
  assert (Hne : fs <> []).
  { intros ->. cbn in C1. destruct (payload_indep p) as (L0 & _ & Ln).
    specialize (Ln (repeat 0 (Z.to_nat (c_len (payload_carried p)))) ps data).
    rewrite Ed in Ln. rewrite <- C1 in Ln. cbn in Ln.
    assert (X : zlen (repeat 0 (Z.to_nat (c_len (payload_carried p)))) = c_len (payload_carried p)).
    { unfold zlen. rewrite repeat_length. lia. }
    specialize (Ln X eq_refl). change (zlen []) with 0 in Ln. lia. }
  unfold mbind in E.
  destruct (send_frags6 (phtx_ip6_fuel 2 src' dst 64) (payload_next p) (s_id6 s + 1) fs (set_id6 (s_id6 s + 1) s)) as [s2 r2] eqn:E2.
  destruct (validate_src6_inl _ _ _ _ _ Ev) as [Hi|(-> & -> & _ & Pn & Pg)].
  - right. destruct (send_frags6_spec 0 (s_addrs s) src' dst (payload_next p) (s_id6 s + 1) Hd Hg Hp Hs H0 Hi fs
      (set_id6 (s_id6 s + 1) s) _ _ eq_refl Fl E2) as (-> & S2 & N2).
    injection E as <- <-.
    exists src', (map (fun x => NIp6 (ip6_frag_tx src' dst) (PFrag6 (payload_next p) (s_id6 s + 1) x)) fs).
    repeat match goal with |- _ /\ _ => split end; auto; try lia.
    + right. split; [lia|]. exists fs. auto.
    + destruct fs; [congruence|discriminate].
    + intros v. subst v. split; [|split; [|exact N2]].
      2:{ exact (sent_trans _ _ _ _ _ (sent_set_id6 s (s_id6 s + 1)) S2). }
      f_equal. apply worst_repeat; [apply verdict6_severity|auto using tx_status_eqb_eq|destruct fs; [congruence|cbn; lia]].
  - left.
    assert (Hv : forall x, exists st, st <> PassedToTxRing /\ ~ In st severity6 /\
              validate_src6 (s_addrs s) 0 dst (PFrag6 (payload_next p) (s_id6 s + 1) x) = inr st).
    { intros x. unfold validate_src6 at 1. rewrite Pn, Pg. cbn [Z.eqb]. rewrite orb_true_r. cbn [negb].
      destruct (mem 0 (a_mcast6 (s_addrs s))) eqn:M.
      - exfalso. unfold validate_src6 in Ev. rewrite M in Ev.
        rewrite orb_true_r in Ev. cbn [negb] in Ev. destruct (ip6_unicast (s_addrs s)) eqn:U; [discriminate|].
        cbn [orb negb] in Ev. injection Ev as ->. destruct (Hp 0); [rewrite U; left; reflexivity|lia].
      - exists Ip6SrcUnspecified. repeat split; try discriminate. cbn. intuition discriminate. }
    destruct (send_frags6_zero 0 (s_addrs s) dst (payload_next p) (s_id6 s + 1) Hd Hg Hs H0 Hv fs
      (set_id6 (s_id6 s + 1) s) _ _ eq_refl Fl E2) as (l & -> & F & ->).
    injection E as <- <-. split; [apply sent_set_id6|]. repeat split; auto.
    rewrite worst_none by auto. discriminate.
Qed.
