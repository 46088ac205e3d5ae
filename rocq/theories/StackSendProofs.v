(** Who sends from where, where it goes and what is reported. *)
From Verif Require Import Base BaseLemmas CodecModel CodecLemmas AddrModel SpecAddr AddrProofs EtherModel
  Ip4Model Ip6Model UdpModel TcpModel Icmp4Model Icmp6Model Icmp6Proofs FragModel FragProofs FragRunProofs FragSendProofs BufProofs
  RingModel RingProofs StackModel SpecStack StackTxProofs StackWireProofs.

Definition in32 (a : Z) : Prop := 0 <= a < 2 ^ 32.
Definition in128 (a : Z) : Prop := 0 <= a < 2 ^ 128.
(** the destination is a value an address object can have *)
Definition dst_ok (q : request) : Prop :=
  match q with
  | QArp _ _ _ => True
  | QIp4 _ d _ _ | QIcmp4 _ d _ _ _ _ _ _ => in32 d
  | QIp6 _ d _ _ | QIcmp6 _ d _ _ => in128 d
  | QUdp _ d _ _ _ | QTcp _ d _ _ _ _ _ _ _ _ _ _ _ _ => match d with A4 a => in32 a | A6 a => in128 a end
  end.

(** what a request comes down to *)
Definition tcp_of_request (q : request) : option tcp_tx :=
  match q with
  | QTcp _ _ sport dport seq ack fsyn fack ffin frst win mss wscale data =>
      Some {| x_sport := sport; x_dport := dport; x_seq := seq; x_ack := ack;
              x_fns := false; x_fcrw := false; x_fece := false; x_furg := false; x_fack := fack;
              x_fpsh := false; x_frst := frst; x_fsyn := fsyn; x_ffin := ffin;
              x_win := win; x_urp := 0; x_opts := tcp_phtx_opts mss wscale; x_data := data |}
  | _ => None
  end.
(** the packet a request asks for and its IPv4 source and destination, ttl *)
Definition asks4 (q : request) (src dst ttl : Z) (p : payload) : Prop :=
  match q with
  | QIp4 s d t x => s = src /\ d = dst /\ t = ttl /\ x = p
  | QUdp (A4 s) (A4 d) sp dp data => s = src /\ d = dst /\ ttl = 64 /\ p = PUdp sp dp data
  | QTcp (A4 s) (A4 d) _ _ _ _ _ _ _ _ _ _ _ _ =>
      s = src /\ d = dst /\ ttl = 64 /\ exists t, tcp_of_request q = Some t /\ p = PTcp t
  | QIcmp4 s d type code id seq ec un => s = src /\ d = dst /\ ttl = 64 /\
      exists t, icmp4_new type code id seq ec un = Ok t /\ p = PIcmp4 t
  | _ => False
  end.
Definition asks6 (q : request) (src dst hop : Z) (p : payload) : Prop :=
  match q with
  | QIp6 s d h x => s = src /\ d = dst /\ h = hop /\ x = p
  | QUdp (A6 s) (A6 d) sp dp data => s = src /\ d = dst /\ hop = 64 /\ p = PUdp sp dp data
  | QTcp (A6 s) (A6 d) _ _ _ _ _ _ _ _ _ _ _ _ =>
      s = src /\ d = dst /\ hop = 64 /\ exists t, tcp_of_request q = Some t /\ p = PTcp t
  | QIcmp6 s d h t => s = src /\ d = dst /\ h = hop /\ exists x, icmp6_new t = Ok x /\ p = PIcmp6 x
  | _ => False
  end.

Lemma send_request_cases q s s' r : send_request q s = (s', r) ->
  (s' = s /\ match r with Ok st => st <> PassedToTxRing | Exn _ => True end) \/
  (exists src dst ttl p, asks4 q src dst ttl p /\ phtx_ip4 src dst ttl p s = (s', r)) \/
  (exists src dst hop p, asks6 q src dst hop p /\ phtx_ip6 src dst hop p s = (s', r)) \/
  (exists esrc edst p, q = QArp esrc edst p /\ phtx_arp esrc edst p s = (s', r)).
Proof.
  intros E. destruct q; cbn [send_request] in E.
  - right; right; right. eauto.
  - right; left. exists src, dst, ttl, p. cbn. auto.
  - right; right; left. exists src, dst, hop, p. cbn. auto.
  - unfold phtx_udp, massert in E.
    destruct ((0 <=? sport) && (sport <=? 0xFFFF)); [|injection E as <- <-; auto].
    destruct ((0 <=? dport) && (dport <=? 0xFFFF)); [|injection E as <- <-; auto].
    destruct src as [a|a], dst as [b|b].
    + right; left. exists a, b, 64, (PUdp sport dport data). cbn. auto.
    + left. injection E as <- <-. split; [reflexivity|discriminate].
    + left. injection E as <- <-. split; [reflexivity|discriminate].
    + right; right; left. exists a, b, 64, (PUdp sport dport data). cbn. auto.
  - unfold phtx_tcp, massert in E. destruct (tcp_tx_ok _); [|injection E as <- <-; auto].
    destruct src as [a|a], dst as [b|b].
    + right; left. do 4 eexists. split; [|exact E]. cbn. eauto 6.
    + left. injection E as <- <-. split; [reflexivity|discriminate].
    + left. injection E as <- <-. split; [reflexivity|discriminate].
    + right; right; left. do 4 eexists. split; [|exact E]. cbn. eauto 6.
  - unfold phtx_icmp4, mbind, lift in E. destruct (icmp4_new type code id seq ec_data un_data) as [t|] eqn:N.
    + right; left. exists src, dst, 64, (PIcmp4 t). split; [cbn; eauto 6|exact E].
    + left. injection E as <- <-. auto.
  - unfold phtx_icmp6, mbind, lift in E. destruct (icmp6_new t) as [x|] eqn:N.
    + right; right; left. exists src, dst, hop, (PIcmp6 x). split; [cbn; eauto 6|exact E].
    + left. injection E as <- <-. auto.
Qed.
Lemma asks4_dst q src dst ttl p : asks4 q src dst ttl p -> dst_ok q -> in32 dst.
Proof. destruct q; cbn; try tauto; try (intros (? & ? & ?); subst; auto); destruct src0, dst0; try tauto; intros (? & ? & ?); subst; auto. Qed.
Lemma asks6_dst q src dst ttl p : asks6 q src dst ttl p -> dst_ok q -> in128 dst.
Proof. destruct q; cbn; try tauto; try (intros (? & ? & ?); subst; auto); destruct src0, dst0; try tauto; intros (? & ? & ?); subst; auto. Qed.

(** ** C41: the source *)
Lemma validate_src4_inl a src dst p x : validate_src4 a src dst p = inl x ->
  In x (ip4_unicast a) \/ (x = 0 /\ src = 0 /\ exists data, p = PUdp 68 67 data).
Proof.
  unfold validate_src4. destruct (negb _) eqn:E1; [discriminate|]. apply negb_false_iff in E1.
  destruct (mem src (a_mcast4 a)) eqn:E2.
  { destruct (ip4_unicast a); [discriminate|]. intros E; injection E as <-. left. left; reflexivity. }
  rewrite orb_false_r in E1. unfold ip4_is_limited_broadcast.
  destruct (Z.eqb_spec src 0xFFFFFFFF) as [Eb|Eb].
  { destruct (ip4_unicast a); [discriminate|]. intros E; injection E as <-. left. left; reflexivity. }
  destruct (if mem src (ip4_broadcasts a) then _ else None) as [h|] eqn:Ef.
  { destruct (mem src (ip4_broadcasts a)); [|discriminate]. apply find_some in Ef. destruct Ef as (Ih & _).
    intros E; injection E as <-. left. apply in_map, Ih. }
  unfold ip4_is_unspecified. destruct (Z.eqb_spec src 0) as [->|N]; cbn [negb].
  2:{ intros E; injection E as <-. left. rewrite orb_false_r in E1. apply orb_true_iff in E1.
      destruct E1 as [E1|E1]; [apply mem_In, E1|]. exfalso. rewrite E1 in Ef. apply mem_In in E1.
      unfold ip4_broadcasts in E1. apply in_app_iff in E1. destruct E1 as [E1|[E1|[]]]; [|lia].
      apply in_map_iff in E1. destruct E1 as (h & Eh & Ih). pose proof (find_none _ _ Ef h Ih) as Nf. cbv beta in Nf.
      rewrite Eh, Z.eqb_refl in Nf. discriminate. }
  destruct (pick_by_net 32 (a_host4 a) dst) eqn:E3.
  { intros E; injection E as <-. left. eapply pick_by_net_In; eauto. }
  destruct (pick_by_gw (a_host4 a)) eqn:E4.
  { intros E; injection E as <-. left. eapply pick_by_gw_In; eauto. }
  intros E. right. destruct p as [sp dp data| | | | |]; try discriminate.
  assert (sp = 68 /\ dp = 67 /\ x = 0) as (-> & -> & ->); [|eauto].
  revert E. destruct (Z.eq_dec sp 68) as [->|N1]; [destruct (Z.eq_dec dp 67) as [->|N2]|].
  - intros E; injection E as <-; auto.
  - intros E. exfalso. destruct dp as [|q|q]; try discriminate. do 7 (destruct q as [q|q|]; try discriminate). congruence.
  - intros E. exfalso. destruct sp as [|q|q]; try discriminate. do 7 (destruct q as [q|q|]; try discriminate). congruence.
Qed.

(** addresses as the code keeps them: values in range, none of the unicast ones :: or a
    multicast address *)
Definition wf_addrs (a : addrs) : Prop :=
  gws_ok a /\ plain6 a /\ (forall x, In x (ip6_unicast a) -> in128 x).

(** an IPv4 source, wherever it is *)
Definition src4_ok (a : addrs) (dhcp : Prop) (p : netpkt) : Prop :=
  match p with
  | NIp4 t _ | NIp4Frag t _ => In (t4_src t) (ip4_unicast a) \/ (t4_src t = 0 /\ dhcp)
  | _ => True
  end.
Definition src6_ok (a : addrs) (p : netpkt) : Prop :=
  match p with
  | NIp6 t x => In (t6_src t) (ip6_unicast a) \/ (t6_src t = 0 /\ needs_no_source6 x /\ t6_next t = 58)
  | _ => True
  end.
Definition pkt_ok a dhcp p := src4_ok a dhcp p /\ src6_ok a p.
Lemma arp_request_ok a dhcp x : pkt_ok a dhcp (f_pkt (arp_request a x)). Proof. split; exact I. Qed.
Lemma ns_frames_ok a dhcp x : Forall (fun f => pkt_ok a dhcp (f_pkt f)) (ns_frames a x).
Proof.
  unfold ns_frames. destruct (validate_src6 _ _ _ _) as [src|] eqn:E; [|constructor].
  constructor; [|constructor]. split; [exact I|]. cbn.
  apply validate_src6_inl in E. destruct E as [E|(_ & _ & [] & _)]. left; exact E.
Qed.
Lemma frames_for_ok a dhcp v l : Forall (pkt_ok a dhcp) l ->
  match v with inl _ => True | inr (_, fs) => Forall (fun f => pkt_ok a dhcp (f_pkt f)) fs end ->
  Forall (fun f => pkt_ok a dhcp (f_pkt f)) (frames_for a v l).
Proof.
  intros F V. destruct v as [m|[st fs]]; cbn [frames_for].
  - apply Forall_map. cbn. exact F.
  - clear F. induction l; cbn; [constructor|]. apply Forall_app; auto.
Qed.
Lemma verdict4_ok a dhcp c h : match verdict4 a c h with inl _ => True | inr (_, fs) => Forall (fun f => pkt_ok a dhcp (f_pkt f)) fs end.
Proof. destruct h; cbn; unfold resolve; try destruct (cache_get _ _); auto using arp_request_ok. Qed.
Lemma verdict6_ok a dhcp c h : match verdict6 a c h with inl _ => True | inr (_, fs) => Forall (fun f => pkt_ok a dhcp (f_pkt f)) fs end.
Proof. destruct h; cbn; unfold resolve; try destruct (cache_get _ _); auto using ns_frames_ok. Qed.

Definition dhcp_request (q : request) : Prop :=
  match q with QUdp _ _ 68 67 _ | QIp4 _ _ _ (PUdp 68 67 _) => True | _ => False end.
Lemma asks4_dhcp q src dst ttl data : asks4 q src dst ttl (PUdp 68 67 data) -> dhcp_request q.
Proof.
  destruct q; cbn; try tauto.
  - intros (_ & _ & _ & ->). exact I.
  - destruct src0, dst0; try tauto. intros (_ & _ & _ & E). injection E as <- <- <-. exact I.
  - destruct src0, dst0; try tauto. intros (_ & _ & _ & t & _ & E). discriminate.
  - intros (_ & _ & _ & t & _ & E). discriminate.
Qed.
Lemma frag4_src mtu src dst ttl proto id0 c fs id : 28 <= mtu < 65556 -> ip4_fragment mtu src dst ttl proto id0 c = Ok (fs, id) ->
  forall x, In x fs -> t4_src (fst x) = src /\ t4_dst (fst x) = dst.
Proof.
  intros Hm E x Ix. destruct (ip4_fragment_ok _ _ _ _ _ _ _ _ _ Hm E) as (ps & data & _ & _ & _ & _ & F).
  apply In_nth_error in Ix. destruct Ix as (i & N). destruct x as [t d]. destruct (F _ _ _ N) as (A & B & _). auto.
Qed.

Lemma send_sources s q s' r : wf_addrs (s_addrs s) -> dst_ok q -> send_request q s = (s', r) ->
  exists new, s_out s' = s_out s ++ new /\ s_addrs s' = s_addrs s /\
    Forall (fun f => pkt_ok (s_addrs s) (dhcp_request q) (f_pkt f)) new.
Proof.
  intros (Wg & Wp & Wr) Hd E. destruct (send_request_cases _ _ _ _ E)
    as [(-> & _)|[(src & dst & ttl & p & A & E1)|[(src & dst & hop & p & A & E1)|(esrc & edst & p & -> & E1)]]].
  - exists []. rewrite app_nil_r. auto.
  - destruct (phtx_ip4_cases _ _ _ _ _ _ _ (asks4_dst _ _ _ _ _ A Hd) E1)
      as [(S0 & _)|(src' & h & l & _ & _ & _ & V & _ & P & _ & _ & S1 & _)].
    + exists []. destruct S0; auto.
    + eexists. split; [apply S1|]. split; [apply S1|]. apply frames_for_ok; [|apply verdict4_ok].
      assert (Hs : In src' (ip4_unicast (s_addrs s)) \/ src' = 0 /\ dhcp_request q).
      { destruct (validate_src4_inl _ _ _ _ _ V) as [X|(-> & _ & data & ->)]; [auto|]. right. split; [reflexivity|].
        eapply asks4_dhcp; eauto. }
      destruct P as [(_ & ->)|(_ & fs & Ef & ->)].
      * constructor; [|constructor]. split; [exact Hs|exact I].
      * apply Forall_map, Forall_forall. intros x Ix. split; [|exact I]. cbn.
        destruct (frag4_src TAP_MTU _ _ _ _ _ _ _ _ ltac:(unfold TAP_MTU; lia) Ef x Ix) as (-> & _). exact Hs.
  - destruct (phtx_ip6_cases _ _ _ _ _ _ _ (asks6_dst _ _ _ _ _ A Hd) Wg Wp E1)
      as [(S0 & _)|(src' & l & _ & _ & _ & V & P & _ & Ho & _ & S1 & _)].
    + exists []. destruct S0; auto.
    + eexists. split; [apply S1|]. split; [apply S1|]. apply frames_for_ok; [|apply verdict6_ok].
      destruct P as [(_ & ->)|(Hl & fs & Ef & ->)].
      * constructor; [|constructor]. split; [exact I|]. cbn.
        destruct (validate_src6_inl _ _ _ _ _ V) as [X|(-> & _ & N & _)]; [auto|]. right. split; [reflexivity|]. split; [exact N|].
        destruct p as [| | |t| |]; try contradiction. reflexivity.
      * apply Forall_map, Forall_forall. intros x Ix. split; [exact I|]. cbn. left. destruct Ho as [Ho|Ho]; [exact Ho|lia].
  - unfold phtx_arp, mbind at 1, gets at 1 in E1. destruct (negb (a_sup4 (s_addrs s))).
    { injection E1 as <- <-. exists []. rewrite app_nil_r. auto. }
    unfold massert in E1. destruct (_ || _).
    2:{ injection E1 as <- <-. exists []. rewrite app_nil_r. auto. }
    destruct (negb (mac_is_unspecified edst)).
    2:{ injection E1 as <- <-. exists []. rewrite app_nil_r. auto. }
    cbn in E1. injection E1 as <- <-. eexists. split; [reflexivity|]. split; [reflexivity|].
    constructor; [|constructor]. split; exact I.
Qed.

Lemma netpkt_indep p : indep (netpkt_carried p).
Proof. destruct p; cbn [netpkt_carried]; auto using arp_indep, ip4_indep, ip4_frag_indep, ip6_indep, raw_indep, payload_indep. Qed.
Lemma mac2 a b c d : zlen (mac_bytes a ++ mac_bytes b) = 12 /\ slice 12 14 (mac_bytes a ++ mac_bytes b ++ be_enc 2 c ++ d) = be_enc 2 c /\
  (forall i j, 14 <= i -> slice i j (mac_bytes a ++ mac_bytes b ++ be_enc 2 c ++ d) = slice (i - 14) (j - 14) d).
Proof.
  assert (L : zlen (mac_bytes a ++ mac_bytes b) = 12) by (rewrite zlen_app, !mac_bytes_zlen; reflexivity).
  split; [exact L|]. split.
  - rewrite app_assoc, slice_app_shift by lia. rewrite L. apply slice_app_left. rewrite be_enc_zlen. reflexivity.
  - intros i j H. rewrite app_assoc, slice_app_shift by lia. rewrite L.
    rewrite slice_app_shift by (rewrite be_enc_zlen; lia). rewrite be_enc_zlen. f_equal; lia.
Qed.

Lemma src4_on_wire a dhcp f buf w : pkt_ok a dhcp (f_pkt f) -> zlen buf = frame_len (frame_of f) ->
  frame_asm (frame_of f) buf = Ok w -> slice 12 14 w = [8; 0] ->
  exists x, slice 26 30 w = be_enc 4 x /\ (In x (ip4_unicast a) \/ (x = 0 /\ dhcp)).
Proof.
  intros (H & _) L E T. destruct (frame_wire _ _ _ L (netpkt_indep _) E) as (b & t & Lb & A & ->).
  destruct (mac2 (RingModel.e_dst (frame_of f)) (RingModel.e_src (frame_of f)) (RingModel.e_type (frame_of f)) t) as (_ & M2 & M3).
  rewrite M2 in T. rewrite M3 by lia. change (26 - 14) with 12. change (30 - 14) with 16.
  destruct f as [fd fs p]. cbn [frame_of f_pkt RingModel.e_type e_car] in *.
  destruct p as [x|tx x|tx d|tx x|d]; cbn [netpkt_type] in T; try (vm_compute in T; discriminate); cbn [netpkt_carried src4_ok] in *.
  - exists (t4_src tx). split; [|exact H]. eapply ip4_wire_src; [|exact A]. rewrite Lb. cbn [c_len ip4_carried].
    unfold ip4_len. pose proof (zlen_nonneg (t4_opts tx)). destruct (payload_indep x) as (L0 & _). lia.
  - exists (t4_src tx). split; [|exact H]. eapply ip4_frag_wire_src; exact A.
Qed.

Lemma src6_on_wire a dhcp f buf w : (forall x, In x (ip6_unicast a) -> in128 x) -> pkt_ok a dhcp (f_pkt f) ->
  zlen buf = frame_len (frame_of f) ->
  frame_asm (frame_of f) buf = Ok w -> slice 12 14 w = [0x86; 0xDD] ->
  exists x, slice 22 38 w = be_enc 16 x /\
    (In x (ip6_unicast a) \/
     (x = 0 /\ slice 20 21 w = [58] /\ ((slice 54 55 w = [135] /\ zlen w = 78) \/ slice 54 55 w = [143]))).
Proof.
  intros Hr (_ & H) L E T. pose proof (proj2 (ether_indep _ _ _ _ _ _ (netpkt_indep (f_pkt f)) L L) w E) as Lw.
  destruct (frame_wire _ _ _ L (netpkt_indep _) E) as (b & t & Lb & A & ->).
  destruct (mac2 (RingModel.e_dst (frame_of f)) (RingModel.e_src (frame_of f)) (RingModel.e_type (frame_of f)) t) as (_ & M2 & M3).
  rewrite M2 in T. rewrite !M3 by lia. change (22 - 14) with 8. change (38 - 14) with 24. change (20 - 14) with 6. change (21 - 14) with 7.
  change (54 - 14) with 40. change (55 - 14) with 41.
  destruct f as [fd fs p]. cbn [frame_of f_pkt RingModel.e_type e_car] in *.
  destruct p as [x|tx x|tx d|tx x|d]; cbn [netpkt_type] in T; try (vm_compute in T; discriminate); cbn [netpkt_carried src6_ok] in *.
  destruct (ip6_wire_src _ _ _ _ _ (payload_indep x) Lb A) as (S1 & S2 & bc & q & w' & Lbc & A' & S3).
  exists (t6_src tx). rewrite S1, S2.
  destruct H as [H|(H0 & Hn & H58)].
  - split; [|left; exact H]. apply ip6_bytes_enc. apply Hr, H.
  - rewrite H0. split; [reflexivity|]. right. split; [reflexivity|]. rewrite H58. split; [reflexivity|].
    replace (slice 40 41 t) with (slice 0 1 (slice_from 40 t)) by reflexivity. rewrite S3.
    destruct x as [| | |m| |]; try contradiction. cbn [payload_carried] in *.
    rewrite (icmp6_wire_type _ _ _ _ A').
    destruct m as [|  | | | |tg opts| |]; try contradiction; cbn [needs_no_source6 icmp6_tx_type] in *; [|auto].
    destruct opts; [|contradiction]. left. split; [reflexivity|]. exact Lw.
Qed.
