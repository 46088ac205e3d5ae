(** What the transmit counters say about source addresses. *)
From Verif Require Import Base BaseLemmas CodecModel AddrModel AddrProofs EtherModel Ip4Model Ip6Model UdpModel TcpModel
  Icmp4Model Icmp6Model FragModel FragSendProofs RingModel BufProofs StackModel StackTxProofs StackRouteProofs StackSendProofs
  StatTxModel SpecStatTx StatTxProofs StatTxFrames StatTxStatus.

Lemma pick_net_some n l d x : pick_by_net n l d = Some x -> exists h, In h l /\ within (h_net h) n d.
Proof.
  induction l as [|h l IH]; cbn; [discriminate|]. destruct (net_contains n (h_net h) d) eqn:E.
  - intros _. exists h. split; [auto|]. apply within_true. exact E.
  - intros H. destruct (IH H) as (h' & Ih & W). exists h'. auto.
Qed.
Lemma pick_net_none n l d : pick_by_net n l d = None -> forall h, In h l -> ~ within (h_net h) n d.
Proof.
  induction l as [|h l IH]; cbn; [intros _ ? []|]. destruct (net_contains n (h_net h) d) eqn:E; [discriminate|].
  intros H h' [<-|Ih]; [apply within_false; exact E|auto].
Qed.
Lemma pick_gw_some l x : pick_by_gw l = Some x -> exists h, In h l /\ h_gw h <> None.
Proof.
  induction l as [|h l IH]; cbn; [discriminate|]. destruct (h_gw h) eqn:E.
  - intros _. exists h. split; [auto|congruence].
  - intros H. destruct (IH H) as (h' & Ih & W). exists h'. auto.
Qed.
Lemma pick_gw_none l : pick_by_gw l = None -> forall h, In h l -> h_gw h = None.
Proof. induction l as [|h l IH]; cbn; [intros _ ? []|]. destruct (h_gw h) eqn:E; [discriminate|]. intros H h' [<-|Ih]; auto. Qed.
Lemma mem_false x l : mem x l = false -> ~ In x l.
Proof. intros E I. apply mem_In in I. congruence. Qed.
Lemma dhcp_dec p : from_dhcp p \/ ~ from_dhcp p.
Proof.
  unfold from_dhcp. destruct p as [sp dp d| | | | |]; try (right; intros (? & E); discriminate).
  destruct (Z.eq_dec sp 68) as [->|N]; [destruct (Z.eq_dec dp 67) as [->|N]|]; [left; eauto| |]; right; intros (? & E); injection E; congruence.
Qed.
Lemma dhcp_match {A} p (x y : A) : ~ from_dhcp p -> match p with PUdp 68 67 _ => x | _ => y end = y.
Proof.
  intros N. destruct p as [sp dp d| | | | |]; try reflexivity.
  destruct sp as [|q|q]; try reflexivity. do 7 (destruct q as [q|q|]; try reflexivity).
  destruct dp as [|q|q]; try reflexivity. do 7 (destruct q as [q|q|]; try reflexivity). destruct N. exists d. reflexivity.
Qed.
Lemma src4_source a s d p : filter about_source (fst (x_src4 a s d p)) = fst (x_src4 a s d p) /\ source4 a s d p (fst (x_src4 a s d p)).
Proof.
  split.
  { unfold x_src4. repeat match goal with |- filter _ (fst (if ?b then _ else _)) = _ => destruct b
    | |- filter _ (fst (match ?x with _ => _ end)) = _ => destruct x end; reflexivity. }
  unfold x_src4. destruct (negb _) eqn:N.
  { apply negb_true_iff in N. apply orb_false_iff in N. destruct N as (N & N4). apply orb_false_iff in N. destruct N as (N & N3).
    apply orb_false_iff in N. destruct N as (N1 & N2). apply mem_false in N1, N2, N3. unfold ip4_broadcasts in N3. cbn [fst].
    apply s4_foreign; auto; [|intros ->; apply N3; apply in_or_app; right; left; reflexivity|lia].
    intros h Ih ->. apply N3. apply in_or_app. left. apply in_map_iff. exists h. auto. }
  apply negb_false_iff in N. destruct (mem s (a_mcast4 a)) eqn:M2.
  { apply mem_In in M2. destruct (ip4_unicast a) eqn:U; unfold ip4_unicast in U; cbn [fst].
    - apply map_eq_nil in U. apply s4_group_none; auto.
    - apply s4_group; auto. intros E. rewrite E in U. discriminate. }
  apply mem_false in M2. unfold ip4_is_limited_broadcast. destruct (Z.eqb_spec s 0xFFFFFFFF) as [Eb|Eb].
  { destruct (ip4_unicast a) eqn:U; unfold ip4_unicast in U; cbn [fst].
    - apply map_eq_nil in U. apply s4_all_none; auto.
    - apply s4_all; auto. intros E. rewrite E in U. discriminate. }
  destruct (if mem s (ip4_broadcasts a) then _ else None) as [h|] eqn:Ef.
  { destruct (mem s (ip4_broadcasts a)); [|discriminate]. apply find_some in Ef. destruct Ef as (Ih & E). apply (s4_net _ _ _ _ h); auto. lia. }
  assert (NB : forall h, In h (a_host4 a) -> s <> ip4_broadcast (h_net h)).
  { intros h Ih E. assert (M : mem s (ip4_broadcasts a) = true).
    { apply mem_In. apply in_or_app. left. apply in_map_iff. exists h. auto. }
    rewrite M in Ef. apply find_none with (x := h) in Ef; [|exact Ih]. lia. }
  unfold ip4_is_unspecified. destruct (Z.eqb_spec s 0) as [E0|E0]; cbn [negb].
  2:{ apply s4_own; auto. rewrite orb_false_r in N. apply orb_true_iff in N. destruct N as [N|N].
      - rewrite orb_false_r in N. apply mem_In in N. exact N.
      - apply mem_In in N. apply in_app_or in N. destruct N as [N|[N|[]]]; [|congruence].
        apply in_map_iff in N. destruct N as (h & E & Ih). destruct (NB h Ih). congruence. }
  destruct (pick_by_net 32 (a_host4 a) d) eqn:P1.
  { apply pick_net_some in P1. destruct P1 as (h & Ih & W). apply (s4_local _ _ _ _ h); auto. }
  pose proof (pick_net_none _ _ _ P1) as NW.
  destruct (pick_by_gw (a_host4 a)) eqn:P2.
  { apply pick_gw_some in P2. destruct P2 as (h & Ih & W). apply (s4_external _ _ _ _ h); auto. }
  pose proof (pick_gw_none _ P2) as NG.
  destruct (dhcp_dec p) as [(data & ->)|D]; cbn [fst]; [apply s4_dhcp; auto; exists data; reflexivity|].
  rewrite (dhcp_match p _ _ D). apply s4_none; auto.
Qed.
Lemma src6_source a s d p : filter about_source (fst (x_src6 a s d p)) = fst (x_src6 a s d p) /\ source6 a s d p (fst (x_src6 a s d p)).
Proof.
  split.
  { unfold x_src6. repeat match goal with |- filter _ (fst (if ?b then _ else _)) = _ => destruct b
    | |- filter _ (fst (match ?x with _ => _ end)) = _ => destruct x end; reflexivity. }
  unfold x_src6. destruct (negb _) eqn:N.
  { apply negb_true_iff in N. apply orb_false_iff in N. destruct N as (N & N3).
    apply orb_false_iff in N. destruct N as (N1 & N2). apply mem_false in N1, N2. cbn [fst].
    apply s6_foreign; auto. lia. }
  apply negb_false_iff in N. destruct (mem s (a_mcast6 a)) eqn:M2.
  { apply mem_In in M2. destruct (ip6_unicast a) eqn:U; unfold ip6_unicast in U; cbn [fst].
    - apply map_eq_nil in U. apply s6_group_none; auto.
    - apply s6_group; auto. intros E. rewrite E in U. discriminate. }
  apply mem_false in M2. unfold ip6_is_unspecified. destruct (Z.eqb_spec s 0) as [E0|E0]; cbn [negb].
  2:{ apply s6_own; auto. rewrite !orb_false_r in N. apply mem_In in N. exact N. }
  destruct (pick_by_net 128 (a_host6 a) d) eqn:P1.
  { apply pick_net_some in P1. destruct P1 as (h & Ih & W). apply (s6_local _ _ _ _ h); auto. }
  pose proof (pick_net_none _ _ _ P1) as NW.
  destruct (pick_by_gw (a_host6 a)) eqn:P2.
  { apply pick_gw_some in P2. destruct P2 as (h & Ih & W). apply (s6_external _ _ _ _ h); auto. }
  pose proof (pick_gw_none _ P2) as NG.
  assert (Y : forall p, sourceless p -> source6 a s d p [ip6__src_unspecified__send]) by (intros; apply s6_dad; auto).
  assert (Z0 : forall p, ~ sourceless p -> source6 a s d p [ip6__src_unspecified__drop]) by (intros; apply s6_none; auto).
  assert (X : forall t, sourceless (PIcmp6 t) -> (exists g, t = T6Ns g []) \/ (exists r, t = T6Mld2 r)).
  { intros t [(g & [= ->])|(g & [= ->])]; eauto. }
  destruct p as [| | |t| |]; cbn [fst]; try (apply Z0; intros [(? & E)|(? & E)]; discriminate).
  destruct t; cbn [fst]; try (apply Z0; intros K; apply X in K; destruct K as [(? & E)|(? & E)]; discriminate).
  - destruct opts; cbn [fst]; [apply Y; left; eauto|]. apply Z0; intros K; apply X in K; destruct K as [(? & E)|(? & E)]; discriminate.
  - apply Y. right; eauto.
Qed.

(** ** the counters of a whole request *)
Definition unsourced (l : list txc) : Prop := filter about_source l = [].
Lemma uns_app l l' : unsourced l -> unsourced l' -> unsourced (l ++ l').
Proof. intros H K. unfold unsourced. rewrite filter_app, H, K. reflexivity. Qed.
Ltac uns := repeat first [assumption | reflexivity | apply uns_app].
Lemma u_arp a e d p : runs a (x_arp e d p) (fun l _ _ => unsourced l).
Proof.
  unfold x_arp, ether_head, when. destruct (mac_is_unspecified e), (a_oper p =? ARP_OP_REQUEST), (a_oper p =? ARP_OP_REPLY); r; uns.
Qed.
Lemma u_arp_find a ip : runs a (x_arp_find ip) (fun l _ _ => unsourced l).
Proof.
  unfold x_arp_find, x_arp_request. r; uns. eapply r_bind with (Q := fun l _ _ => unsourced l); [|intros ? ? ? H; r; uns|auto]. r. eapply r_bind; [apply u_arp| |auto].
  intros ? ? ? H. r; uns.
Qed.
Lemma u_ether_ip4 a s d p : runs a (x_ether_ip4 s d p) (fun l _ _ => unsourced l).
Proof.
  unfold x_ether_ip4. change (ether_head 0) with (count [ether__pre_assemble; ether__src_unspec__fill]).
  r; uns; (eapply r_bind; [apply u_arp_find|intros m l n H; r; uns|intros; uns]).
Qed.
Lemma u_frags4 a s d l : runs a (x_frags4 s d l) (fun l _ _ => unsourced l).
Proof.
  induction l as [|[t b] l IH]; cbn [x_frags4]; r; uns.
  eapply r_bind; [apply u_ether_ip4| |intros; uns]. intros x l1 n1 H1. eapply r_bind; [apply IH| |intros; uns]. intros xs l2 n2 H2. r; uns.
Qed.
Lemma own4 a s d p l l' : unsourced l -> unsourced l' -> source4 a s d p (filter about_source (l ++ fst (x_src4 a s d p) ++ l')).
Proof. intros H K. rewrite !filter_app, H, K, app_nil_r. cbn [app]. destruct (src4_source a s d p) as (-> & S4). exact S4. Qed.
Definition sourced4 a s d p (l : list txc) (r : res tx_status) : Prop :=
  match r with Ok _ => a_sup4 a = true -> source4 a s d p (filter about_source l) | Exn _ => True end.
Lemma u_ip4 a s d t p : runs a (x_ip4 s d t p) (fun l _ r => sourced4 a s d p l r).
Proof.
  unfold x_ip4. apply r_count, r_assert; [intros _|exact I]. apply r_addrs. destruct (a_sup4 a) eqn:Hs; cbn [negb]; [|r; cbn; congruence].
  cbv zeta. apply r_count. destruct (snd (x_src4 a s d p)) as [src|st].
  2:{ r. intros _. apply own4; uns. }
  destruct (ip4_is_unspecified d); [r; intros _; apply own4; uns|]. apply r_assert; [intros _|exact I].
  destruct (_ <=? _).
  - apply r_count. eapply r_weaken; [apply u_ether_ip4|]. intros l n [x|x] H; [|exact I]. intros _. apply own4; uns.
  - r; try exact I. eapply r_bind; [apply u_frags4| |intros; exact I]. intros xs l2 n2 H2. r. intros _. apply own4; uns.
Qed.
(** fragments and solicitations *)
Definition later (a : addrs) (l : list txc) : Prop := exists rest, filter about_source l = concat rest /\
  Forall (fun c => exists s d p, follows p /\ source6 a s d p c) rest.
Lemma later_uns a l : unsourced l -> later a l. Proof. intros H. exists []. split; [exact H|constructor]. Qed.
Lemma later_app a l l' : later a l -> later a l' -> later a (l ++ l').
Proof.
  intros (r1 & E1 & F1) (r2 & E2 & F2). exists (r1 ++ r2). rewrite filter_app, concat_app, E1, E2. split; [reflexivity|]. apply Forall_app; auto.
Qed.
Ltac lat := repeat first [assumption | apply later_uns; solve [uns] | apply later_app].
Definition ok {A} (P : list txc -> Prop) (l : list txc) (r : res A) : Prop := match r with Ok _ => P l | Exn _ => True end.
Lemma u_ether_ip6 a f s d p : (forall x, runs a (f x) (fun l _ r => ok (later a) l r)) -> runs a (x_ether_ip6 f s d p) (fun l _ r => ok (later a) l r).
Proof.
  intros F. unfold x_ether_ip6. change (ether_head 0) with (count [ether__pre_assemble; ether__src_unspec__fill]).
  assert (N : forall x, runs a (x_nd_find f x) (fun l _ r => ok (later a) l r)).
  { intros x. unfold x_nd_find. r; cbn [ok]; lat. eapply r_bind; [apply F| |intros; exact I]. intros ? ? ? H. r. cbn [ok] in *. lat. }
  r; try exact I; cbn [ok]; lat; (eapply r_bind; [apply N|intros m l n H; r; cbn [ok] in *; lat|intros; exact I]).
Qed.
Definition own_rest a s d p (l : list txc) : Prop := exists own rest, filter about_source l = own ++ concat rest /\ source6 a s d p own /\
  Forall (fun c => exists s d p, follows p /\ source6 a s d p c) rest.
Lemma own6 a s d p l l' : unsourced l -> later a l' -> own_rest a s d p (l ++ fst (x_src6 a s d p) ++ l').
Proof.
  intros H (rest & E & F). exists (fst (x_src6 a s d p)), rest. rewrite !filter_app, H, E. cbn [app]. destruct (src6_source a s d p) as (-> & S6). auto.
Qed.
Lemma own_later a s d p l : follows p -> own_rest a s d p l -> later a l.
Proof. intros Fp (own & rest & E & S6 & F). exists (own :: rest). split; [exact E|]. constructor; eauto. Qed.
Lemma u_frags6 a f n i l : (forall x, runs a (f (PFrag6 n i x)) (fun l _ r => ok (later a) l r)) ->
  runs a (x_frags6 f n i l) (fun l _ r => ok (later a) l r).
Proof.
  intros F. induction l as [|x l IH]; cbn [x_frags6]; r; cbn [ok]; lat.
  eapply r_bind; [apply F| |intros; exact I]. intros y l1 n1 H1. eapply r_bind; [apply IH| |intros; exact I]. intros xs l2 n2 H2. r. cbn [ok] in *. lat.
Qed.
Lemma u_ip6_fuel a (Hs : a_sup6 a = true) fuel : forall s d h p, runs a (x_ip6_fuel fuel s d h p) (fun l _ r => ok (own_rest a s d p) l r).
Proof.
  induction fuel as [|fuel IH]; intros s d h p; cbn [x_ip6_fuel]; [r; exact I|]. cbv zeta.
  apply r_count, r_assert; [intros _|exact I]. apply r_addrs. rewrite Hs. cbn [negb]. apply r_count.
  destruct (snd (x_src6 a s d p)) as [src|st]; [|r; apply own6; lat; uns]. destruct (ip6_is_unspecified d); [r; apply own6; lat; uns|].
  apply r_assert; [intros _|exact I]. destruct (_ <=? _).
  - apply r_count. eapply r_weaken; [apply u_ether_ip6|].
    + intros x. r; try exact I. eapply r_bind; [apply IH| |intros; exact I]. intros st l n H0. r. cbn [ok] in *.
      apply own_later in H0; [lat|]. right; eauto.
    + intros l n [x|x] H; [|exact I]. cbn [ok] in *. apply own6; lat; uns.
  - apply r_count, r_gets. intros id0. apply r_lift; [intros [fs id] _|intros; exact I]. r; try exact I.
    eapply r_bind; [apply u_frags6| |intros; exact I].
    + intros x. eapply r_weaken; [apply IH|]. intros l n [y|y] H0; [|exact I]. cbn [ok] in *. eapply own_later; [|exact H0]. left; eauto.
    + intros xs l2 n2 H2. r. cbn [ok] in *. apply own6; lat; uns.
Qed.
Lemma asks4_sources q src dst ttl p a : asks4 q src dst ttl p -> a_sup4 a = true ->
  runs a (x_request q) (fun l _ r => ok (fun l => source4 a src dst p (filter about_source l)) l r).
Proof.
  intros A Hs. assert (K : forall pre s d t x, unsourced pre -> runs a (x_ip4 s d t x) (fun l _ r => ok (fun l => source4 a s d x (filter about_source l)) (pre ++ l) r)).
  { intros. eapply r_weaken; [apply u_ip4|]. intros l n [y|y] H0; [|exact I]. cbn [ok sourced4] in *. rewrite filter_app, H. exact (H0 Hs). }
  destruct q; cbn [asks4] in A; try contradiction; cbn [x_request].
  - destruct A as (-> & -> & -> & ->). apply (K []). reflexivity.
  - destruct src0, dst0; try contradiction. destruct A as (-> & -> & -> & ->). unfold x_udp. r; try exact I. apply (K ([_] ++ [_])). reflexivity.
  - destruct src0, dst0; try contradiction. destruct A as (-> & -> & -> & t & [= <-] & ->). unfold x_tcp. cbv zeta.
    assert (O : unsourced (tcp__pre_assemble :: tcp_opt_counts mss wscale)).
    { unfold tcp_opt_counts. destruct mss as [m|], wscale as [w|]; try destruct (m =? 0); try destruct (w =? 0); reflexivity. }
    assert (F : unsourced (when fack tcp__flag_ack ++ when frst tcp__flag_rst ++ when fsyn tcp__flag_syn ++ when ffin tcp__flag_fin)).
    { destruct fack, frst, fsyn, ffin; reflexivity. }
    revert O F. generalize (tcp__pre_assemble :: tcp_opt_counts mss wscale).
    generalize (when fack tcp__flag_ack ++ when frst tcp__flag_rst ++ when fsyn tcp__flag_syn ++ when ffin tcp__flag_fin). intros lf lo O F.
    r; try exact I. eapply r_weaken; [apply (K (lo ++ lf ++ [tcp__send])); uns|]. cbv beta. intros ? ? ? K0. rewrite <- !app_assoc in K0. exact K0.
  - destruct A as (-> & -> & -> & t & E & ->). unfold x_icmp4. rewrite E. apply r_count, r_lift; [intros t' [= <-]|discriminate].
    apply r_count. apply (K ([_] ++ [_])). destruct t; reflexivity.
Qed.
Lemma asks6_sources q src dst ttl p a : asks6 q src dst ttl p -> a_sup6 a = true ->
  runs a (x_request q) (fun l _ r => ok (own_rest a src dst p) l r).
Proof.
  intros A Hs. assert (K : forall pre s d t x, unsourced pre -> runs a (x_ip6 s d t x) (fun l _ r => ok (own_rest a s d x) (pre ++ l) r)).
  { intros. eapply r_weaken; [apply u_ip6_fuel; exact Hs|]. intros l n [y|y] H0; [|exact I]. cbn [ok] in *. unfold own_rest. rewrite filter_app, H. exact H0. }
  destruct q; cbn [asks6] in A; try contradiction; cbn [x_request].
  - destruct A as (-> & -> & -> & ->). apply (K []). reflexivity.
  - destruct src0, dst0; try contradiction. destruct A as (-> & -> & -> & ->). unfold x_udp. r; try exact I. apply (K ([_] ++ [_])). reflexivity.
  - destruct src0, dst0; try contradiction. destruct A as (-> & -> & -> & t & [= <-] & ->). unfold x_tcp. cbv zeta.
    assert (O : unsourced (tcp__pre_assemble :: tcp_opt_counts mss wscale)).
    { unfold tcp_opt_counts. destruct mss as [m|], wscale as [w|]; try destruct (m =? 0); try destruct (w =? 0); reflexivity. }
    assert (F : unsourced (when fack tcp__flag_ack ++ when frst tcp__flag_rst ++ when fsyn tcp__flag_syn ++ when ffin tcp__flag_fin)).
    { destruct fack, frst, fsyn, ffin; reflexivity. }
    revert O F. generalize (tcp__pre_assemble :: tcp_opt_counts mss wscale).
    generalize (when fack tcp__flag_ack ++ when frst tcp__flag_rst ++ when fsyn tcp__flag_syn ++ when ffin tcp__flag_fin). intros lf lo O F.
    r; try exact I. eapply r_weaken; [apply (K (lo ++ lf ++ [tcp__send])); uns|]. cbv beta. intros ? ? ? K0. rewrite <- !app_assoc in K0. exact K0.
  - destruct A as (-> & -> & -> & t' & E & ->). unfold x_icmp6. rewrite E. apply r_count, r_lift; [intros t'' [= <-]|discriminate].
    apply r_count. apply (K ([_] ++ [_])). destruct t'; reflexivity.
Qed.
