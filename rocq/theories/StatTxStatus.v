(** The status a request returns and the drop counters. *)
From Verif Require Import Base BaseLemmas CodecModel AddrModel AddrProofs EtherModel Ip4Model Ip6Model UdpModel TcpModel
  Icmp4Model Icmp6Model FragModel FragSendProofs RingModel BufProofs StackModel StackTxProofs StackRouteProofs StackSendProofs
  StatTxModel SpecStatTx StatTxProofs StatTxFrames.

Definition undropped (l : list txc) : Prop := forall c, In c l -> says_dropped c = false.
Lemma und_app l l' : undropped l -> undropped l' -> undropped (l ++ l').
Proof. intros H K c I. apply in_app_or in I. destruct I; auto. Qed.
Lemma agrees_pre st c l : undropped c -> agrees st l -> agrees st (c ++ l).
Proof.
  intros H K. destruct st; cbn in *; try (destruct K as (x & E & I); exists x; split; [exact E|]; apply in_or_app; auto).
  apply und_app; assumption.
Qed.
Lemma agrees_more st c l : st <> PassedToTxRing -> agrees st l -> agrees st (c ++ l).
Proof. intros H K. destruct st; cbn in *; try contradiction; destruct K as (x & E & I); exists x; (split; [exact E|]; apply in_or_app; auto). Qed.
Lemma agrees_fore st c l : st <> PassedToTxRing -> agrees st c -> agrees st (c ++ l).
Proof. intros H K. destruct st; cbn in *; try contradiction; destruct K as (x & E & I); exists x; (split; [exact E|]; apply in_or_app; auto). Qed.
(** a result that is one of [order] and agrees with the counters *)
Definition okst (order : list tx_status) (l : list txc) (r : res tx_status) : Prop :=
  match r with Ok st => In st order /\ agrees st l | Exn _ => True end.
Definition fits (l : list txc) (r : res tx_status) : Prop := match r with Ok st => agrees st l | Exn _ => True end.
Lemma okst_pre o c l r : undropped c -> okst o l r -> okst o (c ++ l) r.
Proof. destruct r; cbn; [|auto]. intros H (I & K). auto using agrees_pre. Qed.
Lemma fits_pre c l r : undropped c -> fits l r -> fits (c ++ l) r.
Proof. destruct r; cbn; [|auto]. auto using agrees_pre. Qed.
Lemma okst_fits o l r : okst o l r -> fits l r. Proof. destruct r; cbn; [intros []|]; auto. Qed.
Ltac und := let c := fresh in let I := fresh in solve [intros c I; cbn in I; repeat (destruct I as [<-|I]; [reflexivity|]); destruct I].
Ltac pres := repeat match goal with
  | |- okst _ _ (Exn _) => exact I
  | |- okst _ (_ ++ _) _ => apply okst_pre; [und|]
  | |- fits (_ ++ _) _ => apply fits_pre; [und|]
  | |- fits _ (Exn _) => exact I
  end.
(** a missed cache entry may have counted anything *)
Ltac sev := cbn; solve [auto 8].
Ltac sent_one := split; [sev|]; cbn; und.
Ltac dropped_one := split; [sev|]; cbn; eexists; split; [reflexivity|]; cbn; auto.

Definition looked (l : list txc) (r : res (option Z)) : Prop := match r with Ok (Some _) => l = [] | _ => True end.
Lemma o_any_arp a e d p : runs a (x_arp e d p) (fun l _ r => fits l r).
Proof.
  unfold x_arp, ether_head, when. destruct (mac_is_unspecified e), (a_oper p =? ARP_OP_REQUEST), (a_oper p =? ARP_OP_REPLY); r; cbn; try und; try exact I;
    eexists; split; try reflexivity; cbn; auto 8.
Qed.
Lemma o_arp_find a ip : runs a (x_arp_find ip) (fun l _ r => looked l r).
Proof.
  unfold x_arp_find, x_arp_request. r; cbn; auto.
  eapply r_bind; [r; eapply r_bind; [apply r_weaken with (Q := fun l _ r => fits l r); [apply o_any_arp|]|..]| |].
  - intros. exact H.
  - intros. r. instantiate (1 := fun _ _ _ => True). exact I.
  - intros. exact I.
  - intros. r. exact I.
  - intros. exact I.
Qed.
Lemma o_ether_ip4 a s d p : runs a (x_ether_ip4 s d p) (fun l _ r => okst severity4 l r).
Proof.
  unfold x_ether_ip4. change (ether_head 0) with (count [ether__pre_assemble; ether__src_unspec__fill]).
  apply r_count, r_count, r_addrs. destruct (ip4_is_multicast d).
  { apply r_count, r_lift; [|intros; pres]. intros. r. sent_one. }
  destruct (ip4_is_limited_broadcast d); [r; sent_one|].
  destruct (existsb _ _); [r; sent_one|].
  destruct (find _ (a_host4 a)) as [h|].
  - destruct (h_gw h) as [g|]; [|r; dropped_one]. eapply r_bind; [apply o_arp_find| |intros; pres].
    intros m l new T. destruct m; r; cbn in T; [subst l; sent_one|].
    split; [sev|]. do 3 (apply agrees_more; [discriminate|]). eexists. split; [reflexivity|]. cbn; auto.
  - eapply r_bind; [apply o_arp_find| |intros; pres].
    intros m l new T. destruct m; r; cbn in T; [subst l; sent_one|].
    split; [sev|]. do 3 (apply agrees_more; [discriminate|]). eexists. split; [reflexivity|]. cbn; auto.
Qed.
Lemma o_ether_ip6 a f s d p : (forall x, runs a (f x) (fun _ _ _ => True)) -> runs a (x_ether_ip6 f s d p) (fun l _ r => okst severity6 l r).
Proof.
  intros F. unfold x_ether_ip6. change (ether_head 0) with (count [ether__pre_assemble; ether__src_unspec__fill]).
  assert (N : forall x, runs a (x_nd_find f x) (fun l _ r => looked l r)).
  { intros x. unfold x_nd_find. r; cbn; auto. eapply r_bind; [apply F|intros; r; exact I|intros; exact I]. }
  apply r_count, r_count, r_addrs. destruct (ip6_is_multicast d).
  { apply r_count, r_lift; [|intros; pres]. intros. r. sent_one. }
  destruct (find _ (a_host6 a)) as [h|].
  - destruct (h_gw h) as [g|]; [|r; dropped_one]. eapply r_bind; [apply N| |intros; pres].
    intros m l new T. destruct m; r; cbn in T; [subst l; sent_one|].
    split; [sev|]. do 3 (apply agrees_more; [discriminate|]). eexists. split; [reflexivity|]. cbn; auto.
  - eapply r_bind; [apply N| |intros; pres].
    intros m l new T. destruct m; r; cbn in T; [subst l; sent_one|].
    split; [sev|]. do 3 (apply agrees_more; [discriminate|]). eexists. split; [reflexivity|]. cbn; auto.
Qed.

(** ** fragments *)
Definition each (o : list tx_status) (l : list txc) (r : res (list tx_status)) : Prop :=
  match r with
  | Ok xs => Forall (fun st => In st o) xs /\
      (forall st, In st xs -> st <> PassedToTxRing -> agrees st l) /\ (Forall (eq PassedToTxRing) xs -> undropped l)
  | Exn _ => True
  end.
Lemma each_cons o c x l1 xs l2 : undropped c -> okst o l1 (Ok x) -> each o l2 (Ok xs) -> each o (c ++ l1 ++ l2) (Ok (x :: xs)).
Proof.
  intros U (I1 & A1) (I2 & A2 & U2). split; [constructor; auto|]. split.
  - intros st [<-|I] N; apply agrees_pre; auto; [apply agrees_fore|apply agrees_more]; auto.
  - intros F. inversion F; subst. apply und_app; [exact U|]. apply und_app; auto.
Qed.
Lemma o_frags4 a s d l : runs a (x_frags4 s d l) (fun l _ r => each severity4 l r).
Proof.
  induction l as [|[t b] l IH]; cbn [x_frags4]; r.
  { split; [constructor|]. split; [intros ? []|]. intros _. und. }
  eapply r_bind; [apply o_ether_ip4| |intros; exact I].
  intros x l1 n1 T1. eapply r_bind; [apply IH| |intros; exact I].
  intros xs l2 n2 T2. r. rewrite app_nil_r. apply each_cons; auto. und.
Qed.
Lemma o_frags6 a f n i l : (forall x, runs a (f (PFrag6 n i x)) (fun l _ r => okst severity6 l r)) ->
  runs a (x_frags6 f n i l) (fun l _ r => each severity6 l r).
Proof.
  intros F. induction l as [|x l IH]; cbn [x_frags6]; r.
  { split; [constructor|]. split; [intros ? []|]. intros _. und. }
  eapply r_bind; [apply F| |intros; exact I].
  intros y l1 n1 T1. eapply r_bind; [apply IH| |intros; exact I].
  intros xs l2 n2 T2. r. rewrite app_nil_r. apply each_cons; auto. und.
Qed.
Lemma tx_status_eqb_eq x y : tx_status_eqb x y = true <-> x = y.
Proof. destruct x, y; cbn; split; congruence. Qed.
Lemma worst_in o d xs : (exists x, In x xs /\ In x o) -> In (worst o d xs) xs.
Proof.
  intros (x & I1 & I2). unfold worst. destruct (find _ o) eqn:F.
  - apply find_some in F. destruct F as (_ & F). apply existsb_exists in F. destruct F as (y & Iy & E). apply tx_status_eqb_eq in E. congruence.
  - apply find_none with (x := x) in F; [|exact I2]. assert (existsb (tx_status_eqb x) xs = true); [|congruence].
    apply existsb_exists. exists x. split; [exact I1|]. apply tx_status_eqb_eq. reflexivity.
Qed.
(** success only if nothing else is there *)
Lemma worst_passed o d xs : Forall (fun st => In st (o ++ [PassedToTxRing])) xs -> ~ In PassedToTxRing o -> d <> PassedToTxRing ->
  worst (o ++ [PassedToTxRing]) d xs = PassedToTxRing -> Forall (eq PassedToTxRing) xs.
Proof.
  intros F N D. unfold worst. induction o as [|y o IH].
  - intros _. eapply Forall_impl; [|exact F]. cbn. intuition.
  - cbn [app find]. destruct (existsb (tx_status_eqb y) xs) eqn:E.
    + intros ->. destruct N. left; reflexivity.
    + apply IH; [|intros X; apply N; right; exact X]. rewrite Forall_forall in *. intros x Ix. destruct (F x Ix) as [<-|X]; [|exact X].
      assert (existsb (tx_status_eqb y) xs = true); [|congruence]. apply existsb_exists. exists y. split; [exact Ix|]. apply tx_status_eqb_eq. reflexivity.
Qed.
Lemma worst_agrees o d xs l : ~ In PassedToTxRing o -> d <> PassedToTxRing -> xs <> [] ->
  each (o ++ [PassedToTxRing]) l (Ok xs) -> agrees (worst (o ++ [PassedToTxRing]) d xs) l.
Proof.
  intros N D X (F & A & U). assert (W : In (worst (o ++ [PassedToTxRing]) d xs) xs).
  { apply worst_in. destruct xs as [|x xs]; [congruence|]. exists x. split; [left; reflexivity|]. inversion F; auto. }
  assert (Dec : worst (o ++ [PassedToTxRing]) d xs = PassedToTxRing \/ worst (o ++ [PassedToTxRing]) d xs <> PassedToTxRing).
  { destruct (worst _ _ _); auto; right; discriminate. }
  destruct Dec as [E|E]; [|apply A; auto]. rewrite E. apply U. eapply worst_passed; eauto.
Qed.
Lemma frags_len4 a s d l : runs a (x_frags4 s d l) (fun _ _ r => match r with Ok xs => length xs = length l | _ => True end).
Proof.
  induction l as [|[t b] l IH]; cbn [x_frags4]; r; [reflexivity|].
  eapply r_bind; [apply o_ether_ip4| |intros; exact I].
  intros x l1 n1 T1. eapply r_bind; [apply IH| |intros; exact I].
  intros xs l2 n2 T2. r. cbn. rewrite T2. reflexivity.
Qed.
Lemma frags_len6 a f n i l : (forall p, runs a (f p) (fun _ _ _ => True)) ->
  runs a (x_frags6 f n i l) (fun _ _ r => match r with Ok xs => length xs = length l | _ => True end).
Proof.
  intros F. induction l as [|x l IH]; cbn [x_frags6]; r; [reflexivity|].
  eapply r_bind; [apply F| |intros; exact I].
  intros y l1 n1 T1. eapply r_bind; [apply IH| |intros; exact I].
  intros xs l2 n2 T2. r. cbn. rewrite T2. reflexivity.
Qed.
Lemma r_and {A} a (t : X A) P Q : runs a t P -> runs a t Q -> runs a t (fun l n r => P l n r /\ Q l n r).
Proof.
  intros H K s l s' r Ea E. destruct (H _ _ _ _ Ea E) as (E1 & n & O & p). destruct (K _ _ _ _ Ea E) as (_ & n' & O' & q).
  split; [exact E1|]. exists n. split; [exact O|]. split; [exact p|]. rewrite O in O'. apply app_inv_head in O'. subst n'. exact q.
Qed.

(** ** sources *)
Lemma src4_status a s d p : match snd (x_src4 a s d p) with
  | inl _ => undropped (fst (x_src4 a s d p)) | inr st => st <> PassedToTxRing /\ agrees st (fst (x_src4 a s d p)) end.
Proof.
  unfold x_src4.
  repeat match goal with |- match snd (if ?b then _ else _) with _ => _ end => destruct b
  | |- match snd (match ?x with _ => _ end) with _ => _ end => destruct x end; cbn [fst snd]; try und; (split; [discriminate|]);
  eexists; (split; [reflexivity|]); cbn; auto.
Qed.
Lemma src6_status a s d p : match snd (x_src6 a s d p) with
  | inl _ => undropped (fst (x_src6 a s d p)) | inr st => st <> PassedToTxRing /\ agrees st (fst (x_src6 a s d p)) end.
Proof.
  unfold x_src6.
  repeat match goal with |- match snd (if ?b then _ else _) with _ => _ end => destruct b
  | |- match snd (match ?x with _ => _ end) with _ => _ end => destruct x end; cbn [fst snd]; try und; (split; [discriminate|]);
  eexists; (split; [reflexivity|]); cbn; auto.
Qed.
Lemma o_ip4 a s d t p : runs a (x_ip4 s d t p) (fun l _ r => fits l r).
Proof.
  unfold x_ip4. apply r_count, r_assert; [intros _|exact I]. apply r_addrs.
  destruct (negb _); [r; cbn; eexists; split; [reflexivity|]; cbn; auto|]. cbv zeta.
  apply r_count. pose proof (src4_status a s d p) as V. revert V. destruct (x_src4 a s d p) as [cs v]. cbn [fst snd]. destruct v as [src|st]; intros V.
  2:{ r. destruct V as (V1 & V2). cbn. apply (agrees_more _ [_]); [exact V1|]. rewrite app_nil_r. exact V2. }
  destruct (ip4_is_unspecified d).
  { r. cbn. eexists. split; [reflexivity|]. cbn. right. apply in_or_app. right. left. reflexivity. }
  apply r_assert; [intros _|exact I]. destruct (_ <=? _) eqn:L.
  - apply r_count. eapply r_weaken; [apply o_ether_ip4|]. intros l n x T. apply fits_pre; [und|]. apply fits_pre; [exact V|]. pres. exact (okst_fits _ _ _ T).
  - apply r_count. r; try exact I.
    eapply r_bind; [apply r_and; [apply o_frags4|apply frags_len4]| |intros; exact I].
    intros xs l2 n2 (T2 & Ln). r. rewrite app_nil_r.
    apply fits_pre; [und|]. apply fits_pre; [exact V|]. pres. cbn [fits].
    assert (xs <> []).
    { intros ->. match goal with H : ip4_fragment _ _ _ _ _ _ _ = Ok _ |- _ => apply two_pieces4 in H; [cbn in Ln; lia|] end.
      unfold ip4_len, TAP_MTU, ip4_whole_tx in L. cbn in L. lia. }
    apply (worst_agrees [EtherResolutionFail; EtherNoGatewayIp4; EtherArpCacheFail; EtherGatewayArpCacheFail]); auto; [|discriminate].
    cbn. intuition discriminate.
Qed.
(** the source of a packet's fragment *)
Lemma frag_src6 a s0 d p s p' st : snd (x_src6 a s0 d p) = inl s -> snd (x_src6 a s d p') = inr st -> st = Ip6SrcUnspecified.
Proof.
  rewrite !x_src6_snd. intros H K. destruct (validate_src6_status _ _ _ _ _ K) as [->|[->| ->]]; [| |reflexivity]; exfalso.
  - destruct (validate_src6_inl _ _ _ _ _ H) as [I|(-> & _)]; unfold validate_src6 in K.
    + rewrite (proj2 (mem_In _ _) I) in K. cbn [orb negb] in K.
      repeat match type of K with context [match ?x with _ => _ end] => destruct x; try discriminate end.
    + rewrite Z.eqb_refl, orb_true_r in K. cbn [orb negb] in K.
      repeat match type of K with context [match ?x with _ => _ end] => destruct x; try discriminate end.
  - assert (U : ip6_unicast a = [] /\ mem s (a_mcast6 a) = true).
    { unfold validate_src6 in K. destruct (negb _); [discriminate|]. destruct (mem s (a_mcast6 a)); [destruct (ip6_unicast a); [auto|discriminate]|].
      repeat match type of K with context [match ?x with _ => _ end] => destruct x; try discriminate end. }
    destruct U as (U & M). destruct (validate_src6_inl _ _ _ _ _ H) as [I|(-> & -> & _)]; [rewrite U in I; destruct I|].
    unfold validate_src6 in H. rewrite U, M, Z.eqb_refl, !orb_true_r in H. cbn in H. discriminate.
Qed.
Lemma o_solicit a fuel t : (forall s d h p, runs a (x_ip6_fuel fuel s d h p) (fun _ _ _ => True)) ->
  runs a (a <$ quiet (gets s_addrs) ;;
        sn <$ quiet (lift (ip6_solicited_node_multicast t)) ;;
        _ <$ count [icmp6__pre_assemble; icmp6__nd_neighbor_solicitation__send] ;;
        _ <$ x_ip6_fuel fuel (ns_source (a_host6 a) t) sn 255 (PIcmp6 (T6Ns t [TSlla (a_mac a)])) ;;
        quiet (ret tt)) (fun _ _ _ => True).
Proof. intros H. r; auto. eapply r_bind; [apply H|intros; r; exact I|auto]. Qed.
(** a fragment *)
Lemma o_frag6 a fuel s d n i x : (forall s d h p, runs a (x_ip6_fuel fuel s d h p) (fun _ _ _ => True)) ->
  a_sup6 a = true -> ip6_is_unspecified d = false ->
  match snd (x_src6 a s d (PFrag6 n i x)) with
  | inl _ => runs a (x_ip6_fuel (S fuel) s d 64 (PFrag6 n i x)) (fun l _ r => okst severity6 l r)
  | inr st => runs a (x_ip6_fuel (S fuel) s d 64 (PFrag6 n i x)) (fun l _ r => match r with Ok st' => st' = st /\ agrees st l | _ => True end)
  end.
Proof.
  intros H Hs Hd. pose proof (src6_status a s d (PFrag6 n i x)) as V. destruct (snd (x_src6 a s d (PFrag6 n i x))) as [src|st] eqn:E; cbn [x_ip6_fuel]; cbv zeta.
  - apply r_count, r_assert; [intros _|exact I]. apply r_addrs. rewrite Hs. cbn [negb]. apply r_count. rewrite E, Hd.
    apply r_assert; [intros _|exact I]. destruct (_ <=? _).
    + apply r_count. eapply r_weaken; [apply o_ether_ip6; intros y; apply o_solicit; exact H|].
      intros l m y T. apply okst_pre; [und|]. apply okst_pre; [exact V|]. pres. exact T.
    + r; try exact I. discriminate.
  - apply r_count, r_assert; [intros _|exact I]. apply r_addrs. rewrite Hs. cbn [negb]. apply r_count. rewrite E. r.
    split; [reflexivity|]. destruct V. apply agrees_more; [assumption|]. rewrite app_nil_r. assumption.
Qed.
Lemma o_frags6' a f n i l st : st <> PassedToTxRing ->
  (forall x, runs a (f (PFrag6 n i x)) (fun l _ r => match r with Ok st' => st' = st /\ agrees st l | _ => True end)) ->
  runs a (x_frags6 f n i l) (fun c _ r => match r with Ok xs => Forall (eq st) xs /\ (xs <> [] -> agrees st c) | _ => True end).
Proof.
  intros N F. induction l as [|x l IH]; cbn [x_frags6]; r.
  { split; [constructor|]. congruence. }
  eapply r_bind; [apply F| |intros; exact I].
  intros y l1 n1 (-> & T1). eapply r_bind; [apply IH| |intros; exact I].
  intros xs l2 n2 (T2 & _). r. split; [constructor; auto|]. intros _. apply agrees_more; [exact N|]. rewrite app_nil_r. apply agrees_fore; auto.
Qed.
Lemma t_frags6 a f n i l : (forall p, runs a (f p) (fun _ _ _ => True)) -> runs a (x_frags6 f n i l) (fun _ _ _ => True).
Proof. intros F. eapply r_weaken; [apply frags_len6; exact F|auto]. Qed.
Lemma t_ip6_fuel a fuel : forall s d h p, runs a (x_ip6_fuel fuel s d h p) (fun _ _ _ => True).
Proof.
  induction fuel as [|fuel IH]; intros s d h p; cbn [x_ip6_fuel]; [r; exact I|]. cbv zeta.
  apply r_count, r_assert; [intros _|exact I]. apply r_addrs. destruct (negb _); [r; exact I|]. apply r_count.
  destruct (snd (x_src6 a s d p)) as [src|st]; [|r; exact I]. destruct (ip6_is_unspecified d); [r; exact I|].
  apply r_assert; [intros _|exact I]. destruct (_ <=? _).
  - apply r_count. eapply r_weaken; [apply o_ether_ip6; intros y; apply o_solicit; exact IH|auto].
  - apply r_count, r_gets. intros id0. apply r_lift; [intros fi _|intros; exact I]. r; try exact I.
    eapply r_bind; [apply t_frags6; apply IH|intros; r; exact I|auto].
Qed.
Lemma o_ip6_fuel a fuel s d h p : runs a (x_ip6_fuel fuel s d h p) (fun l _ r => fits l r).
Proof.
  destruct fuel as [|fuel]; cbn [x_ip6_fuel]; [r; exact I|]. cbv zeta.
  apply r_count, r_assert; [intros _|exact I]. apply r_addrs.
  destruct (a_sup6 a) eqn:Hs; cbn [negb]; [|r; cbn; eexists; split; [reflexivity|]; cbn; auto].
  apply r_count. pose proof (src6_status a s d p) as V. destruct (snd (x_src6 a s d p)) as [src|st] eqn:Ev.
  2:{ r. destruct V as (V1 & V2). cbn [fits]. apply agrees_more; [exact V1|]. rewrite app_nil_r. exact V2. }
  destruct (ip6_is_unspecified d) eqn:Hd.
  { r. cbn. eexists. split; [reflexivity|]. cbn. right. apply in_or_app. right. left. reflexivity. }
  apply r_assert; [intros _|exact I]. destruct (_ <=? _) eqn:L.
  - apply r_count. eapply r_weaken; [apply o_ether_ip6; intros y; apply o_solicit; apply t_ip6_fuel|].
    intros l m y K. apply fits_pre; [und|]. apply fits_pre; [exact V|]. pres. exact (okst_fits _ _ _ K).
  - apply r_count, r_gets. intros id0. apply r_lift; [intros [fs id] Ef|intros; exact I]. cbn [fst snd].
    apply two_pieces6 in Ef; [|unfold TAP_MTU in L; lia]. r; try exact I.
    assert (W : runs a (x_frags6 (x_ip6_fuel fuel src d 64) (payload_next p) id fs) (fun l _ r => match r with Ok xs => agrees (worst severity6 Ip6FragUnknown xs) l | _ => True end)).
    2:{ eapply r_bind; [exact W| |intros; exact I]. intros xs l n K. r. rewrite app_nil_r.
        apply fits_pre; [und|]. apply fits_pre; [exact V|]. pres. exact K. }
    destruct fuel as [|fuel].
    { destruct fs as [|f fs]; [cbn in Ef; lia|]. cbn [x_frags6 x_ip6_fuel]. apply r_count.
      eapply r_bind with (Q := fun _ _ r => match r with Ok _ => False | _ => True end); [apply r_raise; exact I|intros ? ? ? []|intros; exact I]. }
    pose proof (fun x => o_frag6 a fuel src d (payload_next p) id x (t_ip6_fuel a fuel) Hs Hd) as Fr.
    pose proof (fun q st => frag_src6 a s d p src q st Ev) as Un.
    pose proof (fun x => eq_refl : x_src6 a src d (PFrag6 (payload_next p) id x) = x_src6 a src d (PFrag6 (payload_next p) id (0, false, []))) as Sa.
    specialize (Un (PFrag6 (payload_next p) id (0, false, []))).
    destruct (snd (x_src6 a src d (PFrag6 (payload_next p) id (0, false, [])))) as [y|st] eqn:Ey.
    + eapply r_weaken; [apply r_and; [apply o_frags6|apply frags_len6; apply t_ip6_fuel]|].
      { intros x. specialize (Fr x). rewrite (Sa x), Ey in Fr. exact Fr. }
      intros l n [xs|e] (K & Ln); [|exact I].
      apply (worst_agrees [EtherResolutionFail; EtherNoGatewayIp6; EtherNdCacheFail; EtherGatewayNdCacheFail]); auto; [|discriminate|].
      * cbn. intuition discriminate.
      * intros ->. cbn in Ln. lia.
    + specialize (Un st eq_refl). subst st.
      eapply r_weaken; [apply r_and; [apply o_frags6' with (st := Ip6SrcUnspecified); [discriminate|]|apply frags_len6; apply t_ip6_fuel]|].
      { intros x. specialize (Fr x). rewrite (Sa x), Ey in Fr. exact Fr. }
      intros l n [xs|e] (K & Ln); [|exact I]. destruct K as (F & G).
      assert (X : xs <> []) by (intros ->; cbn in Ln; lia).
      assert (worst severity6 Ip6FragUnknown xs = Ip6FragUnknown) as ->; [|exact (G X)].
      clear -F. unfold worst. assert (forall x, x <> Ip6SrcUnspecified -> existsb (tx_status_eqb x) xs = false) as N.
      { intros x Hx. apply Bool.not_true_is_false. intros E. apply existsb_exists in E. destruct E as (y & Iy & E). apply tx_status_eqb_eq in E. subst y.
        rewrite Forall_forall in F. apply Hx. symmetry. apply F. exact Iy. }
      unfold severity6. cbn [find]. rewrite !N by discriminate. reflexivity.
Qed.
Lemma fits_any c l r : (forall st, r = Ok st -> st <> PassedToTxRing) -> fits l r -> fits (c ++ l) r.
Proof. destruct r; cbn; auto. intros N. apply agrees_more. auto. Qed.
Lemma o_request a q : runs a (x_request q) (fun l _ r => fits l r).
Proof.
  destruct q; cbn [x_request]; auto using o_any_arp, o_ip4.
  - apply o_ip6_fuel.
  - unfold x_udp. r; pres; try (eexists; split; [reflexivity|]; cbn; auto; fail);
      (eapply r_weaken; [apply o_ip4 || apply o_ip6_fuel|intros ? ? ? K; pres; exact K]).
  - unfold x_tcp. cbv zeta.
    assert (O : undropped (tcp__pre_assemble :: tcp_opt_counts mss wscale)).
    { unfold tcp_opt_counts. destruct mss as [m|], wscale as [w|]; try destruct (m =? 0); try destruct (w =? 0); cbn; und. }
    assert (F : undropped (when fack tcp__flag_ack ++ when frst tcp__flag_rst ++ when fsyn tcp__flag_syn ++ when ffin tcp__flag_fin)).
    { destruct fack, frst, fsyn, ffin; cbn; und. }
    revert O F. generalize (tcp__pre_assemble :: tcp_opt_counts mss wscale).
    generalize (when fack tcp__flag_ack ++ when frst tcp__flag_rst ++ when fsyn tcp__flag_syn ++ when ffin tcp__flag_fin). intros lf lo O F.
    r; try exact I; try (eapply r_weaken; [apply o_ip4 || apply o_ip6_fuel|intros ? ? ? K;
      repeat (apply fits_pre; [first [exact O | exact F | und]|]); exact K]);
      try (repeat (apply fits_pre; [first [exact O | exact F | und]|]); eexists; split; [reflexivity|]; cbn; auto; fail).
  - unfold x_icmp4. apply r_count, r_lift; [intros t _|intros; exact I]. apply r_count. eapply r_weaken; [apply o_ip4|].
    intros l n x K. assert (C : undropped [icmp4_counter t]) by (destruct t; und). pres. apply fits_pre; assumption.
  - unfold x_icmp6. apply r_count, r_lift; [intros t' _|intros; exact I]. apply r_count. eapply r_weaken; [apply o_ip6_fuel|].
    intros l n x K. assert (C : undropped [icmp6_counter t']) by (destruct t'; und). pres. apply fits_pre; assumption.
Qed.
