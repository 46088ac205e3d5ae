(** The out of order queue of a TCP session. *)
From Verif Require Import Base BaseLemmas AddrModel TcpModel StackModel StackRxModel SessModel SpecSess SpecSess2 SpecSess3 SessProofs SessTrace SessRun SessInv SessTx SessReset SessKeep SessTick.

Lemma dget_del {A} j k (d : dict A) : dget j (ddel k d) = if k =? j then None else dget j d.
Proof.
  induction d as [|[i v] d IH]; [cbn; destruct (k =? j); reflexivity|]. cbn [ddel filter fst dget]. fold (ddel k d). destruct (i =? k) eqn:E1; cbn [negb dget].
  - rewrite IH. destruct (k =? j) eqn:E2; [reflexivity|]. replace (i =? j) with false by (symmetry; apply Z.eqb_neq; apply Z.eqb_eq in E1; apply Z.eqb_neq in E2; lia). reflexivity.
  - rewrite IH. destruct (i =? j) eqn:E3, (k =? j) eqn:E2; try reflexivity. apply Z.eqb_eq in E3, E2. apply Z.eqb_neq in E1. lia.
Qed.
(** the queue is a dict *)
Definition uniq {A} (d : dict A) : Prop := NoDup (map fst d).
Lemma uniq_get {A} k (v : A) d : uniq d -> In (k, v) d -> dget k d = Some v.
Proof.
  unfold uniq. induction d as [|[j w] d IH]; cbn; [tauto|]. intros U H. apply NoDup_cons_iff in U. destruct U as [U1 U2].
  destruct H as [H|H]; [inversion H; subst; rewrite Z.eqb_refl; reflexivity|].
  destruct (j =? k) eqn:E; [|auto]. apply Z.eqb_eq in E. subst. destruct U1. apply in_map_iff. exists (k, v). auto.
Qed.
Lemma none_get {A} k (d : dict A) : (forall v, ~ In (k, v) d) -> dget k d = None.
Proof. intros H. destruct (dget k d) as [v|] eqn:E; [|reflexivity]. apply dget_in in E. destruct (H v E). Qed.
Lemma get_none {A} k (d : dict A) v : uniq d -> dget k d = None -> ~ In (k, v) d.
Proof. intros U N H. apply (uniq_get _ _ _ U) in H. congruence. Qed.
Lemma uniq_set {A} k (v : A) d : uniq d -> uniq (dset k v d).
Proof.
  unfold uniq. induction d as [|[j w] d IH]; cbn; intros U; [repeat constructor; auto|]. apply NoDup_cons_iff in U. destruct U as [U1 U2].
  destruct (j =? k) eqn:E; cbn; constructor; auto. intros H. apply in_map_iff in H. destruct H as ([i x] & H1 & H2). cbn in H1. subst i.
  apply in_dset in H2. destruct H2 as [H2|H2]; [inversion H2; subst; rewrite Z.eqb_refl in E; discriminate|].
  apply U1, in_map_iff. exists (j, x). auto.
Qed.
Lemma uniq_del {A} k (d : dict A) : uniq d -> uniq (ddel k d).
Proof.
  unfold uniq, ddel. induction d as [|[j w] d IH]; cbn; intros U; [constructor|]. apply NoDup_cons_iff in U. destruct U as [U1 U2].
  destruct (negb (j =? k)); cbn; auto. constructor; auto. intros H. apply U1. apply in_map_iff in H. destruct H as (x & H1 & H2). apply filter_In in H2. apply in_map_iff. exists x. tauto.
Qed.
Lemma in_del {A} j (v : A) k d : In (j, v) (ddel k d) <-> In (j, v) d /\ j <> k.
Proof. unfold ddel. rewrite filter_In. cbn. rewrite negb_true_iff, Z.eqb_neq. tauto. Qed.

Definition ooo_uniq (s : sess) : Prop := uniq (ooo s).
Lemma uniq_step strict e a b : pstep strict e a b -> ooo_uniq a -> ooo_uniq b.
Proof.
  unfold ooo_uniq. intros S; destruct S; intros U; try exact U; try (rewrite rewind_eq; exact U).
  - destruct H as [[_ ->]|(_ & _ & ->)]; [exact U|]. apply uniq_del, U.
  - destruct H as [[_ ->]|(_ & _ & ->)]; [exact U|]. cbn [ooo acked set_ooo]. apply uniq_del, U.
  - apply uniq_set, U.
Qed.

(** an invariant of the steps that does not mind writes and reads *)
Lemma sess_reach strict iss (allowed : op -> conn -> Prop) (I : sess -> Prop) c0 c : allowed_ok strict iss allowed ->
  (forall e a b, pstep strict e a b -> I a -> I b) -> (forall s d, I s -> I (set_tx_buf d s)) -> (forall s b v, I s -> I (set_rx_buf b (set_ev_rx v s))) ->
  opened iss c0 -> I (c_sess c0) -> reach allowed c0 c -> I (c_sess c).
Proof.
  intros AO SI WI RI O I0 R. induction R as [|c o R IH A]; [exact I0|].
  pose proof (reach_good strict iss allowed c0 c O AO R) as G. pose proof (op_moves strict iss o c G (fun S => AO _ _ A S)) as M.
  assert (SS : forall e a b, steps strict e a b -> I a -> I b) by (intros e a b; induction 1; eauto).
  destruct o; cbn [moves] in M.
  1-3: destruct M as ((e & _ & S) & _); eapply SS; eauto.
  - destruct M as [->|(_ & -> & _)]; auto.
  - destruct M as (_ & b & v & d & -> & _). auto.
Qed.

(** * A segment in order takes along what continues it *)
Lemma flags_is_ack q : flags_of q = (false, true, false, false) -> is_ack q = true.
Proof. unfold flags_of, is_ack. intros H. injection H as -> -> -> ->. reflexivity. Qed.
Lemma flags_b2z q : flags_of q = (false, true, false, false) -> b2z (d_syn q) = 0 /\ b2z (d_fin q) = 0.
Proof. unfold flags_of. intros H. injection H as H1 H2 H3 H4. rewrite H1, H3. split; reflexivity. Qed.
Lemma zlen_pos (d : bytes) : d <> [] -> 0 < zlen d.
Proof. intros H. destruct d; [congruence|]. rewrite zlen_cons. pose proof (zlen_nonneg d). lia. Qed.
Lemma in_line_del k d l : forall a n, k < n -> in_line a n l d -> in_line a n l (ddel k d).
Proof.
  induction l as [|q l IH]; cbn [in_line]; intros a n K H; [intros q Q; apply in_del in Q; exact (H q (proj1 Q))|].
  destruct H as (H1 & H2 & H3 & H4). split; [apply in_del; split; [exact H1|lia]|]. split; [exact H2|]. split; [exact H3|].
  apply IH; [|exact H4]. destruct H2 as (_ & N & _). apply zlen_pos in N. lia.
Qed.
(** the segments of the line start one after the other *)
Lemma in_line_seq d l : forall a n, (forall k q, In (k, q) d -> k = d_seq q) -> in_line a n l d -> forall q, In q l -> n <= d_seq q /\ In (d_seq q, q) d.
Proof.
  induction l as [|x l IH]; cbn [in_line]; intros a n K H q Q; [destruct Q|]. destruct H as (H1 & (_ & N & _) & _ & H4). apply zlen_pos in N. destruct Q as [<-|Q].
  - pose proof (K _ _ H1). subst n. split; [lia|exact H1].
  - destruct (IH _ _ K H4 q Q). split; [lia|auto].
Qed.
Definition last_ack (a : Z) (l : list tmd) : Z := fold_left (fun _ q => d_ackn q) l a.
Lemma bytes_cons p l : bytes_of (p :: l) = d_data p ++ bytes_of l. Proof. reflexivity. Qed.
Lemma step_in p s fuel : st s = ESTABLISHED -> plain p -> fits p s = true ->
  fsm (S fuel) (EPacket p) s = process_ack (fun q => fsm fuel (EPacket q)) p s.
Proof.
  intros E (FL & N & L) F. cbn [fsm]. rewrite E. cbn [fsm_established]. rewrite (flags_is_ack _ FL). unfold pif, pwhen, pif. pose proof F as F0. apply fits_iff in F0. destruct F0 as [NX AK].
  assert (ND : no_data p = false) by (destruct (no_data p) eqn:Q; [apply no_data_iff in Q; contradiction|reflexivity]).
  rewrite F, ND, andb_false_r. replace (rcv_nxt s <? d_seq p) with false by (symmetry; apply Z.ltb_ge; lia). cbn [andb].
  replace ((rcv_nxt s <=? d_seq p) && (d_seq p <=? rcv_nxt s + RCV_WND - zlen (d_data p))) with true; [reflexivity|].
  symmetry. apply andb_true_iff. rewrite !Z.leb_le. unfold RCV_WND. lia.
Qed.
Lemma drain l : forall fuel p s, (length (ooo s) < fuel)%nat -> st s = ESTABLISHED -> ooo_ok s -> ooo_uniq s -> plain p -> fits p s = true -> 0 <= ev_rx s ->
  in_line (d_ackn p) (rcv_nxt s + zlen (d_data p)) l (ooo s) -> (forall q, In q l -> d_ackn q <= snd_max s) ->
  exists s', fsm fuel (EPacket p) s = (s', Ok tt) /\ st s' = ESTABLISHED /\ rcv_nxt s' = rcv_nxt s + zlen (bytes_of (p :: l)) /\
    rx_buf s' = rx_buf s ++ bytes_of (p :: l) /\ 0 < ev_rx s' /\ snd_una s' = last_ack (d_ackn p) l /\ snd_max s' = snd_max s /\ sent s' = sent s /\
    (forall k q, In (k, q) (ooo s') <-> In (k, q) (ooo s) /\ ~ In q l) /\ ooo_ok s' /\ ooo_uniq s' /\ closing s' = closing s /\
    (snd_nxt s <= snd_max s -> snd_nxt s' <= snd_max s') /\ (forall k v, In (k, v) (rx_req s') -> In (k, v) (rx_req s) /\ rcv_nxt s' <= k) /\
    s_lport s' = s_lport s /\ s_rport s' = s_rport s.
Proof.
  induction l as [|q l IH]; intros fuel p s FU E OK UQ PL FI EV IL MX.
  - destruct fuel as [|fuel]; [lia|]. rewrite (step_in p s fuel E PL FI). rewrite process_eq. cbv zeta.
    destruct PL as (FL & N & L). destruct (flags_b2z _ FL) as [Z1 Z2]. apply fits_iff in FI. destruct FI as [NX AK].
    change (ooo (acked p s)) with (ooo s). replace (rcv_nxt (acked p s)) with (rcv_nxt s + zlen (d_data p)) by (sx; lia).
    cbn [in_line] in IL. rewrite (none_get _ _ IL). exists (acked p s).
    assert (ND : no_data p = false) by (destruct (no_data p) eqn:Q; [apply no_data_iff in Q; contradiction|reflexivity]).
    split; [reflexivity|]. sx. unfold bytes_of. cbn [map concat]. rewrite app_nil_r. rewrite ND. cbn [last_ack fold_left].
    do 1 (split; [exact E|]). split; [lia|]. split; [reflexivity|]. split; [destruct (ev_rx s =? 0) eqn:Q; [|apply Z.eqb_neq in Q]; lia|].
    split; [unfold last_ack; cbn [fold_left]; lia|]. do 2 (split; [reflexivity|]). split; [intros k x; cbn; tauto|]. split; [exact OK|split; [exact UQ|split; [reflexivity|]]].
    split; [destruct ((snd_nxt s <? Z.max (snd_una s) (d_ackn p)) && (Z.max (snd_una s) (d_ackn p) <=? snd_max s)) eqn:Q; [apply andb_true_iff in Q; rewrite Z.ltb_lt, Z.leb_le in Q; lia|auto]|].
    split; [|split; reflexivity]. intros k v X. apply in_dpurge in X. cbn [fst] in X. split; [tauto|lia].
  - destruct fuel as [|fuel]; [lia|]. rewrite (step_in p s fuel E PL FI). rewrite process_eq. cbv zeta.
    pose proof PL as (FL & N & L). destruct (flags_b2z _ FL) as [Z1 Z2]. pose proof FI as F0. apply fits_iff in F0. destruct F0 as [NX AK].
    change (ooo (acked p s)) with (ooo s). replace (rcv_nxt (acked p s)) with (rcv_nxt s + zlen (d_data p)) by (sx; lia).
    pose proof IL as IL0. cbn [in_line] in IL. destruct IL as (IQ & PQ & AQ & IL). rewrite (uniq_get _ _ _ UQ IQ).
    set (n := rcv_nxt s + zlen (d_data p)) in *. set (s1 := set_ooo (ddel n (ooo s)) (acked p s)).
    assert (SQ : n = d_seq q) by (exact (proj1 (OK _ _ IQ))).
    assert (NP : 0 < zlen (d_data q)) by (apply zlen_pos, PQ).
    destruct (IH fuel q s1) as (s' & H1 & H2 & H3 & H4 & H5 & H6 & H7 & H8 & H9 & H10 & H11 & H12 & H13 & H14 & H15 & H16).
    + change (ooo s1) with (ddel n (ooo s)). pose proof (ddel_shorter _ _ _ IQ). lia.
    + exact E.
    + intros k x X. apply in_ddel in X. exact (OK k x X).
    + apply uniq_del, UQ.
    + exact PQ.
    + apply fits_iff. split; [unfold s1; sx; unfold n in *; lia|]. unfold s1; sx. pose proof (MX q (or_introl eq_refl)). lia.
    + unfold s1; sx. destruct (no_data p), (ev_rx s =? 0); lia.
    + change (ooo s1) with (ddel n (ooo s)). replace (rcv_nxt s1) with n by (unfold s1, n; sx; lia). apply in_line_del; [lia|exact IL].
    + intros x X. change (snd_max s1) with (snd_max s). apply MX. right. exact X.
    + exists s'. split; [exact H1|]. split; [exact H2|]. change (rx_buf s1) with (rx_buf s ++ d_data p) in H4. change (snd_max s1) with (snd_max s) in H7. change (sent s1) with (sent s) in H8.
      replace (rcv_nxt s1) with n in H3 by (unfold s1, n; sx; lia).
      split; [rewrite H3, !bytes_cons, !zlen_app; unfold n; lia|]. split; [rewrite H4, !bytes_cons, <- !app_assoc; reflexivity|]. split; [exact H5|]. split; [exact H6|]. split; [exact H7|]. split; [exact H8|].
      split; [|split; [exact H10|split; [exact H11|split; [exact H12|]]]].
      2: { split; [intros X; apply H13; unfold s1; sx; destruct ((snd_nxt s <? Z.max (snd_una s) (d_ackn p)) && (Z.max (snd_una s) (d_ackn p) <=? snd_max s)) eqn:Q; [apply andb_true_iff in Q; rewrite Z.ltb_lt, Z.leb_le in Q; lia|auto]|].
           split; [|split; [exact H15|exact H16]]. intros k v X. apply H14 in X. destruct X as [X1 X2]. unfold s1 in X1; sx. apply in_dpurge in X1. tauto. }
      intros k x. rewrite H9. change (ooo s1) with (ddel n (ooo s)). rewrite in_del. cbn [In]. split.
      * intros ((X1 & X2) & X3). split; [exact X1|]. intros [<-|X4]; [|contradiction]. apply X2. rewrite SQ. exact (proj1 (OK _ _ X1)).
      * intros (X1 & X2). split; [|tauto]. split; [exact X1|]. intros ->. pose proof (uniq_get _ _ _ UQ X1). pose proof (uniq_get _ _ _ UQ IQ). apply X2. left. congruence.
Qed.

(** * Of reachable connections *)
Lemma uniq_reach iss (allowed : op -> conn -> Prop) c0 c : allowed_ok true iss allowed -> opened iss c0 -> reach allowed c0 c -> ooo_uniq (c_sess c).
Proof.
  intros AO O R. eapply (sess_reach true iss allowed ooo_uniq c0 c AO); auto.
  - intros e a b. apply uniq_step.
  - destruct O as (_ & call & lip & lport & rip & rport & timers & K & N & ->). destruct K as [-> | ->]; constructor.
Qed.
(** the requests for retransmission are of the past and the present *)
Definition req_inv (s : sess) : Prop := (In (st s) [LISTEN; SYN_SENT; SYN_RCVD] -> rx_req s = []) /\ forall k v, In (k, v) (rx_req s) -> k <= rcv_nxt s.
Lemma req_step e a b : pstep true e a b -> pre0 a -> req_inv a -> req_inv b.
Proof.
  unfold req_inv. intros S P. destruct S; intros [R1 R2]; try exact (conj R1 R2); try (rewrite rewind_eq; exact (conj R1 R2)).
  - split; [intros X; sx; destruct H as [E|E]; rewrite E in X; cbn in X; intuition discriminate|]. intros k v X. sx. destruct (H0 k v X) as [Y| ->]; [eauto|lia].
  - split; [|exact R2]. intros X. sx. apply R1. destruct n; cbn in X; try (exfalso; intuition discriminate).
    destruct H as (-> & _). cbn; auto.
  - split; [intros X; cbn in X; intuition discriminate|exact R2].
  - sx. rewrite R1 by (rewrite H0; cbn; auto). split; [reflexivity|intros k v []].
  - sx. rewrite R1 by (rewrite H0; cbn; auto). split; [reflexivity|intros k v []].
  - destruct H as [[_ ->]|(_ & _ & ->)]; exact (conj R1 R2).
  - pose proof (origin_pre0 _ _ _ _ H P) as P1. destruct P1 as (P1 & P2 & _). assert (E : rx_req s = rx_req s0 /\ rcv_nxt s = rcv_nxt s0 /\ st s = st s0) by (destruct H as [[_ ->]|(_ & _ & ->)]; auto).
    destruct E as (E1 & E2 & E3). apply takes_ack in H0; [|lia]. sx. rewrite E1. split.
    + intros X. rewrite R1 by (rewrite <- E3; exact X). reflexivity.
    + intros k v X. apply in_dpurge in X. destruct X as [X _]. apply R2 in X. pose proof (zlen_nonneg (d_data p)). pose proof (b2z_pos (d_syn p)). pose proof (b2z_pos (d_fin p)). lia.
Qed.
Lemma req_reach iss c0 c : opened iss c0 -> reach (sane_op iss) c0 c -> req_inv (c_sess c).
Proof.
  intros O R. cut (pre0 (c_sess c) /\ req_inv (c_sess c)); [tauto|]. split; [exact (proj1 (proj1 (reach_good true iss _ _ _ O (sane_ok iss) R)))|].
  apply (reach_ind_moves true iss (sane_op iss) c0 (fun c => req_inv (c_sess c)) O (sane_ok iss)); [| |exact R].
  - destruct O as (_ & call & lip & lport & rip & rport & timers & K & N & ->). destruct K as [-> | ->]; split; auto; intros k v [].
  - intros o x x' _ G _ I M. destruct o; cbn [moves] in M.
    1-3: destruct M as ((e & _ & S) & _); destruct G as [G _]; revert G I; generalize (zlen (c_written x)); induction S as [|a b y S SS IH]; intros n G I; [exact I|]; apply (IH n); [exact (pre_step _ _ _ _ _ S G)|exact (req_step _ _ _ S (proj1 G) I)].
    + destruct M as [->|(_ & -> & _)]; exact I.
    + destruct M as (_ & b & v & d & -> & _). exact I.
Qed.

Lemma drain_reach iss c0 c p l : opened iss c0 -> reach (sane_op iss) c0 c -> st (c_sess c) = ESTABLISHED -> plain p ->
  d_seq p = rcv_nxt (c_sess c) -> snd_una (c_sess c) <= d_ackn p <= snd_max (c_sess c) ->
  in_line (d_ackn p) (rcv_nxt (c_sess c) + zlen (d_data p)) l (ooo (c_sess c)) ->
  let s := c_sess c in let c' := fst (op_do (OSegment p) c) in let s' := c_sess c' in
  snd (op_do (OSegment p) c) = Ok tt /\ st s' = ESTABLISHED /\ rcv_nxt s' = rcv_nxt s + zlen (bytes_of (p :: l)) /\
  received c' = received c ++ bytes_of (p :: l) /\ 0 < ev_rx s' /\ snd_una s' = last_ack (d_ackn p) l /\ sent s' = sent s /\
  (forall k q, In (k, q) (ooo s') <-> In (k, q) (ooo s) /\ ~ In q l) /\ (forall v, ~ In (rcv_nxt s', v) (rx_req s')).
Proof.
  intros O R E PL SQ AK IL. pose proof (reach_good true iss _ _ _ O (sane_ok iss) R) as [[P0 PS] I]. destruct (PS eq_refl) as [_ SH].
  unfold shape in SH. rewrite E in SH. destruct SH as (_ & _ & _ & _ & _ & _ & MX).
  destruct P0 as (P1 & P2 & P3 & _).
  destruct (drain l (S (length (ooo (c_sess c)))) p (c_sess c)) as (s' & H1' & H2' & H3' & H4' & H5' & H6' & H7' & H8' & H9' & H10' & H11' & H12' & H13' & H14' & H15'); auto.
  - exact (uniq_reach _ _ _ _ (sane_ok iss) O R).
  - apply fits_iff. auto.
  - exact (ev_reach iss c0 c O R).
  - intros q Q. destruct (in_line_seq _ _ _ _ (fun k x X => proj1 (P3 k x X)) IL q Q) as [_ X]. eapply MX; eauto.
  - cbv zeta. cbn [op_do]. unfold tcp_fsm. rewrite H1'. cbn [with_sess fst snd c_sess]. unfold received. cbn [c_read c_sess]. rewrite H4', app_assoc.
    do 4 (split; [first [reflexivity|assumption]|]). split; [exact H5'|]. split; [exact H6'|]. split; [exact H8'|]. split; [exact H9'|].
    intros v X. apply H14' in X. destruct X as [X _]. apply (proj2 (req_reach iss c0 c O R)) in X. rewrite H3', bytes_cons, zlen_app in X.
    destruct PL as (_ & N & _). apply zlen_pos in N. pose proof (zlen_nonneg (bytes_of l)). lia.
Qed.

(** * A segment out of order is kept *)
Lemma store_fields p s : snd_nxt s <= snd_max s -> let s' := fst (store_ooo p s) in
  st s' = st s /\ rcv_nxt s' = rcv_nxt s /\ rx_buf s' = rx_buf s /\ snd_una s' = snd_una s /\ snd_max s' = snd_max s /\ snd_nxt s' = snd_nxt s /\
  ooo s' = dset (d_seq p) p (ooo s) /\ ev_rx s' = ev_rx s.
Proof.
  intros L. cbv zeta. unfold store_ooo. rewrite !pbind_do. unfold pwhen, pif. destruct (_ <=? 2); [|repeat split].
  unfold transmit_ack. rewrite transmit_eq. cbn [seq_of]. destruct (tcp_tx_ok _); cbn [fst]; [|repeat split]. sx. cbn [b2z]. change (zlen (@nil Z)) with 0. repeat split; lia.
Qed.
Lemma store_in p s fuel : st s = ESTABLISHED -> plain p -> rcv_nxt s < d_seq p -> d_seq p + zlen (d_data p) <= rcv_nxt s + 65535 -> snd_una s <= d_ackn p <= snd_max s ->
  fsm (S fuel) (EPacket p) s = store_ooo p s.
Proof.
  intros E (FL & N & L) SQ W AK. cbn [fsm]. rewrite E. cbn [fsm_established]. rewrite (flags_is_ack _ FL). unfold pif, pwhen, pif.
  replace ((rcv_nxt s <=? d_seq p) && (d_seq p <=? rcv_nxt s + RCV_WND - zlen (d_data p))) with true by (symmetry; apply andb_true_iff; rewrite !Z.leb_le; unfold RCV_WND; lia).
  cbn [negb]. replace (next_in p s) with false by (symmetry; apply Z.eqb_neq; lia). cbn [andb]. replace (rcv_nxt s <? d_seq p) with true by (symmetry; apply Z.ltb_lt; lia).
  replace (ack_ok p s) with true by (symmetry; apply ack_ok_iff; lia). reflexivity.
Qed.
Lemma old_in p s fuel : st s = ESTABLISHED -> d_seq p < rcv_nxt s -> fsm (S fuel) (EPacket p) s = (s, Ok tt).
Proof.
  intros E SQ. cbn [fsm]. rewrite E. cbn [fsm_established]. unfold pif at 1. replace (rcv_nxt s <=? d_seq p) with false by (symmetry; apply Z.leb_gt; lia). reflexivity.
Qed.

(** * The order of arrival does not matter *)
Lemma cut_app a l1 : forall n l2, cut a n (l1 ++ l2) -> cut a n l1 /\ cut a (n + zlen (bytes_of l1)) l2.
Proof.
  induction l1 as [|q l1 IH]; intros n l2 H; cbn [app cut] in *; [split; [exact Logic.I|replace (n + zlen (bytes_of [])) with n by (cbn; lia); exact H]|].
  destruct H as (H1 & H2 & H3 & H4). destruct (IH _ _ H4) as [H5 H6]. split; [tauto|]. rewrite bytes_cons, zlen_app, Z.add_assoc. exact H6.
Qed.
Lemma cut_in a l : forall n, cut a n l -> forall q, In q l -> plain q /\ n <= d_seq q /\ d_seq q + zlen (d_data q) <= n + zlen (bytes_of l) /\ d_ackn q = a.
Proof.
  induction l as [|x l IH]; intros n H q Q; [destruct Q|]. cbn [cut] in H. destruct H as (H1 & H2 & H3 & H4). pose proof H1 as (_ & N & _). apply zlen_pos in N.
  rewrite bytes_cons, zlen_app. pose proof (zlen_nonneg (bytes_of l)). destruct Q as [<-|Q]; [split; [exact H1|lia]|]. destruct (IH _ H4 q Q) as (X1 & X2 & X3 & X4). split; [exact X1|lia].
Qed.
Lemma line_exists a m : forall n d, cut a n m -> uniq d -> (forall k q, In (k, q) d -> k = d_seq q /\ (In q m \/ k < n)) ->
  exists m1 m2, m = m1 ++ m2 /\ in_line a n m1 d.
Proof.
  induction m as [|y m IH]; intros n d C U K.
  - exists [], []. split; [reflexivity|]. cbn [in_line]. intros q Q. destruct (K _ _ Q) as [_ [[]|X]]. lia.
  - cbn [cut] in C. destruct C as (C1 & C2 & C3 & C4). pose proof C1 as (_ & N & _). apply zlen_pos in N. destruct (dget n d) as [q|] eqn:G.
    + apply dget_in in G. destruct (K _ _ G) as [K1 [K2|K2]]; [|lia]. assert (q = y) as -> by (destruct K2 as [K2|K2]; [auto|]; destruct (cut_in _ _ _ C4 q K2) as (_ & X & _); lia).
      destruct (IH (n + zlen (d_data y)) d C4 U) as (m1 & m2 & E & L).
      * intros k x X. destruct (K _ _ X) as [X1 [[<-|X2]|X2]]; split; auto; right; lia.
      * exists (y :: m1), m2. split; [cbn; congruence|]. cbn [in_line]. split; [exact G|]. split; [exact C1|]. split; [lia|]. rewrite C3. exact L.
    + exists [], (y :: m). split; [reflexivity|]. cbn [in_line]. intros q Q. exact (get_none _ _ _ U G Q).
Qed.
Lemma line_end d l : forall a n, in_line a n l d -> forall q, ~ In (n + zlen (bytes_of l), q) d.
Proof.
  induction l as [|x l IH]; intros a n H; cbn [in_line] in H; [replace (n + zlen (bytes_of [])) with n by (cbn; lia); exact H|].
  rewrite bytes_cons, zlen_app, Z.add_assoc. eapply IH. apply H.
Qed.
Lemma last_same a l : (forall q, In q l -> d_ackn q = a) -> last_ack a l = a.
Proof.
  unfold last_ack. induction l as [|q l IH]; intros H; [reflexivity|]. cbn [fold_left]. rewrite (H q (or_introl eq_refl)). apply IH. intros x X. apply H. right. exact X.
Qed.
Definition filling (a n : Z) (l : list tmd) (rx : bytes) (arrived : list tmd) (s : sess) : Prop :=
  exists l1 l2, l = l1 ++ l2 /\ st s = ESTABLISHED /\ rcv_nxt s = n + zlen (bytes_of l1) /\ rx_buf s = rx ++ bytes_of l1 /\ snd_una s <= a <= snd_max s /\ snd_nxt s <= snd_max s /\
    ooo_ok s /\ ooo_uniq s /\ 0 <= ev_rx s /\ (forall k q, In (k, q) (ooo s) -> In q l2) /\ (forall q, ~ In (rcv_nxt s, q) (ooo s)) /\
    (forall q, In q arrived -> In q l1 \/ In (d_seq q, q) (ooo s)).
Lemma filling_step a n l rx arrived p s : cut a n l -> zlen (bytes_of l) <= 65535 -> In p l -> filling a n l rx arrived s -> filling a n l rx (p :: arrived) (fst (tcp_fsm (EPacket p) s)).
Proof.
  intros C T IP (l1 & l2 & El & E & NX & RX & AK & NM & OK & UQ & EV & Q2 & QN & AR). unfold tcp_fsm.
  pose proof C as C0. rewrite El in C0. apply cut_app in C0. destruct C0 as [C1 C2]. rewrite <- NX in C2.
  assert (TT : zlen (bytes_of l1) + zlen (bytes_of l2) <= 65535) by (rewrite El in T; unfold bytes_of in *; rewrite map_app, concat_app, zlen_app in T; lia).
  pose proof (zlen_nonneg (bytes_of l1)) as Z1. pose proof (zlen_nonneg (bytes_of l2)) as Z2.
  rewrite El in IP. apply in_app_iff in IP. destruct IP as [IP|IP].
  - destruct (cut_in _ _ _ C1 p IP) as ((_ & N & _) & _ & X & _). apply zlen_pos in N. rewrite old_in by (auto; lia). cbn [fst].
    exists l1, l2. do 11 (split; [assumption|]). intros q [<-|Q]; auto.
  - destruct (cut_in _ _ _ C2 p IP) as (PL & X1 & X2 & X3). destruct (Z.eq_dec (d_seq p) (rcv_nxt s)) as [SQ|SQ].
    + destruct l2 as [|x m]; [destruct IP|]. cbn [cut] in C2. destruct C2 as (D1 & D2 & D3 & D4). pose proof D1 as (_ & N & _). apply zlen_pos in N.
      assert (x = p) as -> by (destruct IP as [IP|IP]; [exact IP|]; destruct (cut_in _ _ _ D4 p IP) as (_ & X & _); lia).
      destruct (line_exists a m (rcv_nxt s + zlen (d_data p)) (ooo s) D4 UQ) as (m1 & m2 & Em & IL).
      { intros k q Q. split; [exact (proj1 (OK _ _ Q))|]. destruct (Q2 _ _ Q) as [<-|Y]; [|auto]. right. rewrite (proj1 (OK _ _ Q)). lia. }
      assert (A1 : forall q, In q m1 -> d_ackn q = a) by (intros q Q; destruct (cut_in _ _ _ D4 q) as (_ & _ & _ & Y); [rewrite Em; apply in_app_iff; auto|exact Y]).
      rewrite <- D3 in IL. destruct (drain m1 (S (length (ooo s))) p s) as (s' & H1 & H2 & H3 & H4 & H5 & H6 & H7 & H8 & H9 & H10 & H11 & H12 & H13 & H14 & H15); auto.
      * apply fits_iff. split; [exact SQ|lia].
      * intros q Q. rewrite (A1 q Q). lia.
      * rewrite H1. cbn [fst]. exists (l1 ++ p :: m1), m2. split; [rewrite El, Em, <- app_assoc; reflexivity|]. split; [exact H2|].
        assert (BB : bytes_of (l1 ++ p :: m1) = bytes_of l1 ++ bytes_of (p :: m1)) by (unfold bytes_of; rewrite map_app, concat_app; reflexivity).
        split; [rewrite H3, NX, BB, zlen_app; lia|]. split; [rewrite H4, RX, BB, <- app_assoc; reflexivity|]. split; [rewrite H6, H7, D3, last_same by exact A1; lia|]. split; [auto|]. split; [exact H10|]. split; [exact H11|]. split; [lia|].
        split; [|split].
        -- intros k q Q. apply H9 in Q. destruct Q as [Q Q']. destruct (Q2 _ _ Q) as [<-|Y]; [destruct (QN p); rewrite <- SQ, <- (proj1 (OK _ _ Q)); exact Q|]. rewrite Em in Y. apply in_app_iff in Y. tauto.
        -- intros q Q. apply H9 in Q. destruct Q as [Q _]. rewrite H3, bytes_cons, zlen_app, Z.add_assoc in Q. exact (line_end _ _ _ _ IL q Q).
        -- intros q [<-|Q]; [left; apply in_app_iff; cbn; auto|]. destruct (AR q Q) as [Y|Y]; [left; apply in_app_iff; auto|].
           assert (DD : In q m1 \/ ~ In q m1).
           { destruct (Q2 _ _ Y) as [<-|Z]; [destruct (QN p); rewrite <- SQ; exact Y|]. rewrite Em in Z. apply in_app_iff in Z. destruct Z as [Z|Z]; [auto|]. right. intros W.
             rewrite Em in D4. apply cut_app in D4. destruct D4 as [D4 D5]. destruct (cut_in _ _ _ D4 q W) as ((_ & W1 & _) & _ & W2 & _). destruct (cut_in _ _ _ D5 q Z) as (_ & W3 & _). apply zlen_pos in W1. lia. }
           destruct DD as [DD|DD]; [left; apply in_app_iff; cbn; auto|]. right. apply H9. split; assumption.
    + rewrite store_in by (auto; lia). destruct (store_fields p s NM) as (S1 & S2 & S3 & S4 & S5 & S6 & S7 & S8). exists l1, l2.
      split; [exact El|]. split; [congruence|]. split; [congruence|]. split; [congruence|]. split; [lia|]. split; [lia|].
      assert (ST : forall k q, In (k, q) (ooo (fst (store_ooo p s))) -> (k = d_seq p /\ q = p) \/ In (k, q) (ooo s)) by (intros k q; rewrite S7; intros X; apply in_dset in X; destruct X as [X|X]; [inversion X; auto|auto]).
      split; [intros k q X; destruct (ST _ _ X) as [[-> ->]|Y]; [split; [reflexivity|apply flags_is_ack, PL]|exact (OK _ _ Y)]|].
      split; [unfold ooo_uniq; rewrite S7; apply uniq_set, UQ|]. split; [lia|]. split; [intros k q X; destruct (ST _ _ X) as [[-> ->]|Y]; [exact IP|exact (Q2 _ _ Y)]|].
      split; [intros q X; rewrite S2 in X; destruct (ST _ _ X) as [[Y _]|Y]; [lia|exact (QN _ Y)]|].
      intros q Q. rewrite S7. assert (GG : dget (d_seq q) (dset (d_seq p) p (ooo s)) = if d_seq p =? d_seq q then Some p else dget (d_seq q) (ooo s)) by apply dget_set.
      destruct Q as [<-|Q]; [right; apply dget_in; rewrite GG, Z.eqb_refl; reflexivity|]. destruct (AR q Q) as [Y|Y]; [auto|]. right. apply dget_in. rewrite GG. destruct (d_seq p =? d_seq q) eqn:EE; [|exact (uniq_get _ _ _ UQ Y)].
      apply Z.eqb_eq in EE. f_equal. pose proof (Q2 _ _ Y) as Y2. clear - EE C2 IP Y2. revert C2 IP Y2. generalize (rcv_nxt s). induction l2 as [|x m IH]; intros z C I1 I2; [destruct I1|]. cbn [cut] in C. destruct C as ((_ & N & _) & D2 & D3 & D4). apply zlen_pos in N.
      destruct I1 as [<-|I1], I2 as [<-|I2]; [reflexivity| | |exact (IH _ D4 I1 I2)].
      * destruct (cut_in _ _ _ D4 q I2) as (_ & X & _). lia.
      * destruct (cut_in _ _ _ D4 p I1) as (_ & X & _). lia.
Qed.
Lemma filling_run a n l rx : cut a n l -> zlen (bytes_of l) <= 65535 -> forall ps arrived c, (forall p, In p ps -> In p l) -> filling a n l rx arrived (c_sess c) ->
  filling a n l rx (rev ps ++ arrived) (c_sess (fst (op_run (map OSegment ps) c))) /\ c_read (fst (op_run (map OSegment ps) c)) = c_read c.
Proof.
  intros C T. induction ps as [|p ps IH]; intros arrived c I F; [split; [exact F|reflexivity]|]. cbn [map]. rewrite run_head.
  destruct (IH (p :: arrived) (fst (op_do (OSegment p) c))) as [X1 X2].
  - intros x X. apply I. right. exact X.
  - cbn [op_do with_sess fst c_sess]. apply filling_step; auto. apply I. left. reflexivity.
  - split; [|rewrite X2; reflexivity]. cbn [rev]. rewrite <- app_assoc. exact X1.
Qed.
Lemma any_order iss c0 c a l ps : opened iss c0 -> reach (sane_op iss) c0 c -> st (c_sess c) = ESTABLISHED -> ooo (c_sess c) = [] ->
  snd_una (c_sess c) <= a <= snd_max (c_sess c) -> cut a (rcv_nxt (c_sess c)) l -> zlen (bytes_of l) <= 65535 -> (forall p, In p ps <-> In p l) ->
  let c' := fst (op_run (map OSegment ps) c) in
  st (c_sess c') = ESTABLISHED /\ received c' = received c ++ bytes_of l /\ rcv_nxt (c_sess c') = rcv_nxt (c_sess c) + zlen (bytes_of l) /\ ooo (c_sess c') = [].
Proof.
  intros O R E Q AK C T PS. cbv zeta. pose proof (reach_good true iss _ _ _ O (sane_ok iss) R) as [[(P1 & P2 & _) _] _].
  destruct (filling_run a _ l (rx_buf (c_sess c)) C T ps [] c) as [F RD]; [intros p; apply PS| |].
  - exists [], l. split; [reflexivity|]. split; [exact E|]. change (bytes_of []) with (@nil Z). rewrite app_nil_r. change (zlen (@nil Z)) with 0. split; [lia|]. split; [reflexivity|]. split; [exact AK|]. split; [lia|].
    unfold ooo_ok, ooo_uniq, uniq. rewrite Q. split; [intros k q []|]. split; [constructor|]. split; [exact (ev_reach iss c0 c O R)|]. split; [intros k q []|]. split; [intros q []|intros q []].
  - destruct F as (l1 & l2 & El & E' & NX & RX & _ & _ & OK & _ & _ & Q2 & QN & AR).
    assert (l2 = []) as ->.
    { destruct l2 as [|x m]; [reflexivity|]. exfalso. rewrite El in C. apply cut_app in C. destruct C as [C1 C2]. cbn [cut] in C2. destruct C2 as (_ & D2 & _).
      destruct (AR x) as [X|X].
      - rewrite app_nil_r, <- in_rev. apply PS. rewrite El. apply in_app_iff. cbn. auto.
      - destruct (cut_in _ _ _ C1 x X) as ((_ & N & _) & _ & Y & _). apply zlen_pos in N. lia.
      - apply (QN x). rewrite NX, <- D2. exact X. }
    rewrite app_nil_r in El. subst l1. split; [exact E'|]. unfold received. rewrite RD, RX, app_assoc. split; [reflexivity|]. split; [exact NX|].
    clear Q. revert Q2. destruct (ooo (c_sess (fst (op_run (map OSegment ps) c)))) as [|[k q] d]; intros Q2; [reflexivity|]. destruct (Q2 k q). left. reflexivity.
Qed.

(** * and asked for again *)
Lemma store_sent p s : dgetd (rcv_nxt s) 0 (rx_req s) <= 1 -> hdr_ok s -> 0 <= snd_nxt s < 2 ^ 32 -> let s' := fst (store_ooo p s) in
  sent s' = sent s ++ [segment s (snd_nxt s) false true false false []] /\ rcv_nxt s' = rcv_nxt s /\ dgetd (rcv_nxt s) 0 (rx_req s') = dgetd (rcv_nxt s) 0 (rx_req s) + 1.
Proof.
  intros D H B. cbv zeta. unfold store_ooo. rewrite !pbind_do. unfold pwhen, pif. sx. rewrite dgetd_set. replace (_ <=? 2) with true by (symmetry; apply Z.leb_le; lia).
  unfold transmit_ack. rewrite transmit_eq. cbn [seq_of]. rewrite tx_ok; [|exact H|exact B]. cbn [fst]. sx. rewrite dgetd_set. repeat split.
Qed.
Lemma dup_reach iss c0 c q : opened iss c0 -> ports_ok c0 -> iss + 2 < 2 ^ 32 -> reach (roomy_op iss) c0 c -> st (c_sess c) = ESTABLISHED -> plain q ->
  rcv_nxt (c_sess c) < d_seq q -> d_seq q + zlen (d_data q) <= rcv_nxt (c_sess c) + 65535 -> snd_una (c_sess c) <= d_ackn q <= snd_max (c_sess c) ->
  dgetd (rcv_nxt (c_sess c)) 0 (rx_req (c_sess c)) <= 1 ->
  let s := c_sess c in let s' := c_sess (fst (op_do (OSegment q) c)) in
  (exists t, sent s' = sent s ++ [t] /\ x_fack t = true /\ x_ack t = rcv_nxt s /\ x_data t = [] /\ x_fsyn t = false /\ x_ffin t = false /\ x_frst t = false) /\
  st s' = ESTABLISHED /\ rcv_nxt s' = rcv_nxt s /\ snd_una s' = snd_una s /\ snd_max s' = snd_max s /\ dgetd (rcv_nxt s) 0 (rx_req s') = dgetd (rcv_nxt s) 0 (rx_req s) + 1.
Proof.
  intros O P I R E PL SQ W AK D. cbv zeta. pose proof (tick_reach iss c0 c O P I R) as [(_ & HD & _) B].
  pose proof (reach_good true iss _ _ _ O (roomy_ok iss) R) as [G GI]. pose proof G as [(P1 & P2 & _) _].
  destruct (max_bound (zlen (c_written c)) (c_sess c) G) as [M1 M2]; [rewrite E; discriminate|apply zlen_nonneg|]. rewrite GI in M2.
  cbn [op_do with_sess fst c_sess]. unfold tcp_fsm. rewrite store_in by auto. destruct (store_fields q (c_sess c)) as (S1 & S2 & S3 & S4 & S5 & S6 & S7 & S8); [lia|].
  destruct (store_sent q (c_sess c)) as (T1 & T2 & T3); [exact D|exact HD|lia|]. split; [|repeat split; congruence].
  eexists. split; [exact T1|]. repeat split.
Qed.
Lemma asked_twice iss c0 c p l q1 q2 : opened iss c0 -> ports_ok c0 -> iss + 2 < 2 ^ 32 -> reach (roomy_op iss) c0 c -> st (c_sess c) = ESTABLISHED ->
  plain p -> roomy_op iss (OSegment p) c -> d_seq p = rcv_nxt (c_sess c) -> snd_una (c_sess c) <= d_ackn p <= snd_max (c_sess c) ->
  in_line (d_ackn p) (rcv_nxt (c_sess c) + zlen (d_data p)) l (ooo (c_sess c)) ->
  let c1 := fst (op_do (OSegment p) c) in let c2 := fst (op_do (OSegment q1) c1) in let c3 := fst (op_do (OSegment q2) c2) in
  roomy_op iss (OSegment q1) c1 ->
  (forall q, q = q1 \/ q = q2 -> plain q /\ rcv_nxt (c_sess c1) < d_seq q /\ d_seq q + zlen (d_data q) <= rcv_nxt (c_sess c1) + 65535 /\ snd_una (c_sess c1) <= d_ackn q <= snd_max (c_sess c1)) ->
  exists t1 t2, sent (c_sess c3) = sent (c_sess c1) ++ [t1; t2] /\ forall t, t = t1 \/ t = t2 ->
    x_fack t = true /\ x_ack t = rcv_nxt (c_sess c1) /\ x_data t = [] /\ x_fsyn t = false /\ x_ffin t = false /\ x_frst t = false.
Proof.
  intros O P I R E PL RP SQ AK IL. cbv zeta. intros RQ QQ.
  assert (R0 : reach (sane_op iss) c0 c) by (clear - R; induction R; [constructor|constructor; [exact IHR|apply H]]).
  destruct (drain_reach iss c0 c p l O R0 E PL SQ AK IL) as (_ & E1 & _ & _ & _ & _ & _ & _ & N). cbv zeta in *.
  assert (R1 : reach (roomy_op iss) c0 (fst (op_do (OSegment p) c))) by (constructor; assumption).
  revert RQ QQ E1 N R1. generalize (fst (op_do (OSegment p) c)). clear - O P I. intros c1 RQ QQ E N R.
  assert (D : dgetd (rcv_nxt (c_sess c1)) 0 (rx_req (c_sess c1)) = 0) by (unfold dgetd; rewrite none_get by exact N; reflexivity).
  destruct (QQ q1 (or_introl eq_refl)) as (A1 & A2 & A3 & A4). destruct (dup_reach iss c0 c1 q1 O P I R E A1 A2 A3 A4) as ((t1 & T1) & E2 & N2 & U2 & M2 & D2); [lia|]. cbv zeta in *.
  assert (R2 : reach (roomy_op iss) c0 (fst (op_do (OSegment q1) c1))) by (constructor; assumption).
  revert T1 E2 N2 U2 M2 D2 R2. generalize (fst (op_do (OSegment q1) c1)). intros c2 T1 E2 N2 U2 M2 D2 R2.
  destruct (QQ q2 (or_intror eq_refl)) as (B1 & B2 & B3 & B4). rewrite <- N2 in B2, B3. rewrite <- U2, <- M2 in B4.
  destruct (dup_reach iss c0 c2 q2 O P I R2 E2 B1 B2 B3 B4) as ((t2 & T2) & _); [rewrite N2; lia|]. cbv zeta in *.
  exists t1, t2. destruct T1 as [T1 T1']. destruct T2 as [T2 T2']. split; [rewrite T2, T1, <- app_assoc; reflexivity|]. rewrite N2 in T2'. intros t [-> | ->]; assumption.
Qed.
