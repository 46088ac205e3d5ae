(** Every call of the state machine is a sequence of the steps of SessTrace. *)
From Verif Require Import Base BaseLemmas AddrModel TcpModel StackModel StackRxModel SessModel SessProofs SessTrace.

Definition gave_up (a b : sess) : Prop :=
  st b = CLOSED /\ tx_buf b = tx_buf a /\ closing b = closing a /\ rcv_ini b = rcv_ini a /\ rcv_nxt b = rcv_nxt a /\
  exists c, In (snd_una a, c) (tx_to a).
Lemma near_rewind s : near s (rewind s).
Proof. rewrite rewind_eq. repeat split. Qed.
Definition retransmits (s : sess) : Prop := In (st s) [SYN_SENT; SYN_RCVD; ESTABLISHED; FIN_WAIT_1; CLOSE_WAIT; LAST_ACK].
Lemma run_timeout strict n s : pre strict n s -> retransmits s -> (strict = true -> ~ In (st s) [SYN_SENT; SYN_RCVD]) ->
  run strict n ETimer s (retransmit_timeout s) (fun b => near s b \/ gave_up s b).
Proof.
  intros P R N. unfold retransmit_timeout. destruct (dget _ _) as [c|] eqn:D; [|apply run_ret; intros _; left; apply near_refl].
  destruct (expired _ _); [|apply run_ret; intros _; left; apply near_refl].
  destruct (c =? RETRANSMIT_MAX) eqn:C.
  - apply Z.eqb_eq in C. subst c. rewrite give_up_eq. destruct (tcp_tx_ok _) eqn:T.
    + assert (G : pstep strict ETimer s (gone s)) by (apply ps_gone; auto).
      destruct (reg s) eqn:RE.
      * apply (run_first _ _ _ _ (gone s)); auto. apply run_ok; [apply ps_unreg; reflexivity|]. intros _. right.
        repeat split; try reflexivity. apply dget_in in D. eauto.
      * split; [apply steps_one; auto|]. split; [exact Logic.I|]. discriminate.
    + split; [apply steps_0|]. split; [exact Logic.I|]. discriminate.
  - apply Z.eqb_neq in C. apply run_do; [eapply ps_rewind; eauto|]. intros _. left. apply near_rewind.
Qed.
Lemma shape_syn n s : In (st s) [SYN_SENT; SYN_RCVD] -> shape n s -> opening s /\ n = 0.
Proof. unfold shape. intros [E|[E|[]]]; rewrite <- E; auto. Qed.
Lemma near_trans a b c : near a b -> near b c -> near a c.
Proof. unfold near. intuition congruence. Qed.
Lemma run_syn_timer strict n s : pre strict n s -> In (st s) [SYN_SENT; SYN_RCVD] ->
  run strict n ETimer s ((_ <# retransmit_timeout ;; transmit_data) s) (fun _ => True).
Proof.
  intros P R.
  assert (RT : retransmits s) by (unfold retransmits; cbn in *; intuition).
  assert (GEN : (strict = true -> ~ In (st s) [SYN_SENT; SYN_RCVD]) -> run strict n ETimer s ((_ <# retransmit_timeout ;; transmit_data) s) (fun _ => True)).
  { intros N. apply run_bind; auto. eapply run_weak; [apply run_timeout; auto|]. intros b PB _. eapply run_weak; [apply run_transmit; auto|]. auto. }
  destruct strict; [|apply GEN; discriminate]. clear GEN.
  destruct P as [P0 PS]. destruct (PS eq_refl) as [I S]. destruct (shape_syn n s R S) as [(B1 & B2 & B3 & B4 & B5 & B6 & B7 & B8) N].
  assert (P : pre true n s) by (split; auto).
  unfold pbind, retransmit_timeout. destruct (dget (snd_una s) (tx_to s)) as [c|] eqn:D.
  2: { eapply run_weak; [apply run_transmit; auto|]. auto. }
  destruct (expired _ _). 2: { eapply run_weak; [apply run_transmit; auto|]. auto. }
  destruct (c =? RETRANSMIT_MAX) eqn:C.
  - apply Z.eqb_eq in C. subst c. rewrite give_up_eq. destruct (tcp_tx_ok (segment s (snd_una s) false true false true [])) eqn:T.
    + assert (G : pstep true ETimer s (gone s)) by (apply ps_gone; auto).
      destruct (reg s) eqn:RE.
      * apply (run_first _ _ _ _ (gone s)); auto. apply (run_first _ _ _ _ (set_reg false (gone s))); [apply ps_unreg; reflexivity|].
        eapply run_weak; [apply run_transmit; auto|auto].
        eapply pre_step; [apply (ps_unreg true ETimer); reflexivity|]. eapply pre_step; eauto.
      * split; [apply steps_one; auto|]. split; [exact Logic.I|]. discriminate.
    + split; [apply steps_0|]. split; [exact Logic.I|]. discriminate.
  - apply Z.eqb_neq in C. cbn [pdo]. pose proof (dget_in _ _ _ D) as IN. pose proof (B3 _ _ IN) as LT.
    destruct P0 as (Q1 & Q2 & _). assert (U : snd_una s = snd_ini s) by lia. assert (M : snd_max s = snd_ini s + 1) by lia.
    specialize (B7 U). specialize (B8 M).
    assert (G : pstep true ETimer s (pkt (snd_ini s) true (in_state [SYN_RCVD] s) false false [] (rewind s))) by (eapply ps_resyn; eauto).
    enough (E : transmit_data (rewind s) = (pkt (snd_ini s) true (in_state [SYN_RCVD] s) false false [] (rewind s), Ok tt)).
    { change (pdo rewind s) with (rewind s, Ok tt). cbv beta iota. rewrite E. apply run_ok; auto. }
    clear G. rewrite rewind_eq. unfold transmit_data, passert, pbind. sx. rewrite U.
    replace ((snd_ini s <=? snd_ini s) && (snd_ini s <=? snd_ini s + snd_mss s)) with true by (symmetry; apply andb_true_iff; rewrite !Z.leb_le; lia).
    unfold pif. rewrite !in_state_1. sx. rewrite Z.eqb_refl, !andb_true_r.
    rewrite in_state_1 in B8.
    destruct R as [E|[E|[]]]; rewrite <- E in *; cbn [fsm_eqb] in *; rewrite transmit_eq; cbn [seq_of]; sx;
    (replace (tcp_tx_ok _) with true by (symmetry; etransitivity; [|exact B8]; unfold segment; sx; reflexivity)); rewrite <- U; reflexivity.
Qed.
(** * Ticks *)
Lemma shape_data n s : In (st s) [ESTABLISHED; CLOSE_WAIT] -> shape n s -> forall c, In (snd_una s, c) (tx_to s) -> tx_buf s <> [].
Proof.
  intros [E|[E|[]]] S c K N; unfold shape in S; rewrite <- E, N in S; decompose [and] S; change (zlen (@nil Z)) with 0 in *;
  pose proof (H1 _ _ K); lia.
Qed.
Lemma run_end strict n s m : pre strict n s -> In (st s) [ESTABLISHED; CLOSE_WAIT] -> m = FIN_WAIT_1 /\ st s = ESTABLISHED \/ m = LAST_ACK /\ st s = CLOSE_WAIT ->
  run strict n ETimer s ((_ <# retransmit_timeout ;; _ <# transmit_data ;; _ <# delayed_ack ;;
    pwhen (fun s => closing s && (zlen (tx_buf s) =? 0)) (change_state m)) s) (fun _ => True).
Proof.
  intros P R M.
  assert (RT : retransmits s) by (unfold retransmits; cbn in *; intuition).
  assert (RCV : rcv_ini s < rcv_nxt s).
  { destruct P as [(_ & _ & _ & _ & H) _]. apply H. intros X. destruct R as [E|[E|[]]]; rewrite <- E in X; cbn in X; intuition discriminate. }
  apply run_bind; auto. eapply run_weak; [apply run_timeout; auto|].
  { intros _ X. destruct R as [E|[E|[]]]; rewrite <- E in X; cbn in X; intuition discriminate. }
  cbv beta. intros s1 P1 H1. apply run_bind; auto. eapply run_weak; [apply run_transmit; auto|].
  cbv beta. intros s2 P2 H2. apply run_bind; auto. eapply run_weak; [apply run_delayed; auto|].
  cbv beta. intros s3 P3 H3. apply run_when; [|auto]. intros C. apply andb_true_iff in C. destruct C as [C1 C2].
  apply Z.eqb_eq in C2. apply zlen_zero_nil in C2.
  assert (T : tx_buf s3 = tx_buf s) by (unfold near, gave_up, same in *; destruct H1 as [H1|H1]; intuition congruence).
  assert (N : rcv_ini s3 = rcv_ini s /\ rcv_nxt s3 = rcv_nxt s) by (unfold near, gave_up, same in *; destruct H1 as [H1|H1]; intuition congruence).
  assert (L : st s3 = st s1) by (unfold near, same in *; intuition congruence).
  apply run_change.
  - destruct N as [N1 N2]. destruct M as [[-> _]|[-> _]]; cbn; congruence.
  - intros ->. destruct H1 as [H1|H1].
    + assert (L2 : st s3 = st s) by (unfold near in H1; intuition congruence).
      unfold may. rewrite L2. destruct M as [[-> ->]|[-> ->]]; auto.
    + exfalso. destruct H1 as (_ & _ & _ & _ & _ & c & K). destruct P as [_ PS]. destruct (PS eq_refl) as [_ S].
      apply (shape_data n s R S c K). congruence.
  - auto.
Qed.
Lemma not_syn s x : st s = x -> ~ In x [SYN_SENT; SYN_RCVD] -> ~ In (st s) [SYN_SENT; SYN_RCVD].
Proof. intros ->. auto. Qed.
Lemma run_etimer strict n fuel s : pre strict n s -> run strict n ETimer s (fsm (S fuel) ETimer s) (fun _ => True).
Proof.
  intros P. cbn [fsm]. destruct (st s) eqn:E; try (apply run_ret; auto; fail).
  - apply run_syn_timer; auto. rewrite E. cbn. auto.
  - apply run_syn_timer; auto. rewrite E. cbn. auto.
  - apply run_end; auto. rewrite E. cbn. auto.
  - cbn [fsm_fin_wait_1]. apply run_bind; auto. eapply run_weak; [apply run_timeout; auto|].
    + unfold retransmits. rewrite E. cbn. auto 10.
    + intros _. rewrite E. cbn. intuition discriminate.
    + intros b PB _. eapply run_weak; [apply run_transmit; auto|]. auto.
  - apply run_end; auto. rewrite E. cbn. auto.
  - cbn [fsm_last_ack]. apply run_bind; auto. eapply run_weak; [apply run_timeout; auto|].
    + unfold retransmits. rewrite E. cbn. auto 10.
    + intros _. rewrite E. cbn. intuition discriminate.
    + intros b PB _. eapply run_weak; [apply run_transmit; auto|]. auto.
  - cbn [fsm_time_wait]. apply run_when; auto. intros X. apply run_change; auto; [exact Logic.I|]. intros _. unfold may. rewrite E. auto.
Qed.
(** * Calls *)
Definition ok_event (strict : bool) (e : event) (s : sess) : Prop :=
  strict = true -> match e with EPacket p => d_ackn p <> snd_ini s /\ 0 <= d_mss p | ECall Close => st s <> SYN_RCVD | ECall _ => st s <> CLOSED | ETimer => True end.
Lemma run_call strict n fuel c s : pre strict n s -> ok_event strict (ECall c) s -> c = Close -> run strict n (ECall c) s (fsm (S fuel) (ECall c) s) (fun _ => True).
Proof.
  intros P K ->. cbn [fsm]. unfold ok_event in K. destruct (st s) eqn:E; try (apply run_ret; auto; fail); cbn [fsm_listen fsm_syn_sent fsm_syn_rcvd fsm_established fsm_close_wait].
  - apply run_change; auto; [exact Logic.I|]. intros _. unfold may. rewrite E. reflexivity.
  - apply run_change; auto; [exact Logic.I|]. intros _. unfold may. rewrite E. auto.
  - apply run_change; auto. 2: { intros S. destruct (K S eq_refl). }
    cbn. destruct P as [(_ & _ & _ & _ & H) _]. apply H. rewrite E. cbn. intuition discriminate.
  - apply run_do; auto. apply ps_closing.
  - apply run_do; auto. apply ps_closing.
Qed.
(** * Segments *)
Definition up_states : list fsm_state := [ESTABLISHED; FIN_WAIT_1; FIN_WAIT_2; CLOSE_WAIT].
Definition keeps (strict : bool) (fin : Prop) (a b : sess) : Prop :=
  snd_fin b = snd_fin a /\ (st b = st a \/ st a = FIN_WAIT_1 /\ st b = FIN_WAIT_2 /\ (strict = true -> fin)).
Definition nested_ok (strict : bool) (n : Z) (e : event) (fuel : nat) (again : tmd -> P unit) : Prop :=
  forall q s0 s, pre strict n s0 -> (In (d_seq q, q) (ooo s0) /\ d_seq q = rcv_nxt s0 /\ s = set_ooo (ddel (d_seq q) (ooo s0)) s0) -> is_ack q = true ->
    In (st s) up_states -> (length (ooo s) < fuel)%nat ->
    run strict n e s0 (again q s) (keeps strict (snd_fin s <= d_ackn q \/ snd_fin s = 0) s).
Lemma pre_origin strict n e p s0 s : origin e p s0 s -> pre strict n s0 -> pre strict n s.
Proof. intros O P. eapply pre_step; [eapply (ps_pop strict); eauto|auto]. Qed.
Lemma run_process strict n e fuel again p s0 s : nested_ok strict n e fuel again ->
  pre strict n s0 -> origin e p s0 s -> takes p s -> In (st s) up_states -> (length (ooo s) <= fuel)%nat ->
  run strict n e s0 (process_ack again p s) (keeps strict (snd_fin s = 0) s).
Proof.
  intros IH P O T U L. rewrite process_eq. cbv zeta. set (s1 := acked p s).
  assert (G : pstep strict e s0 s1). { eapply ps_ack; eauto. intros _ X. rewrite X in U. cbn in U. intuition discriminate. }
  pose proof (pre_step _ _ _ _ _ G P) as P1.
  destruct (dget (rcv_nxt s1) (ooo s1)) as [q|] eqn:D.
  2: { apply run_ok; auto. intros _. split; [reflexivity|]. left. reflexivity. }
  apply dget_in in D. destruct P1 as [P10 P1S]. destruct P10 as (A1 & A2 & A3 & A4 & A5). destruct (A3 _ _ D) as [K1 K2].
  assert (P1 : pre strict n s1) by (split; [repeat split; auto; apply A1 || (eapply A3; eauto)|auto]).
  apply (run_first _ _ _ _ s1); auto. eapply run_weak.
  - apply IH; auto.
    + split; [rewrite <- K1; exact D|]. rewrite K1. split; reflexivity.
    + rewrite K1 in D. apply ddel_shorter in D. rewrite K1. change (ooo (set_ooo _ s1)) with (ddel (d_seq q) (ooo s1)).
      change (ooo s1) with (ooo s) in *. lia.
  - cbv beta. intros b PB [B1 B2]. change (st (set_ooo _ s1)) with (st s) in B2. change (snd_fin (set_ooo _ s1)) with (snd_fin s) in *.
    split; [auto|]. destruct B2 as [B2|(B2 & B3 & B4)]; [auto|]. right. repeat split; auto. intros ->. specialize (B4 eq_refl).
    destruct (P1S eq_refl) as [_ SH]. unfold shape in SH. change (st s1) with (st s) in SH. rewrite B2 in SH. destruct SH as (_ & _ & _ & F & H).
    change (snd_fin s1) with (snd_fin s) in F. apply H in D. destruct B4 as [B4|B4]; [|exact B4].
    change (snd_ini s1) with (snd_ini s) in *. change (snd_max s1) with (snd_max s) in *. destruct P as [_ PS]. destruct (PS eq_refl) as [I0 SH0]. lia.
Qed.
Lemma run_pop strict n e p s0 s (Q : sess -> Prop) : origin e p s0 s -> Q s -> run strict n e s0 (pret tt s) Q.
Proof. intros O H. apply run_ok; auto. eapply ps_pop; eauto. Qed.
Lemma keeps_refl strict fin s : keeps strict fin s s.
Proof. split; auto. Qed.
Lemma run_request strict n e p s (Q : sess -> Prop) : (st s = ESTABLISHED \/ st s = CLOSE_WAIT) -> pre strict n s -> (forall b, snd_fin b = snd_fin s -> st b = st s -> Q b) ->
  run strict n e s (retransmit_request p s) Q.
Proof.
  intros E P H. unfold retransmit_request. apply run_bind; auto. apply run_do; [apply ps_txreq|]. intros P1. apply run_when.
  - intros _. apply run_do; [apply ps_rerequest; exact E|]. intros _. apply H; reflexivity.
  - intros _ _. apply H; reflexivity.
Qed.
Lemma run_store strict n e p s (Q : sess -> Prop) : e = EPacket p -> (st s = ESTABLISHED \/ st s = CLOSE_WAIT) -> pre strict n s ->
  is_ack p = true -> rcv_nxt s < d_seq p -> ack_ok p s = true ->
  (st s = ESTABLISHED -> d_seq p <= rcv_nxt s + RCV_WND - zlen (d_data p)) ->
  (forall b, snd_fin b = snd_fin s -> st b = st s -> Q b) ->
  run strict n e s (store_ooo p s) Q.
Proof.
  intros -> E P A L K W H. unfold store_ooo. apply run_bind; auto. apply run_do; [apply ps_store; auto|]. intros P1.
  apply run_bind; auto. apply run_do; [apply ps_rxreq; [exact E|]; intros k v X; apply in_dset in X; destruct X as [X|X]; [injection X as -> _; right; reflexivity|left; exact X]|]. intros P2. apply run_when.
  - intros _. apply run_ack. intros b B. unfold same in B. apply H; tauto.
  - intros _ _. apply H; reflexivity.
Qed.
Lemma up_rcv strict n s : pre strict n s -> In (st s) up_states -> rcv_ini s < rcv_nxt s.
Proof. intros [(_ & _ & _ & _ & H) _] U. apply H. intros X. cbn in U, X. intuition congruence. Qed.
Lemma queued_ack strict n e p s0 s : pre strict n s0 -> origin e p s0 s -> is_ack p = false -> e = EPacket p /\ s = s0.
Proof.
  intros [(_ & _ & H & _) _] [X|[[X _] _]] E; [exact X|]. apply H in X. destruct X. congruence.
Qed.
Lemma finack_not_ack p : is_finack p = true -> is_ack p = false.
Proof. unfold is_finack, is_ack. destruct (d_fin p), (d_ack p), (d_syn p), (d_rst p); auto. Qed.
Lemma rstack_not_ack p : is_rstack p = true -> is_ack p = false.
Proof. unfold is_rstack, is_ack. destruct (d_fin p), (d_ack p), (d_syn p), (d_rst p); auto. Qed.
Lemma ack_ack p : is_ack p = true -> d_ack p = true.
Proof. unfold is_ack. destruct (d_ack p); auto. Qed.
Lemma finack_ack p : is_finack p = true -> d_ack p = true.
Proof. unfold is_finack. destruct (d_ack p), (d_fin p); auto. Qed.
Lemma run_established strict n e fuel again p s0 s : (d_ack p = true -> nested_ok strict n e fuel again) ->
  pre strict n s0 -> origin e p s0 s -> st s = ESTABLISHED -> (length (ooo s) <= fuel)%nat ->
  run strict n e s0 (fsm_established again (EPacket p) s) (fun b => is_ack p = true -> keeps strict (snd_fin s <= d_ackn p \/ snd_fin s = 0) s b).
Proof.
  intros IH P O E L. assert (U : In (st s) up_states) by (rewrite E; cbn; auto). pose proof (pre_origin _ _ _ _ _ _ O P) as PS.
  assert (POP : run strict n e s0 (pret tt s) (fun b => is_ack p = true -> keeps strict (snd_fin s <= d_ackn p \/ snd_fin s = 0) s b))
    by (eapply run_pop; eauto; intros; apply keeps_refl).
  cbn [fsm_established]. apply run_if; [intros _; exact POP|].
  intros W. apply negb_false_iff, andb_true_iff in W. rewrite !Z.leb_le in W.
  destruct (is_ack p) eqn:A; [|destruct (is_finack p) eqn:F; [|destruct (is_rstack p) eqn:R]].
  - apply run_if.
    { intros _. apply (run_first _ _ _ _ s); [eapply ps_pop; eauto|]. apply run_request; auto. intros b B1 B2 _. split; auto. }
    intros _. apply run_if.
    { intros C. apply andb_true_iff in C. rewrite Z.ltb_lt in C. apply (run_first _ _ _ _ s); [eapply ps_pop; eauto|].
      destruct O as [[O1 O2]|(O1 & O2 & O3)].
      - apply run_store; try tauto; try lia; auto. intros b B1 B2 _. split; auto.
      - exfalso. subst s. cbn [rcv_nxt set_ooo] in C. lia. }
    intros _. apply run_if; [|auto]. intros C. eapply run_weak.
    + eapply run_process; eauto; [apply IH; eauto using ack_ack, finack_ack|]. unfold takes. rewrite E. auto.
    + intros b _ [B1 B2] _. split; [auto|]. rewrite E in *. intuition discriminate.
  - destruct (queued_ack _ _ _ _ _ _ P O A) as [-> ->]. apply run_if; [|auto]. intros C. apply run_bind; auto. eapply run_weak.
    + eapply run_process; eauto; [apply IH; eauto using ack_ack, finack_ack|]. unfold takes. rewrite E. auto.
    + cbv beta. intros b PB [B1 B2]. assert (SB : st b = ESTABLISHED) by (rewrite E in B2; intuition congruence).
      apply run_bind; auto. apply run_weak with (Q := fun c => st c = ESTABLISHED).
      * destruct (no_data p); [apply run_ret; auto|]. apply run_ack. intros c [X _]. congruence.
      * intros c PC SC. apply run_bind; auto. apply run_do; [apply ps_rx|]. intros PD. apply run_change.
        -- cbn. apply (up_rcv strict n c); auto. rewrite SC. cbn. auto.
        -- intros _. unfold may. cbn [st set_ev_rx]. rewrite SC. eauto.
        -- intros r _. discriminate.
  - destruct (queued_ack _ _ _ _ _ _ P O A) as [-> ->]. apply run_if; [|auto]. intros C. apply run_bind; auto. apply run_do; [apply ps_rx|].
    intros PD. apply run_change; [exact Logic.I| |discriminate]. intros _. unfold may. cbn [st set_ev_rx]. rewrite E. eauto.
  - exact POP.
Qed.
Lemma run_time_wait strict n e s (Q : sess -> Prop) : pre strict n s -> In (st s) up_states \/ st s = CLOSING -> (strict = true -> may e TIME_WAIT s) -> (forall b, Q b) ->
  run strict n e s (enter_time_wait s) Q.
Proof.
  intros P U M H. unfold enter_time_wait. apply run_bind; auto. apply run_change; auto.
  - cbn. destruct P as [(_ & _ & _ & _ & K) _]. apply K. intros X. cbn in U, X. intuition congruence.
  - intros r _. apply run_timer; [discriminate|auto].
Qed.
Lemma run_fin_wait_1 strict n e fuel again p s0 s : (d_ack p = true -> nested_ok strict n e fuel again) -> (d_ack p = true -> exists p0, e = EPacket p0 /\ d_ack p0 = true) ->
  pre strict n s0 -> origin e p s0 s -> st s = FIN_WAIT_1 -> (length (ooo s) <= fuel)%nat ->
  run strict n e s0 (fsm_fin_wait_1 again (EPacket p) s) (fun b => is_ack p = true -> keeps strict (snd_fin s <= d_ackn p \/ snd_fin s = 0) s b).
Proof.
  intros IH EP P O E L. assert (U : In (st s) up_states) by (rewrite E; cbn; auto). pose proof (pre_origin _ _ _ _ _ _ O P) as PS.
  assert (POP : run strict n e s0 (pret tt s) (fun b => is_ack p = true -> keeps strict (snd_fin s <= d_ackn p \/ snd_fin s = 0) s b))
    by (eapply run_pop; eauto; intros; apply keeps_refl).
  cbn [fsm_fin_wait_1].
  destruct (is_ack p) eqn:A; [|destruct (is_finack p) eqn:F; [|destruct (is_rstack p) eqn:R]].
  - apply run_if; [|auto]. intros C. apply run_bind; auto. eapply run_weak.
    + eapply run_process; eauto; [apply IH; eauto using ack_ack, finack_ack|]. unfold takes. rewrite E. auto.
    + cbv beta. intros b PB KB. apply run_bind; auto. apply run_weak with (Q := fun c => keeps strict (snd_fin s = 0) s c).
      * destruct (no_data p); [apply run_ret; auto|]. apply run_ack. intros c X. unfold same in X. destruct KB as [B1 B2].
        split; [intuition congruence|]. destruct X as [X _]. rewrite X. auto.
      * intros c PC [B1 B2]. assert (UC : In (st c) up_states) by (destruct B2 as [->|(_ & -> & _)]; auto; cbn; auto).
        apply run_when.
        -- intros X. apply Z.leb_le in X. apply run_change.
           ++ cbn. apply (up_rcv strict n c); auto.
           ++ intros TT. assert (MM : exists p0, e = EPacket p0 /\ d_ack p0 = true /\ (snd_fin c = 0 \/ is_ack p0 = true /\ snd_fin c <= d_ackn p0)).
              { destruct (EP (ack_ack p A)) as (p0 & EP1 & EP2). exists p0. split; [auto|split; [auto|]]. destruct O as [[O1 O2]|(O1 & O2 & O3)].
                - right. assert (p0 = p) by congruence. subst p0. split; auto.
                - left. destruct P as [_ PT]. destruct (PT TT) as [_ SH]. unfold shape in SH. subst s. cbn [st set_ooo] in E. rewrite E in SH.
                  destruct SH as (_ & _ & _ & F & H). destruct O1 as [O1 _]. apply H in O1. cbn [snd_fin set_ooo] in B1. lia. }
              unfold may. destruct B2 as [B2|(_ & B2 & _)]; rewrite B2, ?E; exact MM.
           ++ intros r _ _. split; [exact B1|]. right. repeat split; auto. intros _. left. rewrite <- B1. exact X.
        -- intros _ _ _. split; [auto|]. destruct B2 as [B2|(B2 & B3 & B4)]; [auto|]. right. repeat split; auto.
  - destruct (queued_ack _ _ _ _ _ _ P O A) as [-> ->]. apply run_if; [|auto]. intros C. apply run_bind; auto. eapply run_weak.
    + eapply run_process; eauto; [apply IH; eauto using ack_ack, finack_ack|]. unfold takes. rewrite E. auto.
    + cbv beta. intros b PB KB. apply run_bind; auto. apply run_weak with (Q := fun c => keeps strict (snd_fin s0 = 0) s0 c).
      * apply run_ack. intros c X. destruct KB as [B1 B2]. unfold same in X. split; [intuition congruence|]. destruct X as [X _]. rewrite X. auto.
      * intros c PC [B1 B2]. assert (UC : In (st c) up_states) by (destruct B2 as [->|(_ & -> & _)]; auto; cbn; auto).
        apply run_if.
        -- intros Y. apply Z.leb_le in Y. apply run_time_wait; auto; [|discriminate].
           intros _. unfold may. destruct B2 as [B2|(_ & B2 & _)]; rewrite B2, ?E; eauto.
        -- intros Y. apply Z.leb_gt in Y. apply run_change; [|intros ST|discriminate].
           ++ cbn. apply (up_rcv strict n c); auto.
           ++ unfold may. destruct B2 as [B2|(_ & B2 & B3)].
              ** rewrite B2, E. eauto.
              ** specialize (B3 ST). exfalso. subst strict. destruct PC as [(C1 & C2 & _) PCS]. destruct (PCS eq_refl) as [C3 _].
                 rewrite fits_iff in C. destruct P as [(D1 & _) _]. destruct (PS) as [_ PS2]. destruct (PS2 eq_refl) as [D2 _]. lia.
  - destruct (queued_ack _ _ _ _ _ _ P O A) as [-> ->]. apply run_if; [|auto]. intros C.
    apply run_change; [exact Logic.I| |discriminate]. intros _. unfold may. rewrite E. eauto.
  - exact POP.
Qed.
Lemma run_fin_wait_2 strict n e fuel again p s0 s : (d_ack p = true -> nested_ok strict n e fuel again) ->
  pre strict n s0 -> origin e p s0 s -> st s = FIN_WAIT_2 -> (length (ooo s) <= fuel)%nat ->
  run strict n e s0 (fsm_fin_wait_2 again (EPacket p) s) (fun b => is_ack p = true -> keeps strict (snd_fin s <= d_ackn p \/ snd_fin s = 0) s b).
Proof.
  intros IH P O E L. assert (U : In (st s) up_states) by (rewrite E; cbn; auto). pose proof (pre_origin _ _ _ _ _ _ O P) as PS.
  assert (POP : run strict n e s0 (pret tt s) (fun b => is_ack p = true -> keeps strict (snd_fin s <= d_ackn p \/ snd_fin s = 0) s b))
    by (eapply run_pop; eauto; intros; apply keeps_refl).
  cbn [fsm_fin_wait_2].
  destruct (is_ack p) eqn:A; [|destruct (is_finack p) eqn:F; [|destruct (is_rstack p) eqn:R]].
  - apply run_if; [|auto]. intros C. apply run_bind; auto. eapply run_weak.
    + eapply run_process; eauto; [apply IH; eauto using ack_ack, finack_ack|]. unfold takes. rewrite E. auto.
    + cbv beta. intros b PB [B1 B2]. assert (SB : st b = FIN_WAIT_2) by (rewrite E in B2; intuition congruence).
      destruct (no_data p); [apply run_ret; intros _ _; split; [auto|left; congruence]|]. apply run_ack. intros c X _. unfold same in X. split; [|left]; intuition congruence.
  - destruct (queued_ack _ _ _ _ _ _ P O A) as [-> ->]. apply run_if; [|auto]. intros C. apply run_bind; auto. eapply run_weak.
    + eapply run_process; eauto; [apply IH; eauto using ack_ack, finack_ack|]. unfold takes. rewrite E. auto.
    + cbv beta. intros b PB [B1 B2]. assert (SB : st b = FIN_WAIT_2) by (rewrite E in B2; intuition congruence).
      apply run_bind; auto. apply run_weak with (Q := fun c => st c = FIN_WAIT_2).
      * apply run_ack. intros c [X _]. congruence.
      * intros c PC SC. apply run_time_wait; auto; [left; rewrite SC; cbn; auto| |discriminate]. intros _. unfold may. rewrite SC. eauto.
  - destruct (queued_ack _ _ _ _ _ _ P O A) as [-> ->]. apply run_if; [|auto]. intros C.
    apply run_change; [exact Logic.I| |discriminate]. intros _. unfold may. rewrite E. eauto.
  - exact POP.
Qed.
Lemma is_rst_not_ack p : is_rst p = true -> is_ack p = false.
Proof. unfold is_rst, is_ack. destruct (d_fin p), (d_ack p), (d_syn p), (d_rst p); auto. Qed.
Lemma run_close_wait strict n e fuel again p s0 s : (d_ack p = true -> nested_ok strict n e fuel again) ->
  pre strict n s0 -> origin e p s0 s -> st s = CLOSE_WAIT -> (length (ooo s) <= fuel)%nat ->
  run strict n e s0 (fsm_close_wait again (EPacket p) s) (fun b => is_ack p = true -> keeps strict (snd_fin s <= d_ackn p \/ snd_fin s = 0) s b).
Proof.
  intros IH P O E L. assert (U : In (st s) up_states) by (rewrite E; cbn; auto). pose proof (pre_origin _ _ _ _ _ _ O P) as PS.
  assert (POP : run strict n e s0 (pret tt s) (fun b => is_ack p = true -> keeps strict (snd_fin s <= d_ackn p \/ snd_fin s = 0) s b))
    by (eapply run_pop; eauto; intros; apply keeps_refl).
  cbn [fsm_close_wait]. destruct (is_ack p) eqn:A; [|destruct (is_rst p) eqn:R].
  - apply run_if.
    { intros _. apply (run_first _ _ _ _ s); [eapply ps_pop; eauto|]. apply run_request; auto. intros b B1 B2 _. split; auto. }
    intros _. apply run_if.
    { intros C. apply andb_true_iff in C. rewrite Z.ltb_lt in C. apply (run_first _ _ _ _ s); [eapply ps_pop; eauto|].
      destruct O as [[O1 O2]|(O1 & O2 & O3)].
      - apply run_store; try tauto; try lia; auto; [congruence|]. intros b B1 B2 _. split; auto.
      - exfalso. subst s. cbn [rcv_nxt set_ooo] in C. lia. }
    intros _. apply run_if; [|auto]. intros C. apply andb_true_iff in C. eapply run_weak.
    + eapply run_process; eauto; [apply IH; eauto using ack_ack, finack_ack|]. unfold takes. rewrite E. tauto.
    + intros b _ [B1 B2] _. split; [auto|]. rewrite E in *. intuition discriminate.
  - destruct (queued_ack _ _ _ _ _ _ P O A) as [-> ->]. apply run_if; [|auto]. intros C.
    apply run_change; [exact Logic.I| |discriminate]. intros _. unfold may. rewrite E. eauto.
  - exact POP.
Qed.
Lemma run_nested strict n e fuel : (exists p0, e = EPacket p0 /\ d_ack p0 = true) -> nested_ok strict n e fuel (fun p => fsm fuel (EPacket p)).
Proof.
  intros EP. induction fuel as [|fuel IH]; intros q s0 s P O A U L; [lia|].
  assert (G : run strict n e s0 (fsm (S fuel) (EPacket q) s) (fun b => is_ack q = true -> keeps strict (snd_fin s <= d_ackn q \/ snd_fin s = 0) s b)).
  { assert (OR : origin e q s0 s) by (right; destruct O as (O1 & O2); destruct EP as (p0 & -> & _); split; [split; [exact O1|eauto]|exact O2]). cbn [fsm]. assert (L2 : (length (ooo s) <= fuel)%nat) by lia.
    destruct (st s) eqn:E; try (exfalso; cbn in U; intuition discriminate).
    - eapply run_established; eauto.
    - eapply run_fin_wait_1; eauto.
    - eapply run_fin_wait_2; eauto.
    - eapply run_close_wait; eauto. }
  eapply run_weak; [exact G|]. auto.
Qed.
Lemma sync_rcv_ini p s : rcv_ini (acked p (synchronise p s)) = d_seq p.
Proof. reflexivity. Qed.
Lemma sync_rcv_nxt p s : rcv_nxt (acked p (synchronise p s)) = d_seq p + zlen (d_data p) + b2z (d_syn p) + b2z (d_fin p).
Proof. reflexivity. Qed.
Lemma sync_una p s : snd_una (acked p (synchronise p s)) = Z.max (snd_una s) (d_ackn p).
Proof. reflexivity. Qed.
Lemma sync_ini p s : snd_ini (acked p (synchronise p s)) = snd_ini s.
Proof. reflexivity. Qed.
Lemma sync_st p s : st (acked p (synchronise p s)) = st s.
Proof. reflexivity. Qed.
Lemma sync_ooo p s : ooo (acked p (synchronise p s)) = ooo s.
Proof. reflexivity. Qed.
Lemma run_syn_sent strict n again p s : pre strict n s -> ok_event strict (EPacket p) s -> st s = SYN_SENT ->
  run strict n (EPacket p) s (fsm_syn_sent again (EPacket p) s) (fun _ => True).
Proof.
  intros P K E. cbn [fsm_syn_sent]. pose proof P as [(A1 & A2 & A3 & A4 & A5) AS].
  assert (OO : ooo s = []) by (apply A4; rewrite E; cbn; auto).
  apply run_if.
  - intros C. rewrite !andb_true_iff, Z.eqb_eq in C. destruct C as (C1 & C2 & C3).
    rewrite pbind_do. unfold pbind at 1. rewrite process_eq. cbv zeta.
    rewrite sync_ooo, OO. cbn [dget].
    assert (G : pstep strict (EPacket p) s (acked p (synchronise p s))). { apply ps_sync; auto. intros T. apply (K T). }
    pose proof (pre_step _ _ _ _ _ G P) as P1. apply (run_first _ _ _ _ (acked p (synchronise p s))); auto.
    assert (R1 : rcv_ini (acked p (synchronise p s)) < rcv_nxt (acked p (synchronise p s))).
    { rewrite sync_rcv_ini, sync_rcv_nxt. unfold is_synack in C1. destruct (d_syn p); [|discriminate]. pose proof (zlen_nonneg (d_data p)). pose proof (b2z_pos (d_fin p)). cbn [b2z]. lia. }
    assert (U1 : strict = true -> snd_ini (acked p (synchronise p s)) < snd_una (acked p (synchronise p s))).
    { intros T. rewrite sync_ini, sync_una. specialize (K T). destruct K. lia. }
    assert (E1 : st (acked p (synchronise p s)) = SYN_SENT) by (rewrite sync_st; exact E).
    generalize dependent (acked p (synchronise p s)). intros s1 G P1 R1 U1 E1.
    apply run_bind; auto. apply run_weak with (Q := fun c => same s1 c /\ snd_ini c = snd_ini s1 /\ snd_una c = snd_una s1).
    + apply run_send; [left; reflexivity|]. split; [apply same_pkt|split; reflexivity].
    + intros c PC ((X1 & _ & _ & X2 & X3 & _) & X4 & X5). apply run_bind; auto. apply run_change.
      * cbn. split; [left; congruence|lia].
      * intros T. unfold may. rewrite X1, E1. exists p. repeat split; auto. rewrite X4, X5. auto.
      * intros r _. apply run_do; [apply ps_conn|auto].
  - intros _. apply run_when; auto. intros C. rewrite andb_true_iff in C. destruct C as [C _].
    apply run_bind; auto. apply run_change; [exact Logic.I|intros _; unfold may; rewrite E; eauto|]. intros r _.
    rewrite pbind_do. eapply run_first; [apply (ps_err _ _ Refused)|]. apply run_do; [apply ps_conn|auto].
Qed.
Lemma run_syn_rcvd strict n again p s : pre strict n s -> ok_event strict (EPacket p) s -> st s = SYN_RCVD ->
  run strict n (EPacket p) s (fsm_syn_rcvd again (EPacket p) s) (fun _ => True).
Proof.
  intros P K E. cbn [fsm_syn_rcvd]. pose proof P as [(A1 & A2 & A3 & A4 & A5) AS].
  assert (OO : ooo s = []) by (apply A4; rewrite E; cbn; auto).
  assert (O : origin (EPacket p) p s s) by (left; auto).
  apply run_if.
  - intros C. unfold next_in in C. rewrite !andb_true_iff, !Z.eqb_eq in C. destruct C as (C1 & (C2 & C3) & C4).
    unfold pbind at 1. rewrite process_eq. cbv zeta. change (ooo (acked p s)) with (ooo s). rewrite OO. cbn [dget].
    set (s1 := acked p s).
    assert (T : takes p s) by (unfold takes; rewrite E; auto).
    assert (G : pstep strict (EPacket p) s s1). { apply (ps_ack _ _ p s s); auto. intros TT _. apply (K TT). }
    pose proof (pre_step _ _ _ _ _ G P) as P1. apply (run_first _ _ _ _ s1); auto.
    assert (U1 : strict = true -> snd_ini s1 < snd_una s1). { intros TT. unfold s1. sx. specialize (K TT). destruct K. lia. }
    assert (E1 : st s1 = SYN_RCVD) by exact E. clearbody s1.
    apply run_bind; auto. apply run_change.
    + cbn. split; [auto|]. destruct P1 as [(_ & _ & _ & _ & H) _]. apply H. rewrite E1. cbn. intuition discriminate.
    + intros TT. unfold may. rewrite E1. exists p. auto.
    + intros r _. rewrite pbind_do. eapply run_first; [apply ps_eff; reflexivity|]. apply run_do; [apply ps_conn|auto].
  - intros _. apply run_when; auto. intros C. apply run_change; [exact Logic.I|intros _; unfold may; rewrite E|auto].
    exists p. split; auto. apply orb_true_iff in C. rewrite !andb_true_iff in C. tauto.
Qed.
Lemma run_packet strict n p s : pre strict n s -> ok_event strict (EPacket p) s ->
  run strict n (EPacket p) s (tcp_fsm (EPacket p) s) (fun _ => True).
Proof.
  intros P K. unfold tcp_fsm. cbn [fsm].
  assert (EP : d_ack p = true -> exists p0, EPacket p = EPacket p0 /\ d_ack p0 = true) by eauto.
  pose proof (fun D => run_nested strict n (EPacket p) (length (ooo s)) (EP D)) as N.
  assert (O : origin (EPacket p) p s s) by (left; auto).
  destruct (st s) eqn:E.
  - apply run_ret; auto.
  - cbn [fsm_listen]. destruct (_ && _) eqn:C; [|apply run_ret; auto]. rewrite !andb_true_iff in C. destruct C as (C1 & C2 & C3).
    apply run_bind; auto. apply run_do; [apply ps_adopt; auto; intros T; apply (K T)|]. intros P1. apply run_change; auto.
    + cbn. split; [exact E|]. sx. unfold is_syn in C1. destruct (d_syn p); [cbn; lia|discriminate].
    + intros _. unfold may. change (st (adopt p s)) with (st s). rewrite E. eauto.
  - apply run_syn_sent; auto.
  - apply run_syn_rcvd; auto.
  - eapply run_weak; [eapply run_established; eauto|auto].
  - eapply run_weak; [eapply run_fin_wait_1; eauto|auto].
  - eapply run_weak; [eapply run_fin_wait_2; eauto|auto].
  - cbn [fsm_closing]. destruct (is_ack p) eqn:A; [|destruct (is_rstack p) eqn:R; [|apply run_ret; auto]].
    + apply run_when; auto. intros C. rewrite andb_true_iff, Z.eqb_eq in C. destruct C as [C1 C2]. apply run_bind; auto.
      apply run_do; [apply ps_una; auto|]. intros P1. apply run_time_wait; auto. intros _. unfold may. cbn [st set_snd_una]. rewrite E. eauto.
    + apply run_when; auto. intros _. apply run_change; [exact Logic.I| |auto]. intros _. unfold may. rewrite E. eauto.
  - eapply run_weak; [eapply run_close_wait; eauto|auto].
  - cbn [fsm_last_ack]. destruct (is_ack p) eqn:A; [|destruct (is_rstack p) eqn:R; [|apply run_ret; auto]].
    + apply run_when; auto. intros C. rewrite andb_true_iff, Z.eqb_eq in C. destruct C as [C1 C2].
      apply run_change; [exact Logic.I| |auto]. intros _. unfold may. rewrite E. exists p. auto.
    + apply run_when; auto. intros _. apply run_change; [exact Logic.I| |auto]. intros _. unfold may. rewrite E. eauto.
  - apply run_ret; auto.
Qed.
(** ** the result: a call of tcp_fsm is a sequence of steps and raises at most an assertion of
    the assembler or of _transmit_data, or the KeyError of an unregistered socket *)
Lemma trace strict n e s : pre strict n s -> ok_event strict e s -> (forall c, e = ECall c -> c = Close) ->
  steps strict e s (fst (tcp_fsm e s)) /\ exn_ok (snd (tcp_fsm e s)).
Proof.
  intros P K C. assert (R : run strict n e s (tcp_fsm e s) (fun _ => True)).
  { destruct e as [p|c|]; [apply run_packet; auto|unfold tcp_fsm; apply run_call; auto|unfold tcp_fsm; apply run_etimer; auto]. }
  destruct R as (R1 & R2 & _). auto.
Qed.
