(** Received data is acknowledged. *)
From Verif Require Import Base BaseLemmas AddrModel TcpModel StackModel StackRxModel SessModel SpecSess SessProofs SessTrace SessRun SessInv SessTx SessKeep.

(** * The delayed acknowledgement timer *)
Definition dtimer (v : Z) (s : sess) : Prop := forall x, tget TDelayedAck (tmr s) = Some x -> 0 < x <= v.
Definition dt_inv (s : sess) : Prop := timers_ok s /\ dtimer DELAYED_ACK_DELAY s.
Lemma dt_dec v s : timers_ok s -> dtimer v s -> dtimer (v - 1) (set_tmr (tdec (tmr s)) s).
Proof.
  intros T D x. cbn [tmr set_tmr]. rewrite tget_dec by exact T. destruct (tget TDelayedAck (tmr s)) as [y|] eqn:E; [|discriminate].
  apply D in E. destruct (y - 1 =? 0) eqn:Z0; [discriminate|]. apply Z.eqb_neq in Z0. intros H. injection H as <-. lia.
Qed.
Lemma dt_set k v s : dt_inv s -> (k = TDelayedAck -> v = DELAYED_ACK_DELAY) -> dt_inv (set_tmr (tset k v (tmr s)) s).
Proof.
  intros [T D] K. split; [apply tset_nodup; exact T|]. intros x. cbn [tmr set_tmr]. rewrite tget_set.
  destruct (tkey_eqb k TDelayedAck) eqn:E; [|apply D]. apply tkey_eqb_eq in E. intros H. injection H as <-. rewrite (K E). unfold DELAYED_ACK_DELAY. lia.
Qed.
Lemma dt_pkt q syn ack fin rst data s : dt_inv s -> dt_inv (pkt q syn ack fin rst data s).
Proof.
  intros H. unfold pkt. cbv zeta. unfold dt_inv, timers_ok, dtimer. cbn [tmr].
  assert (H1 : dt_inv (if in_state [ESTABLISHED] s then set_tmr (tset TDelayedAck DELAYED_ACK_DELAY (tmr s)) s else s)).
  { destruct (in_state _ _); [apply dt_set; auto|exact H]. }
  destruct (in_state [ESTABLISHED] s); destruct (_ || _); try exact H1.
  - exact (dt_set (TRetransmit q) _ _ H1 (fun E => ltac:(discriminate E))).
  - exact (dt_set (TRetransmit q) _ _ H1 (fun E => ltac:(discriminate E))).
Qed.
Lemma dt_step strict e a b : pstep strict e a b -> dt_inv a -> dt_inv b.
Proof.
  intros S H. destruct S; try exact H.
  - split; [apply tdec_nodup, H|]. intros x X. apply (dt_dec DELAYED_ACK_DELAY) in X; [lia|apply H|apply H].
  - apply dt_set; auto. intros K. apply H0. exact K.
  - change (dt_inv (pkt (snd_una s) false true false true [] s)). apply dt_pkt. exact H.
  - destruct H0 as [[_ ->]|(_ & _ & ->)]; exact H.
  - destruct H0 as [[_ ->]|(_ & _ & ->)]; exact H.
  - rewrite rewind_eq. exact H.
  - apply dt_pkt. rewrite rewind_eq. exact H.
  - apply dt_pkt. exact H.
Qed.

(** * What was acknowledged *)
Lemma acknowledged_pkt n q syn ack fin rst data s : acknowledged n s \/ (ack = true /\ n <= rcv_nxt s) -> acknowledged n (pkt q syn ack fin rst data s).
Proof.
  intros [(t & I & F)|[-> H]].
  - exists t. split; [|exact F]. unfold pkt. cbn [sent]. apply in_app_iff. auto.
  - exists (segment s q syn true fin rst data). split; [unfold pkt; cbn [sent]; apply in_app_iff; cbn; auto|]. split; [reflexivity|exact H].
Qed.
Definition ak_inv (s : sess) : Prop :=
  (st s = SYN_SENT -> rcv_nxt s = 0 \/ snd_ini s < snd_una s) /\ (rcv_una s = 0 \/ acknowledged (rcv_una s) s) /\ 0 <= rcv_ini s.
Definition good_seq (e : event) (s : sess) : Prop := (forall p, e = EPacket p -> 0 <= d_seq p) .
Lemma ak_tx q syn ack fin rst data s : ak_inv s -> ack = true \/ rcv_nxt s = 0 -> ak_inv (pkt q syn ack fin rst data s).
Proof.
  intros (A & B & C) H. split; [exact A|]. split; [|exact C]. change (rcv_una (pkt q syn ack fin rst data s)) with (rcv_nxt s).
  destruct H as [->|H]; [right; apply acknowledged_pkt; right; split; [reflexivity|lia]|left; exact H].
Qed.
Lemma ak_step e a b : pstep true e a b -> pre0 a -> good_seq e a -> ak_inv a -> ak_inv b.
Proof.
  intros S P G H. destruct S; try exact H.
  - destruct H as (A & B & C). split; [|split; assumption]. unfold moved. sx. intros ->. cbn in H0. tauto.
  - assert (K : ak_inv (pkt (snd_una s) false true false true [] s)) by (apply ak_tx; auto).
    destruct K as (A & B & C). split; [intros E; discriminate E|]. split; assumption.
  - destruct H as (A & B & C). split; [sx; intros; congruence|]. split; [exact B|]. sx. apply G. exact H0.
  - destruct H as (A & B & C). split; [intros _; right; rewrite sync_una, sync_ini; destruct P as (P1 & P2 & _); specialize (H5 eq_refl); lia|].
    split; [exact B|]. rewrite sync_rcv_ini. apply G. exact H0.
  - destruct H0 as [[_ ->]|(_ & _ & ->)]; exact H.
  - assert (H' : ak_inv s) by (destruct H0 as [[_ ->]|(_ & _ & ->)]; exact H). destruct H' as (A & B & C).
    split; [|split; assumption]. change (st (acked p s)) with (st s). intros E. unfold takes in H1. rewrite E in H1. destruct H1.
  - rewrite rewind_eq. exact H.
  - assert (R : ak_inv (rewind s)) by (rewrite rewind_eq; exact H). apply ak_tx; [exact R|].
    destruct H1 as [E|[E|[]]]; unfold in_state; rewrite <- E; cbn; [right|left; reflexivity].
    destruct H as (A & _). destruct (A (eq_sym E)) as [A0|A0]; [|lia]. rewrite rewind_eq. exact A0.
  - apply ak_tx; [exact H|]. destruct ack; [auto|right]. unfold sends in H0. destruct syn; [|destruct fin; destruct H0]. destruct fin; [destruct H0|].
    destruct H0 as (_ & E & N & _). destruct H as (A & _). destruct (A E) as [A0|A0]; [exact A0|]. destruct P as (P1 & _). lia.
  - destruct H as (A & B & C). split; [|split; assumption]. sx. intros E. congruence.
Qed.

(** * An acknowledgement that is due *)
Definition due (n v : Z) (s : sess) : Prop :=
  timers_ok s /\ ~ In (st s) [LISTEN; SYN_SENT] /\ n <= rcv_nxt s /\ (acknowledged n s \/ rcv_una s < n /\ dtimer v s).
Lemma due_pkt n v q syn fin rst data s : due n v s -> due n v (pkt q syn true fin rst data s).
Proof.
  intros (T & A & B & C). split; [exact (la_pkt _ timers_lasting q syn true fin rst data s T)|]. split; [exact A|]. split; [exact B|]. left. apply acknowledged_pkt. auto.
Qed.
Lemma due_step n v e a b : pstep true e a b -> due n v a -> due n v b.
Proof.
  intros S H. destruct S; try exact H.
  - destruct H as (T & A & B & C). split; [apply tdec_nodup, T|]. split; [exact A|]. split; [exact B|]. destruct C as [C|[C D]]; [left; exact C|].
    right. split; [exact C|]. intros x X. apply dt_dec with (v := v) in X; auto. lia.
  - destruct H as (T & A & B & C). split; [apply tset_nodup, T|]. split; [exact A|]. split; [exact B|]. destruct C as [C|[C D]]; [left; exact C|].
    right. split; [exact C|]. intros x. cbn [tmr set_tmr]. rewrite tget_set. destruct (tkey_eqb k TDelayedAck) eqn:E; [|apply D].
    apply tkey_eqb_eq in E. destruct (H0 E). exfalso. lia.
  - destruct H as (T & A & B & C). split; [exact T|]. split; [|split; assumption]. unfold moved. sx. intros [E|[E|[]]]; subst n0; exact H0.
  - assert (K : due n v (pkt (snd_una s) false true false true [] s)) by (apply due_pkt; exact H).
    destruct K as (T & A & B & C). split; [exact T|]. split; [|split; assumption]. intros [E|[E|[]]]; discriminate E.
  - exfalso. destruct H as (_ & A & _). rewrite H1 in A. apply A. cbn. auto.
  - exfalso. destruct H as (_ & A & _). rewrite H1 in A. apply A. cbn. auto.
  - destruct H0 as [[_ ->]|(_ & _ & ->)]; exact H.
  - assert (H' : due n v s) by (destruct H0 as [[_ ->]|(_ & _ & ->)]; exact H). destruct H' as (T & A & B & C).
    assert (Q : d_seq p = rcv_nxt s).
    { unfold takes in H1. destruct (st s); rewrite ?fits_iff in H1; tauto. }
    split; [exact T|]. split; [exact A|]. split; [|exact C]. change (n <= d_seq p + zlen (d_data p) + b2z (d_syn p) + b2z (d_fin p)).
    pose proof (zlen_nonneg (d_data p)). pose proof (b2z_pos (d_syn p)). pose proof (b2z_pos (d_fin p)). lia.
  - rewrite rewind_eq. exact H.
  - assert (R : due n v (rewind s)) by (rewrite rewind_eq; exact H). destruct H1 as [E|[E|[]]].
    + exfalso. destruct H as (_ & A & _). rewrite <- E in A. apply A. cbn. auto.
    + unfold in_state. rewrite <- E. cbn. apply due_pkt. exact R.
  - assert (K : ack = true). { destruct ack; auto. exfalso. unfold sends in H0. destruct syn; [|destruct fin; exact H0]. destruct fin; [exact H0|].
      destruct H0 as (_ & E & _). destruct H as (_ & A & _). rewrite E in A. apply A. cbn. auto. }
    subst ack. apply due_pkt. exact H.
Qed.
Lemma due_steps n v e a b : steps true e a b -> due n v a -> due n v b.
Proof. induction 1; eauto using due_step. Qed.

(** * The tick *)
Definition up_end (m : fsm_state) : P unit :=
  _ <# retransmit_timeout ;; _ <# transmit_data ;; _ <# delayed_ack ;; pwhen (fun s => closing s && (zlen (tx_buf s) =? 0)) (change_state m).
Lemma change_st n s : st (fst (change_state n s)) = n.
Proof. unfold change_state. rewrite pbind_do. unfold pwhen, pif. destruct (in_state _ _); [destruct (reg _)|]; reflexivity. Qed.
Lemma tick_due n v k s m : pre true k s -> In (st s) [ESTABLISHED; CLOSE_WAIT] -> ~ In m [ESTABLISHED; CLOSE_WAIT] -> due n v s ->
  snd (up_end m s) = Ok tt -> In (st (fst (up_end m s))) [ESTABLISHED; CLOSE_WAIT] ->
  acknowledged n (fst (up_end m s)) \/ exists x, tget TDelayedAck (tmr (fst (up_end m s))) = Some x /\ 0 < x <= v.
Proof.
  intros P U M D. unfold up_end.
  assert (RT : retransmits s) by (unfold retransmits; cbn in *; intuition).
  assert (NS : true = true -> ~ In (st s) [SYN_SENT; SYN_RCVD]) by (intros _ X; cbn in U, X; intuition congruence).
  pose proof (run_timeout true k s P RT NS) as R1. unfold pbind. destruct (retransmit_timeout s) as [s1 [[]|x]] eqn:E1; [|cbn [snd]; intros K; discriminate K].
  destruct R1 as (S1 & _ & Q1). cbn [fst] in S1. pose proof (due_steps n v _ _ _ S1 D) as D1. pose proof (pre_steps _ _ _ _ _ S1 P) as P1.
  pose proof (run_transmit true k s1 P1) as R2. destruct (transmit_data s1) as [s2 [[]|x]] eqn:E2; [|cbn [snd]; intros K; discriminate K].
  destruct R2 as (S2 & _ & Q2). cbn [fst] in S2. pose proof (due_steps n v _ _ _ S2 D1) as D2. pose proof (pre_steps _ _ _ _ _ S2 P1) as P2.
  clear E1 E2. destruct (delayed_ack s2) as [s3 [[]|x]] eqn:E3; [|cbn [snd]; intros K; discriminate K].
  unfold pwhen, pif. destruct (closing s3 && (zlen (tx_buf s3) =? 0)); [rewrite change_st; intros _ K; exfalso; exact (M K)|]. intros _ _. cbn [fst pret].
  unfold delayed_ack, pwhen, pif in E3. destruct (expired TDelayedAck (tmr s2)) eqn:X.
  - left. unfold pbind, pif in E3. destruct D2 as (T2 & A2 & B2 & C2). destruct (rcv_una s2 <? rcv_nxt s2) eqn:L.
    + unfold transmit_ack in E3. rewrite transmit_eq in E3. cbn [seq_of] in E3. destruct (tcp_tx_ok _); [|discriminate E3].
      unfold register_timer, pdo in E3. injection E3 as <-.
      assert (K : acknowledged n (pkt (snd_nxt s2) false true false false [] s2)) by (apply acknowledged_pkt; auto). exact K.
    + apply Z.ltb_ge in L. cbn [pret] in E3. unfold register_timer, pdo in E3. injection E3 as <-. destruct C2 as [C2|[C2 _]]; [exact C2|exfalso; lia].
  - injection E3 as <-. destruct D2 as (T2 & A2 & B2 & C2). destruct C2 as [C2|[_ C2]]; [left; exact C2|].
    unfold expired in X. destruct (tget TDelayedAck (tmr s2)) as [x|] eqn:G; [|discriminate]. right. exists x. split; auto.
Qed.
Lemma tick_acks n v iss c : good true iss c -> In (st (c_sess c)) [ESTABLISHED; CLOSE_WAIT] -> due n v (c_sess c) ->
  snd (op_do OTick c) = Ok tt -> In (st (c_sess (fst (op_do OTick c)))) [ESTABLISHED; CLOSE_WAIT] ->
  acknowledged n (c_sess (fst (op_do OTick c))) \/ exists x, tget TDelayedAck (tmr (c_sess (fst (op_do OTick c)))) = Some x /\ 0 < x <= v - 1.
Proof.
  intros [P _] U D. cbn [op_do]. unfold tick. rewrite pbind_do. unfold with_sess. cbn [fst snd c_sess].
  set (s1 := set_tmr (tdec (tmr (c_sess c))) (c_sess c)).
  assert (P1 : pre true (zlen (c_written c)) s1) by (eapply pre_step; [apply (ps_dec _ ETimer); reflexivity|exact P]).
  assert (D1 : due n (v - 1) s1).
  { destruct D as (T & A & B & C). split; [apply tdec_nodup, T|]. split; [exact A|]. split; [exact B|]. destruct C as [C|[C Dt]]; [left; exact C|].
    right. split; [exact C|]. apply dt_dec; assumption. }
  assert (U1 : In (st s1) [ESTABLISHED; CLOSE_WAIT]) by exact U. clearbody s1. unfold tcp_fsm. cbn [fsm].
  destruct U1 as [E|[E|[]]]; rewrite <- E; cbn [fsm_established fsm_close_wait]; apply tick_due with (k := zlen (c_written c)); auto; cbn; intuition discriminate.
Qed.

(** * A steady run *)
Lemma due_moves n v o c c' : moves true o c c' -> due n v (c_sess c) -> due n v (c_sess c').
Proof.
  intros M D. destruct o; cbn [moves] in M.
  1-3: destruct M as ((e & _ & S) & _); eapply due_steps; eauto.
  - destruct M as [->|(_ & -> & _)]; exact D.
  - destruct M as (_ & b & w & d & -> & _). exact D.
Qed.
Lemma acknowledged_step n strict e a b : pstep strict e a b -> acknowledged n a -> acknowledged n b.
Proof.
  intros S H. destruct S; try exact H.
  - exact (acknowledged_pkt n (snd_una s) false true false true [] s (or_introl H)).
  - destruct H0 as [[_ ->]|(_ & _ & ->)]; exact H.
  - destruct H0 as [[_ ->]|(_ & _ & ->)]; exact H.
  - rewrite rewind_eq. exact H.
  - apply acknowledged_pkt. left. rewrite rewind_eq. exact H.
  - apply acknowledged_pkt. left. exact H.
Qed.
Lemma acknowledged_moves n strict o c c' : moves strict o c c' -> acknowledged n (c_sess c) -> acknowledged n (c_sess c').
Proof.
  intros M D. destruct o; cbn [moves] in M.
  1-3: destruct M as ((e & _ & S) & _); clear - S D; induction S; eauto using acknowledged_step.
  - destruct M as [->|(_ & -> & _)]; exact D.
  - destruct M as (_ & b & w & d & -> & _). exact D.
Qed.
Lemma acknowledged_steady iss n l : forall c, good true iss c -> steady iss l c -> acknowledged n (c_sess c) -> acknowledged n (c_sess (fst (op_run l c))).
Proof.
  induction l as [|o l IH]; intros c G S A; [exact A|]. rewrite run_head. destruct S as ((S0 & S1) & S2 & S3 & S4).
  pose proof (op_moves true iss o c G (fun _ => S0)) as M. apply IH; auto; [eapply good_moves; eauto|eapply acknowledged_moves; eauto].
Qed.
Lemma steady_acks iss n l : forall v c, good true iss c -> In (st (c_sess c)) [ESTABLISHED; CLOSE_WAIT] -> due n v (c_sess c) -> steady iss l c ->
  0 < v <= ticks l -> acknowledged n (c_sess (fst (op_run l c))).
Proof.
  induction l as [|o l IH]; intros v c G U D S V; [change (ticks []) with 0 in V; exfalso; lia|].
  rewrite run_head. rewrite ticks_cons in V. pose proof S as ((S0 & S1) & S2 & S3 & S4).
  pose proof (op_moves true iss o c G (fun _ => S0)) as M. pose proof (good_moves _ _ _ _ _ G M) as G'. pose proof (due_moves n v o c _ M D) as D'.
  destruct o.
  2-5: apply (IH v); auto; lia.
  destruct (tick_acks n v iss c G U D (S2 eq_refl) S3) as [A|(x & X & B)]; [apply (acknowledged_steady iss); auto|].
  apply (IH (v - 1)); auto; try lia. destruct D' as (T & A1 & B1 & [C|[C _]]); split; auto. split; [exact A1|]. split; [exact B1|]. right. split; [exact C|].
  intros y Y. rewrite X in Y. injection Y as <-. exact B.
Qed.

(** * Reachable connections *)
Lemma seq_ok iss : allowed_ok true iss (seq_op iss).
Proof. intros o c [H _] _. exact H. Qed.
Lemma ack_reach iss c0 c : opened iss c0 -> delay_ok c0 -> reach (seq_op iss) c0 c -> dt_inv (c_sess c) /\ ak_inv (c_sess c).
Proof.
  intros O D R. revert c R. apply (reach_ind_moves true iss (seq_op iss) c0 (fun c => dt_inv (c_sess c) /\ ak_inv (c_sess c)) O (seq_ok iss)).
  - split; [split; [eapply timers_start; eauto|exact D]|].
    destruct O as (_ & call & lip & lport & rip & rport & timers & K & N & ->). unfold ak_inv. destruct K as [-> | ->]; cbn; repeat split; auto; try lia.
  - intros o c c' [_ A] [[P0 PS] I] _ [J1 J2] M.
    assert (STEPS : forall e, op_event o = Some e -> steps true e (c_sess c) (c_sess c') -> dt_inv (c_sess c') /\ ak_inv (c_sess c')).
    { intros e E S. assert (G : good_seq e (c_sess c)). { intros p ->. destruct o; try discriminate. injection E as ->. exact A. }
      clear - S G J1 J2 P0. revert P0 G J1 J2. induction S as [s|a b d S SS IH]; intros; [auto|]. apply IH.
      - eapply pre0_step; eauto.
      - exact G.
      - eapply dt_step; eauto.
      - eapply ak_step; eauto. }
    destruct o; cbn [moves op_event] in *.
    1-3: destruct M as ((e & E & S) & _); eapply STEPS; eauto.
    + destruct M as [->|(_ & -> & _)]; auto.
    + destruct M as (_ & b & w & d & -> & _). auto.
Qed.
Lemma data_acked iss c0 c l : opened iss c0 -> delay_ok c0 -> reach (seq_op iss) c0 c -> In (st (c_sess c)) [ESTABLISHED; CLOSE_WAIT] ->
  steady iss l c -> 100 <= ticks l -> acknowledged (rcv_nxt (c_sess c)) (c_sess (fst (op_run l c))).
Proof.
  intros O D R U S T. pose proof (reach_good true iss (seq_op iss) c0 c O (seq_ok iss) R) as G.
  destruct (ack_reach iss c0 c O D R) as [[J1 J2] (J3 & J4 & J5)].
  apply (steady_acks iss _ l 100); auto; [|lia]. split; [exact J1|]. split; [cbn in *; intuition congruence|]. split; [lia|].
  destruct (Z_lt_le_dec (rcv_una (c_sess c)) (rcv_nxt (c_sess c))) as [L|L]; [right; split; [exact L|exact J2]|left].
  destruct J4 as [Z|(t & I & F & B)]; [|exists t; repeat split; auto; lia].
  exfalso. destruct G as [[(_ & _ & _ & _ & K) _] _]. assert (X : ~ In (st (c_sess c)) [CLOSED; LISTEN; SYN_SENT]) by (cbn in *; intuition congruence).
  apply K in X. lia.
Qed.
