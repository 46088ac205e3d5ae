(** The end of a TCP connection. *)
From Verif Require Import Base BaseLemmas AddrModel TcpModel StackModel StackRxModel SessModel SpecSess SpecSess2 SpecSess3 SpecSess4 SessProofs SessTrace SessRun SessInv SessTx SessReset SessKeep SessTick SessHead SessOoo SessTaken SessQueue.

(** * The FIN *)
Definition fin_inv (s : sess) : Prop := (forall t, In t (sent s) -> x_ffin t = true -> snd_fin s <> 0) /\ (snd_fin s <> 0 -> exists t, In t (sent s) /\ x_ffin t = true).
Lemma fin_pkt q syn ack fin rst data s : 0 <= q -> fin_inv s -> fin_inv (pkt q syn ack fin rst data s).
Proof.
  intros Q [H1 H2]. pose proof (zlen_nonneg data). pose proof (b2z_nn syn). unfold fin_inv. sx. destruct fin.
  - cbn [b2z]. split; [intros; lia|]. intros _. eexists. split; [apply in_app_iff; right; left; reflexivity|reflexivity].
  - split.
    + intros t T F. apply in_app_iff in T. destruct T as [T|[<-|[]]]; [eauto|discriminate F].
    + intros N. destruct (H2 N) as (t & T & F). exists t. split; [apply in_app_iff; auto|auto].
Qed.
Lemma fin_same a b : sent b = sent a -> snd_fin b = snd_fin a -> fin_inv a -> fin_inv b.
Proof. unfold fin_inv. intros -> ->. auto. Qed.
Lemma fin_step n e a b : pstep true e a b -> pre true n a -> fin_inv a -> fin_inv b.
Proof.
  intros S [(P1 & P2 & _) PS] F. destruct (PS eq_refl) as [I0 _]. destruct S; try exact F.
  - apply (fin_same (pkt (snd_una s) false true false true [] s)); try reflexivity. apply fin_pkt; [lia|exact F].
  - destruct H as [[_ ->]|(_ & _ & ->)]; exact F.
  - destruct H as [[_ ->]|(_ & _ & ->)]; exact F.
  - rewrite rewind_eq. exact F.
  - apply fin_pkt; [lia|]. rewrite rewind_eq. exact F.
  - apply fin_pkt; [lia|exact F].
Qed.
Lemma fin_steps n e a b : steps true e a b -> pre true n a -> fin_inv a -> fin_inv b.
Proof. induction 1; auto. intros P F. apply IHsteps; [eapply pre_step; eauto|eapply fin_step; eauto]. Qed.
Lemma fin_reach iss c0 c : opened iss c0 -> reach (sane_op iss) c0 c -> fin_inv (c_sess c).
Proof.
  intros O. apply (reach_ind_moves true iss (sane_op iss) c0 (fun c => fin_inv (c_sess c))); auto using sane_ok.
  - destruct O as (_ & call & lip & lport & rip & rport & timers & K & _ & ->). destruct K as [-> | ->]; (split; [intros t []|intros X; exfalso; apply X; reflexivity]).
  - intros o x x' _ [G _] _ T M. destruct o; cbn [moves] in M.
    1-3: destruct M as ((e & _ & S) & _); eapply fin_steps; eauto.
    + destruct M as [->|(_ & -> & _)]; exact T.
    + destruct M as (_ & b & v & d & -> & _). exact T.
Qed.
Lemma sane_of iss c0 c : reach (roomy_op iss) c0 c -> reach (sane_op iss) c0 c.
Proof. induction 1 as [|c o R IH [A _]]; [apply reach_0|apply reach_op; auto]. Qed.
(** where the FIN ends *)
Lemma fin_end iss c0 c t : opened iss c0 -> reach (sane_op iss) c0 c -> fin_out t c -> In (st (c_sess c)) closing_states ->
  seg_end t = iss + 2 + zlen (c_written c) /\ snd_fin (c_sess c) = seg_end t /\ snd_max (c_sess c) = seg_end t.
Proof.
  intros O R [T F] U. pose proof (sent_reach iss c0 c O R) as C. rewrite Forall_forall in C. destruct (C _ T) as [_ C2]. specialize (C2 F).
  pose proof (headers iss c0 c t O) as H. assert (R2 : reach any_op c0 c) by (clear - R; induction R; [apply reach_0|apply reach_op; auto; exact Logic.I]).
  destruct (H R2 T) as (_ & _ & _ & _ & _ & _ & _ & _ & _ & _ & H1). rewrite F in H1.
  assert (E : seg_end t = iss + 2 + zlen (c_written c)).
  { unfold seg_end. rewrite F, C2. destruct (x_fsyn t); [contradiction|]. destruct (x_frst t); [contradiction|]. destruct H1 as [-> _]. change (zlen (@nil Z)) with 0. cbn [b2z]. lia. }
  destruct (fin_reach iss c0 c O R) as [K _]. specialize (K t T F).
  destruct (reach_good true iss (sane_op iss) c0 c O (sane_ok iss) R) as [[_ PS] I]. destruct (PS eq_refl) as [_ SH].
  split; [exact E|]. rewrite E. unfold shape in SH. rewrite I in SH. cbn in U. destruct U as [U|[U|[U|[U|[U|[]]]]]]; rewrite <- U in SH; lia.
Qed.
(** * What is delivered *)
Lemma delivered_closing iss c0 c : opened iss c0 -> reach (sane_op iss) c0 c -> In (st (c_sess c)) closing_states -> delivered iss c.
Proof.
  intros O R U. destruct (reach_good true iss (sane_op iss) c0 c O (sane_ok iss) R) as [[_ PS] I]. destruct (PS eq_refl) as [_ SH]. unfold delivered.
  unfold shape in SH. rewrite I in SH. cbn in U. destruct U as [U|[U|[U|[U|[U|[]]]]]]; rewrite <- U in SH; lia.
Qed.
Definition end_inv (n : Z) (s : sess) : Prop := st s = CLOSED -> aborted s \/ snd_ini s + 1 + n <= snd_una s.
Lemma end_step n e a b : pstep true e a b -> pre true n a -> end_inv n a -> end_inv n b.
Proof.
  intros S P E. pose proof (una_step _ _ _ _ S (proj1 P)) as U. pose proof (ini_step _ _ _ _ S) as I. intros C. rewrite I.
  assert (SAME : st a = st b -> hist b = hist a -> aborted b \/ snd_ini a + 1 + n <= snd_una b).
  { intros X Y. rewrite <- X in C. destruct (E C) as [(z & Z1 & Z2)|Z]; [left; exists z; rewrite Y; auto|right; lia]. }
  destruct S; try (apply SAME; reflexivity).
  - (* go *) cbn [st moved set_st set_hist] in C. subst n0. specialize (H0 eq_refl). destruct P as [_ PS]. destruct (PS eq_refl) as [_ SH].
    unfold may in H0. unfold shape in SH. unfold aborted. sx. destruct (st s) eqn:ST; try contradiction;
    try (left; eexists; split; [apply in_app_iff; right; left; reflexivity|cbn; intuition discriminate]); right; lia.
  - (* gone *) destruct P as [_ PS]. destruct (PS eq_refl) as [_ SH]. unfold shape in SH.
    assert (HH : forall q, hist (gone q) = hist q ++ [(st q, CLOSED)]) by reflexivity.
    unfold aborted. rewrite HH.
    cbn in H0. destruct H0 as [X|[X|[X|[X|[X|[X|[]]]]]]]; rewrite <- X in *;
    try (left; eexists; split; [apply in_app_iff; right; left; reflexivity|cbn; intuition discriminate]). right. rewrite gone_st in C. lia.
  - destruct H as [[_ ->]|(_ & _ & ->)]; apply SAME; reflexivity.
  - destruct H as [[_ ->]|(_ & _ & ->)]; apply SAME; reflexivity.
  - apply SAME; rewrite rewind_eq; reflexivity.
  - apply SAME; rewrite rewind_eq; reflexivity.
Qed.
Lemma end_steps n e a b : steps true e a b -> pre true n a -> end_inv n a -> end_inv n b.
Proof. induction 1; auto. intros P F. apply IHsteps; [eapply pre_step; eauto|eapply end_step; eauto]. Qed.
Lemma end_reach iss c0 c : opened iss c0 -> reach (sane_op iss) c0 c -> end_inv (zlen (c_written c)) (c_sess c).
Proof.
  intros O. apply (reach_ind_moves true iss (sane_op iss) c0 (fun c => end_inv (zlen (c_written c)) (c_sess c))); auto using sane_ok.
  - destruct O as (_ & call & lip & lport & rip & rport & timers & K & _ & ->). destruct K as [-> | ->]; intros X; discriminate X.
  - intros o x x' _ [G _] _ T M. destruct o; cbn [moves] in M.
    1-3: destruct M as ((e & _ & S) & _ & ->); eapply end_steps; eauto.
    + destruct M as [->|(E & S & _ & W)]; [exact T|]. rewrite S. intros X. cbn [st set_tx_buf] in X. rewrite X in E. cbn in E. intuition discriminate.
    + destruct M as (W & b & v & d & S & _). rewrite W, S. exact T.
Qed.
Lemma delivered_reach iss c0 c : opened iss c0 -> reach (sane_op iss) c0 c -> In (st (c_sess c)) (CLOSED :: closing_states) -> aborted (c_sess c) \/ delivered iss c.
Proof.
  intros O R [U|U]; [|right; eapply delivered_closing; eauto]. destruct (end_reach iss c0 c O R (eq_sym U)) as [H|H]; [auto|right].
  destruct (reach_good true iss (sane_op iss) c0 c O (sane_ok iss) R) as [_ I]. unfold delivered. rewrite <- I. exact H.
Qed.
(** * Once the FIN is sent, it is the last that was sent *)
Definition fin_nxt (s : sess) : Prop := In (st s) closing_states -> snd_fin s <> 0 -> snd_nxt s = snd_fin s.
Lemma closing_shape n s : pre true n s -> In (st s) closing_states -> snd_fin s <> 0 -> snd_fin s = snd_ini s + 2 + n /\ snd_max s = snd_ini s + 2 + n.
Proof.
  intros [_ PS] U F. destruct (PS eq_refl) as [_ SH]. unfold shape in SH. cbn in U. destruct U as [U|[U|[U|[U|[U|[]]]]]]; rewrite <- U in SH; lia.
Qed.
Lemma nxt_step n e a b : e <> ETimer -> pstep true e a b -> pre true n a -> fin_nxt a -> fin_nxt b.
Proof.
  intros NT S P F. pose proof (pre_step _ _ _ _ _ S P) as PB. destruct S; try exact F; try contradiction.
  - (* go *) intros U N. specialize (H0 eq_refl). sx. unfold may in H0. destruct P as [_ PS]. destruct (PS eq_refl) as [_ SH]. unfold shape in SH.
    assert (C : In (st s) closing_states -> snd_nxt s = snd_fin s) by (intros X; apply F; auto).
    destruct (st s) eqn:ST; destruct n0; try contradiction; try (cbn in U; intuition discriminate); try (apply C; cbn; auto 10; fail); exfalso; apply N; tauto.
  - (* sync *) intros U N. exfalso. change (st (acked p (synchronise p s))) with (st s) in U. rewrite H0 in U. cbn in U. intuition discriminate.
  - destruct H as [[_ ->]|(_ & _ & ->)]; exact F.
  - (* ack *) intros U N. change (st (acked p s)) with (st s) in U. change (snd_fin (acked p s)) with (snd_fin s) in N |- *.
    assert (X : fin_nxt s) by (destruct H as [[_ ->]|(_ & _ & ->)]; exact F). specialize (X U N).
    assert (PS : pre true n s) by (eapply pre_origin; eauto). destruct (closing_shape n s PS U N) as [Y1 Y2].
    cbn [snd_nxt acked]. destruct (_ && _) eqn:C; [|exact X]. apply andb_true_iff in C. rewrite Z.ltb_lt, Z.leb_le in C. lia.
  - intros U. change (st (set_snd_nxt (snd_una s) s)) with (st s) in U. exfalso. cbn in U. destruct H as [H|H]; rewrite H in U; intuition discriminate.
  - (* send *) unfold sends in H. destruct syn, ack, fin; try contradiction; try (destruct H as [H _]; contradiction).
    destruct H as [->|[H _]]; [|contradiction]. intros U N. cbn [snd_nxt snd_fin pkt st b2z] in *. change (zlen (@nil Z)) with 0. specialize (F U N). lia.
Qed.
Lemma nxt_steps n e a b : e <> ETimer -> steps true e a b -> pre true n a -> fin_nxt a -> fin_nxt b.
Proof. intros NT. induction 1; auto. intros P F. apply IHsteps; [eapply pre_step; eauto|eapply nxt_step; eauto]. Qed.
(** ticks before the FIN *)
Definition before_fin (s : sess) : Prop := snd_fin s = 0 /\ ~ In (st s) closing_states.
Lemma bf_tx o syn ack rst data : keeps_it before_fin (transmit_packet o syn ack false rst data).
Proof. apply keeps_tx. intros s H. exact H. Qed.
Lemma bf_data : keeps_it before_fin transmit_data.
Proof.
  unfold transmit_data. apply keeps_bind; [apply keeps_assert|]. intros _. apply keeps_if; [apply bf_tx|]. apply keeps_if; [apply bf_tx|].
  apply keeps_if.
  - intros s H. cbv zeta. destruct (_ =? 0); [exact H|]. apply bf_tx. exact H.
  - intros s H. unfold pwhen, pif. destruct (in_state [FIN_WAIT_1; LAST_ACK] s) eqn:I; [|exact H]. apply in_state_iff in I. destruct H as [_ H].
    exfalso. apply H. cbn in I |- *. intuition.
Qed.
Lemma bf_closed : keeps_it before_fin (change_state CLOSED).
Proof.
  intros s [H _]. unfold change_state. rewrite pbind_do. unfold pwhen, pif. rewrite in_state_1. sx. cbn [fsm_eqb].
  destruct (reg s); (split; [exact H|cbn; intuition discriminate]).
Qed.
Lemma bf_giveup : keeps_it before_fin give_up.
Proof.
  unfold give_up. apply keeps_bind; [intros s H; apply bf_tx; exact H|]. intros _. apply keeps_bind; [apply keeps_when; apply keeps_bind; [|intros _]; intros s H; exact H|].
  intros _. apply keeps_bind; [apply keeps_when; apply keeps_bind; [|intros _]; intros s H; exact H|]. intros _. apply bf_closed.
Qed.
Lemma bf_timeout : keeps_it before_fin retransmit_timeout.
Proof.
  intros s H. unfold retransmit_timeout. destruct (dget _ _); [|exact H]. destruct (expired _ _); [|exact H]. destruct (_ =? _); [apply bf_giveup; exact H|].
  unfold pdo. cbn [fst]. rewrite rewind_eq. exact H.
Qed.
Lemma bf_delayed : keeps_it before_fin delayed_ack.
Proof. unfold delayed_ack. apply keeps_when. apply keeps_bind; [apply keeps_when, bf_tx|]. intros _ s H. exact H. Qed.
Lemma bf_end m s : before_fin s -> snd_fin (fst ((_ <# retransmit_timeout ;; _ <# transmit_data ;; _ <# delayed_ack ;;
    pwhen (fun s => closing s && (zlen (tx_buf s) =? 0)) (change_state m)) s)) = 0.
Proof.
  intros H. assert (L : leads before_fin (_ <# retransmit_timeout ;; _ <# transmit_data ;; _ <# delayed_ack ;;
    pwhen (fun s => closing s && (zlen (tx_buf s) =? 0)) (change_state m)) (fun s => snd_fin s = 0)); [|apply L; exact H]. clear s H.
  assert (W : forall s, before_fin s -> snd_fin s = 0) by (intros s H; apply H).
  eapply leads_bind; [apply bf_timeout|exact W|]. intros _. eapply leads_bind; [apply bf_data|exact W|]. intros _. eapply leads_bind; [apply bf_delayed|exact W|].
  intros _ s H. unfold pwhen, pif. destruct (_ && _); [|apply W; exact H]. unfold change_state. rewrite pbind_do. unfold pwhen, pif. destruct (in_state _ _); [|apply H]. sx.
  destruct (reg s); apply H.
Qed.
(** ticks from the FIN on *)
Lemma fin_data s s' : In (st s) [FIN_WAIT_1; LAST_ACK] -> transmit_data s = (s', Ok tt) -> snd_nxt s' = snd_fin s'.
Proof.
  intros U. unfold transmit_data, passert, pbind. destruct (_ && _); [|discriminate]. unfold pwhen, pif.
  assert (X : in_state [SYN_SENT] s = false /\ in_state [SYN_RCVD] s = false /\ in_state [ESTABLISHED; CLOSE_WAIT] s = false /\ in_state [FIN_WAIT_1; LAST_ACK] s = true)
    by (unfold in_state; destruct U as [U|[U|[]]]; rewrite <- U; auto).
  destruct X as (-> & -> & -> & ->). cbn [andb]. destruct (snd_nxt s =? snd_fin s) eqn:E; cbn [negb].
  - intros K. injection K as <-. apply Z.eqb_eq. exact E.
  - rewrite transmit_eq. destruct (tcp_tx_ok _); [|discriminate]. intros K. injection K as <-. reflexivity.
Qed.
Lemma data_closed s : st s = CLOSED -> fst (transmit_data s) = s.
Proof. intros E. unfold transmit_data, passert, pbind. destruct (_ && _); [|reflexivity]. unfold pwhen, pif, in_state. rewrite E. reflexivity. Qed.
Lemma fin_two s s' : In (st s) [FIN_WAIT_1; LAST_ACK] -> (_ <# retransmit_timeout ;; transmit_data) s = (s', Ok tt) -> st s' = CLOSED \/ snd_nxt s' = snd_fin s'.
Proof.
  intros U. unfold pbind, retransmit_timeout. destruct (dget _ _); [|intros K; right; eapply fin_data; eauto].
  destruct (expired _ _); [|intros K; right; eapply fin_data; eauto]. destruct (_ =? _).
  - rewrite give_up_eq. destruct (tcp_tx_ok _); [|discriminate]. destruct (reg s); [|discriminate].
    assert (C : st (set_reg false (gone s)) = CLOSED) by reflexivity. generalize dependent (set_reg false (gone s)). intros g C K. left.
    pose proof (data_closed g C) as D. rewrite K in D. cbn [fst] in D. congruence.
  - unfold pdo. intros K. right. eapply fin_data; [|exact K]. rewrite rewind_eq. exact U.
Qed.
Lemma bf_two : keeps_it before_fin (_ <# retransmit_timeout ;; transmit_data).
Proof. apply keeps_bind; [apply bf_timeout|]. intros _. apply bf_data. Qed.
Lemma fin_tick n s : pre true n s -> snd (tcp_fsm ETimer s) = Ok tt -> fin_nxt s -> fin_nxt (fst (tcp_fsm ETimer s)).
Proof.
  intros [_ PS] K F U N. destruct (PS eq_refl) as [_ SH]. unfold tcp_fsm in *. cbn [fsm] in *. unfold shape in SH. destruct (st s) eqn:ST; cbn [fsm_closed fsm_listen fsm_fin_wait_2 fsm_closing pret fst] in *.
  - apply F; auto.
  - apply F; auto.
  - exfalso. assert (B : before_fin s) by (split; [destruct SH as [(_ & SH & _) _]; exact SH|rewrite ST; cbn; intuition discriminate]). destruct (bf_two s B) as [_ X]. contradiction.
  - exfalso. assert (B : before_fin s) by (split; [destruct SH as [(_ & SH & _) _]; exact SH|rewrite ST; cbn; intuition discriminate]). destruct (bf_two s B) as [_ X]. contradiction.
  - exfalso. apply N. apply bf_end. split; [apply SH|rewrite ST; cbn; intuition discriminate].
  - destruct (fsm_fin_wait_1 _ _ _) as [s' r] eqn:E. cbn [fst snd] in *. subst r. destruct (fin_two s s') as [X|X]; auto; [rewrite ST; cbn; auto|].
    rewrite X in U. cbn in U. intuition discriminate.
  - apply F; auto.
  - apply F; auto.
  - exfalso. apply N. apply bf_end. split; [apply SH|rewrite ST; cbn; intuition discriminate].
  - destruct (fsm_last_ack _ _) as [s' r] eqn:E. cbn [fst snd] in *. subst r. destruct (fin_two s s') as [X|X]; auto; [rewrite ST; cbn; auto|].
    rewrite X in U. cbn in U. intuition discriminate.
  - cbn [fsm_time_wait] in *. unfold pwhen, pif in *. destruct (expired _ _); [|apply F; auto]. exfalso. unfold change_state in U. rewrite pbind_do in U. unfold pwhen, pif in U.
    rewrite in_state_1 in U. change (st (set_st CLOSED (set_hist (hist s ++ [(st s, CLOSED)]) s))) with CLOSED in U. cbn [fsm_eqb] in U. destruct (reg _); cbn in U; intuition discriminate.
Qed.
Lemma nxt_reach iss c0 c : opened iss c0 -> ports_ok c0 -> iss + 2 < 2 ^ 32 -> reach (roomy_op iss) c0 c -> fin_nxt (c_sess c).
Proof.
  intros O PO IB R. induction R as [|c o R IH A].
  - destruct O as (_ & call & lip & lport & rip & rport & timers & K & _ & ->). intros _ N. exfalso. apply N. destruct K as [-> | ->]; reflexivity.
  - pose proof (reach_good true iss (roomy_op iss) c0 c O (roomy_ok iss) R) as G. pose proof G as [P I].
    pose proof (op_moves true iss o c G (fun S => roomy_ok iss _ _ A S)) as M. destruct o; cbn [moves] in M.
    + (* tick *) pose proof (tick_never_raises iss c0 c O PO IB R) as NR. cbn [op_do] in *. unfold tick in *. rewrite pbind_do in *. unfold with_sess in *. cbn [fst snd c_sess] in *.
      eapply fin_tick; [|exact NR|exact IH]. eapply pre_step; [apply (ps_dec true ETimer); reflexivity|exact P].
    + destruct M as ((e & E & S) & _). injection E as <-. eapply nxt_steps; [|exact S|exact P|exact IH]. discriminate.
    + destruct M as ((e & E & S) & _). injection E as <-. eapply nxt_steps; [|exact S|exact P|exact IH]. discriminate.
    + destruct M as [->|(_ & -> & _)]; exact IH.
    + destruct M as (_ & b & v & d & -> & _). exact IH.
Qed.
(** * Only the acknowledgement of the FIN ends the connection *)
Definition fin_wait (p : tmd) (s : sess) : Prop := snd_fin s <> 0 /\ fin_nxt s /\ In (st s) (CLOSED :: closing_states) /\ (In (st s) unacked \/ d_rst p = true \/ d_ack p = true /\ snd_fin s <= d_ackn p).
Lemma wait_step n p a b : pstep true (EPacket p) a b -> pre true n a -> fin_wait p a -> fin_wait p b.
Proof.
  intros S P (N & F & C & W). assert (F2 : fin_nxt b) by (eapply nxt_step; [|exact S|exact P|exact F]; discriminate).
  assert (SAME : st b = st a -> snd_fin b = snd_fin a -> fin_wait p b) by (intros X Y; unfold fin_wait; rewrite X, Y; auto).
  destruct S; try (apply SAME; reflexivity); try discriminate.
  - (* go *) specialize (H0 eq_refl). unfold may in H0. unfold fin_wait. split; [exact N|split; [exact F2|]]. sx.
    assert (NX : In (st s) unacked -> snd_nxt s = snd_fin s) by (intros X; apply F; auto; cbn in X |- *; tauto).
    destruct W as [W|W]; [|split; [|auto]; destruct (st s) eqn:ST; destruct n0; try contradiction; cbn; auto 10; cbn in C; intuition discriminate].
    specialize (NX W). cbn in W. destruct (st s) eqn:ST; try (exfalso; intuition discriminate); destruct n0; try contradiction.
    + destruct H0 as (q & E & R). injection E as <-. split; [cbn; auto 10|]. right. left. apply flags_rstack in R. apply R.
    + destruct H0 as (q & E & A & [B|[B1 B2]]); [contradiction|]. injection E as <-. split; [cbn; auto 10|]. right. right. auto.
    + split; [cbn; auto 10|left; cbn; auto].
    + destruct H0 as (q & E & A & B). injection E as <-. split; [cbn; auto 10|]. right. right. split; [apply finack_ack; auto|auto].
    + destruct H0 as (q & E & R). injection E as <-. split; [cbn; auto 10|]. right. left. apply flags_rstack in R. apply R.
    + destruct H0 as (q & E & A & B). injection E as <-. split; [cbn; auto 10|]. right. right. split; [apply ack_ack; auto|lia].
    + destruct H0 as (q & E & [R|[A B]]); injection E as <-; (split; [cbn; auto 10|]).
      * right. left. apply flags_rstack in R. apply R.
      * right. right. split; [apply ack_ack; auto|lia].
  - destruct H as [[_ ->]|(_ & _ & ->)]; apply SAME; reflexivity.
  - destruct H as [[_ ->]|(_ & _ & ->)]; apply SAME; reflexivity.
  - (* send *) assert (fin = false) as -> by (unfold sends in H; destruct syn, ack, fin; try contradiction; auto; destruct H as [H _]; discriminate). apply SAME; reflexivity.
Qed.
Lemma wait_steps n p a b : steps true (EPacket p) a b -> pre true n a -> fin_wait p a -> fin_wait p b.
Proof. intros S. remember (EPacket p) as e. induction S; auto. subst e. intros P F. apply IHS; [eapply pre_step; eauto|eapply wait_step; eauto]. Qed.
Lemma close_unacked fuel s : In (st s) unacked -> fsm (S fuel) (ECall Close) s = (s, Ok tt).
Proof. intros U. cbn [fsm]. cbn in U. destruct U as [U|[U|[U|[]]]]; rewrite <- U; reflexivity. Qed.
Lemma fin_acked iss c0 c o t : opened iss c0 -> ports_ok c0 -> iss + 2 < 2 ^ 32 -> reach (roomy_op iss) c0 c -> roomy_op iss o c -> fin_out t c ->
  In (st (c_sess c)) unacked -> In (st (c_sess (fst (op_do o c)))) [FIN_WAIT_2; TIME_WAIT; CLOSED] -> o <> OTick ->
  exists p, o = OSegment p /\ (d_rst p = true \/ d_ack p = true /\ d_ackn p = seg_end t).
Proof.
  intros O PO IB R A T U V NT. pose proof (reach_good true iss (roomy_op iss) c0 c O (roomy_ok iss) R) as G. pose proof G as [P I].
  assert (UC : In (st (c_sess c)) closing_states) by (cbn in U |- *; tauto).
  destruct (fin_end iss c0 c t O (sane_of _ _ _ R) T UC) as (E1 & E2 & E3). pose proof (zlen_nonneg (c_written c)) as ZN.
  assert (IO : 0 <= iss) by apply O.
  assert (DIFF : st (c_sess (fst (op_do o c))) <> st (c_sess c)) by (intros X; rewrite X in V; cbn in U, V; intuition congruence).
  pose proof (op_moves true iss o c G (fun S => roomy_ok iss _ _ A S)) as M. destruct o; cbn [moves] in M.
  - contradiction.
  - exists p. split; [reflexivity|]. assert (W : fin_wait p (c_sess c)).
    { split; [lia|]. split; [eapply nxt_reach; eauto|]. split; [right; exact UC|left; exact U]. }
    destruct M as ((e & E & S) & _). injection E as <-. pose proof (wait_steps _ _ _ _ S P W) as (_ & _ & _ & [X|[X|[X Y]]]); [exfalso; cbn in X, V; intuition congruence|auto|].
    right. split; [exact X|]. assert (F : snd_fin (c_sess (fst (op_do (OSegment p) c))) = snd_fin (c_sess c)).
    { clear - S. remember (EPacket p) as e. induction S; auto. subst e. rewrite IHS by reflexivity. destruct H; try reflexivity; try discriminate.
      - destruct H as [[_ ->]|(_ & _ & ->)]; reflexivity.
      - destruct H as [[_ ->]|(_ & _ & ->)]; reflexivity.
      - assert (fin = false) as -> by (unfold sends in H; destruct syn, ack, fin; try contradiction; auto; destruct H as [H _]; discriminate). reflexivity. }
    rewrite F, E2 in Y. destruct (Z.leb_spec (d_ackn p) (snd_max (c_sess c))) as [L|L]; [lia|]. exfalso. apply DIFF.
    cbn [op_do]. rewrite ack_ignored; auto. destruct P as [(Q1 & Q2 & _) _]. lia.
  - exfalso. apply DIFF. cbn [op_do]. unfold tcp_fsm. rewrite close_unacked by assumption. reflexivity.
  - exfalso. apply DIFF. destruct M as [->|(_ & -> & _)]; reflexivity.
  - exfalso. apply DIFF. destruct M as (_ & b & v & d & -> & _). reflexivity.
Qed.
(** * Without a FIN *)
Definition half_closed : list fsm_state := [FIN_WAIT_2; TIME_WAIT; CLOSED].
Lemma half_pkt q syn ack rst data s t : In t (sent (pkt q syn ack false rst data s)) -> x_ffin t = true -> In t (sent s).
Proof. cbn [sent pkt]. intros T F. apply in_app_iff in T. destruct T as [T|[<-|[]]]; [exact T|discriminate F]. Qed.
Lemma half_step e a b : pstep true e a b -> In (st a) half_closed -> In (st b) half_closed /\ (forall t, In t (sent b) -> x_ffin t = true -> In t (sent a)).
Proof.
  intros S U. assert (SAME : st b = st a -> sent b = sent a -> In (st b) half_closed /\ (forall t, In t (sent b) -> x_ffin t = true -> In t (sent a))) by (intros -> ->; auto).
  destruct S; try (apply SAME; reflexivity).
  - specialize (H0 eq_refl). unfold may in H0. split; [|auto]. sx. cbn in U. destruct (st s) eqn:ST; try (exfalso; intuition discriminate); destruct n; try contradiction; cbn; auto.
  - exfalso. cbn in U, H0. destruct U as [U|[U|[U|[]]]]; rewrite <- U in H0; intuition discriminate.
  - destruct H as [[_ ->]|(_ & _ & ->)]; apply SAME; reflexivity.
  - destruct H as [[_ ->]|(_ & _ & ->)]; apply SAME; reflexivity.
  - rewrite rewind_eq. auto.
  - exfalso. cbn in U, H0. destruct U as [U|[U|[U|[]]]]; rewrite <- U in H0; intuition discriminate.
  - split; [exact U|]. intros t T F. destruct fin; [|eapply half_pkt; eauto]. exfalso. unfold sends in H. destruct syn, ack; try contradiction.
    destruct H as (_ & E & _). cbn in U. destruct E as [E|E]; rewrite E in U; intuition discriminate.
Qed.
Lemma half_steps e a b : steps true e a b -> In (st a) half_closed -> In (st b) half_closed /\ (forall t, In t (sent b) -> x_ffin t = true -> In t (sent a)).
Proof. induction 1 as [|a b c S SS IH]; auto. intros U. destruct (half_step _ _ _ S U) as [U1 F1]. destruct (IH U1) as [U2 F2]. split; auto. Qed.
Lemma half_reach iss c0 c c' : opened iss c0 -> reach (sane_op iss) c0 c -> In (st (c_sess c)) half_closed -> reach (sane_op iss) c c' ->
  In (st (c_sess c')) half_closed /\ forall t, fin_out t c' -> fin_out t c.
Proof.
  intros O R U R2. induction R2 as [|x o R2 IH A]; [auto|]. destruct IH as [UX FX].
  pose proof (reach_good true iss (sane_op iss) c0 x O (sane_ok iss) (reach_trans _ _ _ _ R R2)) as G. pose proof (op_moves true iss o x G (fun _ => A)) as M.
  destruct o; cbn [moves] in M.
  1-3: destruct M as ((e & _ & S) & _); destruct (half_steps _ _ _ S UX) as [U3 F3]; split; [exact U3|]; intros t [T F]; apply FX; split; auto.
  - destruct M as [->|(_ & S & _)]; [auto|]. unfold fin_out. rewrite S. auto.
  - destruct M as (_ & b & v & d & S & _). unfold fin_out. rewrite S. auto.
Qed.
(** * The FIN follows the data *)
Lemma closing_step strict e a b : pstep strict e a b -> closing a = true -> closing b = true.
Proof.
  intros S C; destruct S; try exact C; try reflexivity; try (rewrite rewind_eq; exact C).
  - destruct H as [[_ ->]|(_ & _ & ->)]; exact C.
  - destruct H as [[_ ->]|(_ & _ & ->)]; exact C.
Qed.
Lemma closing_steps strict e a b : steps strict e a b -> closing a = true -> closing b = true.
Proof. induction 1; eauto using closing_step. Qed.
Lemma closing_reach iss c0 c c' : opened iss c0 -> reach (sane_op iss) c0 c -> closing (c_sess c) = true -> reach (sane_op iss) c c' -> closing (c_sess c') = true.
Proof.
  intros O R U R2. induction R2 as [|x o R2 IH A]; [auto|].
  pose proof (reach_good true iss (sane_op iss) c0 x O (sane_ok iss) (reach_trans _ _ _ _ R R2)) as G. pose proof (op_moves true iss o x G (fun _ => A)) as M.
  destruct o; cbn [moves] in M.
  1-3: destruct M as ((e & _ & S) & _); eapply closing_steps; eauto.
  - destruct M as [->|(_ & -> & _)]; auto.
  - destruct M as (_ & b & v & d & -> & _). auto.
Qed.
Lemma below_none {A} k n (d : dict A) : keys_below n d -> n <= k -> dget k d = None.
Proof. intros H L. destruct (dget k d) eqn:E; [|reflexivity]. apply dget_in, H in E. lia. Qed.
Lemma no_timeout s : dget (snd_una s) (tx_to s) = None -> retransmit_timeout s = (s, Ok tt).
Proof. intros E. unfold retransmit_timeout. rewrite E. reflexivity. Qed.
Lemma delayed_same s s1 : delayed_ack s = (s1, Ok tt) -> st s1 = st s /\ rcv_nxt s1 = rcv_nxt s /\ (forall t, In t (sent s) -> In t (sent s1)).
Proof.
  unfold delayed_ack, pwhen, pif. destruct (expired _ _); [|intros K; injection K as <-; auto]. unfold pbind. destruct (rcv_una s <? rcv_nxt s).
  - unfold transmit_ack. rewrite transmit_eq. destruct (tcp_tx_ok _); [|discriminate]. intros K. injection K as <-. repeat split. intros t T. apply in_app_iff. auto.
  - intros K. injection K as <-. auto.
Qed.
Lemma fin_start n s m : pre true n s -> tick_inv s -> 0 <= n -> snd_ini s + 2 + n < 2 ^ 32 -> In (st s) [ESTABLISHED; CLOSE_WAIT] -> m <> CLOSED -> closing s = true -> snd_ini s + 1 + n <= snd_una s ->
  exists s', (_ <# retransmit_timeout ;; _ <# transmit_data ;; _ <# delayed_ack ;; pwhen (fun s => closing s && (zlen (tx_buf s) =? 0)) (change_state m)) s = (s', Ok tt) /\
    st s' = m /\ rcv_nxt s' = rcv_nxt s.
Proof.
  intros P T N B U M CL D. assert (NC : st s <> CLOSED) by (cbn in U; intuition congruence). pose proof T as ((W1 & W2 & W3 & W4) & TH & TQ & TR).
  pose proof P as [(Q1 & Q2 & _) PS]. destruct (max_bound n s P NC N) as [UB MB]. destruct (PS eq_refl) as [I0 SH].
  assert (X : snd_fin s = 0 /\ keys_below (snd_max s) (tx_to s) /\ tx_mod s = snd_una s /\ snd_max s <= snd_una s + zlen (tx_buf s) /\ snd_una s + zlen (tx_buf s) = snd_ini s + 1 + n)
    by (unfold shape in SH; destruct U as [U|[U|[]]]; rewrite <- U in SH; tauto).
  destruct X as (X1 & X2 & X3 & X4 & X5). pose proof (zlen_nonneg (tx_buf s)). assert (Z0 : zlen (tx_buf s) = 0) by lia.
  rewrite (bind_ok _ _ s s). 2: { apply no_timeout. eapply below_none; [exact X2|lia]. }
  assert (TD : transmit_data s = (s, Ok tt)).
  { unfold transmit_data, passert, pbind. replace ((snd_una s <=? snd_nxt s) && (snd_nxt s <=? snd_una s + snd_ewn s)) with true by (symmetry; apply andb_true_iff; rewrite !Z.leb_le; lia).
    unfold pwhen, pif. assert (Y : in_state [SYN_SENT] s = false /\ in_state [SYN_RCVD] s = false /\ in_state [FIN_WAIT_1; LAST_ACK] s = false)
      by (unfold in_state; destruct U as [U|[U|[]]]; rewrite <- U; auto). destruct Y as (-> & -> & ->). cbn [andb].
    unfold tx_buf_nxt. rewrite X3, Z0. replace (0 - Z.max (snd_nxt s - snd_una s) 0) with 0 by lia. rewrite andb_false_r. reflexivity. }
  rewrite (bind_ok _ _ _ _ TD). destruct (delayed_ok s TH) as (s3 & E3 & C3 & B3); [left; lia|]. rewrite (bind_ok _ _ _ _ E3). unfold pwhen, pif. rewrite C3, B3, CL, Z0. cbn [andb Z.eqb].
  destruct (delayed_same _ _ E3) as (Y1 & Y2 & _). unfold change_state. rewrite pbind_do. unfold pwhen, pif. rewrite in_state_1. cbn [st set_st set_hist].
  destruct (fsm_eqb m CLOSED) eqn:Q; [apply fsm_eqb_eq in Q; contradiction|]. eexists. split; [reflexivity|]. split; [reflexivity|exact Y2].
Qed.
Lemma fin_goes n s : pre true n s -> tick_inv s -> 0 <= n -> snd_ini s + 2 + n < 2 ^ 32 -> In (st s) [FIN_WAIT_1; LAST_ACK] -> snd_fin s = 0 ->
  exists s', (_ <# retransmit_timeout ;; transmit_data) s = (s', Ok tt) /\ st s' = st s /\ In (segment s (snd_ini s + 1 + n) false true true false []) (sent s').
Proof.
  intros P T N B U F. assert (NC : st s <> CLOSED) by (cbn in U; intuition congruence). pose proof T as ((W1 & W2 & W3 & W4) & TH & TQ & TR).
  pose proof P as [(Q1 & Q2 & _) PS]. destruct (max_bound n s P NC N) as [UB MB]. destruct (PS eq_refl) as [I0 SH].
  assert (X : keys_below (snd_max s) (tx_to s) /\ snd_max s = snd_ini s + 1 + n /\ snd_ini s + 1 + n <= snd_una s)
    by (unfold shape in SH; destruct U as [U|[U|[]]]; rewrite <- U in SH; intuition lia).
  destruct X as (X1 & X2 & X3). rewrite (bind_ok _ _ s s). 2: { apply no_timeout. eapply below_none; [exact X1|lia]. }
  unfold transmit_data, passert, pbind. replace ((snd_una s <=? snd_nxt s) && (snd_nxt s <=? snd_una s + snd_ewn s)) with true by (symmetry; apply andb_true_iff; rewrite !Z.leb_le; lia).
  unfold pwhen, pif. assert (Y : in_state [SYN_SENT] s = false /\ in_state [SYN_RCVD] s = false /\ in_state [ESTABLISHED; CLOSE_WAIT] s = false /\ in_state [FIN_WAIT_1; LAST_ACK] s = true)
    by (unfold in_state; destruct U as [U|[U|[]]]; rewrite <- U; auto). destruct Y as (-> & -> & -> & ->). cbn [andb].
  replace (snd_nxt s =? snd_fin s) with false by (symmetry; apply Z.eqb_neq; lia). cbn [negb]. rewrite transmit_eq. cbn [seq_of]. rewrite tx_ok by (auto; lia).
  eexists. split; [reflexivity|]. split; [reflexivity|]. cbn [sent pkt]. apply in_app_iff. right. left. f_equal. lia.
Qed.
Lemma tick_fst c : c_sess (fst (op_do OTick c)) = fst (tcp_fsm ETimer (set_tmr (tdec (tmr (c_sess c))) (c_sess c))) /\ c_written (fst (op_do OTick c)) = c_written c.
Proof. cbn [op_do]. unfold tick. rewrite pbind_do. split; reflexivity. Qed.
Lemma fin_follows iss c0 c : opened iss c0 -> ports_ok c0 -> iss + 2 < 2 ^ 32 -> reach (roomy_op iss) c0 c -> In (st (c_sess c)) [ESTABLISHED; CLOSE_WAIT] -> closing (c_sess c) = true ->
  delivered iss c -> exists t, let c' := fst (op_run [OTick; OTick] c) in
  fin_out t c' /\ x_seq t = iss + 1 + zlen (c_written c) /\ x_fack t = true /\ x_ack t = rcv_nxt (c_sess c) /\ st (c_sess c') = wait_of (st (c_sess c)).
Proof.
  intros O PO IB R U CL D. pose proof (reach_good true iss (roomy_op iss) c0 c O (roomy_ok iss) R) as [P I]. destruct (tick_reach iss c0 c O PO IB R) as [T B].
  assert (R1 : reach (roomy_op iss) c0 (fst (op_do OTick c))) by (apply reach_op; [exact R|split; exact Logic.I]).
  pose proof (reach_good true iss (roomy_op iss) c0 _ O (roomy_ok iss) R1) as [P1 I1]. destruct (tick_reach iss c0 _ O PO IB R1) as [T1 B1].
  destruct (tick_fst c) as [E1 WR]. rewrite WR in *. pose proof (zlen_nonneg (c_written c)) as ZN.
  pose proof (ps_dec true ETimer (c_sess c) eq_refl) as SD. set (s := set_tmr (tdec (tmr (c_sess c))) (c_sess c)) in *.
  pose proof (pre_step _ _ _ _ _ SD P) as PD. destruct (tick_step _ _ _ _ SD P T Logic.I) as [TD _].
  assert (UD : In (st s) [ESTABLISHED; CLOSE_WAIT]) by exact U. assert (FD : snd_fin s = 0) by (destruct PD as [_ PS]; destruct (PS eq_refl) as [_ SH]; unfold shape in SH; destruct UD as [X|[X|[]]]; rewrite <- X in SH; apply SH).
  assert (BD : before_fin s) by (split; [exact FD|cbn in UD |- *; intuition congruence]).
  assert (X : st (c_sess (fst (op_do OTick c))) = wait_of (st s) /\ snd_fin (c_sess (fst (op_do OTick c))) = 0 /\ rcv_nxt (c_sess (fst (op_do OTick c))) = rcv_nxt s).
  { assert (B' : snd_ini s + 2 + zlen (c_written c) < 2 ^ 32) by (rewrite <- I in B; exact B).
    assert (D' : snd_ini s + 1 + zlen (c_written c) <= snd_una s) by (unfold delivered in D; rewrite <- I in D; exact D).
    assert (C' : closing s = true) by exact CL.
    pose proof (fun m M => fin_start (zlen (c_written c)) s m PD TD ZN B' UD M C' D') as ST.
    rewrite E1. unfold tcp_fsm. cbn [fsm]. destruct UD as [X|[X|[]]]; rewrite <- X; cbn [fsm_established fsm_close_wait wait_of].
    - pose proof (bf_end FIN_WAIT_1 s BD) as F. destruct (ST FIN_WAIT_1) as (s' & K1 & K2 & K3); [discriminate|]. rewrite K1 in *. auto.
    - pose proof (bf_end LAST_ACK s BD) as F. destruct (ST LAST_ACK) as (s' & K1 & K2 & K3); [discriminate|]. rewrite K1 in *. auto. }
  destruct X as (X1 & X2 & X3). set (c1 := fst (op_do OTick c)) in *.
  destruct (tick_fst c1) as [E2 WR2]. pose proof (ps_dec true ETimer (c_sess c1) eq_refl) as SD1. set (s1 := set_tmr (tdec (tmr (c_sess c1))) (c_sess c1)) in *.
  pose proof (pre_step _ _ _ _ _ SD1 P1) as PD1. destruct (tick_step _ _ _ _ SD1 P1 T1 Logic.I) as [TD1 _].
  assert (U1 : In (st s1) [FIN_WAIT_1; LAST_ACK]) by (change (st s1) with (st (c_sess c1)); rewrite X1; destruct (st s); cbn; auto).
  destruct (fin_goes (zlen (c_written c)) s1) as (s2 & K1 & K2 & K3); auto; [change (snd_ini s1) with (snd_ini (c_sess c1)); rewrite I1; exact B1|].
  exists (segment s1 (snd_ini s1 + 1 + zlen (c_written c)) false true true false []). cbv zeta. rewrite run_head. fold c1. change (fst (op_run [OTick] c1)) with (fst (op_do OTick c1)).
  assert (E3 : c_sess (fst (op_do OTick c1)) = s2).
  { rewrite E2. unfold tcp_fsm. cbn [fsm]. destruct U1 as [V|[V|[]]]; rewrite <- V; cbn [fsm_fin_wait_1 fsm_last_ack]; rewrite K1; reflexivity. }
  unfold fin_out. rewrite E3. split; [split; [exact K3|reflexivity]|]. split; [change (snd_ini s1) with (snd_ini (c_sess c1)); cbn [x_seq segment]; rewrite I1; reflexivity|].
  split; [reflexivity|]. split; [exact X3|]. rewrite K2. exact X1.
Qed.
Lemma fin_close iss c0 c c' : opened iss c0 -> ports_ok c0 -> iss + 2 < 2 ^ 32 -> reach (roomy_op iss) c0 c -> In (st (c_sess c)) [ESTABLISHED; CLOSE_WAIT] ->
  reach (roomy_op iss) (fst (op_do OClose c)) c' -> In (st (c_sess c')) [ESTABLISHED; CLOSE_WAIT] -> delivered iss c' -> exists t, let c2 := fst (op_run [OTick; OTick] c') in
  fin_out t c2 /\ x_seq t = iss + 1 + zlen (c_written c') /\ x_fack t = true /\ x_ack t = rcv_nxt (c_sess c') /\ st (c_sess c2) = wait_of (st (c_sess c')).
Proof.
  intros O PO IB R U R2 U2 D.
  assert (RC : reach (roomy_op iss) c0 (fst (op_do OClose c))) by (apply reach_op; [exact R|split; [cbn in *; intuition congruence|exact Logic.I]]).
  eapply fin_follows; eauto; [eapply reach_trans; eauto|]. eapply (closing_reach iss c0 (fst (op_do OClose c))); eauto using sane_of.
  cbn [op_do]. unfold tcp_fsm. cbn [fsm]. destruct U as [V|[V|[]]]; rewrite <- V; reflexivity.
Qed.
(** * The acknowledgement of the FIN *)
Lemma fin_done iss c0 c t p : opened iss c0 -> ports_ok c0 -> iss + 2 < 2 ^ 32 -> reach (roomy_op iss) c0 c -> In (st (c_sess c)) unacked -> fin_out t c -> acks_fin t p c ->
  let r := op_do (OSegment p) c in
  snd r = Ok tt /\ sent (c_sess (fst r)) = sent (c_sess c) /\ st (c_sess (fst r)) = match st (c_sess c) with FIN_WAIT_1 => FIN_WAIT_2 | CLOSING => TIME_WAIT | _ => CLOSED end.
Proof.
  intros O PO IB R U T (A1 & A2 & A3 & A4). pose proof (fun q => next_missing iss _ c0 c q O R) as Q. pose proof (reach_good true iss (roomy_op iss) c0 c O (roomy_ok iss) R) as [P I].
  assert (UC : In (st (c_sess c)) closing_states) by (cbn in U |- *; tauto). destruct (fin_end iss c0 c t O (sane_of _ _ _ R) T UC) as (E1 & E2 & E3).
  pose proof (zlen_nonneg (c_written c)) as ZN. assert (IO : 0 <= iss) by apply O. destruct (tick_reach iss c0 c O PO IB R) as [(_ & _ & _ & RG) B].
  assert (NX : snd_nxt (c_sess c) = seg_end t) by (rewrite <- E2; eapply nxt_reach; eauto; lia). destruct P as [(Q1 & Q2 & _) _].
  assert (AK : ack_ok p (c_sess c) = true) by (apply ack_ok_iff; lia). assert (FT : fits p (c_sess c) = true) by (apply fits_iff; lia).
  rewrite <- NX in A4. pose proof (flags_is_ack _ A1) as IA.
  assert (G : exists s', tcp_fsm (EPacket p) (c_sess c) = (s', Ok tt) /\ sent s' = sent (c_sess c) /\ st s' = match st (c_sess c) with FIN_WAIT_1 => FIN_WAIT_2 | CLOSING => TIME_WAIT | _ => CLOSED end).
  2: { destruct G as (s' & G1 & G2 & G3). cbv zeta. cbn [op_do with_sess fst snd c_sess]. rewrite G1. auto. }
  unfold tcp_fsm. cbn [fsm]. destruct U as [U|[U|[U|[]]]]; rewrite <- U.
  - cbn [fsm_fin_wait_1]. rewrite IA. unfold pwhen at 1, pif. rewrite FT. unfold pbind at 1. rewrite process_eq. cbv zeta.
    assert (RN : rcv_nxt (acked p (c_sess c)) = rcv_nxt (c_sess c)). { destruct (flags_b2z _ A1) as [F1 F2]. cbn [rcv_nxt acked]. rewrite F1, F2, A2, A3. change (zlen (@nil Z)) with 0. lia. }
    rewrite RN. change (ooo (acked p (c_sess c))) with (ooo (c_sess c)). rewrite (none_get _ _ Q). unfold no_data. rewrite A2. change (zlen (@nil Z) =? 0) with true. cbv iota.
    unfold pbind, pret, pwhen at 1, pif. change (snd_fin (acked p (c_sess c))) with (snd_fin (c_sess c)). replace (snd_fin (c_sess c) <=? d_ackn p) with true by (symmetry; apply Z.leb_le; lia).
    eexists. split; [reflexivity|split; reflexivity].
  - cbn [fsm_closing]. rewrite IA. unfold pwhen, pif. rewrite AK, A4, Z.eqb_refl. cbn [andb]. eexists. split; [reflexivity|split; reflexivity].
  - cbn [fsm_last_ack]. rewrite IA. unfold pwhen, pif. rewrite AK, A4, Z.eqb_refl. cbn [andb]. unfold change_state. rewrite pbind_do. unfold pwhen, pif. rewrite in_state_1. cbn [st set_st set_hist fsm_eqb reg].
    rewrite RG by congruence. eexists. split; [reflexivity|split; reflexivity].
Qed.
(** * The FIN of the peer *)
Lemma flags_is_finack p : flags_of p = (false, true, true, false) -> is_ack p = false /\ is_finack p = true /\ b2z (d_syn p) = 0 /\ b2z (d_fin p) = 1.
Proof. unfold flags_of, is_ack, is_finack. intros E. injection E as -> -> -> ->. auto. Qed.
Lemma peer_end iss c0 c p : opened iss c0 -> ports_ok c0 -> iss + 2 < 2 ^ 32 -> reach (roomy_op iss) c0 c -> roomy_op iss (OSegment p) c -> peer_fin p c ->
  In (st (c_sess c)) [ESTABLISHED; FIN_WAIT_1; FIN_WAIT_2] -> let n := d_seq p + zlen (d_data p) + 1 in (forall q, ~ In (n, q) (ooo (c_sess c))) -> let r := op_do (OSegment p) c in
  snd r = Ok tt /\ rcv_nxt (c_sess (fst r)) = n /\ received (fst r) = received c ++ d_data p /\
  st (c_sess (fst r)) = match st (c_sess c) with ESTABLISHED => CLOSE_WAIT | FIN_WAIT_2 => TIME_WAIT | _ => if snd_fin (c_sess c) <=? d_ackn p then TIME_WAIT else CLOSING end /\
  (st (c_sess c) = ESTABLISHED /\ d_data p = [] /\ sent (c_sess (fst r)) = sent (c_sess c) \/ exists t, sent (c_sess (fst r)) = sent (c_sess c) ++ [t] /\ pure_ack n t).
Proof.
  intros O PO IB R [_ (FI & RM & _)] (A1 & A2 & A3 & A4) U n Q. pose proof (reach_good true iss (roomy_op iss) c0 c O (roomy_ok iss) R) as [P I].
  destruct (tick_reach iss c0 c O PO IB R) as [(_ & TH & _ & RG) B]. set (s := c_sess c) in *. destruct (flags_is_finack p A1) as (IA & IF & B1 & B2).
  pose proof (zlen_nonneg (c_written c)) as ZN. assert (IO : 0 <= iss) by apply O.
  assert (FT : fits p s = true) by (apply fits_iff; lia). assert (NC : st s <> CLOSED) by (cbn in U; intuition congruence).
  assert (S1 : pstep true (EPacket p) s (acked p s)).
  { apply (ps_ack _ _ p s s); [left; auto| |]; [unfold takes; destruct U as [U|[U|[U|[]]]]; rewrite <- U; auto|]. intros _ X. rewrite X in U. cbn in U. intuition discriminate. }
  pose proof (pre_step _ _ _ _ _ S1 P) as P1. pose proof P1 as [(Q1 & Q2 & _) _]. destruct (max_bound _ _ P1 NC ZN) as [UB MB]. change (snd_ini (acked p s)) with (snd_ini s) in MB. rewrite I in MB.
  assert (RN : rcv_nxt (acked p s) = n) by (cbn [rcv_nxt acked]; unfold n; lia).
  assert (H1 : hdr_ok (acked p s)). { destruct TH as [TP _]. split; [exact TP|]. rewrite RN. pose proof (fine_acked p FI). unfold n. lia. }
  assert (PR : forall again, process_ack again p s = (acked p s, Ok tt)).
  { intros again. rewrite process_eq. cbv zeta. rewrite RN. change (ooo (acked p s)) with (ooo s). rewrite (none_get _ _ Q). reflexivity. }
  assert (TA : transmit_ack (acked p s) = (pkt (snd_nxt (acked p s)) false true false false [] (acked p s), Ok tt)).
  { unfold transmit_ack. rewrite transmit_eq. cbn [seq_of]. rewrite tx_ok; [reflexivity|exact H1|lia]. }
  assert (PA : pure_ack n (segment (acked p s) (snd_nxt (acked p s)) false true false false [])) by (repeat split; exact RN).
  assert (G : exists s', tcp_fsm (EPacket p) s = (s', Ok tt) /\ rcv_nxt s' = n /\ rx_buf s' = rx_buf s ++ d_data p /\
    st s' = match st s with ESTABLISHED => CLOSE_WAIT | FIN_WAIT_2 => TIME_WAIT | _ => if snd_fin s <=? d_ackn p then TIME_WAIT else CLOSING end /\
    (st s = ESTABLISHED /\ d_data p = [] /\ sent s' = sent s \/ exists t, sent s' = sent s ++ [t] /\ pure_ack n t)).
  2: { destruct G as (s' & G1 & G2 & G3 & G4 & G5). cbv zeta. cbn [op_do with_sess fst snd c_sess]. fold s. rewrite G1. unfold received. cbn [fst snd c_sess c_read]. fold s. rewrite G3, app_assoc. auto. }
  unfold tcp_fsm. cbn [fsm]. destruct U as [U|[U|[U|[]]]]; rewrite <- U.
  - cbn [fsm_established]. rewrite IA, IF. unfold pif.
    replace ((rcv_nxt s <=? d_seq p) && (d_seq p <=? rcv_nxt s + RCV_WND - zlen (d_data p))) with true by (symmetry; apply andb_true_iff; rewrite !Z.leb_le; unfold RCV_WND; lia).
    cbn [negb]. unfold pwhen, pif. rewrite FT. unfold pbind at 1. rewrite PR. destruct (no_data p) eqn:ND.
    + apply no_data_iff in ND. unfold pbind at 1, pret. eexists. split; [reflexivity|]. split; [exact RN|]. split; [reflexivity|]. split; [reflexivity|]. left. split; [reflexivity|split; [exact ND|reflexivity]].
    + unfold pbind at 1. rewrite TA. eexists. split; [reflexivity|]. split; [exact RN|]. split; [reflexivity|]. split; [reflexivity|]. right. eexists. split; [reflexivity|exact PA].
  - cbn [fsm_fin_wait_1]. rewrite IA, IF. unfold pwhen, pif. rewrite FT. unfold pbind at 1. rewrite PR. unfold pbind at 1. rewrite TA.
    change (snd_fin (pkt (snd_nxt (acked p s)) false true false false [] (acked p s))) with (snd_fin s). destruct (snd_fin s <=? d_ackn p);
    (eexists; split; [reflexivity|]; split; [exact RN|]; split; [reflexivity|]; split; [reflexivity|]; right; eexists; split; [reflexivity|exact PA]).
  - cbn [fsm_fin_wait_2]. rewrite IA, IF. unfold pwhen, pif. rewrite FT. unfold pbind at 1. rewrite PR. unfold pbind at 1. rewrite TA.
    eexists; split; [reflexivity|]; split; [exact RN|]; split; [reflexivity|]; split; [reflexivity|]; right; eexists; split; [reflexivity|exact PA].
Qed.
(** * CLOSING has no timer *)
Lemma closing_tick c : st (c_sess c) = CLOSING -> st (c_sess (fst (op_do OTick c))) = CLOSING /\ sent (c_sess (fst (op_do OTick c))) = sent (c_sess c).
Proof. intros E. destruct (tick_fst c) as [-> _]. unfold tcp_fsm. cbn [fsm]. cbn [st set_tmr]. rewrite E. split; [exact E|reflexivity]. Qed.
Lemma closing_ticks n : forall c, st (c_sess c) = CLOSING -> st (c_sess (fst (op_run (repeat OTick n) c))) = CLOSING /\ sent (c_sess (fst (op_run (repeat OTick n) c))) = sent (c_sess c).
Proof.
  induction n as [|n IH]; intros c E; [auto|]. cbn [repeat]. rewrite run_head. destruct (closing_tick c E) as [E1 S1]. destruct (IH _ E1) as [E2 S2]. split; [exact E2|congruence].
Qed.
