(** What resets do to a session. *)
From Verif Require Import Base BaseLemmas AddrModel TcpModel StackModel StackRxModel SessModel SpecSess SpecSess2 SessProofs SessTrace SessRun SessInv SessTx SessKeep SessWin SessTick SessHand SessHead.

Lemma rst_flags p : d_rst p = true -> is_syn p = false /\ is_synack p = false /\ is_ack p = false /\ is_finack p = false.
Proof. intros R. unfold is_syn, is_synack, is_ack, is_finack. rewrite R, !orb_true_r. cbn. rewrite !andb_false_r. auto. Qed.
(** * Resets that are out of place *)
Lemma rst_blind p s : d_rst p = true -> st s <> SYN_SENT -> d_seq p <> rcv_nxt s -> tcp_fsm (EPacket p) s = (s, Ok tt).
Proof.
  intros R N Q. destruct (rst_flags p R) as (F1 & F2 & F3 & F4). assert (NX : next_in p s = false) by (apply Z.eqb_neq; exact Q).
  assert (FT : fits p s = false) by (unfold fits; rewrite NX; reflexivity).
  unfold tcp_fsm. cbn [fsm]. destruct (st s) eqn:E; try reflexivity; try contradiction.
  - unfold fsm_listen. rewrite F1. reflexivity.
  - unfold fsm_syn_rcvd, pwhen, pif. rewrite F3, NX, FT. cbn [andb]. rewrite !andb_false_r. reflexivity.
  - unfold fsm_established, pwhen, pif. rewrite F3, F4. destruct (negb _); [reflexivity|]. destruct (is_rstack p); [rewrite FT|]; reflexivity.
  - unfold fsm_fin_wait_1, pwhen, pif. rewrite F3, F4. destruct (is_rstack p); [rewrite FT|]; reflexivity.
  - unfold fsm_fin_wait_2, pwhen, pif. rewrite F3, F4. destruct (is_rstack p); [rewrite FT|]; reflexivity.
  - unfold fsm_closing, pwhen, pif. rewrite F3. destruct (is_rstack p); [rewrite FT|]; reflexivity.
  - unfold fsm_close_wait, pwhen, pif. rewrite F3. destruct (is_rst p); [rewrite NX|]; reflexivity.
  - unfold fsm_last_ack, pwhen, pif. rewrite F3. destruct (is_rstack p); [rewrite FT|]; reflexivity.
Qed.
Lemma rst_sent p s : d_rst p = true -> st s = SYN_SENT -> d_ack p = false \/ d_ackn p <> snd_nxt s -> tcp_fsm (EPacket p) s = (s, Ok tt).
Proof.
  intros R E Q. destruct (rst_flags p R) as (F1 & F2 & F3 & F4). unfold tcp_fsm. cbn [fsm]. rewrite E. unfold fsm_syn_sent, pwhen, pif. rewrite F2. cbn [andb].
  destruct Q as [Q|Q]; [unfold is_rstack; rewrite Q, andb_false_r; reflexivity|]. apply Z.eqb_neq in Q. rewrite Q, !andb_false_r. reflexivity.
Qed.
(** * Resets that are taken *)
Lemma reg_step e a b : pstep true e a b -> reg_ok a -> reg_ok b.
Proof.
  intros S H. unfold reg_ok in *. destruct S; try exact H.
  - intros X. contradiction.
  - cbn [st moved set_st reg set_hist]. intros X. apply H. specialize (H1 eq_refl). unfold may in H1. destruct (st s); try discriminate. destruct H1.
  - intros X. destruct X. reflexivity.
  - reflexivity.
  - destruct H0 as [[_ ->]|(_ & _ & ->)]; exact H.
  - destruct H0 as [[_ ->]|(_ & _ & ->)]; exact H.
  - rewrite rewind_eq. exact H.
  - rewrite rewind_eq. exact H.
Qed.
Lemma reg_steps e a b : steps true e a b -> reg_ok a -> reg_ok b.
Proof. induction 1; eauto using reg_step. Qed.
Lemma reg_reach iss c0 c : opened iss c0 -> reach (sane_op iss) c0 c -> reg_ok (c_sess c).
Proof.
  intros O R. revert c R. apply (reach_ind_moves true iss (sane_op iss) c0 (fun c => reg_ok (c_sess c)) O (sane_ok iss)).
  - destruct O as (_ & call & lip & lport & rip & rport & timers & K & N & ->). destruct K as [-> | ->]; intros _; reflexivity.
  - intros o c c' A G _ H M. destruct o; cbn [moves op_event] in M.
    1-3: destruct M as ((e & X & S) & _); injection X as <-; eapply reg_steps; eauto.
    + destruct M as [->|(X & -> & _)]; auto.
    + destruct M as (_ & b & w & d & -> & _). auto.
Qed.
Lemma change_closed s : reg s = true -> change_state CLOSED s = (set_reg false (moved CLOSED s), Ok tt).
Proof. intros R. unfold change_state. rewrite pbind_do. unfold pwhen, pif. rewrite in_state_1. sx. cbn [fsm_eqb]. rewrite R. reflexivity. Qed.
Lemma rst_taken p s : reset p -> acceptable p s -> reg s = true -> 0 <= ev_rx s ->
  (d_ack p = true /\ In (st s) [SYN_RCVD; ESTABLISHED; FIN_WAIT_1; FIN_WAIT_2; CLOSING; LAST_ACK]) \/ (d_ack p = false /\ (st s = CLOSE_WAIT \/ st s = SYN_RCVD /\ d_ackn p = 0)) ->
  (st s = ESTABLISHED -> zlen (d_data p) <= RCV_WND) ->
  exists s', tcp_fsm (EPacket p) s = (s', Ok tt) /\ st s' = CLOSED /\ reg s' = false /\ sent s' = sent s /\ rx_buf s' = rx_buf s /\ (st s = ESTABLISHED -> 0 < ev_rx s').
Proof.
  intros (R1 & R2 & R3) (A1 & A2) RG EV K L. destruct (rst_flags p R1) as (F1 & F2 & F3 & F4).
  assert (NX : next_in p s = true) by (apply Z.eqb_eq; exact A1).
  destruct K as [[AK K]|[AK K]].
  - assert (FT : fits p s = true) by (apply fits_iff; auto).
    assert (RA : is_rstack p = true) by (unfold is_rstack; rewrite R1, R2, R3, AK; reflexivity).
    unfold tcp_fsm. cbn [fsm].
    destruct (st s) eqn:E; try (cbn in K; intuition discriminate).
    + unfold fsm_syn_rcvd, pwhen, pif. rewrite F3, RA, FT. cbn [andb orb]. rewrite change_closed by auto. eexists. split; [reflexivity|]. repeat split; discriminate.
    + unfold fsm_established, pwhen, pif. rewrite F3, F4, RA, FT. specialize (L eq_refl).
      replace ((rcv_nxt s <=? d_seq p) && (d_seq p <=? rcv_nxt s + RCV_WND - zlen (d_data p))) with true by (symmetry; apply andb_true_iff; rewrite !Z.leb_le; lia).
      cbn [negb]. unfold release_rx. rewrite pbind_do. rewrite change_closed by exact RG. eexists. split; [reflexivity|]. repeat split. intros _. cbn [ev_rx set_reg moved set_st set_hist set_ev_rx]. lia.
    + unfold fsm_fin_wait_1, pwhen, pif. rewrite F3, F4, RA, FT. rewrite change_closed by exact RG. eexists. split; [reflexivity|]. repeat split; discriminate.
    + unfold fsm_fin_wait_2, pwhen, pif. rewrite F3, F4, RA, FT. rewrite change_closed by exact RG. eexists. split; [reflexivity|]. repeat split; discriminate.
    + unfold fsm_closing, pwhen, pif. rewrite F3, RA, FT. rewrite change_closed by exact RG. eexists. split; [reflexivity|]. repeat split; discriminate.
    + unfold fsm_last_ack, pwhen, pif. rewrite F3, RA, FT. rewrite change_closed by exact RG. eexists. split; [reflexivity|]. repeat split; discriminate.
  - assert (RA : is_rst p = true) by (unfold is_rst; rewrite R1, R2, R3, AK; reflexivity).
    unfold tcp_fsm. cbn [fsm]. destruct K as [E|[E Z0]]; rewrite E.
    + unfold fsm_close_wait, pwhen, pif. rewrite F3, RA, NX. rewrite change_closed by exact RG. eexists. split; [reflexivity|]. repeat split; discriminate.
    + unfold fsm_syn_rcvd, pwhen, pif. rewrite F3, RA, NX, Z0. cbn [andb orb Z.eqb]. rewrite orb_true_r. rewrite change_closed by auto. eexists. split; [reflexivity|]. repeat split; discriminate.
Qed.
Lemma refused p s : st s = SYN_SENT -> is_rstack p = true -> d_seq p = 0 -> d_ackn p = snd_nxt s -> reg s = true ->
  exists s', tcp_fsm (EPacket p) s = (s', Ok tt) /\ st s' = CLOSED /\ reg s' = false /\ sent s' = sent s /\ conn_err s' = Refused /\ ev_conn s' = ev_conn s + 1.
Proof.
  intros E RA Q AK RG. assert (F2 : is_synack p = false) by (unfold is_rstack, is_synack in *; destruct (d_rst p), (d_ack p), (d_fin p), (d_syn p); try discriminate; reflexivity).
  unfold tcp_fsm. cbn [fsm]. rewrite E. unfold fsm_syn_sent, pwhen, pif. rewrite F2, RA, Q, AK, Z.eqb_refl. cbn [andb Z.eqb].
  unfold pbind at 1. rewrite change_closed by exact RG. rewrite pbind_do. eexists. split; [reflexivity|]. repeat split.
Qed.

(** * The semaphore of the readers *)
Lemma ev_step e a b : pstep true e a b -> ev_rx a <= ev_rx b.
Proof.
  intros S. destruct S; try (cbn; lia).
  - unfold gone. cbn [ev_rx set_ev_rx]. destruct (in_state _ _); lia.
  - unfold acked, synchronise. sx. repeat match goal with |- context [if ?b then _ else _] => destruct b end; lia.
  - destruct H as [[_ ->]|(_ & _ & ->)]; reflexivity.
  - assert (E : ev_rx s = ev_rx s0) by (destruct H as [[_ ->]|(_ & _ & ->)]; reflexivity). unfold acked. cbn [ev_rx]. repeat match goal with |- context [if ?b then _ else _] => destruct b end; lia.
  - rewrite rewind_eq. reflexivity.
  - rewrite rewind_eq. reflexivity.
Qed.
Lemma ev_steps e a b : steps true e a b -> ev_rx a <= ev_rx b.
Proof. induction 1 as [|a b c S SS IH]; [lia|]. apply ev_step in S. lia. Qed.
Lemma ev_reach iss c0 c : opened iss c0 -> reach (sane_op iss) c0 c -> 0 <= ev_rx (c_sess c).
Proof.
  intros O R. induction R as [|c o R IH A].
  - destruct O as (_ & call & lip & lport & rip & rport & timers & K & N & ->). destruct K as [-> | ->]; cbn; lia.
  - pose proof (reach_good true iss (sane_op iss) c0 c O (sane_ok iss) R) as G. pose proof (op_moves true iss o c G (fun _ => A)) as M. destruct o; cbn [moves op_event] in M.
    1-3: destruct M as ((e & X & S) & _); injection X as <-; apply ev_steps in S; lia.
    + destruct M as [->|(X & -> & _)]; auto.
    + clear M. cbn [op_do]. unfold read_step. destruct (c_rd c i); [destruct (0 <? _) eqn:E| |destruct (ended _)|cbv zeta]; cbn [fst c_sess]; try exact IH.
      * apply Z.ltb_lt in E. sx. lia.
      * match goal with |- context [if ?b then _ else _] => destruct b end; sx; lia.
Qed.
Lemma reset_taken iss c0 c p : opened iss c0 -> reach (sane_op iss) c0 c -> reset p -> acceptable p (c_sess c) ->
  (d_ack p = true /\ In (st (c_sess c)) [SYN_RCVD; ESTABLISHED; FIN_WAIT_1; FIN_WAIT_2; CLOSING; LAST_ACK]) \/
  (d_ack p = false /\ (st (c_sess c) = CLOSE_WAIT \/ st (c_sess c) = SYN_RCVD /\ d_ackn p = 0)) ->
  (st (c_sess c) = ESTABLISHED -> zlen (d_data p) <= 65535) ->
  let c' := fst (op_do (OSegment p) c) in snd (op_do (OSegment p) c) = Ok tt /\ st (c_sess c') = CLOSED /\ reg (c_sess c') = false /\ sent (c_sess c') = sent (c_sess c) /\
    received c' = received c /\ (st (c_sess c) = ESTABLISHED -> 0 < ev_rx (c_sess c')).
Proof.
  intros O R T A K L. assert (RG : reg (c_sess c) = true).
  { apply (reg_reach iss c0 c O R). intros E. rewrite E in K. destruct K as [[_ K]|[_ [K|[K _]]]]; cbn in K; try discriminate. intuition discriminate. }
  destruct (rst_taken p (c_sess c) T A RG (ev_reach iss c0 c O R) K L) as (s' & E & X1 & X2 & X3 & X4 & X5).
  cbv zeta. cbn [op_do]. rewrite E. unfold received. cbn [with_sess fst snd c_sess c_read]. rewrite X4. repeat split; auto.
Qed.
Lemma refused_reach iss c0 c p : opened iss c0 -> reach (sane_op iss) c0 c -> st (c_sess c) = SYN_SENT -> reset p -> d_ack p = true -> d_seq p = 0 -> d_ackn p = snd_nxt (c_sess c) ->
  let c' := fst (op_do (OSegment p) c) in snd (op_do (OSegment p) c) = Ok tt /\ st (c_sess c') = CLOSED /\ reg (c_sess c') = false /\ sent (c_sess c') = sent (c_sess c) /\
    conn_err (c_sess c') = Refused /\ ev_conn (c_sess c') = ev_conn (c_sess c) + 1.
Proof.
  intros O R E (T1 & T2 & T3) T4 Q AK. assert (RG : reg (c_sess c) = true) by (apply (reg_reach iss c0 c O R); rewrite E; discriminate).
  destruct (refused p (c_sess c) E) as (s' & X & X1 & X2 & X3 & X4 & X5); auto. { unfold is_rstack. rewrite T1, T2, T3, T4. reflexivity. }
  cbv zeta. cbn [op_do]. rewrite X. cbn [with_sess fst snd c_sess]. repeat split; auto.
Qed.
Lemma blind_reach c p : d_rst p = true -> (st (c_sess c) = SYN_SENT -> d_ack p = false \/ d_ackn p <> snd_nxt (c_sess c)) -> (st (c_sess c) <> SYN_SENT -> d_seq p <> rcv_nxt (c_sess c)) ->
  op_do (OSegment p) c = (c, Ok tt).
Proof.
  intros R A B. cbn [op_do]. assert (E : tcp_fsm (EPacket p) (c_sess c) = (c_sess c, Ok tt)).
  { destruct (fsm_eqb (st (c_sess c)) SYN_SENT) eqn:F; [apply fsm_eqb_eq in F; apply rst_sent; auto|]. assert (N : st (c_sess c) <> SYN_SENT) by (intros X; rewrite X in F; discriminate). apply rst_blind; auto. }
  rewrite E. destruct c. reflexivity.
Qed.
