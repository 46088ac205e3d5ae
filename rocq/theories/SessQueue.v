(** What waits in the out of order queue is never what comes next. *)
From Verif Require Import Base BaseLemmas AddrModel TcpModel StackModel StackRxModel SessModel SpecSess SpecSess2 SpecSess3 SessProofs SessTrace SessRun SessInv SessTx SessReset SessKeep SessOoo.

Definition q_pre (s : sess) : Prop := ooo_uniq s /\ (st s = LISTEN -> ooo s = []).
Definition q_inv (s : sess) : Prop := q_pre s /\ forall q, ~ In (rcv_nxt s, q) (ooo s).
Lemma q_tx o syn ack fin rst data : keeps_it q_inv (transmit_packet o syn ack fin rst data).
Proof. apply keeps_tx. intros s H. exact H. Qed.
Lemma q_change n : n <> LISTEN -> keeps_it q_inv (change_state n).
Proof.
  intros N s [[H1 _] H3]. unfold change_state. rewrite pbind_do. unfold pwhen, pif.
  assert (J : q_inv (set_st n (set_hist (hist s ++ [(st s, n)]) s))) by (split; [split; [exact H1|intros X; contradiction]|exact H3]).
  destruct (in_state _ _); [|exact J]. destruct (reg _); exact J.
Qed.
Ltac kz1 := match goal with
  | |- keeps_it _ (pbind _ _) => apply keeps_bind; [|intros ?]
  | |- keeps_it _ (pif _ _ _) => apply keeps_if
  | |- keeps_it _ (pwhen _ _) => apply keeps_when
  | |- keeps_it _ (pret _) => apply keeps_ret
  | |- keeps_it _ (passert _) => apply keeps_assert
  | |- keeps_it _ (change_state _) => apply q_change; discriminate
  | |- keeps_it _ (transmit_packet _ _ _ _ _ _) => apply q_tx
  | |- keeps_it _ (pdo _) => apply leads_do; intros ? H; exact H
  | |- keeps_it _ (if ?c then _ else _) => destruct c
  end.
Ltac kz := repeat kz1.
Lemma q_ack : keeps_it q_inv transmit_ack. Proof. apply q_tx. Qed.
Lemma q_data : keeps_it q_inv transmit_data.
Proof. unfold transmit_data. kz. intros s H. cbv zeta. destruct (_ =? 0); [exact H|]. apply q_tx. exact H. Qed.
Lemma q_giveup : keeps_it q_inv give_up.
Proof. unfold give_up, release_rx, release_conn. kz. intros s H. apply q_tx. exact H. Qed.
Lemma q_timeout : keeps_it q_inv retransmit_timeout.
Proof.
  intros s H. unfold retransmit_timeout. destruct (dget _ _); [|exact H]. destruct (expired _ _); [|exact H]. destruct (_ =? _); [apply q_giveup; exact H|].
  unfold pdo. cbn [fst]. rewrite rewind_eq. exact H.
Qed.
Lemma q_delayed : keeps_it q_inv delayed_ack.
Proof. unfold delayed_ack, transmit_ack, register_timer. kz. Qed.
Lemma q_process again p : (forall q, keeps_it q_inv (again q)) -> leads q_pre (process_ack again p) q_inv.
Proof.
  intros A s [U L]. rewrite process_eq. cbv zeta. assert (U1 : ooo_uniq (acked p s)) by exact U. assert (L1 : st (acked p s) = LISTEN -> ooo (acked p s) = []) by exact L.
  destruct (dget _ _) as [q|] eqn:D.
  - apply A. split; [split; [apply uniq_del; exact U1|intros X; cbn [ooo set_ooo]; rewrite (L1 X); reflexivity]|]. intros x X. cbn [ooo set_ooo rcv_nxt] in X. apply in_del in X. destruct X as [_ X]. apply X. reflexivity.
  - split; [split; [exact U1|exact L1]|]. intros q. apply get_none; [exact U1|exact D].
Qed.
Lemma q_process_keeps again p : (forall q, keeps_it q_inv (again q)) -> keeps_it q_inv (process_ack again p).
Proof. intros A s [U _]. apply q_process; auto. Qed.
Lemma q_store p s : rcv_nxt s <> d_seq p -> st s <> LISTEN -> q_inv s -> q_inv (fst (store_ooo p s)).
Proof.
  intros N NL [[U _] H]. unfold store_ooo. rewrite !pbind_do. apply (keeps_when q_inv); [apply q_ack|]. split.
  - split; [apply uniq_set; exact U|intros X; contradiction].
  - intros q X. cbn [ooo set_rx_req set_ooo rcv_nxt] in X. apply in_dset in X. destruct X as [X|X]; [injection X as X _; congruence|apply (H q); exact X].
Qed.
Ltac kw N := repeat first [kz1 | match goal with
  | |- keeps_it _ transmit_ack => apply q_ack
  | |- keeps_it _ transmit_data => apply q_data
  | |- keeps_it _ retransmit_timeout => apply q_timeout
  | |- keeps_it _ delayed_ack => apply q_delayed
  | |- keeps_it _ (process_ack _ _) => apply q_process_keeps; exact N
  end].
Definition q_event (e : event) : Prop := match e with ECall Close | EPacket _ | ETimer => True | _ => False end.
Lemma q_fsm fuel : forall e, q_event e -> keeps_it q_inv (fsm fuel e).
Proof.
  induction fuel as [|fuel IH]; intros e K s J; [exact J|]. cbn [fsm].
  assert (N : forall q, keeps_it q_inv (fsm fuel (EPacket q))) by (intros q; apply IH; exact Logic.I).
  assert (TW : keeps_it q_inv enter_time_wait) by (unfold enter_time_wait, register_timer; kz).
  destruct (st s) eqn:E.
  - destruct e as [p|[]|]; try contradiction; exact J.
  - unfold fsm_listen. destruct e as [p|[]|]; try contradiction; [|apply q_change; [discriminate|exact J]|exact J].
    destruct (_ && _); [|exact J]. rewrite pbind_do. apply q_change; [discriminate|]. destruct J as [[J1 J2] J3].
    split; [split; [exact J1|exact J2]|]. intros q. change (ooo (adopt p s)) with (ooo s). rewrite (J2 E). intros [].
  - unfold fsm_syn_sent, release_conn. destruct e as [p|[]|]; try contradiction; [|revert s E J; intros s _; revert s; change (keeps_it q_inv (change_state CLOSED)); kw N|revert s E J; intros s _; revert s; change (keeps_it q_inv (_ <# retransmit_timeout;; transmit_data)); kw N].
    unfold pif. destruct (_ && _).
    + rewrite pbind_do. assert (L : leads q_pre (_ <# process_ack (fun p0 => fsm fuel (EPacket p0)) p ;; _ <# transmit_ack ;; _ <# change_state ESTABLISHED ;; pdo (fun s => set_ev_conn (ev_conn s + 1) s)) q_inv).
      { eapply leads_bind; [apply q_process; exact N|auto|]. intros _. match goal with |- leads q_inv ?m q_inv => change (keeps_it q_inv m) end. kw N. }
      apply L. destruct J as [J _]. exact J.
    + unfold pwhen, pif. destruct (_ && _); [|exact J]. revert J. generalize s. change (keeps_it q_inv (_ <# change_state CLOSED ;; _ <# pdo (set_conn_err Refused) ;; pdo (fun s => set_ev_conn (ev_conn s + 1) s))). kw N.
  - revert J. generalize s. clear s E. match goal with |- forall s, q_inv s -> q_inv (fst (?f s)) => change (keeps_it q_inv f) end. unfold fsm_syn_rcvd, release_conn. destruct e as [p|[]|]; try contradiction; kw N.
  - unfold fsm_established. destruct e as [p|[]|]; try contradiction.
    + unfold pif. destruct (negb _); [exact J|]. destruct (is_ack p).
      * destruct (_ && _ && _); [revert J; generalize s; change (keeps_it q_inv (retransmit_request p)); unfold retransmit_request; kw N|].
        destruct ((rcv_nxt s <? d_seq p) && ack_ok p s) eqn:C; [apply q_store; [apply andb_true_iff in C; rewrite Z.ltb_lt in C; lia|congruence|exact J]|].
        revert J. generalize s. match goal with |- forall s, q_inv s -> q_inv (fst (?f s)) => change (keeps_it q_inv f) end. kw N.
      * destruct (is_finack p); [|destruct (is_rstack p)]; revert J; generalize s; match goal with |- forall s, q_inv s -> q_inv (fst (?f s)) => change (keeps_it q_inv f) end; unfold release_rx; kw N.
    + exact J.
    + revert J; generalize s; match goal with |- forall s, q_inv s -> q_inv (fst (?f s)) => change (keeps_it q_inv f) end; kw N.
  - revert J. generalize s. clear s E. match goal with |- forall s, q_inv s -> q_inv (fst (?f s)) => change (keeps_it q_inv f) end. unfold fsm_fin_wait_1. destruct e as [p|[]|]; try contradiction; kw N; exact TW.
  - revert J. generalize s. clear s E. match goal with |- forall s, q_inv s -> q_inv (fst (?f s)) => change (keeps_it q_inv f) end. unfold fsm_fin_wait_2. destruct e as [p|[]|]; try contradiction; kw N; exact TW.
  - revert J. generalize s. clear s E. match goal with |- forall s, q_inv s -> q_inv (fst (?f s)) => change (keeps_it q_inv f) end. unfold fsm_closing. destruct e as [p|[]|]; try contradiction; kw N; exact TW.
  - unfold fsm_close_wait. destruct e as [p|[]|]; try contradiction.
    + destruct (is_ack p).
      * unfold pif. destruct (_ && _ && _); [revert J; generalize s; change (keeps_it q_inv (retransmit_request p)); unfold retransmit_request; kw N|].
        destruct ((rcv_nxt s <? d_seq p) && ack_ok p s) eqn:C; [apply q_store; [apply andb_true_iff in C; rewrite Z.ltb_lt in C; lia|congruence|exact J]|].
        revert J. generalize s. match goal with |- forall s, q_inv s -> q_inv (fst (?f s)) => change (keeps_it q_inv f) end. kw N.
      * destruct (is_rst p); revert J; generalize s; match goal with |- forall s, q_inv s -> q_inv (fst (?f s)) => change (keeps_it q_inv f) end; kw N.
    + exact J.
    + revert J; generalize s; match goal with |- forall s, q_inv s -> q_inv (fst (?f s)) => change (keeps_it q_inv f) end; kw N.
  - revert J. generalize s. clear s E. match goal with |- forall s, q_inv s -> q_inv (fst (?f s)) => change (keeps_it q_inv f) end. unfold fsm_last_ack. destruct e as [p|[]|]; try contradiction; kw N.
  - revert J. generalize s. clear s E. match goal with |- forall s, q_inv s -> q_inv (fst (?f s)) => change (keeps_it q_inv f) end. unfold fsm_time_wait. destruct e as [p|[]|]; try contradiction; kw N.
Qed.
Lemma q_reach iss (allowed : op -> conn -> Prop) c0 c : opened iss c0 -> reach allowed c0 c -> q_inv (c_sess c).
Proof.
  intros O R. induction R as [|c o R IH A].
  - destruct O as (_ & call & lip & lport & rip & rport & timers & K & _ & ->). destruct K as [-> | ->]; (split; [split; [constructor|reflexivity]|intros q []]).
  - destruct o; cbn [op_do].
    + unfold tick. rewrite pbind_do. cbn [with_sess fst c_sess]. unfold tcp_fsm. apply q_fsm; [exact Logic.I|exact IH].
    + cbn [with_sess fst c_sess]. unfold tcp_fsm. apply q_fsm; [exact Logic.I|exact IH].
    + cbn [with_sess fst c_sess]. unfold tcp_fsm. apply q_fsm; [exact Logic.I|exact IH].
    + unfold session_send. destruct (in_state _ _); exact IH.
    + destruct (c_rd c i); cbn [read_step].
      * destruct (0 <? ev_rx (c_sess c)); exact IH.
      * exact IH.
      * destruct (ended (c_sess c)); exact IH.
      * cbv zeta. destruct (_ || _); exact IH.
Qed.
Lemma next_missing iss (allowed : op -> conn -> Prop) c0 c q : opened iss c0 -> reach allowed c0 c -> ~ In (rcv_nxt (c_sess c), q) (ooo (c_sess c)).
Proof. intros O R. apply (q_reach iss allowed c0 c O R). Qed.
