(** A session whose window the peer closed sends no data any more; handshakes. *)
From Verif Require Import Base BaseLemmas AddrModel TcpModel StackModel StackRxModel SessModel SpecSess SessProofs SessTrace SessRun SessInv SessTx SessKeep SessWin.

Definition win_inv (s : sess) : Prop := 0 <= snd_wsc s /\ forall k q, In (k, q) (ooo s) -> 0 <= d_win q.
Definition win_ev (e : event) : Prop := forall p, e = EPacket p -> 0 <= d_win p /\ 0 <= d_mss p /\ (forall w, d_wscale p = Some w -> 0 <= w).
Lemma win_origin e p s0 s : origin e p s0 s -> win_ev e -> win_inv s0 -> win_inv s /\ 0 <= d_win p.
Proof.
  intros O E (A & B). destruct O as [[-> ->]|([I [p0 ->]] & _ & ->)].
  - split; [split; assumption|]. destruct (E p eq_refl) as (X & _). exact X.
  - split; [|exact (B _ _ I)]. split; [exact A|]. intros k q Q. cbn [ooo set_ooo] in Q. apply in_ddel in Q. exact (B _ _ Q).
Qed.
Lemma wsc_nonneg p : (forall w, d_wscale p = Some w -> 0 <= w) -> 0 <= match d_wscale p with Some w => if w =? 0 then 1 else w | None => 1 end.
Proof. intros H. destruct (d_wscale p) as [w|]; [|lia]. specialize (H w eq_refl). destruct (w =? 0); lia. Qed.
Lemma sync_ooo' p s : ooo (acked p (synchronise p s)) = ooo s. Proof. reflexivity. Qed.
Lemma sync_wsc' p s : snd_wsc (acked p (synchronise p s)) = match d_wscale p with Some w => if w =? 0 then 1 else w | None => 1 end. Proof. reflexivity. Qed.
Lemma win_step e a b : pstep true e a b -> win_ev e -> win_inv a -> win_inv b.
Proof.
  intros S E H. destruct S; try exact H.
  - destruct (E p H0) as (_ & _ & W). split; [exact (wsc_nonneg p W)|exact (proj2 H)].
  - destruct (E p H0) as (_ & _ & W). split; [rewrite sync_wsc'; exact (wsc_nonneg p W)|rewrite sync_ooo'; exact (proj2 H)].
  - apply (win_origin e p s0 s H0 E H).
  - apply (win_origin e p s0 s H0 E H).
  - split; [exact (proj1 H)|]. intros k q Q. cbn [ooo set_ooo] in Q. apply in_dset in Q. destruct Q as [Q|Q]; [injection Q as _ ->; exact (proj1 (E p H0))|exact (proj2 H _ _ Q)].
  - rewrite rewind_eq. exact H.
  - rewrite rewind_eq. exact H.
Qed.
Definition stalled (s : sess) : Prop :=
  ~ In (st s) [LISTEN; SYN_SENT; SYN_RCVD] /\ (In (st s) [ESTABLISHED; CLOSE_WAIT] -> snd_ewn s = 0 /\ snd_una s = snd_max s).
Definition no_more (a b : sess) : Prop := forall t, In t (sent b) -> In t (sent a) \/ x_data t = [].
Lemma no_more_same a b : sent b = sent a -> no_more a b.
Proof. intros E t T. rewrite E in T. auto. Qed.
Lemma up_cases s : retransmits s -> ~ In (st s) [LISTEN; SYN_SENT; SYN_RCVD] -> In (st s) [ESTABLISHED; CLOSE_WAIT] \/ In (st s) [FIN_WAIT_1; LAST_ACK].
Proof. unfold retransmits. cbn. intuition. Qed.
Lemma stall_step n e a b : pstep true e a b -> pre true n a -> w_inv a -> win_ev e -> win_inv a -> stalled a -> stalled b /\ no_more a b.
Proof.
  intros S P W E V H. pose proof H as (H1 & H2). destruct S; try (split; [exact H|apply no_more_same; reflexivity]).
  - (* go *) split; [|apply no_more_same; reflexivity]. specialize (H3 eq_refl). unfold may in H3. unfold stalled. sx.
    destruct (st s) eqn:ST; try (exfalso; apply H1; cbn; auto; fail); destruct n0; try contradiction; split; cbn; try (intuition discriminate); intros X; apply H2; cbn; auto.
  - (* gone *) split; [split; [cbn; intuition discriminate|cbn; intuition discriminate]|].
    intros t T. apply (pkt_sent t (snd_una s) false true false true [] s) in T. destruct T as [T| ->]; [left; exact T|right; reflexivity].
  - (* adopt *) exfalso. apply H1. rewrite H3. cbn. auto.
  - (* sync *) exfalso. apply H1. rewrite H3. cbn. auto.
  - (* pop *) destruct H0 as [[_ ->]|(_ & _ & ->)]; (split; [exact H|apply no_more_same; reflexivity]).
  - (* ack *) destruct (win_origin _ _ _ _ H0 E V) as [V1 V2]. assert (HS : stalled s) by (destruct H0 as [[_ ->]|(_ & _ & ->)]; exact H).
    split; [|apply no_more_same; destruct H0 as [[_ ->]|(_ & _ & ->)]; reflexivity].
    pose proof (pre_origin true n e p s0 s H0 P) as PO. destruct PO as [(Q1 & Q2 & _) _]. destruct (takes_ack p s) as [K _]; [lia|exact H3|]. destruct HS as [X1 X2]. split; [exact X1|].
    intros U. destruct (X2 U) as [Y1 Y2]. unfold acked. sx. rewrite Y1. change (Z.shiftl 0 1) with 0. destruct V1 as [V1 _]. assert (0 <= d_win p * snd_wsc s) by nia. lia.
  - (* rewind *) rewrite rewind_eq. split; [|apply no_more_same; reflexivity]. split; [exact H1|]. intros U. exfalso. apply dget_in in H4.
    destruct (H2 U) as [_ Y]. destruct P as [_ PS]. destruct (PS eq_refl) as [_ SH]. unfold shape in SH.
    assert (KB : keys_below (snd_max s) (tx_to s)) by (cbn in U; destruct U as [U|[U|[]]]; cbn in U; rewrite <- U in SH; tauto). apply KB in H4. lia.
  - (* resyn *) exfalso. apply H1. cbn in H3 |- *. destruct H3 as [<-|[<-|[]]]; auto.
  - (* send *) pose proof P as [(Q1 & Q2 & _) PS]. destruct (PS eq_refl) as [_ SH].
    assert (D : data = []).
    { unfold sends in H0. destruct syn, ack, fin; try (destruct H0; fail); try apply H0. destruct H0 as [D|(ET & U & K & L & D)]; [exact D|]. exfalso.
      assert (U' : In (st s) [ESTABLISHED; CLOSE_WAIT]) by (cbn; intuition). destruct (H2 U') as [Y1 Y2].
      assert (M : tx_mod s = snd_una s) by (unfold shape in SH; destruct U as [U|U]; rewrite U in SH; tauto).
      assert (R : snd_max s <= snd_una s + zlen (tx_buf s)) by (unfold shape in SH; destruct U as [U|U]; rewrite U in SH; tauto).
      assert (N : tx_buf_nxt s = 0) by (unfold tx_buf_nxt; lia). cbv zeta in L. rewrite N, Y1 in L. destruct W as [_ W]. apply L. lia. }
    subst data. split.
    + split; [exact H1|]. intros U. change (In (st s) [ESTABLISHED; CLOSE_WAIT]) in U. destruct (H2 U) as [Y1 Y2]. change (snd_ewn (pkt (snd_nxt s) syn ack fin false [] s)) with (snd_ewn s). split; [exact Y1|].
      unfold sends in H0. assert (F : syn = false /\ fin = false).
      { cbn in U. destruct syn, ack, fin; try (destruct H0; fail); auto; exfalso; destruct H0 as (_ & X & _); intuition congruence. }
      destruct F as [-> ->]. change (snd_una (pkt (snd_nxt s) false ack false false [] s)) with (snd_una s). change (snd_max (pkt (snd_nxt s) false ack false false [] s)) with (Z.max (snd_max s) (snd_nxt s + 0 + 0 + 0)). lia.
    + intros t T. apply pkt_sent in T. destruct T as [T| ->]; [left; exact T|right; reflexivity].
  - (* una *) split; [|apply no_more_same; reflexivity]. split; [exact H1|]. intros U. exfalso. change (In (st s) [ESTABLISHED; CLOSE_WAIT]) in U. rewrite H3 in U. cbn in U. intuition discriminate.
Qed.
Lemma no_more_trans a b c : no_more a b -> no_more b c -> no_more a c.
Proof. intros A B t T. apply B in T. destruct T as [T|T]; auto. Qed.
Lemma win_mss e : win_ev e -> good_mss e. Proof. intros H p E. destruct (H p E) as (_ & X & _). exact X. Qed.
Lemma stall_steps n e a b : steps true e a b -> pre true n a -> w_inv a -> win_ev e -> win_inv a -> stalled a -> stalled b /\ no_more a b.
Proof.
  intros S. induction S as [s|a b c S SS IH]; intros P W E V H; [split; [exact H|intros t T; auto]|].
  destruct (stall_step n e a b S P W E V H) as [H1 N1]. destruct IH as [H2 N2]; auto.
  - eapply pre_step; eauto.
  - eapply w_step; eauto using win_mss.
  - eapply win_step; eauto.
  - split; [exact H2|eapply no_more_trans; eauto].
Qed.
Lemma win_steps e a b : steps true e a b -> win_ev e -> win_inv a -> win_inv b.
Proof. induction 1; eauto using win_step. Qed.
Lemma wire_sane iss c0 c : reach (wire_op iss) c0 c -> reach (sane_op iss) c0 c.
Proof. induction 1 as [|c o R IH A]; [apply reach_0|apply reach_op; [exact IH|apply A]]. Qed.
Lemma wire_ok iss : allowed_ok true iss (wire_op iss).
Proof. intros o c [H _] _. exact H. Qed.
Lemma wire_ev iss o c e : wire_op iss o c -> op_event o = Some e -> win_ev e.
Proof. intros [S A] E p ->. destruct o; try discriminate. injection E as ->. cbn in S. destruct S, A. auto. Qed.
Lemma win_reach iss c0 c : opened iss c0 -> reach (wire_op iss) c0 c -> win_inv (c_sess c).
Proof.
  intros O R. revert c R. apply (reach_ind_moves true iss (wire_op iss) c0 (fun c => win_inv (c_sess c)) O (wire_ok iss)).
  - destruct O as (_ & call & lip & lport & rip & rport & timers & K & N & ->). destruct K as [-> | ->]; split; cbn; try lia; tauto.
  - intros o c c' A _ _ V M. destruct o; cbn [moves] in M.
    1-3: destruct M as ((e & E & S) & _); eapply win_steps; eauto; eapply wire_ev; eauto.
    + destruct M as [->|(_ & -> & _)]; exact V.
    + destruct M as (_ & b & w & d & -> & _). exact V.
Qed.
Lemma reach_trans (allowed : op -> conn -> Prop) a b c : reach allowed a b -> reach allowed b c -> reach allowed a c.
Proof. intros A. induction 1; [exact A|apply reach_op; assumption]. Qed.
Lemma stall_forever iss c0 c c' : opened iss c0 -> reach (wire_op iss) c0 c -> stalled (c_sess c) -> reach (wire_op iss) c c' -> stalled (c_sess c') /\ no_more (c_sess c) (c_sess c').
Proof.
  intros O R H R2. induction R2 as [|c1 o R2 IH A]; [split; [exact H|intros t T; auto]|]. destruct IH as [H1 N1].
  assert (RC : reach (wire_op iss) c0 c1) by (eapply reach_trans; eauto). pose proof (reach_good true iss _ c0 c1 O (wire_ok iss) RC) as G.
  pose proof (op_moves true iss o c1 G (wire_ok iss o c1 A)) as M. pose proof (w_reach iss c0 c1 O (wire_sane _ _ _ RC)) as W. pose proof (win_reach iss c0 c1 O RC) as V. destruct G as [P _].
  destruct o; cbn [moves] in M.
  1-3: destruct M as ((e & E & S) & _); destruct (stall_steps _ _ _ _ S P W (wire_ev _ _ _ _ A E) V H1) as [H2 N2]; split; [exact H2|eapply no_more_trans; eauto].
  - destruct M as [->|(_ & -> & _)]; split; auto.
  - destruct M as (_ & b & w & d & -> & _). split; auto.
Qed.
