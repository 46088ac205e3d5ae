(** C66, C70, C71 and C75: windows, delayed acknowledgements, ticks and TIME-WAIT of a TCP session. *)
From Verif Require Import Base BaseLemmas AddrModel TcpModel StackModel StackRxModel SessModel SpecSess SessProofs SessTrace SessRun SessInv SessTx SessKeep SessAck SessWin SessTick PropSess.

(** * C66 *)
(** a segment that is next in sequence and acknowledges what is in flight or nothing new
    advertises a window; the data sent next stays within it *)
Definition C66_window_statement : Prop := forall iss c0 c p t, opened iss c0 -> reach (sane_op iss) c0 c -> sane_op iss (OSegment p) c ->
  st (c_sess c) = ESTABLISHED -> is_ack p = true -> d_seq p = rcv_nxt (c_sess c) -> snd_una (c_sess c) <= d_ackn p <= snd_max (c_sess c) ->
  let c1 := fst (op_do (OSegment p) c) in
  In t (sent (c_sess (fst (op_do OTick c1)))) -> In t (sent (c_sess c1)) \/ x_data t = [] \/
  (zlen (x_data t) <= snd_mss (c_sess c1) /\ x_seq t + zlen (x_data t) <= d_ackn p + d_win p * snd_wsc (c_sess c)).
(** a segment without data that acknowledges nothing new is counted as a request to
    retransmit, its window is not looked at *)
Definition ex_shut : tmd := ex_seg false true false false 501 101 0 [].
Theorem C66_window_refuted : ~ C66_window_statement.
Proof.
  intros H. set (l := firstn 4 ex_history). set (c := fst (op_run l ex_conn)).
  assert (R : reach (sane_op 100) ex_conn c) by (apply reach_all, sane_all; vm_compute; reflexivity).
  assert (E : map (fun t => (x_seq t, x_data t)) (skipn (length (sent (c_sess (fst (op_do (OSegment ex_shut) c))))) (sent (c_sess (fst (op_do OTick (fst (op_do (OSegment ex_shut) c))))))) = [(101, [1; 2; 3])])
    by (vm_compute; reflexivity).
  assert (L : forallb (fun t => zlen (x_data t) =? 0) (sent (c_sess (fst (op_do (OSegment ex_shut) c)))) = true) by (vm_compute; reflexivity).
  destruct (skipn _ _) as [|t r] eqn:K; [discriminate|]. injection E as E1 E2 _.
  assert (I : In t (sent (c_sess (fst (op_do OTick (fst (op_do (OSegment ex_shut) c))))))).
  { rewrite <- (firstn_skipn (length (sent (c_sess (fst (op_do (OSegment ex_shut) c)))))). rewrite K. apply in_or_app. right. left. reflexivity. }
  assert (U : snd_una (c_sess c) = 101 /\ snd_max (c_sess c) = 101 /\ rcv_nxt (c_sess c) = 501 /\ snd_wsc (c_sess c) = 1) by (split; [|split; [|split]]; vm_compute; reflexivity).
  destruct U as (U1 & U2 & U3 & U4).
  destruct (H 100 ex_conn c ex_shut t ex_opened R) as [X|[X|[_ X]]].
  - split; cbn; lia.
  - vm_compute. reflexivity.
  - reflexivity.
  - rewrite U3. reflexivity.
  - rewrite U1, U2. cbn. lia.
  - exact I.
  - rewrite forallb_forall in L. apply L in X. rewrite E2 in X. discriminate.
  - congruence.
  - rewrite E1, E2, U4 in X. cbn in X. lia.
Qed.
Print Assumptions C66_window_refuted.
(** what does hold: the window kept by the session is respected, up to one segment *)
Theorem C66_window_partial : forall iss c0 c o t, opened iss c0 -> reach (sane_op iss) c0 c -> sane_op iss o c ->
  In t (sent (c_sess (fst (op_do o c)))) -> In t (sent (c_sess c)) \/ x_data t = [] \/
  (snd_mss (c_sess c) <= 1460 /\ zlen (x_data t) <= snd_mss (c_sess c) /\
   x_seq t + zlen (x_data t) <= snd_una (c_sess c) + Z.max (snd_mss (c_sess c)) (snd_wnd (c_sess c))).
Proof. exact within_reach. Qed.
Print Assumptions C66_window_partial.
(** and that window is the one in the last segment that carried data or acknowledged some *)
Theorem C66_window_kept : forall p s, st s = ESTABLISHED -> ooo s = [] -> is_ack p = true -> fits p s = true -> zlen (d_data p) <= RCV_WND ->
  next_in p s && (d_ackn p =? snd_una s) && no_data p = false ->
  let s' := fst (tcp_fsm (EPacket p) s) in snd_una s' = d_ackn p /\ snd_wnd s' = d_win p * snd_wsc s /\ snd_mss s' = snd_mss s.
Proof. exact window_taken. Qed.
Print Assumptions C66_window_kept.
Example C66_example : let c := fst (op_run (firstn 5 ex_history) ex_conn) in let p := ex_seg false true false false 501 104 2 [7] in
  st (c_sess c) = ESTABLISHED /\ fits p (c_sess c) = true /\ snd_wnd (c_sess (fst (op_do (OSegment p) c))) = 2 /\
  map (fun t => (x_seq t, x_data t)) (filter (fun t => negb (zlen (x_data t) =? 0)) (sent (c_sess (fst (op_run [OSegment p; OSend [4; 5; 6]; OTick] c))))) =
  [(101, [1; 2; 3]); (104, [4; 5])].
Proof. cbv zeta. split; [|split; [|split]]; vm_compute; reflexivity. Qed.

(** * C71 *)
Definition C71_tick_statement : Prop := forall iss c0 c, opened iss c0 -> reach (sane_op iss) c0 c -> snd (op_do OTick c) = Ok tt.
(** the peer closes its window while data is in flight *)
Definition ex_shrink : list op := firstn 5 ex_history ++ [OSegment (ex_seg false true false false 501 101 0 [7])].
Theorem C71_tick_refuted : ~ C71_tick_statement.
Proof.
  intros H. specialize (H 100 ex_conn (fst (op_run ex_shrink ex_conn)) ex_opened).
  assert (E : snd (op_do OTick (fst (op_run ex_shrink ex_conn))) = Exn AssertionError) by (vm_compute; reflexivity).
  rewrite H in E; [discriminate|]. apply reach_all, sane_all. vm_compute. reflexivity.
Qed.
Print Assumptions C71_tick_refuted.
(** an MSS option of zero in the SYN is enough: the SYN+ACK is sent, then every tick raises *)
Definition ex_mss0 : tmd :=
  {| d_lip := A4 1; d_lport := 80; d_rip := A4 2; d_rport := 4000; d_syn := true; d_ack := false; d_fin := false; d_rst := false;
     d_seq := 500; d_ackn := 0; d_win := 1000; d_wscale := None; d_mss := 0; d_data := [] |}.
Definition ex_listen : conn := start Listen (ex_tcp 100).
Lemma ex_listening : opened 100 ex_listen.
Proof. split; [lia|]. exists Listen, (A4 1), 1000, (A4 2), 80, []. split; [auto|split; [constructor|reflexivity]]. Qed.
Theorem C71_tick_mss_refuted : exists c, reach (sane_op 100) ex_listen c /\ st (c_sess c) = SYN_RCVD /\ snd (op_do OTick c) = Exn AssertionError.
Proof.
  exists (fst (op_run [OSegment ex_mss0; OTick] ex_listen)). split; [apply reach_all, sane_all; vm_compute; reflexivity|]. split; vm_compute; reflexivity.
Qed.
Print Assumptions C71_tick_mss_refuted.
(** no tick raises as long as the peer does not advertise less than what is in flight, with the
    sequence numbers of both sides below 2^32 *)
Theorem C71_tick_partial : forall iss c0 c, opened iss c0 -> ports_ok c0 -> iss + 2 < 2 ^ 32 -> reach (roomy_op iss) c0 c -> snd (op_do OTick c) = Ok tt.
Proof. exact tick_never_raises. Qed.
Print Assumptions C71_tick_partial.
Definition fineb (p : tmd) : bool :=
  (0 <=? d_lport p) && (d_lport p <=? 0xFFFF) && ((0 <=? d_rport p) && (d_rport p <=? 0xFFFF)) && (1 <=? d_mss p) &&
  match d_wscale p with None => true | Some w => 0 <=? w end && (0 <=? d_seq p) && (d_seq p + zlen (d_data p) + 2 <? 2 ^ 32) && (1 <=? d_win p).
Definition roomb (p : tmd) (s : sess) : bool := snd_nxt s - snd_una s <=? d_win p * snd_wsc s.
Definition roomy_opb (iss : Z) (o : op) (c : conn) : bool :=
  sane_opb iss o c &&
  match o with
  | OSegment p => fineb p && roomb p (c_sess c) && forallb (fun kq => roomb (snd kq) (c_sess c)) (ooo (c_sess c))
  | OSend d => iss + 2 + zlen (c_written c ++ d) <? 2 ^ 32
  | _ => true
  end.
Fixpoint roomy_allb (iss : Z) (l : list op) (c : conn) : bool :=
  match l with [] => true | o :: l => roomy_opb iss o c && roomy_allb iss l (fst (op_do o c)) end.
Lemma roomy_one iss o c : roomy_opb iss o c = true -> roomy_op iss o c.
Proof.
  intros H. apply andb_true_iff in H. destruct H as [H1 H2]. split.
  - assert (A : sane_allb iss [o] c = true) by (cbn [sane_allb]; rewrite H1; reflexivity). apply sane_all in A. apply A.
  - destruct o; auto; [|apply Z.ltb_lt in H2; exact H2].
    unfold fineb in H2. rewrite !andb_true_iff in H2. destruct H2 as [[[[[[[[[A1 A2] [B1 B2]] C] W] D] E] F] G] H].
    unfold roomb in G. apply Z.leb_le in A1, A2, B1, B2, C, D, F, G. apply Z.ltb_lt in E. split; [|split; [exact G|]].
    + unfold fine. repeat split; auto. intros w K. rewrite K in W. apply Z.leb_le in W. exact W.
    + intros k q I. rewrite forallb_forall in H. apply H in I. apply Z.leb_le in I. exact I.
Qed.
Lemma roomy_all iss l : forall c, roomy_allb iss l c = true -> all_allowed (roomy_op iss) l c.
Proof.
  induction l as [|o l IH]; intros c H; [exact Logic.I|]. cbn [roomy_allb] in H. apply andb_true_iff in H. destruct H as [H1 H2].
  split; [apply roomy_one; exact H1|apply IH; exact H2].
Qed.
Example C71_example : ports_ok ex_conn /\ reach (roomy_op 100) ex_conn (fst (op_run ex_history ex_conn)) /\
  reach (roomy_op 100) ex_conn (fst (op_run (firstn 5 ex_history) ex_conn)) /\
  (snd_una (c_sess (fst (op_run (firstn 5 ex_history) ex_conn))), snd_nxt (c_sess (fst (op_run (firstn 5 ex_history) ex_conn)))) = (101, 104).
Proof.
  split; [split; cbn; lia|]. split; [apply reach_all, roomy_all; vm_compute; reflexivity|]. split; [apply reach_all, roomy_all; vm_compute; reflexivity|]. vm_compute. reflexivity.
Qed.

(** * C70 *)
Definition C70_prompt_statement : Prop := forall iss c0 c l, opened iss c0 -> delay_ok c0 -> reach (seq_op iss) c0 c -> In (st (c_sess c)) [ESTABLISHED; CLOSE_WAIT] ->
  stays (seq_op iss) l c -> 100 <= ticks l -> acknowledged (rcv_nxt (c_sess c)) (c_sess (fst (op_run l c))).
(** the ticks raise before the acknowledgement is looked at *)
Lemma seq_all iss l : forall c, sane_allb iss l c && forallb (fun o => match o with OSegment p => 0 <=? d_seq p | _ => true end) l = true -> all_allowed (seq_op iss) l c.
Proof.
  intros c H. apply andb_true_iff in H. destruct H as [H1 H2]. apply sane_all in H1. revert c H1. induction l as [|o l IH]; intros c H1; [exact Logic.I|].
  cbn [forallb] in H2. apply andb_true_iff in H2. destruct H2 as [H2 H3]. destruct H1 as [H0 H1]. split; [|apply IH; auto]. split; [exact H0|]. destruct o; auto. apply Z.leb_le. exact H2.
Qed.
Definition ex_stuck : conn := fst (op_run ex_shrink ex_conn).
Fixpoint stuck_for (n : nat) (c : conn) : bool :=
  match n with
  | O => forallb (fun t => x_ack t <? 502) (sent (c_sess c))
  | S n => let c' := fst (op_do OTick c) in fsm_eqb (st (c_sess c')) ESTABLISHED && stuck_for n c'
  end.
Lemma stuck_stays iss n : forall c, stuck_for n c = true -> stays (seq_op iss) (repeat OTick n) c /\ forallb (fun t => x_ack t <? 502) (sent (c_sess (fst (op_run (repeat OTick n) c)))) = true.
Proof.
  induction n as [|n IH]; intros c H; [split; [exact Logic.I|exact H]|]. cbn [stuck_for] in H. apply andb_true_iff in H. destruct H as [H1 H2].
  apply IH in H2. destruct H2 as [H2 H3]. cbn [repeat]. rewrite run_first_op. split; [|exact H3]. cbn [stays]. split; [split; exact Logic.I|]. split; [|exact H2].
  apply fsm_eqb_eq in H1. rewrite H1. left. reflexivity.
Qed.
Lemma ticks_repeat n : ticks (repeat OTick n) = Z.of_nat n.
Proof. induction n as [|n IH]; [reflexivity|]. cbn [repeat]. rewrite ticks_cons, IH. lia. Qed.
Theorem C70_prompt_refuted : ~ C70_prompt_statement.
Proof.
  intros H. assert (S : stuck_for 100 ex_stuck = true) by (vm_compute; reflexivity).
  apply (stuck_stays 100) in S. destruct S as [S1 S2].
  destruct (H 100 ex_conn ex_stuck (repeat OTick 100) ex_opened) as (t & I & _ & B).
  - intros x X. discriminate.
  - apply reach_all, seq_all. vm_compute. reflexivity.
  - vm_compute. auto.
  - exact S1.
  - rewrite ticks_repeat. lia.
  - rewrite forallb_forall in S2. apply S2, Z.ltb_lt in I. change (rcv_nxt (c_sess ex_stuck)) with 502 in B. lia.
Qed.
Print Assumptions C70_prompt_refuted.
(** it holds while no tick raises *)
Theorem C70_prompt_partial : forall iss c0 c l, opened iss c0 -> delay_ok c0 -> reach (seq_op iss) c0 c -> In (st (c_sess c)) [ESTABLISHED; CLOSE_WAIT] ->
  steady iss l c -> 100 <= ticks l -> acknowledged (rcv_nxt (c_sess c)) (c_sess (fst (op_run l c))).
Proof. exact data_acked. Qed.
Print Assumptions C70_prompt_partial.
(** in particular when the peer does not advertise less than what is in flight *)
Theorem C70_prompt_roomy_partial : forall iss c0 c l, opened iss c0 -> delay_ok c0 -> ports_ok c0 -> iss + 2 < 2 ^ 32 -> reach (roomy_op iss) c0 c ->
  In (st (c_sess c)) [ESTABLISHED; CLOSE_WAIT] -> stays (roomy_op iss) l c -> 100 <= ticks l -> acknowledged (rcv_nxt (c_sess c)) (c_sess (fst (op_run l c))).
Proof.
  intros iss c0 c l O D P B R U S T. apply (data_acked iss c0); auto; [apply roomy_reach; exact R|]. apply (roomy_steady iss c0); auto.
Qed.
Print Assumptions C70_prompt_roomy_partial.
Example C70_example : let c := fst (op_run (firstn 7 ex_history) ex_conn) in
  delay_ok ex_conn /\ reach (roomy_op 100) ex_conn c /\ st (c_sess c) = ESTABLISHED /\ rcv_nxt (c_sess c) = 505 /\
  ~ acknowledged 505 (c_sess c) /\ stays (roomy_op 100) [OTick; OTick; OSend [4]; OTick] c.
Proof.
  cbv zeta. split; [intros x X; discriminate|]. split; [apply reach_all, roomy_all; vm_compute; reflexivity|].
  split; [vm_compute; reflexivity|]. split; [vm_compute; reflexivity|]. split.
  - intros (t & I & _ & B). assert (E : forallb (fun t => x_ack t <? 505) (sent (c_sess (fst (op_run (firstn 7 ex_history) ex_conn)))) = true) by (vm_compute; reflexivity).
    rewrite forallb_forall in E. apply E, Z.ltb_lt in I. lia.
  - cbn [stays]. repeat match goal with
      | |- roomy_op _ _ _ /\ _ => split; [apply roomy_one; vm_compute; reflexivity|]
      | |- In ?x _ /\ _ => split; [left; vm_compute; reflexivity|]
      | |- True => exact Logic.I
      end.
Qed.

(** * C75 *)
(** segments are ignored, nothing is sent, and the session closes with the 30000th tick *)
Theorem C75_time_wait : forall iss c0 c o l, opened iss c0 -> reach any_op c0 c -> st (c_sess c) <> TIME_WAIT -> st (c_sess (fst (op_do o c))) = TIME_WAIT ->
  let c1 := fst (op_do o c) in let c2 := fst (op_run l c1) in
  sent (c_sess c2) = sent (c_sess c1) /\ st (c_sess c2) = if ticks l <? 30000 then TIME_WAIT else CLOSED.
Proof. exact time_wait_exact. Qed.
Print Assumptions C75_time_wait.
Theorem C75_segments_ignored : forall c p, st (c_sess c) = TIME_WAIT -> op_do (OSegment p) c = (c, Ok tt).
Proof. intros c p S. cbn [op_do]. rewrite (waiting_segment p c S). destruct c. reflexivity. Qed.
Print Assumptions C75_segments_ignored.
Example C75_example : let c := fst (op_run (firstn 15 ex_history) ex_conn) in let o := OSegment (ex_seg false true true false 505 105 1000 [11]) in
  st (c_sess c) = FIN_WAIT_1 /\ st (c_sess (fst (op_do o c))) = TIME_WAIT /\
  st (c_sess (fst (op_run (repeat OTick (Z.to_nat 29999) ++ [o; OTick]) (fst (op_do o c))))) = CLOSED /\
  st (c_sess (fst (op_run (repeat OTick (Z.to_nat 29999) ++ [o]) (fst (op_do o c))))) = TIME_WAIT.
Proof.
  cbv zeta. split; [vm_compute; reflexivity|]. split; [vm_compute; reflexivity|].
  assert (T : forall r, ticks (repeat OTick (Z.to_nat 29999) ++ r) = 29999 + ticks r).
  { intros r. unfold ticks. rewrite filter_app. unfold zlen. rewrite app_length. fold (zlen (filter (fun o => match o with OTick => true | _ => false end) (repeat OTick (Z.to_nat 29999)))).
    pose proof (ticks_repeat (Z.to_nat 29999)) as E. unfold ticks, zlen in E. lia. }
  split.
  - destruct (C75_time_wait 100 ex_conn (fst (op_run (firstn 15 ex_history) ex_conn)) (OSegment (ex_seg false true true false 505 105 1000 [11]))
      (repeat OTick (Z.to_nat 29999) ++ [OSegment (ex_seg false true true false 505 105 1000 [11]); OTick]) ex_opened (reach_all _ _ _ (any_all _ _))) as [_ E];
      [vm_compute; congruence|vm_compute; reflexivity|]. rewrite T in E. exact E.
  - destruct (C75_time_wait 100 ex_conn (fst (op_run (firstn 15 ex_history) ex_conn)) (OSegment (ex_seg false true true false 505 105 1000 [11]))
      (repeat OTick (Z.to_nat 29999) ++ [OSegment (ex_seg false true true false 505 105 1000 [11])]) ex_opened (reach_all _ _ _ (any_all _ _))) as [_ E];
      [vm_compute; congruence|vm_compute; reflexivity|]. rewrite T in E. exact E.
Qed.
