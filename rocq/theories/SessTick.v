(** Ticks do not raise while the windows are roomy. *)
From Verif Require Import Base BaseLemmas AddrModel TcpModel StackModel StackRxModel SessModel SpecSess SessProofs SessTrace SessRun SessInv SessTx SessKeep SessWin.

Definition open_w (s : sess) : Prop := 1 <= snd_mss s /\ 1 <= snd_ewn s /\ snd_nxt s <= snd_una s + snd_ewn s /\ 1 <= snd_wsc s.
Definition hdr_ok (s : sess) : Prop := (0 <= s_lport s <= 0xFFFF /\ 0 <= s_rport s <= 0xFFFF) /\ 0 <= rcv_nxt s < 2 ^ 32.
Definition queue_ok (s : sess) : Prop := forall k q, In (k, q) (ooo s) -> fine q.
Definition reg_ok (s : sess) : Prop := st s <> CLOSED -> reg s = true.
Definition tick_inv (s : sess) : Prop := open_w s /\ hdr_ok s /\ queue_ok s /\ reg_ok s.
Definition fit (e : event) (s : sess) : Prop :=
  match e with
  | EPacket p => fine p /\ room p s /\ (forall k q, In (k, q) (ooo s) -> room q s)
  | _ => True
  end.
Lemma tx_ok s seq syn ack fin rst data : hdr_ok s -> 0 <= seq < 2 ^ 32 -> tcp_tx_ok (segment s seq syn ack fin rst data) = true.
Proof.
  intros ((A & B) & C) D. change (2 ^ 32) with 4294967296 in *. unfold tcp_tx_ok. cbn [x_sport x_dport x_seq x_ack x_win x_urp x_opts segment].
  assert (K : 0 <= (if ack then rcv_nxt s else 0) <= 4294967295) by (destruct ack; lia).
  rewrite !andb_true_iff, !Z.leb_le. unfold RCV_WND. repeat split; try lia; destruct syn; reflexivity.
Qed.
Lemma fit_less e a b : (forall k q, In (k, q) (ooo b) -> In (k, q) (ooo a) \/ e = EPacket q) -> snd_nxt b - snd_una b <= snd_nxt a - snd_una a ->
  snd_wsc b = snd_wsc a -> fit e a -> fit e b.
Proof.
  intros O L W F. destruct e; auto. destruct F as (F1 & F2 & F3). unfold fit, room in *. rewrite W. split; [exact F1|]. split; [lia|].
  intros k q Q. apply O in Q. destruct Q as [Q|Q]; [specialize (F3 _ _ Q); lia|injection Q as ->; lia].
Qed.
Lemma fine_acked p : fine p -> 0 <= d_seq p + zlen (d_data p) + b2z (d_syn p) + b2z (d_fin p) < 2 ^ 32.
Proof.
  intros (A & B & C & D & E & F & G). pose proof (zlen_nonneg (d_data p)). pose proof (b2z_pos (d_syn p)). pose proof (b2z_pos (d_fin p)). lia.
Qed.
Lemma wsc_fine p : fine p -> 1 <= match d_wscale p with Some w => if w =? 0 then 1 else w | None => 1 end.
Proof.
  intros (A & B & C & D & E & F & G). destruct (d_wscale p) as [w|] eqn:H; [|lia]. specialize (D _ eq_refl). destruct (w =? 0) eqn:Z0; [lia|apply Z.eqb_neq in Z0; lia].
Qed.
Lemma sync_nxt p s : snd_nxt (acked p (synchronise p s)) = if (snd_nxt s <? Z.max (snd_una s) (d_ackn p)) && (Z.max (snd_una s) (d_ackn p) <=? snd_max s) then Z.max (snd_una s) (d_ackn p) else snd_nxt s.
Proof. reflexivity. Qed.
Lemma sync_mss p s : snd_mss (acked p (synchronise p s)) = Z.min (d_mss p) LOCAL_TCP_MSS. Proof. reflexivity. Qed.
Lemma sync_wsc p s : snd_wsc (acked p (synchronise p s)) = match d_wscale p with Some w => if w =? 0 then 1 else w | None => 1 end. Proof. reflexivity. Qed.
Lemma sync_ewn p s : snd_ewn (acked p (synchronise p s)) = Z.min (Z.shiftl (Z.min (d_mss p) LOCAL_TCP_MSS) 1) (d_win p * match d_wscale p with Some w => if w =? 0 then 1 else w | None => 1 end).
Proof. reflexivity. Qed.
Lemma sync_ports p s : s_lport (acked p (synchronise p s)) = s_lport s /\ s_rport (acked p (synchronise p s)) = s_rport s. Proof. split; reflexivity. Qed.
Lemma sync_reg p s : reg (acked p (synchronise p s)) = reg s. Proof. reflexivity. Qed.
Lemma shl1 x : Z.shiftl x 1 = 2 * x. Proof. rewrite Z.shiftl_mul_pow2 by lia. lia. Qed.
Lemma fit_origin e p s0 s : origin e p s0 s -> fit e s0 -> queue_ok s0 -> fine p /\ room p s /\ fit e s.
Proof.
  intros O F Q. destruct O as [[-> ->]|([I [p0 ->]] & E & ->)]; [split; [apply F|split; [apply F|exact F]]|].
  destruct F as (F1 & F2 & F3). split; [eapply Q; eauto|]. split; [exact (F3 _ _ I)|]. split; [exact F1|]. split; [exact F2|].
  intros k q K. cbn [ooo set_ooo] in K. apply in_ddel in K. exact (F3 _ _ K).
Qed.
Lemma inv_origin e p s0 s : origin e p s0 s -> tick_inv s0 -> tick_inv s.
Proof.
  intros O T. pose proof (origin_ooo _ _ _ _ O) as I. destruct T as (A & B & C & D).
  assert (Q : queue_ok s) by (intros k q K; eapply C; apply I; exact K).
  destruct O as [[_ ->]|(_ & _ & ->)]; split; auto.
Qed.
Lemma tick_step n e a b : pstep true e a b -> pre true n a -> tick_inv a -> fit e a -> tick_inv b /\ fit e b.
Proof.
  intros S P T F. pose proof T as (TW & TH & TQ & TR).
  destruct S; try (split; [exact T|eapply fit_less; [| | |exact F]; auto; reflexivity]).
  - (* unreg *) split; [split; [exact TW|split; [exact TH|split; [exact TQ|]]]; intros X; contradiction|exact F].
  - (* go *) split; [|exact F]. split; [exact TW|split; [exact TH|split; [exact TQ|]]]. intros X. cbn [reg moved set_st set_hist]. apply TR.
    intros C. specialize (H0 eq_refl). unfold may in H0. rewrite C in H0. destruct n0; auto.
  - (* gone *) subst e. split; [|exact Logic.I]. destruct P as [P0 _]. destruct P0 as (Q1 & Q2 & _). destruct TW as (W1 & W2 & W3 & W4).
    split; [|split; [exact TH|split; [exact TQ|]]]; [|intros X; exfalso; apply X; reflexivity].
    unfold open_w, gone, moved, pkt. sx. repeat split; auto. rewrite zlen_nil. cbn. lia.
  - (* adopt *) subst e. destruct F as (F1 & F2 & F3). pose proof (wsc_fine p F1) as W5. destruct F1 as (A & B & C & D & E & G & J).
    destruct P as [P0 PS]. destruct (PS eq_refl) as [I0 SH]. unfold shape in SH. rewrite H0 in SH. destruct SH as ((_ & _ & _ & _ & O5 & _) & O2 & _).
    destruct P0 as (Q1 & Q2 & _ & Q4 & _).
    assert (O : ooo s = []) by (apply Q4; rewrite H0; cbn; auto).
    split.
    + split; [|split; [|split]].
      * unfold open_w, adopt, LOCAL_TCP_MSS. sx. lia.
      * unfold hdr_ok, adopt. sx. pose proof (b2z_pos (d_syn p)). pose proof (zlen_nonneg (d_data p)). split; [split; assumption|lia].
      * intros k q Q. change (ooo (adopt p s)) with (ooo s) in Q. rewrite O in Q. destruct Q.
      * intros _. reflexivity.
    + split; [repeat split; auto; lia|]. split; [unfold room; sx; nia|]. intros k q Q. change (ooo (adopt p s)) with (ooo s) in Q. rewrite O in Q. destruct Q.
  - (* sync *) subst e. destruct F as (F1 & F2 & F3). pose proof (wsc_fine p F1) as W5. pose proof (fine_acked p F1) as R5. destruct F1 as (A & B & C & D & E & G & J).
    destruct P as [P0 PS]. destruct P0 as (Q1 & Q2 & _ & Q4 & _). assert (O : ooo s = []) by (apply Q4; rewrite H0; cbn; auto).
    pose proof (sync_nxt p s) as X1. pose proof (sync_mss p s) as X2. pose proof (sync_wsc p s) as X3. pose proof (sync_ewn p s) as X4. pose proof (sync_una p s) as X5.
    pose proof (sync_ports p s) as X6. pose proof (sync_reg p s) as X7. pose proof (sync_st p s) as X8. pose proof (sync_ooo p s) as X9. pose proof (sync_rcv_nxt p s) as X10.
    generalize dependent (acked p (synchronise p s)). intros b X1 X2 X3 X4 X5 X6 X7 X8 X9 X10.
    generalize dependent (match d_wscale p with Some w => if w =? 0 then 1 else w | None => 1 end). intros wsc W5 X3 X4.
    rewrite shl1 in X4. assert (U : snd_una b = snd_nxt s) by lia.
    assert (N : snd_nxt b = snd_nxt s). { rewrite X1. destruct (_ && _) eqn:EE; [|reflexivity]. apply andb_true_iff in EE. destruct EE as [E1 _]. apply Z.ltb_lt in E1. lia. }
    assert (WW : 1 <= d_win p * wsc) by nia. unfold LOCAL_TCP_MSS in *. rewrite O in X9.
    split.
    + split; [|split; [|split]].
      * unfold open_w. lia.
      * unfold hdr_ok. destruct X6 as [-> ->]. rewrite X10. split; [apply TH|exact R5].
      * intros k q Q. rewrite X9 in Q. destruct Q.
      * intros X. rewrite X7. apply TR. rewrite <- X8. exact X.
    + split; [repeat split; auto; lia|]. split; [unfold room; rewrite X3; lia|]. intros k q Q. rewrite X9 in Q. destruct Q.
  - (* pop *) split; [eapply inv_origin; eauto|]. eapply fit_origin; eauto.
  - (* ack *) pose proof (inv_origin _ _ _ _ H T) as TS. destruct (fit_origin _ _ _ _ H F TQ) as (F1 & F2 & F3). pose proof (pre_origin true n e p s0 s H P) as PO.
    clear T TW TH TQ TR. destruct TS as (TW & TH & TQ & TR). destruct PO as [(Q1 & Q2 & _) _]. destruct (takes_ack p s) as [K _]; [lia|exact H0|].
    pose proof (fine_acked p F1) as R5. assert (J : 1 <= d_win p) by apply F1. destruct TW as (W1 & W2 & W3 & W4). unfold room in F2.
    assert (NX : snd_nxt (acked p s) = Z.max (snd_nxt s) (Z.max (snd_una s) (d_ackn p))).
    { unfold acked. sx. destruct (_ && _) eqn:EE; [apply andb_true_iff in EE; rewrite Z.ltb_lt, Z.leb_le in EE; lia|apply andb_false_iff in EE; rewrite Z.ltb_ge, Z.leb_gt in EE; lia]. }
    assert (UX : snd_una (acked p s) = Z.max (snd_una s) (d_ackn p)) by reflexivity.
    assert (EX : snd_ewn (acked p s) = Z.min (2 * snd_ewn s) (d_win p * snd_wsc s)) by (rewrite <- shl1; reflexivity).
    assert (WW : 1 <= d_win p * snd_wsc s) by nia.
    split.
    + split; [|split; [|split; [exact TQ|exact TR]]].
      * unfold open_w. rewrite NX, UX, EX. change (snd_mss (acked p s)) with (snd_mss s). change (snd_wsc (acked p s)) with (snd_wsc s). lia.
      * split; [apply TH|exact R5].
    + eapply fit_less; [| | |exact F3]; [auto|rewrite NX, UX; lia|reflexivity].
  - (* store *) subst e. split.
    + split; [exact TW|split; [exact TH|split; [|exact TR]]]. intros k q Q. cbn [ooo set_ooo] in Q. apply in_dset in Q. destruct Q as [Q|Q]; [injection Q as -> ->; apply F|eapply TQ; eauto].
    + eapply fit_less; [| | |exact F]; [|sx; lia|reflexivity]. intros k q Q. cbn [ooo set_ooo] in Q. apply in_dset in Q. destruct Q as [Q|Q]; [injection Q as -> ->; auto|auto].
  - (* rerequest *) destruct P as [(Q1 & Q2 & _) _]. destruct TW as (W1 & W2 & W3 & W4). split.
    + split; [unfold open_w; sx; lia|split; [exact TH|split; [exact TQ|exact TR]]].
    + eapply fit_less; [| | |exact F]; [auto|sx; lia|reflexivity].
  - (* rewind *) subst e. destruct TW as (W1 & W2 & W3 & W4). split; [|exact Logic.I]. rewrite rewind_eq.
    split; [unfold open_w; sx; lia|split; [exact TH|split; [exact TQ|exact TR]]].
  - (* resyn *) subst e. destruct TW as (W1 & W2 & W3 & W4). split; [|exact Logic.I]. rewrite rewind_eq.
    split; [unfold open_w, pkt; sx; change (zlen (@nil Z)) with 0; cbn [b2z]; lia|split; [exact TH|split; [exact TQ|exact TR]]].
  - (* send *) destruct P as [P0 PS]. destruct (PS eq_refl) as [I0 SH]. destruct P0 as (Q1 & Q2 & _). destruct TW as (W1 & W2 & W3 & W4).
    enough (K : snd_nxt s + zlen data + b2z syn + b2z fin <= snd_una s + snd_ewn s /\ (e <> ETimer -> zlen data + b2z syn + b2z fin = 0)).
    { destruct K as [K1 K2]. split.
      - split; [unfold open_w, pkt; sx; lia|split; [exact TH|split; [exact TQ|exact TR]]].
      - destruct e; auto. specialize (K2 ltac:(discriminate)). eapply fit_less; [| | |exact F]; [auto|unfold pkt; sx; lia|reflexivity]. }
    unfold sends in H. destruct syn, ack, fin; try (destruct H; fail); cbn [b2z].
    + destruct H as (-> & E & N & ->). change (zlen (@nil Z)) with 0. split; [lia|congruence].
    + destruct H as (-> & E & N & ->). change (zlen (@nil Z)) with 0. split; [lia|congruence].
    + destruct H as (-> & E & N & ->). change (zlen (@nil Z)) with 0. split; [|congruence].
      assert (SH' : snd_ini s + 1 + n <= snd_una s /\ (snd_fin s = 0 /\ snd_max s = snd_ini s + 1 + n \/ snd_fin s = snd_ini s + 2 + n /\ snd_max s = snd_ini s + 2 + n)).
      { unfold shape in SH. destruct E as [E|E]; rewrite E in SH; tauto. }
      lia.
    + destruct H as [->|(-> & E & K & L & D)]; [change (zlen (@nil Z)) with 0; split; lia|]. split; [|congruence].
      assert (M : tx_mod s = snd_una s /\ snd_max s <= snd_una s + zlen (tx_buf s)) by (unfold shape in SH; destruct E as [E|E]; rewrite E in SH; tauto).
      cbv zeta in L, D. set (len := Z.min (Z.min (snd_mss s) (snd_ewn s - tx_buf_nxt s)) (zlen (tx_buf s) - tx_buf_nxt s)) in *.
      assert (N : tx_buf_nxt s = snd_nxt s - snd_una s) by (unfold tx_buf_nxt; lia).
      assert (LEN : 0 <= len) by lia. rewrite D. pose proof (py_slice_le (tx_buf_nxt s) (tx_buf_nxt s + len) (tx_buf s)) as B. lia.
  - (* una *) subst e. destruct P as [(Q1 & Q2 & _) _]. destruct TW as (W1 & W2 & W3 & W4). split.
    + split; [unfold open_w; sx; lia|split; [exact TH|split; [exact TQ|exact TR]]].
    + eapply fit_less; [| | |exact F]; [auto|sx; lia|reflexivity].
Qed.

(** * Ticks *)
Lemma max_bound n s : pre true n s -> st s <> CLOSED -> 0 <= n -> 0 <= snd_una s /\ snd_max s <= snd_ini s + 2 + n.
Proof.
  intros [P0 PS] C N. destruct (PS eq_refl) as [I0 SH]. destruct P0 as (Q1 & Q2 & _). split; [lia|]. unfold shape, opening in SH.
  destruct (st s); try congruence; intuition lia.
Qed.
Lemma data_ok s : snd_una s <= snd_nxt s <= snd_una s + snd_ewn s -> hdr_ok s -> 0 <= snd_nxt s < 2 ^ 32 -> snd (transmit_data s) = Ok tt.
Proof.
  intros A B C. unfold transmit_data, passert, pbind.
  replace ((snd_una s <=? snd_nxt s) && (snd_nxt s <=? snd_una s + snd_ewn s)) with true by (symmetry; apply andb_true_iff; rewrite !Z.leb_le; lia).
  unfold pwhen, pif. repeat match goal with |- snd ((if ?c then _ else _)) = _ => destruct c end; rewrite ?transmit_eq; cbn [seq_of]; rewrite ?tx_ok by assumption; try reflexivity.
Qed.
Lemma timeout_ok s : hdr_ok s -> 0 <= snd_una s < 2 ^ 32 -> 0 <= snd_nxt s < 2 ^ 32 -> reg s = true -> 1 <= snd_mss s -> 1 <= snd_ewn s ->
  snd_una s <= snd_nxt s <= snd_una s + snd_ewn s ->
  exists s1, retransmit_timeout s = (s1, Ok tt) /\ hdr_ok s1 /\ 0 <= snd_nxt s1 < 2 ^ 32 /\ snd_una s1 <= snd_nxt s1 <= snd_una s1 + snd_ewn s1.
Proof.
  intros A B C R M E W. unfold retransmit_timeout. destruct (dget _ _); [|exists s; auto]. destruct (expired _ _); [|exists s; auto].
  destruct (_ =? _).
  - rewrite give_up_eq, tx_ok by assumption. rewrite R. eexists. split; [reflexivity|]. split; [exact A|].
    change (snd_nxt (set_reg false (gone s))) with (snd_una s + 0 + 0 + 0). change (snd_una (set_reg false (gone s))) with (snd_una s).
    change (snd_ewn (set_reg false (gone s))) with (snd_ewn s). lia.
  - eexists. split; [reflexivity|]. rewrite rewind_eq. split; [exact A|]. sx. lia.
Qed.
Lemma bind_ok (m : P unit) (k : unit -> P unit) s s1 : m s = (s1, Ok tt) -> pbind m k s = k tt s1.
Proof. intros E. unfold pbind. rewrite E. reflexivity. Qed.
Lemma change_ok m s : m <> CLOSED \/ reg s = true -> snd (change_state m s) = Ok tt.
Proof.
  intros H. unfold change_state. rewrite pbind_do. unfold pwhen, pif. rewrite in_state_1. sx. destruct (fsm_eqb m CLOSED) eqn:E; [|reflexivity].
  apply fsm_eqb_eq in E. destruct H as [H|H]; [contradiction|]. rewrite H. reflexivity.
Qed.
Lemma delayed_ok s : hdr_ok s -> 0 <= snd_nxt s < 2 ^ 32 \/ rcv_nxt s <= rcv_una s -> exists s1, delayed_ack s = (s1, Ok tt) /\ closing s1 = closing s /\ tx_buf s1 = tx_buf s.
Proof.
  intros H N. unfold delayed_ack, pwhen, pif. destruct (expired _ _); [|eexists; split; [reflexivity|auto]].
  unfold pbind, pif. destruct (rcv_una s <? rcv_nxt s) eqn:L.
  - apply Z.ltb_lt in L. destruct N as [N|N]; [|lia]. unfold transmit_ack. rewrite transmit_eq. cbn [seq_of]. rewrite tx_ok by assumption.
    eexists. split; [reflexivity|auto].
  - eexists. split; [reflexivity|auto].
Qed.
Lemma closed_data s : st s = CLOSED -> snd_una s <= snd_nxt s <= snd_una s + snd_ewn s -> transmit_data s = (s, Ok tt).
Proof.
  intros E A. unfold transmit_data, passert, pbind.
  replace ((snd_una s <=? snd_nxt s) && (snd_nxt s <=? snd_una s + snd_ewn s)) with true by (symmetry; apply andb_true_iff; rewrite !Z.leb_le; lia).
  unfold pwhen, pif, in_state. rewrite E. reflexivity.
Qed.
Lemma up_ok n s m : pre true n s -> tick_inv s -> 0 <= n -> snd_ini s + 2 + n < 2 ^ 32 -> In (st s) [ESTABLISHED; CLOSE_WAIT] -> m <> CLOSED ->
  snd ((_ <# retransmit_timeout ;; _ <# transmit_data ;; _ <# delayed_ack ;; pwhen (fun s => closing s && (zlen (tx_buf s) =? 0)) (change_state m)) s) = Ok tt.
Proof.
  intros P T N B U M. assert (NC : st s <> CLOSED) by (cbn in U; intuition congruence). pose proof T as ((W1 & W2 & W3 & W4) & TH & TQ & TR).
  pose proof P as [(Q1 & Q2 & _) _]. destruct (max_bound n s P NC N) as [UB MB].
  destruct (timeout_ok s) as (s1 & E1 & H1 & N1 & L1); auto; try lia.
  assert (RT : retransmits s) by (unfold retransmits; cbn in *; intuition).
  assert (NS : true = true -> ~ In (st s) [SYN_SENT; SYN_RCVD]) by (intros _ X; cbn in U, X; intuition congruence).
  pose proof (run_timeout true n s P RT NS) as R1. rewrite (bind_ok _ _ _ _ E1). rewrite E1 in R1. destruct R1 as (S1 & _ & K1). cbn [fst snd] in S1, K1.
  specialize (K1 eq_refl). pose proof (pre_steps _ _ _ _ _ S1 P) as P1.
  destruct (transmit_data s1) as [s2 r2] eqn:E2. pose proof (data_ok s1 L1 H1 N1) as O2. rewrite E2 in O2. cbn [snd] in O2. subst r2.
  rewrite (bind_ok _ _ _ _ E2). pose proof (run_transmit true n s1 P1) as R2. rewrite E2 in R2. destruct R2 as (S2 & _ & K2). cbn [fst snd] in S2, K2. specialize (K2 eq_refl).
  assert (T2 : tick_inv s2).
  { clear - S1 S2 P T. assert (SS : steps true ETimer s s2) by (eapply steps_app; eauto). clear S1 S2. revert P T. induction SS as [s|a b c S SS IH]; intros; auto.
    apply IH; [eapply pre_step; eauto|]. destruct (tick_step n _ _ _ S P T Logic.I). assumption. }
  pose proof (pre_steps _ _ _ _ _ S2 P1) as P2. destruct T2 as (_ & TH2 & _).
  specialize (K1 P1). specialize (K2 P2). destruct K1 as [K1|K1].
  - assert (E : st s2 = st s) by (destruct K1 as [K1 _], K2 as [K2 _]; congruence).
    assert (I2 : snd_ini s2 = snd_ini s) by (rewrite (ini_steps _ _ _ _ S2), (ini_steps _ _ _ _ S1); reflexivity).
    destruct (max_bound n s2 P2) as [UB2 MB2]; [congruence|lia|]. pose proof P2 as [(Q3 & Q4 & _) _].
    destruct (delayed_ok s2 TH2) as (s3 & E3 & _); [left; lia|]. rewrite (bind_ok _ _ _ _ E3). unfold pwhen, pif. destruct (_ && _); [apply change_ok; auto|reflexivity].
  - assert (C1 : st s1 = CLOSED) by apply K1. rewrite (closed_data s1 C1 L1) in E2. injection E2 as <-.
    assert (RU : rcv_nxt s1 <= rcv_una s1).
    { clear - E1 C1 NC. unfold retransmit_timeout in E1. destruct (dget _ _); [|injection E1 as <-; contradiction]. destruct (expired _ _); [|injection E1 as <-; contradiction].
      destruct (_ =? _); [|injection E1 as <-; rewrite rewind_eq in C1; contradiction]. rewrite give_up_eq in E1. destruct (tcp_tx_ok _); [|discriminate]. destruct (reg s); [|discriminate].
      injection E1 as <-. apply Z.le_refl. }
    destruct (delayed_ok s1 TH2) as (s3 & E3 & C3 & B3); [right; exact RU|]. rewrite (bind_ok _ _ _ _ E3). unfold pwhen, pif. rewrite C3, B3.
    destruct (zlen (tx_buf s1) =? 0) eqn:Z0; [|rewrite andb_false_r; reflexivity]. exfalso. apply Z.eqb_eq, zlen_zero_nil in Z0.
    destruct K1 as (_ & X & _ & _ & _ & c & K1). destruct P as [_ PS]. destruct (PS eq_refl) as [_ SH]. apply (shape_data n s U SH c K1). congruence.
Qed.
Lemma two_ok n s : pre true n s -> tick_inv s -> 0 <= n -> snd_ini s + 2 + n < 2 ^ 32 -> st s <> CLOSED -> snd ((_ <# retransmit_timeout ;; transmit_data) s) = Ok tt.
Proof.
  intros P T N B NC. pose proof T as ((W1 & W2 & W3 & W4) & TH & TQ & TR).
  pose proof P as [(Q1 & Q2 & _) _]. destruct (max_bound n s P NC N) as [UB MB].
  destruct (timeout_ok s) as (s1 & E1 & H1 & N1 & L1); auto; try lia. rewrite (bind_ok _ _ _ _ E1). apply data_ok; auto.
Qed.
Lemma etimer_ok n s : pre true n s -> tick_inv s -> 0 <= n -> snd_ini s + 2 + n < 2 ^ 32 -> snd (tcp_fsm ETimer s) = Ok tt.
Proof.
  intros P T N B. unfold tcp_fsm. cbn [fsm]. destruct (st s) eqn:E; try reflexivity.
  - eapply two_ok; eauto. congruence.
  - eapply two_ok; eauto. congruence.
  - eapply up_ok; eauto; [rewrite E; cbn; auto|discriminate].
  - eapply two_ok; eauto. congruence.
  - eapply up_ok; eauto; [rewrite E; cbn; auto|discriminate].
  - eapply two_ok; eauto. congruence.
  - cbn [fsm_time_wait]. unfold pwhen, pif. destruct (expired _ _); [|reflexivity]. apply change_ok. right. apply T. congruence.
Qed.
(** * Reachable connections *)
Lemma roomy_ok iss : allowed_ok true iss (roomy_op iss).
Proof. intros o c [H _] _. exact H. Qed.
Lemma tick_reach iss c0 c : opened iss c0 -> ports_ok c0 -> iss + 2 < 2 ^ 32 -> reach (roomy_op iss) c0 c -> tick_inv (c_sess c) /\ iss + 2 + zlen (c_written c) < 2 ^ 32.
Proof.
  intros O PO IB R. revert c R.
  apply (reach_ind_moves true iss (roomy_op iss) c0 (fun c => tick_inv (c_sess c) /\ iss + 2 + zlen (c_written c) < 2 ^ 32) O (roomy_ok iss)).
  - destruct O as (_ & call & lip & lport & rip & rport & timers & K & N & ->). unfold tick_inv, open_w, hdr_ok, queue_ok, reg_ok, ports_ok in *.
    destruct K as [-> | ->]; cbn in *; change (zlen (@nil Z)) with 0; repeat split; auto; try lia; intros; tauto.
  - intros o c c' [A1 A2] [P I] _ [T B] M.
    assert (STEPS : forall e, op_event o = Some e -> steps true e (c_sess c) (c_sess c') -> c_written c' = c_written c -> tick_inv (c_sess c') /\ iss + 2 + zlen (c_written c') < 2 ^ 32).
    { intros e E S W. rewrite W. split; [|exact B]. assert (F : fit e (c_sess c)) by (destruct o; try discriminate; injection E as <-; auto; apply A2).
      clear - S P T F. revert P T F. induction S as [s|a b d S SS IH]; intros; auto. destruct (tick_step _ _ _ _ S P T F). apply IH; auto. eapply pre_step; eauto. }
    destruct o; cbn [moves] in M.
    1-3: destruct M as ((e & E & S) & _ & W); eapply STEPS; eauto.
    + destruct M as [->|(_ & -> & _ & W)]; [auto|]. split; [exact T|]. rewrite W. exact A2.
    + destruct M as (W & b & w & d & -> & _). split; [exact T|]. rewrite W. exact B.
Qed.
Lemma tick_never_raises iss c0 c : opened iss c0 -> ports_ok c0 -> iss + 2 < 2 ^ 32 -> reach (roomy_op iss) c0 c -> snd (op_do OTick c) = Ok tt.
Proof.
  intros O PO IB R. pose proof (reach_good true iss (roomy_op iss) c0 c O (roomy_ok iss) R) as [P I].
  destruct (tick_reach iss c0 c O PO IB R) as [T B]. cbn [op_do]. unfold tick. rewrite pbind_do. unfold with_sess. cbn [snd].
  pose proof (ps_dec true ETimer (c_sess c) eq_refl) as S. destruct (tick_step _ _ _ _ S P T Logic.I) as [T1 _].
  pose proof (pre_step _ _ _ _ _ S P) as P1. eapply etimer_ok; [exact P1|exact T1|apply zlen_nonneg|]. cbn [snd_ini set_tmr]. rewrite I. exact B.
Qed.
Lemma roomy_steady iss c0 l : opened iss c0 -> ports_ok c0 -> iss + 2 < 2 ^ 32 -> forall c, reach (roomy_op iss) c0 c -> stays (roomy_op iss) l c -> steady iss l c.
Proof.
  intros O PO IB. induction l as [|o l IH]; intros c R S; [exact Logic.I|]. destruct S as (A & U & S). cbn [steady].
  assert (SQ : seq_op iss o c). { destruct A as [A B]. split; [exact A|]. destruct o; auto. apply B. }
  split; [exact SQ|]. split; [intros ->; eapply tick_never_raises; eauto|]. split; [exact U|]. apply IH; [|exact S]. apply reach_op; assumption.
Qed.
Lemma roomy_reach iss c0 c : reach (roomy_op iss) c0 c -> reach (seq_op iss) c0 c.
Proof. intros R. induction R as [|c o R IH A]; [apply reach_0|]. apply reach_op; [exact IH|]. destruct A as [A B]. split; [exact A|]. destruct o; auto. apply B. Qed.
