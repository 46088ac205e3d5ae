(** Handshakes and sequence numbers near 2^32. *)
From Verif Require Import Base BaseLemmas AddrModel TcpModel StackModel StackRxModel SessModel SpecSess SessProofs SessTrace SessRun SessInv SessTx SessKeep SessWin SessTick.

(** * The largest initial sequence number *)
Definition wrapped (s : sess) : Prop := st s = CLOSED \/ st s = SYN_SENT /\ snd_una s = snd_ini s.
Lemma wrap_step n e a b : pstep true e a b -> pre true n a -> snd_ini a = 2 ^ 32 - 1 -> (forall p, e = EPacket p -> d_ackn p < 2 ^ 32) -> wrapped a -> wrapped b.
Proof.
  intros S P I A H. destruct S; try exact H.
  - (* go *) specialize (H1 eq_refl). unfold may in H1. destruct H as [H|[H U]]; rewrite H in H1; [destruct n0; contradiction|].
    destruct n0; try contradiction; [left; reflexivity|]. destruct H1 as (p & _ & _ & X). lia.
  - left. reflexivity.
  - exfalso. destruct H as [H|[H U]]; [congruence|]. destruct P as [(Q1 & Q2 & _) PS]. destruct (PS eq_refl) as [_ SH]. unfold shape in SH. rewrite H in SH.
    destruct SH as [(_ & _ & _ & _ & O5 & O6 & _) _]. specialize (A p H0). specialize (H5 eq_refl). lia.
  - destruct H0 as [[_ ->]|(_ & _ & ->)]; exact H.
  - assert (HS : wrapped s) by (destruct H0 as [[_ ->]|(_ & _ & ->)]; exact H). exfalso. unfold takes in H1. destruct HS as [X|[X _]]; rewrite X in H1; intuition discriminate.
  - rewrite rewind_eq. exact H.
  - rewrite rewind_eq. exact H.
  - exfalso. destruct H as [H|[H U]]; congruence.
Qed.
Lemma wrap_steps n e a b : steps true e a b -> pre true n a -> snd_ini a = 2 ^ 32 - 1 -> (forall p, e = EPacket p -> d_ackn p < 2 ^ 32) -> wrapped a -> wrapped b.
Proof.
  intros S. induction S as [s|a b c S SS IH]; intros P I A H; [exact H|]. apply IH; auto; [eapply pre_step; eauto|rewrite (ini_step _ _ _ _ S); exact I|eapply wrap_step; eauto].
Qed.
Lemma wrap_reach c0 c : opened (2 ^ 32 - 1) c0 -> st (c_sess c0) = SYN_SENT -> reach (ack32_op (2 ^ 32 - 1)) c0 c -> st (c_sess c) = SYN_SENT \/ st (c_sess c) = CLOSED.
Proof.
  intros O ST R. enough (W : wrapped (c_sess c)) by (destruct W as [W|[W _]]; auto). revert c R.
  apply (reach_ind_moves true (2 ^ 32 - 1) _ c0 (fun c => wrapped (c_sess c)) O).
  - intros o c [H _] _. exact H.
  - right. split; [exact ST|]. destruct O as (_ & call & lip & lport & rip & rport & timers & K & N & ->). destruct K as [-> | ->]; [reflexivity|discriminate].
  - intros o c c' [_ A] [P I] _ W M. destruct o; cbn [moves] in M.
    1-3: destruct M as ((e & E & S) & _); injection E as <-; (eapply wrap_steps; [exact S|exact P|exact I| |exact W]); intros q X; try discriminate X; injection X as <-; exact A.
    + destruct M as [->|(_ & -> & _)]; exact W.
    + destruct M as (_ & b & w & d & -> & _). exact W.
Qed.

(** * Connecting *)
Lemma syn_tick s : st s = SYN_SENT -> tx_to s = [] -> snd_una s = snd_ini s -> snd_nxt s = snd_ini s -> 0 <= snd_ewn s -> hdr_ok s -> 0 <= snd_ini s < 2 ^ 32 ->
  tick s = (pkt (snd_ini s) true false false false [] (set_tmr (tdec (tmr s)) s), Ok tt).
Proof.
  intros ST TO U N E H I. unfold tick. rewrite pbind_do. set (s1 := set_tmr (tdec (tmr s)) s).
  assert (V : st s1 = SYN_SENT /\ tx_to s1 = [] /\ snd_una s1 = snd_ini s1 /\ snd_nxt s1 = snd_ini s1 /\ 0 <= snd_ewn s1 /\ hdr_ok s1 /\ snd_ini s1 = snd_ini s) by (repeat split; auto; apply H).
  clearbody s1. clear - V I. destruct V as (ST & TO & U & N & E & H & II). unfold tcp_fsm. cbn [fsm]. rewrite ST. cbn [fsm_syn_sent].
  unfold pbind, retransmit_timeout. rewrite TO. cbn [dget]. unfold transmit_data, pbind, passert.
  replace ((snd_una s1 <=? snd_nxt s1) && (snd_nxt s1 <=? snd_una s1 + snd_ewn s1)) with true by (symmetry; apply andb_true_iff; rewrite !Z.leb_le; lia).
  unfold pif, in_state, existsb. rewrite ST, N, Z.eqb_refl. cbn [fsm_eqb orb andb]. rewrite transmit_eq. cbn [seq_of]. rewrite N, II, tx_ok by (auto; lia). reflexivity.
Qed.
Lemma synack_taken p s : st s = SYN_SENT -> is_synack p = true -> no_data p = true -> d_ackn p = snd_nxt s -> snd_una s <= snd_nxt s -> ooo s = [] ->
  hdr_ok s -> 0 <= d_seq p -> d_seq p + 1 < 2 ^ 32 -> 0 <= snd_nxt s < 2 ^ 32 ->
  exists s', tcp_fsm (EPacket p) s = (s', Ok tt) /\ st s' = ESTABLISHED /\ ev_conn s' = ev_conn s + 1 /\ snd_una s' = snd_nxt s /\ snd_nxt s' = snd_nxt s /\ rcv_nxt s' = d_seq p + 1 /\
    exists t, sent s' = sent s ++ [t] /\ x_fack t = true /\ x_fsyn t = false /\ x_seq t = snd_nxt s /\ x_ack t = d_seq p + 1.
Proof.
  intros ST SA ND AK UN OO H Q1 Q2 NB. unfold tcp_fsm. rewrite OO. cbn [length fsm]. rewrite ST. unfold fsm_syn_sent. unfold pif at 1. rewrite SA, ND. cbv beta. rewrite AK, Z.eqb_refl. cbn [andb].
  rewrite pbind_do. set (again := fun q : tmd => fsm 0 (EPacket q)). unfold pbind at 1. rewrite process_eq. cbv zeta.
  pose proof (sync_nxt p s) as X1. pose proof (sync_una p s) as X5. pose proof (sync_ports p s) as X6. pose proof (sync_st p s) as X8. pose proof (sync_ooo p s) as X9. pose proof (sync_rcv_nxt p s) as X10.
  assert (X2 : ev_conn (acked p (synchronise p s)) = ev_conn s) by reflexivity. assert (X3 : sent (acked p (synchronise p s)) = sent s) by reflexivity.
  generalize dependent (acked p (synchronise p s)). intros b X1 X5 X6 X8 X9 X10 X2 X3. rewrite X9, OO. cbn [dget].
  assert (FL : d_syn p = true /\ d_fin p = false). { unfold is_synack in SA. destruct (d_syn p), (d_ack p), (d_fin p), (d_rst p); try discriminate; auto. }
  destruct FL as [F1 F2]. rewrite F1, F2 in X10. apply no_data_iff in ND. rewrite ND in X10. change (zlen (@nil Z)) with 0 in X10. cbn [b2z] in X10.
  assert (NX : snd_nxt b = snd_nxt s). { rewrite X1. destruct (_ && _) eqn:EE; [|reflexivity]. apply andb_true_iff in EE. destruct EE as [E1 _]. apply Z.ltb_lt in E1. lia. }
  assert (HB : hdr_ok b) by (unfold hdr_ok; destruct X6 as [-> ->]; rewrite X10; split; [apply H|lia]).
  unfold transmit_ack, pbind. rewrite transmit_eq. cbn [seq_of]. rewrite tx_ok by (auto; lia). unfold change_state. rewrite pbind_do. unfold pwhen, pif. rewrite in_state_1. sx. cbn [fsm_eqb].
  cbn [pret]. unfold release_conn, pdo. eexists. split; [reflexivity|]. sx. split; [reflexivity|]. split; [cbn [ev_conn pkt]; lia|]. split; [cbn [snd_una pkt]; lia|].
  split; [cbn [snd_nxt pkt]; change (zlen (@nil Z)) with 0; cbn [b2z]; lia|]. split; [cbn [rcv_nxt pkt]; lia|].
  eexists. split; [cbn [sent pkt]; rewrite X3; reflexivity|]. cbn [x_fack x_fsyn x_seq x_ack segment]. repeat split; [exact NX|lia].
Qed.

(** * Acknowledgement numbers below 2^32 *)
Definition una_inv (s : sess) : Prop := snd_una s < 2 ^ 32 /\ forall k q, In (k, q) (ooo s) -> d_ackn q < 2 ^ 32.
Lemma una_origin e p s0 s : origin e p s0 s -> (forall p, e = EPacket p -> d_ackn p < 2 ^ 32) -> una_inv s0 -> una_inv s /\ d_ackn p < 2 ^ 32.
Proof.
  intros O E (A & B). destruct O as [[-> ->]|([I [p0 ->]] & _ & ->)].
  - split; [split; assumption|]. exact (E p eq_refl).
  - split; [|exact (B _ _ I)]. split; [exact A|]. intros k q Q. cbn [ooo set_ooo] in Q. apply in_ddel in Q. exact (B _ _ Q).
Qed.
Lemma una_step e a b : pstep true e a b -> (forall p, e = EPacket p -> d_ackn p < 2 ^ 32) -> una_inv a -> una_inv b.
Proof.
  intros S E H. destruct S; try exact H.
  - split; [rewrite sync_una|rewrite sync_ooo; exact (proj2 H)]. specialize (E p H0). destruct H as [H _]. lia.
  - apply (una_origin e p s0 s H0 E H).
  - destruct (una_origin e p s0 s H0 E H) as [[A B] C]. split; [unfold acked; sx; lia|exact B].
  - split; [exact (proj1 H)|]. intros k q Q. cbn [ooo set_ooo] in Q. apply in_dset in Q. destruct Q as [Q|Q]; [injection Q as _ ->; exact (E p H0)|exact (proj2 H _ _ Q)].
  - rewrite rewind_eq. exact H.
  - rewrite rewind_eq. exact H.
  - split; [exact (E p H0)|exact (proj2 H)].
Qed.
Lemma una_steps e a b : steps true e a b -> (forall p, e = EPacket p -> d_ackn p < 2 ^ 32) -> una_inv a -> una_inv b.
Proof. intros S. induction S as [s|a b c S SS IH]; intros E H; auto. apply IH; auto. eapply una_step; eauto. Qed.
Lemma una_reach iss c0 c : opened iss c0 -> reach (ack32_op iss) c0 c -> una_inv (c_sess c).
Proof.
  intros O. revert c. apply (reach_ind_moves true iss _ c0 (fun c => una_inv (c_sess c)) O).
  - intros o c [H _] _. exact H.
  - destruct O as (B & call & lip & lport & rip & rport & timers & K & N & ->). destruct K as [-> | ->]; (split; [exact (proj2 B)|intros k q []]).
  - intros o c c' [_ A] _ _ W M. destruct o; cbn [moves] in M.
    1-3: destruct M as ((e & E & S) & _); injection E as <-; (eapply una_steps; [exact S| |exact W]); intros q X; try discriminate X; injection X as <-; exact A.
    + destruct M as [->|(_ & -> & _)]; exact W.
    + destruct M as (_ & b & w & d & -> & _). exact W.
Qed.
Lemma left_over iss c0 c : opened iss c0 -> reach (ack32_op iss) c0 c -> In (st (c_sess c)) [ESTABLISHED; CLOSE_WAIT] -> iss + 1 + zlen (c_written c) - 2 ^ 32 < zlen (tx_buf (c_sess c)).
Proof.
  intros O R U. destruct (una_reach iss c0 c O R) as [B _].
  pose proof (reach_good true iss (ack32_op iss) c0 c O (fun o x H _ => proj1 H) R) as [[_ PS] I]. destruct (PS eq_refl) as [_ SH].
  unfold shape in SH. rewrite I in SH. cbn in U. destruct U as [U|[U|[]]]; rewrite <- U in SH; lia.
Qed.

(** * Accepting *)
Lemma syn_taken p s : st s = LISTEN -> is_syn p = true -> d_ackn p = 0 -> no_data p = true ->
  tcp_fsm (EPacket p) s = (moved SYN_RCVD (adopt p s), Ok tt).
Proof.
  intros ST S A D. unfold tcp_fsm. cbn [fsm]. rewrite ST. unfold fsm_listen. rewrite S, A, D. cbn [andb Z.eqb]. rewrite pbind_do. unfold change_state. rewrite pbind_do.
  unfold pwhen, pif. rewrite in_state_1. reflexivity.
Qed.
Lemma synack_tick s : st s = SYN_RCVD -> tx_to s = [] -> snd_una s = snd_ini s -> snd_nxt s = snd_ini s -> 0 <= snd_ewn s -> hdr_ok s -> 0 <= snd_ini s < 2 ^ 32 ->
  tick s = (pkt (snd_ini s) true true false false [] (set_tmr (tdec (tmr s)) s), Ok tt).
Proof.
  intros ST TO U N E H I. unfold tick. rewrite pbind_do. set (s1 := set_tmr (tdec (tmr s)) s).
  assert (V : st s1 = SYN_RCVD /\ tx_to s1 = [] /\ snd_una s1 = snd_ini s1 /\ snd_nxt s1 = snd_ini s1 /\ 0 <= snd_ewn s1 /\ hdr_ok s1 /\ snd_ini s1 = snd_ini s) by (repeat split; auto; apply H).
  clearbody s1. clear - V I. destruct V as (ST & TO & U & N & E & H & II). unfold tcp_fsm. cbn [fsm]. rewrite ST. cbn [fsm_syn_rcvd].
  unfold pbind, retransmit_timeout. rewrite TO. cbn [dget]. unfold transmit_data, pbind, passert.
  replace ((snd_una s1 <=? snd_nxt s1) && (snd_nxt s1 <=? snd_una s1 + snd_ewn s1)) with true by (symmetry; apply andb_true_iff; rewrite !Z.leb_le; lia).
  unfold pif, in_state, existsb. rewrite ST, N, Z.eqb_refl. cbn [fsm_eqb orb andb]. rewrite transmit_eq. cbn [seq_of]. rewrite N, II, tx_ok by (auto; lia). reflexivity.
Qed.
Lemma ack_taken p s : st s = SYN_RCVD -> is_ack p = true -> no_data p = true -> d_seq p = rcv_nxt s -> d_ackn p = snd_nxt s -> ooo s = [] ->
  exists s', tcp_fsm (EPacket p) s = (s', Ok tt) /\ st s' = ESTABLISHED /\ effs s' = effs s ++ [FAccept] /\ ev_conn s' = ev_conn s + 1 /\ rcv_nxt s' = rcv_nxt s /\ sent s' = sent s.
Proof.
  intros ST SA ND SQ AK OO. unfold tcp_fsm. rewrite OO. cbn [length fsm]. rewrite ST. unfold fsm_syn_rcvd. unfold pif at 1. unfold next_in. rewrite SA, ND, SQ, AK, !Z.eqb_refl. cbn [andb].
  set (again := fun q : tmd => fsm 0 (EPacket q)). unfold pbind at 1. rewrite process_eq. cbv zeta.
  assert (FL : d_syn p = false /\ d_fin p = false). { unfold is_ack in SA. destruct (d_syn p), (d_ack p), (d_fin p), (d_rst p); try discriminate; auto. }
  destruct FL as [F1 F2]. apply no_data_iff in ND.
  assert (RN : rcv_nxt (acked p s) = rcv_nxt s) by (unfold acked; sx; rewrite F1, F2, ND, SQ; change (zlen (@nil Z)) with 0; cbn [b2z]; lia).
  assert (OB : ooo (acked p s) = []) by exact OO.
  assert (X1 : st (acked p s) = SYN_RCVD) by exact ST.
  assert (X2 : ev_conn (acked p s) = ev_conn s) by reflexivity. assert (X3 : sent (acked p s) = sent s) by reflexivity. assert (X4 : effs (acked p s) = effs s) by reflexivity.
  generalize dependent (acked p s). intros b RN OB X1 X2 X3 X4. rewrite OB. cbn [dget].
  unfold change_state, pbind, pwhen, pif, pdo. rewrite in_state_1. sx. cbn [fsm_eqb pret]. unfold release_conn, pdo. eexists. split; [reflexivity|]. sx. repeat split; try assumption; congruence.
Qed.
(** * Both handshakes from the start *)
Lemma connects iss c0 p : opened iss c0 -> ports_ok c0 -> st (c_sess c0) = SYN_SENT -> iss + 1 < 2 ^ 32 ->
  is_synack p = true -> d_data p = [] -> d_ackn p = iss + 1 -> 0 <= d_seq p -> d_seq p + 1 < 2 ^ 32 ->
  let c1 := fst (op_do OTick c0) in let c2 := fst (op_do (OSegment p) c1) in
  snd (op_do OTick c0) = Ok tt /\ snd (op_do (OSegment p) c1) = Ok tt /\ st (c_sess c2) = ESTABLISHED /\ ev_conn (c_sess c2) = 1 /\ rcv_nxt (c_sess c2) = d_seq p + 1 /\
  exists a b, sent (c_sess c2) = [a; b] /\ x_seq a = iss /\ x_fsyn a = true /\ x_fack a = false /\ x_seq b = iss + 1 /\ x_fsyn b = false /\ x_fack b = true /\ x_ack b = d_seq p + 1.
Proof.
  intros (B & call & lip & lport & rip & rport & timers & K & _ & ->) PO ST IB SA ND AK Q1 Q2.
  destruct K as [-> | ->]; [clear ST|discriminate ST]. cbn [op_do with_sess]. unfold with_sess. cbn [fst snd c_sess start].
  set (s := fst (tcp_fsm (ECall Connect) (new_session lip lport rip rport iss true timers))) in *.
  assert (V : st s = SYN_SENT /\ tx_to s = [] /\ snd_una s = snd_ini s /\ snd_nxt s = snd_ini s /\ snd_ewn s = 536 /\ s_lport s = lport /\ s_rport s = rport /\ rcv_nxt s = 0 /\ snd_ini s = iss /\ ooo s = [] /\ ev_conn s = 0 /\ sent s = [] /\ snd_max s = iss)
    by (repeat split).
  assert (PO' : (0 <= s_lport s <= 0xFFFF /\ 0 <= s_rport s <= 0xFFFF)) by exact PO. clearbody s. clear PO. destruct V as (V1 & V2 & V3 & V4 & V5 & V6 & V7 & V8 & V9 & V10 & V11 & V12 & V13).
  assert (HS : hdr_ok s) by (split; [exact PO'|lia]).
  assert (EW : 0 <= snd_ewn s) by lia.
  rewrite (syn_tick s V1 V2 V3 V4 EW HS) by lia. cbn [fst snd]. set (s1 := pkt (snd_ini s) true false false false [] (set_tmr (tdec (tmr s)) s)).
  assert (W : st s1 = SYN_SENT /\ snd_nxt s1 = iss + 1 /\ snd_una s1 = iss /\ ooo s1 = [] /\ s_lport s1 = s_lport s /\ s_rport s1 = s_rport s /\ rcv_nxt s1 = 0 /\ ev_conn s1 = 0 /\
    exists a, sent s1 = [a] /\ x_seq a = iss /\ x_fsyn a = true /\ x_fack a = false).
  { split; [exact V1|]. split; [unfold s1, pkt; sx; change (zlen (@nil Z)) with 0; cbn [b2z]; lia|]. split; [cbn; congruence|]. split; [exact V10|]. split; [reflexivity|]. split; [reflexivity|]. split; [exact V8|]. split; [exact V11|].
    unfold s1, pkt. sx. rewrite V12. eexists. split; [reflexivity|]. cbn [segment x_seq x_fsyn x_fack]. auto. }
  clearbody s1. destruct W as (W1 & W2 & W3 & W4 & W5 & W6 & W7 & W8 & a & W9 & W10 & W11 & W12).
  destruct (synack_taken p s1) as (s' & E & Y1 & Y2 & Y3 & Y4 & Y5 & t & Y6 & Y7 & Y8 & Y9 & Y10); auto; try lia.
  - apply no_data_iff. exact ND.
  - split; [rewrite W5, W6; exact PO'|lia].
  - rewrite E. cbn [fst snd]. split; [reflexivity|]. split; [reflexivity|]. split; [exact Y1|]. split; [lia|]. split; [exact Y5|]. exists a, t. rewrite Y6, W9. repeat split; auto; lia.
Qed.
Lemma adopted iss p s : tx_to s = [] -> snd_una s = snd_ini s -> snd_nxt s = snd_ini s -> snd_ini s = iss -> ooo s = [] -> sent s = [] -> snd_max s = iss -> effs s = [] ->
  d_syn p = true -> (0 <= d_lport p <= 0xFFFF /\ 0 <= d_rport p <= 0xFFFF) -> 0 <= d_seq p -> d_seq p + 1 < 2 ^ 32 ->
  let s0 := moved SYN_RCVD (adopt p s) in
  st s0 = SYN_RCVD /\ tx_to s0 = [] /\ snd_una s0 = snd_ini s0 /\ snd_nxt s0 = snd_ini s0 /\ snd_ewn s0 = Z.min (d_mss p) LOCAL_TCP_MSS /\ hdr_ok s0 /\ snd_ini s0 = iss /\ ooo s0 = [] /\ sent s0 = [] /\
    snd_max s0 = iss /\ effs s0 = [FFork p] /\ rcv_nxt s0 = d_seq p + 1 /\ (s_lip s0, s_lport s0, s_rip s0, s_rport s0) = (d_lip p, d_lport p, d_rip p, d_rport p).
Proof.
  intros V2 V3 V4 V9 V10 V12 V13 V14 FS PO Q1 Q2 s0. unfold s0, moved, adopt. sx. rewrite V2, V3, V4, V9, V10, V12, V13, V14, FS. unfold hdr_ok. sx. cbn [b2z app]. split; [reflexivity|]. split; [reflexivity|]. split; [congruence|]. split; [congruence|].
  split; [reflexivity|]. split; [split; [exact PO|lia]|]. repeat split.
Qed.
Lemma synacked iss p s : st s = SYN_RCVD -> snd_nxt s = snd_ini s -> snd_ini s = iss -> ooo s = [] -> sent s = [] -> effs s = [FFork p] -> rcv_nxt s = d_seq p + 1 ->
  let s1 := pkt (snd_ini s) true true false false [] (set_tmr (tdec (tmr s)) s) in
  st s1 = SYN_RCVD /\ snd_nxt s1 = iss + 1 /\ ooo s1 = [] /\ rcv_nxt s1 = d_seq p + 1 /\ effs s1 = [FFork p] /\ exists a, sent s1 = [a] /\ x_seq a = iss /\ x_fsyn a = true /\ x_fack a = true /\ x_ack a = d_seq p + 1.
Proof.
  intros U1 U4 U7 U8 U9 U11 U12 s1. unfold s1, pkt. sx. rewrite U1, U7, U8, U9, U11, U12. change (zlen (@nil Z)) with 0. cbn [b2z app]. split; [reflexivity|]. split; [lia|]. split; [reflexivity|]. split; [reflexivity|]. split; [reflexivity|].
  eexists. split; [reflexivity|]. cbn [segment x_seq x_fsyn x_fack x_ack]. auto.
Qed.
Lemma accepts iss c0 p q : opened iss c0 -> st (c_sess c0) = LISTEN -> iss + 1 < 2 ^ 32 ->
  is_syn p = true -> d_data p = [] -> d_ackn p = 0 -> 0 <= d_mss p -> 0 <= d_seq p -> d_seq p + 1 < 2 ^ 32 -> (0 <= d_lport p <= 0xFFFF /\ 0 <= d_rport p <= 0xFFFF) ->
  is_ack q = true -> d_data q = [] -> d_seq q = d_seq p + 1 -> d_ackn q = iss + 1 ->
  let c1 := fst (op_do (OSegment p) c0) in let c2 := fst (op_do OTick c1) in let c3 := fst (op_do (OSegment q) c2) in
  snd (op_do (OSegment p) c0) = Ok tt /\ snd (op_do OTick c1) = Ok tt /\ snd (op_do (OSegment q) c2) = Ok tt /\
  st (c_sess c1) = SYN_RCVD /\ st (c_sess c3) = ESTABLISHED /\ rcv_nxt (c_sess c3) = d_seq p + 1 /\ effs (c_sess c3) = [FFork p; FAccept] /\
  (s_lip (c_sess c1), s_lport (c_sess c1), s_rip (c_sess c1), s_rport (c_sess c1)) = (d_lip p, d_lport p, d_rip p, d_rport p) /\
  exists a, sent (c_sess c3) = [a] /\ x_seq a = iss /\ x_fsyn a = true /\ x_fack a = true /\ x_ack a = d_seq p + 1.
Proof.
  intros (B & call & lip & lport & rip & rport & timers & K & _ & ->) ST IB SA ND AK M0 Q1 Q2 PO QA QD QS QK.
  destruct K as [-> | ->]; [discriminate ST|clear ST]. cbn [op_do with_sess]. unfold with_sess. cbn [fst snd c_sess start].
  set (s := fst (tcp_fsm (ECall Listen) (new_session lip lport rip rport iss true timers))) in *.
  assert (V : st s = LISTEN /\ tx_to s = [] /\ snd_una s = snd_ini s /\ snd_nxt s = snd_ini s /\ snd_ini s = iss /\ ooo s = [] /\ ev_conn s = 0 /\ sent s = [] /\ snd_max s = iss /\ effs s = [])
    by (repeat split).
  clearbody s. destruct V as (V1 & V2 & V3 & V4 & V9 & V10 & V11 & V12 & V13 & V14).
  assert (ND' : no_data p = true) by (apply no_data_iff; exact ND).
  rewrite (syn_taken p s V1 SA AK ND'). cbn [fst snd].
  assert (FS : d_syn p = true) by (unfold is_syn in SA; destruct (d_syn p); [reflexivity|discriminate]).
  set (s0 := moved SYN_RCVD (adopt p s)).
  assert (U : st s0 = SYN_RCVD /\ tx_to s0 = [] /\ snd_una s0 = snd_ini s0 /\ snd_nxt s0 = snd_ini s0 /\ snd_ewn s0 = Z.min (d_mss p) LOCAL_TCP_MSS /\ hdr_ok s0 /\ snd_ini s0 = iss /\ ooo s0 = [] /\ sent s0 = [] /\
    snd_max s0 = iss /\ effs s0 = [FFork p] /\ rcv_nxt s0 = d_seq p + 1 /\ (s_lip s0, s_lport s0, s_rip s0, s_rport s0) = (d_lip p, d_lport p, d_rip p, d_rport p))
    by (apply adopted; auto).
  clearbody s0. destruct U as (U1 & U2 & U3 & U4 & U5 & U6 & U7 & U8 & U9 & U10 & U11 & U12 & U13).
  assert (EW : 0 <= snd_ewn s0) by (rewrite U5; apply Z.min_glb; [exact M0|vm_compute; discriminate]).
  rewrite (synack_tick s0 U1 U2 U3 U4 EW U6) by lia. cbn [fst snd]. set (s1 := pkt (snd_ini s0) true true false false [] (set_tmr (tdec (tmr s0)) s0)).
  assert (W : st s1 = SYN_RCVD /\ snd_nxt s1 = iss + 1 /\ ooo s1 = [] /\ rcv_nxt s1 = d_seq p + 1 /\ effs s1 = [FFork p] /\ exists a, sent s1 = [a] /\ x_seq a = iss /\ x_fsyn a = true /\ x_fack a = true /\ x_ack a = d_seq p + 1)
    by (apply synacked; auto).
  clearbody s1. destruct W as (W1 & W2 & W3 & W4 & W5 & a & W6 & W7 & W8 & W9 & W10).
  destruct (ack_taken q s1) as (s' & E & Y1 & Y2 & _ & Y3 & Y4); auto; try congruence; [apply no_data_iff; exact QD|].
  rewrite E. cbn [fst snd]. split; [reflexivity|]. split; [reflexivity|]. split; [reflexivity|]. split; [exact U1|]. split; [exact Y1|]. split; [congruence|]. split; [rewrite Y2, W5; reflexivity|]. split; [exact U13|].
  exists a. rewrite Y4, W6. auto.
Qed.
