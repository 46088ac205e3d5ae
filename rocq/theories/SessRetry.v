(** Retransmissions, and giving up. *)
From Verif Require Import Base BaseLemmas AddrModel TcpModel StackModel StackRxModel SessModel SpecSess SessProofs SessTrace SessRun SessInv SessTx SessKeep SessWin SessTick.

Definition waitu (u k x n : Z) (s : sess) : Prop := waits k x s /\ snd_una s = u /\ transmissions u s = n.
Lemma sent_more q t s s' : sent s' = sent s ++ [t] ->
  transmissions q s' = transmissions q s + b2z ((x_seq t =? q) && (negb (zlen (x_data t) =? 0) || x_fsyn t || x_ffin t)).
Proof.
  intros E. unfold transmissions. rewrite E, filter_app, zlen_app. cbn [filter]. destruct (_ && _); cbn [b2z]; [reflexivity|]. change (zlen (@nil tcp_tx)) with 0. lia.
Qed.
(** a segment sent beyond the first unacknowledged one *)
Lemma wait_pkt u k x n syn ack fin rst data s : waitu u k x n s -> waitu u k x n (pkt (snd_nxt s) syn ack fin rst data s).
Proof.
  intros ((A & B & C & D) & E & F). subst u. unfold waitu, waits.
  pose proof (sent_more (snd_una s) (segment s (snd_nxt s) syn ack fin rst data) s (pkt (snd_nxt s) syn ack fin rst data s) eq_refl) as G.
  rewrite G. cbn [x_seq segment]. replace (snd_nxt s =? snd_una s) with false by (symmetry; apply Z.eqb_neq; lia). cbn [andb b2z].
  change (st (pkt (snd_nxt s) syn ack fin rst data s)) with (st s). change (snd_una (pkt (snd_nxt s) syn ack fin rst data s)) with (snd_una s).
  change (snd_nxt (pkt (snd_nxt s) syn ack fin rst data s)) with (snd_nxt s + zlen data + b2z syn + b2z fin).
  pose proof (zlen_nonneg data). pose proof (b2z_pos syn). pose proof (b2z_pos fin).
  split; [split; [exact A|split; [lia|]]|split; [reflexivity|lia]].
  unfold pkt. cbv zeta. cbn [tx_to tmr]. set (b := negb (zlen data =? 0) || syn || fin). clearbody b. split.
  - destruct b; [|exact C]. rewrite dget_set. replace (snd_nxt s =? snd_una s) with false by (symmetry; apply Z.eqb_neq; lia). exact C.
  - assert (T : tget (TRetransmit (snd_una s)) (if in_state [ESTABLISHED] s then tset TDelayedAck DELAYED_ACK_DELAY (tmr s) else tmr s) = Some x).
    { destruct (in_state _ _); [rewrite tget_set; exact D|exact D]. }
    destruct b; [|exact T]. rewrite tget_set. cbn [tkey_eqb]. replace (snd_nxt s =? snd_una s) with false by (symmetry; apply Z.eqb_neq; lia). exact T.
Qed.
Lemma wait_tx u k x n syn ack fin rst data : keeps_it (waitu u k x n) (transmit_packet None syn ack fin rst data).
Proof. apply keeps_tx. intros s. apply wait_pkt. Qed.
Lemma wait_data u k x n : keeps_it (waitu u k x n) transmit_data.
Proof.
  unfold transmit_data. repeat match goal with
  | |- keeps_it _ (pbind _ _) => apply keeps_bind; [|intros ?]
  | |- keeps_it _ (pif _ _ _) => apply keeps_if
  | |- keeps_it _ (pwhen _ _) => apply keeps_when
  | |- keeps_it _ (passert _) => apply keeps_assert
  | |- keeps_it _ (transmit_packet _ _ _ _ _ _) => apply wait_tx
  end.
  intros s J. cbv zeta. destruct (_ =? 0); [exact J|]. apply wait_tx. exact J.
Qed.
Lemma wait_delayed u k x n : keeps_it (waitu u k x n) delayed_ack.
Proof.
  unfold delayed_ack, register_timer. apply keeps_when. apply keeps_bind; [apply keeps_when, wait_tx|]. intros _. apply leads_do.
  intros s ((A & B & C & D) & E & F). split; [split; [exact A|split; [exact B|split; [exact C|]]]|split; [exact E|exact F]].
  cbn [tmr set_tmr snd_una]. rewrite tget_set. exact D.
Qed.
Lemma wait_change u k x n m : In m [FIN_WAIT_1; LAST_ACK] -> keeps_it (waitu u k x n) (change_state m).
Proof.
  intros M s ((A & B & C & D) & E & F). unfold change_state. rewrite pbind_do. unfold pwhen, pif. rewrite in_state_1. sx.
  replace (fsm_eqb m CLOSED) with false by (cbn in M; destruct M as [<-|[<-|[]]]; reflexivity). cbn [fst pret].
  split; [split; [|split; [exact B|split; [exact C|exact D]]]|split; [exact E|exact F]]. sx. cbn in *. intuition.
Qed.
(** the part of a tick after the retransmission timer was looked at *)
Definition after (s : sess) : P unit :=
  match st s with
  | ESTABLISHED => _ <# transmit_data ;; _ <# delayed_ack ;; pwhen (fun s => closing s && (zlen (tx_buf s) =? 0)) (change_state FIN_WAIT_1)
  | CLOSE_WAIT => _ <# transmit_data ;; _ <# delayed_ack ;; pwhen (fun s => closing s && (zlen (tx_buf s) =? 0)) (change_state LAST_ACK)
  | _ => transmit_data
  end.
Lemma timer_eq s : retransmits s -> tcp_fsm ETimer s = pbind retransmit_timeout (fun _ => after s) s.
Proof. intros R. unfold tcp_fsm. cbn [fsm]. unfold after, retransmits in *. destruct (st s); try reflexivity; cbn in R; intuition discriminate. Qed.
Definition rest (s : sess) : P unit :=
  match st s with
  | ESTABLISHED => _ <# delayed_ack ;; pwhen (fun s => closing s && (zlen (tx_buf s) =? 0)) (change_state FIN_WAIT_1)
  | CLOSE_WAIT => _ <# delayed_ack ;; pwhen (fun s => closing s && (zlen (tx_buf s) =? 0)) (change_state LAST_ACK)
  | _ => pret tt
  end.
Lemma wait_rest u k x n s0 : keeps_it (waitu u k x n) (rest s0).
Proof.
  unfold rest. destruct (st s0); try apply keeps_ret; (apply keeps_bind; [apply wait_delayed|intros _; apply keeps_when; apply wait_change; cbn; auto]).
Qed.
Lemma after_eq s0 s : after s0 s = pbind transmit_data (fun _ => rest s0) s.
Proof. unfold after, rest. destruct (st s0); try reflexivity; unfold pbind, pret; destruct (transmit_data s) as [s1 [[]|]]; reflexivity. Qed.
Lemma wait_after u k x n s0 : keeps_it (waitu u k x n) (after s0).
Proof. intros s J. rewrite after_eq. revert s J. apply (keeps_bind (waitu u k x n)); [apply wait_data|]. intros _. apply wait_rest. Qed.

(** * One millisecond *)
Lemma tick_eq s : tick s = tcp_fsm ETimer (set_tmr (tdec (tmr s)) s).
Proof. unfold tick. rewrite pbind_do. reflexivity. Qed.
Lemma tick_waits u k x n s : timers_ok s -> waitu u k x n s -> 1 < x -> waitu u k (x - 1) n (fst (tick s)).
Proof.
  intros T ((A & B & C & D) & E & F) X. rewrite tick_eq. set (s1 := set_tmr (tdec (tmr s)) s).
  assert (D1 : tget (TRetransmit (snd_una s)) (tmr s1) = Some (x - 1)).
  { cbn [tmr s1 set_tmr]. rewrite (tget_dec _ _ T), D. replace (x - 1 =? 0) with false by (symmetry; apply Z.eqb_neq; lia). reflexivity. }
  assert (W : waitu u k (x - 1) n s1) by (split; [split; [exact A|split; [exact B|split; [exact C|exact D1]]]|split; [exact E|exact F]]).
  rewrite timer_eq by exact A. rewrite (bind_ok _ _ s1 s1); [apply wait_after; exact W|].
  unfold retransmit_timeout. change (snd_una s1) with (snd_una s). change (tx_to s1) with (tx_to s). rewrite C. unfold expired. rewrite D1.
  replace (x - 1 =? 0) with false by (symmetry; apply Z.eqb_neq; lia). reflexivity.
Qed.
(** what a timeout sends *)
Lemma resent b s : pre true b s -> tick_inv s -> 0 <= b -> snd_ini s + 2 + b < 2 ^ 32 -> retransmits s -> snd_una s < snd_nxt s ->
  exists syn ack fin data, negb (zlen data =? 0) || syn || fin = true /\
    transmit_data (rewind s) = (pkt (snd_una s) syn ack fin false data (rewind s), Ok tt).
Proof.
  intros P T B0 BND R L. pose proof T as ((W1 & W2 & W3 & W4) & TH & TQ & TR).
  assert (NC : st s <> CLOSED) by (unfold retransmits in R; cbn in R; intuition congruence).
  destruct (max_bound b s P NC B0) as [UB MB]. destruct P as [(Q1 & Q2 & _) PS]. destruct (PS eq_refl) as [I0 SH].
  assert (TX : forall syn ack fin data, tcp_tx_ok (segment (rewind s) (snd_una s) syn ack fin false data) = true) by (intros; rewrite rewind_eq; apply tx_ok; [exact TH|lia]).
  unfold transmit_data, pbind, passert. rewrite rewind_eq in *. sx.
  replace ((snd_una s <=? snd_una s) && (snd_una s <=? snd_una s + snd_mss s)) with true by (symmetry; apply andb_true_iff; rewrite !Z.leb_le; lia).
  set (m := if (snd_una s =? snd_ini s) || (snd_una s =? snd_fin s) then tx_mod s - 1 else tx_mod s). set (r := set_tx_mod m _) in *.
  unfold pwhen, pif. change (in_state ?l r) with (in_state l s). change (snd_nxt r) with (snd_una s). change (snd_ini r) with (snd_ini s). change (snd_fin r) with (snd_fin s). change (tx_buf r) with (tx_buf s).
  unfold in_state, existsb. unfold shape in SH.
  unfold retransmits in R. cbn in R. destruct R as [E|[E|[E|[E|[E|[E|[]]]]]]]; symmetry in E; rewrite E in SH |- *; cbn [fsm_eqb orb andb].
  - destruct SH as [(_ & _ & _ & _ & O5 & O6 & _) _]. replace (snd_una s =? snd_ini s) with true by (symmetry; apply Z.eqb_eq; lia).
    exists true, false, false, []. split; [reflexivity|]. rewrite transmit_eq. cbn [seq_of]. change (snd_nxt r) with (snd_una s). rewrite TX. reflexivity.
  - destruct SH as [(_ & _ & _ & _ & O5 & O6 & _) _]. replace (snd_una s =? snd_ini s) with true by (symmetry; apply Z.eqb_eq; lia).
    exists true, true, false, []. split; [reflexivity|]. rewrite transmit_eq. cbn [seq_of]. change (snd_nxt r) with (snd_una s). rewrite TX. reflexivity.
  - destruct SH as (S1 & S2 & S3 & S4 & S5 & S6 & _).
    assert (M : tx_buf_nxt r = 0). { unfold tx_buf_nxt. cbn [snd_nxt tx_mod r set_tx_mod set_snd_nxt set_snd_ewn]. unfold m. rewrite (proj2 (Z.eqb_neq (snd_una s) (snd_ini s))) by lia. rewrite (proj2 (Z.eqb_neq (snd_una s) (snd_fin s))) by lia. cbn [orb]. lia. }
    rewrite M. replace (zlen (tx_buf s) - 0 =? 0) with false by (symmetry; apply Z.eqb_neq; lia). cbn [negb]. cbv zeta.
    change (snd_mss r) with (snd_mss s). change (snd_ewn r) with (snd_mss s). set (len := Z.min _ _). assert (LE : 1 <= len <= zlen (tx_buf s)) by lia.
    replace (len =? 0) with false by (symmetry; apply Z.eqb_neq; lia). eexists false, true, false, _. split; [|rewrite transmit_eq; cbn [seq_of]; change (snd_nxt r) with (snd_una s); rewrite TX; reflexivity].
    rewrite !orb_false_r. apply negb_true_iff, Z.eqb_neq. unfold py_slice, py_end. replace (0 + len <? 0) with false by (symmetry; apply Z.ltb_ge; lia). unfold slice, zlen in *.
    rewrite firstn_length. cbn [skipn Z.to_nat]. lia.
  - destruct SH as (S1 & S2 & S3 & S4 & _). replace (snd_una s =? snd_fin s) with false by (symmetry; apply Z.eqb_neq; lia). cbn [negb].
    exists false, true, true, []. split; [reflexivity|]. rewrite transmit_eq. cbn [seq_of]. change (snd_nxt r) with (snd_una s). rewrite TX. reflexivity.
  - destruct SH as (S1 & S2 & S3 & S4 & S5 & S6 & _).
    assert (M : tx_buf_nxt r = 0). { unfold tx_buf_nxt. cbn [snd_nxt tx_mod r set_tx_mod set_snd_nxt set_snd_ewn]. unfold m. rewrite (proj2 (Z.eqb_neq (snd_una s) (snd_ini s))) by lia. rewrite (proj2 (Z.eqb_neq (snd_una s) (snd_fin s))) by lia. cbn [orb]. lia. }
    rewrite M. replace (zlen (tx_buf s) - 0 =? 0) with false by (symmetry; apply Z.eqb_neq; lia). cbn [negb]. cbv zeta.
    change (snd_mss r) with (snd_mss s). change (snd_ewn r) with (snd_mss s). set (len := Z.min _ _). assert (LE : 1 <= len <= zlen (tx_buf s)) by lia.
    replace (len =? 0) with false by (symmetry; apply Z.eqb_neq; lia). eexists false, true, false, _. split; [|rewrite transmit_eq; cbn [seq_of]; change (snd_nxt r) with (snd_una s); rewrite TX; reflexivity].
    rewrite !orb_false_r. apply negb_true_iff, Z.eqb_neq. unfold py_slice, py_end. replace (0 + len <? 0) with false by (symmetry; apply Z.ltb_ge; lia). unfold slice, zlen in *.
    rewrite firstn_length. cbn [skipn Z.to_nat]. lia.
  - destruct SH as (S1 & S2 & S3 & S4 & _). replace (snd_una s =? snd_fin s) with false by (symmetry; apply Z.eqb_neq; lia). cbn [negb].
    exists false, true, true, []. split; [reflexivity|]. rewrite transmit_eq. cbn [seq_of]. change (snd_nxt r) with (snd_una s). rewrite TX. reflexivity.
Qed.
Lemma dec_expired u s : timers_ok s -> tget (TRetransmit u) (tmr s) = Some 1 -> expired (TRetransmit u) (tdec (tmr s)) = true.
Proof. intros T D. unfold expired. rewrite (tget_dec _ _ T), D. reflexivity. Qed.
Lemma tick_resends u k n b s : timers_ok s -> pre true b s -> tick_inv s -> 0 <= b -> snd_ini s + 2 + b < 2 ^ 32 ->
  waitu u k 1 n s -> k <> 3 -> waitu u (k + 1) (1000 * Z.shiftl 1 (k + 1)) (n + 1) (fst (tick s)).
Proof.
  intros T P I B0 BND ((A & B & C & D) & E & F) K. rewrite tick_eq. set (s1 := set_tmr (tdec (tmr s)) s).
  pose proof (ps_dec true ETimer s eq_refl) as S. fold s1 in S. destruct (tick_step _ _ _ _ S P I Logic.I) as [I1 _]. pose proof (pre_step _ _ _ _ _ S P) as P1.
  assert (X : expired (TRetransmit (snd_una s)) (tmr s1) = true) by (apply dec_expired; auto).
  rewrite timer_eq by exact A. rewrite (bind_ok _ _ s1 (rewind s1)).
  2: { unfold retransmit_timeout. change (snd_una s1) with (snd_una s). change (tx_to s1) with (tx_to s). rewrite C, X. unfold RETRANSMIT_MAX.
       replace (k =? 3) with false by (symmetry; apply Z.eqb_neq; exact K). reflexivity. }
  rewrite after_eq. destruct (resent b s1 P1 I1 B0 BND A B) as (syn & ack & fin & data & NB & TE). rewrite (bind_ok _ _ _ _ TE). apply wait_rest.
  change (snd_una s1) with (snd_una s). clear TE. rewrite rewind_eq. match goal with |- context [set_tx_mod ?x _] => set (m := x) end. set (r := set_tx_mod m (set_snd_nxt (snd_una s1) (set_snd_ewn (snd_mss s1) s1))).
  unfold waitu, waits. pose proof (sent_more u (segment r (snd_una s) syn ack fin false data) r (pkt (snd_una s) syn ack fin false data r) eq_refl) as G.
  rewrite G. cbn [x_seq segment x_data x_fsyn x_ffin]. rewrite NB, E, Z.eqb_refl. cbn [andb b2z].
  change (transmissions u r) with (transmissions u s). change (snd_una (pkt u syn ack fin false data r)) with (snd_una s). rewrite E, F.
  change (snd_nxt (pkt u syn ack fin false data r)) with (u + zlen data + b2z syn + b2z fin).
  assert (POS : 0 < zlen data + b2z syn + b2z fin).
  { pose proof (zlen_nonneg data). destruct syn, fin; cbn [b2z]; lia. }
  split; [split; [exact A|split; [lia|]]|split; [reflexivity|reflexivity]].
  unfold pkt. cbv zeta. cbn [tx_to tmr]. rewrite NB. change (tx_to r) with (tx_to s). rewrite dget_set, tget_set, tkey_refl, Z.eqb_refl. unfold dgetd. rewrite <- E, C. auto.
Qed.
(** giving up *)
Lemma gone_told s : told s (set_reg false (gone s)).
Proof.
  unfold told. split; [reflexivity|]. split; [reflexivity|]. split; [eexists; split; [reflexivity|repeat split; reflexivity]|].
  unfold gone. sx. unfold in_state, existsb. split.
  - intros H. cbn in H. destruct H as [H|[H|[H|[]]]]; rewrite <- H; cbn; auto.
  - intros ->. cbn. auto.
Qed.
Lemma told_tmr v s s' : told (set_tmr v s) s' -> told s s'.
Proof. intros H. exact H. Qed.
Lemma gone_view s : let g := set_reg false (gone s) in
  snd_una g = snd_una s /\ snd_nxt g = snd_una s + 0 + 0 + 0 /\ snd_ewn g = snd_ewn s /\ rcv_una g = rcv_nxt g /\ tx_buf g = tx_buf s.
Proof. repeat split; reflexivity. Qed.
Lemma ends_rest s s0 g : told s g -> rcv_una g = rcv_nxt g -> (In (st s0) [ESTABLISHED; CLOSE_WAIT] -> (zlen (tx_buf g) =? 0) = false) -> told s (fst (rest s0 g)).
Proof.
  intros G G4 NE.
  assert (REST : forall m, In (st s0) [ESTABLISHED; CLOSE_WAIT] -> told s (fst ((_ <# delayed_ack ;; pwhen (fun s => closing s && (zlen (tx_buf s) =? 0)) (change_state m)) g))).
  { intros m U. specialize (NE U). unfold delayed_ack, pbind, pwhen, pif, register_timer, pdo, pret. destruct (expired TDelayedAck (tmr g)).
    - replace (rcv_una g <? rcv_nxt g) with false by (symmetry; apply Z.ltb_ge; lia). cbv iota. change (tx_buf (set_tmr (tset TDelayedAck DELAYED_ACK_DELAY (tmr g)) g)) with (tx_buf g).
      rewrite NE, andb_false_r. exact G.
    - rewrite NE, andb_false_r. exact G. }
  unfold rest. destruct (st s0) eqn:E; try exact G; apply REST; cbn; auto.
Qed.
Lemma ends_timeout s : hdr_ok s -> 0 <= snd_una s < 2 ^ 32 -> reg s = true -> dget (snd_una s) (tx_to s) = Some 3 -> expired (TRetransmit (snd_una s)) (tmr s) = true ->
  retransmit_timeout s = (set_reg false (gone s), Ok tt).
Proof.
  intros H U R C X. unfold retransmit_timeout. rewrite C, X. unfold RETRANSMIT_MAX. rewrite Z.eqb_refl. rewrite give_up_eq, tx_ok by assumption. rewrite R. reflexivity.
Qed.
Lemma ends_fsm s b : pre true b s -> tick_inv s -> 0 <= b -> snd_ini s + 2 + b < 2 ^ 32 -> retransmits s -> snd_una s < snd_nxt s ->
  dget (snd_una s) (tx_to s) = Some 3 -> expired (TRetransmit (snd_una s)) (tmr s) = true -> told s (fst (tcp_fsm ETimer s)).
Proof.
  intros P I B0 BND A L C X. assert (NC : st s <> CLOSED) by (unfold retransmits in A; cbn in A; intuition congruence).
  destruct (max_bound b s P NC B0) as [UB MB]. destruct P as [(Q1 & Q2 & _) PS]. destruct (PS eq_refl) as [_ SH]. destruct I as ((W1 & W2 & W3 & W4) & TH & TQ & TR).
  rewrite timer_eq by exact A. rewrite (bind_ok _ _ _ _ (ends_timeout s TH ltac:(lia) (TR NC) C X)). rewrite after_eq.
  pose proof (gone_told s) as G. pose proof (gone_view s) as (G1 & G2 & G3 & G4 & G5). generalize dependent (set_reg false (gone s)). intros g G G1 G2 G3 G4 G5.
  rewrite (bind_ok _ _ g g) by (apply closed_data; [apply G|lia]). apply ends_rest; [exact G|exact G4|].
  intros U. rewrite G5. apply Z.eqb_neq. intros Z0. apply zlen_zero_nil in Z0. apply (shape_data b s U SH 3 (dget_in _ _ _ C)). exact Z0.
Qed.
Lemma tick_ends s b : timers_ok s -> pre true b s -> tick_inv s -> 0 <= b -> snd_ini s + 2 + b < 2 ^ 32 -> waits 3 1 s -> told s (fst (tick s)).
Proof.
  intros T P I B0 BND (A & B & C & D). rewrite tick_eq. apply (told_tmr (tdec (tmr s))).
  pose proof (ps_dec true ETimer s eq_refl) as S. destruct (tick_step _ _ _ _ S P I Logic.I) as [I1 _]. pose proof (pre_step _ _ _ _ _ S P) as P1.
  apply (ends_fsm _ b); auto. apply (dec_expired (snd_una s) s); auto.
Qed.

(** * Silence *)
Lemma resends_tick k x n : resends k x (n + 1) = resends k (x - 1) n.
Proof.
  unfold resends. f_equal. apply filter_ext. intros j. f_equal. set (a := 1000 * _). clearbody a. destruct (_ <=? n + 1) eqn:E.
  - symmetry. apply Z.leb_le in E. apply Z.leb_le. lia.
  - symmetry. apply Z.leb_gt in E. apply Z.leb_gt. lia.
Qed.
Lemma resends_again k n : 0 <= k < 3 -> 0 <= n -> resends k 1 (n + 1) = 1 + resends (k + 1) (1000 * Z.shiftl 1 (k + 1)) n.
Proof.
  intros K N. assert (C : k = 0 \/ k = 1 \/ k = 2) by lia. unfold resends.
  destruct C as [->|[->| ->]]; try change (0 + 1) with 1; try change (1 + 1) with 2; try change (2 + 1) with 3; try change (3 + 1) with 4; cbn -[Z.leb Z.add];
    repeat match goal with |- context [?a <=? ?b] => let E := fresh in destruct (a <=? b) eqn:E; [apply Z.leb_le in E|apply Z.leb_gt in E] end; cbn; try reflexivity; exfalso; lia.
Qed.
Lemma resends_none k x n : 0 <= k <= 3 -> n < x -> resends k x n = 0.
Proof.
  intros K L. assert (C : k = 0 \/ k = 1 \/ k = 2 \/ k = 3) by lia. unfold resends.
  destruct C as [->|[->|[->| ->]]]; try change (0 + 1) with 1; try change (1 + 1) with 2; try change (2 + 1) with 3; try change (3 + 1) with 4; cbn -[Z.leb Z.add];
    repeat match goal with |- context [?a <=? ?b] => let E := fresh in destruct (a <=? b) eqn:E; [apply Z.leb_le in E|apply Z.leb_gt in E] end; cbn; try reflexivity; exfalso; lia.
Qed.
Lemma op_run_cons o l c : fst (op_run (o :: l) c) = fst (op_run l (fst (op_do o c))).
Proof. cbn [op_run]. destruct (op_do o c) as [c1 r]. cbn [fst]. destruct (op_run l c1). reflexivity. Qed.
Lemma wait_other o u k x n c : o <> OTick -> quiet_op o c -> waitu u k x n (c_sess c) -> waitu u k x n (c_sess (fst (op_do o c))).
Proof.
  intros N Q W. destruct o; try contradiction; cbn [op_do].
  - unfold with_sess. cbn [fst c_sess]. unfold tcp_fsm. cbn [fsm]. destruct W as ((A & B) & C). destruct Q as [Q1 Q2].
    cbn in A. destruct A as [A|[A|[A|[A|[A|[A|[]]]]]]]; rewrite <- A in *; try congruence; (split; [split; [cbn; cbn in A; rewrite <- A; auto 10|exact B]|exact C]).
  - unfold session_send. destruct (in_state _ _); exact W.
  - unfold read_step. destruct (c_rd c i); [destruct (0 <? _)|destruct (_ =? 0)|destruct (ended _)|cbv zeta; destruct (_ || _)]; exact W.
Qed.
Lemma ticks_cons o l : ticks (o :: l) = (match o with OTick => 1 | _ => 0 end) + ticks l.
Proof. unfold ticks. destruct o; cbn [filter]; try reflexivity. unfold zlen. cbn [length]. lia. Qed.
Lemma ticks_pos l : 0 <= ticks l.
Proof. apply zlen_nonneg. Qed.
Lemma silence iss c0 u : opened iss c0 -> ports_ok c0 -> iss + 2 < 2 ^ 32 -> forall l c k x n, reach (roomy_op iss) c0 c ->
  all_of (fun o c => roomy_op iss o c /\ quiet_op o c) l c -> waitu u k x n (c_sess c) -> 0 <= k <= 3 -> 0 < x -> ticks l < gives_up k x ->
  exists k' x', waitu u k' x' (n + resends k x (ticks l)) (c_sess (fst (op_run l c))) /\ k' = k + resends k x (ticks l) /\ 0 <= k' <= 3 /\ 0 < x' /\
    gives_up k' x' = gives_up k x - ticks l.
Proof.
  intros O PO IB. induction l as [|o l IH]; intros c k x n R A W K X L.
  - exists k, x. change (ticks []) with 0. rewrite (resends_none k x 0) by lia. cbn [op_run fst]. rewrite !Z.add_0_r, Z.sub_0_r. auto.
  - destruct A as [[A1 A2] A3]. rewrite op_run_cons. assert (R1 : reach (roomy_op iss) c0 (fst (op_do o c))) by (apply reach_op; assumption).
    rewrite ticks_cons in *. pose proof (ticks_pos l) as TP. pose proof (timers_reach iss _ c0 c O R) as TO.
    pose proof (reach_good true iss (roomy_op iss) c0 c O (roomy_ok iss) R) as [P I]. destruct (tick_reach iss c0 c O PO IB R) as [T B].
    assert (CASE : o = OTick \/ o <> OTick) by (destruct o; auto; right; discriminate). destruct CASE as [-> | NT].
    + replace (1 + ticks l) with (ticks l + 1) in * by lia. assert (Q : c_sess (fst (op_do OTick c)) = fst (tick (c_sess c))) by reflexivity.
      assert (CX : 1 < x \/ x = 1) by lia. destruct CX as [CX | ->].
      * pose proof (tick_waits u k x n (c_sess c) TO W CX) as W1. rewrite <- Q in W1. unfold gives_up in *.
        destruct (IH _ k (x - 1) n R1 A3 W1 K) as (k' & x' & V1 & V2 & V3 & V4 & V5); [lia|lia|]. rewrite resends_tick. exists k', x'. split; [exact V1|]. split; [exact V2|]. split; [exact V3|]. split; [exact V4|]. lia.
      * assert (K3 : k <> 3) by (intros ->; unfold gives_up in L; cbn in L; lia).
        assert (W1 : waitu u (k + 1) (1000 * Z.shiftl 1 (k + 1)) (n + 1) (c_sess (fst (op_do OTick c)))).
        { rewrite Q. apply (tick_resends u k n (zlen (c_written c))); auto; [apply zlen_nonneg|rewrite I; exact B]. }
        assert (EX : gives_up (k + 1) (1000 * Z.shiftl 1 (k + 1)) = gives_up k 1 - 1 /\ 0 < 1000 * Z.shiftl 1 (k + 1)).
        { assert (C : k = 0 \/ k = 1 \/ k = 2) by lia. destruct C as [->|[->| ->]]; split; reflexivity. }
        destruct EX as [EX1 EX2]. destruct (IH _ (k + 1) _ (n + 1) R1 A3 W1) as (k' & x' & V1 & V2 & V3 & V4 & V5); [lia|exact EX2|lia|].
        rewrite resends_again by lia. exists k', x'. rewrite <- Z.add_assoc in V1. split; [exact V1|]. split; [lia|]. split; [exact V3|]. split; [exact V4|]. lia.
    + assert (Z0 : (match o with OTick => 1 | _ => 0 end) = 0) by (destruct o; congruence). rewrite Z0 in *. rewrite Z.add_0_l in *.
      apply IH; auto. apply wait_other; assumption.
Qed.
Lemma silence_ends iss c0 u : opened iss c0 -> ports_ok c0 -> iss + 2 < 2 ^ 32 -> forall l c k x n, reach (roomy_op iss) c0 c ->
  all_of (fun o c => roomy_op iss o c /\ quiet_op o c) l c -> waitu u k x n (c_sess c) -> 0 <= k <= 3 -> 0 < x -> ticks l = gives_up k x - 1 ->
  let c1 := fst (op_run l c) in transmissions u (c_sess c1) = n + (3 - k) /\ told (c_sess c1) (c_sess (fst (op_do OTick c1))).
Proof.
  intros O PO IB l c k x n R A W K X L c1. destruct (silence iss c0 u O PO IB l c k x n R A W K X) as (k' & x' & V1 & V2 & V3 & V4 & V5); [lia|].
  fold c1 in V1. assert (E : k' = 3 /\ x' = 1).
  { rewrite L in V5. unfold gives_up in V5. assert (C : k' = 0 \/ k' = 1 \/ k' = 2 \/ k' = 3) by lia. destruct C as [->|[->|[->| ->]]]; cbn in V5; lia. }
  destruct E as [-> ->]. destruct V1 as (V1 & U & V6). split; [rewrite V6; lia|].
  assert (R1 : reach (roomy_op iss) c0 c1).
  { subst c1. clear - R A. revert c R A. induction l as [|o l IH]; intros c R A; [exact R|]. destruct A as [[A1 _] A2]. rewrite op_run_cons. apply IH; [apply reach_op; assumption|exact A2]. }
  pose proof (timers_reach iss _ c0 c1 O R1) as TO. pose proof (reach_good true iss (roomy_op iss) c0 c1 O (roomy_ok iss) R1) as [P I]. destruct (tick_reach iss c0 c1 O PO IB R1) as [T B].
  cbn [op_do]. unfold with_sess. cbn [fst c_sess]. apply (tick_ends _ (zlen (c_written c1))); auto; [apply zlen_nonneg|rewrite I; exact B].
Qed.

(** * Sessions that never give up *)
Lemma est_tick (I : sess -> Prop) s : (forall s, I s -> st s = ESTABLISHED /\ closing s = false) -> (forall s, I s -> I (set_tmr (tdec (tmr s)) s)) ->
  keeps_it I retransmit_timeout -> keeps_it I transmit_data -> keeps_it I delayed_ack -> I s -> I (fst (tick s)).
Proof.
  intros E D R T A H. rewrite tick_eq. apply D in H. set (s1 := set_tmr (tdec (tmr s)) s) in *. clearbody s1. destruct (E s1 H) as [E1 _].
  unfold tcp_fsm. cbn [fsm]. rewrite E1. cbn [fsm_established]. revert s1 H E1.
  assert (K : keeps_it I (_ <# retransmit_timeout ;; _ <# transmit_data ;; _ <# delayed_ack ;; pwhen (fun s => closing s && (zlen (tx_buf s) =? 0)) (change_state FIN_WAIT_1))).
  { apply keeps_bind; [exact R|intros _]. apply keeps_bind; [exact T|intros _]. apply keeps_bind; [exact A|intros _].
    intros s2 H. unfold pwhen, pif. destruct (E s2 H) as [_ C]. rewrite C. exact H. }
  intros s1 H _. apply K. exact H.
Qed.
Lemma ticks_keep (I : sess -> Prop) : (forall s, I s -> I (fst (tick s))) -> forall m c, I (c_sess c) -> I (c_sess (fst (op_run (repeat OTick m) c))).
Proof. intros K. induction m as [|m IH]; intros c H; [exact H|]. cbn [repeat]. rewrite op_run_cons. apply IH. cbn [op_do]. unfold with_sess. cbn [fst c_sess]. apply K. exact H. Qed.
(** too many retransmissions were counted *)
Definition beyond (s : sess) : Prop := (st s = ESTABLISHED /\ closing s = false) /\ exists c, RETRANSMIT_MAX < c /\ dget (snd_una s) (tx_to s) = Some c.
Lemma beyond_pkt q syn ack fin rst data s : beyond s -> beyond (pkt q syn ack fin rst data s).
Proof.
  intros (A & c & B & C). split; [exact A|]. change (snd_una (pkt q syn ack fin rst data s)) with (snd_una s). unfold pkt. cbv zeta. cbn [tx_to].
  set (b := negb (zlen data =? 0) || syn || fin). clearbody b. destruct b; [|exists c; auto]. rewrite dget_set. destruct (q =? snd_una s) eqn:E; [|exists c; auto].
  apply Z.eqb_eq in E. subst q. exists (c + 1). unfold dgetd. rewrite C. split; [lia|reflexivity].
Qed.
Lemma beyond_tick s : beyond s -> beyond (fst (tick s)).
Proof.
  assert (TX : forall o syn ack fin rst data, keeps_it beyond (transmit_packet o syn ack fin rst data)) by (intros; apply keeps_tx; intros s0; apply beyond_pkt).
  apply est_tick.
  - intros s0 H. apply H.
  - intros s0 H. exact H.
  - intros s0 H. unfold retransmit_timeout. pose proof H as (_ & c & B & C). rewrite C. destruct (expired _ _); [|exact H].
    replace (c =? RETRANSMIT_MAX) with false by (symmetry; apply Z.eqb_neq; lia). cbn [pdo fst]. rewrite rewind_eq. exact H.
  - unfold transmit_data. repeat match goal with
    | |- keeps_it _ (pbind _ _) => apply keeps_bind; [|intros ?]
    | |- keeps_it _ (pif _ _ _) => apply keeps_if
    | |- keeps_it _ (pwhen _ _) => apply keeps_when
    | |- keeps_it _ (passert _) => apply keeps_assert
    | |- keeps_it _ (transmit_packet _ _ _ _ _ _) => apply TX
    end.
    intros s0 J. cbv zeta. destruct (_ =? 0); [exact J|]. apply TX. exact J.
  - unfold delayed_ack, register_timer. apply keeps_when. apply keeps_bind; [apply keeps_when, TX|]. intros _. apply leads_do. intros s0 H. exact H.
Qed.
Lemma beyond_forever m c : beyond (c_sess c) -> st (c_sess (fst (op_run (repeat OTick m) c))) = ESTABLISHED.
Proof. intros H. apply (ticks_keep beyond beyond_tick m c H). Qed.
(** no timer runs for the first byte that is not acknowledged *)
Definition with_data (s : sess) : list tcp_tx := filter (fun t => negb (zlen (x_data t) =? 0)) (sent s).
Definition timerless (l : list tcp_tx) (s : sess) : Prop :=
  (st s = ESTABLISHED /\ closing s = false) /\ dget (snd_una s) (tx_to s) = None /\ zlen (tx_buf s) - tx_buf_nxt s = 0 /\ with_data s = l.
Lemma timerless_ack l : keeps_it (timerless l) transmit_ack.
Proof.
  unfold transmit_ack. apply keeps_tx. intros s (A & B & C & D). cbn [seq_of]. unfold timerless, with_data, tx_buf_nxt in *. split; [exact A|]. split; [exact B|].
  change (snd_nxt (pkt (snd_nxt s) false true false false [] s)) with (snd_nxt s + 0 + 0 + 0). change (tx_mod (pkt (snd_nxt s) false true false false [] s)) with (tx_mod s + (0 + 0)).
  split; [cbn [tx_buf pkt]; lia|]. change (sent (pkt (snd_nxt s) false true false false [] s)) with (sent s ++ [segment s (snd_nxt s) false true false false []]).
  rewrite filter_app. cbn [filter]. change (zlen (x_data (segment s (snd_nxt s) false true false false []))) with 0. cbn [Z.eqb negb]. rewrite app_nil_r. exact D.
Qed.
Lemma timerless_tick l s : timerless l s -> timerless l (fst (tick s)).
Proof.
  apply est_tick.
  - intros s0 H. apply H.
  - intros s0 H. exact H.
  - intros s0 H. unfold retransmit_timeout. pose proof H as (_ & B & _). rewrite B. exact H.
  - intros s0 H. pose proof H as ([A _] & _ & C & _). unfold transmit_data, pbind, passert. destruct (_ && _); [|exact H]. unfold pwhen, pif, in_state, existsb. rewrite A. cbn [fsm_eqb orb andb].
    rewrite C. exact H.
  - unfold delayed_ack, register_timer. apply keeps_when. apply keeps_bind; [apply keeps_when, timerless_ack|]. intros _. apply leads_do. intros s0 H. exact H.
Qed.
Lemma timerless_forever l m c : timerless l (c_sess c) -> st (c_sess (fst (op_run (repeat OTick m) c))) = ESTABLISHED /\ with_data (c_sess (fst (op_run (repeat OTick m) c))) = l.
Proof. intros H. pose proof (ticks_keep (timerless l) (timerless_tick l) m c H) as (A & _ & _ & D). split; [apply A|exact D]. Qed.

(** * The first transmission *)
Lemma first_waits iss c0 c : opened iss c0 -> ports_ok c0 -> iss + 2 < 2 ^ 32 -> reach (roomy_op iss) c0 c -> In (st (c_sess c)) [ESTABLISHED; CLOSE_WAIT] ->
  snd_una (c_sess c) = snd_max (c_sess c) -> tx_buf (c_sess c) <> [] ->
  let c1 := fst (op_do OTick c) in waits 0 1000 (c_sess c1) /\ transmissions (snd_una (c_sess c)) (c_sess c1) = transmissions (snd_una (c_sess c)) (c_sess c) + 1.
Proof.
  intros O PO IB R U UM NE c1. pose proof (reach_good true iss (roomy_op iss) c0 c O (roomy_ok iss) R) as [P I]. destruct (tick_reach iss c0 c O PO IB R) as [T B].
  set (s := c_sess c) in *. assert (E : c_sess c1 = fst (tick s)) by reflexivity. rewrite E. rewrite tick_eq. clear E c1.
  pose proof (ps_dec true ETimer s eq_refl) as S. destruct (tick_step _ _ _ _ S P T Logic.I) as [T1 _]. pose proof (pre_step _ _ _ _ _ S P) as P1.
  set (s1 := set_tmr (tdec (tmr s)) s) in *. change (st s) with (st s1) in U. change (snd_una s) with (snd_una s1) in *. change (snd_max s) with (snd_max s1) in UM. change (tx_buf s) with (tx_buf s1) in NE.
  change (transmissions (snd_una s1) s) with (transmissions (snd_una s1) s1). change (snd_ini s) with (snd_ini s1) in I. clearbody s1. clear S T P. set (b := zlen (c_written c)) in *. pose proof (zlen_nonneg (c_written c)) as B0. fold b in B0. clearbody b.
  assert (NC : st s1 <> CLOSED) by (cbn in U; intuition congruence). destruct (max_bound b s1 P1 NC B0) as [UB MB].
  destruct P1 as [(Q1 & Q2 & _) PS]. destruct (PS eq_refl) as [_ SH]. pose proof T1 as ((W1 & W2 & W3 & W4) & TH & TQ & TR).
  assert (SH' : snd_fin s1 = 0 /\ keys_below (snd_max s1) (tx_to s1) /\ tx_mod s1 = snd_una s1 /\ snd_ini s1 < snd_una s1) by (unfold shape in SH; cbn in U; destruct U as [U|[U|[]]]; rewrite <- U in SH; tauto).
  destruct SH' as (S1 & S2 & S3 & S4).
  assert (N0 : dget (snd_una s1) (tx_to s1) = None).
  { destruct (dget _ _) eqn:G; [|reflexivity]. apply dget_in in G. apply S2 in G. lia. }
  assert (RT : retransmits s1) by (unfold retransmits; cbn in *; intuition).
  rewrite timer_eq by exact RT. rewrite (bind_ok _ _ s1 s1) by (unfold retransmit_timeout; rewrite N0; reflexivity). rewrite after_eq.
  assert (NX : snd_nxt s1 = snd_una s1) by lia. assert (BN : tx_buf_nxt s1 = 0) by (unfold tx_buf_nxt; lia).
  assert (L : 1 <= zlen (tx_buf s1)). { pose proof (zlen_nonneg (tx_buf s1)). destruct (Z.eq_dec (zlen (tx_buf s1)) 0) as [Z0|]; [apply zlen_zero_nil in Z0; contradiction|lia]. }
  set (len := Z.min (Z.min (snd_mss s1) (snd_ewn s1 - 0)) (zlen (tx_buf s1) - 0)). assert (LE : 1 <= len <= zlen (tx_buf s1)) by lia.
  set (d := py_slice 0 (0 + len) (tx_buf s1)).
  assert (DL : zlen d = len).
  { unfold d, py_slice, py_end. replace (0 + len <? 0) with false by (symmetry; apply Z.ltb_ge; lia). unfold slice, zlen in *. rewrite firstn_length. cbn [skipn Z.to_nat]. lia. }
  assert (TE : transmit_data s1 = (pkt (snd_una s1) false true false false d s1, Ok tt)).
  { unfold transmit_data, pbind, passert. replace ((snd_una s1 <=? snd_nxt s1) && (snd_nxt s1 <=? snd_una s1 + snd_ewn s1)) with true by (symmetry; apply andb_true_iff; rewrite !Z.leb_le; lia).
    unfold pwhen, pif. assert (X1 : in_state [SYN_SENT] s1 = false /\ in_state [SYN_RCVD] s1 = false /\ in_state [ESTABLISHED; CLOSE_WAIT] s1 = true)
      by (unfold in_state, existsb; cbn in U; destruct U as [U|[U|[]]]; rewrite <- U; auto).
    destruct X1 as (-> & -> & ->). cbn [andb]. rewrite BN. replace (zlen (tx_buf s1) - 0 =? 0) with false by (symmetry; apply Z.eqb_neq; lia). cbn [negb]. cbv zeta. fold len.
    replace (len =? 0) with false by (symmetry; apply Z.eqb_neq; lia). rewrite transmit_eq. cbn [seq_of]. rewrite NX. fold d. rewrite tx_ok by (auto; lia). reflexivity. }
  rewrite (bind_ok _ _ _ _ TE). set (n := transmissions (snd_una s1) s1).
  enough (W : waitu (snd_una s1) 0 1000 (n + 1) (pkt (snd_una s1) false true false false d s1)).
  { pose proof (wait_rest _ _ _ _ s1 _ W) as (V1 & V2 & V3). split; [exact V1|exact V3]. }
  assert (NB : negb (zlen d =? 0) || false || false = true) by (rewrite !orb_false_r; apply negb_true_iff, Z.eqb_neq; lia).
  unfold waitu, waits. pose proof (sent_more (snd_una s1) (segment s1 (snd_una s1) false true false false d) s1 (pkt (snd_una s1) false true false false d s1) eq_refl) as G.
  rewrite G. cbn [x_seq segment x_data x_fsyn x_ffin]. rewrite NB, Z.eqb_refl. cbn [andb b2z].
  change (snd_una (pkt (snd_una s1) false true false false d s1)) with (snd_una s1). change (snd_nxt (pkt (snd_una s1) false true false false d s1)) with (snd_una s1 + zlen d + 0 + 0).
  split; [split; [exact RT|split; [lia|]]|split; [reflexivity|reflexivity]].
  unfold pkt. cbv zeta. cbn [tx_to tmr]. rewrite NB, dget_set, tget_set, tkey_refl, Z.eqb_refl. unfold dgetd. rewrite N0. split; reflexivity.
Qed.
