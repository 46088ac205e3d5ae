(** Reading: the semaphore of the receive buffer, and the end of the stream. *)
From Verif Require Import Base BaseLemmas AddrModel TcpModel StackModel StackRxModel SessModel SpecSess SessProofs SessTrace SessRun SessInv SessTx SessRx SessKeep.

(** * One read *)
Lemma zlen_0 {A} (l : list A) : (zlen l =? 0) = true <-> l = [].
Proof. rewrite Z.eqb_eq. split; [apply zlen_zero_nil|intros ->; reflexivity]. Qed.
Lemma take_some n s : asks n -> rx_buf s <> [] -> py_slice 0 (take_count n s) (rx_buf s) <> [].
Proof.
  intros A B E. assert (L : 0 < zlen (rx_buf s)). { pose proof (zlen_nonneg (rx_buf s)). destruct (Z.eq_dec (zlen (rx_buf s)) 0) as [Z|Z]; [apply zlen_zero_nil in Z; contradiction|lia]. }
  assert (T : 0 < take_count n s <= zlen (rx_buf s)) by (unfold take_count; destruct n as [k|]; [specialize (A k eq_refl)|]; lia).
  apply (f_equal (@zlen Z)) in E. unfold py_slice, py_end in E. destruct (take_count n s <? 0) eqn:N; [apply Z.ltb_lt in N; lia|].
  unfold slice, zlen in *. rewrite firstn_length in E. cbn [skipn Z.to_nat] in E. cbn [length] in E. lia.
Qed.
Definition rdr (i : nat) (r : reader) (c : conn) (s : sess) (d : list bytes) : conn :=
  {| c_sess := s; c_rd := fun j => if Nat.eqb j i then r else c_rd c j; c_read := c_read c ++ d; c_written := c_written c |}.
Lemma read_on_0 i n c s r d : read_step n (c_rd c i) (c_sess c) = (s, r, d) -> read_on 0 i n c = rdr i r c s (match d with Some d => [d] | None => [] end).
Proof. intros E. unfold read_on. cbn [op_do]. rewrite E. reflexivity. Qed.
Lemma read_on_S f i n c s r d : read_step n (c_rd c i) (c_sess c) = (s, r, d) ->
  let c' := rdr i r c s (match d with Some d => [d] | None => [] end) in
  read_on (S f) i n c = match r with RIdle => c' | _ => read_on f i n c' end.
Proof. intros E. cbv zeta. cbn [read_on op_do]. rewrite E. cbn [fst c_rd]. rewrite Nat.eqb_refl. reflexivity. Qed.
Lemma rdr_at i r c s d : c_rd (rdr i r c s d) i = r.
Proof. cbn. rewrite Nat.eqb_refl. reflexivity. Qed.
Definition took (n : option Z) (s : sess) : sess :=
  let b := slice_from (py_end (take_count n s) (rx_buf s)) (rx_buf s) in
  set_ev_rx (if negb (zlen b =? 0) || ended s then ev_rx s + 1 else ev_rx s) (set_rx_buf b s).
Lemma step_take n s : read_step n RTake s = (took n s, RIdle, Some (py_slice 0 (take_count n s) (rx_buf s))).
Proof.
  cbn [read_step]. unfold took. cbv zeta. change (ended (set_rx_buf (slice_from (py_end (take_count n s) (rx_buf s)) (rx_buf s)) s)) with (ended s).
  cbn [rx_buf set_rx_buf ev_rx]. destruct (_ || _); reflexivity.
Qed.
(** what an uninterrupted read does *)
Inductive reads (n : option Z) (c : conn) : conn -> Prop :=
| rd_wait c' : ev_rx (c_sess c) <= 0 -> c_sess c' = c_sess c -> c_read c' = c_read c -> c_written c' = c_written c -> (forall j, c_rd c' j = c_rd c j) -> reads n c c'
| rd_end c' : 0 < ev_rx (c_sess c) -> rx_buf (c_sess c) = [] -> ended (c_sess c) = true -> c_sess c' = set_ev_rx (ev_rx (c_sess c) - 1) (c_sess c) ->
    c_read c' = c_read c ++ [[]] -> c_written c' = c_written c -> (forall j, c_rd c' j = c_rd c j) -> reads n c c'
| rd_take c' : 0 < ev_rx (c_sess c) -> (rx_buf (c_sess c) = [] -> ended (c_sess c) = false) ->
    c_sess c' = took n (set_ev_rx (ev_rx (c_sess c) - 1) (c_sess c)) ->
    c_read c' = c_read c ++ [py_slice 0 (take_count n (c_sess c)) (rx_buf (c_sess c))] -> c_written c' = c_written c -> (forall j, c_rd c' j = c_rd c j) -> reads n c c'.
Lemma read_cases i n c : c_rd c i = RIdle -> reads n c (read_now i n c).
Proof.
  intros R. unfold read_now.
  assert (RD : forall c' j, (forall j, c_rd c' j = if Nat.eqb j i then RIdle else c_rd c j) -> c_rd c' j = c_rd c j).
  { intros c' j H. rewrite H. destruct (Nat.eqb j i) eqn:J; [apply Nat.eqb_eq in J; congruence|reflexivity]. }
  destruct (0 <? ev_rx (c_sess c)) eqn:E.
  2: { erewrite read_on_S; [|cbn [read_step]; rewrite R; cbn [read_step]; rewrite E; reflexivity]. apply Z.ltb_ge in E. cbv iota.
       apply rd_wait; [exact E|reflexivity|apply app_nil_r|reflexivity|intros j; apply RD; reflexivity]. }
  erewrite read_on_S; [|rewrite R; cbn [read_step]; rewrite E; reflexivity]. apply Z.ltb_lt in E. cbv iota.
  set (s1 := set_ev_rx (ev_rx (c_sess c) - 1) (c_sess c)). set (c1 := rdr i RAcquired c s1 []).
  destruct (zlen (rx_buf (c_sess c)) =? 0) eqn:Z0.
  - erewrite read_on_S; [|unfold c1 at 1; rewrite rdr_at; cbn [read_step]; change (rx_buf (c_sess c1)) with (rx_buf (c_sess c)); rewrite Z0; reflexivity]. cbv iota.
    set (c2 := rdr i RSawEmpty c1 _ _). pose proof (proj1 (zlen_0 _) Z0) as B. destruct (ended (c_sess c)) eqn:EN.
    + erewrite read_on_S; [|unfold c2 at 1; rewrite rdr_at; cbn [read_step]; change (ended (c_sess c2)) with (ended (c_sess c)); rewrite EN; reflexivity]. cbv iota.
      apply rd_end; auto.
      * cbn [c_read rdr c2 c1]. rewrite !app_nil_r. reflexivity.
      * intros j. apply RD. intros k. cbn. destruct (Nat.eqb k i); reflexivity.
    + erewrite read_on_S; [|unfold c2 at 1; rewrite rdr_at; cbn [read_step]; change (ended (c_sess c2)) with (ended (c_sess c)); rewrite EN; reflexivity]. cbv iota.
      set (c3 := rdr i RTake c2 _ _). erewrite read_on_0; [|unfold c3 at 1; rewrite rdr_at; apply step_take].
      apply rd_take; auto.
      * cbn [c_read rdr c3 c2 c1]. rewrite !app_nil_r. reflexivity.
      * intros j. apply RD. intros k. cbn. destruct (Nat.eqb k i); reflexivity.
  - erewrite read_on_S; [|unfold c1 at 1; rewrite rdr_at; cbn [read_step]; change (rx_buf (c_sess c1)) with (rx_buf (c_sess c)); rewrite Z0; reflexivity]. cbv iota.
    set (c2 := rdr i RTake c1 _ _). erewrite read_on_S; [|unfold c2 at 1; rewrite rdr_at; apply step_take]. cbv iota.
    apply rd_take; auto.
    + intros B. apply zlen_0 in B. congruence.
    + cbn [c_read rdr c2 c1]. rewrite !app_nil_r. reflexivity.
    + intros j. apply RD. intros k. cbn. destruct (Nat.eqb k i); reflexivity.
Qed.
Lemma read_reach (allowed : op -> conn -> Prop) c0 i n : (forall c, allowed (ORead i n) c) -> forall f c, reach allowed c0 c -> reach allowed c0 (read_on f i n c).
Proof.
  intros A. induction f as [|f IH]; intros c R; cbn [read_on].
  - apply reach_op; auto.
  - destruct (c_rd _ i); try apply IH; apply reach_op; auto.
Qed.
Lemma areach_reach (allowed : op -> conn -> Prop) c0 c : (forall i n c, allowed (ORead i n) c) -> areach allowed c0 c -> reach allowed c0 c.
Proof. intros A. induction 1; [apply reach_0|apply reach_op; auto|apply read_reach; auto]. Qed.

(** * The semaphore *)
Definition over (s : sess) : Prop := exists a n, In (a, n) (hist s) /\ (n = CLOSE_WAIT \/ n = CLOSED).
Definition sem (s : sess) : Prop :=
  0 <= ev_rx s /\ (rx_buf s <> [] -> 0 < ev_rx s) /\ (0 < ev_rx s -> rx_buf s <> [] \/ over s) /\ (1 < ev_rx s -> over s) /\
  (ended s = true -> over s).
Lemma over_moved n s : over s -> over (moved n s).
Proof. intros (a & m & I & H). exists a, m. split; [|exact H]. cbn [hist moved set_st set_hist]. apply in_or_app. auto. Qed.
Lemma over_new n s : n = CLOSE_WAIT \/ n = CLOSED -> over (moved n s).
Proof. intros H. exists (st s), n. split; [|exact H]. cbn [hist moved set_st set_hist]. apply in_or_app. right. left. reflexivity. Qed.
Lemma ended_iff s : ended s = true <-> st s = CLOSE_WAIT \/ st s = CLOSED.
Proof. unfold ended. rewrite in_state_iff. cbn. intuition. Qed.
Lemma sem_lasting : lasting sem.
Proof.
  constructor; intros; try assumption.
  - (* end *) destruct H0 as (A & B & C & D & E). pose proof (over_new n (set_ev_rx (ev_rx s + 1) s) H) as N. unfold sem.
    change (ev_rx (moved n (set_ev_rx (ev_rx s + 1) s))) with (ev_rx s + 1). repeat split; auto; lia.
  - (* moved *) destruct H0 as (A & B & C & D & E). unfold sem. change (ev_rx (moved n s)) with (ev_rx s). change (rx_buf (moved n s)) with (rx_buf s).
    split; [exact A|]. split; [exact B|]. split; [intros X; destruct (C X); auto using over_moved|]. split; [auto using over_moved|].
    intros X. apply over_new. apply ended_iff in X. exact X.
  - (* acked *) destruct H as (A & B & C & D & E). unfold sem. change (rx_buf (acked p s)) with (rx_buf s ++ d_data p). change (over (acked p s)) with (over s).
    change (ended (acked p s)) with (ended s). change (ev_rx (acked p s)) with (if no_data p then ev_rx s else if ev_rx s =? 0 then ev_rx s + 1 else ev_rx s).
    destruct (no_data p) eqn:ND.
    + apply no_data_iff in ND. rewrite ND, app_nil_r. repeat split; auto.
    + assert (NE : rx_buf s ++ d_data p <> []). { intros X. apply app_eq_nil in X. destruct X as [_ X]. apply no_data_iff in X. congruence. }
      destruct (ev_rx s =? 0) eqn:Z0; [apply Z.eqb_eq in Z0|apply Z.eqb_neq in Z0]; repeat split; auto; lia.
  - rewrite rewind_eq. exact H.
Qed.
Lemma sem_fsm e s : sem s -> sem (fst (tcp_fsm e s)).
Proof. unfold tcp_fsm. apply keeps_fsm. exact sem_lasting. Qed.
Lemma sem_do o c : (forall i n, o <> ORead i n) -> sem (c_sess c) -> sem (c_sess (fst (op_do o c))).
Proof.
  intros N H. destruct o; cbn [op_do].
  - unfold tick. rewrite pbind_do. unfold with_sess. cbn [fst c_sess]. apply sem_fsm. exact H.
  - unfold with_sess. cbn [fst c_sess]. apply sem_fsm. exact H.
  - unfold with_sess. cbn [fst c_sess]. apply sem_fsm. exact H.
  - unfold session_send. destruct (in_state _ _); exact H.
  - exfalso. exact (N i n eq_refl).
Qed.
Lemma sem_reads n c c' : reads n c c' -> sem (c_sess c) -> sem (c_sess c').
Proof.
  intros R (A & B & C & D & E). destruct R as [c' R0 R1|c' R0 R1 R2 R3|c' R0 R1 R2].
  - rewrite R1. repeat split; auto.
  - apply E in R2. rewrite R3. unfold sem. change (over (set_ev_rx (ev_rx (c_sess c) - 1) (c_sess c))) with (over (c_sess c)). cbn [ev_rx rx_buf set_ev_rx]. repeat split; auto; try lia.
    intros X. contradiction.
  - rewrite R2. unfold took. cbn [rx_buf set_ev_rx ev_rx]. set (b := slice_from _ _). clearbody b.
    change (ended (set_ev_rx (ev_rx (c_sess c) - 1) (c_sess c))) with (ended (c_sess c)). set (w := if negb (zlen b =? 0) || ended (c_sess c) then ev_rx (c_sess c) - 1 + 1 else ev_rx (c_sess c) - 1).
    unfold sem. change (over (set_ev_rx w (set_rx_buf b (set_ev_rx (ev_rx (c_sess c) - 1) (c_sess c))))) with (over (c_sess c)).
    change (ended (set_ev_rx w (set_rx_buf b (set_ev_rx (ev_rx (c_sess c) - 1) (c_sess c))))) with (ended (c_sess c)). cbn [ev_rx rx_buf set_ev_rx set_rx_buf].
    unfold w. destruct (zlen b =? 0) eqn:Z0; cbn [negb orb].
    + apply zlen_0 in Z0. destruct (ended (c_sess c)) eqn:EN; repeat split; auto; try lia; try (intros X; congruence).
      * intros X. right. apply D. lia.
      * intros X. apply D. lia.
    + assert (b <> []) by (intros X; apply zlen_0 in X; congruence). repeat split; auto; try lia. intros X. apply D. lia.
Qed.
Lemma areach_idle iss allowed c0 c : opened iss c0 -> areach allowed c0 c -> (forall i, c_rd c i = RIdle) /\ sem (c_sess c).
Proof.
  intros O R. induction R as [|c o R [IH1 IH2] A N|c i n R [IH1 IH2]].
  - destruct O as (_ & call & lip & lport & rip & rport & timers & K & _ & ->). split; [reflexivity|].
    destruct K as [-> | ->]; unfold sem, over; cbn; repeat split; try lia; try congruence; discriminate.
  - split; [|apply sem_do; auto]. intros i. destruct o; cbn [op_do]; try exact (IH1 i).
    + unfold session_send. destruct (in_state _ _); exact (IH1 i).
    + exfalso. exact (N _ _ eq_refl).
  - pose proof (read_cases i n c (IH1 i)) as RC. split; [|eapply sem_reads; eauto]. intros j. destruct RC; rewrite <- (IH1 j); auto.
Qed.

(** * The end of the peer's stream *)
Definition at_end (s : sess) : Prop := In (st s) [CLOSE_WAIT; LAST_ACK; CLOSING; TIME_WAIT] \/ st s = CLOSED /\ ~ aborted s.
Lemma end_step e a b : pstep true e a b -> (forall p, e = EPacket p -> is_finack p = false) -> at_end b -> at_end a.
Proof.
  intros S F H. destruct S; try exact H.
  - (* go *) specialize (H1 eq_refl). unfold may in H1. destruct H as [H|[H N]].
    + change (st (moved n s)) with n in H. left.
      destruct n; cbn in H; intuition try discriminate; destruct (st s); try contradiction; cbn; auto;
        try (destruct H1 as (p & -> & H1); specialize (F p eq_refl); exfalso; destruct H1; congruence);
        try (destruct H1 as (p & -> & H1 & _); specialize (F p eq_refl); exfalso; congruence);
        try (destruct H1 as (p & -> & H1); specialize (F p eq_refl); exfalso; congruence).
    + change (st (moved n s)) with n in H. subst n. destruct (st s) eqn:E; try contradiction; try (left; rewrite E; cbn; auto; fail);
        exfalso; apply N; exists (st s); (split; [cbn [hist moved set_st set_hist]; apply in_or_app; right; left; reflexivity|rewrite E; cbn; intuition discriminate]).
  - (* gone *) destruct H as [H|[_ N]]; [exfalso; cbn in H; intuition discriminate|].
    destruct (st s) eqn:E; try (exfalso; cbn in H1; intuition discriminate); try (left; rewrite E; cbn; auto; fail);
      exfalso; apply N; exists (st s); (split; [unfold gone; cbn [hist moved set_st set_hist set_ev_rx set_ev_conn set_conn_err pkt]; apply in_or_app; right; left; reflexivity|rewrite E; cbn; intuition discriminate]).
  - destruct H0 as [[_ ->]|(_ & _ & ->)]; exact H.
  - destruct H0 as [[_ ->]|(_ & _ & ->)]; exact H.
  - rewrite rewind_eq in H. exact H.
  - rewrite rewind_eq in H. exact H.
Qed.
Lemma end_steps e a b : steps true e a b -> (forall p, e = EPacket p -> is_finack p = false) -> at_end b -> at_end a.
Proof. induction 1; auto. intros F X. eapply end_step; eauto. Qed.
Definition grown (n : Z) (s : sess) : Prop := n <= zlen (rx_buf s).
Lemma buf_lasting n : lasting (grown n).
Proof.
  constructor; unfold grown; intros; try assumption.
  - change (rx_buf (acked p s)) with (rx_buf s ++ d_data p). rewrite zlen_app. pose proof (zlen_nonneg (d_data p)). lia.
  - rewrite rewind_eq. exact H.
Qed.
Lemma buf_fsm e s : zlen (rx_buf s) <= zlen (rx_buf (fst (tcp_fsm e s))).
Proof. unfold tcp_fsm. apply (keeps_fsm _ (buf_lasting (zlen (rx_buf s)))). apply Z.le_refl. Qed.
Lemma finack_flags p : is_finack p = true -> is_ack p = false /\ is_rstack p = false /\ is_rst p = false /\ is_syn p = false /\ is_synack p = false /\ d_fin p = true.
Proof. unfold is_finack, is_ack, is_rstack, is_rst, is_syn, is_synack. destruct (d_fin p), (d_ack p), (d_syn p), (d_rst p); cbn; auto 10; discriminate. Qed.
Lemma when_eq c a s : pwhen c a s = if c s then a s else (s, Ok tt).
Proof. reflexivity. Qed.
Lemma finack_cases p s : is_finack p = true -> tcp_fsm (EPacket p) s = (s, Ok tt) \/
  fits p s = true /\ In (st s) [ESTABLISHED; FIN_WAIT_1; FIN_WAIT_2] /\ zlen (rx_buf s) + zlen (d_data p) <= zlen (rx_buf (fst (tcp_fsm (EPacket p) s))).
Proof.
  intros F. destruct (finack_flags p F) as (A & B & C & D & E & G).
  set (N := zlen (rx_buf s) + zlen (d_data p)). pose proof (buf_lasting N) as L. unfold tcp_fsm. cbn [fsm].
  set (again := fun q => fsm (length (ooo s)) (EPacket q)). assert (AG : forall q, keeps_it (grown N) (again q)) by (intros q; apply keeps_fsm; exact L).
  assert (PR : forall (k : unit -> P unit), (forall a, keeps_it (grown N) (k a)) -> N <= zlen (rx_buf (fst (pbind (process_ack again p) k s)))).
  { intros k K. unfold pbind. rewrite process_eq. cbv zeta.
    assert (X : N <= zlen (rx_buf (acked p s))) by (change (rx_buf (acked p s)) with (rx_buf s ++ d_data p); rewrite zlen_app; lia).
    set (s1 := acked p s) in *. clearbody s1. destruct (dget _ _) as [q|].
    - specialize (AG q (set_ooo (ddel (rcv_nxt s1) (ooo s1)) s1) X). destruct (again q _) as [s2 [a|x]]; [apply K|]; exact AG.
    - apply K. exact X. }
  clearbody again. destruct (st s) eqn:S; try (left; unfold fsm_closed, fsm_listen, fsm_syn_sent, fsm_syn_rcvd, fsm_close_wait, fsm_closing, fsm_last_ack, fsm_time_wait, pwhen, pif;
    rewrite ?A, ?B, ?C, ?D, ?E; cbn [andb orb]; reflexivity).
  - unfold fsm_established. rewrite A, F. unfold pwhen, pif.
    destruct ((rcv_nxt s <=? d_seq p) && (d_seq p <=? rcv_nxt s + RCV_WND - zlen (d_data p))); cbn [negb]; [|left; reflexivity]. destruct (fits p s) eqn:FT; [|left; reflexivity].
    right. split; [reflexivity|]. split; [cbn; auto|]. apply PR. intros _. kq.
  - unfold fsm_fin_wait_1. rewrite A, F. rewrite !when_eq. destruct (fits p s) eqn:FT; [|left; reflexivity].
    right. split; [reflexivity|]. split; [cbn; auto|]. apply PR. intros _. unfold enter_time_wait, register_timer. kq.
  - unfold fsm_fin_wait_2. rewrite A, F. unfold pwhen, pif. destruct (fits p s) eqn:FT; [|left; reflexivity].
    right. split; [reflexivity|]. split; [cbn; auto|]. apply PR. intros _. unfold enter_time_wait, register_timer. kq.
Qed.

Lemma reach_weak (al bl : op -> conn -> Prop) c0 c : (forall o c, al o c -> bl o c) -> reach al c0 c -> reach bl c0 c.
Proof. intros W. induction 1; [apply reach_0|apply reach_op; auto]. Qed.
Lemma prefix_full {A} (a b : list A) : prefix a b -> zlen b <= zlen a -> a = b.
Proof.
  intros [r ->] L. rewrite zlen_app in L. assert (zlen r = 0) as E by (pose proof (zlen_nonneg r); lia). apply zlen_zero_nil in E. subst. symmetry. apply app_nil_r.
Qed.
Lemma eof_ok iss irs P : allowed_ok true iss (eof_op iss irs P).
Proof. intros o c [H _] _. exact H. Qed.
Lemma end_reach iss irs P c0 c : 0 <= irs < 2 ^ 32 -> opened iss c0 -> reach (eof_op iss irs P) c0 c -> at_end (c_sess c) -> received c = P.
Proof.
  intros IR O R. induction R as [|c o R IH A]; intros E.
  - exfalso. destruct O as (_ & call & lip & lport & rip & rport & timers & K & _ & ->). destruct K as [-> | ->]; unfold at_end in E; cbn in E; intuition discriminate.
  - assert (R1 : reach (eof_op iss irs P) c0 (fst (op_do o c))) by (apply reach_op; assumption).
    assert (W : forall o c, eof_op iss irs P o c -> peer_op irs P o c) by (intros ? ? [_ X]; exact X).
    pose proof (received_prefix irs P iss c0 _ IR O (reach_weak _ _ _ _ W R1)) as PF. apply prefix_full; [exact PF|].
    pose proof (reach_good true iss _ c0 c O (eof_ok iss irs P) R) as G.
    pose proof (op_moves true iss o c G (eof_ok iss irs P o c A)) as M.
    pose proof (rx_reach irs P iss c0 c IR O (reach_weak _ _ _ _ W R)) as RX.
    assert (GROW : zlen (received c) <= zlen (received (fst (op_do o c)))).
    { destruct o; cbn [moves] in M.
      - destruct M as (_ & M & _). unfold received. rewrite M, !zlen_app. cbn [op_do]. unfold tick. rewrite pbind_do. unfold with_sess. cbn [fst c_sess].
        pose proof (buf_fsm ETimer (set_tmr (tdec (tmr (c_sess c))) (c_sess c))) as B. cbn [rx_buf set_tmr] in B. lia.
      - destruct M as (_ & M & _). unfold received. rewrite M, !zlen_app. cbn [op_do]. unfold with_sess. cbn [fst c_sess]. pose proof (buf_fsm (EPacket p) (c_sess c)). lia.
      - destruct M as (_ & M & _). unfold received. rewrite M, !zlen_app. cbn [op_do]. unfold with_sess. cbn [fst c_sess]. pose proof (buf_fsm (ECall Close) (c_sess c)). lia.
      - destruct M as [->|(_ & M1 & M2 & _)]; [lia|]. unfold received. rewrite M1, M2. apply Z.le_refl.
      - destruct M as (_ & b & v & d & M1 & M2 & M3). unfold received. rewrite M1, M2, concat_app. cbn [rx_buf set_rx_buf]. rewrite <- app_assoc, M3. lia. }
    assert (SAME : at_end (c_sess c) -> zlen P <= zlen (received (fst (op_do o c)))) by (intros X; apply IH in X; rewrite <- X at 1; exact GROW).
    destruct o; cbn [moves] in M.
    + destruct M as ((e & Q & S) & _). injection Q as <-. apply SAME. eapply end_steps; eauto. discriminate.
    + destruct (is_finack p) eqn:F.
      * destruct (finack_cases p (c_sess c) F) as [X|(FT & U & L)].
        { cbn [op_do] in E. unfold with_sess in E. rewrite X in E. apply SAME. exact E. }
        unfold received. destruct M as (_ & M & _). rewrite M, zlen_app. cbn [op_do]. unfold with_sess. cbn [fst c_sess].
        unfold rx_conn in RX. destruct A as [_ A]. cbn [peer_op] in A. pose proof (peer_placed irs 0 P p (c_sess c) _ IR RX A) as [_ PL].
        destruct (finack_flags p F) as (_ & _ & _ & _ & _ & FF). apply fits_iff in FT. destruct FT as [FT _].
        destruct RX as [(_ & _ & _ & _ & X & _)|(X1 & X2 & (b & X3 & X4 & X5 & X6 & X7 & X8) & X9)]; [exfalso; cbn in X, U; intuition congruence|].
        rewrite zlen_app in X4, X5, X7. pose proof (zlen_nonneg (concat (c_read c))). pose proof (zlen_nonneg (rx_buf (c_sess c))). pose proof (zlen_nonneg (d_data p)).
        destruct PL as [_ PL]; [auto|lia|]. specialize (PL FF). destruct (Z.eq_dec b 1) as [B|B]; [specialize (X7 B); lia|]. lia.
      * destruct M as ((e & Q & S) & _). injection Q as <-. apply SAME. eapply end_steps; eauto. intros q X. injection X as <-. exact F.
    + destruct M as ((e & Q & S) & _). injection Q as <-. apply SAME. eapply end_steps; eauto. discriminate.
    + destruct M as [M|(_ & M1 & _)]; apply SAME; [rewrite M in E; exact E|rewrite M1 in E; exact E].
    + destruct M as (_ & b & v & d & M1 & _). apply SAME. rewrite M1 in E. exact E.
Qed.

(** * An empty read *)
Definition shut (s : sess) : Prop := forall a n, In (a, n) (hist s) ->
  (n = CLOSE_WAIT -> In (st s) [CLOSE_WAIT; LAST_ACK; CLOSED]) /\ (n = CLOSED -> st s = CLOSED).
Lemma shut_moved e n s : may e n s -> shut s -> shut (moved n s).
Proof.
  intros M H a m I. change (hist (moved n s)) with (hist s ++ [(st s, n)]) in I. change (st (moved n s)) with n. apply in_app_iff in I.
  destruct I as [I|[I|[]]].
  - destruct (H a m I) as [H1 H2]. unfold may in M. split; intros X; [specialize (H1 X)|specialize (H2 X)].
    + destruct (st s) eqn:E; try (exfalso; cbn in H1; intuition discriminate); destruct n; try contradiction; cbn; auto.
    + rewrite H2 in M. destruct n; contradiction.
  - injection I as _ <-. split; intros ->; cbn; auto.
Qed.
Lemma shut_pstep e a b : pstep true e a b -> shut a -> shut b.
Proof.
  intros S H. destruct S; try exact H.
  - apply (shut_moved e); auto.
  - intros a m I. unfold gone in *. change (st _) with CLOSED. split; intros _; [cbn; auto|reflexivity].
  - destruct H0 as [[_ ->]|(_ & _ & ->)]; exact H.
  - destruct H0 as [[_ ->]|(_ & _ & ->)]; exact H.
  - rewrite rewind_eq. exact H.
  - rewrite rewind_eq. exact H.
Qed.
Lemma shut_steps e a b : steps true e a b -> shut a -> shut b.
Proof. induction 1; eauto using shut_pstep. Qed.
Lemma shut_reach iss c0 c (allowed : op -> conn -> Prop) : opened iss c0 -> allowed_ok true iss allowed -> reach allowed c0 c -> shut (c_sess c).
Proof.
  intros O OK R. induction R as [|c o R IH A].
  - destruct O as (_ & call & lip & lport & rip & rport & timers & K & _ & ->).
    destruct K as [-> | ->]; intros a n I; cbn in I; destruct I as [I|[]]; injection I as _ <-; split; discriminate.
  - pose proof (reach_good true iss _ c0 c O OK R) as G. pose proof (op_moves true iss o c G (OK o c A)) as M.
    destruct o; cbn [moves] in M; try (destruct M as ((e & _ & S) & _); eapply shut_steps; eauto; fail).
    + destruct M as [M|(_ & M1 & _)]; [rewrite M; exact IH|rewrite M1; exact IH].
    + destruct M as (_ & b & v & d & M1 & _). rewrite M1. exact IH.
Qed.
Lemma closed_end s : st s = CLOSED -> at_end s \/ aborted s.
Proof.
  intros C. destruct (Exists_dec (fun x => snd x = CLOSED /\ ~ In (fst x) [LAST_ACK; TIME_WAIT]) (hist s)) as [X|X].
  { intros [x y]. cbn [fst snd]. destruct y; try (right; intros [Y _]; discriminate).
    destruct x; try (left; split; [reflexivity|cbn; intuition discriminate]); right; intros [_ Y]; apply Y; cbn; auto. }
  - right. apply Exists_exists in X. destruct X as ([x y] & X1 & X2 & X3). cbn in X2, X3. subst y. exists x. auto.
  - left. right. split; [exact C|]. intros (x & X1 & X2). apply X. apply Exists_exists. exists (x, CLOSED). auto.
Qed.
Lemma over_end s : shut s -> over s -> at_end s \/ aborted s.
Proof.
  intros H (a & n & I & [-> | ->]); destruct (H a _ I) as [H1 H2].
  - specialize (H1 eq_refl). cbn in H1. destruct H1 as [E|[E|[E|[]]]]; try (left; left; rewrite <- E; cbn; auto; fail). apply closed_end. auto.
  - apply closed_end. auto.
Qed.
Lemma eof_read iss irs P i k c0 c : 0 <= irs < 2 ^ 32 -> opened iss c0 -> areach (eof_op iss irs P) c0 c -> asks k ->
  c_read (read_now i k c) = c_read c ++ [[]] -> concat (c_read c) = P \/ aborted (c_sess c).
Proof.
  intros IR O R K E. destruct (areach_idle iss _ c0 c O R) as [ID SM].
  assert (R' : reach (eof_op iss irs P) c0 c) by (apply areach_reach; [|exact R]; intros; split; exact Logic.I).
  pose proof (shut_reach iss c0 c _ O (eof_ok iss irs P) R') as SH.
  assert (X : rx_buf (c_sess c) = [] /\ over (c_sess c)).
  { destruct SM as (A & B & C & D & F). destruct (read_cases i k c (ID i)) as [c' R0 R1 R2|c' R0 R1 R2 R3|c' R0 R1 R2 R3].
    - rewrite R2 in E. apply (f_equal (@length bytes)) in E. rewrite app_length in E. cbn in E. lia.
    - auto.
    - rewrite R3 in E. apply app_inv_head in E. injection E as E. destruct (rx_buf (c_sess c)) as [|b r] eqn:BF; [|exfalso].
      + split; [reflexivity|]. destruct (C R0) as [X|X]; [congruence|exact X].
      + apply (take_some k (c_sess c)); auto; rewrite BF; [discriminate|exact E]. }
  destruct X as [X1 X2]. destruct (over_end _ SH X2) as [Y|Y]; [left|right; exact Y].
  pose proof (end_reach iss irs P c0 c IR O R' Y) as Z. unfold received in Z. rewrite X1, app_nil_r in Z. exact Z.
Qed.
(** a read is not held up while there is something to read *)
Lemma read_ready iss (allowed : op -> conn -> Prop) i k c0 c : opened iss c0 -> areach allowed c0 c -> asks k -> rx_buf (c_sess c) <> [] ->
  exists d, d <> [] /\ c_read (read_now i k c) = c_read c ++ [d].
Proof.
  intros O R K B. destruct (areach_idle iss _ c0 c O R) as [ID (A & SB & _)]. specialize (SB B).
  destruct (read_cases i k c (ID i)) as [c' R0 R1 R2|c' R0 R1 R2 R3|c' R0 R1 R2 R3]; [lia|congruence|].
  eexists. split; [|exact R3]. apply take_some; auto.
Qed.

(** * Reads after the peer closed *)
Definition woken (s : sess) : Prop := 0 <= ev_rx s /\ (st s = CLOSE_WAIT -> 0 < ev_rx s).
Lemma woken_lasting : lasting woken.
Proof.
  constructor; intros; try assumption.
  - destruct H0 as [A _]. unfold woken. change (ev_rx (moved n (set_ev_rx (ev_rx s + 1) s))) with (ev_rx s + 1). lia.
  - destruct H0 as [A _]. split; [exact A|]. change (st (moved n s)) with n. intros X. contradiction.
  - destruct H as [A B]. unfold woken. change (st (acked p s)) with (st s).
    change (ev_rx (acked p s)) with (if no_data p then ev_rx s else if ev_rx s =? 0 then ev_rx s + 1 else ev_rx s).
    destruct (no_data p), (ev_rx s =? 0); split; intros; try specialize (B H); lia.
  - rewrite rewind_eq. exact H.
Qed.
Lemma woken_areach iss (allowed : op -> conn -> Prop) c0 c : opened iss c0 -> areach allowed c0 c -> In [] (c_read c) \/ woken (c_sess c).
Proof.
  intros O R. induction R as [|c o R IH A N|c i n R IH].
  - right. destruct O as (_ & call & lip & lport & rip & rport & timers & K & _ & ->). destruct K as [-> | ->]; unfold woken; cbn; split; try lia; discriminate.
  - assert (L : forall e s, woken s -> woken (fst (tcp_fsm e s))) by (intros e s; unfold tcp_fsm; apply keeps_fsm; exact woken_lasting).
    destruct o; cbn [op_do].
    + unfold tick. rewrite pbind_do. unfold with_sess. cbn [fst c_sess c_read]. destruct IH as [IH|IH]; [auto|]. right. apply L. exact IH.
    + unfold with_sess. cbn [fst c_sess c_read]. destruct IH as [IH|IH]; auto.
    + unfold with_sess. cbn [fst c_sess c_read]. destruct IH as [IH|IH]; auto.
    + unfold session_send. destruct (in_state _ _); exact IH.
    + exfalso. exact (N _ _ eq_refl).
  - destruct (areach_idle iss _ c0 c O R) as [ID _].
    destruct (read_cases i n c (ID i)) as [c' R0 R1 R2|c' R0 R1 R2 R3 R4|c' R0 R1 R2 R3].
    + rewrite R1, R2. exact IH.
    + left. rewrite R4. apply in_or_app. right. left. reflexivity.
    + rewrite R2, R3. destruct IH as [IH|[A B]]; [left; apply in_or_app; auto|right]. unfold took, woken. cbn [ev_rx set_ev_rx rx_buf set_rx_buf].
      change (ended (set_ev_rx (ev_rx (c_sess c) - 1) (c_sess c))) with (ended (c_sess c)). set (b := negb _ || _). assert (C : st (c_sess c) = CLOSE_WAIT -> b = true).
      { intros C. unfold b. rewrite (proj2 (ended_iff (c_sess c))); [apply orb_true_r|auto]. }
      clearbody b. change (st (set_ev_rx _ _)) with (st (c_sess c)). split; [destruct b; lia|]. intros X. rewrite (C X). lia.
Qed.
Lemma close_wait_read iss (allowed : op -> conn -> Prop) i k c0 c : opened iss c0 -> areach allowed c0 c -> st (c_sess c) = CLOSE_WAIT -> ~ In [] (c_read c) ->
  exists d, c_read (read_now i k c) = c_read c ++ [d].
Proof.
  intros O R S N. destruct (areach_idle iss _ c0 c O R) as [ID _]. destruct (woken_areach iss _ c0 c O R) as [X|[_ X]]; [contradiction|]. specialize (X S).
  destruct (read_cases i k c (ID i)) as [c' R0 R1 R2|c' R0 R1 R2 R3 R4|c' R0 R1 R2 R3]; [lia| |]; eauto.
Qed.
