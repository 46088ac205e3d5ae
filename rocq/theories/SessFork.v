(** When a session forks and when it reports a new connection. *)
From Verif Require Import Base BaseLemmas AddrModel TcpModel StackModel StackRxModel SessModel SpecSess SessProofs SessTrace SessRun SessInv SessTx SessKeep SessHand.

(** neither listening nor half open, with effects [E] so far *)
Definition past (E : list eff) (s : sess) : Prop := effs s = E /\ st s <> LISTEN /\ st s <> SYN_RCVD.
Lemma past_change E n : n <> LISTEN -> n <> SYN_RCVD -> keeps_it (past E) (change_state n).
Proof.
  intros A B. unfold change_state. apply keeps_bind; [apply leads_do; intros s (O & _); split; [exact O|split; assumption]|]. intros _. apply keeps_when.
  intros s J. destruct (reg s); exact J.
Qed.
Lemma past_tx E o syn ack fin rst data : keeps_it (past E) (transmit_packet o syn ack fin rst data).
Proof. apply keeps_tx. intros s J. exact J. Qed.
Lemma past_rewind E s : past E s -> past E (rewind s).
Proof. intros J. rewrite rewind_eq. exact J. Qed.
Ltac pk := repeat match goal with
  | |- keeps_it _ (pbind _ _) => apply keeps_bind; [|intros ?]
  | |- keeps_it _ (pif _ _ _) => apply keeps_if
  | |- keeps_it _ (pwhen _ _) => apply keeps_when
  | |- keeps_it _ (pret _) => apply keeps_ret
  | |- keeps_it _ (passert _) => apply keeps_assert
  | |- keeps_it (past _) (change_state _) => apply past_change; discriminate
  | |- keeps_it (past _) (transmit_packet _ _ _ _ _ _) => apply past_tx
  | |- keeps_it (past _) (pdo _) => apply leads_do; let H := fresh in intros ? H; first [exact H | apply past_rewind; exact H]
  | |- keeps_it _ (if ?c then _ else _) => destruct c
  end.
Lemma past_data E : keeps_it (past E) transmit_data.
Proof. unfold transmit_data. pk. intros s J. cbv zeta. destruct (_ =? 0); [exact J|]. apply past_tx. exact J. Qed.
Lemma past_giveup E : keeps_it (past E) give_up.
Proof. unfold give_up, release_rx, release_conn. pk. intros s J. apply past_tx. exact J. Qed.
Lemma past_timeout E : keeps_it (past E) retransmit_timeout.
Proof.
  intros s J. unfold retransmit_timeout. destruct (dget _ _); [|exact J]. destruct (expired _ _); [|exact J].
  destruct (_ =? _); [apply past_giveup; auto|apply past_rewind; exact J].
Qed.
Lemma past_process E again p : (forall q, keeps_it (past E) (again q)) -> keeps_it (past E) (process_ack again p).
Proof. intros N. apply keeps_process; auto; intros s; intros; assumption. Qed.
Lemma past_fsm E fuel : forall e, e <> ECall Listen -> keeps_it (past E) (fsm fuel e).
Proof.
  induction fuel as [|fuel IH]; intros e NL s J; [exact J|]. cbn [fsm].
  assert (PR : forall p, keeps_it (past E) (process_ack (fun q => fsm fuel (EPacket q)) p)) by (intros p; apply past_process; intros q; apply IH; discriminate).
  set (again := fun q => fsm fuel (EPacket q)) in *. clearbody again. clear IH.
  assert (X : st s <> LISTEN /\ st s <> SYN_RCVD) by apply J. destruct (st s); try (exfalso; tauto); clear X; revert s J;
    match goal with |- forall s, past E s -> past E (fst (?f s)) => change (keeps_it (past E) f) end.
  - unfold fsm_closed. destruct e as [p|[]|]; try congruence; pk.
  - unfold fsm_syn_sent, release_conn, transmit_ack. destruct e as [p|[]|]; pk; auto using past_timeout, past_data.
  - unfold fsm_established, retransmit_request, store_ooo, release_rx, transmit_ack, delayed_ack, register_timer, transmit_ack. destruct e as [p|[]|]; pk; auto using past_timeout, past_data.
  - unfold fsm_fin_wait_1, enter_time_wait, register_timer, transmit_ack. destruct e as [p|[]|]; pk; auto using past_timeout, past_data.
  - unfold fsm_fin_wait_2, enter_time_wait, register_timer, transmit_ack. destruct e as [p|[]|]; pk; auto using past_timeout, past_data.
  - unfold fsm_closing, enter_time_wait, register_timer, transmit_ack. destruct e as [p|[]|]; pk; auto using past_timeout, past_data.
  - unfold fsm_close_wait, retransmit_request, store_ooo, release_rx, transmit_ack, delayed_ack, register_timer, transmit_ack. destruct e as [p|[]|]; pk; auto using past_timeout, past_data.
  - unfold fsm_last_ack. destruct e as [p|[]|]; pk; auto using past_timeout, past_data.
  - unfold fsm_time_wait. destruct e as [p|[]|]; pk.
Qed.
(** listening *)
Definition valid_syn (p : tmd) : Prop := is_syn p = true /\ d_ackn p = 0 /\ d_data p = [].
Lemma listen_step e s : st s = LISTEN ->
  (exists p, e = EPacket p /\ valid_syn p /\ tcp_fsm e s = (moved SYN_RCVD (adopt p s), Ok tt)) \/
  ((forall p, e = EPacket p -> ~ valid_syn p) /\ effs (fst (tcp_fsm e s)) = effs s /\ ooo (fst (tcp_fsm e s)) = ooo s /\
   (e <> ECall Close /\ fst (tcp_fsm e s) = s \/ e = ECall Close /\ st (fst (tcp_fsm e s)) = CLOSED)).
Proof.
  intros ST. destruct e as [p|c|].
  - destruct (is_syn p && ((d_ackn p =? 0) && no_data p)) eqn:C.
    + left. exists p. rewrite !andb_true_iff, Z.eqb_eq in C. destruct C as (A & B & D). split; [reflexivity|]. split; [split; [exact A|split; [exact B|apply no_data_iff; exact D]]|].
      apply syn_taken; auto.
    + right. assert (E : tcp_fsm (EPacket p) s = (s, Ok tt)). { unfold tcp_fsm. cbn [fsm]. rewrite ST. unfold fsm_listen. rewrite C. reflexivity. }
      rewrite E. cbn [fst]. split; [|split; [reflexivity|split; [reflexivity|left; split; [discriminate|reflexivity]]]].
      intros q Q (A & B & D). injection Q as <-. apply no_data_iff in D. rewrite A, B, D in C. discriminate C.
  - right. split; [discriminate|]. unfold tcp_fsm. cbn [fsm]. rewrite ST. destruct c; cbn [fsm_listen pret fst].
    + split; [reflexivity|]. split; [reflexivity|]. left. split; [discriminate|reflexivity].
    + split; [reflexivity|]. split; [reflexivity|]. left. split; [discriminate|reflexivity].
    + unfold change_state. rewrite pbind_do. unfold pwhen, pif. rewrite in_state_1. cbn [fst]. change (fsm_eqb _ CLOSED) with true. cbv iota.
      destruct (reg _); (split; [reflexivity|split; [reflexivity|right; split; reflexivity]]).
  - right. split; [discriminate|]. unfold tcp_fsm. cbn [fsm]. rewrite ST. cbn [fsm_listen pret fst].
    split; [reflexivity|]. split; [reflexivity|]. left. split; [discriminate|reflexivity].
Qed.
(** half open: the SYN + ACK has been sent, or the sequence number is still the initial one *)
Definition synack (t : tcp_tx) (s : sess) : Prop := x_fsyn t = true /\ x_fack t = true /\ x_seq t = snd_ini s /\ x_ack t = rcv_nxt s.
Definition half (E : list eff) (q : Z) (s : sess) : Prop := effs s = E /\ ooo s = [] /\ rcv_nxt s = q /\ snd_una s = snd_ini s /\
  (snd_nxt s = snd_ini s \/ (snd_nxt s = snd_ini s + 1 /\ exists t, In t (sent s) /\ synack t s)).
Definition half_open (E : list eff) (q : Z) (s : sess) : Prop := half E q s /\ st s = SYN_RCVD.
Definition half_done (E : list eff) (q : Z) (s : sess) : Prop := half_open E q s \/ (effs s = E /\ st s = CLOSED).
Lemma half_rewind E q s : half_open E q s -> half_open E q (rewind s).
Proof.
  intros ((A & B & C & D & F) & ST). rewrite rewind_eq. split; [|exact ST]. split; [exact A|]. split; [exact B|]. split; [exact C|]. split; [exact D|]. left. exact D.
Qed.
Lemma ooo_change n s : ooo (fst (change_state n s)) = ooo s.
Proof. unfold change_state. rewrite pbind_do. unfold pwhen, pif. destruct (in_state _ _); [destruct (reg _)|]; reflexivity. Qed.
Lemma change_st n s : st (fst (change_state n s)) = n /\ effs (fst (change_state n s)) = effs s.
Proof. unfold change_state. rewrite pbind_do. unfold pwhen, pif. destruct (in_state _ _); [destruct (reg _)|]; split; reflexivity. Qed.
Lemma half_giveup E q s : half_open E q s -> half_done E q (fst (give_up s)).
Proof.
  intros J. rewrite give_up_eq. destruct (tcp_tx_ok _); [|left; exact J]. right. destruct J as ((A & B & _) & ST).
  assert (X : effs (gone s) = E /\ st (gone s) = CLOSED) by (split; [exact A|reflexivity]).
  generalize dependent (gone s). intros b X. destruct (reg s); exact X.
Qed.
Lemma half_timeout E q : leads (half_open E q) retransmit_timeout (half_done E q).
Proof.
  intros s J. unfold retransmit_timeout. destruct (dget _ _); [|left; exact J]. destruct (expired _ _); [|left; exact J].
  destruct (_ =? _); [apply half_giveup; exact J|left; apply half_rewind; exact J].
Qed.
Lemma in_state_not l s : ~ In (st s) l -> in_state l s = false.
Proof.
  intros N. unfold in_state. apply not_true_is_false. intros H. apply existsb_exists in H. destruct H as (x & I & E). apply N. destruct (st s), x; try discriminate E; exact I.
Qed.
Lemma half_data E q : leads (half_open E q) transmit_data (half_open E q).
Proof.
  intros s J. destruct J as ((A & B & C & D & F) & ST). unfold transmit_data, pbind, passert. destruct (_ && _); [|split; [split; [exact A|auto]|exact ST]]. cbn [fst].
  unfold pif, pwhen, pif. rewrite (in_state_not [SYN_SENT]) by (rewrite ST; intros [X|[]]; discriminate X). cbn [andb].
  rewrite (in_state_not [ESTABLISHED; CLOSE_WAIT]) by (rewrite ST; intros [X|[X|[]]]; discriminate X).
  rewrite (in_state_not [FIN_WAIT_1; LAST_ACK]) by (rewrite ST; intros [X|[X|[]]]; discriminate X). cbn [andb pret fst].
  rewrite in_state_1, ST. cbn [fsm_eqb andb]. destruct (snd_nxt s =? snd_ini s) eqn:N; [|split; [split; [exact A|auto]|exact ST]].
  apply Z.eqb_eq in N. rewrite transmit_eq. cbn [seq_of]. destruct (tcp_tx_ok _); [|split; [split; [exact A|auto]|exact ST]]. cbn [fst].
  split; [|exact ST]. split; [exact A|]. split; [exact B|]. split; [exact C|]. split; [exact D|]. right. unfold pkt. sx. split; [rewrite N; change (zlen (@nil Z)) with 0; cbn [b2z]; lia|].
  eexists. split; [apply in_or_app; right; left; reflexivity|]. unfold synack, segment. sx. cbn [x_fsyn x_fack x_seq x_ack]. rewrite N. auto.
Qed.
Lemma closed_data E : keeps_it (fun s => effs s = E /\ st s = CLOSED) transmit_data.
Proof.
  unfold transmit_data. repeat match goal with
  | |- keeps_it _ (pbind _ _) => apply keeps_bind; [|intros ?]
  | |- keeps_it _ (pif _ _ _) => apply keeps_if
  | |- keeps_it _ (pwhen _ _) => apply keeps_when
  | |- keeps_it _ (pret _) => apply keeps_ret
  | |- keeps_it _ (passert _) => apply keeps_assert
  | |- keeps_it _ (transmit_packet _ _ _ _ _ _) => apply keeps_tx; intros s J; exact J
  end. intros s J. cbv zeta. destruct (_ =? 0); [exact J|]. rewrite transmit_eq. destruct (tcp_tx_ok _); exact J.
Qed.
Lemma half_timer E q s : half_open E q s -> half_done E q (fst (tcp_fsm ETimer s)).
Proof.
  intros J. unfold tcp_fsm. cbn [fsm]. replace (st s) with SYN_RCVD by (symmetry; apply J). cbn [fsm_syn_rcvd].
  revert s J. match goal with |- forall s, half_open E q s -> half_done E q (fst (?f s)) => change (leads (half_open E q) f (half_done E q)) end.
  eapply leads_bind; [apply half_timeout|auto|]. intros _ s [J|J]; [left; apply half_data; exact J|right]. apply closed_data. exact J.
Qed.
Lemma half_tick E q s : half_open E q s -> half_done E q (fst (tick s)).
Proof. intros J. unfold tick. rewrite pbind_do. apply half_timer. exact J. Qed.
(** the acknowledgement of the handshake *)
Definition last_ack (p : tmd) (s : sess) : Prop := is_ack p = true /\ d_data p = [] /\ d_seq p = rcv_nxt s /\ d_ackn p = snd_nxt s.
Lemma rcvd_packet E q p s : half_open E q s ->
  (last_ack p s /\ exists s', tcp_fsm (EPacket p) s = (s', Ok tt) /\ st s' = ESTABLISHED /\ effs s' = E ++ [FAccept] /\ sent s' = sent s /\ snd_ini s' = snd_ini s /\ rcv_nxt s' = rcv_nxt s /\ reg s' = reg s) \/
  (~ last_ack p s /\ (fst (tcp_fsm (EPacket p) s) = s \/ st (fst (tcp_fsm (EPacket p) s)) = CLOSED /\ effs (fst (tcp_fsm (EPacket p) s)) = E)).
Proof.
  intros ((A & B & C & D & F) & ST). destruct (is_ack p && (next_in p s && (d_ackn p =? snd_nxt s) && no_data p)) eqn:K.
  - left. rewrite !andb_true_iff, Z.eqb_eq in K. unfold next_in in K. rewrite Z.eqb_eq in K. destruct K as (K1 & (K2 & K3) & K4).
    split; [split; [exact K1|split; [apply no_data_iff; exact K4|auto]]|].
    destruct (ack_taken p s ST K1 K4 K2 K3 B) as (s' & E1 & E2 & E3 & E4 & E5 & E6). exists s'.
    assert (X : snd_ini s' = snd_ini s /\ reg s' = reg s).
    { assert (Y : s' = fst (tcp_fsm (EPacket p) s)) by (rewrite E1; reflexivity). clear - Y A B ST K1 K2 K3 K4.
      unfold tcp_fsm in Y. rewrite B in Y. cbn [length fsm] in Y. rewrite ST in Y. unfold fsm_syn_rcvd, pif in Y.
      unfold next_in in Y. rewrite K1, K2, K3, K4, !Z.eqb_refl in Y. cbn [andb] in Y. unfold pbind at 1 in Y. rewrite process_eq in Y. cbv zeta in Y.
      assert (OB : ooo (acked p s) = []) by exact B. assert (X1 : snd_ini (acked p s) = snd_ini s) by reflexivity. assert (X2 : reg (acked p s) = reg s) by reflexivity.
      generalize dependent (acked p s). intros b Y OB X1 X2. rewrite OB in Y. cbn [dget] in Y. unfold change_state, pbind, pwhen, pif, pdo in Y. rewrite in_state_1 in Y.
      change (st (set_st ESTABLISHED _)) with ESTABLISHED in Y. cbn [fsm_eqb pret] in Y. unfold release_conn, pdo in Y. cbn [fst] in Y. rewrite Y. sx. auto. }
    rewrite A in E3. repeat split; try tauto.
  - right. split.
    + intros (K1 & K2 & K3 & K4). apply no_data_iff in K2. unfold next_in in K. rewrite K1, K2, K3, K4, !Z.eqb_refl in K. discriminate K.
    + assert (X : tcp_fsm (EPacket p) s = (s, Ok tt) \/ tcp_fsm (EPacket p) s = change_state CLOSED s).
      { unfold tcp_fsm. cbn [fsm]. rewrite ST. unfold fsm_syn_rcvd, pwhen, pif. rewrite K. destruct (_ || _); [right|left]; reflexivity. }
      destruct X as [-> | ->]; [left; reflexivity|right]. rewrite <- A. apply change_st.
Qed.
Lemma rcvd_call E q c s : half_open E q s -> fst (tcp_fsm (ECall c) s) = s \/ st (fst (tcp_fsm (ECall c) s)) = FIN_WAIT_1 /\ effs (fst (tcp_fsm (ECall c) s)) = E.
Proof.
  intros ((A & _) & ST). unfold tcp_fsm. cbn [fsm]. rewrite ST. destruct c; cbn [fsm_syn_rcvd pret fst]; [auto|auto|]. right.
  rewrite <- A. apply change_st.
Qed.

(** ** What a statement of a session may do *)
Definition phase (s : sess) : Prop :=
  (st s = LISTEN /\ effs s = [] /\ ooo s = [] /\ snd_una s = snd_ini s /\ snd_nxt s = snd_ini s /\ tx_to s = [] /\ sent s = [] /\ snd_max s = snd_ini s) \/
  (exists p, half_open [FFork p] (d_seq p + 1) s) \/
  (st s <> LISTEN /\ st s <> SYN_RCVD).
Inductive kind (e : event) (s s' : sess) : Prop :=
| k_quiet : effs s' = effs s -> (st s' = st s \/ st s' <> LISTEN /\ st s' <> SYN_RCVD) -> (st s = SYN_RCVD -> st s' <> ESTABLISHED) -> phase s' -> kind e s s'
| k_fork p : e = EPacket p -> st s = LISTEN -> valid_syn p -> s' = moved SYN_RCVD (adopt p s) -> phase s' -> kind e s s'
| k_accept p : e = EPacket p -> st s = SYN_RCVD -> last_ack p s -> st s' = ESTABLISHED -> effs s' = effs s ++ [FAccept] ->
    sent s' = sent s -> snd_ini s' = snd_ini s -> rcv_nxt s' = rcv_nxt s -> kind e s s'.
Lemma phase_adopt p s : st s = LISTEN -> effs s = [] -> ooo s = [] -> snd_una s = snd_ini s -> snd_nxt s = snd_ini s -> valid_syn p -> phase (moved SYN_RCVD (adopt p s)).
Proof.
  intros ST E O U N (V & _). right. left. exists p. split; [|reflexivity]. unfold is_syn in V. destruct (d_syn p) eqn:SY; [|discriminate V].
  unfold half, moved, adopt. sx. rewrite E, SY. cbn [b2z app]. repeat split; auto.
Qed.
Lemma phase_half E s : half_open E (rcv_nxt s) s -> phase s -> exists p, E = [FFork p] /\ half_open [FFork p] (d_seq p + 1) s.
Proof.
  intros (A & ST) [P|[(p & P)|P]]; [destruct P; congruence| |tauto]. exists p. split; [|exact P]. destruct P as ((B & _) & _). destruct A as (A & _). congruence.
Qed.
Lemma fsm_kind e s : e <> ECall Listen -> phase s -> kind e s (fst (tcp_fsm e s)).
Proof.
  intros NL [(ST & E & O & U & N & X1 & X2 & X3)|[(p & H)|(A & B)]].
  - destruct (listen_step e s ST) as [(p & -> & V & R)|(NV & R1 & R2 & R3)].
    + rewrite R. apply k_fork with p; auto. apply phase_adopt; auto.
    + apply k_quiet; [exact R1| | |].
      * destruct R3 as [(_ & ->)|(_ & ->)]; [auto|right; split; discriminate].
      * rewrite ST. discriminate.
      * destruct R3 as [(_ & ->)|(_ & C)]; [left; repeat split; auto|right; right; rewrite C; split; discriminate].
  - assert (ST : st s = SYN_RCVD) by apply H. assert (EF : effs s = [FFork p]) by apply H. destruct e as [q|c|].
    + destruct (rcvd_packet _ _ q s H) as [(L & s' & R & R1 & R2 & R3 & R4 & R5 & R6)|(_ & R)].
      * rewrite R. cbn [fst]. apply k_accept with q; auto. rewrite EF. exact R2.
      * apply k_quiet; destruct R as [R|(R1 & R2)]; try (rewrite R; auto; try (rewrite ST; discriminate); right; left; exists p; exact H); try congruence.
        -- right. rewrite R1. split; discriminate.
        -- right. right. rewrite R1. split; discriminate.
    + destruct (rcvd_call _ _ c s H) as [R|(R1 & R2)].
      * rewrite R. apply k_quiet; auto; [rewrite ST; discriminate|]. right. left. exists p. exact H.
      * apply k_quiet; [congruence|right; rewrite R1; split; discriminate|rewrite R1; discriminate|]. right. right. rewrite R1. split; discriminate.
    + destruct (half_timer _ _ s H) as [R|(R1 & R2)].
      * apply k_quiet; [rewrite EF; apply R|left; rewrite ST; apply R|intros _; destruct R as (_ & R); rewrite R; discriminate|]. right. left. exists p. exact R.
      * apply k_quiet; [congruence|right; rewrite R2; split; discriminate|rewrite R2; discriminate|]. right. right. rewrite R2. split; discriminate.
  - assert (P : past (effs s) (fst (tcp_fsm e s))) by (apply past_fsm; [exact NL|split; [reflexivity|auto]]). destruct P as (P1 & P2).
    apply k_quiet; [exact P1|auto|congruence|right; right; exact P2].
Qed.
Lemma tick_kind s : phase s -> kind ETimer s (fst (tick s)).
Proof.
  intros H. unfold tick. rewrite pbind_do. set (s1 := set_tmr _ s).
  assert (K : kind ETimer s1 (fst (tcp_fsm ETimer s1))) by (apply fsm_kind; [discriminate|exact H]).
  inversion K as [K1 K2 K3 K4|p K1|p K1]; [|discriminate K1..]. apply k_quiet; assumption.
Qed.
