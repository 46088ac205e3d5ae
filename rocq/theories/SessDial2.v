(** How connect() ends, continued: its result, and that it ends. *)
From Verif Require Import Base BaseLemmas AddrModel TcpModel StackModel StackRxModel SessModel SessCallModel SpecSess SpecSess2 SpecSess3 SessProofs SessTrace SessRun SessInv SessTx SessReset SessKeep SessWin SessTick SessRetry SessHead SessHand SessOoo SessQueue SessClose SpecSess5 SessDial.

Lemma happened_more allowed c0 o c1 c c' : happened allowed c0 o c1 c -> reach allowed c c' -> happened allowed c0 o c1 c'.
Proof. intros (A & B & C) D. split; [exact A|]. split; [exact B|]. eapply reach_trans; eauto. Qed.
Lemma closed_reach (allowed : op -> conn -> Prop) c c' : reach allowed c c' -> st (c_sess c) = CLOSED -> st (c_sess c') = CLOSED /\ ev_conn (c_sess c') = ev_conn (c_sess c) /\ conn_err (c_sess c') = conn_err (c_sess c).
Proof.
  intros R S. induction R as [|c2 o R IH A]; [auto|]. destruct IH as (A1 & A2 & A3). destruct (closed_op o c2 A1) as (B1 & B2 & B3). split; [exact B1|split; congruence].
Qed.
Lemma wakes_pos s : connect_wakes s = true -> 0 < ev_conn s.
Proof. unfold connect_wakes. intros H. apply Z.ltb_lt. exact H. Qed.
Lemma err_eq a b : err_eqb a b = true <-> a = b.
Proof. destruct a, b; cbn; split; congruence. Qed.
(** once answered, the session is not refused any more *)
Definition live (c : conn) : Prop := pos NoError (c_sess c) \/ pos TimedOut (c_sess c).
Lemma live_op o c : live c -> live (fst (op_do o c)).
Proof.
  intros P. assert (OT : o = OTick \/ (exists p, o = OSegment p) \/ o = OClose \/ ((exists d, o = OSend d) \/ (exists i n, o = ORead i n)))
    by (destruct o as [|q| |d|i n]; [left; reflexivity|right; left; exists q; reflexivity|right; right; left; reflexivity|do 3 right; left; exists d; reflexivity|do 4 right; exists i, n; reflexivity]).
  destruct OT as [->|[[q ->]|[->|O]]].
  - pose proof (tick_fst c) as [TF _]. unfold live. rewrite TF. destruct P as [P|P].
    + assert (P' : pos NoError (set_tmr (tdec (tmr (c_sess c))) (c_sess c))) by exact P. apply pos_tick in P'. cbv zeta in P'. tauto.
    + right. unfold tcp_fsm. apply pos_fsm; [discriminate|reflexivity|exact P].
  - destruct P as [P|P]; [left|right]; cbn [op_do with_sess fst c_sess]; unfold tcp_fsm; (apply pos_fsm; [discriminate|discriminate|exact P]).
  - destruct P as [P|P]; [left|right]; cbn [op_do with_sess fst c_sess]; unfold tcp_fsm; (apply pos_fsm; [congruence|discriminate|exact P]).
  - destruct P as [P|P]; [left|right]; apply other_op; auto.
Qed.
Lemma live_reach (allowed : op -> conn -> Prop) c c' : reach allowed c c' -> live c -> live c'.
Proof. intros R L. induction R as [|c2 o R IH A]; [exact L|]. apply live_op. exact IH. Qed.
Definition result_of (allowed : op -> conn -> Prop) (iss : Z) (r : connect_end) (c0 c1 c4 : conn) : Prop :=
  match r with
  | Connected => exists c p, happened allowed c0 (OSegment p) c c1 /\ st (c_sess c) = SYN_SENT /\ st (c_sess (fst (op_do (OSegment p) c))) = ESTABLISHED /\ is_synack p = true /\ (d_ackn p <> iss -> accepts iss p /\ syn_out iss c)
  | ConnectRefused => exists c p, happened allowed c0 (OSegment p) c c1 /\ st (c_sess c) = SYN_SENT /\ is_rstack p = true /\ (d_ackn p <> iss -> refuses iss p /\ syn_out iss c)
  | ConnectTimedOut => exists c, happened allowed c0 OTick c c4 /\ abandons c
  end.
Lemma ends_result (allowed : op -> conn -> Prop) iss r c0 c1 c2 c3 c4 : dialed iss c0 -> ends_with allowed r c0 c1 c2 c3 c4 -> result_of allowed iss r c0 c1 c4.
Proof.
  intros D (R1 & W & R2 & R3 & R4 & E). apply wakes_pos in W. pose proof (told_reach allowed iss c0 c1 D R1) as T.
  pose proof (reach_trans _ _ _ _ R1 R2) as R02. pose proof (reach_trans _ _ _ _ R02 R3) as R03. pose proof (reach_trans _ _ _ _ R03 R4) as R04.
  assert (R13 : reach allowed c1 c3) by (eapply reach_trans; eauto). assert (R14 : reach allowed c1 c4) by (eapply reach_trans; eauto).
  unfold connect_ends in E. destruct T as [T|[(S & EV & _)|[(c & p & H & S1 & RF & RK & P & S)|[(c & H & S1 & AB & P & S)|(c & p & H & S1 & AC & SK & ES & P)]]]].
  - destruct T as (_ & X & _). lia.
  - lia.
  - destruct (closed_reach allowed c1 c2 R2 S) as (_ & _ & X). rewrite S in E. rewrite X in E. destruct P as (P & _). rewrite P in E. cbn in E. subst r. exists c, p. auto.
  - destruct (closed_reach allowed c1 c2 R2 S) as (_ & _ & X). destruct (closed_reach allowed c1 c3 R13 S) as (Y & _). destruct (closed_reach allowed c1 c4 R14 S) as (_ & _ & Z0).
    rewrite S, X, Y, Z0 in E. destruct P as (P & _). rewrite P in E. cbn in E. subst r. exists c. split; [eapply happened_more; eauto|exact AB].
  - assert (L1 : live c1) by (destruct P as [P|[P _]]; [left|right]; exact P). pose proof (live_reach allowed c1 c2 R2 L1) as L2. pose proof (live_reach allowed c1 c4 R14 L1) as L4.
    assert (X : err_eqb (conn_err (c_sess c2)) Refused = false) by (destruct L2 as [(L2 & _)|(L2 & _)]; rewrite L2; reflexivity). rewrite X, andb_false_r in E.
    destruct (negb _ && err_eqb (conn_err (c_sess c4)) TimedOut) eqn:Y; [|subst r; exists c, p; auto]. subst r. apply andb_true_iff in Y. destruct Y as [_ Y]. apply err_eq in Y.
    pose proof (told_reach allowed iss c0 c4 D R04) as T. destruct T as [T|[(S & EV & _)|[(c' & p' & _ & _ & _ & _ & (Q & _) & _)|[(c' & H' & _ & AB & _)|(c' & p' & _ & _ & _ & _ & _ & [(Q & _)|(_ & c5 & H5 & AB)])]]]].
    + exfalso. destruct T as (T & _). destruct L4 as [(_ & _ & L4)|(_ & _ & L4)]; contradiction.
    + exfalso. destruct L4 as [(_ & L4 & _)|(_ & L4 & _)]; lia.
    + congruence.
    + exists c'. auto.
    + congruence.
    + exists c5. auto.
Qed.

(** * It ends *)
Lemma dialed_opened iss c : dialed iss c -> opened iss c.
Proof. intros (I & lip & lport & rip & rport & timers & N & E). split; [exact I|]. exists Connect, lip, lport, rip, rport, timers. auto. Qed.
Definition woken (c : conn) : Prop := (st (c_sess c) = CLOSED /\ 0 < ev_conn (c_sess c)) \/ live c.
Lemma woken_op o c : woken c -> woken (fst (op_do o c)).
Proof.
  intros [[S E]|L]; [|right; apply live_op; exact L]. left. destruct (closed_op o c S) as (A & B & _). split; [exact A|lia].
Qed.
Lemma woken_run l : forall c, woken c -> 0 < ev_conn (c_sess (fst (op_run l c))).
Proof.
  induction l as [|o l IH]; intros c W; [|rewrite op_run_cons; apply IH, woken_op, W]. destruct W as [[_ E]|[(_ & E & _)|(_ & E & _)]]; exact E.
Qed.
(** a segment that does not end the wait changes nothing *)
Lemma dial_segment iss c0 c p : dialed iss c0 -> ports_ok c0 -> iss + 2 < 2 ^ 32 -> reach (roomy_op iss) c0 c -> roomy_op iss (OSegment p) c -> dial iss (c_sess c) ->
  c_sess (fst (op_do (OSegment p) c)) = c_sess c \/ (d_ackn p = snd_nxt (c_sess c) /\ woken (fst (op_do (OSegment p) c))).
Proof.
  intros DI PO IB R RP D. pose proof (dial_packet iss p (c_sess c) D) as X. cbv zeta in X. change (fst (tcp_fsm (EPacket p) (c_sess c))) with (c_sess (fst (op_do (OSegment p) c))) in X.
  destruct X as [X|[(X1 & X2 & X3 & X4 & X5)|(X1 & X2 & X3 & X4 & X5)]]; [|right; split; [exact X3|right; left; exact X4]|right; split; [exact X3|left; split; [exact X5|apply X4]]].
  pose proof D as (ST & EC & CE & OO & RG & NI & UB & NB & SY). destruct (tick_reach iss c0 c (dialed_opened _ _ DI) PO IB R) as [(TW & TH & TQ & TR) B].
  destruct (is_synack p && ((d_ackn p =? snd_nxt (c_sess c)) && no_data p)) eqn:A.
  - exfalso. apply andb_true_iff in A. destruct A as [A1 A2]. apply andb_true_iff in A2. destruct A2 as [A2 A3]. apply Z.eqb_eq in A2.
    destruct RP as [_ (F & _)]. destruct F as (_ & _ & _ & _ & F1 & F2 & _). pose proof (zlen_nonneg (d_data p)). destruct DI as [DI _].
    destruct (synack_taken p (c_sess c) ST A1 A3 A2 ltac:(lia) OO TH F1 ltac:(lia) ltac:(lia)) as (s' & Y & Z0 & _).
    destruct X as (X & _). cbn [op_do with_sess fst c_sess] in X. rewrite Y in X. cbn [fst] in X. congruence.
  - destruct (is_rstack p && ((d_seq p =? 0) && (d_ackn p =? snd_nxt (c_sess c)))) eqn:B1.
    + exfalso. destruct X as (X & _). apply andb_true_iff in B1. destruct B1 as [B1 B2]. apply andb_true_iff in B2. destruct B2 as [B2 B3]. apply Z.eqb_eq in B2, B3.
      destruct (refused p (c_sess c) ST B1 B2 B3 RG) as (s' & Y & Z0 & _). cbn [op_do with_sess fst c_sess] in X. rewrite Y in X. cbn [fst] in X. congruence.
    + left. cbn [op_do with_sess fst c_sess]. unfold tcp_fsm. cbn [fsm]. rewrite ST. unfold fsm_syn_sent, pif, pwhen, pif. rewrite A, B1. reflexivity.
Qed.
Lemma dial_sane iss c0 c : reach (dial_op iss) c0 c -> reach (roomy_op iss) c0 c.
Proof. intros R. induction R as [|c o R IH A]; [constructor|apply reach_op; [exact IH|apply A]]. Qed.
(** one operation *)
Lemma dial_next iss c0 c o : dialed iss c0 -> reach (dial_op iss) c0 c -> dial_op iss o c -> dial iss (c_sess (fst (op_do o c))) \/ woken (fst (op_do o c)).
Proof.
  intros DI R A. pose proof (told_reach (dial_op iss) iss c0 (fst (op_do o c)) DI (reach_op _ _ _ _ R A)) as T.
  destruct T as [T|[(S & EV & c1 & (_ & (_ & PA) & _) & ST)|[(c1 & p & _ & _ & _ & _ & P & S)|[(c1 & _ & _ & _ & P & S)|(c1 & p & _ & _ & _ & _ & _ & P)]]]].
  - left. exact T.
  - exfalso. apply PA; [reflexivity|exact ST].
  - right. left. split; [exact S|apply P].
  - right. left. split; [exact S|apply P].
  - right. right. destruct P as [P|[P _]]; [left|right]; exact P.
Qed.
Lemma dial_wait iss c0 : dialed iss c0 -> ports_ok c0 -> iss + 2 < 2 ^ 32 -> forall l c k x, reach (dial_op iss) c0 c -> all_of (dial_op iss) l c -> dial iss (c_sess c) ->
  waits k x (c_sess c) -> 0 <= k <= 3 -> 0 < x -> gives_up k x <= ticks l -> 0 < ev_conn (c_sess (fst (op_run l c))).
Proof.
  intros DI PO IB. pose proof (dialed_opened iss c0 DI) as O. induction l as [|o l IH]; intros c k x R A D W K X L.
  - exfalso. change (ticks []) with 0 in L. unfold gives_up in L. assert (C : k = 0 \/ k = 1 \/ k = 2 \/ k = 3) by lia. destruct C as [->|[->|[->| ->]]]; cbn in L; lia.
  - destruct A as [A1 A2]. rewrite op_run_cons. assert (R1 : reach (dial_op iss) c0 (fst (op_do o c))) by (apply reach_op; assumption).
    destruct (dial_next iss c0 c o DI R A1) as [D1|WK]; [|apply woken_run; exact WK].
    rewrite ticks_cons in *. pose proof (ticks_pos l) as TP. pose proof (timers_reach iss _ c0 c O R) as TO. pose proof (dial_sane iss c0 c R) as RR.
    pose proof (reach_good true iss (roomy_op iss) c0 c O (roomy_ok iss) RR) as [P I]. destruct (tick_reach iss c0 c O PO IB RR) as [T B].
    assert (CASE : o = OTick \/ o <> OTick) by (destruct o; auto; right; discriminate). destruct CASE as [-> | NT].
    + assert (Q : c_sess (fst (op_do OTick c)) = fst (tick (c_sess c))) by reflexivity.
      assert (W0 : waitu (snd_una (c_sess c)) k x (transmissions (snd_una (c_sess c)) (c_sess c)) (c_sess c)) by (split; [exact W|split; reflexivity]).
      assert (CX : 1 < x \/ x = 1) by lia. destruct CX as [CX | ->].
      * pose proof (tick_waits _ k x _ (c_sess c) TO W0 CX) as [W1 _]. rewrite <- Q in W1. apply (IH _ k (x - 1)); auto; [lia|unfold gives_up in *; lia].
      * assert (K3 : k = 3 \/ k <> 3) by lia. destruct K3 as [-> | K3].
        { exfalso. assert (TD : told (c_sess c) (c_sess (fst (op_do OTick c)))) by (rewrite Q; apply (tick_ends _ (zlen (c_written c))); auto; [apply zlen_nonneg|rewrite I; exact B]).
          destruct TD as (TD & _). destruct D1 as (D1 & _). congruence. }
        assert (W1 : waits (k + 1) (1000 * Z.shiftl 1 (k + 1)) (c_sess (fst (op_do OTick c)))).
        { rewrite Q. eapply (tick_resends _ k _ (zlen (c_written c))); eauto; [apply zlen_nonneg|rewrite I; exact B]. }
        assert (EX : gives_up (k + 1) (1000 * Z.shiftl 1 (k + 1)) = gives_up k 1 - 1 /\ 0 < 1000 * Z.shiftl 1 (k + 1)).
        { assert (C : k = 0 \/ k = 1 \/ k = 2) by lia. destruct C as [->|[->| ->]]; split; reflexivity. }
        destruct EX as [EX1 EX2]. apply (IH _ (k + 1) (1000 * Z.shiftl 1 (k + 1))); auto; lia.
    + assert (Z0 : (match o with OTick => 1 | _ => 0 end) = 0) by (destruct o; congruence). rewrite Z0 in *. rewrite Z.add_0_l in *.
      assert (W1 : waits k x (c_sess (fst (op_do o c)))).
      { destruct o as [|p| |d|i n].
        - contradiction.
        - destruct (dial_segment iss c0 c p DI PO IB RR (proj1 A1) D) as [E|[_ E]]; [rewrite E; exact W|].
          exfalso. destruct D1 as (D1 & D2 & _). destruct E as [[E _]|[(_ & E & _)|(_ & E & _)]]; [congruence|lia|lia].
        - exfalso. destruct A1 as [_ A1]. apply A1; [reflexivity|apply D].
        - apply (wait_other (OSend d) (snd_una (c_sess c)) k x (transmissions (snd_una (c_sess c)) (c_sess c))); [discriminate|exact Logic.I|split; [exact W|split; reflexivity]].
        - apply (wait_other (ORead i n) (snd_una (c_sess c)) k x (transmissions (snd_una (c_sess c)) (c_sess c))); [discriminate|exact Logic.I|split; [exact W|split; reflexivity]]. }
      apply (IH _ k x); auto.
Qed.
(** before the first tick *)
Definition unsent (iss : Z) (s : sess) : Prop := dial iss s /\ tx_to s = [] /\ snd_una s = iss /\ snd_nxt s = iss /\ snd_ewn s = 536 /\ sent s = [].
Lemma unsent_start iss c : dialed iss c -> unsent iss (c_sess c).
Proof. intros (I & lip & lport & rip & rport & timers & N & ->). unfold unsent, dial. cbn. repeat split; auto; lia. Qed.
Lemma unsent_tick iss c0 c : dialed iss c0 -> ports_ok c0 -> iss + 2 < 2 ^ 32 -> reach (roomy_op iss) c0 c -> unsent iss (c_sess c) -> waitu iss 0 1000 1 (c_sess (fst (op_do OTick c))).
Proof.
  intros DI PO IB R (D & TO & U & N & E & S). pose proof D as (ST & EC & CE & OO & RG & NI & UB & NB & SY). destruct (tick_reach iss c0 c (dialed_opened _ _ DI) PO IB R) as [(TW & TH & TQ & TR) B].
  cbn [op_do with_sess fst c_sess]. destruct DI as [DI _]. rewrite syn_tick by (auto; lia). cbn [fst]. rewrite NI.
  unfold waitu, waits, transmissions. cbn [pkt st snd_una snd_nxt tx_to tmr sent set_tmr b2z orb negb]. change (zlen (@nil Z)) with 0. cbn [Z.eqb negb orb]. rewrite ST, U, TO, S.
  unfold dgetd. cbn [dget]. rewrite dget_set, Z.eqb_refl, tget_set. rewrite tkey_refl.
  split; [split; [cbn; auto|split; [lia|split; reflexivity]]|split; [reflexivity|]]. cbn [app filter segment x_seq x_data x_fsyn x_ffin]. rewrite Z.eqb_refl. reflexivity.
Qed.
Lemma dial_ends iss c0 : dialed iss c0 -> ports_ok c0 -> iss + 2 < 2 ^ 32 -> forall l c, reach (dial_op iss) c0 c -> unsent iss (c_sess c) -> all_of (dial_op iss) l c ->
  15001 <= ticks l -> 0 < ev_conn (c_sess (fst (op_run l c))).
Proof.
  intros DI PO IB. induction l as [|o l IH]; intros c R U A L; [change (ticks []) with 0 in L; lia|].
  destruct A as [A1 A2]. rewrite op_run_cons. assert (R1 : reach (dial_op iss) c0 (fst (op_do o c))) by (apply reach_op; assumption).
  destruct (dial_next iss c0 c o DI R A1) as [D1|WK]; [|apply woken_run; exact WK]. rewrite ticks_cons in L. pose proof (dial_sane iss c0 c R) as RR.
  assert (KEEP : forall o, (exists d, o = OSend d) \/ (exists i n, o = ORead i n) -> unsent iss (c_sess (fst (op_do o c)))).
  { intros o' O'. apply other_op; auto. }
  destruct o as [|p| |d|i n].
  - destruct (unsent_tick iss c0 c DI PO IB RR U) as [W _]. apply (dial_wait iss c0 DI PO IB l _ 0 1000); auto; try lia. change (gives_up 0 1000) with 15000. lia.
  - apply IH; auto. destruct U as (D & X). destruct (dial_segment iss c0 c p DI PO IB RR (proj1 A1) D) as [E|[E _]]; [rewrite E; split; assumption|].
    exfalso. destruct X as (_ & _ & N & _). destruct A1 as [[[A1 _] _] _]. congruence.
  - exfalso. destruct A1 as [_ A1]. apply A1; [reflexivity|apply U].
  - apply IH; [exact R1|apply KEEP; left; eauto|exact A2|lia].
  - apply IH; [exact R1|apply KEEP; right; eauto|exact A2|lia].
Qed.
(** nothing comes in *)
Lemma quiet_run iss c0 l : forall c, reach (quiet_dial iss) c0 c -> all_of (quiet_dial iss) l c -> reach (quiet_dial iss) c0 (fst (op_run l c)).
Proof. induction l as [|o l IH]; intros c R A; [exact R|]. destruct A as [A1 A2]. rewrite op_run_cons. apply IH; [apply reach_op; assumption|exact A2]. Qed.
Lemma quiet_sane iss c0 c : reach (quiet_dial iss) c0 c -> reach (roomy_op iss) c0 c.
Proof. intros R. induction R as [|c o R IH A]; [constructor|apply reach_op; [exact IH|apply A]]. Qed.
Lemma dial_quiet iss c0 l : dialed iss c0 -> ports_ok c0 -> iss + 2 < 2 ^ 32 -> all_of (quiet_dial iss) l c0 -> 1 <= ticks l <= 15000 ->
  let c1 := fst (op_run l c0) in transmissions iss (c_sess c1) = 1 + resends 0 1000 (ticks l - 1) /\ st (c_sess c1) = SYN_SENT /\ ev_conn (c_sess c1) = 0 /\ (ticks l = 15000 -> told (c_sess c1) (c_sess (fst (op_do OTick c1)))).
Proof.
  intros DI PO IB. pose proof (dialed_opened iss c0 DI) as O.
  assert (G : forall l c, reach (quiet_dial iss) c0 c -> unsent iss (c_sess c) -> all_of (quiet_dial iss) l c -> 1 <= ticks l <= 15000 ->
    let c1 := fst (op_run l c) in exists k x, waitu iss k x (1 + resends 0 1000 (ticks l - 1)) (c_sess c1) /\ 0 <= k <= 3 /\ 0 < x /\ gives_up k x = 15001 - ticks l).
  { clear l. induction l as [|o l IH]; intros c R U A L; [change (ticks []) with 0 in L; lia|].
    destruct A as [A1 A2]. cbv zeta. rewrite op_run_cons. rewrite ticks_cons in L |- *. pose proof (quiet_sane iss c0 c R) as RR.
    assert (R1 : reach (quiet_dial iss) c0 (fst (op_do o c))) by (apply reach_op; assumption).
    destruct o as [|p| |d|i n].
    - pose proof (unsent_tick iss c0 c DI PO IB RR U) as W. destruct (silence iss c0 iss O PO IB l (fst (op_do OTick c)) 0 1000 1) as (k & x & V1 & V2 & V3 & V4 & V5); auto; try lia.
      + apply reach_op; [exact RR|apply A1].
      + change (gives_up 0 1000) with 15000. lia.
      + change (gives_up 0 1000) with 15000 in V5. replace (1 + ticks l - 1) with (ticks l) by lia. exists k, x. split; [exact V1|]. split; [lia|]. split; [lia|lia].
    - exfalso. destruct A1 as [_ A1]. exact A1.
    - exfalso. destruct A1 as [_ [A1 _]]. apply A1. apply U.
    - apply IH; [exact R1|apply other_op; auto; left; eauto|exact A2|lia].
    - apply IH; [exact R1|apply other_op; auto; right; eauto|exact A2|lia]. }
  intros A L c1. destruct (G l c0 ltac:(constructor) (unsent_start iss c0 DI) A L) as (k & x & (W & U & T) & K & X & E). fold c1 in W, U, T. split; [exact T|].
  assert (R1 : reach (quiet_dial iss) c0 c1) by (apply quiet_run; [constructor|exact A]).
  assert (D : dial iss (c_sess c1)).
  { pose proof (told_reach (quiet_dial iss) iss c0 c1 DI R1) as TL.
    destruct TL as [TL|[(S & _)|[(c2 & p & _ & _ & _ & _ & _ & S)|[(c2 & _ & _ & _ & _ & S)|(c2 & p & (_ & [_ HF] & _) & _)]]]]; [exact TL|..|destruct HF];
      (exfalso; destruct W as [W _]; rewrite S in W; cbn in W; repeat (destruct W as [W|W]; [discriminate W|]); exact W). }
  split; [apply D|]. split; [apply D|]. intros L1.
  assert (E1 : k = 3 /\ x = 1).
  { rewrite L1 in E. unfold gives_up in E. assert (C : k = 0 \/ k = 1 \/ k = 2 \/ k = 3) by lia. destruct C as [->|[->|[->| ->]]]; cbn in E; lia. }
  destruct E1 as [-> ->]. pose proof (quiet_sane iss c0 c1 R1) as RR.
  pose proof (timers_reach iss _ c0 c1 O R1) as TO. pose proof (reach_good true iss (roomy_op iss) c0 c1 O (roomy_ok iss) RR) as [P I]. destruct (tick_reach iss c0 c1 O PO IB RR) as [TK B].
  cbn [op_do]. unfold with_sess. cbn [fst c_sess]. apply (tick_ends _ (zlen (c_written c1))); auto; [apply zlen_nonneg|rewrite I; exact B].
Qed.

(** * What the answers do *)
Definition waiting (iss : Z) (c : conn) : Prop := unsent iss (c_sess c) \/ (dial iss (c_sess c) /\ exists k x, waits k x (c_sess c) /\ 0 <= k <= 3 /\ 0 < x) \/ woken c.
Lemma waiting_reach iss c0 c : dialed iss c0 -> ports_ok c0 -> iss + 2 < 2 ^ 32 -> reach (dial_op iss) c0 c -> waiting iss c.
Proof.
  intros DI PO IB R. pose proof (dialed_opened iss c0 DI) as O. induction R as [|c o R IH A]; [left; apply unsent_start; exact DI|].
  pose proof (dial_sane iss c0 c R) as RR.
  destruct IH as [U|[(D & k & x & W & K & X)|WK]]; [| |right; right; apply woken_op; exact WK].
  - assert (KEEP : forall o, (exists d, o = OSend d) \/ (exists i n, o = ORead i n) -> waiting iss (fst (op_do o c))).
    { intros o' O'. left. apply other_op; auto. }
    destruct (dial_next iss c0 c o DI R A) as [D1|WK]; [|right; right; exact WK]. destruct o as [|p| |d|i n].
    + right. left. split; [exact D1|]. destruct (unsent_tick iss c0 c DI PO IB RR U) as [W _]. exists 0, 1000. split; [exact W|lia].
    + left. destruct U as (D & Y). destruct (dial_segment iss c0 c p DI PO IB RR (proj1 A) D) as [E|[E _]]; [rewrite E; split; assumption|].
      exfalso. destruct Y as (_ & _ & N & _). destruct A as [[[A _] _] _]. congruence.
    + exfalso. destruct A as [_ A]. apply A; [reflexivity|apply U].
    + apply KEEP. left. eauto.
    + apply KEEP. right. eauto.
  - destruct (dial_next iss c0 c o DI R A) as [D1|WK]; [|right; right; exact WK]. right. left. split; [exact D1|].
    pose proof (timers_reach iss _ c0 c O R) as TO. pose proof (reach_good true iss (roomy_op iss) c0 c O (roomy_ok iss) RR) as [P I]. destruct (tick_reach iss c0 c O PO IB RR) as [T B].
    assert (W0 : waitu (snd_una (c_sess c)) k x (transmissions (snd_una (c_sess c)) (c_sess c)) (c_sess c)) by (split; [exact W|split; reflexivity]).
    destruct o as [|p| |d|i n].
    + assert (Q : c_sess (fst (op_do OTick c)) = fst (tick (c_sess c))) by reflexivity. assert (CX : 1 < x \/ x = 1) by lia. destruct CX as [CX | ->].
      * pose proof (tick_waits _ k x _ (c_sess c) TO W0 CX) as [W1 _]. rewrite <- Q in W1. exists k, (x - 1). split; [exact W1|lia].
      * assert (K3 : k = 3 \/ k <> 3) by lia. destruct K3 as [-> | K3].
        { exfalso. assert (TD : told (c_sess c) (c_sess (fst (op_do OTick c)))) by (rewrite Q; apply (tick_ends _ (zlen (c_written c))); auto; [apply zlen_nonneg|rewrite I; exact B]).
          destruct TD as (TD & _). destruct D1 as (D1 & _). congruence. }
        exists (k + 1), (1000 * Z.shiftl 1 (k + 1)). split.
        { rewrite Q. eapply (tick_resends _ k _ (zlen (c_written c))); eauto; [apply zlen_nonneg|rewrite I; exact B]. }
        split; [lia|]. assert (C : k = 0 \/ k = 1 \/ k = 2) by lia. destruct C as [->|[->| ->]]; reflexivity.
    + exists k, x. split; [|lia]. destruct (dial_segment iss c0 c p DI PO IB RR (proj1 A) D) as [E|[_ E]]; [rewrite E; exact W|].
      exfalso. destruct D1 as (D1 & D2 & _). destruct E as [[E _]|[(_ & E & _)|(_ & E & _)]]; [congruence|lia|lia].
    + exfalso. destruct A as [_ A]. apply A; [reflexivity|apply D].
    + exists k, x. split; [|lia]. apply (wait_other (OSend d) _ k x _ c) in W0; [apply W0|discriminate|exact Logic.I].
    + exists k, x. split; [|lia]. apply (wait_other (ORead i n) _ k x _ c) in W0; [apply W0|discriminate|exact Logic.I].
Qed.
(** the session waits for the answer to its SYN *)
Lemma waiting_syn iss c0 c : dialed iss c0 -> ports_ok c0 -> iss + 2 < 2 ^ 32 -> reach (dial_op iss) c0 c -> st (c_sess c) = SYN_SENT -> syn_out iss c ->
  dial iss (c_sess c) /\ snd_nxt (c_sess c) = iss + 1.
Proof.
  intros DI PO IB R S (t & T & _). destruct (waiting_reach iss c0 c DI PO IB R) as [U|[(D & k & x & W & _)|[[E _]|[(_ & _ & E)|(_ & _ & E)]]]]; [..|congruence|contradiction|contradiction].
  - destruct U as (_ & _ & _ & _ & _ & U). rewrite U in T. destruct T.
  - split; [exact D|]. destruct D as (_ & _ & _ & _ & _ & _ & D1 & D2 & _). destruct W as (_ & W & _). lia.
Qed.
(** an error after the answer comes from a tick that gave up *)
Lemma gave_up c c' : pos NoError (c_sess c) -> reach any_op c c' -> conn_err (c_sess c') = TimedOut -> exists c5, happened any_op c OTick c5 c' /\ abandons c5.
Proof.
  intros P R. assert (G : pos NoError (c_sess c') \/ exists c5, happened any_op c OTick c5 c' /\ abandons c5).
  { induction R as [|c2 o R IH A]; [left; exact P|]. destruct IH as [IH|(c5 & H & AB)]; [|right; exists c5; split; [apply happened_op; assumption|exact AB]].
    assert (OT : o = OTick \/ (exists p, o = OSegment p) \/ o = OClose \/ ((exists d, o = OSend d) \/ (exists i n, o = ORead i n)))
      by (destruct o as [|q| |d|i n]; [left; reflexivity|right; left; exists q; reflexivity|right; right; left; reflexivity|do 3 right; left; exists d; reflexivity|do 4 right; exists i, n; reflexivity]).
    destruct OT as [->|[[q ->]|[->|O']]].
    - pose proof (tick_fst c2) as [TF _]. assert (P' : pos NoError (set_tmr (tdec (tmr (c_sess c2))) (c_sess c2))) by exact IH. apply pos_tick in P'. cbv zeta in P'. rewrite <- TF in P'.
      destruct P' as [P'|[P' X]]; [left; exact P'|]. right. exists c2. split; [split; [exact R|split; [exact A|constructor]]|]. split; [apply IH|]. split; [apply P'|exact X].
    - left. cbn [op_do with_sess fst c_sess]. unfold tcp_fsm. apply pos_fsm; [discriminate|discriminate|exact IH].
    - left. cbn [op_do with_sess fst c_sess]. unfold tcp_fsm. apply pos_fsm; [congruence|discriminate|exact IH].
    - left. apply other_op; auto. }
  intros E. destruct G as [(G & _)|G]; [congruence|exact G].
Qed.
Lemma refused_result iss c0 c p : dialed iss c0 -> ports_ok c0 -> iss + 2 < 2 ^ 32 -> reach (dial_op iss) c0 c -> st (c_sess c) = SYN_SENT -> syn_out iss c -> refuses iss p ->
  let c' := fst (op_do (OSegment p) c) in st (c_sess c') = CLOSED /\ reg (c_sess c') = false /\ sent (c_sess c') = sent (c_sess c) /\ result_is ConnectRefused c'.
Proof.
  intros DI PO IB R S SO (F & Q & AK) c'. destruct (waiting_syn iss c0 c DI PO IB R S SO) as [D N].
  assert (RK : is_rstack p = true) by (unfold flags_of in F; unfold is_rstack; injection F as -> -> -> ->; reflexivity).
  destruct (refused p (c_sess c) S RK Q ltac:(lia) ltac:(apply D)) as (s' & E & S1 & S2 & S3 & S4 & S5).
  assert (E' : c_sess c' = s') by (subst c'; cbn [op_do with_sess fst c_sess]; rewrite E; reflexivity). rewrite E'. split; [exact S1|]. split; [exact S2|]. split; [exact S3|]. split.
  - unfold connect_wakes. rewrite E', S5. apply Z.ltb_lt. destruct D as (_ & D & _). lia.
  - intros c1 c2 c3 c4 R1 R2 _ _. rewrite <- E' in S1, S4. destruct (closed_reach _ _ _ R1 S1) as (X1 & _ & X3). destruct (closed_reach _ _ _ R2 X1) as (_ & _ & X4).
    unfold connect_ends. rewrite X1, X4, X3, S4. reflexivity.
Qed.
Lemma accepted_result iss c0 c p : dialed iss c0 -> ports_ok c0 -> iss + 2 < 2 ^ 32 -> reach (dial_op iss) c0 c -> roomy_op iss (OSegment p) c -> st (c_sess c) = SYN_SENT -> syn_out iss c -> accepts iss p ->
  let c' := fst (op_do (OSegment p) c) in st (c_sess c') = ESTABLISHED /\ connect_wakes (c_sess c') = true /\
  forall c1 c2 c3 c4, reach any_op c' c1 -> reach any_op c1 c2 -> reach any_op c2 c3 -> reach any_op c3 c4 -> connect_ends (c_sess c1) (c_sess c2) (c_sess c3) (c_sess c4) <> Connected ->
    connect_ends (c_sess c1) (c_sess c2) (c_sess c3) (c_sess c4) = ConnectTimedOut /\ exists c5, happened any_op c' OTick c5 c4 /\ abandons c5.
Proof.
  intros DI PO IB R RP S SO (F & Q & AK) c'. destruct (waiting_syn iss c0 c DI PO IB R S SO) as [D N].
  assert (RK : is_synack p = true) by (unfold flags_of in F; unfold is_synack; injection F as -> -> -> ->; reflexivity).
  assert (ND : no_data p = true) by (apply no_data_iff; exact Q).
  destruct (tick_reach iss c0 c (dialed_opened _ _ DI) PO IB (dial_sane _ _ _ R)) as [(TW & TH & TQ & TR) B].
  destruct RP as [_ (FI & _)]. destruct FI as (_ & _ & _ & _ & F1 & F2 & _). pose proof (zlen_nonneg (d_data p)). pose proof D as (_ & EC & CE & OO & _ & _ & UB & _). pose proof DI as [IP _].
  destruct (synack_taken p (c_sess c) S RK ND ltac:(lia) ltac:(lia) OO TH F1 ltac:(lia) ltac:(lia)) as (s' & E & S1 & S2 & _).
  assert (E' : c_sess c' = s') by (subst c'; cbn [op_do with_sess fst c_sess]; rewrite E; reflexivity). rewrite E'. split; [exact S1|]. split; [unfold connect_wakes; rewrite S2; apply Z.ltb_lt; lia|].
  assert (PN : pos NoError (c_sess c')).
  { pose proof (dial_packet iss p (c_sess c) D) as X. cbv zeta in X. rewrite E in X. cbn [fst] in X. rewrite <- E' in X.
    destruct X as [(X & _)|[(_ & _ & _ & X & _)|(_ & _ & _ & _ & X)]]; [congruence|exact X|congruence]. }
  intros c1 c2 c3 c4 R1 R2 R3 R4 NC.
  pose proof (reach_trans _ _ _ _ R1 R2) as R02. pose proof (reach_trans _ _ _ _ R02 R3) as R03. pose proof (reach_trans _ _ _ _ R03 R4) as R04.
  destruct (live_reach _ _ _ R02 (or_introl PN)) as [(L2 & _)|(L2 & _)]; unfold connect_ends in NC |- *; rewrite L2 in NC |- *; cbn [err_eqb] in NC |- *; rewrite andb_false_r in NC |- *;
    (destruct (negb _ && err_eqb (conn_err (c_sess c4)) TimedOut) eqn:Y; [|contradiction]); apply andb_true_iff in Y; destruct Y as [_ Y]; apply err_eq in Y; (split; [reflexivity|]);
    (destruct (gave_up c' c4 PN R04 Y) as (c5 & G)); exists c5; exact G.
Qed.
Lemma told_result c : st (c_sess c) = SYN_SENT -> ev_conn (c_sess c) = 0 -> told (c_sess c) (c_sess (fst (op_do OTick c))) -> result_is ConnectTimedOut (fst (op_do OTick c)).
Proof.
  intros S E (T1 & _ & _ & _ & T2). destruct (T2 S) as [T3 T4]. split; [unfold connect_wakes; rewrite T4, E; reflexivity|]. intros c1 c2 c3 c4 R1 R2 R3 R4.
  destruct (closed_reach _ _ _ R1 T1) as (X1 & _ & Y1). destruct (closed_reach _ _ _ R2 X1) as (X2 & _ & Y2). destruct (closed_reach _ _ _ R3 X2) as (X3 & _ & Y3). destruct (closed_reach _ _ _ R4 X3) as (X4 & _ & Y4).
  unfold connect_ends. rewrite X1, X3, Y2, Y1, Y4, Y3, Y2, Y1, T3. reflexivity.
Qed.
(** the SYN was acknowledged but the session did not notice *)
Definition stuck (s : sess) : Prop := st s = SYN_SENT /\ ev_conn s = 0 /\ snd_nxt s <> snd_ini s /\ dget (snd_una s) (tx_to s) = None.
Lemma stuck_tick c : stuck (c_sess c) -> stuck (c_sess (fst (op_do OTick c))).
Proof.
  intros H. pose proof (tick_fst c) as [-> _]. assert (H' : stuck (set_tmr (tdec (tmr (c_sess c))) (c_sess c))) by exact H. clear H. generalize dependent (set_tmr (tdec (tmr (c_sess c))) (c_sess c)). intros s D.
  pose proof D as (S & E & N & G). rewrite timer_eq by (unfold retransmits; rewrite S; cbn; auto).
  assert (AE : forall x, after s x = transmit_data x) by (intros x; unfold after; rewrite S; reflexivity).
  unfold pbind, retransmit_timeout. rewrite G. unfold pret. rewrite AE.
  unfold transmit_data, pbind, passert. destruct (_ && _); [|exact D]. unfold pif at 1. unfold in_state, existsb. rewrite S. cbn [fsm_eqb orb andb].
  destruct (snd_nxt s =? snd_ini s) eqn:Q; [apply Z.eqb_eq in Q; contradiction|]. unfold pwhen, pif, in_state, existsb. rewrite S. cbn [fsm_eqb orb andb]. exact D.
Qed.
Lemma stuck_ticks n : forall c, stuck (c_sess c) -> stuck (c_sess (fst (op_run (repeat OTick n) c))).
Proof. induction n as [|n IH]; intros c H; [exact H|]. cbn [repeat]. rewrite op_run_cons. apply IH, stuck_tick, H. Qed.
(** what was sent stays recorded *)
Lemma sent_lasting t : lasting (fun s => In t (sent s)).
Proof.
  constructor; intros; auto.
  - rewrite rewind_eq. assumption.
  - cbn [sent pkt]. apply in_or_app. left. assumption.
Qed.
Lemma sent_fsm t e s : In t (sent s) -> In t (sent (fst (tcp_fsm e s))).
Proof. unfold tcp_fsm. apply (keeps_fsm _ (sent_lasting t)). Qed.
Lemma sent_stays t o c : In t (sent (c_sess c)) -> In t (sent (c_sess (fst (op_do o c)))).
Proof.
  intros H. destruct o; cbn [op_do].
  - unfold tick. rewrite pbind_do. unfold with_sess. cbn [fst c_sess]. apply sent_fsm. exact H.
  - unfold with_sess. cbn [fst c_sess]. apply sent_fsm. exact H.
  - unfold with_sess. cbn [fst c_sess]. apply sent_fsm. exact H.
  - unfold session_send. destruct (in_state _ _); exact H.
  - unfold read_step. destruct (c_rd c i); [destruct (0 <? _)|destruct (_ =? 0)|destruct (ended _)|cbv zeta; destruct (_ || _)]; exact H.
Qed.
