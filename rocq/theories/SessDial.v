(** How connect() ends. *)
From Verif Require Import Base BaseLemmas AddrModel TcpModel StackModel StackRxModel SessModel SessCallModel SpecSess SpecSess2 SpecSess3 SpecSess5 SessProofs SessTrace SessRun SessInv SessTx SessReset SessKeep SessWin SessTick SessRetry SessHead SessOoo SessQueue SessClose.

(** * After the connection has been answered *)
Definition pos (x : conn_error) (s : sess) : Prop := conn_err s = x /\ 0 < ev_conn s /\ st s <> SYN_SENT.
Lemma pos_tx x o syn ack fin rst data : keeps_it (pos x) (transmit_packet o syn ack fin rst data).
Proof. apply keeps_tx. intros s H. exact H. Qed.
Lemma pos_change x n : n <> SYN_SENT -> keeps_it (pos x) (change_state n).
Proof.
  intros N s [H1 [H2 H3]]. unfold change_state. rewrite pbind_do. unfold pwhen, pif.
  assert (J : pos x (set_st n (set_hist (hist s ++ [(st s, n)]) s))) by (split; [exact H1|split; [exact H2|exact N]]).
  destruct (in_state _ _); [|exact J]. destruct (reg _); exact J.
Qed.
Ltac py1 := match goal with
  | |- keeps_it _ (pbind _ _) => apply keeps_bind; [|intros ?]
  | |- keeps_it _ (pif _ _ _) => apply keeps_if
  | |- keeps_it _ (pwhen _ _) => apply keeps_when
  | |- keeps_it _ (pret _) => apply keeps_ret
  | |- keeps_it _ (passert _) => apply keeps_assert
  | |- keeps_it _ (change_state _) => apply pos_change; discriminate
  | |- keeps_it _ (transmit_packet _ _ _ _ _ _) => apply pos_tx
  | |- keeps_it _ (pdo (fun s => set_ev_conn _ s)) => apply leads_do; intros ? (? & ? & ?); (split; [assumption|split; [cbn [ev_conn set_ev_conn]; lia|assumption]])
  | |- keeps_it _ (pdo _) => apply leads_do; intros ? H; exact H
  | |- keeps_it _ (if ?c then _ else _) => destruct c
  end.
Ltac py := repeat py1.
Lemma pos_ack x : keeps_it (pos x) transmit_ack. Proof. apply pos_tx. Qed.
Lemma pos_data x : keeps_it (pos x) transmit_data.
Proof. unfold transmit_data. py. intros s H. cbv zeta. destruct (_ =? 0); [exact H|]. apply pos_tx. exact H. Qed.
Lemma pos_delayed x : keeps_it (pos x) delayed_ack.
Proof. unfold delayed_ack, transmit_ack, register_timer. py. Qed.
Lemma pos_process x again p : (forall q, keeps_it (pos x) (again q)) -> keeps_it (pos x) (process_ack again p).
Proof. intros A. apply keeps_process; auto. Qed.
Lemma pos_giveup : keeps_it (pos TimedOut) give_up.
Proof.
  intros s H. rewrite give_up_eq. destruct (tcp_tx_ok _); [|exact H]. assert (G : pos TimedOut (gone s)).
  { destruct H as (A & B & C). unfold gone. split; [|split].
    - cbn [conn_err set_ev_rx set_ev_conn set_conn_err]. rewrite A. destruct (_ || _); reflexivity.
    - cbn [ev_conn set_ev_rx set_ev_conn set_conn_err]. destruct (in_state [SYN_SENT] s); lia.
    - cbn. discriminate. }
  generalize dependent (gone s). intros g G. destruct (reg s); exact G.
Qed.
Lemma pos_timeout : keeps_it (pos TimedOut) retransmit_timeout.
Proof.
  intros s H. unfold retransmit_timeout. destruct (dget _ _); [|exact H]. destruct (expired _ _); [|exact H]. destruct (_ =? _); [apply pos_giveup; exact H|].
  unfold pdo. cbn [fst]. rewrite rewind_eq. exact H.
Qed.
Ltac pw N := repeat first [py1 | match goal with
  | |- keeps_it _ transmit_ack => apply pos_ack
  | |- keeps_it _ transmit_data => apply pos_data
  | |- keeps_it _ retransmit_timeout => apply pos_timeout
  | |- keeps_it _ delayed_ack => apply pos_delayed
  | |- keeps_it _ (process_ack _ _) => apply pos_process; exact N
  end].
Ltac gen_pos x := match goal with |- pos _ (fst (?f ?s)) => match goal with J : pos _ s |- _ => revert J; generalize s end; change (keeps_it (pos x) f) end.
Lemma pos_fsm x fuel : forall e, (forall c, e = ECall c -> c = Close) -> (e = ETimer -> x = TimedOut) -> keeps_it (pos x) (fsm fuel e).
Proof.
  induction fuel as [|fuel IH]; intros e K T s J; [exact J|]. cbn [fsm].
  assert (N : forall q, keeps_it (pos x) (fsm fuel (EPacket q))) by (intros q; apply IH; discriminate).
  assert (TW : keeps_it (pos x) enter_time_wait) by (unfold enter_time_wait, register_timer; py).
  destruct (st s) eqn:E.
  all: destruct e as [p|c|]; [|rewrite (K c eq_refl)|specialize (T eq_refl); subst x].
  all: try (destruct J as (_ & _ & J); contradiction).
  all: clear E; gen_pos x || gen_pos TimedOut.
  all: unfold fsm_closed, fsm_listen, fsm_syn_rcvd, fsm_established, fsm_fin_wait_1, fsm_fin_wait_2, fsm_closing, fsm_close_wait, fsm_last_ack, fsm_time_wait, release_conn, release_rx, retransmit_request, store_ooo.
  all: pw N; try exact TW.
Qed.
Lemma pos_after x s0 : keeps_it (pos x) (after s0).
Proof. unfold after. assert (N : True) by exact Logic.I. destruct (st s0); pw N. Qed.
Definition still (l : list tcp_tx) (s : sess) : Prop := pos TimedOut s /\ sent s = l /\ rcv_una s = rcv_nxt s.
Lemma still_rest l s0 : keeps_it (still l) (rest s0).
Proof.
  assert (D : keeps_it (still l) delayed_ack).
  { intros s (P & S & U). unfold delayed_ack, pwhen, pif. destruct (expired _ _); [|split; [exact P|split; assumption]]. unfold pbind, pif, pret, register_timer, pdo.
    replace (rcv_una s <? rcv_nxt s) with false by (symmetry; apply Z.ltb_ge; lia). split; [exact P|split; assumption]. }
  assert (C : forall n, n <> SYN_SENT -> n <> CLOSED -> keeps_it (still l) (change_state n)).
  { intros n N M s (P & S & U). split; [apply pos_change; assumption|]. unfold change_state. rewrite pbind_do. unfold pwhen, pif. rewrite in_state_1. cbn [st set_st].
    destruct (fsm_eqb n CLOSED) eqn:E; [destruct n; try discriminate E; contradiction|]. split; assumption. }
  unfold rest. destruct (st s0); try apply keeps_ret; (apply keeps_bind; [exact D|intros _; apply keeps_when; apply C; discriminate]).
Qed.
Lemma pos_tick s : pos NoError s -> let s' := fst (tcp_fsm ETimer s) in
  pos NoError s' \/ (pos TimedOut s' /\ exists t, sent s' = sent s ++ [t] /\ x_frst t = true /\ x_seq t = snd_una s).
Proof.
  intros J. cbv zeta. assert (D : retransmits s \/ ~ retransmits s) by (unfold retransmits; destruct (st s); cbn; (left; tauto) || (right; intuition discriminate)).
  destruct D as [R|R].
  - rewrite timer_eq by exact R. unfold pbind, retransmit_timeout.
    destruct (dget _ _) as [c|]; [|left; apply pos_after; exact J]. destruct (expired _ _); [|left; apply pos_after; exact J].
    destruct (c =? RETRANSMIT_MAX); [|left; unfold pdo; apply pos_after; rewrite rewind_eq; exact J].
    rewrite give_up_eq. destruct (tcp_tx_ok _); [|left; exact J].
    assert (V : st (gone s) = CLOSED /\ 0 < ev_conn (gone s) /\ rcv_una (gone s) = rcv_nxt (gone s) /\ (exists t, sent (gone s) = sent s ++ [t] /\ x_frst t = true /\ x_seq t = snd_una s) /\
              (conn_err (gone s) = NoError \/ conn_err (gone s) = TimedOut)).
    { destruct J as (A & B & C). unfold gone. split; [reflexivity|]. split; [cbn [ev_conn set_ev_rx set_ev_conn set_conn_err]; destruct (in_state [SYN_SENT] s); lia|]. split; [reflexivity|].
      split; [eexists; split; [reflexivity|split; reflexivity]|]. cbn [conn_err set_ev_rx set_ev_conn set_conn_err]. rewrite A. destruct (_ || _); auto. }
    generalize dependent (gone s). intros g (V1 & V2 & V3 & V4 & V5).
    destruct V5 as [V5|V5].
    + assert (P : pos NoError g) by (split; [exact V5|split; [exact V2|congruence]]). left. destruct (reg s); [|exact P]. apply pos_after. exact P.
    + assert (P : still (sent g) g) by (split; [split; [exact V5|split; [exact V2|congruence]]|split; [reflexivity|exact V3]]).
      right. destruct (reg s); [|destruct P as (P & _); split; [exact P|exact V4]]. rewrite after_eq. unfold pbind.
      assert (P' : still (sent g) (set_reg false g)) by exact P. assert (C' : st (set_reg false g) = CLOSED) by exact V1. revert P' C'. generalize (set_reg false g). intros h P' C'.
      pose proof (data_closed h C') as DC. destruct (transmit_data h) as [h' [a|x]]; cbn [fst] in *; subst h'.
      * apply (still_rest (sent g) s) in P'. destruct P' as (P1 & P2 & _). split; [exact P1|]. rewrite P2. exact V4.
      * destruct P' as (P1 & P2 & _). split; [exact P1|]. rewrite P2. exact V4.
  - left. unfold tcp_fsm. cbn [fsm]. unfold retransmits in R. destruct (st s) eqn:E; try (exfalso; apply R; cbn; tauto); try exact J.
    unfold fsm_time_wait, pwhen, pif. destruct (expired _ _); [apply pos_change; [discriminate|exact J]|exact J].
Qed.

(** * While it has not *)
Definition dial (iss : Z) (s : sess) : Prop :=
  st s = SYN_SENT /\ ev_conn s = 0 /\ conn_err s = NoError /\ ooo s = [] /\ reg s = true /\ snd_ini s = iss /\ iss <= snd_una s <= snd_nxt s /\ snd_nxt s <= iss + 1 /\
  (snd_nxt s = iss + 1 -> exists t, In t (sent s) /\ x_fsyn t = true /\ x_fack t = false /\ x_seq t = iss).
Lemma change_closed s : reg s = true -> change_state CLOSED s = (set_reg false (moved CLOSED s), Ok tt).
Proof. intros R. unfold change_state. rewrite pbind_do. unfold pwhen, pif. rewrite in_state_1. cbn [st set_st fsm_eqb reg set_hist]. rewrite R. reflexivity. Qed.
Lemma change_other n s : n <> CLOSED -> change_state n s = (moved n s, Ok tt).
Proof. intros N. unfold change_state. rewrite pbind_do. unfold pwhen, pif. rewrite in_state_1. cbn [st set_st]. destruct (fsm_eqb n CLOSED) eqn:E; [destruct n; try discriminate E; contradiction|reflexivity]. Qed.
Lemma dial_packet iss p s : dial iss s -> let s' := fst (tcp_fsm (EPacket p) s) in
  dial iss s' \/
  (is_synack p = true /\ no_data p = true /\ d_ackn p = snd_nxt s /\ pos NoError s' /\ st s' = ESTABLISHED) \/
  (is_rstack p = true /\ d_seq p = 0 /\ d_ackn p = snd_nxt s /\ pos Refused s' /\ st s' = CLOSED).
Proof.
  intros D. pose proof D as (ST & EC & CE & OO & RG & NI & UB & NB & SY). cbv zeta. match goal with |- dial _ ?x \/ _ => remember x as s' eqn:E; symmetry in E; revert E end. unfold tcp_fsm. rewrite OO. cbn [length fsm]. rewrite ST. unfold fsm_syn_sent. unfold pif at 1. cbv beta.
  destruct (is_synack p && _) eqn:A.
  - apply andb_true_iff in A. destruct A as [A1 A2]. apply andb_true_iff in A2. destruct A2 as [A2 A3]. apply Z.eqb_eq in A2.
    rewrite pbind_do. unfold pbind at 1. rewrite process_eq. cbv zeta.
    assert (V : let a := acked p (synchronise p s) in st a = SYN_SENT /\ ev_conn a = 0 /\ conn_err a = NoError /\ ooo a = [] /\ reg a = true /\ snd_ini a = iss /\ snd_una a = snd_nxt s /\ snd_nxt a = snd_nxt s /\ sent a = sent s).
    { cbv zeta. repeat split; try assumption.
      - change (Z.max (snd_una s) (d_ackn p) = snd_nxt s). lia.
      - rewrite sync_nxt. destruct (_ && _) eqn:X; [|reflexivity]. apply andb_true_iff in X. rewrite Z.ltb_lt in X. lia. }
    cbv zeta in V. generalize dependent (acked p (synchronise p s)). intros a (V1 & V2 & V3 & V4 & V5 & V6 & V7 & V8 & V9). rewrite V4. cbn [dget].
    unfold transmit_ack, pbind at 1. rewrite transmit_eq. cbn [seq_of]. destruct (tcp_tx_ok _).
    + rewrite (bind_ok _ _ _ _ (change_other ESTABLISHED _ ltac:(discriminate))). unfold release_conn, pdo. cbn [fst].
      intros <-. right. left.
      assert (W : st (moved ESTABLISHED (pkt (snd_nxt a) false true false false [] a)) = ESTABLISHED /\ ev_conn (moved ESTABLISHED (pkt (snd_nxt a) false true false false [] a)) = 0 /\
        conn_err (moved ESTABLISHED (pkt (snd_nxt a) false true false false [] a)) = NoError) by (split; [reflexivity|split; [exact V2|exact V3]]).
      generalize dependent (moved ESTABLISHED (pkt (snd_nxt a) false true false false [] a)). intros g (W1 & W2 & W3).
      split; [exact A1|]. split; [exact A3|]. split; [exact A2|]. split; [|exact W1]. split; [exact W3|]. split; [cbn [ev_conn set_ev_conn]; lia|cbn [st set_ev_conn]; congruence].
    + intros <-. left. cbn [fst]. split; [exact V1|]. split; [exact V2|]. split; [exact V3|]. split; [exact V4|]. split; [exact V5|]. split; [exact V6|]. rewrite V7, V8, V9. split; [lia|]. split; [exact NB|exact SY].
  - unfold pwhen, pif. destruct (is_rstack p && _) eqn:B; [|intros <-; left; exact D]. apply andb_true_iff in B. destruct B as [B1 B2]. apply andb_true_iff in B2. destruct B2 as [B2 B3]. apply Z.eqb_eq in B2, B3.
    rewrite (bind_ok _ _ _ _ (change_closed s RG)). rewrite pbind_do. unfold release_conn, pdo. intros <-. right. right. split; [exact B1|]. split; [exact B2|]. split; [exact B3|]. split; [|reflexivity]. split; [reflexivity|]. split; [cbn; lia|cbn; discriminate].
Qed.
Lemma dial_tick iss s : dial iss s -> let s' := fst (tcp_fsm ETimer s) in
  dial iss s' \/ (pos TimedOut s' /\ st s' = CLOSED /\ exists t, sent s' = sent s ++ [t] /\ x_frst t = true /\ x_seq t = snd_una s).
Proof.
  assert (TD : forall s, dial iss s -> dial iss (fst (transmit_data s))).
  { clear s. intros s D. pose proof D as (ST & EC & CE & OO & RG & NI & UB & NB & SY). unfold transmit_data, pbind, passert. destruct (_ && _); [|exact D].
    unfold pif at 1. unfold in_state, existsb. rewrite ST. cbn [fsm_eqb orb andb]. destruct (snd_nxt s =? snd_ini s) eqn:E.
    - apply Z.eqb_eq in E. rewrite transmit_eq. cbn [seq_of]. destruct (tcp_tx_ok _); [|exact D]. unfold dial. cbn [fst pkt st ev_conn conn_err ooo reg snd_ini snd_una snd_nxt sent b2z].
      change (zlen (@nil Z)) with 0. repeat split; auto; try lia. intros _. eexists. split; [apply in_or_app; right; left; reflexivity|]. cbn. split; [reflexivity|split; [reflexivity|lia]].
    - unfold pwhen, pif, in_state, existsb. rewrite ST. cbn [fsm_eqb orb andb]. exact D. }
  intros D. pose proof D as (ST & EC & CE & OO & RG & NI & UB & NB & SY). cbv zeta. match goal with |- dial _ ?x \/ _ => remember x as s' eqn:E; symmetry in E; revert E end. rewrite timer_eq by (unfold retransmits; rewrite ST; cbn; auto).
  assert (AE : forall x, after s x = transmit_data x) by (intros x; unfold after; rewrite ST; reflexivity).
  unfold pbind, retransmit_timeout. destruct (dget _ _) as [c|]; [|rewrite AE; intros <-; left; auto]. destruct (expired _ _); [|rewrite AE; intros <-; left; auto].
  destruct (c =? RETRANSMIT_MAX).
  - rewrite give_up_eq. destruct (tcp_tx_ok _); [|intros <-; left; exact D]. rewrite RG. rewrite AE.
    assert (V : let g := set_reg false (gone s) in st g = CLOSED /\ pos TimedOut g /\ exists t, sent g = sent s ++ [t] /\ x_frst t = true /\ x_seq t = snd_una s).
    { cbv zeta. split; [reflexivity|]. split; [|eexists; split; [reflexivity|split; reflexivity]]. unfold gone, in_state, existsb. rewrite ST. split; [reflexivity|]. split; [cbn; lia|cbn; discriminate]. }
    cbv zeta in V. revert V. generalize (set_reg false (gone s)). intros g (V1 & V2 & V3). rewrite (data_closed g V1). intros <-. right. auto.
  - unfold pdo. rewrite AE. intros <-. left. apply TD. rewrite rewind_eq. unfold dial. sx. split; [exact ST|]. split; [exact EC|]. split; [exact CE|]. split; [exact OO|]. split; [exact RG|]. split; [exact NI|]. split; [lia|]. split; [lia|]. intros X. apply SY. lia.
Qed.

(** * Histories *)
Definition told_by (allowed : op -> conn -> Prop) (iss : Z) (c0 c : conn) : Prop :=
  dial iss (c_sess c) \/
  (* closed by the application *)
  (st (c_sess c) = CLOSED /\ ev_conn (c_sess c) = 0 /\ exists c1, happened allowed c0 OClose c1 c /\ st (c_sess c1) = SYN_SENT) \/
  (exists c1 p, happened allowed c0 (OSegment p) c1 c /\ st (c_sess c1) = SYN_SENT /\ (d_ackn p <> iss -> refuses iss p /\ syn_out iss c1) /\ is_rstack p = true /\ pos Refused (c_sess c) /\ st (c_sess c) = CLOSED) \/
  (exists c1, happened allowed c0 OTick c1 c /\ st (c_sess c1) = SYN_SENT /\ abandons c1 /\ pos TimedOut (c_sess c) /\ st (c_sess c) = CLOSED) \/
  (exists c1 p, happened allowed c0 (OSegment p) c1 c /\ st (c_sess c1) = SYN_SENT /\ (d_ackn p <> iss -> accepts iss p /\ syn_out iss c1) /\ is_synack p = true /\
     st (c_sess (fst (op_do (OSegment p) c1))) = ESTABLISHED /\
     (pos NoError (c_sess c) \/ pos TimedOut (c_sess c) /\ exists c2, happened allowed c0 OTick c2 c /\ abandons c2)).
Lemma happened_op allowed c0 o c1 c o' : happened allowed c0 o c1 c -> allowed o' c -> happened allowed c0 o c1 (fst (op_do o' c)).
Proof. intros (A & B & C) D. split; [exact A|]. split; [exact B|]. apply reach_op; assumption. Qed.
(** a closed session stays as it is *)
Lemma closed_op o c : st (c_sess c) = CLOSED -> let s' := c_sess (fst (op_do o c)) in st s' = CLOSED /\ ev_conn s' = ev_conn (c_sess c) /\ conn_err s' = conn_err (c_sess c).
Proof.
  intros S. destruct o; cbv zeta; cbn [op_do].
  - unfold tick. rewrite pbind_do. unfold with_sess, tcp_fsm. cbn [fst c_sess fsm]. change (st (set_tmr _ (c_sess c))) with (st (c_sess c)). rewrite S. cbn. auto.
  - unfold with_sess, tcp_fsm. cbn [fst c_sess fsm]. rewrite S. cbn. auto.
  - unfold with_sess, tcp_fsm. cbn [fst c_sess fsm]. rewrite S. cbn. auto.
  - unfold session_send, in_state. rewrite S. cbn. auto.
  - unfold read_step. destruct (c_rd c i); [destruct (0 <? _)|destruct (_ =? 0)|destruct (ended _)|cbv zeta; destruct (_ || _)]; auto.
Qed.
(** calls that leave all of this alone *)
Lemma other_op o c (I : sess -> Prop) : (forall v s, I s -> I (set_tx_buf v s)) -> (forall v s, I s -> I (set_rx_buf v s)) -> (forall v s, I s -> I (set_ev_rx v s)) ->
  (exists d, o = OSend d) \/ (exists i n, o = ORead i n) -> I (c_sess c) -> I (c_sess (fst (op_do o c))).
Proof.
  intros A B C [[d ->]|[i [n ->]]] J; cbn [op_do].
  - unfold session_send. destruct (in_state _ _); [|exact J]. cbn [fst c_sess]. apply A. exact J.
  - destruct (c_rd c i); cbn [read_step]; [destruct (0 <? _)|destruct (_ =? 0)|destruct (ended _)|cbv zeta; destruct (_ || _)]; cbn [fst c_sess]; auto.
Qed.
Lemma told_reach (allowed : op -> conn -> Prop) iss c0 c : dialed iss c0 -> reach allowed c0 c -> told_by allowed iss c0 c.
Proof.
  intros (I & lip & lport & rip & rport & timers & ND & E0) R. induction R as [|c o R IH A].
  { left. subst c0. unfold dial. cbn. repeat split; auto; try lia. }
  assert (OT : o = OTick \/ (exists p, o = OSegment p) \/ o = OClose \/ ((exists d, o = OSend d) \/ (exists i n, o = ORead i n))) by (destruct o as [|q| |d|i n]; [left; reflexivity|right; left; exists q; reflexivity|right; right; left; reflexivity|do 3 right; left; exists d; reflexivity|do 4 right; exists i, n; reflexivity]).
  destruct IH as [D|[(S & EV & c1 & H & T)|[(c1 & p & H & S1 & RF & RK & P & S)|[(c1 & H & S1 & AB & P & S)|(c1 & p & H & S1 & AC & SK & ES & P)]]]].
  - destruct OT as [->|[[p ->]|[->|O]]].
    + assert (D' : dial iss (set_tmr (tdec (tmr (c_sess c))) (c_sess c))) by exact D. apply dial_tick in D'. cbv zeta in D'.
      pose proof (tick_fst c) as [TF _]. rewrite <- TF in D'. destruct D' as [D'|(P & S & T)]; [left; exact D'|]. right. right. right. left.
      exists c. split; [split; [exact R|split; [exact A|apply reach_0]]|]. split; [apply D|]. split; [|split; [exact P|exact S]]. split; [apply D|]. split; [apply P|exact T].
    + pose proof (dial_packet iss p (c_sess c) D) as D'. cbv zeta in D'. change (fst (tcp_fsm (EPacket p) (c_sess c))) with (c_sess (fst (op_do (OSegment p) c))) in D'.
      pose proof D as (ST & _ & _ & _ & _ & _ & UB & NB & SY).
      destruct D' as [D'|[(B1 & B2 & B3 & P & S)|(B1 & B2 & B3 & P & S)]]; [left; exact D'| |].
      * right. right. right. right. exists c, p. split; [split; [exact R|split; [exact A|apply reach_0]]|]. split; [exact ST|]. split; [|split; [exact B1|split; [exact S|left; exact P]]].
        intros N. assert (X : snd_nxt (c_sess c) = iss + 1) by lia. split; [|apply SY; exact X]. split; [|split; [apply no_data_iff; exact B2|lia]].
        unfold is_synack in B1. unfold flags_of. destruct (d_syn p), (d_ack p), (d_fin p), (d_rst p); try discriminate B1; reflexivity.
      * right. right. left. exists c, p. split; [split; [exact R|split; [exact A|apply reach_0]]|]. split; [exact ST|]. split; [|split; [exact B1|split; [exact P|exact S]]].
        intros N. assert (X : snd_nxt (c_sess c) = iss + 1) by lia. split; [|apply SY; exact X]. split; [|split; [exact B2|lia]].
        unfold is_rstack in B1. unfold flags_of. destruct (d_syn p), (d_ack p), (d_fin p), (d_rst p); try discriminate B1; reflexivity.
    + right. left. pose proof D as (ST & EC & _ & _ & RG & _). assert (X : c_sess (fst (op_do OClose c)) = set_reg false (moved CLOSED (c_sess c))).
      { cbn [op_do with_sess fst c_sess]. unfold tcp_fsm. cbn [fsm]. rewrite ST. cbn [fsm_syn_sent]. rewrite change_closed by exact RG. reflexivity. }
      rewrite X. split; [reflexivity|]. split; [exact EC|]. exists c. split; [split; [exact R|split; [exact A|apply reach_0]]|exact ST].
    + left. apply other_op; auto.
  - right. left. destruct (closed_op o c S) as (X1 & X2 & X3). rewrite X2. split; [exact X1|]. split; [exact EV|]. exists c1. split; [apply happened_op; assumption|exact T].
  - right. right. left. destruct (closed_op o c S) as (X1 & X2 & X3). destruct P as (P1 & P2 & P3). exists c1, p. split; [apply happened_op; assumption|]. split; [exact S1|]. split; [exact RF|]. split; [exact RK|].
    split; [|exact X1]. split; [congruence|]. split; [lia|congruence].
  - right. right. right. left. destruct (closed_op o c S) as (X1 & X2 & X3). destruct P as (P1 & P2 & P3). exists c1. split; [apply happened_op; assumption|]. split; [exact S1|]. split; [exact AB|].
    split; [|exact X1]. split; [congruence|]. split; [lia|congruence].
  - right. right. right. right. exists c1, p. split; [apply happened_op; assumption|]. split; [exact S1|]. split; [exact AC|]. split; [exact SK|]. split; [exact ES|].
    destruct OT as [->|[[q ->]|[->|O]]].
    + pose proof (tick_fst c) as [TF _]. destruct P as [P|(P & c2 & H2 & AB)].
      * assert (P' : pos NoError (set_tmr (tdec (tmr (c_sess c))) (c_sess c))) by exact P. apply pos_tick in P'. cbv zeta in P'. rewrite <- TF in P'. destruct P' as [P'|[P' T]]; [left; exact P'|].
        right. split; [exact P'|]. exists c. split; [split; [exact R|split; [exact A|apply reach_0]]|]. split; [apply P|split; [apply P'|exact T]].
      * right. split; [|exists c2; split; [apply happened_op; assumption|exact AB]]. rewrite TF. unfold tcp_fsm. apply pos_fsm; [discriminate|reflexivity|exact P].
    + assert (X : forall x, pos x (c_sess c) -> pos x (c_sess (fst (op_do (OSegment q) c)))) by (intros x Q; cbn [op_do with_sess fst c_sess]; unfold tcp_fsm; apply pos_fsm; [discriminate|discriminate|exact Q]).
      destruct P as [P|(P & c2 & H2 & AB)]; [left; auto|right; split; [auto|exists c2; split; [apply happened_op; assumption|exact AB]]].
    + assert (X : forall x, pos x (c_sess c) -> pos x (c_sess (fst (op_do OClose c)))) by (intros x Q; cbn [op_do with_sess fst c_sess]; unfold tcp_fsm; apply pos_fsm; [congruence|discriminate|exact Q]).
      destruct P as [P|(P & c2 & H2 & AB)]; [left; auto|right; split; [auto|exists c2; split; [apply happened_op; assumption|exact AB]]].
    + assert (X : forall x, pos x (c_sess c) -> pos x (c_sess (fst (op_do o c)))) by (intros x Q; apply other_op; auto).
      destruct P as [P|(P & c2 & H2 & AB)]; [left; auto|right; split; [auto|exists c2; split; [apply happened_op; assumption|exact AB]]].
Qed.
