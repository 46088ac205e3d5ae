(** C90: how connect() ends. *)
From Verif Require Import Base BaseLemmas AddrModel TcpModel StackModel StackRxModel SessModel SessCallModel SpecSess SpecSess2 SpecSess3 SessProofs SessTrace SessRun SessInv SessTx SessReset SessKeep SessTick SessRetry SpecSess5 SessDial SessDial2 PropSess PropSess2 PropSess3 PropSess6 PropSess7.

(** * C90 *)
(** the result: connect() returns only after the peer has accepted the SYN that was sent,
    raises "Connection refused" only after the peer has refused it and "Connection timeout" only
    after the connection was given up and the peer reset *)
Definition C90_outcome_statement : Prop := forall iss r c0 c1 c2 c3 c4, dialed iss c0 -> ends_with any_op r c0 c1 c2 c3 c4 -> outcome any_op iss r c0 c1 c4.
Lemma ex_dialed : dialed 100 ex_conn.
Proof. split; [lia|]. repeat eexists. cbn. constructor. Qed.
(** in the millisecond before the SYN is sent a segment that acknowledges the initial sequence
    number itself is taken for the answer *)
Definition ex_blind (syn rst : bool) : op := OSegment (ex_seg syn true false rst 0 100 1000 []).
Theorem C90_outcome_refuted : ~ C90_outcome_statement.
Proof.
  intros H. set (c1 := fst (op_do (ex_blind true false) ex_conn)).
  assert (R : reach any_op ex_conn c1) by (apply reach_op; [constructor|exact Logic.I]).
  destruct (H 100 Connected ex_conn c1 c1 c1 c1 ex_dialed) as (c & p & (R1 & _ & R2) & S & (t & T & F1 & F2 & F3) & _).
  { split; [exact R|]. split; [vm_compute; reflexivity|]. split; [constructor|]. split; [constructor|]. split; [constructor|]. vm_compute. reflexivity. }
  assert (L : In t (sent (c_sess c1))).
  { assert (G : forall a b, reach any_op a b -> In t (sent (c_sess a)) -> In t (sent (c_sess b))).
    { intros a b RA. induction RA as [|b o RA IH _]; [auto|]. intros I. apply sent_stays. apply IH. exact I. }
    apply (G _ _ R2). apply sent_stays. exact T. }
  assert (Y : forallb (fun t => negb (x_fsyn t)) (sent (c_sess c1)) = true) by (vm_compute; reflexivity). rewrite forallb_forall in Y. apply Y in L. rewrite F1 in L. discriminate L.
Qed.
Print Assumptions C90_outcome_refuted.
(** a reset that does so is taken for a refusal *)
Theorem C90_blind_reset_refuted : exists c1, reach any_op ex_conn c1 /\ sent (c_sess c1) = [] /\ result_is ConnectRefused c1.
Proof.
  exists (fst (op_do (ex_blind false true) ex_conn)). split; [apply reach_op; [constructor|exact Logic.I]|]. split; [vm_compute; reflexivity|]. split; [vm_compute; reflexivity|].
  intros c1 c2 c3 c4 R1 R2 _ _. destruct (closed_reach _ _ _ R1 ltac:(vm_compute; reflexivity)) as (X1 & _ & X3). destruct (closed_reach _ _ _ R2 X1) as (_ & _ & X4).
  unfold connect_ends. rewrite X1, X4, X3. vm_compute. reflexivity.
Qed.
Print Assumptions C90_blind_reset_refuted.
(** it holds when the peer does not acknowledge the initial sequence number itself *)
Theorem C90_outcome_partial iss r c0 c1 c2 c3 c4 : dialed iss c0 -> ends_with (sane_op iss) r c0 c1 c2 c3 c4 -> outcome (sane_op iss) iss r c0 c1 c4.
Proof.
  intros D E. pose proof (ends_result (sane_op iss) iss r c0 c1 c2 c3 c4 D E) as X. destruct r; cbn in X |- *.
  - destruct X as (c & p & H & S & _ & _ & X). pose proof H as (_ & [A _] & _). destruct (X A). exists c, p. auto.
  - destruct X as (c & p & H & S & _ & X). pose proof H as (_ & [A _] & _). destruct (X A). exists c, p. auto.
  - exact X.
Qed.
Print Assumptions C90_outcome_partial.
Definition ex_called : conn := fst (op_run [OTick] ex_conn).
Definition ex_syn_ack : tmd := ex_seg true true false false 500 101 1000 [].
Definition ex_no : tmd := ex_seg false true false true 0 101 0 [].
Example C90_outcome_example : let c1 := fst (op_do (OSegment ex_syn_ack) ex_called) in let c2 := fst (op_do (OSegment ex_no) ex_called) in
  ends_with (sane_op 100) Connected ex_conn c1 c1 c1 c1 /\ ends_with (sane_op 100) ConnectRefused ex_conn c2 c2 c2 c2.
Proof.
  cbv zeta. assert (R : reach (sane_op 100) ex_conn ex_called) by (apply reach_all, sane_all; vm_compute; reflexivity).
  split; (split; [apply reach_op; [exact R|split; cbn; lia]|]; split; [vm_compute; reflexivity|]; do 3 (split; [constructor|]); vm_compute; reflexivity).
Qed.

(** the peer's refusal: connect() raises "Connection refused", however late it looks *)
Theorem C90_refused iss c0 c p : dialed iss c0 -> ports_ok c0 -> iss + 2 < 2 ^ 32 -> reach (dial_op iss) c0 c -> st (c_sess c) = SYN_SENT -> syn_out iss c -> refuses iss p ->
  let c' := fst (op_do (OSegment p) c) in st (c_sess c') = CLOSED /\ reg (c_sess c') = false /\ sent (c_sess c') = sent (c_sess c) /\ result_is ConnectRefused c'.
Proof. exact (refused_result iss c0 c p). Qed.
Print Assumptions C90_refused.
(** the peer's acceptance: connect() returns, unless it looks so late that the connection was given
    up in the meantime *)
Theorem C90_accepted iss c0 c p : dialed iss c0 -> ports_ok c0 -> iss + 2 < 2 ^ 32 -> reach (dial_op iss) c0 c -> roomy_op iss (OSegment p) c -> st (c_sess c) = SYN_SENT -> syn_out iss c -> accepts iss p ->
  let c' := fst (op_do (OSegment p) c) in st (c_sess c') = ESTABLISHED /\ connect_wakes (c_sess c') = true /\
  forall c1 c2 c3 c4, reach any_op c' c1 -> reach any_op c1 c2 -> reach any_op c2 c3 -> reach any_op c3 c4 -> connect_ends (c_sess c1) (c_sess c2) (c_sess c3) (c_sess c4) <> Connected ->
    connect_ends (c_sess c1) (c_sess c2) (c_sess c3) (c_sess c4) = ConnectTimedOut /\ exists c5, happened any_op c' OTick c5 c4 /\ abandons c5.
Proof. exact (accepted_result iss c0 c p). Qed.
Print Assumptions C90_accepted.
Lemma syn_sent_b iss c : existsb (fun t => x_fsyn t && negb (x_fack t) && (x_seq t =? iss)) (sent (c_sess c)) = true -> syn_out iss c.
Proof.
  intros H. apply existsb_exists in H. destruct H as (t & T & F). exists t. apply andb_true_iff in F. destruct F as [F F3]. apply andb_true_iff in F. destruct F as [F1 F2]. apply Z.eqb_eq in F3. apply negb_true_iff in F2. auto.
Qed.
Example C90_answer_example : reach (dial_op 100) ex_conn ex_called /\ st (c_sess ex_called) = SYN_SENT /\ syn_out 100 ex_called /\ refuses 100 ex_no /\ accepts 100 ex_syn_ack /\ roomy_op 100 (OSegment ex_syn_ack) ex_called.
Proof.
  split; [apply (reach_all (dial_op 100) [OTick]); split; [split; [split; exact Logic.I|discriminate]|exact Logic.I]|]. split; [vm_compute; reflexivity|].
  split; [apply syn_sent_b; vm_compute; reflexivity|]. do 2 (split; [repeat split|]). apply roomy_one. vm_compute. reflexivity.
Qed.

(** connect() ends: 15 seconds after the first timer tick at the latest *)
Definition C90_returns_statement : Prop := forall iss c0 l, dialed iss c0 -> ports_ok c0 -> iss + 2 < 2 ^ 32 -> all_of (sane_op iss) l c0 -> 15001 <= ticks l ->
  connect_wakes (c_sess (fst (op_run l c0))) = true.
Lemma ticks_all (P : op -> conn -> Prop) n : (forall c, P OTick c) -> forall c, all_of P (repeat OTick n) c.
Proof. intros H. induction n as [|n IH]; intros c; cbn [repeat all_of]; auto. Qed.
Lemma ticks_many n : ticks (repeat OTick n) = Z.of_nat n.
Proof. induction n as [|n IH]; [reflexivity|]. cbn [repeat]. rewrite ticks_cons, IH. lia. Qed.
Lemma all_of_app (P : op -> conn -> Prop) a b : forall c, all_of P a c -> all_of P b (fst (op_run a c)) -> all_of P (a ++ b) c.
Proof. induction a as [|o a IH]; intros c A B; [exact B|]. destruct A as [A1 A2]. rewrite op_run_cons in B. split; [exact A1|apply IH; assumption]. Qed.
Theorem C90_returns_refuted : ~ C90_returns_statement.
Proof.
  intros H. set (p := OSegment (ex_seg true true false false (2 ^ 32 - 1) 101 1000 [])). assert (N : exists n, Z.of_nat n = 15000) by (exists (Z.to_nat 15000); apply Z2Nat.id; discriminate).
  destruct N as [n N]. assert (T : ticks ([OTick; p] ++ repeat OTick n) = 15001) by (cbn [app]; rewrite !ticks_cons, ticks_many, N; reflexivity).
  assert (A : all_of (sane_op 100) ([OTick; p] ++ repeat OTick n) ex_conn).
  { apply all_of_app; [split; [exact Logic.I|split; [split; cbn; lia|exact Logic.I]]|]. apply ticks_all. intros c. exact Logic.I. }
  pose proof (H 100 ex_conn _ ex_dialed ex_ports ltac:(lia) A ltac:(lia)) as X. clear H A T N. cbn [app] in X. rewrite !op_run_cons in X.
  assert (S : stuck (c_sess (fst (op_do p (fst (op_do OTick ex_conn)))))) by (vm_compute; repeat split; discriminate).
  apply (stuck_ticks n) in S. destruct S as (_ & S & _). unfold connect_wakes in X. rewrite S in X. discriminate X.
Qed.
Print Assumptions C90_returns_refuted.
(** after close() it never ends, whatever happens *)
Theorem C90_close_refuted : exists c, reach (roomy_op 100) ex_conn c /\ forall c', reach any_op c c' -> connect_wakes (c_sess c') = false.
Proof.
  exists (fst (op_run [OTick; OClose] ex_conn)). split; [apply reach_all, roomy_all; vm_compute; reflexivity|]. intros c' R.
  destruct (closed_reach _ _ _ R ltac:(vm_compute; reflexivity)) as (_ & X & _). unfold connect_wakes. rewrite X. vm_compute. reflexivity.
Qed.
Print Assumptions C90_close_refuted.
(** it holds when nobody calls close() meanwhile and the peer keeps to sequence numbers and windows
    that fit *)
Theorem C90_returns_partial iss c0 l : dialed iss c0 -> ports_ok c0 -> iss + 2 < 2 ^ 32 -> all_of (dial_op iss) l c0 -> 15001 <= ticks l -> connect_wakes (c_sess (fst (op_run l c0))) = true.
Proof.
  intros D PO IB A L. apply Z.ltb_lt. apply (dial_ends iss c0 D PO IB l c0); [constructor|apply unsent_start; exact D|exact A|exact L].
Qed.
Print Assumptions C90_returns_partial.
(** without any answer the SYN is sent on the first tick and again 1, 3 and 7 seconds later, and 15
    seconds later connect() raises "Connection timeout", and not before *)
Theorem C90_silence iss c0 l : dialed iss c0 -> ports_ok c0 -> iss + 2 < 2 ^ 32 -> all_of (quiet_dial iss) l c0 -> 1 <= ticks l <= 15000 ->
  let c1 := fst (op_run l c0) in transmissions iss (c_sess c1) = 1 + resends 0 1000 (ticks l - 1) /\ st (c_sess c1) = SYN_SENT /\ connect_wakes (c_sess c1) = false /\
  (ticks l = 15000 -> transmissions iss (c_sess c1) = 4 /\ result_is ConnectTimedOut (fst (op_do OTick c1)) /\ reg (c_sess (fst (op_do OTick c1))) = false).
Proof.
  intros D PO IB A L c1. destruct (dial_quiet iss c0 l D PO IB A L) as (T & S & E & N). fold c1 in T, S, E, N. split; [exact T|]. split; [exact S|]. split; [unfold connect_wakes; rewrite E; reflexivity|].
  intros X. specialize (N X). split; [rewrite T, X; reflexivity|]. split; [apply told_result; assumption|apply N].
Qed.
Print Assumptions C90_silence.
Example C90_returns_example : exists n, let l := repeat OTick n in all_of (quiet_dial 100) l ex_conn /\ all_of (dial_op 100) (OTick :: l) ex_conn /\ ticks l = 15000.
Proof.
  exists (Z.to_nat 15000). cbv zeta. rewrite ticks_many, Z2Nat.id by discriminate. generalize (Z.to_nat 15000). intros n. split; [apply ticks_all; intros c; repeat split|]. split; [|reflexivity].
  apply (ticks_all (dial_op 100) (S n)). intros c. split; [repeat split|discriminate].
Qed.
