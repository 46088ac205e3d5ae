(** C89: the end of a TCP connection. *)
From Verif Require Import Base BaseLemmas AddrModel TcpModel StackModel StackRxModel SessModel SpecSess SpecSess2 SpecSess3 SpecSess4 SessProofs SessTrace SessRun SessInv SessTx SessRx SessOoo SessQueue SessClose PropSess PropSess2 PropSess3 PropSess6.

(** * C89 *)
(** This end takes its half of the connection for closed only after its FIN has been sent and
    acknowledged, or upon a reset.  (A tick may give up: C69.) *)
Definition C89_close_statement : Prop := forall iss c0 c o, opened iss c0 -> ports_ok c0 -> iss + 2 < 2 ^ 32 -> reach (roomy_op iss) c0 c -> roomy_op iss o c ->
  In (st (c_sess c)) unacked -> In (st (c_sess (fst (op_do o c)))) [FIN_WAIT_2; TIME_WAIT; CLOSED] -> o <> OTick ->
  exists p, o = OSegment p /\ (d_rst p = true \/ exists t, fin_out t c /\ d_ack p = true /\ d_ackn p = seg_end t).
(** the state is left by an acknowledgement that comes in between the tick that enters it and the
    one that sends the FIN *)
Definition ex_early_ack : op := OSegment (ex_seg false true false false 501 101 1000 [7]).
Definition ex_closed : list op := ex_up ++ [OClose; OTick].
Lemma ex_ports : ports_ok ex_conn. Proof. split; cbn; lia. Qed.
Theorem C89_close_refuted : ~ C89_close_statement.
Proof.
  intros H. set (c := fst (op_run ex_closed ex_conn)).
  assert (R : reach (roomy_op 100) ex_conn c) by (apply reach_all, roomy_all; vm_compute; reflexivity).
  assert (A : roomy_op 100 ex_early_ack c) by (apply roomy_one; vm_compute; reflexivity).
  destruct (H 100 ex_conn c ex_early_ack ex_opened ex_ports ltac:(lia) R A) as (p & P & Q).
  - vm_compute. auto.
  - vm_compute. auto.
  - discriminate.
  - injection P as <-. destruct Q as [Q | (t & (T & F) & _)]; [discriminate Q|].
    assert (X : forallb (fun t => negb (x_ffin t)) (sent (c_sess c)) = true) by (vm_compute; reflexivity). rewrite forallb_forall in X. apply X in T. rewrite F in T. discriminate T.
Qed.
Print Assumptions C89_close_refuted.
(** and then no FIN is ever sent: the peer is not told that the connection was closed *)
Theorem C89_no_fin_refuted : exists c, reach (roomy_op 100) ex_conn c /\ st (c_sess c) = FIN_WAIT_2 /\
  forall c', reach (sane_op 100) c c' -> forall t, ~ fin_out t c'.
Proof.
  set (c := fst (op_run (ex_closed ++ [ex_early_ack]) ex_conn)). assert (R : reach (roomy_op 100) ex_conn c) by (apply reach_all, roomy_all; vm_compute; reflexivity).
  assert (E : st (c_sess c) = FIN_WAIT_2) by (vm_compute; reflexivity). exists c. split; [exact R|]. split; [exact E|]. intros c' R' t T.
  destruct (half_reach 100 ex_conn c c' ex_opened (sane_of _ _ _ R)) as [_ X]; [rewrite E; left; reflexivity|exact R'|]. apply X in T. destruct T as [T F].
  assert (Y : forallb (fun t => negb (x_ffin t)) (sent (c_sess c)) = true) by (vm_compute; reflexivity). rewrite forallb_forall in Y. apply Y in T. rewrite F in T. discriminate T.
Qed.
Print Assumptions C89_no_fin_refuted.
(** nor when this end is the last to close: the session is over, with no FIN sent *)
Theorem C89_last_ack_refuted : exists c, reach (roomy_op 100) ex_conn c /\ st (c_sess c) = LAST_ACK /\
  let c' := fst (op_do (OSegment (ex_seg false true false false 502 101 1000 [])) c) in
  reach (roomy_op 100) ex_conn c' /\ st (c_sess c') = CLOSED /\ reg (c_sess c') = false /\ forall t, ~ fin_out t c'.
Proof.
  set (l := ex_up ++ [OSegment (ex_seg false true true false 501 101 1000 []); OClose; OTick]). exists (fst (op_run l ex_conn)).
  assert (R : reach (roomy_op 100) ex_conn (fst (op_run l ex_conn))) by (apply reach_all, roomy_all; vm_compute; reflexivity).
  split; [exact R|]. split; [vm_compute; reflexivity|]. cbv zeta. split; [apply reach_op; [exact R|apply roomy_one; vm_compute; reflexivity]|].
  do 2 (split; [vm_compute; reflexivity|]). intros t (T & F).
  match type of T with In _ ?s => assert (Y : forallb (fun t => negb (x_ffin t)) s = true) by (vm_compute; reflexivity) end.
  rewrite forallb_forall in Y. apply Y in T. rewrite F in T. discriminate T.
Qed.
Print Assumptions C89_last_ack_refuted.
(** when both ends close at the same time and the FIN of this one is lost it is never sent again:
    the session stays in CLOSING for good, however much time passes *)
Theorem C89_closing_refuted : exists c t, reach (roomy_op 100) ex_conn c /\ fin_out t c /\ st (c_sess c) = CLOSING /\ snd_una (c_sess c) < seg_end t /\
  forall n, st (c_sess (fst (op_run (repeat OTick n) c))) = CLOSING /\ sent (c_sess (fst (op_run (repeat OTick n) c))) = sent (c_sess c).
Proof.
  set (c := fst (op_run (ex_closed ++ [OTick; OSegment (ex_seg false true true false 501 101 1000 [])]) ex_conn)).
  assert (E : st (c_sess c) = CLOSING) by (vm_compute; reflexivity).
  assert (X : existsb (fun t => x_ffin t && (snd_una (c_sess c) <? seg_end t)) (sent (c_sess c)) = true) by (vm_compute; reflexivity).
  apply existsb_exists in X. destruct X as (t & T & F). apply andb_true_iff in F. destruct F as [F G]. apply Z.ltb_lt in G.
  exists c, t. split; [apply reach_all, roomy_all; vm_compute; reflexivity|]. split; [split; assumption|]. split; [exact E|]. split; [exact G|]. intros n. apply closing_ticks. exact E.
Qed.
Print Assumptions C89_closing_refuted.

(** Once the FIN is sent only its acknowledgement, or a reset, moves the session on. *)
Theorem C89_close_partial : forall iss c0 c o t, opened iss c0 -> ports_ok c0 -> iss + 2 < 2 ^ 32 -> reach (roomy_op iss) c0 c -> roomy_op iss o c -> fin_out t c ->
  In (st (c_sess c)) unacked -> In (st (c_sess (fst (op_do o c)))) [FIN_WAIT_2; TIME_WAIT; CLOSED] -> o <> OTick ->
  exists p, o = OSegment p /\ (d_rst p = true \/ d_ack p = true /\ d_ackn p = seg_end t).
Proof. exact fin_acked. Qed.
Print Assumptions C89_close_partial.
(** That acknowledgement is all that is needed. *)
Theorem C89_done : forall iss c0 c t p, opened iss c0 -> ports_ok c0 -> iss + 2 < 2 ^ 32 -> reach (roomy_op iss) c0 c -> In (st (c_sess c)) unacked -> fin_out t c -> acks_fin t p c ->
  let r := op_do (OSegment p) c in
  snd r = Ok tt /\ sent (c_sess (fst r)) = sent (c_sess c) /\ st (c_sess (fst r)) = match st (c_sess c) with FIN_WAIT_1 => FIN_WAIT_2 | CLOSING => TIME_WAIT | _ => CLOSED end.
Proof. exact fin_done. Qed.
Print Assumptions C89_done.
(** No connection is closed before all that was written is delivered, unless it is given up or
    reset. *)
Theorem C89_delivered : forall iss c0 c, opened iss c0 -> reach (sane_op iss) c0 c -> In (st (c_sess c)) (CLOSED :: closing_states) -> aborted (c_sess c) \/ delivered iss c.
Proof. exact delivered_reach. Qed.
Print Assumptions C89_delivered.
(** The FIN has the sequence number after the last byte written. *)
Theorem C89_fin_number : forall iss c0 c t, opened iss c0 -> reach (sane_op iss) c0 c -> fin_out t c -> In (st (c_sess c)) closing_states ->
  seg_end t = iss + 2 + zlen (c_written c) /\ snd_max (c_sess c) = seg_end t.
Proof. intros iss c0 c t O R F S. destruct (fin_end iss c0 c t O R F S) as (A & _ & B). split; assumption. Qed.
Print Assumptions C89_fin_number.
(** After close() the FIN goes out within two ticks of the last byte being acknowledged. *)
Theorem C89_fin : forall iss c0 c c', opened iss c0 -> ports_ok c0 -> iss + 2 < 2 ^ 32 -> reach (roomy_op iss) c0 c -> In (st (c_sess c)) [ESTABLISHED; CLOSE_WAIT] ->
  reach (roomy_op iss) (fst (op_do OClose c)) c' -> In (st (c_sess c')) [ESTABLISHED; CLOSE_WAIT] -> delivered iss c' -> exists t, let c2 := fst (op_run [OTick; OTick] c') in
  fin_out t c2 /\ x_seq t = iss + 1 + zlen (c_written c') /\ x_fack t = true /\ x_ack t = rcv_nxt (c_sess c') /\ st (c_sess c2) = wait_of (st (c_sess c')).
Proof. exact fin_close. Qed.
Print Assumptions C89_fin.
(** The FIN of the peer is counted, its data is received, and it is acknowledged at once, but for
    a FIN without data while the session is up, which is left to the delayed acknowledgement. *)
Theorem C89_peer : forall iss c0 c p, opened iss c0 -> ports_ok c0 -> iss + 2 < 2 ^ 32 -> reach (roomy_op iss) c0 c -> roomy_op iss (OSegment p) c -> peer_fin p c ->
  In (st (c_sess c)) [ESTABLISHED; FIN_WAIT_1; FIN_WAIT_2] -> let n := d_seq p + zlen (d_data p) + 1 in (forall q, ~ In (n, q) (ooo (c_sess c))) -> let r := op_do (OSegment p) c in
  snd r = Ok tt /\ rcv_nxt (c_sess (fst r)) = n /\ received (fst r) = received c ++ d_data p /\
  st (c_sess (fst r)) = match st (c_sess c) with ESTABLISHED => CLOSE_WAIT | FIN_WAIT_2 => TIME_WAIT | _ => if snd_fin (c_sess c) <=? d_ackn p then TIME_WAIT else CLOSING end /\
  (st (c_sess c) = ESTABLISHED /\ d_data p = [] /\ sent (c_sess (fst r)) = sent (c_sess c) \/ exists t, sent (c_sess (fst r)) = sent (c_sess c) ++ [t] /\ pure_ack n t).
Proof. exact peer_end. Qed.
Print Assumptions C89_peer.

(** the connection closed by this end with data still to be delivered, and the FIN acknowledged *)
Definition ex_fin_ops : list op := ex_up ++ [OSend [1; 2; 3]; OTick; OClose; OTick; OSegment (ex_seg false true false false 501 104 1000 [])].
Example C89_fin_example : let c := fst (op_run (ex_up ++ [OSend [1; 2; 3]; OTick]) ex_conn) in let c' := fst (op_run ex_fin_ops ex_conn) in
  reach (roomy_op 100) ex_conn c /\ st (c_sess c) = ESTABLISHED /\ ~ delivered 100 c /\ reach (roomy_op 100) (fst (op_do OClose c)) c' /\ st (c_sess c') = ESTABLISHED /\ delivered 100 c' /\
  let c2 := fst (op_run [OTick; OTick] c') in st (c_sess c2) = FIN_WAIT_1 /\ map x_ffin (sent (c_sess c')) = [false; false; false] /\ map x_ffin (sent (c_sess c2)) = [false; false; false; true].
Proof.
  cbv zeta. split; [apply reach_all, roomy_all; vm_compute; reflexivity|]. split; [vm_compute; reflexivity|]. split; [vm_compute; congruence|]. split.
  - assert (E : fst (op_run ex_fin_ops ex_conn) = fst (op_run [OTick; OSegment (ex_seg false true false false 501 104 1000 [])] (fst (op_do OClose (fst (op_run (ex_up ++ [OSend [1; 2; 3]; OTick]) ex_conn)))))) by (vm_compute; reflexivity).
    rewrite E. apply reach_all, roomy_all. vm_compute. reflexivity.
  - repeat split; vm_compute; congruence.
Qed.
Example C89_done_example : let c := fst (op_run (ex_fin_ops ++ [OTick; OTick]) ex_conn) in let p := ex_seg false true false false 501 105 1000 [] in
  reach (roomy_op 100) ex_conn c /\ ports_ok ex_conn /\ st (c_sess c) = FIN_WAIT_1 /\ delivered 100 c /\ (exists t, fin_out t c /\ acks_fin t p c) /\ roomy_op 100 (OSegment p) c /\
  st (c_sess (fst (op_do (OSegment p) c))) = FIN_WAIT_2.
Proof.
  cbv zeta. split; [apply reach_all, roomy_all; vm_compute; reflexivity|]. split; [exact ex_ports|]. split; [vm_compute; reflexivity|]. split; [vm_compute; congruence|].
  split; [|split; [apply roomy_one; vm_compute; reflexivity|vm_compute; reflexivity]].
  eexists. split; [split; [vm_compute; do 3 right; left; reflexivity|reflexivity]|]. repeat split; vm_compute; reflexivity.
Qed.
Example C89_peer_example : let c := fst (op_run (ex_fin_ops ++ [OTick; OTick]) ex_conn) in let p := ex_seg false true true false 501 104 1000 [7; 8] in
  reach (roomy_op 100) ex_conn c /\ roomy_op 100 (OSegment p) c /\ peer_fin p c /\ st (c_sess c) = FIN_WAIT_1 /\ ooo (c_sess c) = [] /\
  let c' := fst (op_do (OSegment p) c) in st (c_sess c') = CLOSING /\ received c' = [7; 8].
Proof.
  cbv zeta. split; [apply reach_all, roomy_all; vm_compute; reflexivity|]. split; [apply roomy_one; vm_compute; reflexivity|].
  split; [split; [reflexivity|]; repeat split; vm_compute; congruence|]. repeat split; vm_compute; reflexivity.
Qed.
Example C89_delivered_example : let c := fst (op_run ex_history ex_conn) in reach (sane_op 100) ex_conn c /\ In (st (c_sess c)) closing_states /\ c_written c = [1; 2; 3] /\ snd_una (c_sess c) = 105.
Proof. cbv zeta. split; [apply reach_all, sane_all; vm_compute; reflexivity|]. split; [vm_compute; tauto|]. split; vm_compute; reflexivity. Qed.

(** * C88, again: what waits in the queue is never what comes next in the stream *)
Theorem C88_waits : forall iss (allowed : op -> conn -> Prop) c0 c q, opened iss c0 -> reach allowed c0 c -> ~ In (rcv_nxt (c_sess c), q) (ooo (c_sess c)).
Proof. exact next_missing. Qed.
Print Assumptions C88_waits.
Example C88_waits_example : let c := fst (op_run ex_kept ex_conn) in reach any_op ex_conn c /\ rcv_nxt (c_sess c) = 501 /\ map fst (ooo (c_sess c)) = [503].
Proof. cbv zeta. split; [apply reach_all, any_all|]. split; vm_compute; reflexivity. Qed.
