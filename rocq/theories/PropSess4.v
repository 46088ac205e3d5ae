(** C69, C72 and C73: retransmission, large sequence numbers and closed windows of a TCP session. *)
From Verif Require Import Base BaseLemmas AddrModel TcpModel StackModel StackRxModel SessModel SpecSess SessProofs SessTrace SessRun SessInv SessTx SessKeep SessAck SessWin SessTick SessRetry SessStall SessHand PropSess PropSess2.

(** * C69 *)
(** whatever happened, a peer that falls silent is given up after some time *)
Definition C69_giveup_statement : Prop := forall iss c0 c, opened iss c0 -> ports_ok c0 -> iss + 2 < 2 ^ 32 -> reach (roomy_op iss) c0 c ->
  st (c_sess c) = ESTABLISHED -> snd_una (c_sess c) < snd_nxt (c_sess c) -> exists m, st (c_sess (fst (op_run (repeat OTick m) c))) = CLOSED.
(** duplicate acknowledgements make the session transmit the segment more than four times; the
    count steps over its limit and the limit is never hit *)
Definition ex_dup : tmd := ex_seg false true false false 501 101 1000 [].
Definition ex_dups : list op := firstn 5 ex_history ++
  [OSegment ex_dup; OSegment ex_dup; OTick; OSegment ex_dup; OTick; OSegment ex_dup; OTick; OSegment ex_dup; OTick].
Theorem C69_giveup_refuted : ~ C69_giveup_statement.
Proof.
  intros H. set (c := fst (op_run ex_dups ex_conn)).
  assert (R : reach (roomy_op 100) ex_conn c) by (apply reach_all, roomy_all; vm_compute; reflexivity).
  assert (E : (st (c_sess c), closing (c_sess c), snd_una (c_sess c), snd_nxt (c_sess c), dget 101 (tx_to (c_sess c))) = (ESTABLISHED, false, 101, 104, Some 4)) by (vm_compute; reflexivity).
  clearbody c. injection E as E1 E2 E3 E4 E5. destruct (H 100 ex_conn c ex_opened) as [m M].
  - split; cbn; lia.
  - lia.
  - exact R.
  - exact E1.
  - rewrite E3, E4. lia.
  - rewrite (beyond_forever m c) in M; [discriminate|]. split; [split; [exact E1|exact E2]|]. exists 4. rewrite E3. split; [reflexivity|exact E5].
Qed.
Print Assumptions C69_giveup_refuted.
(** the segment of the witness was transmitted five times *)
Theorem C69_count_refuted : exists c, reach (roomy_op 100) ex_conn c /\ transmissions 101 (c_sess c) = 5.
Proof. exists (fst (op_run ex_dups ex_conn)). split; [apply reach_all, roomy_all; vm_compute; reflexivity|vm_compute; reflexivity]. Qed.
Print Assumptions C69_count_refuted.
(** an acknowledgement of a part of a segment leaves the rest without a timer: it is neither
    transmitted again nor given up, for ever *)
Theorem C69_part_refuted : exists c, reach (roomy_op 100) ex_conn c /\ snd_una (c_sess c) < snd_nxt (c_sess c) /\
  forall m, let c' := fst (op_run (repeat OTick m) c) in st (c_sess c') = ESTABLISHED /\ with_data (c_sess c') = with_data (c_sess c).
Proof.
  set (c := fst (op_run (firstn 5 ex_history ++ [OSegment (ex_seg false true false false 501 102 1000 [])]) ex_conn)). exists c.
  split; [apply reach_all, roomy_all; vm_compute; reflexivity|]. split; [vm_compute; reflexivity|]. intros m. apply timerless_forever.
  split; [split; vm_compute; reflexivity|]. split; [vm_compute; reflexivity|]. split; [vm_compute; reflexivity|reflexivity].
Qed.
Print Assumptions C69_part_refuted.
(** what does hold, for a segment with [k] retransmissions behind it whose timer has [x] ms
    left: without news from the peer it is retransmitted as often as the doubling timeouts
    say, and no later than the third time *)
Theorem C69_retries_partial : forall iss c0 l c k x, opened iss c0 -> ports_ok c0 -> iss + 2 < 2 ^ 32 -> reach (roomy_op iss) c0 c ->
  all_of (fun o c => roomy_op iss o c /\ quiet_op o c) l c -> waits k x (c_sess c) -> 0 <= k <= 3 -> 0 < x -> ticks l < gives_up k x ->
  let u := snd_una (c_sess c) in let c1 := fst (op_run l c) in
  transmissions u (c_sess c1) = transmissions u (c_sess c) + resends k x (ticks l) /\
  exists x', waits (k + resends k x (ticks l)) x' (c_sess c1) /\ k + resends k x (ticks l) <= 3 /\ 0 < x'.
Proof.
  intros iss c0 l c k x O PO IB R A W K X L u c1.
  destruct (silence iss c0 u O PO IB l c k x (transmissions u (c_sess c)) R A) as (k' & x' & (V1 & _ & V3) & -> & V5 & V6 & _); auto; [split; [exact W|split; reflexivity]|].
  split; [exact V3|]. exists x'. split; [exact V1|]. split; [apply V5|exact V6].
Qed.
Print Assumptions C69_retries_partial.
(** then the peer is reset, the session closed and the application told *)
Theorem C69_giveup_partial : forall iss c0 l c k x, opened iss c0 -> ports_ok c0 -> iss + 2 < 2 ^ 32 -> reach (roomy_op iss) c0 c ->
  all_of (fun o c => roomy_op iss o c /\ quiet_op o c) l c -> waits k x (c_sess c) -> 0 <= k <= 3 -> 0 < x -> ticks l = gives_up k x - 1 ->
  let u := snd_una (c_sess c) in let c1 := fst (op_run l c) in
  transmissions u (c_sess c1) = transmissions u (c_sess c) + (3 - k) /\ told (c_sess c1) (c_sess (fst (op_do OTick c1))).
Proof.
  intros iss c0 l c k x O PO IB R A W K X L u c1. apply (silence_ends iss c0 u O PO IB l c k x (transmissions u (c_sess c)) R A); auto. split; [exact W|split; reflexivity].
Qed.
Print Assumptions C69_giveup_partial.
(** the first data after an idle time is sent at once, with one second on its timer *)
Theorem C69_first_partial : forall iss c0 c, opened iss c0 -> ports_ok c0 -> iss + 2 < 2 ^ 32 -> reach (roomy_op iss) c0 c -> In (st (c_sess c)) [ESTABLISHED; CLOSE_WAIT] ->
  snd_una (c_sess c) = snd_max (c_sess c) -> tx_buf (c_sess c) <> [] ->
  let c1 := fst (op_do OTick c) in waits 0 1000 (c_sess c1) /\ transmissions (snd_una (c_sess c)) (c_sess c1) = transmissions (snd_una (c_sess c)) (c_sess c) + 1.
Proof. exact first_waits. Qed.
Print Assumptions C69_first_partial.
(** three bytes sent by an established session: 1000, 2000, 4000 and 8000 ms *)
Example C69_example : let c := fst (op_run (firstn 5 ex_history) ex_conn) in
  reach (roomy_op 100) ex_conn c /\ waits 0 1000 (c_sess c) /\ transmissions 101 (c_sess c) = 1 /\ gives_up 0 1000 = 15000 /\
  map (resends 0 1000) [0; 999; 1000; 2999; 3000; 6999; 7000; 14999] = [0; 0; 1; 1; 2; 2; 3; 3] /\
  all_of (fun o c => roomy_op 100 o c /\ quiet_op o c) [OTick; OSend [4]; OTick] c.
Proof.
  cbv zeta. split; [apply reach_all, roomy_all; vm_compute; reflexivity|]. split.
  - split; [vm_compute; auto 10|]. split; [vm_compute; reflexivity|]. split; vm_compute; reflexivity.
  - split; [vm_compute; reflexivity|]. split; [vm_compute; reflexivity|]. split; [vm_compute; reflexivity|].
    split; [split; [apply roomy_one; vm_compute; reflexivity|exact Logic.I]|]. split; [split; [apply roomy_one; vm_compute; reflexivity|exact Logic.I]|].
    split; [split; [apply roomy_one; vm_compute; reflexivity|exact Logic.I]|]. exact Logic.I.
Qed.

(** * C72 *)
(** connecting works whatever the initial sequence numbers of both sides *)
Definition C72_connect_statement : Prop := forall iss c0 p, opened iss c0 -> ports_ok c0 -> st (c_sess c0) = SYN_SENT ->
  is_synack p = true -> d_data p = [] -> d_ackn p = (iss + 1) mod 2 ^ 32 -> 0 <= d_seq p < 2 ^ 32 ->
  st (c_sess (fst (op_run [OTick; OSegment p] c0))) = ESTABLISHED.
Definition ex_wrap : conn := start Connect (ex_tcp (2 ^ 32 - 1)).
Lemma ex_wrap_opened : opened (2 ^ 32 - 1) ex_wrap.
Proof. split; [lia|]. exists Connect, (A4 1), 1000, (A4 2), 80, []. split; [auto|split; [constructor|reflexivity]]. Qed.
Theorem C72_connect_refuted : ~ C72_connect_statement.
Proof.
  intros H. specialize (H (2 ^ 32 - 1) ex_wrap (ex_seg true true false false 500 0 1000 []) ex_wrap_opened).
  assert (E : st (c_sess (fst (op_run [OTick; OSegment (ex_seg true true false false 500 0 1000 [])] ex_wrap))) = SYN_SENT) by (vm_compute; reflexivity).
  rewrite H in E; [discriminate|split; cbn; lia|reflexivity|reflexivity|reflexivity|reflexivity|cbn; lia].
Qed.
Print Assumptions C72_connect_refuted.
(** with that initial sequence number no peer whatsoever gets the connection established *)
Theorem C72_wrap_refuted : forall c0 c, opened (2 ^ 32 - 1) c0 -> st (c_sess c0) = SYN_SENT -> reach (ack32_op (2 ^ 32 - 1)) c0 c ->
  st (c_sess c) = SYN_SENT \/ st (c_sess c) = CLOSED.
Proof. exact wrap_reach. Qed.
Print Assumptions C72_wrap_refuted.
Example C72_wrap_example : let c := fst (op_run [OTick; OSegment (ex_seg true true false false 500 0 1000 []); OTick] ex_wrap) in
  reach (ack32_op (2 ^ 32 - 1)) ex_wrap c /\ map x_seq (sent (c_sess c)) = [2 ^ 32 - 1].
Proof.
  cbv zeta. split; [|vm_compute; reflexivity]. apply reach_all. split; [split; exact Logic.I|]. split; [split; [split; cbn; lia|cbn; lia]|]. split; [split; exact Logic.I|exact Logic.I].
Qed.
(** a peer with this initial sequence number makes the receiving thread raise *)
Theorem C72_peer_refuted : let c := fst (op_do OTick ex_conn) in let p := ex_seg true true false false (2 ^ 32 - 1) 101 1000 [] in
  snd (op_do (OSegment p) c) = Exn AssertionError /\ st (c_sess (fst (op_do (OSegment p) c))) = SYN_SENT.
Proof. cbv zeta. split; vm_compute; reflexivity. Qed.
Print Assumptions C72_peer_refuted.
(** data beyond sequence number 2^32 is never acknowledged *)
Theorem C72_data_refuted : forall iss c0 c, opened iss c0 -> reach (ack32_op iss) c0 c -> In (st (c_sess c)) [ESTABLISHED; CLOSE_WAIT] ->
  iss + 1 + zlen (c_written c) - 2 ^ 32 < zlen (tx_buf (c_sess c)).
Proof. exact left_over. Qed.
Print Assumptions C72_data_refuted.
Definition ex_late : conn := start Connect (ex_tcp (2 ^ 32 - 3)).
Example C72_data_example :
  let c := fst (op_run [OTick; OSegment (ex_seg true true false false 500 (2 ^ 32 - 2) 1000 []); OSend [1; 2; 3; 4]; OTick; OSegment (ex_seg false true false false 501 (2 ^ 32 - 1) 1000 [])] ex_late) in
  opened (2 ^ 32 - 3) ex_late /\ reach (ack32_op (2 ^ 32 - 3)) ex_late c /\ st (c_sess c) = ESTABLISHED /\ tx_buf (c_sess c) = [2; 3; 4].
Proof.
  cbv zeta. split; [split; [lia|]; exists Connect, (A4 1), 1000, (A4 2), 80, []; split; [auto|split; [constructor|reflexivity]]|].
  split; [|split; vm_compute; reflexivity]. apply reach_all. split; [split; exact Logic.I|]. split; [split; [split; cbn; lia|cbn; lia]|]. split; [split; exact Logic.I|]. split; [split; exact Logic.I|].
  split; [split; [split; cbn; lia|cbn; lia]|exact Logic.I].
Qed.
(** what does hold: connecting works if neither side's next sequence number needs to wrap *)
Theorem C72_connect_partial : forall iss c0 p, opened iss c0 -> ports_ok c0 -> st (c_sess c0) = SYN_SENT -> iss + 1 < 2 ^ 32 ->
  is_synack p = true -> d_data p = [] -> d_ackn p = iss + 1 -> 0 <= d_seq p -> d_seq p + 1 < 2 ^ 32 ->
  let c1 := fst (op_do OTick c0) in let c2 := fst (op_do (OSegment p) c1) in
  snd (op_do OTick c0) = Ok tt /\ snd (op_do (OSegment p) c1) = Ok tt /\ st (c_sess c2) = ESTABLISHED /\ ev_conn (c_sess c2) = 1 /\ rcv_nxt (c_sess c2) = d_seq p + 1 /\
  exists a b, sent (c_sess c2) = [a; b] /\ x_seq a = iss /\ x_fsyn a = true /\ x_fack a = false /\ x_seq b = iss + 1 /\ x_fsyn b = false /\ x_fack b = true /\ x_ack b = d_seq p + 1.
Proof. exact connects. Qed.
Print Assumptions C72_connect_partial.
(** and so does accepting *)
Theorem C72_accept_partial : forall iss c0 p q, opened iss c0 -> st (c_sess c0) = LISTEN -> iss + 1 < 2 ^ 32 ->
  is_syn p = true -> d_data p = [] -> d_ackn p = 0 -> 0 <= d_mss p -> 0 <= d_seq p -> d_seq p + 1 < 2 ^ 32 -> (0 <= d_lport p <= 0xFFFF /\ 0 <= d_rport p <= 0xFFFF) ->
  is_ack q = true -> d_data q = [] -> d_seq q = d_seq p + 1 -> d_ackn q = iss + 1 ->
  let c1 := fst (op_do (OSegment p) c0) in let c2 := fst (op_do OTick c1) in let c3 := fst (op_do (OSegment q) c2) in
  snd (op_do (OSegment p) c0) = Ok tt /\ snd (op_do OTick c1) = Ok tt /\ snd (op_do (OSegment q) c2) = Ok tt /\
  st (c_sess c1) = SYN_RCVD /\ st (c_sess c3) = ESTABLISHED /\ rcv_nxt (c_sess c3) = d_seq p + 1 /\ effs (c_sess c3) = [FFork p; FAccept] /\
  (s_lip (c_sess c1), s_lport (c_sess c1), s_rip (c_sess c1), s_rport (c_sess c1)) = (d_lip p, d_lport p, d_rip p, d_rport p) /\
  exists a, sent (c_sess c3) = [a] /\ x_seq a = iss /\ x_fsyn a = true /\ x_fack a = true /\ x_ack a = d_seq p + 1.
Proof. exact accepts. Qed.
Print Assumptions C72_accept_partial.
Example C72_example : let p := ex_seg true true false false (2 ^ 32 - 2) 101 1000 [] in let q := ex_seg true false false false 500 0 1000 [] in
  ports_ok ex_conn /\ st (c_sess ex_conn) = SYN_SENT /\ is_synack p = true /\ d_ackn p = 100 + 1 /\ d_seq p + 1 < 2 ^ 32 /\
  opened 100 ex_listen /\ st (c_sess ex_listen) = LISTEN /\ is_syn q = true /\ is_ack (ex_seg false true false false 501 101 1000 []) = true.
Proof. cbv zeta. split; [split; cbn; lia|]. repeat (split; [first [reflexivity|cbn; lia|exact ex_listening]|]). reflexivity. Qed.

(** * C73 *)
(** an established session with nothing in flight and data to send gets to know a window *)
Definition C73_resume_statement : Prop := forall iss c0 c p, opened iss c0 -> ports_ok c0 -> iss + 2 < 2 ^ 32 -> reach (wire_op iss) c0 c ->
  st (c_sess c) = ESTABLISHED -> snd_una (c_sess c) = snd_max (c_sess c) -> tx_buf (c_sess c) <> [] ->
  wire_op iss (OSegment p) c -> is_ack p = true -> d_seq p = rcv_nxt (c_sess c) -> d_ackn p = snd_una (c_sess c) -> 1 <= d_win p ->
  exists m t, In t (sent (c_sess (fst (op_run (OSegment p :: repeat OTick m) c)))) /\ ~ In t (sent (c_sess c)) /\ x_data t <> [].
(** the peer acknowledges three bytes with window 0, three more are written, then the window
    opens again *)
Definition ex_zero : list op := firstn 5 ex_history ++ [OSegment (ex_seg false true false false 501 104 0 []); OSend [4; 5; 6]].
Definition ex_reopen : tmd := ex_seg false true false false 501 104 1000 [].
Definition wire_opb (iss : Z) (o : op) (c : conn) : bool :=
  sane_opb iss o c && match o with OSegment p => (0 <=? d_win p) && match d_wscale p with Some w => 0 <=? w | None => true end | _ => true end.
Fixpoint wire_allb (iss : Z) (l : list op) (c : conn) : bool :=
  match l with [] => true | o :: l => wire_opb iss o c && wire_allb iss l (fst (op_do o c)) end.
Lemma wire_one iss o c : wire_opb iss o c = true -> wire_op iss o c.
Proof.
  intros H. apply andb_true_iff in H. destruct H as [H1 H2]. split.
  - assert (A : sane_allb iss [o] c = true) by (cbn [sane_allb]; rewrite H1; reflexivity). apply sane_all in A. apply A.
  - destruct o; auto. apply andb_true_iff in H2. destruct H2 as [W V]. apply Z.leb_le in W. split; [exact W|]. intros w E. rewrite E in V. apply Z.leb_le in V. exact V.
Qed.
Lemma wire_all iss l : forall c, wire_allb iss l c = true -> all_allowed (wire_op iss) l c.
Proof.
  induction l as [|o l IH]; intros c H; [exact Logic.I|]. cbn [wire_allb] in H. apply andb_true_iff in H. destruct H as [H1 H2].
  split; [apply wire_one; exact H1|apply IH; exact H2].
Qed.
Lemma ticks_wire iss m : forall c, reach (wire_op iss) c (fst (op_run (repeat OTick m) c)).
Proof.
  intros c. apply reach_all. revert c. induction m as [|m IH]; intros c; [exact Logic.I|]. split; [split; exact Logic.I|apply IH].
Qed.
Theorem C73_resume_refuted : ~ C73_resume_statement.
Proof.
  intros H. set (c := fst (op_run ex_zero ex_conn)).
  assert (R : reach (wire_op 100) ex_conn c) by (apply reach_all, wire_all; vm_compute; reflexivity).
  assert (E : (st (c_sess c), snd_una (c_sess c), snd_max (c_sess c), tx_buf (c_sess c), rcv_nxt (c_sess c), snd_ewn (c_sess c)) = (ESTABLISHED, 104, 104, [4; 5; 6], 501, 0)) by (vm_compute; reflexivity).
  assert (W : wire_op 100 (OSegment ex_reopen) c) by (apply wire_one; vm_compute; reflexivity).
  clearbody c. injection E as E1 E2 E3 E4 E5 E6.
  assert (S : stalled (c_sess c)).
  { split; [rewrite E1; cbn; intuition discriminate|]. intros _. split; [exact E6|rewrite E2, E3; reflexivity]. }
  destruct (H 100 ex_conn c ex_reopen ex_opened) as (m & t & T1 & T2 & T3); auto; try lia.
  - split; cbn; lia.
  - rewrite E4. discriminate.
  - cbn. lia.
  - rewrite run_first_op in T1.
    assert (R2 : reach (wire_op 100) c (fst (op_run (repeat OTick m) (fst (op_do (OSegment ex_reopen) c))))) by (eapply reach_trans; [apply reach_op; [apply reach_0|exact W]|apply ticks_wire]).
    destruct (stall_forever 100 ex_conn c _ ex_opened R S R2) as [_ N]. apply N in T1. tauto.
Qed.
Print Assumptions C73_resume_refuted.
(** in general: once everything sent is acknowledged with a closed window, no data is ever sent
    again, whatever the peer and the application do *)
Theorem C73_never_refuted : forall iss c0 c c', opened iss c0 -> reach (wire_op iss) c0 c -> In (st (c_sess c)) [ESTABLISHED; CLOSE_WAIT] ->
  snd_una (c_sess c) = snd_max (c_sess c) -> snd_ewn (c_sess c) = 0 -> reach (wire_op iss) c c' ->
  forall t, In t (sent (c_sess c')) -> In t (sent (c_sess c)) \/ x_data t = [].
Proof.
  intros iss c0 c c' O R U M E R2. apply (stall_forever iss c0 c c' O R); [|exact R2]. split; [|auto]. cbn in *. intuition congruence.
Qed.
Print Assumptions C73_never_refuted.
(** what does hold: as long as the peer never advertised less than what is in flight, the data
    is sent with the next tick *)
Theorem C73_resume_partial : forall iss c0 c, opened iss c0 -> ports_ok c0 -> iss + 2 < 2 ^ 32 -> reach (roomy_op iss) c0 c -> In (st (c_sess c)) [ESTABLISHED; CLOSE_WAIT] ->
  snd_una (c_sess c) = snd_max (c_sess c) -> tx_buf (c_sess c) <> [] ->
  let c1 := fst (op_do OTick c) in transmissions (snd_una (c_sess c)) (c_sess c1) = transmissions (snd_una (c_sess c)) (c_sess c) + 1.
Proof. intros iss c0 c O PO IB R U M B. apply (first_waits iss c0 c O PO IB R U M B). Qed.
Print Assumptions C73_resume_partial.
Example C73_example : let c := fst (op_run (firstn 4 ex_history) ex_conn) in
  reach (roomy_op 100) ex_conn c /\ st (c_sess c) = ESTABLISHED /\ snd_una (c_sess c) = snd_max (c_sess c) /\ tx_buf (c_sess c) = [1; 2; 3] /\
  let z := fst (op_run ex_zero ex_conn) in reach (wire_op 100) ex_conn z /\ st (c_sess z) = ESTABLISHED /\ snd_una (c_sess z) = snd_max (c_sess z) /\ snd_ewn (c_sess z) = 0.
Proof.
  cbv zeta. split; [apply reach_all, roomy_all; vm_compute; reflexivity|]. split; [vm_compute; reflexivity|]. split; [vm_compute; reflexivity|]. split; [vm_compute; reflexivity|].
  split; [apply reach_all, wire_all; vm_compute; reflexivity|]. split; [vm_compute; reflexivity|]. split; vm_compute; reflexivity.
Qed.
