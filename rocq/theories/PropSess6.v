(** C88: the out of order queue of a TCP session.  C67, again: acknowledgements of what was sent. *)
From Verif Require Import Base BaseLemmas AddrModel TcpModel StackModel StackRxModel SessModel SpecSess SpecSess2 SpecSess3 SessProofs SessTrace SessRun SessInv SessTx SessRx SessOoo SessTaken PropSess PropSess2 PropSess3.

(** * C88 *)
(** When a segment arrives in order, every segment kept that starts in what has been received by
    then is received, too. *)
Definition C88_queue_statement : Prop := forall iss irs stream c0 c p k q, 0 <= irs < 2 ^ 32 -> opened iss c0 -> reach (eof_op iss irs stream) c0 c ->
  eof_op iss irs stream (OSegment p) c -> st (c_sess c) = ESTABLISHED -> plain p -> d_seq p = rcv_nxt (c_sess c) -> snd_una (c_sess c) <= d_ackn p <= snd_max (c_sess c) ->
  In (k, q) (ooo (c_sess c)) -> let s' := c_sess (fst (op_do (OSegment p) c)) in k <= rcv_nxt s' -> k + zlen (d_data q) <= rcv_nxt s'.
(** the peer repeats a lost segment, acknowledging with it data that came in since: what follows
    it in the queue is thrown away *)
Definition ex_kept : list op :=
  [OTick; OSegment (ex_seg true true false false 500 101 1000 []); OSend [1; 2]; OTick; OTick; OSegment (ex_seg false true false false 503 101 1000 [9; 10])].
Definition ex_lost : tmd := ex_seg false true false false 501 103 1000 [7; 8].
Theorem C88_queue_refuted : ~ C88_queue_statement.
Proof.
  intros H. set (c := fst (op_run ex_kept ex_conn)).
  assert (R : reach (eof_op 100 500 [7; 8; 9; 10]) ex_conn c) by (apply reach_all, eof_all; vm_compute; reflexivity).
  specialize (H 100 500 [7; 8; 9; 10] ex_conn c ex_lost 503 (ex_seg false true false false 503 101 1000 [9; 10]) ltac:(lia) ex_opened R).
  assert (E : rcv_nxt (c_sess (fst (op_do (OSegment ex_lost) c))) = 503) by (vm_compute; reflexivity). cbv zeta in H. rewrite E in H.
  assert (503 + 2 <= 503); [|lia]. refine (H _ _ _ _ _ _ _).
  - apply eof_op_b. vm_compute. reflexivity.
  - vm_compute. reflexivity.
  - split; [reflexivity|split; [discriminate|vm_compute; congruence]].
  - vm_compute. reflexivity.
  - assert (X : snd_una (c_sess c) = 101 /\ snd_max (c_sess c) = 103) by (vm_compute; split; reflexivity). destruct X as [-> ->]. cbn. lia.
  - assert (X : ooo (c_sess c) = [(503, ex_seg false true false false 503 101 1000 [9; 10])]) by (vm_compute; reflexivity). rewrite X. left. reflexivity.
  - lia.
Qed.
Print Assumptions C88_queue_refuted.
(** and a segment whose first bytes were received with another one stays in the queue for good *)
Theorem C88_overlap_refuted : let c := fst (op_run [OTick; OSegment (ex_seg true true false false 500 101 1000 []); OSegment (ex_seg false true false false 503 101 1000 [9; 10]);
    OSegment (ex_seg false true false false 501 101 1000 [7; 8; 9])] ex_conn) in
  reach (eof_op 100 500 [7; 8; 9; 10]) ex_conn c /\ st (c_sess c) = ESTABLISHED /\ rcv_nxt (c_sess c) = 504 /\ rx_buf (c_sess c) = [7; 8; 9] /\ map fst (ooo (c_sess c)) = [503].
Proof. cbv zeta. split; [apply reach_all, eof_all; vm_compute; reflexivity|]. vm_compute. repeat split. Qed.
Print Assumptions C88_overlap_refuted.

(** A segment in order is received at once, and with it all segments of the queue that continue
    it, as long as their acknowledgement numbers do not decrease. *)
Theorem C88_queue_partial : forall iss c0 c p l, opened iss c0 -> reach (sane_op iss) c0 c -> st (c_sess c) = ESTABLISHED -> plain p ->
  d_seq p = rcv_nxt (c_sess c) -> snd_una (c_sess c) <= d_ackn p <= snd_max (c_sess c) -> in_line (d_ackn p) (rcv_nxt (c_sess c) + zlen (d_data p)) l (ooo (c_sess c)) ->
  let s := c_sess c in let c' := fst (op_do (OSegment p) c) in let s' := c_sess c' in
  snd (op_do (OSegment p) c) = Ok tt /\ st s' = ESTABLISHED /\ rcv_nxt s' = rcv_nxt s + zlen (bytes_of (p :: l)) /\ received c' = received c ++ bytes_of (p :: l) /\ 0 < ev_rx s' /\
  (forall k q, In (k, q) (ooo s') <-> In (k, q) (ooo s) /\ ~ In q l).
Proof. intros iss c0 c p l O R E PL SQ AK IL. pose proof (drain_reach iss c0 c p l O R E PL SQ AK IL). cbv zeta in *. tauto. Qed.
Print Assumptions C88_queue_partial.
(** Segments that all acknowledge the same may arrive in any order and any number of times each:
    the bytes received are the same. *)
Theorem C88_any_order : forall iss c0 c a l ps, opened iss c0 -> reach (sane_op iss) c0 c -> st (c_sess c) = ESTABLISHED -> ooo (c_sess c) = [] ->
  snd_una (c_sess c) <= a <= snd_max (c_sess c) -> cut a (rcv_nxt (c_sess c)) l -> zlen (bytes_of l) <= 65535 -> (forall p, In p ps <-> In p l) ->
  let c' := fst (op_run (map OSegment ps) c) in
  st (c_sess c') = ESTABLISHED /\ received c' = received c ++ bytes_of l /\ rcv_nxt (c_sess c') = rcv_nxt (c_sess c) + zlen (bytes_of l) /\ ooo (c_sess c') = [].
Proof. exact any_order. Qed.
Print Assumptions C88_any_order.
(** The first two segments that come too early after one in order are answered, each with an
    acknowledgement of what is missing. *)
Theorem C88_asked : forall iss c0 c p l q1 q2, opened iss c0 -> ports_ok c0 -> iss + 2 < 2 ^ 32 -> reach (roomy_op iss) c0 c -> st (c_sess c) = ESTABLISHED ->
  plain p -> roomy_op iss (OSegment p) c -> d_seq p = rcv_nxt (c_sess c) -> snd_una (c_sess c) <= d_ackn p <= snd_max (c_sess c) ->
  in_line (d_ackn p) (rcv_nxt (c_sess c) + zlen (d_data p)) l (ooo (c_sess c)) ->
  let c1 := fst (op_do (OSegment p) c) in let c3 := fst (op_run [OSegment q1; OSegment q2] c1) in
  roomy_op iss (OSegment q1) c1 -> early_in q1 (c_sess c1) -> early_in q2 (c_sess c1) ->
  exists t1 t2, sent (c_sess c3) = sent (c_sess c1) ++ [t1; t2] /\ pure_ack (rcv_nxt (c_sess c1)) t1 /\ pure_ack (rcv_nxt (c_sess c1)) t2.
Proof.
  intros iss c0 c p l q1 q2 O P I R E PL RP SQ AK IL c1 c3 RQ E1 E2. destruct (asked_twice iss c0 c p l q1 q2 O P I R E PL RP SQ AK IL RQ) as (t1 & t2 & T & K).
  - intros q [-> | ->]; assumption.
  - exists t1, t2. unfold c3. rewrite !run_first_op. split; [exact T|]. split; apply K; auto.
Qed.
Print Assumptions C88_asked.
Definition ex_up : list op := [OTick; OSegment (ex_seg true true false false 500 101 1000 [])].
Definition ex_piece (seq : Z) (d : bytes) : tmd := ex_seg false true false false seq 101 1000 d.
Example C88_any_order_example : let c := fst (op_run ex_up ex_conn) in
  let l := [ex_piece 501 [7]; ex_piece 502 [8; 9]; ex_piece 504 [10]] in let ps := [ex_piece 504 [10]; ex_piece 502 [8; 9]; ex_piece 504 [10]; ex_piece 501 [7]; ex_piece 502 [8; 9]] in
  reach (sane_op 100) ex_conn c /\ st (c_sess c) = ESTABLISHED /\ ooo (c_sess c) = [] /\ snd_una (c_sess c) <= 101 <= snd_max (c_sess c) /\ cut 101 (rcv_nxt (c_sess c)) l /\
  zlen (bytes_of l) <= 65535 /\ (forall p, In p ps <-> In p l) /\ received (fst (op_run (map OSegment ps) c)) = [7; 8; 9; 10].
Proof.
  cbv zeta. split; [apply reach_all, sane_all; vm_compute; reflexivity|]. do 2 (split; [vm_compute; reflexivity|]). split; [vm_compute; split; congruence|].
  split; [repeat split; vm_compute; congruence|]. split; [vm_compute; congruence|]. split; [cbn [In]; tauto|vm_compute; reflexivity].
Qed.
Example C88_queue_example : let c := fst (op_run (ex_up ++ [OSegment (ex_piece 504 [10]); OSegment (ex_piece 503 [9])]) ex_conn) in
  let p := ex_piece 501 [7; 8] in reach (roomy_op 100) ex_conn c /\ ports_ok ex_conn /\ roomy_op 100 (OSegment p) c /\ st (c_sess c) = ESTABLISHED /\ plain p /\ d_seq p = rcv_nxt (c_sess c) /\
  in_line (d_ackn p) (rcv_nxt (c_sess c) + zlen (d_data p)) [ex_piece 503 [9]; ex_piece 504 [10]] (ooo (c_sess c)) /\
  let c1 := fst (op_do (OSegment p) c) in roomy_op 100 (OSegment (ex_piece 509 [1])) c1 /\ early_in (ex_piece 509 [1]) (c_sess c1) /\ early_in (ex_piece 507 [1]) (c_sess c1).
Proof.
  cbv zeta. split; [apply reach_all, roomy_all; vm_compute; reflexivity|]. split; [vm_compute; repeat split; congruence|]. split; [apply roomy_one; vm_compute; reflexivity|].
  split; [vm_compute; reflexivity|]. split; [repeat split; vm_compute; congruence|]. split; [vm_compute; reflexivity|]. split; [|split; [apply roomy_one; vm_compute; reflexivity|split]].
  - split; [vm_compute; tauto|]. split; [repeat split; vm_compute; congruence|]. split; [vm_compute; congruence|]. split; [vm_compute; tauto|]. split; [repeat split; vm_compute; congruence|]. split; [vm_compute; congruence|].
    intros q Q. vm_compute in Q. intuition congruence.
  - repeat split; vm_compute; congruence.
  - repeat split; vm_compute; congruence.
Qed.

(** * C67, again: what was sent can be acknowledged, even when it is being sent anew *)
Theorem C67_taken : forall iss c0 c p t, opened iss c0 -> reach (sane_op iss) c0 c -> flags_of p = (false, true, false, false) -> d_data p = [] -> d_seq p = rcv_nxt (c_sess c) ->
  In (st (c_sess c)) [ESTABLISHED; FIN_WAIT_1; FIN_WAIT_2; CLOSE_WAIT] -> In t (sent (c_sess c)) -> snd_una (c_sess c) < d_ackn p <= seg_end t ->
  d_ackn p <= snd_una (c_sess (fst (op_do (OSegment p) c))).
Proof. exact taken_reach. Qed.
Print Assumptions C67_taken.
Example C67_taken_example : let dup := OSegment (ex_seg false true false false 501 101 1000 []) in let c := fst (op_run (ex_up ++ [OSend [1; 2; 3]; OTick; dup; dup]) ex_conn) in
  let p := ex_seg false true false false 501 104 1000 [] in
  reach (sane_op 100) ex_conn c /\ st (c_sess c) = ESTABLISHED /\ d_seq p = rcv_nxt (c_sess c) /\ snd_nxt (c_sess c) = 101 /\ snd_una (c_sess c) = 101 /\
  (exists t, In t (sent (c_sess c)) /\ seg_end t = 104) /\ snd_una (c_sess (fst (op_do (OSegment p) c))) = 104.
Proof.
  cbv zeta. split; [apply reach_all, sane_all; vm_compute; reflexivity|]. do 4 (split; [vm_compute; reflexivity|]). split; [|vm_compute; reflexivity].
  eexists. split; [vm_compute; do 2 right; left; reflexivity|reflexivity].
Qed.
