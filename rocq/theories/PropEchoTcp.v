(** C108: the TCP echo service of the examples. *)
From Verif Require Import Base BaseLemmas AddrModel TcpModel StackModel StackRxModel SessModel SpecSess SpecSess2 SpecSess3 SessProofs SessTrace SessRun SessInv SessTx SessRx SessKeep SessRead PropSess PropSess2 PropSess3
  EchoModel SpecEcho EchoProofs EchoTcpModel SpecEchoTcp EchoTcpProofs EchoTcpProofs2.

(** * What it says *)
(** at every moment the service has written the greeting and one answer for each recv() that
    returned, in the order of the recv()s; the last may still be unanswered *)
Theorem C108_replies : forall iss c es, handed (sane_op iss) iss c -> segments (sane_seg iss) es (serve c) ->
  transcript (v_at (srv_run es (serve c))) (v_conn (srv_run es (serve c))).
Proof. intros iss c es H G. exact (proj2 (proj2 (handed_run _ _ iss c H (fun o c X => X) (fair_sane iss) es G))). Qed.
Print Assumptions C108_replies.
(** what it answers is what the client sent, cut into pieces, and what is transmitted is what it
    answered *)
Theorem C108_stream : forall iss irs stream c es, 0 <= irs < 2 ^ 32 -> handed (eof_op iss irs stream) iss c ->
  segments (fun p c => sane_seg iss p c /\ from_peer irs stream (zlen (received c)) p) es (serve c) ->
  let c' := v_conn (srv_run es (serve c)) in
  prefix (concat (c_read c')) stream /\ Forall (carries iss (c_written c')) (sent (c_sess c')).
Proof. exact srv_stream. Qed.
Print Assumptions C108_stream.

(** * How it ends *)
(** no exception but the BrokenPipeError of a send() on a connection that takes no more data *)
Theorem C108_ends : forall iss c, handed (sane_op iss) iss c -> forall es, segments (sane_seg iss) es (serve c) ->
  forall e, v_at (srv_run es (serve c)) = SDied e -> e = BrokenPipe /\
  exists es1 es2, es = es1 ++ SThread :: es2 /\ let s := srv_run es1 (serve c) in
    (v_at s = SGreet \/ exists m, v_at s = SGot m) /\ ~ In (st (c_sess (v_conn s))) [ESTABLISHED; CLOSE_WAIT].
Proof. exact srv_died. Qed.
Print Assumptions C108_ends.
(** after stop() at most one recv() returns, whatever the state *)
Theorem C108_stop : forall es s,
  (length (c_read (v_conn (srv_run (SStop :: es) s))) <= length (c_read (v_conn s)) + match v_at s with SRecv => 1 | _ => 0 end)%nat.
Proof. intros es s. exact (srv_stops es (srv_do SStop s) eq_refl). Qed.
Print Assumptions C108_stop.
(** with a connection that takes the answer, close() follows when the client has gone and when it
    takes leave, and only then; in the first case the thread returns, else it goes on *)
Theorem C108_closes : forall s m, v_at s = SGot m -> In (st (c_sess (v_conn s))) [ESTABLISHED; CLOSE_WAIT] ->
  let s' := srv_run [SThread; SThread] s in
  (m = [] -> v_at s' = SDone /\ closing (c_sess (v_conn s')) = true) /\
  (m <> [] -> takes_leave m -> v_at s' = STest /\ closing (c_sess (v_conn s')) = true) /\
  (m <> [] -> ~ takes_leave m -> v_at s' = (if v_run s then SRecv else SDone) /\ closing (c_sess (v_conn s')) = closing (c_sess (v_conn s))).
Proof. exact srv_closes. Qed.
Print Assumptions C108_closes.

(** the thread returns after stop() or after a recv() that returned nothing, and for no other
    reason *)
Theorem C108_returns : forall es c, v_at (srv_run es (serve c)) = SDone -> In SStop es \/ exists l, c_read (v_conn (srv_run es (serve c))) = l ++ [[]].
Proof.
  intros es c D. destruct (stop_dec es) as [X|X]; [left; exact X|right]. destruct (srv_why es (serve c) X (conj eq_refl Logic.I)) as [_ W]. rewrite D in W. exact W.
Qed.
Print Assumptions C108_returns.

(** * A client for the examples *)
Definition ex_accept : list op :=
  [OSegment (ex_seg true false false false 500 0 1000 []); OTick; OSegment (ex_seg false true false false 501 101 1000 [])].
Definition ex_handed : conn := fst (op_run ex_accept ex_listen).
Definition ex_data (seq ackn : Z) (d : bytes) : srv_ev := SSegment (ex_seg false true false false seq ackn 1000 d).
Definition ex_fin (seq ackn : Z) : srv_ev := SSegment (ex_seg false true true false seq ackn 1000 []).
Lemma ex_passive : passive 100 ex_listen.
Proof. split; [lia|]. exists (A4 1), 1000, (A4 2), 80. reflexivity. Qed.
Lemma ex_handed_eof stream : handed (eof_op 100 500 stream) 100 ex_handed.
Proof.
  exists ex_listen. split; [exact ex_passive|]. split; [|split; [left; vm_compute; reflexivity|repeat split; vm_compute; reflexivity]].
  apply reach_all, eof_all. vm_compute. reflexivity.
Qed.
Lemma ex_handed_sane : handed (sane_op 100) 100 ex_handed.
Proof.
  destruct (ex_handed_eof []) as (c0 & P & R & X). exists c0. split; [exact P|]. split; [|exact X].
  eapply reach_more; [|exact R]. intros o c Y. apply Y.
Qed.
Definition peer_segb (irs : Z) (stream : bytes) (p : tmd) (c : conn) : bool :=
  negb (d_ackn p =? 100) && (0 <=? d_mss p) && from_peerb irs stream (zlen (received c)) p.
Fixpoint segmentsb (f : tmd -> conn -> bool) (es : list srv_ev) (s : srv) : bool :=
  match es with [] => true | e :: r => match e with SSegment p => f p (v_conn s) | _ => true end && segmentsb f r (srv_do e s) end.
Lemma segments_b irs stream es : forall s, segmentsb (peer_segb irs stream) es s = true ->
  segments (fun p c => sane_seg 100 p c /\ from_peer irs stream (zlen (received c)) p) es s.
Proof.
  induction es as [|e es IH]; intros s H; [exact Logic.I|]. cbn [segmentsb] in H. apply andb_true_iff in H. destruct H as [H1 H2].
  split; [|apply IH; exact H2]. destruct e as [| | |p]; try exact Logic.I. unfold peer_segb in H1. rewrite !andb_true_iff in H1. destruct H1 as [[A M] F].
  split; [|apply from_peer_b; exact F]. split; [|apply Z.leb_le; exact M]. apply negb_true_iff, Z.eqb_neq in A. exact A.
Qed.
Lemma segments_sane irs stream es : forall s, segments (fun p c => sane_seg 100 p c /\ from_peer irs stream (zlen (received c)) p) es s -> segments (sane_seg 100) es s.
Proof. induction es as [|e es IH]; intros s H; [exact Logic.I|]. destruct H as [H1 H2]. split; [|apply IH; exact H2]. destruct e; try exact Logic.I. apply H1. Qed.
(** it says "hi", is answered and goes *)
Definition ex_visit : list srv_ev :=
  [SThread; STick; SThread; ex_data 501 134 [104; 105; 10]; SThread; SThread; SThread; SThread; STick; ex_fin 504 137; SThread; SThread; SThread; SThread; SThread; SThread].
Example C108_example_visit : let s := srv_run ex_visit (serve ex_handed) in
  handed (eof_op 100 500 [104; 105; 10]) 100 ex_handed /\
  segments (fun p c => sane_seg 100 p c /\ from_peer 500 [104; 105; 10] (zlen (received c)) p) ex_visit (serve ex_handed) /\
  v_at s = SDone /\ c_read (v_conn s) = [[104; 105; 10]; []] /\ c_written (v_conn s) = hello ++ [104; 105; 10] ++ client_closed.
Proof. split; [apply ex_handed_eof|]. split; [apply segments_b; vm_compute; reflexivity|]. repeat split; vm_compute; reflexivity. Qed.
Example C108_example_gone : let s := srv_run (firstn 14 ex_visit) (serve ex_handed) in v_at s = SGot [] /\ st (c_sess (v_conn s)) = CLOSE_WAIT.
Proof. split; vm_compute; reflexivity. Qed.
(** " Bye\n" *)
Example C108_example_words : takes_leave [32; 66; 121; 101; 10] /\ ~ takes_leave [98; 121; 101; 33] /\ reply_to [98; 121; 101; 33] [98; 121; 101; 33].
Proof.
  split; [apply quits_iff; vm_compute; reflexivity|]. split; [rewrite <- quits_iff; vm_compute; discriminate|].
  assert (E : srv_reply [98; 121; 101; 33] = [98; 121; 101; 33]) by (vm_compute; reflexivity). rewrite <- E at 2. apply srv_replies.
Qed.
Example C108_example_stop : let s := srv_run (SStop :: ex_visit) (serve ex_handed) in v_at s = SDone /\ c_read (v_conn s) = [] /\ c_written (v_conn s) = hello.
Proof. repeat split; vm_compute; reflexivity. Qed.

(** * What it should do and does not *)
(** the client is told it has gone only when it has *)
Definition C108_polite_statement : Prop := forall iss irs stream c es, 0 <= irs < 2 ^ 32 -> handed (eof_op iss irs stream) iss c ->
  segments (fun p c => sane_seg iss p c /\ from_peer irs stream (zlen (received c)) p) es (serve c) ->
  let s := srv_run es (serve c) in v_at s = SGot [] -> concat (c_read (v_conn s)) = stream \/ aborted (c_sess (v_conn s)).
(** two messages, the second arriving in the middle of the recv() for the first: the service
    takes the client for gone and closes *)
Definition ex_hasty : list srv_ev := [SThread; SThread; ex_data 501 101 [7; 8]; SThread; ex_data 503 101 [9; 10]] ++ repeat SThread 8.
Theorem C108_polite_refuted : ~ C108_polite_statement.
Proof.
  intros H. specialize (H 100 500 [7; 8; 9; 10; 11] ex_handed ex_hasty ltac:(lia) (ex_handed_eof _)). cbv zeta in H.
  assert (G : segmentsb (peer_segb 500 [7; 8; 9; 10; 11]) ex_hasty (serve ex_handed) = true) by (vm_compute; reflexivity). apply segments_b in G.
  assert (A : v_at (srv_run ex_hasty (serve ex_handed)) = SGot []) by (vm_compute; reflexivity).
  assert (R : concat (c_read (v_conn (srv_run ex_hasty (serve ex_handed)))) = [7; 8; 9; 10]) by (vm_compute; reflexivity).
  assert (T : map snd (hist (c_sess (v_conn (srv_run ex_hasty (serve ex_handed))))) = [LISTEN; SYN_RCVD; ESTABLISHED]) by (vm_compute; reflexivity).
  destruct (H G A) as [X|(a & X & _)]; [rewrite R in X; discriminate X|].
  apply (in_map snd) in X. rewrite T in X. clear - X. cbn in X. intuition discriminate.
Qed.
Print Assumptions C108_polite_refuted.
(** it does hold when nothing comes in the middle of a recv(): when recv() returns nothing, the
    client's stream has been read to its end, unless the connection was aborted; missing against the
    full statement: segments and milliseconds between the steps of one recv() *)
Theorem C108_polite_partial : forall iss irs stream c es, 0 <= irs < 2 ^ 32 -> handed_whole (eof_op iss irs stream) iss c ->
  unbroken (fun p c => sane_seg iss p c /\ from_peer irs stream (zlen (received c)) p) es (serve c) ->
  let s := srv_run es (serve c) in v_at s = SRecv -> v_at (srv_do SThread s) = SGot [] ->
  concat (c_read (v_conn s)) = stream \/ aborted (c_sess (v_conn s)).
Proof. exact polite. Qed.
Print Assumptions C108_polite_partial.
Fixpoint unbrokenb (f : tmd -> conn -> bool) (es : list srv_ev) (s : srv) : bool :=
  let idle := match c_rd (v_conn s) 0%nat with RIdle => true | _ => false end in
  match es with [] => true | e :: r => match e with SSegment p => f p (v_conn s) && idle | STick => idle | _ => true end && unbrokenb f r (srv_do e s) end.
Lemma unbroken_b irs stream es : forall s, unbrokenb (peer_segb irs stream) es s = true ->
  unbroken (fun p c => sane_seg 100 p c /\ from_peer irs stream (zlen (received c)) p) es s.
Proof.
  induction es as [|e es IH]; intros s H; [exact Logic.I|]. cbn [unbrokenb] in H. apply andb_true_iff in H. destruct H as [H1 H2].
  split; [|apply IH; exact H2]. destruct e as [| | |p]; try exact Logic.I.
  - cbn [whole_ev]. destruct (c_rd (v_conn s) 0%nat); congruence.
  - apply andb_true_iff in H1. destruct H1 as [H1 I]. split; [|destruct (c_rd (v_conn s) 0%nat); congruence].
    apply (segments_b irs stream [SSegment p] s). cbn [segmentsb]. rewrite H1. reflexivity.
Qed.
Example C108_example_unbroken : let s := srv_run (firstn 13 ex_visit) (serve ex_handed) in handed_whole (eof_op 100 500 [104; 105; 10]) 100 ex_handed /\
  unbroken (fun p c => sane_seg 100 p c /\ from_peer 500 [104; 105; 10] (zlen (received c)) p) (firstn 13 ex_visit) (serve ex_handed) /\
  v_at s = SRecv /\ v_at (srv_do SThread s) = SGot [] /\ concat (c_read (v_conn s)) = [104; 105; 10].
Proof.
  split; [|split; [apply unbroken_b; vm_compute; reflexivity|repeat split; vm_compute; reflexivity]].
  exists ex_listen. split; [exact ex_passive|]. split; [|split; [left; vm_compute; reflexivity|split; vm_compute; reflexivity]].
  apply (arun_reach 100 500 [104; 105; 10] ex_listen ex_accept ex_listen); [apply areach_0|vm_compute; reflexivity].
Qed.
(** a well-behaved client does not make the thread end with an exception *)
Definition C108_alive_statement : Prop := forall iss irs stream c es, 0 <= irs < 2 ^ 32 -> handed (eof_op iss irs stream) iss c ->
  segments (fun p c => sane_seg iss p c /\ from_peer irs stream (zlen (received c)) p) es (serve c) ->
  forall e, v_at (srv_run es (serve c)) <> SDied e.
(** it says "quit" and one thing more: the thread, which goes on reading, wants to answer on the
    connection it has closed *)
Definition ex_quit : list srv_ev :=
  [SThread; SThread; ex_data 501 101 [113; 117; 105; 116]] ++ repeat SThread 5 ++ [STick; ex_data 505 169 []; STick; STick; ex_data 505 170 [104; 105]] ++ repeat SThread 5.
Theorem C108_alive_refuted : ~ C108_alive_statement.
Proof.
  intros H. specialize (H 100 500 [113; 117; 105; 116; 104; 105] ex_handed ex_quit ltac:(lia) (ex_handed_eof _)).
  assert (G : segmentsb (peer_segb 500 [113; 117; 105; 116; 104; 105]) ex_quit (serve ex_handed) = true) by (vm_compute; reflexivity). apply segments_b in G.
  apply (H G BrokenPipe). vm_compute. reflexivity.
Qed.
Print Assumptions C108_alive_refuted.
(** when both sides have closed, the thread comes to an end *)
Definition C108_leaves_statement : Prop := forall iss irs stream c es, 0 <= irs < 2 ^ 32 -> handed (eof_op iss irs stream) iss c ->
  segments (fun p c => sane_seg iss p c /\ from_peer irs stream (zlen (received c)) p) es (serve c) ->
  let s := srv_run es (serve c) in In (st (c_sess (v_conn s))) [TIME_WAIT; CLOSED] ->
  exists n, match v_at (srv_run (repeat SThread n) s) with SDone | SDied _ => True | _ => False end.
(** the client takes leave with "quit" and closes when the service has closed: the thread, which
    went on reading, is not told of it and waits for ever *)
Definition ex_goodbye : list srv_ev :=
  [SThread; SThread; ex_data 501 101 [113; 117; 105; 116]] ++ repeat SThread 5 ++ [STick; ex_data 505 169 []; STick; STick; ex_fin 505 170] ++ repeat SThread 5.
Definition waiting (s : srv) : Prop := v_at s = SRecv /\ c_rd (v_conn s) 0%nat = RIdle /\ ev_rx (c_sess (v_conn s)) = 0.
Lemma waits n : forall s, waiting s -> waiting (srv_run (repeat SThread n) s).
Proof.
  induction n as [|n IH]; intros s W; [exact W|]. cbn [repeat srv_run]. apply IH. destruct W as (A & R & E).
  unfold srv_do. cbn [srv_op]. rewrite A. cbn [op_do]. rewrite R. cbn [read_step]. rewrite E. cbn. repeat split; auto.
Qed.
Theorem C108_leaves_refuted : ~ C108_leaves_statement.
Proof.
  intros H. specialize (H 100 500 [113; 117; 105; 116] ex_handed ex_goodbye ltac:(lia) (ex_handed_eof _)). cbv zeta in H.
  assert (G : segmentsb (peer_segb 500 [113; 117; 105; 116]) ex_goodbye (serve ex_handed) = true) by (vm_compute; reflexivity). apply segments_b in G.
  assert (T : st (c_sess (v_conn (srv_run ex_goodbye (serve ex_handed)))) = TIME_WAIT) by (vm_compute; reflexivity).
  assert (W : waiting (srv_run ex_goodbye (serve ex_handed))) by (repeat split; vm_compute; reflexivity).
  destruct (H G) as (n & X); [left; symmetry; exact T|]. destruct (waits n _ W) as (A & _). rewrite A in X. exact X.
Qed.
Print Assumptions C108_leaves_refuted.
(** nothing is written after the message that the service is closing *)
Definition C108_last_statement : Prop := forall iss c es es' again, handed (sane_op iss) iss c -> segments (sane_seg iss) (es ++ es') (serve c) ->
  v_at (srv_run es (serve c)) = SClose again -> c_written (v_conn (srv_run (es ++ es') (serve c))) = c_written (v_conn (srv_run es (serve c))).
(** the client goes on talking before the FIN has left, and is answered *)
Definition ex_leave : list srv_ev := [SThread; SThread; ex_data 501 101 [113; 117; 105; 116]] ++ repeat SThread 4.
Definition ex_after : list srv_ev := [SThread; SThread; ex_data 505 101 [104; 105]] ++ repeat SThread 4.
Theorem C108_last_refuted : ~ C108_last_statement.
Proof.
  intros H. specialize (H 100 ex_handed ex_leave ex_after true ex_handed_sane).
  assert (G : segmentsb (peer_segb 500 [113; 117; 105; 116; 104; 105]) (ex_leave ++ ex_after) (serve ex_handed) = true) by (vm_compute; reflexivity).
  apply segments_b, segments_sane in G. specialize (H G ltac:(vm_compute; reflexivity)).
  apply (f_equal zlen) in H. vm_compute in H. discriminate H.
Qed.
Print Assumptions C108_last_refuted.
