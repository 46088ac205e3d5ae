(** C112: the TCP discard service of the examples. *)
From Verif Require Import Base BaseLemmas AddrModel TcpModel StackModel StackRxModel SessModel SpecSess SpecSess2 SpecSess3 SessProofs SessTrace SessRun SessInv SessTx SessRx SessKeep SessRead PropSess PropSess2 PropSess3
  EchoModel SpecEcho EchoProofs EchoTcpModel SpecEchoTcp EchoTcpProofs EchoTcpProofs2 PropEchoTcp DiscardModel SpecDiscard DiscardProofs.

(** * What it says *)
(** at every moment the service has written the greeting and a notice for each recv() that said
    the client has gone or takes leave, in their order, and nothing about data *)
Theorem C112_says : forall iss c es, handed (sane_op iss) iss c -> dsc_segments (sane_seg iss) es (discard c) ->
  dsc_transcript (z_at (dsc_run es (discard c))) (z_conn (dsc_run es (discard c))).
Proof. intros iss c es H G. exact (proj2 (proj2 (dsc_handed _ _ iss c H (fun o c X => X) (fair_sane iss) es G))). Qed.
Print Assumptions C112_says.
(** what it takes for the client's messages is what the client sent, cut into pieces, and what is
    transmitted is what it wrote *)
Theorem C112_stream : forall iss irs stream c es, 0 <= irs < 2 ^ 32 -> handed (eof_op iss irs stream) iss c ->
  dsc_segments (fun p c => sane_seg iss p c /\ from_peer irs stream (zlen (received c)) p) es (discard c) ->
  let c' := z_conn (dsc_run es (discard c)) in
  prefix (concat (c_read c')) stream /\ Forall (carries iss (c_written c')) (sent (c_sess c')).
Proof. exact dsc_stream. Qed.
Print Assumptions C112_stream.

(** * How it ends *)
(** no exception but the BrokenPipeError of a send() on a connection that takes no more data: of
    the greeting or of a notice *)
Theorem C112_ends : forall iss c, handed (sane_op iss) iss c -> forall es, dsc_segments (sane_seg iss) es (discard c) ->
  forall e, z_at (dsc_run es (discard c)) = XDied e -> e = BrokenPipe /\
  exists es1 es2, es = es1 ++ SThread :: es2 /\ let s := dsc_run es1 (discard c) in
    (z_at s = XGreet \/ exists m, z_at s = XGot m /\ (m = [] \/ takes_leave m)) /\ ~ In (st (c_sess (z_conn s))) [ESTABLISHED; CLOSE_WAIT].
Proof. exact dsc_died. Qed.
Print Assumptions C112_ends.
(** after stop() at most one recv() returns, whatever the state *)
Theorem C112_stop : forall es s,
  (length (c_read (z_conn (dsc_run (SStop :: es) s))) <= length (c_read (z_conn s)) + match z_at s with XRecv => 1 | _ => 0 end)%nat.
Proof. intros es s. exact (dsc_stops es (dsc_do SStop s) eq_refl). Qed.
Print Assumptions C112_stop.
(** with a connection that takes the notice, close() follows when the client has gone and when it
    takes leave; in the first case the thread returns, else it goes on; other data changes nothing
    but the place of the thread.  A stopped service closes the connection too *)
Theorem C112_closes :
  (forall s m, z_at s = XGot m -> In (st (c_sess (z_conn s))) [ESTABLISHED; CLOSE_WAIT] ->
    (m = [] -> let s' := dsc_run [SThread; SThread; SThread] s in z_at s' = XDone /\ closing (c_sess (z_conn s')) = true) /\
    (m <> [] -> takes_leave m -> let s' := dsc_run [SThread; SThread] s in z_at s' = XTest /\ closing (c_sess (z_conn s')) = true) /\
    (m <> [] -> ~ takes_leave m -> dsc_do SThread s = {| z_conn := z_conn s; z_at := XTest; z_run := z_run s |})) /\
  (forall s, z_at s = XTest -> In (st (c_sess (z_conn s))) [ESTABLISHED; CLOSE_WAIT] ->
    let s' := dsc_run [SStop; SThread; SThread] s in z_at s' = XDone /\ closing (c_sess (z_conn s')) = true).
Proof. split; [exact dsc_closes|]. intros s A W. exact (dsc_last (dsc_do SStop s) A eq_refl W). Qed.
Print Assumptions C112_closes.

(** it returns after stop() or after a recv() that returned nothing, and for no other reason *)
Theorem C112_returns : forall es c, z_at (dsc_run es (discard c)) = XDone -> In SStop es \/ exists l, c_read (z_conn (dsc_run es (discard c))) = l ++ [[]].
Proof.
  intros es c D. assert (X : In SStop es \/ ~ In SStop es) by (apply stop_dec).
  destruct X as [X|X]; [left; exact X|right]. destruct (dsc_why es (discard c) X (conj eq_refl Logic.I)) as [_ W]. rewrite D in W. exact W.
Qed.
Print Assumptions C112_returns.

(** * Clients for the examples *)
Fixpoint dsc_segmentsb (f : tmd -> conn -> bool) (es : list srv_ev) (s : dsc) : bool :=
  match es with [] => true | e :: r => match e with SSegment p => f p (z_conn s) | _ => true end && dsc_segmentsb f r (dsc_do e s) end.
Lemma dsc_segments_b irs stream es : forall s, dsc_segmentsb (peer_segb irs stream) es s = true ->
  dsc_segments (fun p c => sane_seg 100 p c /\ from_peer irs stream (zlen (received c)) p) es s.
Proof.
  induction es as [|e es IH]; intros s H; [exact Logic.I|]. cbn [dsc_segmentsb] in H. apply andb_true_iff in H. destruct H as [H1 H2].
  split; [|apply IH; exact H2]. destruct e as [| | |p]; try exact Logic.I. unfold peer_segb in H1. rewrite !andb_true_iff in H1. destruct H1 as [[A M] F].
  split; [|apply from_peer_b; exact F]. split; [|apply Z.leb_le; exact M]. apply negb_true_iff, Z.eqb_neq in A. exact A.
Qed.
Lemma dsc_segments_sane irs stream es : forall s, dsc_segments (fun p c => sane_seg 100 p c /\ from_peer irs stream (zlen (received c)) p) es s -> dsc_segments (sane_seg 100) es s.
Proof. induction es as [|e es IH]; intros s H; [exact Logic.I|]. destruct H as [H1 H2]. split; [|apply IH; exact H2]. destruct e; try exact Logic.I. apply H1. Qed.
(** it says "hi" and goes *)
Definition ex_drop : list srv_ev :=
  [SThread; STick; SThread; ex_data 501 134 [104; 105; 10]; SThread; SThread; SThread; SThread; STick; ex_fin 504 134] ++ repeat SThread 7.
Example C112_example_visit : let s := dsc_run ex_drop (discard ex_handed) in
  handed (eof_op 100 500 [104; 105; 10]) 100 ex_handed /\
  dsc_segments (fun p c => sane_seg 100 p c /\ from_peer 500 [104; 105; 10] (zlen (received c)) p) ex_drop (discard ex_handed) /\
  z_at s = XDone /\ c_read (z_conn s) = [[104; 105; 10]; []] /\ c_written (z_conn s) = hello ++ client_closed.
Proof. split; [apply ex_handed_eof|]. split; [apply dsc_segments_b; vm_compute; reflexivity|]. repeat split; vm_compute; reflexivity. Qed.
Example C112_example_gone : let s := dsc_run (firstn 14 ex_drop) (discard ex_handed) in z_at s = XGot [] /\ st (c_sess (z_conn s)) = CLOSE_WAIT.
Proof. split; vm_compute; reflexivity. Qed.
Example C112_example_stop : let s := dsc_run [SThread; SStop; SThread; SThread] (discard ex_handed) in z_at s = XDone /\ c_written (z_conn s) = hello.
Proof. split; vm_compute; reflexivity. Qed.

(** * What it should do and does not *)
(** a well-behaved client does not make the thread end with an exception *)
Definition C112_alive_statement : Prop := forall iss irs stream c es, 0 <= irs < 2 ^ 32 -> handed (eof_op iss irs stream) iss c ->
  dsc_segments (fun p c => sane_seg iss p c /\ from_peer irs stream (zlen (received c)) p) es (discard c) ->
  forall e, z_at (dsc_run es (discard c)) <> XDied e.
(** it says "quit" twice: the thread, which goes on reading, wants to tell it again on the
    connection it has closed *)
Definition ex_twice : list srv_ev :=
  [SThread; SThread; ex_data 501 101 [113; 117; 105; 116]] ++ repeat SThread 5 ++ [STick; ex_data 505 169 []; STick; STick; ex_data 505 170 [113; 117; 105; 116]] ++ repeat SThread 5.
Theorem C112_alive_refuted : ~ C112_alive_statement.
Proof.
  intros H. specialize (H 100 500 [113; 117; 105; 116; 113; 117; 105; 116] ex_handed ex_twice ltac:(lia) (ex_handed_eof _)).
  assert (G : dsc_segmentsb (peer_segb 500 [113; 117; 105; 116; 113; 117; 105; 116]) ex_twice (discard ex_handed) = true) by (vm_compute; reflexivity). apply dsc_segments_b in G.
  apply (H G BrokenPipe). vm_compute. reflexivity.
Qed.
Print Assumptions C112_alive_refuted.
(** when both sides have closed, the thread comes to an end *)
Definition C112_leaves_statement : Prop := forall iss irs stream c es, 0 <= irs < 2 ^ 32 -> handed (eof_op iss irs stream) iss c ->
  dsc_segments (fun p c => sane_seg iss p c /\ from_peer irs stream (zlen (received c)) p) es (discard c) ->
  let s := dsc_run es (discard c) in In (st (c_sess (z_conn s))) [TIME_WAIT; CLOSED] ->
  exists n, match z_at (dsc_run (repeat SThread n) s) with XDone | XDied _ => True | _ => False end.
(** the client of the echo service that takes leave, [ex_goodbye]: here too the thread waits for
    ever *)
Definition dsc_waiting (s : dsc) : Prop := z_at s = XRecv /\ c_rd (z_conn s) 0%nat = RIdle /\ ev_rx (c_sess (z_conn s)) = 0.
Lemma dsc_waits n : forall s, dsc_waiting s -> dsc_waiting (dsc_run (repeat SThread n) s).
Proof.
  induction n as [|n IH]; intros s W; [exact W|]. cbn [repeat dsc_run]. apply IH. destruct W as (A & R & E).
  unfold dsc_do. cbn [dsc_op]. rewrite A. cbn [op_do]. rewrite R. cbn [read_step]. rewrite E. cbn. repeat split; auto.
Qed.
Theorem C112_leaves_refuted : ~ C112_leaves_statement.
Proof.
  intros H. specialize (H 100 500 [113; 117; 105; 116] ex_handed ex_goodbye ltac:(lia) (ex_handed_eof _)). cbv zeta in H.
  assert (G : dsc_segmentsb (peer_segb 500 [113; 117; 105; 116]) ex_goodbye (discard ex_handed) = true) by (vm_compute; reflexivity). apply dsc_segments_b in G.
  assert (T : st (c_sess (z_conn (dsc_run ex_goodbye (discard ex_handed)))) = TIME_WAIT) by (vm_compute; reflexivity).
  assert (W : dsc_waiting (dsc_run ex_goodbye (discard ex_handed))) by (repeat split; vm_compute; reflexivity).
  destruct (H G) as (n & X); [left; symmetry; exact T|]. destruct (dsc_waits n _ W) as (A & _). rewrite A in X. exact X.
Qed.
Print Assumptions C112_leaves_refuted.
