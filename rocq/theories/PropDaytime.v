(** C110: the TCP daytime service of the examples. *)
From Verif Require Import Base BaseLemmas AddrModel TcpModel StackModel StackRxModel SessModel SpecSess SpecSess2 SpecSess3 SessProofs SessTrace SessRun SessInv SessTx SessRx SessKeep SessRead PropSess PropSess2 PropSess3
  EchoModel SpecEcho EchoProofs EchoTcpModel SpecEchoTcp EchoTcpProofs PropEchoTcp DaytimeModel SpecDaytime DaytimeProofs.

(** * What it says *)
(** at every moment: the greeting and then times the clock has shown, one per line, in order and
    not more than the count asked for; nothing the client sends is read; close() comes only after
    stop(), after the count of lines, or when the connection takes no more data *)
Theorem C110_says : forall iss c k es, handed (sane_op iss) iss c -> day_segments (sane_seg iss) es (daytime k c) ->
  let s := day_run es (daytime k c) in
  c_read (y_conn s) = [] /\ exists ts, part_of ts (clocks es) /\ told ts s /\ (0 <= k -> zlen ts <= k) /\
  (y_at s = DClose -> y_run s = false \/ zlen ts = k \/ ~ accepts (y_conn s)).
Proof. exact day_says. Qed.
Print Assumptions C110_says.
(** and that is what the segments carry *)
Theorem C110_stream : forall iss irs stream c k es, handed (eof_op iss irs stream) iss c ->
  day_segments (fun p c => sane_seg iss p c /\ from_peer irs stream (zlen (received c)) p) es (daytime k c) ->
  let c' := y_conn (day_run es (daytime k c)) in Forall (carries iss (c_written c')) (sent (c_sess c')).
Proof. exact day_stream. Qed.
Print Assumptions C110_stream.
(** * How it goes on and how it ends *)
(** one round of the loop: a line is written, and the count is one less *)
Theorem C110_round : forall s t, accepts (y_conn s) -> y_run s = true -> y_count s <> 0 -> y_at s = DTest ->
  let s' := day_run [DThread t; DThread t; DThread t] s in
  y_at s' = DTest /\ y_count s' = y_count s - 1 /\ c_written (y_conn s') = c_written (y_conn s) ++ line t /\
  st (c_sess (y_conn s')) = st (c_sess (y_conn s)) /\ y_run s' = true.
Proof. exact day_goes. Qed.
Print Assumptions C110_round.
(** no exception but the BrokenPipeError of the greeting, on a connection that takes no data *)
Theorem C110_ends : forall iss c k, handed (sane_op iss) iss c -> forall es, day_segments (sane_seg iss) es (daytime k c) ->
  forall e, y_at (day_run es (daytime k c)) = DDied e -> e = BrokenPipe /\
  exists es1 t es2, es = es1 ++ DThread t :: es2 /\ y_at (day_run es1 (daytime k c)) = DGreet /\ ~ accepts (y_conn (day_run es1 (daytime k c))).
Proof. exact day_died. Qed.
Print Assumptions C110_ends.
(** after stop(): the message whose sending has begun and nothing more, whatever the state *)
Theorem C110_stop : forall es s, exists d, c_written (y_conn (day_run (DStop :: es) s)) = c_written (y_conn s) ++ d /\
  (d = [] \/ (y_at s = DGreet /\ d = hello) \/ y_at s = DSay d).
Proof. intros es s. exact (day_stops es (day_do DStop s) eq_refl). Qed.
Print Assumptions C110_stop.
Theorem C110_closes : forall s t, y_at s = DClose -> accepts (y_conn s) ->
  y_at (day_do (DThread t) s) = DDone /\ closing (c_sess (y_conn (day_do (DThread t) s))) = true.
Proof. exact day_closes. Qed.
Print Assumptions C110_closes.

(** * A client for the examples *)
Fixpoint day_segmentsb (f : tmd -> conn -> bool) (es : list day_ev) (s : day) : bool :=
  match es with [] => true | e :: r => match e with DSegment p => f p (y_conn s) | _ => true end && day_segmentsb f r (day_do e s) end.
Lemma day_segments_b irs stream es : forall s, day_segmentsb (peer_segb irs stream) es s = true ->
  day_segments (fun p c => sane_seg 100 p c /\ from_peer irs stream (zlen (received c)) p) es s.
Proof.
  induction es as [|e es IH]; intros s H; [exact Logic.I|]. cbn [day_segmentsb] in H. apply andb_true_iff in H. destruct H as [H1 H2].
  split; [|apply IH; exact H2]. destruct e as [t| | |p]; try exact Logic.I.
  apply (segments_b irs stream [SSegment p] {| v_conn := y_conn s; v_at := STest; v_run := true |}). cbn [segmentsb v_conn]. rewrite H1. reflexivity.
Qed.
Lemma day_sane irs stream es : forall s, day_segments (fun p c => sane_seg 100 p c /\ from_peer irs stream (zlen (received c)) p) es s -> day_segments (sane_seg 100) es s.
Proof. induction es as [|e es IH]; intros s H; [exact Logic.I|]. destruct H as [H1 H2]. split; [|apply IH; exact H2]. destruct e; try exact Logic.I. apply H1. Qed.
(** two times; the client sends a letter and acknowledges the greeting meanwhile *)
Definition ex_clock : list day_ev :=
  [DThread [1]; DTick; DThread [2]; DSegment (ex_seg false true false false 501 134 1000 [104]); DThread [3]; DThread [4]; DThread [5]; DTick; DThread [6]; DThread [7]; DThread [8]; DThread [9]].
Example C110_example_two : let s := day_run ex_clock (daytime 2 ex_handed) in
  handed (sane_op 100) 100 ex_handed /\ day_segments (sane_seg 100) ex_clock (daytime 2 ex_handed) /\
  handed (eof_op 100 500 [104]) 100 ex_handed /\ day_segments (fun p c => sane_seg 100 p c /\ from_peer 500 [104] (zlen (received c)) p) ex_clock (daytime 2 ex_handed) /\
  y_at s = DDone /\ y_run s = true /\ c_written (y_conn s) = hello ++ [2; 10] ++ [5; 10] /\ rx_buf (c_sess (y_conn s)) = [104] /\ sent (c_sess (y_conn s)) <> [].
Proof.
  assert (G : day_segments (fun p c => sane_seg 100 p c /\ from_peer 500 [104] (zlen (received c)) p) ex_clock (daytime 2 ex_handed)) by (apply day_segments_b; vm_compute; reflexivity).
  split; [exact ex_handed_sane|]. split; [exact (day_sane _ _ _ _ G)|]. split; [apply ex_handed_eof|]. split; [exact G|].
  split; [vm_compute; reflexivity|]. split; [vm_compute; reflexivity|]. split; [vm_compute; reflexivity|]. split; [vm_compute; reflexivity|]. intros X. apply (f_equal (@length _)) in X. vm_compute in X. discriminate X.
Qed.
Example C110_example_close : let s := day_run (firstn 11 ex_clock) (daytime 2 ex_handed) in y_at s = DClose /\ accepts (y_conn s) /\ y_count s = 0.
Proof. split; [vm_compute; reflexivity|]. split; [left; vm_compute; reflexivity|vm_compute; reflexivity]. Qed.
Example C110_example_stop : let s := day_run [DThread [1]; DThread [2]; DStop] (daytime (-1) ex_handed) in
  y_run s = false /\ y_at s = DSay [2; 10] /\ c_written (y_conn (day_run [DThread [3]; DThread [4]; DThread [5]; DThread [6]] s)) = c_written (y_conn s) ++ [2; 10].
Proof. cbv zeta. split; [vm_compute; reflexivity|]. split; vm_compute; reflexivity. Qed.
Example C110_example_round : let s := day_run [DThread [1]] (daytime (-1) ex_handed) in accepts (y_conn s) /\ y_run s = true /\ y_count s <> 0 /\ y_at s = DTest.
Proof. split; [left; vm_compute; reflexivity|]. split; [vm_compute; reflexivity|]. split; [vm_compute; discriminate|vm_compute; reflexivity]. Qed.

(** * What it should do and does not *)
(** a client that resets the connection before the first message is as good as any other: the
    thread ends without an exception and the socket is closed *)
Definition C110_alive_statement : Prop := forall iss c k es, handed (sane_op iss) iss c -> day_segments (sane_seg iss) es (daytime k c) ->
  forall e, y_at (day_run es (daytime k c)) <> DDied e.
Definition ex_reset : list day_ev := [DSegment (ex_seg false true false true 501 101 1000 []); DThread [1]].
Theorem C110_alive_refuted : ~ C110_alive_statement.
Proof.
  intros H. apply (H 100 ex_handed (-1) ex_reset ex_handed_sane) with (e := BrokenPipe); [|vm_compute; reflexivity].
  split; [split; vm_compute; discriminate|]. split; [exact Logic.I|exact Logic.I].
Qed.
Print Assumptions C110_alive_refuted.
(** when the client has closed its side, the thread comes to an end *)
Definition C110_leaves_statement : Prop := forall iss irs stream c k es, 0 <= irs < 2 ^ 32 -> handed (eof_op iss irs stream) iss c ->
  day_segments (fun p c => sane_seg iss p c /\ from_peer irs stream (zlen (received c)) p) es (daytime k c) ->
  let s := day_run es (daytime k c) in st (c_sess (y_conn s)) = CLOSE_WAIT ->
  exists n, match y_at (day_run (repeat (DThread [48]) n) s) with DDone | DDied _ => True | _ => False end.
(** with the default count the lines go on for ever *)
Definition ex_gone : list day_ev := [DThread [1]; DSegment (ex_seg false true true false 501 101 1000 [])].
Definition talks (s : day) : Prop := accepts (y_conn s) /\ y_run s = true /\ y_count s < 0 /\ match y_at s with DTest | DSay _ | DSleep => True | _ => False end.
Lemma talks_on n : forall s, talks s -> talks (day_run (repeat (DThread [48]) n) s).
Proof.
  induction n as [|n IH]; intros s T; [exact T|]. cbn [repeat day_run]. apply IH. destruct T as (W & R & N & A).
  unfold day_do. cbn [day_op]. destruct (y_at s) as [| |m| | | |]; try contradiction.
  - rewrite R. assert (E : y_count s =? 0 = false) by (apply Z.eqb_neq; lia). rewrite E. split; [exact W|]. split; [exact R|]. split; [exact N|exact Logic.I].
  - destruct (op_send m (y_conn s)) as (_ & _ & [(E & _)|(_ & _ & X)]); [|contradiction]. rewrite E. split; [|split; [exact R|]; split; [exact N|exact Logic.I]].
    cbn [y_with y_conn]. unfold accepts in *. cbn [op_do]. unfold session_send. destruct (in_state _ _); exact W.
  - split; [exact W|]. split; [exact R|]. split; [cbn [y_with y_count]; lia|exact Logic.I].
Qed.
Theorem C110_leaves_refuted : ~ C110_leaves_statement.
Proof.
  intros H. specialize (H 100 500 [] ex_handed (-1) ex_gone ltac:(lia) (ex_handed_eof _)). cbv zeta in H.
  assert (G : day_segmentsb (peer_segb 500 []) ex_gone (daytime (-1) ex_handed) = true) by (vm_compute; reflexivity). apply day_segments_b in G.
  assert (S : st (c_sess (y_conn (day_run ex_gone (daytime (-1) ex_handed)))) = CLOSE_WAIT) by (vm_compute; reflexivity).
  destruct (H G S) as (n & X). assert (T : talks (day_run ex_gone (daytime (-1) ex_handed))).
  { split; [right; left; symmetry; exact S|]. split; [vm_compute; reflexivity|]. split; vm_compute; [reflexivity|exact Logic.I]. }
  destruct (talks_on n _ T) as (_ & _ & _ & Y). destruct (y_at _); contradiction.
Qed.
Print Assumptions C110_leaves_refuted.
