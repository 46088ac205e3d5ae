(** C63, C65, C67 and C68: the streams and the states of a TCP session. *)
From Verif Require Import Base BaseLemmas AddrModel TcpModel StackModel StackRxModel SessModel SpecSess SessProofs SessTrace SessRun SessInv SessTx SessRx.

(** * A connection for the examples *)
Definition ex_tcp (iss : Z) : sess := new_session (A4 1) 1000 (A4 2) 80 iss true [].
Definition ex_seg (syn ack fin rst : bool) (seq ackn win : Z) (d : bytes) : tmd :=
  {| d_lip := A4 1; d_lport := 1000; d_rip := A4 2; d_rport := 80; d_syn := syn; d_ack := ack; d_fin := fin; d_rst := rst;
     d_seq := seq; d_ackn := ackn; d_win := win; d_wscale := None; d_mss := 1460; d_data := d |}.
Definition ex_conn : conn := start Connect (ex_tcp 100).
Lemma ex_opened : opened 100 ex_conn.
Proof. split; [lia|]. exists Connect, (A4 1), 1000, (A4 2), 80, []. split; [auto|split; [constructor|reflexivity]]. Qed.
Fixpoint all_allowed (allowed : op -> conn -> Prop) (l : list op) (c : conn) : Prop :=
  match l with [] => True | o :: l => allowed o c /\ all_allowed allowed l (fst (op_do o c)) end.
Lemma run_first_op o l c : fst (op_run (o :: l) c) = fst (op_run l (fst (op_do o c))).
Proof. cbn [op_run]. destruct (op_do o c) as [c1 r]. cbn [fst]. destruct (op_run l c1). reflexivity. Qed.
Lemma reach_from allowed c0 l : forall c, reach allowed c0 c -> all_allowed allowed l c -> reach allowed c0 (fst (op_run l c)).
Proof.
  induction l as [|o l IH]; intros c R A; [exact R|]. rewrite run_first_op. destruct A as [A1 A2]. apply IH; auto. apply reach_op; auto.
Qed.
Lemma reach_all allowed l c : all_allowed allowed l c -> reach allowed c (fst (op_run l c)).
Proof. apply reach_from. apply reach_0. Qed.
Lemma any_all l : forall c, all_allowed any_op l c.
Proof. induction l as [|o l IH]; intros c; [exact Logic.I|]. split; [exact Logic.I|apply IH]. Qed.

(** the handshake, data both ways with a segment lost and repeated, and the closing *)
Definition ex_peer : bytes := [7; 8; 9; 10; 11].
Definition ex_history : list op :=
  [OTick; OSegment (ex_seg true true false false 500 101 1000 []); OTick; OSend [1; 2; 3]; OTick;
   OSegment (ex_seg false true false false 503 104 1000 [9; 10]); OSegment (ex_seg false true false false 501 104 1000 [7; 8]);
   OSegment (ex_seg false true false false 501 104 1000 [7; 8]); ORead 0 None; ORead 0 None; ORead 0 None; OClose; OTick; OTick; OTick;
   OSegment (ex_seg false true true false 505 105 1000 [11])].

(** * C63 *)
Theorem C63_rx_stream : forall irs stream iss c0 c, 0 <= irs < 2 ^ 32 -> opened iss c0 ->
  reach (peer_op irs stream) c0 c -> prefix (concat (c_read c)) stream.
Proof. exact read_prefix. Qed.
Print Assumptions C63_rx_stream.
(** what is still to be read comes next in the stream *)
Theorem C63_rx_buffer : forall irs stream iss c0 c, 0 <= irs < 2 ^ 32 -> opened iss c0 ->
  reach (peer_op irs stream) c0 c -> prefix (concat (c_read c) ++ rx_buf (c_sess c)) stream.
Proof. exact received_prefix. Qed.
Print Assumptions C63_rx_buffer.
Example C63_example : reach (peer_op 500 ex_peer) ex_conn (fst (op_run ex_history ex_conn)) /\
  c_read (fst (op_run ex_history ex_conn)) = [[7; 8; 9; 10]] /\ rx_buf (c_sess (fst (op_run ex_history ex_conn))) = [11] /\
  st (c_sess (fst (op_run ex_history ex_conn))) = TIME_WAIT.
Proof.
  split; [|split; [|split]; vm_compute; reflexivity]. apply reach_all. unfold ex_history. cbn [all_allowed].
  repeat match goal with
  | |- _ /\ _ => split
  | |- peer_op _ _ (OSegment ?p) ?c =>
      unfold peer_op; (assert (E : exists n, zlen (received c) = n /\ 0 <= n < 100) by (eexists; split; [vm_compute; reflexivity|lia]));
      destruct E as (n & -> & E); unfold from_peer; cbn [d_seq d_syn d_data d_fin ex_seg]; split; [lia|]; split; [congruence|];
      let H := fresh in intros H; try (exfalso; destruct H; congruence);
      match goal with
      | |- exists k, _ /\ _ /\ 501 = _ /\ _ => exists 0
      | |- exists k, _ /\ _ /\ 503 = _ /\ _ => exists 2
      | |- exists k, _ /\ _ /\ 505 = _ /\ _ => exists 4
      end; change (2 ^ 32) with 4294967296; clear H;
      (repeat split; try lia; vm_compute; congruence)
  | |- _ => exact Logic.I
  end.
Qed.

(** * C67 *)
Theorem C67_order : forall iss c0 c, opened iss c0 -> reach any_op c0 c ->
  snd_una (c_sess c) <= snd_nxt (c_sess c) <= snd_max (c_sess c).
Proof. intros iss c0 c O R. destruct (order_reach iss c0 c O R). lia. Qed.
Print Assumptions C67_order.
(** an acknowledgement of what was never sent changes nothing *)
Theorem C67_ack_ignored : forall iss c0 c p, opened iss c0 -> reach any_op c0 c ->
  d_ack p = true -> snd_max (c_sess c) < d_ackn p -> tcp_fsm (EPacket p) (c_sess c) = (c_sess c, Ok tt).
Proof. intros iss c0 c p O R. apply ack_ignored. exact (C67_order iss c0 c O R). Qed.
Print Assumptions C67_ack_ignored.
Example C67_example :
  let c := fst (op_run (firstn 5 ex_history) ex_conn) in let c' := fst (op_run [OSegment (ex_seg false true false false 501 102 1000 [])] c) in
  reach any_op ex_conn c' /\ (snd_una (c_sess c), snd_nxt (c_sess c), snd_max (c_sess c)) = (101, 104, 104) /\
  (snd_una (c_sess c'), snd_nxt (c_sess c'), snd_max (c_sess c')) = (102, 104, 104) /\
  fst (tcp_fsm (EPacket (ex_seg false true false false 501 105 1000 [7])) (c_sess c')) = c_sess c'.
Proof.
  cbv zeta. split; [apply reach_from; [apply reach_all|]; apply any_all|]. split; [vm_compute; reflexivity|]. split; [vm_compute; reflexivity|].
  rewrite (C67_ack_ignored 100 ex_conn); [reflexivity|exact ex_opened|apply reach_from; [apply reach_all|]; apply any_all|reflexivity|vm_compute; reflexivity].
Qed.

(** * C65 *)
Definition C65_tx_stream_statement : Prop := forall iss c0 c, opened iss c0 -> reach any_op c0 c ->
  Forall (carries iss (c_written c)) (sent (c_sess c)).
(** a SYN+ACK that acknowledges the initial sequence number itself, before the SYN is sent, is
    taken; the data then starts at the place of the SYN *)
Definition ex_early : list op := [OSegment (ex_seg true true false false 500 100 1000 []); OSend [1; 2; 3]; OTick].
Theorem C65_tx_stream_refuted : ~ C65_tx_stream_statement.
Proof.
  intros H. specialize (H 100 ex_conn (fst (op_run ex_early ex_conn)) ex_opened (reach_all _ _ _ (any_all _ _))).
  assert (E : map (fun t => (x_seq t, x_data t)) (sent (c_sess (fst (op_run ex_early ex_conn)))) = [(100, []); (100, [1; 2; 3])]) by (vm_compute; reflexivity).
  destruct (sent (c_sess (fst (op_run ex_early ex_conn)))) as [|a [|b l]]; try discriminate. injection E as _ _ E1 E2 _.
  rewrite Forall_forall in H. destruct (H b) as [K _]; [right; left; reflexivity|]. rewrite E2 in K. destruct K as (k & K1 & K2 & _); [discriminate|]. lia.
Qed.
Print Assumptions C65_tx_stream_refuted.
(** it holds when no segment acknowledges the initial sequence number itself *)
Theorem C65_tx_stream_partial : forall iss c0 c, opened iss c0 -> reach (sane_op iss) c0 c ->
  Forall (carries iss (c_written c)) (sent (c_sess c)).
Proof. exact sent_reach. Qed.
Print Assumptions C65_tx_stream_partial.
Definition sane_opb (iss : Z) (o : op) (c : conn) : bool :=
  match o with
  | OSegment p => negb (d_ackn p =? iss) && (0 <=? d_mss p)
  | OClose => negb (fsm_eqb (st (c_sess c)) SYN_RCVD)
  | _ => true
  end.
Fixpoint sane_allb (iss : Z) (l : list op) (c : conn) : bool :=
  match l with [] => true | o :: l => sane_opb iss o c && sane_allb iss l (fst (op_do o c)) end.
Lemma sane_all iss l : forall c, sane_allb iss l c = true -> all_allowed (sane_op iss) l c.
Proof.
  induction l as [|o l IH]; intros c H; [exact Logic.I|]. cbn [sane_allb] in H. apply andb_true_iff in H. destruct H as [H1 H2].
  split; [|apply IH; auto]. destruct o; cbn [sane_op sane_opb] in *; auto.
  - apply andb_true_iff in H1. destruct H1 as [H1 H3]. apply negb_true_iff, Z.eqb_neq in H1. apply Z.leb_le in H3. auto.
  - intros E. rewrite E in H1. discriminate.
Qed.
Example C65_example : reach (sane_op 100) ex_conn (fst (op_run ex_history ex_conn)) /\
  c_written (fst (op_run ex_history ex_conn)) = [1; 2; 3] /\
  map (fun t => (x_seq t, x_data t, x_ffin t)) (filter (fun t => x_ffin t || negb (zlen (x_data t) =? 0)) (sent (c_sess (fst (op_run ex_history ex_conn))))) =
  [(101, [1; 2; 3], false); (104, [], true)].
Proof. split; [apply reach_all, sane_all; vm_compute; reflexivity|]. split; vm_compute; reflexivity. Qed.

(** * C68 *)
(** the way to FIN-WAIT-2 is an acknowledgement of the FIN *)
Definition C68_states_statement : Prop := forall iss c0 c o, opened iss c0 -> reach any_op c0 c ->
  edges o (st (c_sess c)) (st (c_sess (fst (op_do o c)))) /\
  (st (c_sess c) = FIN_WAIT_1 -> st (c_sess (fst (op_do o c))) = FIN_WAIT_2 -> exists t, In t (sent (c_sess c)) /\ x_ffin t = true).
(** a segment that arrives between the tick that enters FIN-WAIT-1 and the tick that sends the
    FIN counts as the acknowledgement of the FIN, which is then never sent *)
Definition ex_nofin : list op := firstn 3 ex_history ++ [OClose; OTick].
Theorem C68_states_refuted : ~ C68_states_statement.
Proof.
  intros H. destruct (H 100 ex_conn (fst (op_run ex_nofin ex_conn)) (OSegment (ex_seg false true false false 501 101 1000 [])) ex_opened
    (reach_all _ _ _ (any_all _ _))) as [_ K].
  destruct K as (t & I & F); [vm_compute; reflexivity|vm_compute; reflexivity|].
  assert (E : forallb (fun t => negb (x_ffin t)) (sent (c_sess (fst (op_run ex_nofin ex_conn)))) = true) by (vm_compute; reflexivity).
  rewrite forallb_forall in E. apply E in I. rewrite F in I. discriminate.
Qed.
Print Assumptions C68_states_refuted.
Theorem C68_states_partial : forall iss c0 c o, opened iss c0 -> reach (sane_op iss) c0 c -> sane_op iss o c ->
  edges o (st (c_sess c)) (st (c_sess (fst (op_do o c)))).
Proof. exact edges_reach. Qed.
Print Assumptions C68_states_partial.
Example C68_example : map (fun k => st (c_sess (fst (op_run (firstn k ex_history) ex_conn)))) [0; 2; 13; 15; 16]%nat =
  [SYN_SENT; ESTABLISHED; FIN_WAIT_1; FIN_WAIT_1; TIME_WAIT].
Proof. vm_compute. reflexivity. Qed.
