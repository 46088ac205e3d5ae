(** C86 and C87: the headers of the segments a TCP session sends, and resets. *)
From Verif Require Import Base BaseLemmas AddrModel TcpModel StackModel StackRxModel SessModel SpecSess SpecSess2 SessProofs SessTrace SessRun SessInv SessTx SessHead SessReset PropSess PropSess2 PropSess3.

(** * C86 *)
(** every segment has the header of one of its connection *)
Theorem C86_header : forall iss c0 c t, opened iss c0 -> reach any_op c0 c -> In t (sent (c_sess c)) ->
  header iss (s_lport (c_sess c)) (s_rport (c_sess c)) t.
Proof. exact headers. Qed.
Print Assumptions C86_header.
(** what is sent after the SYN acknowledges what was received when it is sent *)
Theorem C86_ack : forall iss c0 c o t, opened iss c0 -> reach any_op c0 c -> ~ In (st (c_sess c)) [LISTEN; SYN_SENT] ->
  In t (sent (c_sess (fst (op_do o c)))) -> In t (sent (c_sess c)) \/
  x_fack t = true /\ rcv_nxt (c_sess c) <= x_ack t <= rcv_nxt (c_sess (fst (op_do o c))) /\ (o = OTick -> x_ack t = rcv_nxt (c_sess c)).
Proof. exact ack_numbers. Qed.
Print Assumptions C86_ack.
(** no segment carries more data than the peer's MSS, as its SYN or SYN+ACK had it, or ours *)
Theorem C86_mss : forall iss c0 c p c2 t, opened iss c0 -> reach (sane_op iss) c0 c -> sane_op iss (OSegment p) c ->
  let c1 := fst (op_do (OSegment p) c) in
  (st (c_sess c) = LISTEN /\ st (c_sess c1) = SYN_RCVD) \/ (st (c_sess c) = SYN_SENT /\ st (c_sess c1) = ESTABLISHED) ->
  reach (sane_op iss) c1 c2 -> In t (sent (c_sess c2)) -> zlen (x_data t) <= Z.min (d_mss p) 1460.
Proof. exact mss_kept_hand. Qed.
Print Assumptions C86_mss.
Example C86_example : let c := fst (op_run ex_history ex_conn) in reach any_op ex_conn c /\
  map (fun t => (x_sport t, x_dport t, x_seq t, x_ack t, (x_fsyn t, x_fack t, x_ffin t), x_opts t, x_data t)) (sent (c_sess c)) =
  [(1000, 80, 100, 0, (true, false, false), [TOMss 1460], []); (1000, 80, 101, 501, (false, true, false), [], []); (1000, 80, 101, 501, (false, true, false), [], [1; 2; 3]);
   (1000, 80, 104, 501, (false, true, false), [], []); (1000, 80, 104, 505, (false, true, true), [], []); (1000, 80, 105, 507, (false, true, false), [], [])].
Proof. cbv zeta. split; [exact (reach_all any_op ex_history ex_conn (any_all _ _))|vm_compute; reflexivity]. Qed.
(** a peer with an MSS of two bytes *)
Definition ex_mss2 : tmd :=
  {| d_lip := A4 1; d_lport := 1000; d_rip := A4 2; d_rport := 80; d_syn := true; d_ack := true; d_fin := false; d_rst := false;
     d_seq := 500; d_ackn := 101; d_win := 1000; d_wscale := None; d_mss := 2; d_data := [] |}.
Example C86_mss_example : let c := fst (op_run [OTick] ex_conn) in let c1 := fst (op_do (OSegment ex_mss2) c) in let c2 := fst (op_run [OSend [1; 2; 3; 4; 5]; OTick; OTick] c1) in
  reach (sane_op 100) ex_conn c /\ sane_op 100 (OSegment ex_mss2) c /\ st (c_sess c) = SYN_SENT /\ st (c_sess c1) = ESTABLISHED /\ reach (sane_op 100) c1 c2 /\
  map x_data (sent (c_sess c2)) = [[]; []; [1; 2]; [3; 4]].
Proof.
  cbv zeta. split; [apply reach_all, sane_all; vm_compute; reflexivity|]. split; [split; vm_compute; congruence|].
  split; [vm_compute; reflexivity|]. split; [vm_compute; reflexivity|]. split; [apply reach_all, sane_all; vm_compute; reflexivity|vm_compute; reflexivity].
Qed.

(** * C66, again: windows are scaled although this end never offers to *)
Definition ex_scaled : tmd :=
  {| d_lip := A4 1; d_lport := 1000; d_rip := A4 2; d_rport := 80; d_syn := true; d_ack := false; d_fin := false; d_rst := false;
     d_seq := 500; d_ackn := 0; d_win := 1000; d_wscale := Some 7; d_mss := 1460; d_data := [] |}.
Theorem C66_scale_refuted : let l := [OSegment ex_scaled; OTick; OSegment (ex_seg false true false false 501 101 2 []); OSend [1; 2; 3; 4; 5]; OTick] in
  let c := fst (op_run l ex_listen) in reach (sane_op 100) ex_listen c /\ st (c_sess c) = ESTABLISHED /\
  (forall t w, In t (sent (c_sess c)) -> ~ In (TOWscale w) (x_opts t)) /\
  exists t, In t (sent (c_sess c)) /\ x_seq t = 101 /\ zlen (x_data t) = 5.
Proof.
  cbv zeta. split; [apply reach_all, sane_all; vm_compute; reflexivity|]. split; [vm_compute; reflexivity|]. split.
  - intros t w T. exact (header_unscaled _ _ _ _ w (C86_header 100 ex_listen _ t ex_listening (reach_all any_op _ ex_listen (any_all _ _)) T)).
  - eexists. split; [vm_compute; right; left; reflexivity|]. split; reflexivity.
Qed.
Print Assumptions C66_scale_refuted.

(** * C87 *)
Definition C87_reset_statement : Prop := forall iss c0 c p, opened iss c0 -> reach (sane_op iss) c0 c -> In (st (c_sess c)) synchronised ->
  reset p -> acceptable p (c_sess c) -> d_data p = [] -> torn_down (c_sess c) (c_sess (fst (op_do (OSegment p) c))).
(** the reset a host sends that knows nothing of the connection has no acknowledgement number,
    and an established session ignores it *)
Definition ex_rst (ack : bool) (seq ackn : Z) : tmd := ex_seg false ack false true seq ackn 0 [].
Theorem C87_reset_refuted : ~ C87_reset_statement.
Proof.
  intros H. specialize (H 100 ex_conn (fst (op_run (firstn 3 ex_history) ex_conn)) (ex_rst false 501 0) ex_opened).
  assert (E : st (c_sess (fst (op_do (OSegment (ex_rst false 501 0)) (fst (op_run (firstn 3 ex_history) ex_conn))))) = ESTABLISHED) by (vm_compute; reflexivity).
  destruct H as (X & _); [| | | |reflexivity|rewrite X in E; discriminate].
  - apply reach_all, sane_all. vm_compute. reflexivity.
  - vm_compute. auto.
  - repeat split.
  - split; [vm_compute; reflexivity|]. intros X. discriminate X.
Qed.
Print Assumptions C87_reset_refuted.
(** a session whose peer has closed ignores the resets this stack itself sends *)
Theorem C87_close_wait_refuted : exists c, reach (sane_op 100) ex_conn c /\ st (c_sess c) = CLOSE_WAIT /\ acceptable (ex_rst true 502 101) (c_sess c) /\
  op_do (OSegment (ex_rst true 502 101)) c = (c, Ok tt).
Proof.
  exists (fst (op_run (firstn 3 ex_history ++ [OSegment (ex_seg false true true false 501 101 1000 [])]) ex_conn)). split; [apply reach_all, sane_all; vm_compute; reflexivity|].
  split; [vm_compute; reflexivity|]. split; [split; [vm_compute; reflexivity|intros _; vm_compute; split; discriminate]|]. cbn [op_do].
  match goal with |- with_sess ?c ?r = _ => assert (E : r = (c_sess c, Ok tt)) by (vm_compute; reflexivity); rewrite E; destruct c; reflexivity end.
Qed.
Print Assumptions C87_close_wait_refuted.
(** and a reader that waits while this end is closing is not woken *)
Theorem C87_reader_refuted : exists c, reach (sane_op 100) ex_conn c /\ st (c_sess c) = FIN_WAIT_1 /\ acceptable (ex_rst true 501 101) (c_sess c) /\
  let c' := fst (op_do (OSegment (ex_rst true 501 101)) c) in st (c_sess c') = CLOSED /\ c_read c' = [] /\ c_read (read_now 0 None c') = [].
Proof.
  exists (fst (op_run (firstn 3 ex_history ++ [OClose; OTick; OTick]) ex_conn)). split; [apply reach_all, sane_all; vm_compute; reflexivity|].
  split; [vm_compute; reflexivity|]. split; [split; [vm_compute; reflexivity|intros _; vm_compute; split; discriminate]|]. repeat split; vm_compute; reflexivity.
Qed.
Print Assumptions C87_reader_refuted.
(** what does hold: with an acknowledgement number in every state but CLOSE_WAIT, without one
    in CLOSE_WAIT and, if the field is zero, in SYN_RCVD *)
Theorem C87_reset_partial : forall iss c0 c p, opened iss c0 -> reach (sane_op iss) c0 c -> reset p -> acceptable p (c_sess c) ->
  (d_ack p = true /\ In (st (c_sess c)) [SYN_RCVD; ESTABLISHED; FIN_WAIT_1; FIN_WAIT_2; CLOSING; LAST_ACK]) \/
  (d_ack p = false /\ (st (c_sess c) = CLOSE_WAIT \/ st (c_sess c) = SYN_RCVD /\ d_ackn p = 0)) ->
  (st (c_sess c) = ESTABLISHED -> zlen (d_data p) <= 65535) ->
  let c' := fst (op_do (OSegment p) c) in snd (op_do (OSegment p) c) = Ok tt /\ st (c_sess c') = CLOSED /\ reg (c_sess c') = false /\ sent (c_sess c') = sent (c_sess c) /\
    received c' = received c /\ (st (c_sess c) = ESTABLISHED -> 0 < ev_rx (c_sess c')).
Proof. exact reset_taken. Qed.
Print Assumptions C87_reset_partial.
(** connect() is told that it was refused *)
Theorem C87_refused : forall iss c0 c p, opened iss c0 -> reach (sane_op iss) c0 c -> st (c_sess c) = SYN_SENT -> reset p -> d_ack p = true -> d_seq p = 0 -> d_ackn p = snd_nxt (c_sess c) ->
  let c' := fst (op_do (OSegment p) c) in snd (op_do (OSegment p) c) = Ok tt /\ st (c_sess c') = CLOSED /\ reg (c_sess c') = false /\ sent (c_sess c') = sent (c_sess c) /\
    conn_err (c_sess c') = Refused /\ ev_conn (c_sess c') = ev_conn (c_sess c) + 1.
Proof. exact refused_reach. Qed.
Print Assumptions C87_refused.
(** a reset that is not at the next sequence number, or does not acknowledge the SYN, does
    nothing at all *)
Theorem C87_blind : forall c p, d_rst p = true -> (st (c_sess c) = SYN_SENT -> d_ack p = false \/ d_ackn p <> snd_nxt (c_sess c)) ->
  (st (c_sess c) <> SYN_SENT -> d_seq p <> rcv_nxt (c_sess c)) -> op_do (OSegment p) c = (c, Ok tt).
Proof. exact blind_reach. Qed.
Print Assumptions C87_blind.
Example C87_example : let c := fst (op_run (firstn 3 ex_history) ex_conn) in let p := ex_rst true 501 101 in
  reach (sane_op 100) ex_conn c /\ st (c_sess c) = ESTABLISHED /\ reset p /\ acceptable p (c_sess c) /\ st (c_sess (fst (op_do (OSegment p) c))) = CLOSED.
Proof.
  cbv zeta. split; [apply reach_all, sane_all; vm_compute; reflexivity|]. split; [vm_compute; reflexivity|]. split; [repeat split|].
  split; [split; [vm_compute; reflexivity|intros _; vm_compute; split; discriminate]|vm_compute; reflexivity].
Qed.
Example C87_refused_example : let c := fst (op_run [OTick] ex_conn) in st (c_sess c) = SYN_SENT /\ snd_nxt (c_sess c) = 101 /\ st (c_sess (fst (op_do (OSegment (ex_rst true 0 101)) c))) = CLOSED.
Proof. cbv zeta. repeat split; vm_compute; reflexivity. Qed.
