(** C109: what send() and close() of TCP sockets answer and do. *)
From Verif Require Import Base BaseLemmas AddrModel TcpModel StackModel StackRxModel UdpApiModel SpecUdpApi SessModel TcpApiModel SpecTcpApi TcpApiProofs TcpApiProofs2 SpecTcpReg TcpRegProofs PropTcpReg SpecTcpCalls TcpCallsProofs.

(** send() takes all of the data or none; it refuses when the socket has no peer and when the
    connection is not one that takes data; nothing else changes *)
Theorem C109_send : forall ops w0 w i d, history ops w0 w -> (i < tw_nsock w)%nat -> send_outcome i d w (fst (tcp_send i d w)) (snd (tcp_send i d w)).
Proof. exact send_outcomes. Qed.
Print Assumptions C109_send.
(** close() once it has found the session, by the state it finds *)
Theorem C109_close : forall c w j, tw_close w c = Some j -> close_outcome j w (fst (close_call c w)) (snd (close_call c w)).
Proof. exact close_outcomes. Qed.
Print Assumptions C109_close.

(** in full: close() of a socket that was created raises nothing *)
Definition C109_quiet_statement : Prop := forall ops w0 w, history ops w0 w ->
  (forall c i e, (i < tw_nsock w)%nat -> snd (close_load c i w) <> Exn e) /\ (forall c e, snd (close_call c w) <> Exn e).
(** a socket that neither connected nor listened fails an assertion; two listening sockets with
    the same endpoints: the second to be closed raises KeyError *)
Definition ex_twins : list top := [TSocket Fam4; TSocket Fam4; TListen 0 100; TListen 1 200; TLoad 0 0; TClose 0; TLoad 0 1].
Theorem C109_quiet_refuted : ~ C109_quiet_statement /\
  snd (close_load 0 0 (top_run [TSocket Fam4] ex_world)) = Exn AssertionError /\
  snd (close_call 0 (top_run ex_twins ex_world)) = Exn KeyError.
Proof.
  split; [|split; vm_compute; reflexivity]. intros F. destruct (F [TSocket Fam4] ex_world _ (conj ex_fresh eq_refl)) as [A _].
  apply (A 0%nat 0%nat AssertionError); vm_compute; [auto|reflexivity].
Qed.
Print Assumptions C109_quiet_refuted.
(** it raises only then: the assertion for a socket without session, KeyError for a session that
    listens or connects and whose socket is not in the table *)
Theorem C109_quiet_partial : forall ops w0 w, history ops w0 w ->
  (forall c i e, (i < tw_nsock w)%nat -> snd (close_load c i w) = Exn e -> e = AssertionError /\ t_sess (tw_sock w i) = None /\ ~ has_peer (tw_sock w i)) /\
  (forall c e, snd (close_call c w) = Exn e -> e = KeyError /\ exists j, tw_close w c = Some j /\ In (st (tw_sess w j)) [LISTEN; SYN_SENT] /\
     registered (tcp_key (tw_sock w (tw_owner w j))) (tw_table w) = false).
Proof.
  intros ops w0 w H. split.
  - intros c i e L. unfold close_load. destruct (t_sess _) as [j|] eqn:E; cbn [snd]; [discriminate|]. intros X. injection X as <-. split; [reflexivity|]. split; [reflexivity|].
    exact (met_history _ _ _ H i L E).
  - intros c e X. destruct (tw_close w c) as [j|] eqn:E; [|unfold close_call in X; rewrite E in X; discriminate X].
    destruct (close_outcomes c w j E) as (s' & _ & [(S & _ & [(_ & R & _)|(G & R & _)])|(_ & R & _)]); rewrite R in X; [discriminate X| |discriminate X].
    injection X as <-. split; [reflexivity|]. exists j. auto.
Qed.
Print Assumptions C109_quiet_partial.

(** socket 1 is a connection made by a handshake with socket 0 *)
Definition ex_made : list top := ex_took ++ [TTick 0; TSegment {| d_lip := A4 0x0A000001; d_lport := 80; d_rip := A4 0x0A000002; d_rport := 1000; d_syn := false; d_ack := true; d_fin := false; d_rst := false;
     d_seq := 501; d_ackn := 101; d_win := 1000; d_wscale := None; d_mss := 1460; d_data := [] |} 300].
Example C109_ex_send : let w := top_run ex_made ex_world in
  st (tw_sess w 0) = ESTABLISHED /\ snd (tcp_send 1 [1; 2; 3] w) = Ok 3 /\ snd (tcp_send 0 [1; 2; 3] w) = Exn (OsError 0) /\
  snd (tcp_send 1 [1; 2; 3] (top_run [TLoad 0 1; TClose 0; TTick 0] w)) = Exn BrokenPipe.
Proof. vm_compute. auto. Qed.
Example C109_ex_close : let w := top_run (ex_made ++ [TLoad 0 1; TLoad 1 0]) ex_world in
  snd (close_call 0 w) = Ok tt /\ st (tw_sess (fst (close_call 0 w)) 0) = ESTABLISHED /\ closing (tw_sess (fst (close_call 0 w)) 0) = true /\
  snd (close_call 1 w) = Ok tt /\ st (tw_sess (fst (close_call 1 w)) 1) = CLOSED /\ length (tw_table w) = 2%nat /\ length (tw_table (fst (close_call 1 w))) = 1%nat.
Proof. vm_compute. auto 10. Qed.
