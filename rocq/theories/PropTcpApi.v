(** C74: a listening TCP socket makes one connection per handshake. *)
From Verif Require Import Base BaseLemmas AddrModel TcpModel StackModel StackRxModel UdpApiModel SessModel TcpApiModel SpecSess SpecTcpApi SessFork TcpApiProofs TcpApiProofs2.

(** * A server for the examples *)
Definition ex_world : tworld :=
  {| tw_table := []; tw_addrs := {| a_mac := 2; a_mac_mcast := []; a_host4 := []; a_mcast4 := []; a_host6 := []; a_mcast6 := []; a_cand4 := []; a_cand6 := None; a_sup4 := true; a_sup6 := true |};
     tw_sock := fun _ => new_tcp Fam4; tw_nsock := 0;
     tw_sess := fun _ => new_session (A4 0) 0 (A4 0) 0 0 true []; tw_owner := fun _ => 0%nat; tw_nsess := 0; tw_close := fun _ => None |}.
Lemma ex_fresh : fresh_tcp ex_world.
Proof. repeat split. intros k i []. Qed.
(** a segment to 10.0.0.1, port 80, from port [port] of 10.0.0.2 *)
Definition ex_from (port : Z) (syn ack : bool) (seq ackn : Z) : tmd :=
  {| d_lip := A4 0x0A000001; d_lport := 80; d_rip := A4 0x0A000002; d_rport := port; d_syn := syn; d_ack := ack; d_fin := false; d_rst := false;
     d_seq := seq; d_ackn := ackn; d_win := 1000; d_wscale := None; d_mss := 1460; d_data := [] |}.
(** socket 0 listens with initial sequence number 100; two peers connect and the second one
    completes its handshake first *)
Definition ex_listen : list top := [TSocket Fam4; TBind 0 0 (Some 0) 80; TListen 0 100].
Definition ex_syns : list top :=
  ex_listen ++ [TSegment (ex_from 1000 true false 500 0) 200; TSegment (ex_from 2000 true false 700 0) 300; TTick 0; TTick 1].
Definition ex_acks : list top :=
  ex_syns ++ [TSegment (ex_from 2000 false true 701 201) 0; TAcquire 0; TSegment (ex_from 1000 false true 501 101) 0; TPop 0; TAcquire 0].

(** * The sockets segments go to *)
(** what the receive handler passes on *)
Theorem C74_delivery : forall src dst f plen ps s n, tcp_parse f plen ps = Ok (inr s) ->
  n_tcp (fst (phrx_tcp src dst f plen (Ok ps) n)) =
  n_tcp n ++ match segment_target (n_socks n) (tmd_of src dst s) with Some i => [(i, tmd_of src dst s)] | None => [] end.
Proof. exact segment_in. Qed.
Print Assumptions C74_delivery.
(** a socket with the endpoints of the segment, or, for a SYN when there is no such socket, one
    that was bound to the segment's destination *)
Theorem C74_target : forall ops w0 w p i, history ops w0 w -> segment_target (tw_table w) p = Some i -> (i < tw_nsock w)%nat /\
  (ends_at (tw_sock w i) = ends_in p \/
   (sock_get (segment_key p) (tw_table w) = None /\ d_syn p = true /\ d_ack p = false /\ d_fin p = false /\ d_rst p = false /\
    (t_lip (tw_sock w i) = d_lip p \/ t_lip (tw_sock w i) = unspecified (d_lip p)) /\ t_lport (tw_sock w i) = d_lport p /\
    t_rip (tw_sock w i) = unspecified (d_lip p) /\ t_rport (tw_sock w i) = 0 /\ sock_get (tcp_key (tw_sock w i)) (tw_table w) = Some i)).
Proof. intros ops w0 w p i H. apply target_in. apply (history_inv ops w0 w H). Qed.
Print Assumptions C74_target.

(** * The SYN *)
Theorem C74_fork : forall ops w0 w p iss i j, history ops w0 w ->
  segment_target (tw_table w) p = Some i -> t_sess (tw_sock w i) = Some j -> st (tw_sess w j) = LISTEN -> good_syn p ->
  forked i j p w (fst (top_do (TSegment p iss) w)) /\ snd (top_do (TSegment p iss) w) = TNone.
Proof. exact fork_run. Qed.
Print Assumptions C74_fork.
(** every other segment still goes where it went, SYNs to the listening socket in particular *)
Theorem C74_still_listening : forall ops w0 w p iss i j q, history ops w0 w ->
  segment_target (tw_table w) p = Some i -> t_sess (tw_sock w i) = Some j -> st (tw_sess w j) = LISTEN -> good_syn p -> d_rport p <> 0 ->
  segment_key q <> segment_key p ->
  segment_target (tw_table (fst (top_do (TSegment p iss) w))) q = segment_target (tw_table w) q.
Proof. intros ops w0 w p iss i j q H T E S G R N. destruct (fork_run ops w0 w p iss i j H T E S G) as [F _]. exact (target_kept p i j w _ q F R N). Qed.
Print Assumptions C74_still_listening.
(** nothing but socket(), listen(), connect() and such a SYN makes sockets or sessions *)
Theorem C74_sessions : forall ops w0 w o, history ops w0 w -> let w' := fst (top_do o w) in
  (tw_nsess w' = tw_nsess w /\ tw_nsock w' = tw_nsock w) \/
  (tw_nsess w' = tw_nsess w /\ tw_nsock w' = S (tw_nsock w) /\ exists f, o = TSocket f) \/
  (tw_nsess w' = S (tw_nsess w) /\ tw_nsock w' = tw_nsock w /\ ((exists i iss, o = TListen i iss) \/ (exists c i t p iss, o = TConnect c i t p iss))) \/
  (tw_nsess w' = S (tw_nsess w) /\ tw_nsock w' = S (tw_nsock w) /\ exists p iss i j, o = TSegment p iss /\
     segment_target (tw_table w) p = Some i /\ t_sess (tw_sock w i) = Some j /\ st (tw_sess w j) = LISTEN /\ good_syn p).
Proof. intros ops w0 w o H. destruct (history_inv ops w0 w H) as [[D I] _]. exact (top_counts D o w I). Qed.
Print Assumptions C74_sessions.
Example C74_fork_example : let w := top_run ex_listen ex_world in let p := ex_from 1000 true false 500 0 in
  history ex_listen ex_world w /\ segment_target (tw_table w) p = Some 0%nat /\ t_sess (tw_sock w 0) = Some 0%nat /\ st (tw_sess w 0) = LISTEN /\ good_syn p /\ d_rport p <> 0 /\
  segment_key (ex_from 2000 true false 700 0) <> segment_key p.
Proof. cbv zeta. split; [split; [apply ex_fresh|reflexivity]|]. split; [vm_compute; reflexivity|]. split; [vm_compute; reflexivity|]. split; [vm_compute; reflexivity|]. repeat split; discriminate. Qed.

(** * The ACK *)
Theorem C74_completes : forall ops w0 w p iss k j q, history ops w0 w ->
  segment_target (tw_table w) p = Some k -> t_sess (tw_sock w k) = Some j -> t_parent (tw_sock w k) = Some q -> st (tw_sess w j) = SYN_RCVD ->
  d_syn p = false -> d_ack p = true -> d_fin p = false -> d_rst p = false -> d_data p = [] -> d_seq p = rcv_nxt (tw_sess w j) -> d_ackn p = snd_nxt (tw_sess w j) ->
  let w' := fst (top_do (TSegment p iss) w) in
  completions q w w' = [k] /\ st (tw_sess w' j) = ESTABLISHED /\ waiting_at q w' = waiting_at q w ++ [k] /\ snd (top_do (TSegment p iss) w) = TNone.
Proof.
  intros ops w0 w p iss k j q H T E PA S F1 F2 F3 F4 B1 B2 B3. destruct (history_inv ops w0 w H) as [[D I] HK]. apply (ack_completes D w p iss k j q I); auto; [apply (target_in w p k HK T)|].
  split; [unfold is_ack; rewrite F1, F2, F3, F4; reflexivity|auto].
Qed.
Print Assumptions C74_completes.
(** and nothing else completes one: such an ACK, sent to the connection's own endpoints, with the
    sequence number after that of the SYN [s] it was made for *)
Theorem C74_only : forall ops w0 w o q k, history ops w0 w -> In k (completions q w (fst (top_do o w))) ->
  exists p iss j s, o = TSegment p iss /\ segment_target (tw_table w) p = Some k /\ ends_at (tw_sock w k) = ends_in p /\ t_sess (tw_sock w k) = Some j /\
    t_parent (tw_sock w k) = Some q /\ st (tw_sess w j) = SYN_RCVD /\ effs (tw_sess w j) = [FFork s] /\
    d_ack p = true /\ d_syn p = false /\ d_fin p = false /\ d_rst p = false /\ d_data p = [] /\ d_seq p = d_seq s + 1 /\ d_ackn p = snd_nxt (tw_sess w j).
Proof.
  intros ops w0 w o q k H X. destruct (history_inv ops w0 w H) as [[D I] HK]. destruct (completed_only q D o w k I HK X) as (p & iss & j & s & E1 & E2 & E3 & E4 & E5 & E6 & (L1 & L2 & L3 & L4) & ((H1 & _ & H2 & _) & _) & _).
  exists p, iss, j, s. unfold is_ack in L1. destruct (d_ack p), (d_syn p), (d_fin p), (d_rst p); try discriminate L1. repeat split; auto. congruence.
Qed.
Print Assumptions C74_only.

(** * accept() *)
(** accept returns the connections of a listening socket in the order in which their handshakes
    were completed, each once, and all but those still in the queue *)
Theorem C74_order : forall q ops w0, fresh_tcp w0 -> let w := top_run ops w0 in
  accepted q ops w0 ++ waiting_at q w = completed q ops w0 /\ NoDup (completed q ops w0).
Proof. exact order_run. Qed.
Print Assumptions C74_order.
(** accept does not fail; the semaphore counts the connections in the queue that no thread has
    been promised, so a thread waits only if there is none *)
Theorem C74_accept : forall ops w0 w i, history ops w0 w -> (i < tw_nsock w)%nat ->
  (forall e, snd (top_do (TPop i) w) <> TErr e) /\ 0 <= t_ready (tw_sock w i) /\ 0 <= t_between (tw_sock w i) /\
  t_ready (tw_sock w i) + t_between (tw_sock w i) = zlen (t_queue (tw_sock w i)).
Proof. exact pop_run. Qed.
Print Assumptions C74_accept.
Example C74_order_example : let w := top_run ex_acks ex_world in
  completed 0 ex_acks ex_world = [2; 1]%nat /\ accepted 0 ex_acks ex_world = [2]%nat /\ waiting_at 0 w = [1]%nat /\
  (map (fun j => st (tw_sess w j)) [0; 1; 2] = [ESTABLISHED; ESTABLISHED; LISTEN])%nat /\ snd (top_do (TPop 0) w) = TSock 1.
Proof. vm_compute. repeat split. Qed.

(** * The whole handshake *)
(** the SYN, a tick, which sends the SYN+ACK, and the ACK: the connection is in the accept queue *)
Theorem C74_served : forall ops w0 w p iss1 iss2 i j a, history ops w0 w ->
  segment_target (tw_table w) p = Some i -> t_sess (tw_sock w i) = Some j -> st (tw_sess w j) = LISTEN -> good_syn p ->
  let iss := snd_ini (tw_sess w j) in 0 <= iss -> iss + 1 < 2 ^ 32 ->
  0 <= d_mss p -> 0 <= d_seq p -> d_seq p + 1 < 2 ^ 32 -> 0 <= d_lport p <= 0xFFFF -> 0 <= d_rport p <= 0xFFFF ->
  ends_in a = ends_in p -> d_syn a = false -> d_ack a = true -> d_fin a = false -> d_rst a = false -> d_data a = [] -> d_seq a = d_seq p + 1 -> d_ackn a = iss + 1 ->
  let w1 := fst (top_do (TSegment p iss1) w) in let w2 := fst (top_do (TTick j) w1) in let w3 := fst (top_do (TSegment a iss2) w2) in
  (exists t, sent (tw_sess w2 j) = [t] /\ x_seq t = iss /\ x_fsyn t = true /\ x_fack t = true /\ x_ack t = d_seq p + 1) /\
  st (tw_sess w3 j) = ESTABLISHED /\ t_sess (tw_sock w3 (tw_nsock w)) = Some j /\ completions i w2 w3 = [tw_nsock w] /\ waiting_at i w3 = waiting_at i w ++ [tw_nsock w] /\
  snd (top_do (TSegment p iss1) w) = TNone /\ snd (top_do (TTick j) w1) = TNone /\ snd (top_do (TSegment a iss2) w2) = TNone.
Proof.
  intros ops w0 w p iss1 iss2 i j a H T E S G iss B1 B2 M0 Q1 Q2 P1 P2 EN F1 F2 F3 F4 A2 A3 A4. destruct (history_inv ops w0 w H) as [[D I] HK].
  apply (served D w p iss1 iss2 i j a I HK T E S G B1 B2 M0 Q1 Q2 P1 P2 EN); auto. unfold is_ack. rewrite F1, F2, F3, F4. reflexivity.
Qed.
Print Assumptions C74_served.
Example C74_served_example : let w := top_run ex_listen ex_world in let p := ex_from 1000 true false 500 0 in let a := ex_from 1000 false true 501 101 in
  history ex_listen ex_world w /\ segment_target (tw_table w) p = Some 0%nat /\ t_sess (tw_sock w 0) = Some 0%nat /\ st (tw_sess w 0) = LISTEN /\ good_syn p /\
  snd_ini (tw_sess w 0) = 100 /\ ends_in a = ends_in p /\ d_ackn a = 100 + 1 /\
  waiting_at 0 (top_run [TSegment p 200; TTick 0; TSegment a 0] w) = [1]%nat.
Proof. cbv zeta. split; [split; [apply ex_fresh|reflexivity]|]. split; [vm_compute; reflexivity|]. split; [vm_compute; reflexivity|]. split; [vm_compute; reflexivity|]. split; [repeat split|]. repeat split; vm_compute; reflexivity. Qed.

(** * The SYN+ACK *)
(** that accept returns a connection only after its SYN+ACK has been sent and acknowledged is
    false: between the SYN and the next tick an ACK of the unsent initial sequence number is
    taken for the acknowledgement *)
Definition C74_handshake_statement : Prop := forall ops w0 w o q k, history ops w0 w -> In k (completions q w (fst (top_do o w))) -> acknowledged o k w.
Theorem C74_handshake_refuted : ~ C74_handshake_statement.
Proof.
  intros H. set (p := ex_from 1000 false true 501 100). set (ops := ex_listen ++ [TSegment (ex_from 1000 true false 500 0) 200]).
  destruct (H ops ex_world _ (TSegment p 0) 0%nat 1%nat (conj ex_fresh eq_refl)) as (p' & iss & j & t & E1 & E2 & E3 & _).
  - vm_compute. left. reflexivity.
  - assert (X : t_sess (tw_sock (top_run ops ex_world) 1) = Some 0%nat) by (vm_compute; reflexivity). rewrite X in E2. injection E2 as <-.
    assert (Y : sent (tw_sess (top_run ops ex_world) 0) = []) by (vm_compute; reflexivity). rewrite Y in E3. destruct E3.
Qed.
Print Assumptions C74_handshake_refuted.
(** it holds of every ACK but that one *)
Theorem C74_handshake_partial : forall q ops w0 w o k, history ops w0 w -> In k (completions q w (fst (top_do o w))) ->
  exists p iss j, o = TSegment p iss /\ t_sess (tw_sock w k) = Some j /\ (d_ackn p <> snd_ini (tw_sess w j) ->
    exists t, In t (sent (tw_sess w j)) /\ x_fsyn t = true /\ x_fack t = true /\ x_seq t + 1 = d_ackn p /\ x_ack t = d_seq p).
Proof. exact synack_before. Qed.
Print Assumptions C74_handshake_partial.
Example C74_handshake_example : let w := top_run ex_syns ex_world in
  history ex_syns ex_world w /\ completions 0 w (fst (top_do (TSegment (ex_from 2000 false true 701 201) 0) w)) = [2]%nat /\ snd_ini (tw_sess w 1) = 200.
Proof. cbv zeta. split; [split; [apply ex_fresh|reflexivity]|]. split; vm_compute; reflexivity. Qed.
