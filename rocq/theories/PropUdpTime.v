(** C113: the UDP daytime and discard services of the examples. *)
From Verif Require Import Base BaseLemmas AddrModel Ip4Model FragModel StackModel StackRxModel StackSendProofs StackRouteProofs UdpApiModel SpecUdpApi UdpApiProofs SpecUdpSend UdpSendProofs
  EchoModel SpecEcho EchoProofs EchoSendProofs EchoRunProofs PropTx PropUdpApi PropEcho UdpTimeModel SpecUdpTime UdpTimeProofs.

(** * The daytime service *)
(** The sendto calls of the service answer, in order and each once, the datagrams that arrived,
    each with what the clock said at the call: what has arrived is what was answered, the one in
    hand, and what is still queued. *)
Theorem C113_daytime : forall f a port w es, 0 < port -> let s := echo_start f a port true w in let s' := ut_run true es s in
  e_at s = AtTest -> ut_private (e_sock s) es ->
  exists answered h, Forall2 (tells f) (ut_tried true es s) answered /\ in_hand (e_at s') h /\
    answered ++ h ++ u_queue (sock_of s') = arrivals (e_sock s) (ut_ops true es s) (e_world s).
Proof.
  intros f a port w es P s s' A V. destruct (start_ok f a port w P A) as (_ & Rn & Q & _).
  destruct (ut_history true es s (e_sock s) f [] Rn V) as (_ & _ & d & h & F & _ & H & E); [rewrite A; reflexivity|].
  exists d, h. fold s in Q. rewrite Q in E. auto.
Qed.
Print Assumptions C113_daytime.
(** What answering does, for a time that fits a frame: all of it leaves from the service's port
    for the sender, or none of it and only requests for the link-layer address do; or the service
    is ended by an exception because it has no address for the sender. *)
Theorem C113_sent_partial : forall i f s c now d a p, running i f s -> e_at s = Holding d a p ->
  let n := w_node (e_world s) in let u := sock_of s in let s' := ut_do true (UThread c now) s in let n' := w_node (e_world s') in
  wf_addrs (my_addrs n) -> 0 <= s_id4 (n_tx n) -> family_of a = f -> addr_ok a -> 0 <= p < 65536 -> zlen now <= 1472 ->
  (e_at s' = AtTest /\ exists k, send_result n n' (source_for n u a) a (u_lport0 u) p now k) \/
  (e_at s' = Died GaiError /\ s_out (n_tx n') = s_out (n_tx n) /\ unspec (u_lip u) /\ unspec (pick_local_ip (my_addrs n) a)).
Proof. exact ut_sent. Qed.
Print Assumptions C113_sent_partial.
(** after stop() at most one more datagram is answered *)
Theorem C113_stop : forall b es s, (length (ut_tried b (UStop :: es) s) <= match e_at s with InRecv | Holding _ _ _ => 1 | _ => 0 end)%nat.
Proof. intros b es s. exact (ut_stops b es (ut_do b UStop s) eq_refl). Qed.
Print Assumptions C113_stop.

(** * The discard service *)
(** it calls no sendto, takes the datagrams in the order they arrived, and no exception ends it *)
Theorem C113_discard : forall f a port w es, 0 < port -> let s := echo_start f a port true w in let s' := ut_run false es s in
  e_at s = AtTest -> ut_private (e_sock s) es ->
  ut_tried false es s = [] /\ (forall x, e_at s' <> Died x) /\
  exists dropped h, in_hand (e_at s') h /\ dropped ++ h ++ u_queue (sock_of s') = arrivals (e_sock s) (ut_ops false es s) (e_world s).
Proof.
  intros f a port w es P s s' A V. destruct (start_ok f a port w P A) as (_ & Rn & Q & _).
  assert (H0 : in_hand (e_at s) []) by (rewrite A; reflexivity).
  destruct (ut_history false es s (e_sock s) f [] Rn V H0) as (_ & _ & d & h & _ & N & H & E).
  split; [exact (N eq_refl)|]. split.
  - apply (discard_alive es s (e_sock s) f [] Rn V H0). intros x. rewrite A. discriminate.
  - exists d, h. fold s in Q. rewrite Q in E. auto.
Qed.
Print Assumptions C113_discard.
(** both keep the address and port of their socket, and take the next datagram when there is one *)
Theorem C113_socket : forall b f a port w es, 0 < port -> let s := echo_start f a port true w in
  e_at s = AtTest -> ut_private (e_sock s) es -> running (e_sock s) f (ut_run b es s) /\ ends (sock_of (ut_run b es s)) = ends (sock_of s).
Proof.
  intros b f a port w es P s A V. destruct (start_ok f a port w P A) as (_ & Rn & _).
  destruct (ut_history b es s (e_sock s) f [] Rn V) as (R & E & _); [rewrite A; reflexivity|]. auto.
Qed.
Print Assumptions C113_socket.
Theorem C113_takes : forall b i f s c now, running i f s -> e_at s = InRecv ->
  match u_queue (sock_of s) with
  | [] => ut_do b (UThread c now) s = s
  | m :: q => e_at (ut_do b (UThread c now) s) = Holding (m_data m) (m_rip m) (m_rport m) /\ u_queue (sock_of (ut_do b (UThread c now) s)) = q
  end.
Proof.
  intros b i f s c now Rn A. pose proof (echo_takes i f s c Rn A) as X.
  assert (E : ut_do b (UThread c now) s = echo_do (EThread c) s) by (cbn [ut_do ut_op echo_do echo_op]; rewrite A; reflexivity).
  rewrite E. exact X.
Qed.
Print Assumptions C113_takes.

(** a round: a service that is not stopped takes the next datagram; the discard service is then
    ready for the one after it *)
Theorem C113_round : forall b i f s m q c1 t1 c2 t2 c3 t3, running i f s -> e_at s = AtTest -> e_run s = true -> u_queue (sock_of s) = m :: q ->
  let s2 := ut_run b [UThread c1 t1; UThread c2 t2] s in
  e_at s2 = Holding (m_data m) (m_rip m) (m_rport m) /\ u_queue (sock_of s2) = q /\ e_run s2 = true /\
  (b = false -> e_at (ut_do b (UThread c3 t3) s2) = AtTest /\ sock_of (ut_do b (UThread c3 t3) s2) = sock_of s2).
Proof.
  intros b i f s m q c1 t1 c2 t2 c3 t3 Rn A R Q s2. subst s2. cbn [ut_run].
  assert (E : ut_do b (UThread c1 t1) s = e_with (e_world s) InRecv s) by (cbn [ut_do]; rewrite A, R; reflexivity).
  rewrite E. set (s1 := e_with (e_world s) InRecv s).
  pose proof (C113_takes b i f s1 c2 t2 Rn eq_refl) as T. change (sock_of s1) with (sock_of s) in T. rewrite Q in T. destruct T as [T1 T2].
  split; [exact T1|]. split; [exact T2|]. split.
  - cbn [ut_do]. change (e_at s1) with InRecv. cbv iota. destruct (ut_op _ _ _); [destruct (uop_do _ _)|]; exact R.
  - intros ->. remember (ut_do false (UThread c2 t2) s1) as s2 eqn:Z. clear Z. cbn [ut_do ut_op]. rewrite T1. split; reflexivity.
Qed.
Print Assumptions C113_round.

(** * Examples *)
(** "12:00" *)
Definition noon : bytes := [49; 50; 58; 48; 48].
Definition ut_round (fr : bytes) : list ut_ev := [UThread 0 noon; UThread 0 noon; UWorld (UFrame fr); UThread 0 noon; UThread 0 noon].
Lemma ut_round_private i fr : ut_private i (ut_round fr).
Proof. intros o I. cbn in I. destruct I as [I|[I|[I|[I|[I|[]]]]]]; try discriminate. injection I as <-. cbn. auto. Qed.
Example C113_example : let s := echo_start Fam4 0 7 true ex_alone in
  e_at s = AtTest /\ ut_private (e_sock s) (ut_round ex_near) /\
  ut_tried true (ut_round ex_near) s = [(noon, Some 0x0A000009, 1000, noon)] /\
  map f_pkt (new_out s (ut_run true (ut_round ex_near) s)) = [NIp4 (ip4_whole_tx 0x0A000002 0x0A000009 64 17) (PUdp 7 1000 noon)] /\
  e_at (ut_run true (ut_round ex_near) s) = AtTest /\
  map f_pkt (new_out s (ut_run false (ut_round ex_near) s)) = [] /\ e_at (ut_run false (ut_round ex_near) s) = AtTest.
Proof.
  split; [vm_compute; reflexivity|]. split; [apply ut_round_private|].
  split; [vm_compute; reflexivity|]. split; [vm_compute; reflexivity|]. split; [vm_compute; reflexivity|].
  split; vm_compute; reflexivity.
Qed.

Example C113_example_round : let s := ut_run true [UThread 0 noon; UThread 0 noon; UWorld (UFrame ex_near); UThread 0 noon; UWorld (UFrame ex_near); UThread 0 noon] (echo_start Fam4 0 7 true ex_alone) in
  e_at s = AtTest /\ e_run s = true /\ length (u_queue (sock_of s)) = 1%nat.
Proof. split; [vm_compute; reflexivity|]. split; vm_compute; reflexivity. Qed.

(** * The daytime service does not survive every datagram *)
Definition C113_alive_statement : Prop :=
  forall f a port w es, fresh_world w -> wf_addrs (my_addrs (w_node w)) -> 0 < port < 65536 ->
  let s := echo_start f a port true w in e_at s = AtTest -> ut_private (e_sock s) es ->
  (forall o, In (UWorld o) es -> exists fr, o = UFrame fr /\ wf_bytes fr) -> forall e, e_at (ut_run true es s) <> Died e.
(** a datagram from a network to which the stack has no gateway *)
Theorem C113_alive_refuted : ~ C113_alive_statement.
Proof.
  intros H.
  assert (FR : forall o, In (UWorld o) (ut_round ex_far) -> exists fr, o = UFrame fr /\ wf_bytes fr).
  { intros o I. cbn in I. destruct I as [I|[I|[I|[I|[I|[]]]]]]; try discriminate. injection I as <-. exists ex_far. split; [reflexivity|]. apply ex_bytes. }
  apply (H Fam4 0 7 ex_alone (ut_round ex_far) (conj eq_refl eq_refl) (ex_on_wf _) ltac:(lia) eq_refl (ut_round_private _ _) FR GaiError).
  vm_compute. reflexivity.
Qed.
Print Assumptions C113_alive_refuted.
