(** C107: the UDP echo service of the examples. *)
From Verif Require Import Base BaseLemmas AddrModel Ip4Model FragModel StackModel StackRxModel StackSendProofs StackRouteProofs UdpApiModel SpecUdpApi UdpApiProofs SpecUdpSend UdpSendProofs
  EchoModel SpecEcho EchoProofs EchoSendProofs EchoRunProofs PropTx PropUdpApi.

(** * C107 *)
(** the service is set up: its socket is bound to the port, nothing has arrived *)
Theorem C107_start : forall f a port w, 0 < port -> let s := echo_start f a port true w in e_at s = AtTest ->
  e_sock s = w_next w /\ running (e_sock s) f s /\ u_queue (sock_of s) = [] /\ u_lip (sock_of s) = in_family f a /\ u_lport0 (sock_of s) = port /\
  n_tx (w_node (e_world s)) = n_tx (w_node w).
Proof. exact start_ok. Qed.
Print Assumptions C107_start.
(** The sendto calls of the service answer, in order and each once, the datagrams that arrived:
    what has arrived is what was answered, the one in hand, and what is still queued. *)
Theorem C107_answers : forall f a port w es, 0 < port -> let s := echo_start f a port true w in let s' := echo_run es s in
  e_at s = AtTest -> private (e_sock s) es ->
  exists answered h, Forall2 (answers f) (tried es s) answered /\ in_hand (e_at s') h /\
    answered ++ h ++ u_queue (sock_of s') = arrivals (e_sock s) (ops_of es s) (e_world s).
Proof.
  intros f a port w es P s s' A V. destruct (start_ok f a port w P A) as (_ & Rn & Q & _).
  destruct (echo_history es s (e_sock s) f [] Rn V) as (_ & _ & d & h & F & H & E); [rewrite A; reflexivity|].
  exists d, h. fold s in Q. rewrite Q in E. auto.
Qed.
Print Assumptions C107_answers.
(** its socket keeps its address and port *)
Theorem C107_socket : forall f a port w es, 0 < port -> let s := echo_start f a port true w in
  e_at s = AtTest -> private (e_sock s) es -> running (e_sock s) f (echo_run es s) /\ ends (sock_of (echo_run es s)) = ends (sock_of s).
Proof.
  intros f a port w es P s A V. destruct (start_ok f a port w P A) as (_ & Rn & _).
  destruct (echo_history es s (e_sock s) f [] Rn V) as (R & E & _); [rewrite A; reflexivity|]. auto.
Qed.
Print Assumptions C107_socket.
(** a service waiting with a datagram queued takes it; one that waits with none stays *)
Theorem C107_takes : forall i f s c, running i f s -> e_at s = InRecv ->
  match u_queue (sock_of s) with
  | [] => echo_do (EThread c) s = s
  | m :: q => e_at (echo_do (EThread c) s) = Holding (m_data m) (m_rip m) (m_rport m) /\ u_queue (sock_of (echo_do (EThread c) s)) = q
  end.
Proof. exact echo_takes. Qed.
Print Assumptions C107_takes.
(** a service that is not stopped takes the next datagram in two steps *)
Theorem C107_round : forall i f s m q c1 c2, running i f s -> e_at s = AtTest -> e_run s = true -> u_queue (sock_of s) = m :: q ->
  let s2 := echo_run [EThread c1; EThread c2] s in
  e_at s2 = Holding (m_data m) (m_rip m) (m_rport m) /\ u_queue (sock_of s2) = q /\ e_run s2 = true.
Proof.
  intros i f s m q c1 c2 Rn A R Q s2. subst s2. cbn [echo_run].
  assert (E : echo_do (EThread c1) s = e_with (e_world s) InRecv s) by (cbn [echo_do]; rewrite A, R; reflexivity).
  rewrite E. set (s1 := e_with (e_world s) InRecv s).
  pose proof (C107_takes i f s1 c2 Rn eq_refl) as T. change (sock_of s1) with (sock_of s) in T. rewrite Q in T. destruct T as [T1 T2].
  split; [exact T1|]. split; [exact T2|].
  cbn [echo_do]. change (e_at s1) with InRecv. cbv iota. destruct (echo_op _ _); [destruct (uop_do _ _)|]; exact R.
Qed.
Print Assumptions C107_round.
(** What answering does: all of the answer leaves from the service's port for the sender, or none
    of it and only requests for the link-layer address do; or the service is ended by an
    exception, for one of two reasons: it has no address for the sender, or the answer needs
    fragments and the identification counter is used up. *)
Theorem C107_sent_partial : forall i f s c d a p, running i f s -> e_at s = Holding d a p ->
  let n := w_node (e_world s) in let u := sock_of s in let s' := echo_do (EThread c) s in let n' := w_node (e_world s') in
  wf_addrs (my_addrs n) -> 0 <= s_id4 (n_tx n) -> family_of a = f -> addr_ok a -> 0 <= p < 65536 -> zlen d < 65528 ->
  exists x, answer_to d x /\
  ((e_at s' = AtTest /\ exists k, send_result n n' (source_for n u a) a (u_lport0 u) p x k) \/
   (exists e, e_at s' = Died e /\ s_out (n_tx n') = s_out (n_tx n) /\
     ((e = GaiError /\ unspec (u_lip u) /\ unspec (pick_local_ip (my_addrs n) a)) \/
      (e = AssertionError /\ f = Fam4 /\ 1472 < zlen x /\ 65535 <= s_id4 (n_tx n))))).
Proof. exact echo_sent. Qed.
Print Assumptions C107_sent_partial.
(** ** whole runs, from a stack without sockets: frames of any bytes arrive, addresses change,
    other sockets are used (none after it was closed) *)
(** the datagram in hand was meant for the service, and its sender can be answered *)
Theorem C107_holds : forall f a port w, 0 < port -> fresh_world w -> good (w_node w) -> let s := echo_start f a port true w in e_at s = AtTest ->
  forall es, private (e_sock s) es -> calm es -> no_use_after_close (startup f a port w ++ ops_of es s) ->
  forall d r p, e_at (echo_run es s) = Holding d r p ->
  exists m, meant_for (sock_of (echo_run es s)) m /\ d = m_data m /\ r = m_rip m /\ p = m_rport m.
Proof. intros f a port w P F G s A es Pr C N d r p H. exact (steady_holds _ _ _ _ _ _ (steady_run f a port w P F G A es Pr C N) H). Qed.
Print Assumptions C107_holds.
(** what answering does, without assumptions about the datagram *)
Theorem C107_served_partial : forall f a port w, 0 < port -> fresh_world w -> good (w_node w) -> let s0 := echo_start f a port true w in e_at s0 = AtTest ->
  forall es, private (e_sock s0) es -> calm es -> no_use_after_close (startup f a port w ++ ops_of es s0) ->
  let s := echo_run es s0 in forall d r p c, e_at s = Holding d r p ->
  let n := w_node (e_world s) in let u := sock_of s in let s' := echo_do (EThread c) s in let n' := w_node (e_world s') in
  exists x, answer_to d x /\
  ((e_at s' = AtTest /\ exists k, send_result n n' (source_for n u r) r (u_lport0 u) p x k) \/
   (exists e, e_at s' = Died e /\ s_out (n_tx n') = s_out (n_tx n) /\
     ((e = GaiError /\ unspec (u_lip u) /\ unspec (pick_local_ip (my_addrs n) r)) \/
      (e = AssertionError /\ f = Fam4 /\ 1472 < zlen x /\ 65535 <= s_id4 (n_tx n))))).
Proof. intros f a port w P F G s0 A es Pr C N s d r p c H. exact (steady_sent _ _ _ c _ _ _ (steady_run f a port w P F G A es Pr C N) H). Qed.
Print Assumptions C107_served_partial.
(** a service bound to one address answers from the address and port that were asked, to the
    address and port that asked *)
Theorem C107_reverses : forall f a port w, 0 < port -> fresh_world w -> good (w_node w) -> let s0 := echo_start f a port true w in e_at s0 = AtTest ->
  forall es, private (e_sock s0) es -> calm es -> no_use_after_close (startup f a port w ++ ops_of es s0) -> a <> 0 ->
  let s := echo_run es s0 in forall d r p c, e_at s = Holding d r p ->
  exists m x k, d = m_data m /\ r = m_rip m /\ p = m_rport m /\ answer_to (m_data m) x /\
  ((e_at (echo_do (EThread c) s) = AtTest /\
    send_result (w_node (e_world s)) (w_node (e_world (echo_do (EThread c) s))) (m_lip m) (m_rip m) (m_lport m) (m_rport m) x k) \/
   (e_at (echo_do (EThread c) s) = Died AssertionError /\ f = Fam4 /\ 1472 < zlen x /\ 65535 <= s_id4 (n_tx (w_node (e_world s))))).
Proof.
  intros f a port w P F G s0 A es Pr C N A0 s d r p c H. apply (steady_reverses _ _ _ c _ _ _ (steady_run f a port w P F G A es Pr C N) H).
  destruct (start_ok f a port w P A) as (_ & Rn & _ & L & _).
  destruct (echo_history es s0 (e_sock s0) f [] Rn Pr) as (_ & E & _); [rewrite A; reflexivity|]. apply ends_fields in E. destruct E as (E & _). fold s0 in L.
  fold s0. rewrite E, L. intros [U|U]; destruct f; try discriminate U; injection U as U; contradiction.
Qed.
Print Assumptions C107_reverses.
(** only these two things end it by an exception, and only while it answers *)
Theorem C107_ends : forall f a port w, 0 < port -> fresh_world w -> good (w_node w) -> let s := echo_start f a port true w in e_at s = AtTest ->
  forall es, private (e_sock s) es -> calm es -> no_use_after_close (startup f a port w ++ ops_of es s) ->
  forall e, e_at (echo_run es s) = Died e -> exists es1 c es2, es = es1 ++ EThread c :: es2 /\ ended_by f (echo_run es1 s) e.
Proof. exact echo_died. Qed.
Print Assumptions C107_ends.
(** after stop() at most one more datagram is answered *)
Theorem C107_stop : forall es s, (length (tried (EStop :: es) s) <= match e_at s with InRecv | Holding _ _ _ => 1 | _ => 0 end)%nat.
Proof. intros es s. exact (echo_stops es (echo_do EStop s) eq_refl). Qed.
Print Assumptions C107_stop.

(** ** the service does not survive every datagram *)
Definition only_frames (es : list echo_ev) : Prop := forall o, In (EWorld o) es -> exists fr, o = UFrame fr /\ wf_bytes fr.
Definition C107_alive_statement : Prop :=
  forall f a port w es, fresh_world w -> wf_addrs (my_addrs (w_node w)) -> 0 < port < 65536 ->
  let s := echo_start f a port true w in e_at s = AtTest -> only_frames es -> forall e, e_at (echo_run es s) <> Died e.
(** a stack with 10.0.0.2/24 and no gateway, and a datagram for port 7 from 192.0.2.1 *)
Definition ex_on (hosts : list host) : world :=
  {| w_node := set_tx (set_addrs {| a_mac := a_mac ex_addrs; a_mac_mcast := a_mac_mcast ex_addrs; a_host4 := hosts; a_mcast4 := a_mcast4 ex_addrs; a_host6 := a_host6 ex_addrs;
       a_mcast6 := a_mcast6 ex_addrs; a_cand4 := []; a_cand6 := None; a_sup4 := true; a_sup6 := true |} (n_tx (w_node ex_world))) (w_node ex_world);
     w_next := 0 |}.
Definition ex_h (x : Z) (g : option Z) : host := {| h_addr := x; h_net := {| n_addr := 0x0A000000; n_mask := 0xFFFFFF00 |}; h_gw := g |}.
Definition ex_alone : world := ex_on [ex_h 0x0A000002 None].
Lemma ex_on_wf hosts : wf_addrs (my_addrs (w_node (ex_on hosts))).
Proof. exact ex_wf. Qed.
(** "hi" from 10.0.0.9 and from 192.0.2.1, port 1000, to 10.0.0.2 port 7; and from 10.0.0.9 to 10.0.0.3 *)
Definition ex_near : bytes := [2; 0; 0; 0; 0; 7; 2; 0; 0; 0; 0; 9; 8; 0; 69; 0; 0; 30; 0; 1; 0; 0; 64; 17; 102; 196; 10; 0; 0; 9; 10; 0; 0; 2; 3; 232; 0; 7; 0; 10; 127; 119; 104; 105].
Definition ex_far : bytes := [2; 0; 0; 0; 0; 7; 2; 0; 0; 0; 0; 9; 8; 0; 69; 0; 0; 30; 0; 1; 0; 0; 64; 17; 174; 203; 192; 0; 2; 1; 10; 0; 0; 2; 3; 232; 0; 7; 0; 10; 199; 126; 104; 105].
Definition ex_second : bytes := [2; 0; 0; 0; 0; 7; 2; 0; 0; 0; 0; 9; 8; 0; 69; 0; 0; 30; 0; 1; 0; 0; 64; 17; 102; 195; 10; 0; 0; 9; 10; 0; 0; 3; 3; 232; 0; 7; 0; 10; 127; 118; 104; 105].
Lemma ex_bytes : wf_bytes ex_near /\ wf_bytes ex_far /\ wf_bytes ex_second.
Proof. repeat split; (repeat constructor; unfold is_byte; lia). Qed.
Definition one_round (fr : bytes) : list echo_ev := [EThread 0; EThread 0; EWorld (UFrame fr); EThread 0; EThread 0].
Lemma round_frames fr : wf_bytes fr -> only_frames (one_round fr).
Proof. intros W o I. cbn in I. destruct I as [I|[I|[I|[I|[I|[]]]]]]; try discriminate. injection I as <-. eauto. Qed.
Theorem C107_alive_refuted : ~ C107_alive_statement.
Proof.
  intros H. apply (H Fam4 0 7 ex_alone (one_round ex_far) (conj eq_refl eq_refl) (ex_on_wf _) ltac:(lia) eq_refl (round_frames _ (proj1 (proj2 ex_bytes))) GaiError).
  vm_compute. reflexivity.
Qed.
Print Assumptions C107_alive_refuted.

(** ** the answer does not always come from the address that was asked *)
Definition new_out (s s' : echo) : list oframe := skipn (length (s_out (n_tx (w_node (e_world s))))) (s_out (n_tx (w_node (e_world s')))).
Definition C107_source_statement : Prop :=
  forall f a port w es c, fresh_world w -> wf_addrs (my_addrs (w_node w)) -> 0 < port < 65536 ->
  let s0 := echo_start f a port true w in e_at s0 = AtTest -> only_frames es ->
  let s := echo_run es s0 in forall m q, e_at s = InRecv -> u_queue (sock_of s) = m :: q ->
  forall fr t sp dp d, In fr (new_out s (echo_run [EThread c; EThread c] s)) -> f_pkt fr = NIp4 t (PUdp sp dp d) -> A4 (t4_src t) = m_lip m.
(** a stack with 10.0.0.2/24 and 10.0.0.3/24 asked at 10.0.0.3 answers from 10.0.0.2 *)
Definition ex_two : world := ex_on [ex_h 0x0A000002 None; ex_h 0x0A000003 None].
Definition asked (fr : bytes) : list echo_ev := [EThread 0; EThread 0; EWorld (UFrame fr)].
Lemma asked_frames fr : wf_bytes fr -> only_frames (asked fr).
Proof. intros W o I. cbn in I. destruct I as [I|[I|[I|[]]]]; try discriminate. injection I as <-. eauto. Qed.
Theorem C107_source_refuted : ~ C107_source_statement.
Proof.
  intros H. specialize (H Fam4 0 7 ex_two (asked ex_second) 0 (conj eq_refl eq_refl) (ex_on_wf _) ltac:(lia) eq_refl (asked_frames _ (proj2 (proj2 ex_bytes)))).
  cbv zeta in H.
  specialize (H {| m_lip := A4 0x0A000003; m_lport := 7; m_rip := A4 0x0A000009; m_rport := 1000; m_data := [104; 105] |} [] eq_refl).
  assert (Q : u_queue (sock_of (echo_run (asked ex_second) (echo_start Fam4 0 7 true ex_two))) =
    [{| m_lip := A4 0x0A000003; m_lport := 7; m_rip := A4 0x0A000009; m_rport := 1000; m_data := [104; 105] |}]) by (vm_compute; reflexivity).
  specialize (H Q).
  assert (N : map f_pkt (new_out (echo_run (asked ex_second) (echo_start Fam4 0 7 true ex_two)) (echo_run [EThread 0; EThread 0] (echo_run (asked ex_second) (echo_start Fam4 0 7 true ex_two)))) =
    [NIp4 (ip4_whole_tx 0x0A000002 0x0A000009 64 17) (PUdp 7 1000 [104; 105])]) by (vm_compute; reflexivity).
  destruct (new_out _ _) as [|fr l]; [discriminate|]. injection N as N _. specialize (H fr _ _ _ _ (or_introl eq_refl) N). discriminate.
Qed.
Print Assumptions C107_source_refuted.
(** a service bound to one address, and one on a stack with one IPv4 address, answers from it *)
Theorem C107_source_partial : forall i f s c d a p, running i f s -> e_at s = Holding d a p ->
  let n := w_node (e_world s) in let u := sock_of s in let s' := echo_do (EThread c) s in let n' := w_node (e_world s') in
  wf_addrs (my_addrs n) -> 0 <= s_id4 (n_tx n) -> family_of a = f -> addr_ok a -> 0 <= p < 65536 -> zlen d < 65528 -> e_at s' = AtTest ->
  exists x k, answer_to d x /\
    (~ unspec (u_lip u) -> send_result n n' (u_lip u) a (u_lport0 u) p x k) /\
    (forall h, u_lip u = A4 0 -> a_host4 (my_addrs n) = [h] -> u_lport0 u <> 68 -> send_result n n' (A4 (h_addr h)) a (u_lport0 u) p x k).
Proof. exact echo_source. Qed.
Print Assumptions C107_source_partial.

(** a round: "hi" comes back, from the address and port it was sent to *)
Example C107_example : let s := echo_start Fam4 0 7 true ex_alone in
  e_at s = AtTest /\ private (e_sock s) (one_round ex_near) /\
  tried (one_round ex_near) s = [([104; 105], Some 0x0A000009, 1000)] /\
  map f_pkt (new_out s (echo_run (one_round ex_near) s)) = [NIp4 (ip4_whole_tx 0x0A000002 0x0A000009 64 17) (PUdp 7 1000 [104; 105])] /\
  e_at (echo_run (one_round ex_near) s) = AtTest.
Proof.
  split; [vm_compute; reflexivity|]. split.
  - intros o I. cbn in I. destruct I as [I|[I|[I|[I|[I|[]]]]]]; try discriminate. injection I as <-. cbn. auto.
  - split; [vm_compute; reflexivity|]. split; vm_compute; reflexivity.
Qed.
(** " MalPa!" asks for a picture *)
Example C107_example_word : said w_malpa [32; 77; 97; 108; 80; 97; 33] /\ echo_message [32; 77; 97; 108; 80; 97; 33] = malpa /\ ~ said w_malpka [32; 77; 97; 108; 80; 97; 33].
Proof.
  split; [|split; [vm_compute; reflexivity|]].
  - exists [32], [77; 97; 108; 80; 97], [33]. split; [reflexivity|]. repeat constructor; unfold same_letter; lia.
  - apply not_contains; [apply small_malpka|vm_compute; reflexivity].
Qed.

(** the hypotheses of the theorems about runs hold of this round, and of the one that ends the service *)
Example C107_example_run : fresh_world ex_alone /\ good (w_node ex_alone) /\
  (forall fr, wf_bytes fr -> calm (one_round fr)) /\
  no_use_after_close (startup Fam4 0 7 ex_alone ++ ops_of (one_round ex_far) (echo_start Fam4 0 7 true ex_alone)) /\
  e_at (echo_run (one_round ex_far) (echo_start Fam4 0 7 true ex_alone)) = Died GaiError.
Proof.
  split; [split; reflexivity|]. split; [split; [split; constructor|split; [apply ex_on_wf|vm_compute; discriminate]]|].
  split; [intros fr W o I; cbn in I; destruct I as [I|[I|[I|[I|[I|[]]]]]]; try discriminate; injection I as <-; exact W|].
  split; [|vm_compute; reflexivity].
  assert (X : forall i, ~ In (UClose i) (startup Fam4 0 7 ex_alone ++ ops_of (one_round ex_far) (echo_start Fam4 0 7 true ex_alone))).
  { intros i. replace (ops_of (one_round ex_far) (echo_start Fam4 0 7 true ex_alone)) with
      [UFrame ex_far; URecvfrom 0; USendto 0 0 [104; 105] (Some 0xC0000201) 1000] by (vm_compute; reflexivity).
    cbn. intros [I|[I|[I|[I|[I|[]]]]]]; discriminate I. }
  intros x i y E. exfalso. apply (X i). rewrite E. apply in_or_app. right. left. reflexivity.
Qed.
