(** C56, C57, C59 and C60: the datagram socket calls. *)
From Verif Require Import Base BaseLemmas AddrModel StackModel StackRxModel UdpApiModel SpecUdpApi UdpApiProofs PropTx.

(** an empty node with the addresses of [ex_stack] *)
Definition ex_usock : usock := new_udp Fam4.
Definition ex_world : world :=
  {| w_node := {| n_tx := ex_stack; n_flows4 := []; n_flows6 := []; n_socks := []; n_udp := fun _ => ex_usock; n_tcp := [];
                  n_dad := 0; n_dad_tlla := None; n_ra := []; n_ra_ev := 0; n_conflict := [] |};
     w_next := 0 |}.
Lemma ex_fresh : fresh_world ex_world.
Proof. split; reflexivity. Qed.

(** * C56 *)
Definition C56_no_overlap_statement : Prop :=
  forall ops w i j, fresh_world w ->
  let w' := uop_run ops w in let u := n_udp (w_node w') i in let v := n_udp (w_node w') j in
  (i < w_next w')%nat -> (j < w_next w')%nat -> i <> j -> ~ closed_in ops i -> ~ closed_in ops j ->
  u_lport0 u <> 0 -> u_lport0 u = u_lport0 v -> ~ overlap (u_lip u) (u_lip v).
(** socket 0 is closed twice: the second close unregisters socket 1, and socket 2 can then
    take its endpoint *)
Definition ex_overlap : list uop :=
  [UNew Fam4; UNew Fam4; UNew Fam4; UBind 0 0 (Some 0) 5000; UClose 0; UBind 0 1 (Some 0) 5000; UClose 0; UBind 0 2 (Some 0) 5000].
Theorem C56_no_overlap_refuted : ~ C56_no_overlap_statement.
Proof.
  intros H. specialize (H ex_overlap ex_world 1%nat 2%nat ex_fresh). cbv zeta in H.
  apply H.
  - vm_compute. repeat constructor.
  - vm_compute. repeat constructor.
  - discriminate.
  - intros I. cbn in I. repeat destruct I as [I|I]; try discriminate; contradiction.
  - intros I. cbn in I. repeat destruct I as [I|I]; try discriminate; contradiction.
  - vm_compute. discriminate.
  - vm_compute. reflexivity.
  - split; [vm_compute; reflexivity|]. left. vm_compute. reflexivity.
Qed.
Print Assumptions C56_no_overlap_refuted.
(** it holds of every history in which no call is made on a socket after it was closed *)
Theorem C56_no_overlap_partial : forall ops w i j, fresh_world w -> no_use_after_close ops ->
  let w' := uop_run ops w in let u := n_udp (w_node w') i in let v := n_udp (w_node w') j in
  (i < w_next w')%nat -> (j < w_next w')%nat -> i <> j -> ~ closed_in ops i -> ~ closed_in ops j ->
  u_lport0 u <> 0 -> u_lport0 u = u_lport0 v -> ~ overlap (u_lip u) (u_lip v).
Proof.
  intros ops w i j F NU w' u v Hi Hj Nij Ci Cj P E.
  assert (V := inv_history ops w F NU). fold w' in V.
  apply (inv_apart _ _ V i j Hi Hj Ci Cj Nij); auto.
  destruct (inv_open _ _ V i Hi Ci) as [U|[B _]]; auto. exfalso. apply P. apply unbound_port. auto.
Qed.
Print Assumptions C56_no_overlap_partial.
(** in such a history every open bound socket is found in the table under its own endpoint, and
    everything registered is an open socket *)
Theorem C56_registered_partial : forall ops w, fresh_world w -> no_use_after_close ops ->
  let w' := uop_run ops w in
  NoDup (map fst (n_socks (w_node w'))) /\
  (forall i, (i < w_next w')%nat -> ~ closed_in ops i -> u_lport0 (n_udp (w_node w') i) <> 0 ->
     In (udp_key (n_udp (w_node w') i), i) (n_socks (w_node w'))) /\
  (forall k i, In (k, i) (n_socks (w_node w')) -> k_type k = Dgram ->
     (i < w_next w')%nat /\ ~ closed_in ops i /\ k = udp_key (n_udp (w_node w') i)).
Proof.
  intros ops w F NU w'. assert (V := inv_history ops w F NU). fold w' in V. split; [apply V|]. split.
  - intros i Hi Ci P. destruct (inv_open _ _ V i Hi Ci) as [U|[_ I]]; auto. exfalso. apply P. apply unbound_port. auto.
  - intros k i I T. destruct (inv_entry _ _ V k i I T) as (A & B & C & _). auto.
Qed.
Print Assumptions C56_registered_partial.
(** a second socket on the same endpoint: refused while the first is open, accepted after *)
Definition ex_calls : list uop :=
  [UNew Fam4; UNew Fam4; UNew Fam4; UBind 0 0 (Some 0) 5000; UBind 0 1 (Some 0x0A000002) 5000; UBind 0 2 (Some 0) 40000; UConnect 0 2 (Some 0x0A000009) 53; UClose 0; UBind 0 1 (Some 0x0A000002) 5000].
Example C56_example : no_use_after_close ex_calls /\
  snd (uop_do (UBind 0 1 (Some 0x0A000002) 5000) (uop_run (firstn 4 ex_calls) ex_world)) = RErr (OsError 98) /\
  map (fun kv => (k_lip (fst kv), k_lport (fst kv), k_rip (fst kv), snd kv)) (n_socks (w_node (uop_run ex_calls ex_world))) =
  [(A4 0x0A000002, 40000, A4 0x0A000009, 2%nat); (A4 0x0A000002, 5000, A4 0, 1%nat)].
Proof.
  split; [|split; vm_compute; reflexivity].
  intros a i b E o I. unfold ex_calls in E.
  repeat (destruct a as [|? a]; [try discriminate; cbn in E; injection E as <- <-; destruct I as [<-|[]]; discriminate|
    cbn in E; injection E as <- E]).
  destruct a; discriminate.
Qed.

(** * C57 *)
Theorem C57_pick_port : forall c t,
  (exists p, pick_port c t = Ok p /\ 32168 <= p < 60700 /\ p mod 2 = 0 /\ ~ port_used t p) \/
  (pick_port c t = Exn (OsError 98) /\ forall p, 32168 <= p < 60700 -> p mod 2 = 0 -> port_used t p).
Proof.
  intros c t. destruct (pick_port c t) as [p|e] eqn:E.
  - left. exists p. apply pick_port_ok in E. destruct E as [I N]. apply ephemeral_in in I. tauto.
  - right. apply pick_port_exn in E. destruct E as [-> A]. split; auto. intros p B M. apply A, ephemeral_in. auto.
Qed.
Print Assumptions C57_pick_port.
(** any free port of the range may be the one chosen *)
Theorem C57_pick_any : forall t p, 32168 <= p < 60700 -> p mod 2 = 0 -> ~ port_used t p -> pick_port p t = Ok p.
Proof. intros t p B M N. apply pick_port_any; auto. apply ephemeral_in. auto. Qed.
Print Assumptions C57_pick_any.
(** the port a socket has after bind to port 0, and after connect or sendto when it had none *)
Definition auto_port (n n' : node) (i : nat) : Prop :=
  let p := u_lport0 (n_udp n' i) in
  32168 <= p < 60700 /\ p mod 2 = 0 /\ ~ port_used (n_socks n) p /\ In (udp_key (n_udp n' i), i) (n_socks n').
Theorem C57_bind : forall c i a n n', udp_bind c i a 0 n = (n', Ok tt) -> auto_port n n' i.
Proof. intros c i a n n' E. destruct (bind_auto _ _ _ _ _ E) as (I & N & R). apply ephemeral_in in I. unfold auto_port. tauto. Qed.
Print Assumptions C57_bind.
Theorem C57_connect : forall c i a rp n n', bound_port (u_lport0 (n_udp n i)) = false ->
  udp_connect c i a rp n = (n', Ok tt) -> auto_port n n' i.
Proof. intros c i a rp n n' B E. destruct (connect_auto _ _ _ _ _ _ B E) as (I & N & R). apply ephemeral_in in I. unfold auto_port. tauto. Qed.
Print Assumptions C57_connect.
Theorem C57_sendto : forall c i d a rp n n' l, bound_port (u_lport0 (n_udp n i)) = false ->
  udp_sendto c i d a rp n = (n', Ok l) -> auto_port n n' i.
Proof. intros c i d a rp n n' l B E. destruct (sendto_auto _ _ _ _ _ _ _ _ B E) as (I & N & R). apply ephemeral_in in I. unfold auto_port. tauto. Qed.
Print Assumptions C57_sendto.
(** exhaustion *)
Theorem C57_exhausted : forall n i, bound_port (u_lport0 (n_udp n i)) = false ->
  (forall p, 32168 <= p < 60700 -> p mod 2 = 0 -> port_used (n_socks n) p) ->
  (forall c a, In a (match family_of (u_lip (n_udp n i)) with Fam4 => ip4_unicast (my_addrs n) | Fam6 => ip6_unicast (my_addrs n) end ++ [0]) ->
     udp_bind c i (Some a) 0 n = (n, Exn (OsError 98))) /\
  (forall c a rp, 0 <= rp < 65536 -> udp_connect c i a rp n = (n, Exn (OsError 98))) /\
  (forall c d a rp, 0 <= rp < 65536 -> snd (udp_sendto c i d a rp n) = Exn (OsError 98)).
Proof.
  intros n i B A. assert (A' : forall p, In p ephemeral_ports -> port_used (n_socks n) p) by (intros p I; apply ephemeral_in in I; apply A; tauto).
  split; [intros; apply bind_none; auto|]. split; intros; [apply connect_none|apply sendto_none]; auto.
Qed.
Print Assumptions C57_exhausted.
(** a table in which every ephemeral port is taken *)
Definition ex_full : sockets := map (fun p => ({| k_type := Stream; k_lip := A4 0; k_lport := p; k_rip := A4 0; k_rport := 0 |}, 0%nat)) ephemeral_ports.
Definition ex_one (p : Z) : sockets := [({| k_type := Stream; k_lip := A4 0; k_lport := p; k_rip := A4 0; k_rport := 0 |}, 0%nat)].
Example C57_example : pick_port 40000 (ex_one 40002) = Ok 40000 /\
  (exists p, pick_port 40000 (ex_one 40000) = Ok p /\ p <> 40000) /\
  forall p, 32168 <= p < 60700 -> p mod 2 = 0 -> port_used ex_full p.
Proof.
  assert (O : forall q p, port_used (ex_one q) p -> p = q) by (intros q p (k & i & [E|[]] & <-); injection E as <- _; reflexivity).
  split; [|split].
  - apply C57_pick_any; [lia|reflexivity|]. intros U. apply O in U. discriminate.
  - destruct (C57_pick_port 40000 (ex_one 40000)) as [(p & E & _ & _ & N)|(_ & A)].
    + exists p. split; [exact E|]. intros ->. apply N. eexists _, _. split; [left|]; reflexivity.
    + specialize (A 40002 ltac:(lia) eq_refl). apply O in A. discriminate.
  - intros p B M. exists {| k_type := Stream; k_lip := A4 0; k_lport := p; k_rip := A4 0; k_rport := 0 |}, 0%nat.
    split; [|reflexivity]. unfold ex_full. apply in_map_iff. exists p. split; [reflexivity|]. apply ephemeral_in. auto.
Qed.

(** * C59 *)
(** what the receive calls on a socket return is what the frames put into its queue, in order,
    each once; what is not yet returned is still in the queue *)
Theorem C59_fifo : forall ops w i, (i < w_next w)%nat -> counted w i ->
  exists taken, Forall2 carries (returns i ops w) taken /\
    taken ++ u_queue (n_udp (w_node (uop_run ops w)) i) = u_queue (n_udp (w_node w) i) ++ arrivals i ops w.
Proof. intros ops w i Hi C. apply run_queue; auto. Qed.
Print Assumptions C59_fifo.
(** a new socket starts with an empty queue and the semaphore always counts the queue *)
Theorem C59_counted : forall ops w f i, i = w_next w -> counted (uop_run (UNew f :: ops) w) i.
Proof.
  intros ops w f i ->. cbn [uop_run uop_do fst]. apply run_queue; [cbn; auto|].
  unfold counted. cbn. rewrite Nat.eqb_refl. reflexivity.
Qed.
Print Assumptions C59_counted.
(** a receive call fails only when nothing is queued (after its timeout) or to report an ICMP
    port unreachable message; it then takes nothing *)
Theorem C59_recv_errors : forall i n n' e, u_ready (n_udp n i) = zlen (u_queue (n_udp n i)) ->
  (udp_recv i n = (n', Exn e) ->
     (e = RecvTimeout /\ u_queue (n_udp n i) = [] \/ e = ConnRefused /\ u_unreach (n_udp n i) = true) /\ u_queue (n_udp n' i) = u_queue (n_udp n i)) /\
  (udp_recvfrom i n = (n', Exn e) -> (e = RecvTimeout /\ u_queue (n_udp n i) = []) /\ u_queue (n_udp n' i) = u_queue (n_udp n i)).
Proof.
  intros i n n' e C. split; intros E.
  - apply (recv_spec _ _ _ _ E C).
  - apply (recvfrom_spec _ _ _ _ E C).
Qed.
Print Assumptions C59_recv_errors.
(** with the receiving and the delivering threads interleaved in any way: pop(0) never fails and
    the datagrams popped are the first of those appended *)
Theorem C59_threads : forall es, legal 0 0 recv0 es ->
  v_fail (recv_run es recv0) = false /\ v_got (recv_run es recv0) ++ v_queue (recv_run es recv0) = appended es.
Proof. intros es L. destruct (legal_inv 0 0 recv0 es L) as [A B]; try reflexivity; try lia. auto. Qed.
Print Assumptions C59_threads.
Definition ex_md (x : Z) : umd := {| m_lip := A4 1; m_lport := 7; m_rip := A4 2; m_rport := 9; m_data := [x] |}.
Example C59_example :
  legal 0 0 recv0 [VAppend (ex_md 1); VRelease; VAppend (ex_md 2); VAcquire; VRelease; VAcquire; VPop; VAppend (ex_md 3); VPop] /\
  (let w := uop_run [UNew Fam4; UBind 0 0 (Some 0) 5000] ex_world in
   let w1 := {| w_node := udp_deliver 0 (ex_md 2) (udp_deliver 0 (ex_md 1) (w_node w)); w_next := w_next w |} in
   counted w1 0 /\ returns 0 [URecv 0; URecvfrom 0; URecv 0] w1 = [RData [1]; RFrom [2] (A4 2) 9]).
Proof.
  split.
  - apply lg_append, lg_release; [lia|]. apply lg_append, lg_acquire; [reflexivity|].
    apply lg_release; [lia|]. apply lg_acquire; [reflexivity|]. apply lg_pop; [lia|]. apply lg_append, lg_pop; [lia|]. constructor.
  - vm_compute. auto.
Qed.

(** * C60 *)
Definition C60_close_only_statement : Prop :=
  forall ops w i, fresh_world w -> (i < w_next (uop_run ops w))%nat ->
  forall k j, j <> i -> In (k, j) (n_socks (w_node (uop_run ops w))) -> In (k, j) (n_socks (w_node (uop_run (ops ++ [UClose i]) w))).
(** the second close of socket 0 unregisters socket 1 *)
Theorem C60_close_only_refuted : ~ C60_close_only_statement.
Proof.
  intros H. specialize (H (firstn 6 ex_overlap) ex_world 0%nat ex_fresh).
  assert (X : (0 < w_next (uop_run (firstn 6 ex_overlap) ex_world))%nat) by (vm_compute; repeat constructor).
  specialize (H X (udp_key (set_local (A4 0) 5000 (new_udp Fam4))) 1%nat ltac:(discriminate)).
  vm_compute in H. destruct H. left. reflexivity.
Qed.
Print Assumptions C60_close_only_refuted.
(** the first close of a socket removes exactly its own entry and changes no socket object *)
Lemma run_app : forall a b w, uop_run (a ++ b) w = uop_run b (uop_run a w).
Proof. induction a; cbn; auto. Qed.
Theorem C60_close_only_partial : forall ops w i, fresh_world w -> no_use_after_close (ops ++ [UClose i]) ->
  let before := uop_run ops w in let after := uop_run (ops ++ [UClose i]) w in
  (i < w_next before)%nat ->
  (forall k j, In (k, j) (n_socks (w_node after)) <-> In (k, j) (n_socks (w_node before)) /\ (k_type k = Dgram -> j <> i)) /\
  n_udp (w_node after) = n_udp (w_node before).
Proof.
  intros ops w i F NU before after Hi.
  assert (NU' : no_use_after_close ops).
  { intros a j b E o I. apply (NU a j (b ++ [UClose i])); [rewrite E, <- app_assoc; auto|apply in_or_app; auto]. }
  assert (V := inv_history ops w F NU'). fold before in V.
  assert (Ci : ~ closed_in ops i).
  { intros C. apply in_split in C. destruct C as (a & b & E). apply (NU a i (b ++ [UClose i])) with (o := UClose i).
    - rewrite E, <- app_assoc. auto.
    - apply in_or_app. right. left. auto.
    - cbn. auto. }
  unfold after. rewrite run_app. fold before. cbn [uop_run]. split.
  - apply (close_only _ _ _ V Hi Ci).
  - cbn [uop_do]. unfold on_sock, known. apply Nat.ltb_lt in Hi. rewrite Hi. reflexivity.
Qed.
Print Assumptions C60_close_only_partial.
Example C60_example : no_use_after_close (firstn 7 ex_calls ++ [UClose 0]) /\
  map snd (n_socks (w_node (uop_run (firstn 7 ex_calls) ex_world))) = [0%nat; 2%nat] /\
  map snd (n_socks (w_node (uop_run (firstn 7 ex_calls ++ [UClose 0]) ex_world))) = [2%nat].
Proof.
  split; [|split; vm_compute; reflexivity].
  intros a i b E o I. cbn in E.
  repeat (destruct a as [|? a]; [try discriminate; cbn in E; injection E as <- <-; destruct I|
    cbn in E; injection E as <- E]).
  destruct a; discriminate.
Qed.
