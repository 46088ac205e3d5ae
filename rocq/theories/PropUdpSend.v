(** C91: send() and sendto() of a datagram socket. *)
From Verif Require Import Base BaseLemmas AddrModel Ip4Model StackModel StackRxModel UdpApiModel SpecUdpApi StackSendProofs StackRouteProofs UdpApiProofs SpecUdpSend UdpSendProofs PropTx PropUdpApi.

(** * C91 *)
(** a socket without a destination *)
Theorem C91_no_destination i data n : no_remote (n_udp n i) -> udp_send i data n = (n, Exn (OsError 89)).
Proof. exact (send_unset i data n). Qed.
Print Assumptions C91_no_destination.
(** an ICMP unreachable message is reported once, and then sending goes on *)
Theorem C91_refused_once i data n : ~ no_remote (n_udp n i) -> u_unreach (n_udp n i) = true ->
  exists n', udp_send i data n = (n', Exn ConnRefused) /\ n_tx n' = n_tx n /\ n_socks n' = n_socks n /\ u_unreach (n_udp n' i) = false /\ ends (n_udp n' i) = ends (n_udp n i) /\
    u_queue (n_udp n' i) = u_queue (n_udp n i) /\ forall j, j <> i -> n_udp n' j = n_udp n j.
Proof.
  intros H U. eexists. split; [exact (send_refused i data n H U)|]. cbn [set_udp n_tx n_socks n_udp]. rewrite Nat.eqb_refl. do 5 (split; [reflexivity|]).
  intros j N. apply Nat.eqb_neq in N. rewrite N. reflexivity.
Qed.
Print Assumptions C91_refused_once.
(** otherwise the datagram leaves from the socket's endpoint for its destination and its length is
    returned, or nothing of it leaves and the result is 0; an exception sends nothing *)
Theorem C91_send i data n n' r : wf_addrs (my_addrs n) -> addr_ok (u_rip (n_udp n i)) -> ~ no_remote (n_udp n i) -> u_unreach (n_udp n i) = false -> udp_send i data n = (n', r) ->
  same_sockets n n' /\ match r with
  | Ok k => send_result n n' (u_lip (n_udp n i)) (u_rip (n_udp n i)) (u_lport0 (n_udp n i)) (u_rport (n_udp n i)) data k
  | Exn _ => s_out (n_tx n') = s_out (n_tx n) end.
Proof. exact (send_sends i data n n' r). Qed.
Print Assumptions C91_send.
Theorem C91_sendto_port c i data t rp n : ~ 0 <= rp < 65536 -> udp_sendto c i data t rp n = (n, Exn OverflowErr).
Proof. exact (sendto_range c i data t rp n). Qed.
Print Assumptions C91_sendto_port.
(** sendto() leaves the destination and the local address of the socket as they are *)
Theorem C91_sendto c i data a rp n n' r : wf_addrs (my_addrs n) -> match family_of (u_lip (n_udp n i)) with Fam4 => in32 a | Fam6 => in128 a end ->
  udp_sendto c i data (Some a) rp n = (n', r) ->
  let u := n_udp n i in let u' := n_udp n' i in let rip := in_family (family_of (u_lip u)) a in
  (u_lip u', u_rip u', u_rport u') = (u_lip u, u_rip u, u_rport u) /\ (bound_port (u_lport0 u) = true -> u_lport0 u' = u_lport0 u) /\
  match r with
  | Ok k => 0 <= rp < 65536 /\ bound_port (u_lport0 u') = true /\ send_result n n' (source_for n u rip) rip (u_lport0 u') rp data k
  | Exn _ => s_out (n_tx n') = s_out (n_tx n)
  end.
Proof. exact (sendto_sends c i data a rp n n' r). Qed.
Print Assumptions C91_sendto.
(** a connected socket sends three bytes; to a neighbour not yet resolved it sends nothing *)
Definition ex_sender (rip : Z) : node := w_node (uop_run [UNew Fam4; UBind 0 0 (Some 0x0A000002) 5000; UConnect 0 0 (Some rip) 7] ex_world).
Example C91_example : let n := ex_sender 0x0A000009 in
  wf_addrs (my_addrs n) /\ addr_ok (u_rip (n_udp n 0%nat)) /\ ~ no_remote (n_udp n 0%nat) /\ u_unreach (n_udp n 0%nat) = false /\
  snd (udp_send 0 [1; 2; 3] n) = Ok 3 /\ map (fun f => (f_dst f, match f_pkt f with NIp4 t p => (t4_src t, t4_dst t, p) | _ => (0, 0, PRaw []) end)) (s_out (n_tx (fst (udp_send 0 [1; 2; 3] n)))) = [(0x020000000009, (0x0A000002, 0x0A000009, PUdp 5000 7 [1; 2; 3]))] /\
  snd (udp_send 0 [1; 2; 3] (ex_sender 0x0A000008)) = Ok 0 /\
  snd (udp_sendto 0 0 [1; 2; 3] (Some 0x0A000009) 9 n) = Ok 3.
Proof.
  cbv zeta. split; [exact ex_wf|]. split; [split; vm_compute; congruence|]. split; [intros [H|[H|H]]; vm_compute in H; discriminate H|]. repeat (split; [vm_compute; reflexivity|]). vm_compute. reflexivity.
Qed.
