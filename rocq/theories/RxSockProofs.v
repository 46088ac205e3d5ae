(** What a received frame does to the sockets. *)
From Verif Require Import Base BaseLemmas CodecModel AddrModel EtherModel Ip4Model Ip6Model UdpModel TcpModel
  Icmp4Model Icmp6Model FragModel StackModel StackRxModel SpecRx RxProofs StackTxProofs StackSendProofs SpecReact ReactProofs ReplyProofs.

(** the part of the state that a reaction of each kind leaves alone *)
Lemma effect_keeps x n n' r : effect x n = (n', r) ->
  n_socks n' = n_socks n /\
  ((forall i m, x <> RDeliver i m) -> (forall i, x <> RRefused i) -> n_udp n' = n_udp n) /\
  ((forall i d, x <> RSegment i d) -> n_tcp n' = n_tcp n) /\
  ((forall i d, x = RSegment i d \/ (exists m, x = RDeliver i m) \/ x = RRefused i -> n_tx n' = n_tx n)).
Proof.
  intros E. destruct x; cbn [effect] in E; unfold tx_, tx, rbind', rgets, rupd, rret in E;
    repeat match type of E with
    | context [let (_, _) := send_request ?a ?b in _] => destruct (send_request a b) as [? [?|?]]
    | context [let (_, _) := arp_add ?a ?b ?c in _] => destruct (arp_add a b c) as [? [?|?]]
    | context [let (_, _) := nd_add ?a ?b ?c in _] => destruct (nd_add a b c) as [? [?|?]]
    | context [match ?l with Some _ => _ | None => _ end] => destruct l
    end; injection E as <- <-; (split; [reflexivity|]); (split; [intros A B|]);
    try reflexivity; try (exfalso; eapply A; reflexivity); try (exfalso; eapply B; reflexivity);
    (split; [intros A|]); try reflexivity; try (exfalso; eapply A; reflexivity);
    intros i0 d0 [X|[(m0 & X)|X]]; try discriminate X; reflexivity.
Qed.

(** ** UDP *)
(** the sockets of [n'] are those of [n] but for one datagram more in the queue of [i] *)
Definition delivered (n n' : node) (i : nat) (m : umd) : Prop :=
  n_udp n' i = {| u_lip := u_lip (n_udp n i); u_lport0 := u_lport0 (n_udp n i); u_rip := u_rip (n_udp n i); u_rport := u_rport (n_udp n i);
     u_queue := u_queue (n_udp n i) ++ [m]; u_ready := u_ready (n_udp n i) + 1; u_unreach := u_unreach (n_udp n i) |} /\
  (forall j, j <> i -> n_udp n' j = n_udp n j) /\ n_tcp n' = n_tcp n /\ n_tx n' = n_tx n /\ n_socks n' = n_socks n.
Definition refused (n n' : node) (i : nat) : Prop :=
  n_udp n' i = {| u_lip := u_lip (n_udp n i); u_lport0 := u_lport0 (n_udp n i); u_rip := u_rip (n_udp n i); u_rport := u_rport (n_udp n i);
     u_queue := u_queue (n_udp n i); u_ready := u_ready (n_udp n i); u_unreach := true |} /\
  (forall j, j <> i -> n_udp n' j = n_udp n j) /\ n_tcp n' = n_tcp n /\ n_tx n' = n_tx n /\ n_socks n' = n_socks n.

Lemma set_udp_at n i u : n_udp (set_udp i u n) i = u /\ forall j, j <> i -> n_udp (set_udp i u n) j = n_udp n j.
Proof.
  unfold set_udp. cbn [n_udp]. split; [rewrite Nat.eqb_refl; reflexivity|].
  intros j H. apply Nat.eqb_neq in H. rewrite H. reflexivity.
Qed.
Lemma deliver_delivered n n1 i m : same_but_flows n n1 -> delivered n (udp_deliver i m n1) i m.
Proof.
  intros (A & B & C & D & _). unfold delivered, udp_deliver.
  destruct (set_udp_at n1 i {| u_lip := u_lip (n_udp n1 i); u_lport0 := u_lport0 (n_udp n1 i); u_rip := u_rip (n_udp n1 i); u_rport := u_rport (n_udp n1 i);
     u_queue := u_queue (n_udp n1 i) ++ [m]; u_ready := u_ready (n_udp n1 i) + 1; u_unreach := u_unreach (n_udp n1 i) |}) as (X & Y).
  cbv zeta. rewrite X, <- C. split; [reflexivity|]. split; [exact Y|].
  split; [exact D|]. split; [exact A|exact B].
Qed.
Lemma notify_refused n n1 i : same_but_flows n n1 -> refused n (udp_notify i n1) i.
Proof.
  intros (A & B & C & D & _). unfold refused, udp_notify.
  destruct (set_udp_at n1 i {| u_lip := u_lip (n_udp n1 i); u_lport0 := u_lport0 (n_udp n1 i); u_rip := u_rip (n_udp n1 i); u_rport := u_rport (n_udp n1 i);
     u_queue := u_queue (n_udp n1 i); u_ready := u_ready (n_udp n1 i); u_unreach := true |}) as (X & Y).
  cbv zeta. rewrite X, <- C. split; [reflexivity|]. split; [exact Y|].
  split; [exact D|]. split; [exact A|exact B].
Qed.

Lemma udp_delivered n f n1 src dst sport dport data whole i : wf_bytes f -> node_ok n -> socks_ok (n_socks n) ->
  udp_in n f n1 src dst sport dport data whole -> udp_target (n_socks n) dst dport src sport (Some i) ->
  exists n', phrx_ether f n = (n', Ok tt) /\
    delivered n n' i {| m_lip := dst; m_lport := dport; m_rip := src; m_rport := sport; m_data := data |}.
Proof.
  intros W K N I T. destruct (react_run _ _ _ _ (re_udp _ _ _ _ _ _ _ _ _ _ I T) W K N) as (S & E). rewrite E. cbn [effect].
  eexists. split; [reflexivity|]. apply deliver_delivered. exact S.
Qed.

(** what a frame can do to the UDP sockets *)
Lemma udp_changes n f n' r : wf_bytes f -> node_ok n -> socks_ok (n_socks n) -> phrx_ether f n = (n', r) ->
  n_udp n' = n_udp n \/
  (exists n1 src dst sport dport data whole i, udp_in n f n1 src dst sport dport data whole /\
     udp_target (n_socks n) dst dport src sport (Some i) /\ r = Ok tt /\
     delivered n n' i {| m_lip := dst; m_lport := dport; m_rip := src; m_rport := sport; m_data := data |}) \/
  (exists n1 src dst q d lip lport rip rport i, icmp4_in n f n1 src dst q /\ q4_body q = B4Unreach d /\ quotes4 d lip lport rip rport /\
     udp_target (n_socks n) (A4 lip) lport (A4 rip) rport (Some i) /\ r = Ok tt /\ refused n n' i) \/
  (exists n1 src dst q d lip lport rip rport i, icmp6_in n f n1 src dst q /\ q6_body q = B6Unreach d /\ quotes6 d lip lport rip rport /\
     udp_target (n_socks n) (A6 lip) lport (A6 rip) rport (Some i) /\ r = Ok tt /\ refused n n' i).
Proof.
  intros W K N E. destruct (react_total n f n' r W K N E) as [((_ & _ & Su & _) & _)|(n1 & x & H & Ex & S & _)]; [auto|].
  pose proof (proj1 (proj2 (proj2 S))) as Su.
  destruct (effect_keeps _ _ _ _ Ex) as (_ & Ku & _ & _).
  revert Ku Ex S Su; destruct H; intros Ku Ex S Su; try (left; etransitivity; [apply Ku; intros; discriminate|exact Su]); cbn [effect] in Ex; unfold rupd in Ex; injection Ex as <- <-.
  - right. left. do 8 eexists. split; [eassumption|]. split; [eassumption|]. split; [reflexivity|]. apply deliver_delivered. exact S.
  - right. right. left. do 10 eexists. split; [eassumption|]. split; [eassumption|]. split; [eassumption|]. split; [eassumption|].
    split; [reflexivity|]. apply notify_refused. exact S.
  - right. right. right. do 10 eexists. split; [eassumption|]. split; [eassumption|]. split; [eassumption|]. split; [eassumption|].
    split; [reflexivity|]. apply notify_refused. exact S.
Qed.

(** a socket registered once, as connected to [rip]:[rport] *)
Definition connected_to (t : sockets) (i : nat) (lip : ipaddr) (lport : Z) (rip : ipaddr) (rport : Z) : Prop :=
  open_as t Dgram lip lport rip rport i /\
  forall k, In (k, i) t -> k = {| k_type := Dgram; k_lip := lip; k_lport := lport; k_rip := rip; k_rport := rport |}.
Lemma connected_peer t i lip lport rip rport src sport dst dport : connected_to t i lip lport rip rport ->
  rip <> zero_of rip -> rip <> A4 (2 ^ 32 - 1) -> udp_target t dst dport src sport (Some i) ->
  src = rip /\ sport = rport /\ dst = lip /\ dport = lport.
Proof.
  intros (_ & U) Z B T. inversion T as [j H|j _ H|j _ _ H|x j L _ _ _ H|]; subst; apply U in H; injection H as <- <- <- <-; auto;
    exfalso; try (apply Z; destruct dst; reflexivity). apply B. reflexivity.
Qed.

Lemma refused4_run n f n1 src dst q d lip lport rip rport i : wf_bytes f -> node_ok n -> socks_ok (n_socks n) ->
  icmp4_in n f n1 src dst q -> q4_body q = B4Unreach d -> quotes4 d lip lport rip rport ->
  udp_target (n_socks n) (A4 lip) lport (A4 rip) rport (Some i) ->
  exists n', phrx_ether f n = (n', Ok tt) /\ refused n n' i.
Proof.
  intros W K N I B Q T. destruct (react_run _ _ _ _ (re_refused4 _ _ _ _ _ _ _ _ _ _ _ _ I B Q T) W K N) as (S & E). rewrite E. cbn [effect].
  eexists. split; [reflexivity|]. apply notify_refused. exact S.
Qed.
Lemma refused6_run n f n1 src dst q d lip lport rip rport i : wf_bytes f -> node_ok n -> socks_ok (n_socks n) ->
  icmp6_in n f n1 src dst q -> q6_body q = B6Unreach d -> quotes6 d lip lport rip rport ->
  udp_target (n_socks n) (A6 lip) lport (A6 rip) rport (Some i) ->
  exists n', phrx_ether f n = (n', Ok tt) /\ refused n n' i.
Proof.
  intros W K N I B Q T. destruct (react_run _ _ _ _ (re_refused6 _ _ _ _ _ _ _ _ _ _ _ _ I B Q T) W K N) as (S & E). rewrite E. cbn [effect].
  eexists. split; [reflexivity|]. apply notify_refused. exact S.
Qed.

(** ** TCP *)
Definition segment_of (src dst : ipaddr) (s : tcp) : tmd :=
  {| d_lip := dst; d_lport := s_dport s; d_rip := src; d_rport := s_sport s;
     d_syn := s_fsyn s; d_ack := s_fack s; d_fin := s_ffin s; d_rst := s_frst s;
     d_seq := s_seq s; d_ackn := s_ack s; d_win := s_win s; d_wscale := opt_wscale (s_opts s);
     d_mss := opt_mss (s_opts s); d_data := s_data s |}.
Definition handed (n n' : node) (i : nat) (d : tmd) : Prop :=
  n_tcp n' = n_tcp n ++ [(i, d)] /\ n_udp n' = n_udp n /\ n_tx n' = n_tx n /\ n_socks n' = n_socks n.
Lemma tcp_handed n f n1 src dst s i : wf_bytes f -> node_ok n -> socks_ok (n_socks n) -> tcp_in n f n1 src dst s ->
  tcp_target (n_socks n) dst (s_dport s) src (s_sport s) (pure_syn s) (Some i) ->
  exists n', phrx_ether f n = (n', Ok tt) /\ handed n n' i (segment_of src dst s).
Proof.
  intros W K N I T. destruct (react_run _ _ _ _ (re_tcp _ _ _ _ _ _ _ I T) W K N) as ((A & B & C & D & _) & E). rewrite E. cbn [effect].
  eexists. split; [reflexivity|]. unfold handed, put_tcp. cbn [n_tcp n_udp n_tx n_socks]. rewrite A, B, C, D. auto.
Qed.
Lemma tcp_changes n f n' r : wf_bytes f -> node_ok n -> socks_ok (n_socks n) -> phrx_ether f n = (n', r) ->
  n_tcp n' = n_tcp n \/
  (exists n1 src dst s i, tcp_in n f n1 src dst s /\
     tcp_target (n_socks n) dst (s_dport s) src (s_sport s) (pure_syn s) (Some i) /\ r = Ok tt /\
     handed n n' i (segment_of src dst s)).
Proof.
  intros W K N E. destruct (react_total n f n' r W K N E) as [((_ & _ & _ & St & _) & _)|(n1 & x & H & Ex & S & _)]; [auto|].
  pose proof S as (A & B & C & D & _).
  destruct (effect_keeps _ _ _ _ Ex) as (_ & _ & Kt & _).
  revert Kt Ex S A B C D; destruct H; intros Kt Ex S A B C D; try (left; etransitivity; [apply Kt; intros; discriminate|exact D]). cbn [effect] in Ex; unfold rupd in Ex; injection Ex as <- <-.
  right. do 5 eexists. split; [eassumption|]. split; [eassumption|]. split; [reflexivity|].
  unfold handed, put_tcp, segment_of. cbn [n_tcp n_udp n_tx n_socks]. rewrite A, B, C, D. auto.
Qed.

(** ** one frame, one arrival *)
(** a reset to a segment whose socket exists, or any frame to a delivered datagram: none *)
Lemma out_of_delivery n f n1 src dst sport dport data whole i n' r : wf_bytes f -> node_ok n -> socks_ok (n_socks n) ->
  udp_in n f n1 src dst sport dport data whole -> udp_target (n_socks n) dst dport src sport (Some i) ->
  phrx_ether f n = (n', r) -> n_tx n' = n_tx n.
Proof.
  intros W K N I T E. destruct (udp_delivered n f n1 src dst sport dport data whole i W K N I T) as (n2 & E2 & D).
  rewrite E in E2. injection E2 as -> ->. apply D.
Qed.
Lemma unspecified_src n f n1 src dst sport dport data whole n' r : wf_bytes f -> node_ok n -> socks_ok (n_socks n) ->
  udp_in n f n1 src dst sport dport data whole -> src = zero_of src -> phrx_ether f n = (n', r) ->
  r = Ok tt /\ n_tx n' = n_tx n.
Proof.
  intros W K N I Z E. destruct (udp_run _ _ _ _ _ _ _ _ _ I W K) as ((S & _) & E2). rewrite E in E2.
  destruct (first_match _ _).
  - cbn [effect] in E2. unfold rupd in E2. injection E2 as -> ->. split; [reflexivity|]. exact S.
  - assert (Hs : is_unspecified src = true) by (destruct src; cbn in Z; injection Z as ->; reflexivity).
    rewrite Hs in E2. injection E2 as -> ->. auto.
Qed.

(** a reaction that sends: exactly that request, from the state before *)
Lemma request_run n f n1 q s' r : wf_bytes f -> node_ok n -> socks_ok (n_socks n) -> reacts n f n1 (RSend q) ->
  send_request q (n_tx n) = (s', r) ->
  exists n', phrx_ether f n = (n', match r with Ok _ => Ok tt | Exn e => Exn e end) /\ n_tx n' = s' /\ same_but_flows (set_tx s' n) n'.
Proof.
  intros W K N H E. destruct (react_run _ _ _ _ H W K N) as (S & E2). rewrite E2. cbn [effect].
  pose proof S as (A & B). unfold tx_, tx, rbind'. rewrite A, E.
  destruct r; (eexists; split; [reflexivity|]; split; [reflexivity|]); unfold same_but_flows, set_tx; cbn; tauto.
Qed.

(** ** which frames leave *)
Lemma arp_replies_only n f n' r : wf_bytes f -> node_ok n -> socks_ok (n_socks n) -> wf_addrs (my_addrs n) ->
  phrx_ether f n = (n', r) ->
  exists new, s_out (n_tx n') = s_out (n_tx n) ++ new /\
  forall g a, In g new -> f_pkt g = NArp a -> a_oper a <> 1 ->
    exists e p, arp_in n f e p /\ a_oper p = 1 /\ In (a_tpa p) (ip4_unicast (my_addrs n)) /\ ~ In (a_spa p) (ip4_unicast (my_addrs n)) /\
      f_dst g = a_sha p /\ a = {| a_oper := 2; a_sha := a_mac (my_addrs n); a_spa := a_tpa p; a_tha := a_sha p; a_tpa := a_spa p |}.
Proof.
  intros W K N Wa E. destruct (rx_explained n f n' r W K N Wa E) as (new & En & F). exists new. split; [exact En|].
  intros g a I Eg Ho. destruct (F g I) as [p Ep Op|t x m Ep|e p A O T S D _ Ep|n1 src dst sp dp data wh t _ _ _ Ep|n1 src dst sp dp data wh t _ _ _ Ep
    |n1 src dst s x t4 t6 _ _ Hx|n1 src dst q id seq data _ _ _ Hx|n1 src dst q id seq data _ _ _ Hx|n1 src dst q tg os t m _ _ _ Ep _];
    try congruence.
  - exists e, p. split; [exact A|]. split; [exact O|]. split; [apply mem_In, unicast4_mem; exact T|].
    split; [intros X; apply S; apply unicast4_mem, mem_In; exact X|]. split; [exact D|]. congruence.
  - destruct Hx as [(b & _ & X & _)|(b & _ & X & _)]; congruence.
  - destruct Hx as [(t & X & _)|(t & d & X & _)]; congruence.
  - destruct Hx as [(t & X & _)|(t & i & d & X & _)]; congruence.
Qed.
Lemma icmp4_only n f n' r : wf_bytes f -> node_ok n -> socks_ok (n_socks n) -> wf_addrs (my_addrs n) ->
  phrx_ether f n = (n', r) ->
  exists new, s_out (n_tx n') = s_out (n_tx n) ++ new /\
  forall g, In g new ->
    (forall t m, f_pkt g = NIp4 t (PIcmp4 m) ->
       (exists n1 dst q id seq data, icmp4_in n f n1 (t4_dst t) dst q /\ q4_type q = 8 /\ q4_body q = B4Echo id seq data /\
          m = T4EchoReply id seq data) \/
       (exists n1 dst sport dport data whole, udp_in n f n1 (A4 (t4_dst t)) (A4 dst) sport dport data whole /\
          udp_target (n_socks n) (A4 dst) dport (A4 (t4_dst t)) sport None /\ t4_dst t <> 0 /\ m = T4UnreachPort (firstn 520 whole))) /\
    (forall t d, f_pkt g = NIp4Frag t d ->
       exists n1 dst q id seq data, icmp4_in n f n1 (t4_dst t) dst q /\ q4_type q = 8 /\ q4_body q = B4Echo id seq data).
Proof.
  intros W K N Wa E. destruct (rx_explained n f n' r W K N Wa E) as (new & En & F). exists new. split; [exact En|].
  intros g I. destruct (F g I) as [p Ep Op|t x m Ep|e p A O T S D _ Ep|n1 src dst sp dp data wh t A1 A2 A3 Ep Et|n1 src dst sp dp data wh t _ _ _ Ep
    |n1 src dst s x t4 t6 _ _ Hx|n1 src dst q id seq data A1 A2 A3 Hx|n1 src dst q id seq data _ _ _ Hx|n1 src dst q tg os t m _ _ _ Ep _];
    try (split; intros; congruence).
  - split; [|congruence]. intros t' m' X. rewrite Ep in X. injection X as <- <-. right. rewrite Et. eauto 15.
  - destruct Hx as [(b & _ & X & _)|(b & _ & X & _)]; split; congruence.
  - destruct Hx as [(t & X & Xd)|(t & d & X & Xd & _)]; split; intros t' m' Y; rewrite X in Y; try discriminate Y; injection Y as <- <-.
    + left. rewrite Xd. eauto 12.
    + rewrite Xd. eauto 12.
  - destruct Hx as [(t & X & _)|(t & i & d & X & _)]; split; congruence.
Qed.
Lemma icmp6_only n f n' r : wf_bytes f -> node_ok n -> socks_ok (n_socks n) -> wf_addrs (my_addrs n) ->
  phrx_ether f n = (n', r) ->
  exists new, s_out (n_tx n') = s_out (n_tx n) ++ new /\
  forall g, In g new ->
    (forall t m, f_pkt g = NIp6 t (PIcmp6 m) ->
       (exists x l, m = T6Ns x [TSlla l]) \/
       (exists n1 dst q id seq data, icmp6_in n f n1 (t6_dst t) dst q /\ q6_type q = 128 /\ q6_body q = B6Echo id seq data /\
          m = T6EchoReply id seq data) \/
       (exists n1 dst sport dport data whole, udp_in n f n1 (A6 (t6_dst t)) (A6 dst) sport dport data whole /\
          udp_target (n_socks n) (A6 dst) dport (A6 (t6_dst t)) sport None /\ t6_dst t <> 0 /\ m = T6UnreachPort (firstn 520 whole)) \/
       (exists n1 src dst q target opts, icmp6_in n f n1 src dst q /\ q6_body q = B6Ns target opts /\ In target (ip6_unicast (my_addrs n)) /\
          t6_dst t = (if src =? 0 then 0xFF02 * 2 ^ 112 + 1 else src) /\
          m = T6Na false (negb (src =? 0)) (src =? 0) target [TTlla (a_mac (my_addrs n))])) /\
    (forall t next i d, f_pkt g = NIp6 t (PFrag6 next i d) ->
       exists n1 dst q id seq data, icmp6_in n f n1 (t6_dst t) dst q /\ q6_type q = 128 /\ q6_body q = B6Echo id seq data).
Proof.
  intros W K N Wa E. destruct (rx_explained n f n' r W K N Wa E) as (new & En & F). exists new. split; [exact En|].
  intros g I. destruct (F g I) as [p Ep Op|t x m Ep|e p A O T S D _ Ep|n1 src dst sp dp data wh t _ _ _ Ep|n1 src dst sp dp data wh t A1 A2 A3 Ep Et
    |n1 src dst s x t4 t6 _ _ Hx|n1 src dst q id seq data _ _ _ Hx|n1 src dst q id seq data A1 A2 A3 Hx|n1 src dst q tg os t m A1 A2 A3 Ep Hx];
    try (split; intros; congruence).
  - split; [|congruence]. intros t' m' X. rewrite Ep in X. injection X as <- <-. left. eauto.
  - split; [|congruence]. intros t' m' X. rewrite Ep in X. injection X as <- <-. right. right. left. rewrite Et. eauto 15.
  - destruct Hx as [(b & _ & X & _)|(b & _ & X & _)]; split; congruence.
  - destruct Hx as [(t & X & _)|(t & d & X & _)]; split; congruence.
  - destruct Hx as [(t & X & Xd)|(t & i & d & X & Xd & _)]; split; intros t' m' Y; try (intros d' Y'); congruence || idtac.
    + rewrite X in Y. injection Y as <- <-. right. left. rewrite Xd. eauto 12.
    + rewrite X in Y'. injection Y' as <- <- <- <-. rewrite Xd. eauto 12.
  - split; [|congruence]. intros t' m' X. rewrite Ep in X. injection X as <- <-. right. right. right.
    exists n1, src, dst, q, tg, os. split; [exact A1|]. split; [exact A2|]. split; [apply mem_In, unicast6_mem; exact A3|].
    destruct Hx as [(Z & Ht & ->)|(-> & Ht & ->)]; [|auto]. apply Z.eqb_neq in Z. rewrite Z. auto.
Qed.
Lemma tcp_only n f n' r : wf_bytes f -> node_ok n -> socks_ok (n_socks n) -> wf_addrs (my_addrs n) ->
  phrx_ether f n = (n', r) ->
  exists new, s_out (n_tx n') = s_out (n_tx n) ++ new /\
  forall g x, In g new -> (exists t, f_pkt g = NIp4 t (PTcp x)) \/ (exists t, f_pkt g = NIp6 t (PTcp x)) ->
    exists n1 src dst s, tcp_in n f n1 src dst s /\
      tcp_target (n_socks n) dst (s_dport s) src (s_sport s) (pure_syn s) None /\
      x_frst x = true /\ x_fack x = true /\ x_sport x = s_dport s /\ x_dport x = s_sport s /\
      x_ack x = s_seq s + b2z (s_fsyn s) + b2z (s_ffin s) + zlen (s_data s).
Proof.
  intros W K N Wa E. destruct (rx_explained n f n' r W K N Wa E) as (new & En & F). exists new. split; [exact En|].
  intros g x I Hg. assert (Hx : forall p, f_pkt g = p -> (exists t, p = NIp4 t (PTcp x)) \/ (exists t, p = NIp6 t (PTcp x))) by (intros p <-; exact Hg).
  destruct (F g I) as [p Ep Op|t y m Ep|e p A O T S D _ Ep|n1 src dst sp dp data wh t _ _ _ Ep|n1 src dst sp dp data wh t A1 A2 A3 Ep Et
    |n1 src dst s y t4 t6 A1 A2 Hy B1 B2 B3 B4 B5 B6|n1 src dst q id seq data _ _ _ Hy|n1 src dst q id seq data A1 A2 A3 Hy|n1 src dst q tg os t m A1 A2 A3 Ep Hy];
    try (destruct (Hx _ Ep) as [(t' & X)|(t' & X)]; discriminate X).
  - assert (x = y) as -> by (destruct Hy as [(b & _ & X & _)|(b & _ & X & _)]; destruct (Hx _ X) as [(t' & Y)|(t' & Y)]; congruence).
    exists n1, src, dst, s. auto 10.
  - destruct Hy as [(t & X & _)|(t & d & X & _)]; destruct (Hx _ X) as [(t' & Y)|(t' & Y)]; discriminate Y.
  - destruct Hy as [(t & X & _)|(t & i & d & X & _)]; destruct (Hx _ X) as [(t' & Y)|(t' & Y)]; discriminate Y.
Qed.
Lemma reset_known n f n1 src dst s i : wf_bytes f -> node_ok n -> socks_ok (n_socks n) -> tcp_in n f n1 src dst s ->
  s_frst s = true -> open_as (n_socks n) Stream dst (s_dport s) src (s_sport s) i ->
  exists n', phrx_ether f n = (n', Ok tt) /\ handed n n' i (segment_of src dst s) /\ s_out (n_tx n') = s_out (n_tx n).
Proof.
  intros W K N I _ O. destruct (tcp_handed n f n1 src dst s i W K N I) as (n' & E & H); [apply tt_session; exact O|].
  exists n'. split; [exact E|]. split; [exact H|]. destruct H as (_ & _ & -> & _). reflexivity.
Qed.
