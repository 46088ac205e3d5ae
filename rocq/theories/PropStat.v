(** C99, C100: the receive statistics. *)
From Verif Require Import Base BaseLemmas CodecModel AddrModel SpecAddr SpecCksum SpecWire EtherModel Ip4Model Ip6Model UdpModel TcpModel
  Icmp4Model Icmp6Model FragModel StackModel StackRxModel StatRxModel SpecRx SpecReact SpecStat
  RxProofs ReactProofs StatRxProofs StatMeanProofs StatSeenProofs StatAllProofs StatDropProofs PropTx PropRx.

(** * C99 *)
(** Counting changes nothing else: without the increments the handlers are those of
    StackRxModel, of which the other properties are proved. *)
Theorem C99_counting_only_counts : forall f n, t_ether f n = (counted f n, phrx_ether f n).
Proof. exact counted_run. Qed.
Print Assumptions C99_counting_only_counts.
(** The sums, for any number of frames and whatever else happens in between. *)
Theorem C99_counters_add_up : forall l : list (bytes * node),
  Forall (fun x => wf_bytes (fst x) /\ snd (phrx_ether (fst x) (snd x)) = Ok tt) l ->
  adds_up (zlen l) (flat_map (fun x => counted (fst x) (snd x)) l).
Proof. exact adds_run. Qed.
Print Assumptions C99_counters_add_up.
(** What the stack does about a frame is counted as that, and once. *)
Theorem C99_done_is_counted : forall n f n1 x, reacts n f n1 x -> wf_bytes f -> node_ok n -> socks_ok (n_socks n) ->
  stands_for n f x (filter says_done (counted f n)).
Proof. exact counted_as. Qed.
Print Assumptions C99_done_is_counted.
(** Nothing is counted as done that is not done. *)
Theorem C99_counted_is_done : forall n f, wf_bytes f -> node_ok n -> socks_ok (n_socks n) ->
  filter says_done (counted f n) <> [] ->
  exists n1 x, reacts n f n1 x /\ phrx_ether f n = effect x n1 /\ stands_for n f x (filter says_done (counted f n)).
Proof.
  intros n f W K N H. destruct (done_is_done n f W K N H) as (n1 & x & R). exists n1, x. split; [exact R|].
  split; [exact (proj2 (react_run n f n1 x R W K N))|exact (counted_as n f n1 x R W K N)].
Qed.
Print Assumptions C99_counted_is_done.
(** The counters that name what was seen, or why it was dropped, move exactly if that is so. *)
Theorem C99_seen_is_so : forall n f c, wf_bytes f -> node_ok n -> socks_ok (n_socks n) -> says_done c = false ->
  (In c (counted f n) <-> means n f c).
Proof.
  intros n f c W K N A. split; [exact (counted_means n f c W K N)|exact (means_counted n f c W K N A)].
Qed.
Print Assumptions C99_seen_is_so.
(** a datagram for a socket, one for nobody, and one for another host *)
Definition ex_udp (dst port : Z) : bytes := from9 dst (PUdp 2000 port [1; 2; 3]).
Example C99_example :
  map (fun f => counted f ex_node) [ex_udp 0x0A000002 1001; ex_udp 0x0A000002 9; ex_udp 0x0A000003 9] =
  [[ether__pre_parse; ether__dst_unicast; ip4__pre_parse; ip4__dst_unicast; udp__pre_parse; udp__socket_match];
   [ether__pre_parse; ether__dst_unicast; ip4__pre_parse; ip4__dst_unicast; udp__pre_parse;
    udp__no_socket_match__respond_icmp4_unreachable];
   [ether__pre_parse; ether__dst_unicast; ip4__pre_parse; ip4__dst_unknown__drop]] /\
  forallb wfb [ex_udp 0x0A000002 1001; ex_udp 0x0A000002 9; ex_udp 0x0A000003 9] = true.
Proof. vm_compute. split; reflexivity. Qed.

(** * C100 *)
(** "every frame handled leaves its outcome in the statistics" *)
Definition C100_statement : Prop := forall n f n', wf_bytes f -> node_ok n -> phrx_ether f n = (n', Ok tt) ->
  filter says_outcome (counted f n) <> [].
(** exactly these leave none *)
Theorem C100_outcomes_partial : forall n f n', wf_bytes f -> node_ok n -> phrx_ether f n = (n', Ok tt) ->
  (filter says_outcome (counted f n) = [] <-> unaccounted n f).
Proof. exact unaccounted_iff. Qed.
Print Assumptions C100_outcomes_partial.
(** a link-layer discovery frame *)
Definition ex_lldp : bytes := eth_wire 0x020000000007 0x020000000009 0x88CC [2; 7; 4].
Theorem C100_refuted : ~ C100_statement.
Proof.
  intros H. apply (H ex_node ex_lldp ex_node); [|exact (proj1 ex_node_ok)| |]; [apply wfb_true| |]; vm_compute; reflexivity.
Qed.
Print Assumptions C100_refuted.
Example C100_example : unaccounted ex_node ex_lldp /\ filter says_outcome (counted (ex_udp 0x0A000002 9) ex_node) <> [].
Proof.
  split; [|vm_compute; discriminate].
  apply (C100_outcomes_partial ex_node ex_lldp ex_node); [apply wfb_true| exact (proj1 ex_node_ok)| |]; vm_compute; reflexivity.
Qed.
