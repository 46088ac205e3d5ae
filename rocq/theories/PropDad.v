(** C111: the messages of IPv6 address autoconfiguration on the wire. *)
From Verif Require Import Base BaseLemmas AddrModel Ip6Model FragModel CodecModel EtherModel Icmp6Model StackModel SpecStack StackRxModel SpecRx RxProofs SpecReact AcquireModel SpecAcquire AcquireProofs PropTx PropRx PropAcquire SpecDad DadProofs.

(** * The probe *)
(** whatever arrives meanwhile, a finished probe for [c] has sent the solicitation for [c] to its
    solicited-node group; the source is :: or an address of the stack, and :: if no address has a
    gateway and no network has the group *)
Theorem C111_probe_partial : forall c w w' v, 0 <= c < 2 ^ 128 -> fit w -> quiet (w_node w) ->
  a_sup6 (my_addrs (w_node w)) = true -> ~ In 0 (a_mcast6 (my_addrs (w_node w))) -> nd_dad c w = (w', Ok v) ->
  let a := my_addrs (w_node w) in
  exists o src, s_out (n_tx (w_node w')) = s_out (n_tx (w_node w)) ++ o /\ In (dad_frame (a_mac a) src c) o /\
    (src <> 0 -> In src (ip6_unicast a)) /\ (no_route a (solicited_node c) -> src = 0).
Proof.
  intros c w w' v H F Q S N E a. destruct (nd_dad_sent c w w' v H F Q S N E) as (o & O & I). exists o, (dad_source a (solicited_node c)).
  split; [exact O|]. split; [exact I|]. split; [apply dad_source_own|apply dad_source_free].
Qed.
Print Assumptions C111_probe_partial.
Definition ex_probe : world := fst (nd_dad (h_addr (ll 9)) (ex_w6 1)).
Example C111_example_probe : fit (ex_w6 1) /\ quiet (w_node (ex_w6 1)) /\ snd (nd_dad (h_addr (ll 9)) (ex_w6 1)) = Ok false /\
  no_route (my_addrs (w_node (ex_w6 1))) (solicited_node (h_addr (ll 9))) /\ In (dad_frame ex_mac 0 (h_addr (ll 9))) (s_out (n_tx (w_node ex_probe))).
Proof.
  destruct (ex_w6_fit 1) as [F Q]. split; [exact F|]. split; [exact Q|]. assert (E : snd (nd_dad (h_addr (ll 9)) (ex_w6 1)) = Ok false) by (vm_compute; reflexivity).
  split; [exact E|]. assert (R : no_route (my_addrs (w_node (ex_w6 1))) (solicited_node (h_addr (ll 9)))) by (intros h []). split; [exact R|].
  assert (B : 0 <= h_addr (ll 9) < 2 ^ 128) by (vm_compute; split; [discriminate|reflexivity]).
  assert (S : a_sup6 (my_addrs (w_node (ex_w6 1))) = true) by (vm_compute; reflexivity).
  assert (N : ~ In 0 (a_mcast6 (my_addrs (w_node (ex_w6 1))))) by (vm_compute; intros [X|[]]; discriminate X).
  assert (D : nd_dad (h_addr (ll 9)) (ex_w6 1) = (ex_probe, Ok false)) by (rewrite <- E; apply surjective_pairing).
  destruct (C111_probe_partial (h_addr (ll 9)) (ex_w6 1) ex_probe false B F Q S N D) as (o & src & O & I & _ & Z).
  rewrite (Z R) in I. rewrite O. apply in_or_app. right. exact I.
Qed.
(** RFC 4862, 5.4.2: the source is the unspecified address *)
Definition C111_statement : Prop := forall c w w' v, 0 <= c < 2 ^ 128 -> fit w -> quiet (w_node w) ->
  a_sup6 (my_addrs (w_node w)) = true -> ~ In 0 (a_mcast6 (my_addrs (w_node w))) -> nd_dad c w = (w', Ok v) ->
  exists o, s_out (n_tx (w_node w')) = s_out (n_tx (w_node w)) ++ o /\ In (dad_frame (a_mac (my_addrs (w_node w))) 0 c) o.
(** 2001:db8::2 has a gateway; the probe for a further address leaves from it *)
Definition ex_second : world :=
  {| w_node := set_my (fun a => with_host6 [{| h_addr := db8 + 2; h_net := {| n_addr := db8; n_mask := 2 ^ 128 - 2 ^ 64 |}; h_gw := Some (db8 + 1) |}] a) (w_node (ex_start [] []));
     w_sched := []; w_log := [] |}.
Definition ex_second_done : world := fst (nd_dad (db8 + 3) ex_second).
Definition dad_of (f : oframe) : option (Z * Z) :=
  match f_pkt f with NIp6 t (PIcmp6 (T6Ns c [])) => Some (t6_src t, c) | _ => None end.
Theorem C111_refuted : ~ C111_statement.
Proof.
  intros H. assert (F : fit ex_second /\ quiet (w_node ex_second)).
  { split; [split; [split; [split; constructor|constructor]|constructor]|split; reflexivity]. }
  destruct F as [F Q].
  assert (E : snd (nd_dad (db8 + 3) ex_second) = Ok true) by (vm_compute; reflexivity).
  assert (B : 0 <= db8 + 3 < 2 ^ 128) by (vm_compute; split; [discriminate|reflexivity]).
  assert (S : a_sup6 (my_addrs (w_node ex_second)) = true) by (vm_compute; reflexivity).
  assert (N : ~ In 0 (a_mcast6 (my_addrs (w_node ex_second)))) by (vm_compute; intros [X|[]]; discriminate X).
  assert (R : nd_dad (db8 + 3) ex_second = (ex_second_done, Ok true)) by (rewrite <- E; apply surjective_pairing).
  destruct (H (db8 + 3) ex_second ex_second_done true B F Q S N R) as (o & O & I).
  assert (D : map dad_of (s_out (n_tx (w_node ex_second_done))) = [None; Some (db8 + 2, db8 + 3)] ++ skipn 2 (map dad_of (s_out (n_tx (w_node ex_second_done))))
      /\ Forall (fun x => x = None) (skipn 2 (map dad_of (s_out (n_tx (w_node ex_second_done)))))) by (vm_compute; split; [reflexivity|repeat constructor]).
    destruct D as [D D']. change (s_out (n_tx (w_node ex_second))) with (@nil oframe) in O. cbn [app] in O. rewrite <- O in I.
    apply (in_map dad_of) in I. rewrite D in I. change (dad_of (dad_frame (a_mac (my_addrs (w_node ex_second))) 0 (db8 + 3))) with (Some (0, db8 + 3)) in I.
    cbn [app In] in I. destruct I as [I|[I|I]]; [discriminate I|injection I as I; discriminate I|].
    rewrite Forall_forall in D'. specialize (D' _ I). discriminate D'.
Qed.
Print Assumptions C111_refuted.

(** * The router solicitation *)
Theorem C111_router : forall n x l, a_sup6 (my_addrs n) = true -> ip6_unicast (my_addrs n) = x :: l -> x <> 0 -> ~ In x (a_mcast6 (my_addrs n)) ->
  exists n', send_rs n = (n', Ok tt) /\ s_out (n_tx n') = s_out (n_tx n) ++ [rs_frame (a_mac (my_addrs n)) x].
Proof. exact send_rs_out. Qed.
Print Assumptions C111_router.
Example C111_example_router : let n := w_node ex_second in
  a_sup6 (my_addrs n) = true /\ ip6_unicast (my_addrs n) = [db8 + 2] /\ ~ In (db8 + 2) (a_mcast6 (my_addrs n)).
Proof. split; [vm_compute; reflexivity|]. split; [vm_compute; reflexivity|]. vm_compute. intros [X|[]]. discriminate X. Qed.
