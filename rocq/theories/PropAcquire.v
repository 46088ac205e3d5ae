(** C48, C49, C50: how the stack acquires its addresses. *)
From Verif Require Import Base BaseLemmas AddrModel FragModel CodecModel EtherModel Icmp6Model StackModel SpecStack StackRxModel SpecRx RxProofs SpecReact AcquireModel SpecAcquire AcquireProofs PropTx PropRx.

(** * A stack without addresses *)
Definition ex_mac := 0x020000000007.
Definition ex_start (cand4 : list host) (sched : schedule) : world :=
  {| w_node := ex_node_of
       {| s_addrs := {| a_mac := ex_mac; a_mac_mcast := [0x333300000001]; a_host4 := []; a_mcast4 := []; a_host6 := []; a_mcast6 := [all_nodes];
                        a_cand4 := cand4; a_cand6 := None; a_sup4 := true; a_sup6 := true |};
          s_arp := []; s_nd := []; s_id4 := 0; s_id6 := 0; s_now := 0; s_out := [] |} [];
     w_sched := sched; w_log := [] |}.
Lemma ex_start_fit c s : frames_ok s -> fit (ex_start c s) /\ quiet (w_node (ex_start c s)).
Proof. intros H. split; [split; [split; [split; constructor|constructor]|exact H]|split; reflexivity]. Qed.

(** * C48 *)
(** A candidate that a reply to the probes shows to be in use must not be claimed. *)
Definition C48_statement : Prop := forall w wp w' seg h, fit w -> a_sup4 (my_addrs (w_node w)) = true -> a_host4 (my_addrs (w_node w)) = [] ->
  probe_rounds 3 w = (wp, Ok tt) -> w_log wp = w_log w ++ seg -> create_ip4 w = (w', Ok tt) ->
  In h (a_cand4 (my_addrs (w_node w))) ->
  (In h (a_host4 (my_addrs (w_node w'))) <-> ~ used_by_other seg (h_addr h)).
(** 10.0.0.9, in use by 02:00:00:00:00:09, which answers the first probe *)
Definition ex_cand4 : host := {| h_addr := 0x0A000009; h_net := {| n_addr := 0x0A000000; n_mask := 0xFFFFFF00 |}; h_gw := None |}.
Definition ex_reply : bytes := Eval vm_compute in
  wire_of {| f_dst := ex_mac; f_src := 0x020000000009;
             f_pkt := NArp {| a_oper := 2; a_sha := 0x020000000009; a_spa := 0x0A000009; a_tha := ex_mac; a_tpa := 0 |} |}.
Definition ex_w4 : world := ex_start [ex_cand4] [[]; [ex_reply]].
Lemma ex_w4_fit : fit ex_w4 /\ quiet (w_node ex_w4).
Proof. apply ex_start_fit. repeat (constructor; try (apply wfb_true; vm_compute; reflexivity)). Qed.
Definition ex_w4p : world := fst (probe_rounds 3 ex_w4).
Definition ex_w4c : world := fst (create_ip4 ex_w4).
Lemma ran (m : W unit) w : snd (m w) = Ok tt -> m w = (fst (m w), Ok tt).
Proof. intros E. rewrite <- E. apply surjective_pairing. Qed.
Lemma ex_w4_runs : probe_rounds 3 ex_w4 = (ex_w4p, Ok tt) /\ create_ip4 ex_w4 = (ex_w4c, Ok tt).
Proof. split; apply ran; vm_compute; reflexivity. Qed.
Lemma ex_w4_used : used_by_other (w_log ex_w4p) 0x0A000009.
Proof.
  assert (E : exists m, w_log ex_w4p = [(m, ex_reply)] /\ a_mac (my_addrs m) = ex_mac /\ a_sup4 (my_addrs m) = true).
  { vm_compute. eexists. split; [reflexivity|]. split; reflexivity. }
  destruct E as (m & E & M & S). exists m, ex_reply. rewrite E. split; [left; reflexivity|].
  eexists _, _. split.
  { split; [split; [vm_compute; reflexivity|]|]; [|split; [reflexivity|split; [exact S|vm_compute; reflexivity]]].
    left. rewrite M. reflexivity. }
  rewrite M. repeat split.
Qed.
Theorem C48_refuted : ~ C48_statement.
Proof.
  intros H. destruct ex_w4_runs as (P & C). destruct ex_w4_fit as (F & _).
  assert (L : w_log ex_w4p = w_log ex_w4 ++ w_log ex_w4p) by reflexivity.
  pose proof (H ex_w4 ex_w4p ex_w4c (w_log ex_w4p) ex_cand4 F eq_refl eq_refl P L C (or_introl eq_refl)) as X.
  apply (proj1 X); [|exact ex_w4_used]. vm_compute. auto.
Qed.
Print Assumptions C48_refuted.
(** What it does instead, for every schedule of received frames: each candidate is probed
    three times, claimed in order and announced; IPv4 is disabled exactly when there is
    none.  No received frame makes a difference. *)
Theorem C48_partial : forall w, fit w -> a_sup4 (my_addrs (w_node w)) = true ->
  let a := my_addrs (w_node w) in let mac := a_mac a in let ips := map h_addr (a_cand4 a) in
  exists w' o, create_ip4 w = (w', Ok tt) /\
    let b := my_addrs (w_node w') in
    a_host4 b = a_host4 a ++ a_cand4 a /\ a_cand4 b = [] /\ (a_sup4 b = false <-> a_host4 b = []) /\
    a_host6 b = a_host6 a /\ a_sup6 b = a_sup6 a /\ a_mac b = mac /\
    s_out (n_tx (w_node w')) = s_out (n_tx (w_node w)) ++ o /\
    subseq (map (probe_frame mac) ips ++ map (probe_frame mac) ips ++ map (probe_frame mac) ips ++ map (announce_frame mac) ips) o.
Proof. exact create_ip4_outcome. Qed.
Print Assumptions C48_partial.
Example C48_example : map f_pkt (s_out (n_tx (w_node ex_w4c))) =
  map (fun spa => NArp {| a_oper := 1; a_sha := ex_mac; a_spa := spa; a_tha := 0; a_tpa := 0x0A000009 |}) [0; 0; 0; 0x0A000009] /\
  a_host4 (my_addrs (w_node ex_w4c)) = [ex_cand4].
Proof. vm_compute. auto. Qed.

(** * C49 *)
Definition C49_statement : Prop := forall w l w' h ok seg, cands_ok l -> fit w -> quiet (w_node w) -> claiming w l w' ->
  In (h, ok, seg) l -> (ok = false <-> exists e, In e seg /\ answers_probe (h_addr h) e).
(** fe80::9 is in use, and its owner answers twice; fe80::a is free *)
Definition ll (x : Z) : host := {| h_addr := 0xFE80 * 2 ^ 112 + x; h_net := ll_net64; h_gw := None |}.
Definition ex_advert : bytes := Eval vm_compute in
  wire_of {| f_dst := 0x333300000001; f_src := 0x020000000009;
             f_pkt := NIp6 (ip6_plain_tx (0xFE80 * 2 ^ 112 + 9) all_nodes 255 58)
               (PIcmp6 (T6Na false false true (0xFE80 * 2 ^ 112 + 9) [TTlla 0x020000000009])) |}.
Definition ex_w6 (k : nat) : world := ex_start [] [[]; []; []; repeat ex_advert k].
Lemma ex_w6_fit k : fit (ex_w6 k) /\ quiet (w_node (ex_w6 k)).
Proof.
  apply ex_start_fit. repeat constructor. induction k; cbn; constructor; [|exact IHk]. apply wfb_true. vm_compute. reflexivity.
Qed.
(** the two claims *)
Definition ex_c1 (k : nat) : world := fst (claim6 (ll 9) (ex_w6 k)).
Definition ex_c2 (k : nat) : world := fst (claim6 (ll 10) (ex_c1 k)).
Lemma ex_claims k ok : (k < 3)%nat -> a_host6 (my_addrs (w_node (ex_c2 k))) = a_host6 (my_addrs (w_node (ex_c1 k))) ++ (if ok : bool then [ll 10] else []) ->
  claiming (ex_w6 k) [(ll 9, Nat.eqb k 0, w_log (ex_c1 k)); (ll 10, ok, [])] (ex_c2 k).
Proof.
  intros K O.
  assert (E1 : claim6 (ll 9) (ex_w6 k) = (ex_c1 k, Ok tt)).
  { apply ran. destruct k as [|[|[|]]]; [vm_compute; reflexivity..|lia]. }
  assert (E2 : claim6 (ll 10) (ex_c1 k) = (ex_c2 k, Ok tt)).
  { apply ran. destruct k as [|[|[|]]]; [vm_compute; reflexivity..|lia]. }
  apply cl_cons with (w1 := ex_c1 k); [exact E1|reflexivity| |].
  { destruct k as [|[|[|]]]; [vm_compute; reflexivity..|lia]. }
  apply cl_cons with (w1 := ex_c2 k); [exact E2| |exact O|constructor].
  destruct (ex_w6_fit k) as (F & C & Q).
  destruct (claim_step (ll 9) (ex_w6 k) (ex_c1 k)) as (s1 & k1 & L1 & K1 & _ & D1 & F1 & C1); auto; [cbn; lia|rewrite Q; lia|].
  assert (D : 0 <= n_dad (w_node (ex_c1 k))).
  { destruct k as [|[|[|]]]; [vm_compute; intros X; discriminate X..|lia]. }
  destruct (claim_step (ll 10) (ex_c1 k) (ex_c2 k)) as (s2 & k2 & L2 & _); auto; [cbn; lia|].
  rewrite L2. f_equal. assert (Ln : length (w_log (ex_c2 k)) = length (w_log (ex_c1 k))).
  { destruct k as [|[|[|]]]; [vm_compute; reflexivity..|lia]. }
  rewrite L2, app_length in Ln. destruct s2; [reflexivity|cbn in Ln; lia].
Qed.
Theorem C49_refuted : ~ C49_statement.
Proof.
  intros H. destruct (ex_w6_fit 2) as (F & Q).
  pose proof (ex_claims 2 false ltac:(lia) ltac:(vm_compute; reflexivity)) as C.
  assert (K : cands_ok [(ll 9, Nat.eqb 2 0, w_log (ex_c1 2)); (ll 10, false, [])]) by (repeat constructor; cbn; lia).
  destruct (proj1 (H _ _ _ (ll 10) false [] K F Q C (or_intror (or_introl eq_refl))) eq_refl) as (e & [] & _).
Qed.
Print Assumptions C49_refuted.
(** A candidate for which an advertisement arrived while it was probed is always rejected. *)
Theorem C49_heard_partial : forall w l w' h ok seg, cands_ok l -> fit w -> quiet (w_node w) -> claiming w l w' -> In (h, ok, seg) l ->
  (exists e, In e seg /\ answers_probe (h_addr h) e) -> ok = false.
Proof. exact claiming_heard. Qed.
Print Assumptions C49_heard_partial.
(** The exact rule: a candidate is rejected if the advertisements so far outnumber the
    rejections so far. *)
Theorem C49_count_partial : forall w p h ok seg r w', cands_ok (p ++ (h, ok, seg) :: r) -> fit w -> quiet (w_node w) ->
  claiming w (p ++ (h, ok, seg) :: r) w' ->
  exists hits rej k, tally p hits rej /\ counted (answers_probe (h_addr h)) seg k /\ (ok = false <-> rej < hits + k).
Proof. exact claiming_tally. Qed.
Print Assumptions C49_count_partial.
(** So the verdict is right as long as no earlier candidate was answered twice. *)
Theorem C49_single_partial : forall w p h ok seg r w', cands_ok (p ++ (h, ok, seg) :: r) -> fit w -> quiet (w_node w) ->
  (forall h ok seg k, In (h, ok, seg) p -> counted (answers_probe (h_addr h)) seg k -> k <= 1) ->
  claiming w (p ++ (h, ok, seg) :: r) w' ->
  (ok = false <-> exists e, In e seg /\ answers_probe (h_addr h) e).
Proof. intros w p h ok seg r w'. exact (claiming_single p w h ok seg r w'). Qed.
Print Assumptions C49_single_partial.
(** with one answer the second candidate is claimed, with two it is not *)
Example C49_example :
  claiming (ex_w6 1) [(ll 9, false, w_log (ex_c1 1)); (ll 10, true, [])] (ex_c2 1) /\
  claiming (ex_w6 2) [(ll 9, false, w_log (ex_c1 2)); (ll 10, false, [])] (ex_c2 2) /\
  length (w_log (ex_c1 1)) = 1%nat /\ n_dad (w_node (ex_c1 2)) = 1.
Proof.
  split; [apply (ex_claims 1 true); [lia|vm_compute; reflexivity]|]. split; [apply (ex_claims 2 false); [lia|vm_compute; reflexivity]|].
  split; vm_compute; reflexivity.
Qed.

(** * C50 *)
(** After any history of assignments, removals and probes, with frames received in
    between, the stack listens to the assigned addresses, their solicited-node groups and
    the link-layer addresses of these, plus the all-nodes group once it has joined it, and
    to nothing else.  The hypothesis on the results leaves out the histories in which the
    report sent from within a probe raised an exception. *)
Theorem C50_history : forall w l w' rs, fit w -> quiet (w_node w) ->
  a_host6 (my_addrs (w_node w)) = [] -> a_mcast6 (my_addrs (w_node w)) = [] -> a_mac_mcast (my_addrs (w_node w)) = [] ->
  Forall op_ok l -> mop_run l w = (w', rs) ->
  Forall2 (fun o r => (exists c, o = MProbe c) -> r = Ok tt) l rs ->
  let a := my_addrs (w_node w') in let hist := rev l in
  (forall x, our_ip6 a x <-> (x = all_nodes /\ In MAllNodes l) \/
     exists y, assigned hist y /\ (x = y \/ x = solicited_node y)) /\
  (forall m, our_mac a m <-> m = a_mac (my_addrs (w_node w)) \/ m = 2 ^ 48 - 1 \/ (m = 0x333300000001 /\ In MAllNodes l) \/
     exists y, assigned hist y /\ m = 0x3333FF000000 + y mod 2 ^ 24).
Proof. exact filters_history. Qed.
Print Assumptions C50_history.
(** While an address is probed the stack also listens to its group, and to all it listened
    to before. *)
Theorem C50_probe : forall c w w' v, 0 <= c < 2 ^ 128 -> fit w -> quiet (w_node w) -> nd_dad c w = (w', Ok v) ->
  exists seg, w_log w' = w_log w ++ seg /\ forall m f, In (m, f) seg -> a_cand6 (my_addrs m) = Some c ->
    (forall x, our_ip6 (my_addrs m) x <-> our_ip6 (my_addrs (w_node w)) x \/ x = solicited_node c) /\
    (forall x, our_mac (my_addrs m) x <-> our_mac (my_addrs (w_node w)) x \/ x = group_mac (solicited_node c)).
Proof. exact filters_probe. Qed.
Print Assumptions C50_probe.
(** two addresses share a group; removing one of them, or probing a third, leaves it *)
Definition ex_bare6 : world :=
  {| w_node := set_my (fun a => with_mcast6 [] (with_mac_mcast [] a)) (w_node (ex_start [] []));
     w_sched := [[ex_reply]; [ex_advert]]; w_log := [] |}.
Definition gua (x : Z) : host := {| h_addr := db8 + x; h_net := {| n_addr := db8; n_mask := 2 ^ 128 - 2 ^ 64 |}; h_gw := None |}.
Definition ex_hist : list mop := [MAllNodes; MAssign (ll 9); MAssign (gua 9); MWait; MProbe (db8 + 9); MRemove (ll 9); MRemove (ll 9)].
Example C50_example : fit ex_bare6 /\ quiet (w_node ex_bare6) /\ Forall op_ok ex_hist /\
  snd (mop_run ex_hist ex_bare6) = [Ok tt; Ok tt; Ok tt; Ok tt; Ok tt; Ok tt; Exn ValueError] /\
  assigned (rev ex_hist) (db8 + 9) /\ ~ assigned (rev ex_hist) (0xFE80 * 2 ^ 112 + 9) /\
  a_mcast6 (my_addrs (w_node (fst (mop_run ex_hist ex_bare6)))) = [all_nodes; solicited_node 9] /\
  a_mac_mcast (my_addrs (w_node (fst (mop_run ex_hist ex_bare6)))) = [0x333300000001; 0x3333FF000009].
Proof.
  split; [split; [split; [split; constructor|constructor]|]|].
  { repeat (constructor; try (apply wfb_true; vm_compute; reflexivity)). }
  split; [split; reflexivity|]. split; [repeat (apply Forall_cons; [cbn; unfold db8; lia|]); apply Forall_nil|]. split; [vm_compute; reflexivity|].
  split; [exists (gua 9); split; [reflexivity|vm_compute; lia]|].
  split; [|split; vm_compute; reflexivity].
  intros (h & A & T). unfold ex_hist in T. cbn [rev app times] in T. unfold same_host in T. rewrite A in T.
  change (0xFE80 * 2 ^ 112 + 9 =? h_addr (gua 9)) with false in T. change (0xFE80 * 2 ^ 112 + 9 =? h_addr (ll 9)) with true in T.
  cbn [andb] in T. destruct (_ =? _); cbn in T; lia.
Qed.
