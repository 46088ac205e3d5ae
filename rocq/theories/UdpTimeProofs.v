(** The UDP daytime and discard services. *)
From Verif Require Import Base BaseLemmas AddrModel StackModel StackRxModel StackSendProofs StackRouteProofs UdpApiModel SpecUdpApi UdpApiProofs SpecUdpSend UdpSendProofs
  EchoModel SpecEcho EchoProofs EchoSendProofs UdpTimeModel SpecUdpTime.

Lemma ut_world b es : forall s, e_world (ut_run b es s) = uop_run (ut_ops b es s) (e_world s).
Proof.
  induction es as [|e es IH]; intros s; [reflexivity|]. cbn [ut_run ut_ops]. rewrite IH.
  assert (X : forall a b w, uop_run (a ++ b) w = uop_run b (uop_run a w)) by (induction a; cbn; auto).
  rewrite X. f_equal. destruct e as [c now| |o]; cbn [ut_op ut_do]; try reflexivity.
  destruct (e_at s) eqn:A; try reflexivity.
  - destruct (echo_waits s); [reflexivity|]. cbn [uop_run]. destruct (uop_do _ _); reflexivity.
  - destruct b; [|reflexivity]. cbn [uop_run]. destruct (uop_do _ _); reflexivity.
Qed.
(** [done]: the datagrams answered or discarded *)
Lemma ut_step b e s i f h : running i f s -> (forall o, e = UWorld o -> ~ call_on i o) -> in_hand (e_at s) h ->
  running i f (ut_do b e s) /\ ends (sock_of (ut_do b e s)) = ends (sock_of s) /\
  exists done h', (b = true -> Forall2 (tells f) (ut_attempt b e s) done) /\ (b = false -> ut_attempt b e s = []) /\ in_hand (e_at (ut_do b e s)) h' /\
    done ++ h' ++ u_queue (sock_of (ut_do b e s)) =
    h ++ u_queue (sock_of s) ++ match ut_op b e s with Some o => added i o (e_world s) | None => [] end.
Proof.
  intros (Ei & L & C & B & F) P H. unfold sock_of in *. rewrite Ei in *.
  assert (STAY : forall s', e_world s' = e_world s -> e_sock s' = i -> in_hand (e_at s') h -> ut_attempt b e s = [] -> ut_op b e s = None ->
    (e_sock s' = i /\ (i < w_next (e_world s'))%nat /\ counted (e_world s') i /\ bound_port (u_lport0 (n_udp (w_node (e_world s')) (e_sock s'))) = true /\ family_of (u_lip (n_udp (w_node (e_world s')) (e_sock s'))) = f) /\
    ends (n_udp (w_node (e_world s')) (e_sock s')) = ends (n_udp (w_node (e_world s)) i) /\
    exists done h', (b = true -> Forall2 (tells f) (ut_attempt b e s) done) /\ (b = false -> ut_attempt b e s = []) /\ in_hand (e_at s') h' /\
      done ++ h' ++ u_queue (n_udp (w_node (e_world s')) (e_sock s')) = h ++ u_queue (n_udp (w_node (e_world s)) i) ++ match ut_op b e s with Some o => added i o (e_world s) | None => [] end).
  { intros s' W I H' A O. rewrite I, W, A, O. split; [auto|]. split; [reflexivity|]. exists [], h. rewrite app_nil_r. repeat split; auto. }
  unfold running, sock_of. destruct e as [c now| |o].
  - destruct (e_at s) eqn:A.
    + apply STAY; cbn [ut_do ut_attempt ut_op]; rewrite ?A; auto. cbn. destruct (e_run s); exact H.
    + cbn [in_hand] in H. subst h. destruct (echo_waits s) eqn:Wt.
      * apply STAY; cbn [ut_do ut_attempt ut_op]; rewrite ?A, ?Wt; cbn; rewrite ?A, ?Wt; auto. reflexivity.
      * cbn [ut_do ut_attempt ut_op]. rewrite A, Wt, Ei. cbn [added app].
        destruct (step_queue (URecvfrom i) (e_world s) i L C) as (C' & L' & _).
        cbn [uop_do]. unfold echo_waits in Wt. rewrite Ei in Wt.
        cbn [uop_do] in C', L'. unfold on_sock in *. assert (KN : known i (e_world s) = true) by (apply Nat.ltb_lt; exact L). rewrite KN in *.
        unfold on_node in *. destruct (udp_recvfrom i (w_node (e_world s))) as [n' r] eqn:E. cbn [fst snd w_node w_next] in *.
        assert (EN : ends (n_udp n' i) = ends (n_udp (w_node (e_world s)) i)) by (eapply (ap_keeps i); [apply keeps_recvfrom|exact E]).
        destruct (recvfrom_spec _ _ _ _ E C) as (_ & _ & D).
        cbn [e_with e_world e_sock e_at w_node w_next]. rewrite Ei. split; [|split; [exact EN|]].
        -- split; [reflexivity|]. split; [exact L'|]. split; [exact C'|]. apply ends_fields in EN. destruct EN as (-> & -> & _). auto.
        -- destruct r as [x|e].
           ++ destruct D as (m & -> & Q). exists [], [m]. split; [intros _; constructor|]. split; [intros _; reflexivity|]. cbn. split; [exists m; auto|]. rewrite app_nil_r, Q. reflexivity.
           ++ destruct D as ((-> & Q) & Q'). exfalso. unfold counted in C. rewrite C, Q in Wt. unfold echo_waits in Wt. cbn in Wt. discriminate Wt.
    + cbn [in_hand] in H. destruct H as (m0 & -> & H). injection H as Hm Ha Hp. subst m a p.
      destruct b.
      2:{ cbn [ut_do ut_attempt ut_op]. rewrite A. cbn [e_with e_world e_sock e_at]. rewrite Ei. split; [auto|]. split; [reflexivity|].
          exists [m0], []. split; [discriminate|]. split; [intros _; reflexivity|]. split; [reflexivity|]. cbn. rewrite app_nil_r. reflexivity. }
      cbn [ut_do ut_attempt ut_op]. rewrite A, Ei, F.
      set (o := USendto c i _ _ _).
      destruct (step_queue o (e_world s) i L C) as (C' & L' & tk & F2 & Q).
      assert (EN : ends (n_udp (w_node (fst (uop_do o (e_world s)))) i) = ends (n_udp (w_node (e_world s)) i)).
      { subst o. cbn [uop_do]. unfold on_sock. assert (KN : known i (e_world s) = true) by (apply Nat.ltb_lt; exact L). rewrite KN.
        unfold on_node. destruct (udp_sendto _ _ _ _ _ _) as [n' r] eqn:E. cbn. eapply sendto_ends; eauto. }
      subst o. cbn [returned added] in F2, Q. inversion F2; subst tk. cbn [app] in Q. rewrite app_nil_r in Q.
      assert (RN : match snd (uop_do (USendto c i now (text_for f (m_rip m0)) (m_rport m0)) (e_world s)) with RNone | RErr _ => True | _ => False end).
      { cbn [uop_do]. unfold on_sock, on_node. destruct (known _ _); [|exact I]. destruct (udp_sendto _ _ _ _ _ _) as [n' [x|x]]; exact I. }
      destruct (uop_do (USendto c i now (text_for f (m_rip m0)) (m_rport m0)) (e_world s)) as [w' r] eqn:E.
      cbn [fst snd] in *. cbn [e_with e_world e_sock e_at]. rewrite Ei. split; [|split; [exact EN|]].
      * split; [reflexivity|]. split; [exact L'|]. split; [exact C'|]. apply ends_fields in EN. destruct EN as (-> & -> & _). auto.
      * exists [m0], []. split; [intros _|split; [discriminate|split]].
        -- constructor; [|constructor]. cbn. split; [reflexivity|]. split; [apply text_names|reflexivity].
        -- destruct r; cbn; auto; destruct RN.
        -- cbn. rewrite app_nil_r, Q. reflexivity.
    + apply STAY; cbn [ut_do ut_attempt ut_op]; rewrite ?A; auto.
    + apply STAY; cbn [ut_do ut_attempt ut_op]; rewrite ?A; auto.
  - apply STAY; cbn; auto.
  - specialize (P o eq_refl). destruct (step_queue o (e_world s) i L C) as (C' & L' & tk & F2 & Q).
    assert (RT : returned i o (e_world s) = []).
    { destruct o; cbn in *; auto; destruct (Nat.eqb_spec i0 i); auto; contradiction. }
    rewrite RT in F2. inversion F2; subst tk. cbn [app] in Q.
    pose proof (step_ends o (e_world s) i L P) as EN.
    cbn [ut_do ut_attempt ut_op e_with e_world e_sock e_at]. rewrite Ei. split; [|split; [exact EN|]].
    + split; [reflexivity|]. split; [exact L'|]. split; [exact C'|]. apply ends_fields in EN. destruct EN as (-> & -> & _). auto.
    + exists [], h. split; [intros _; constructor|]. split; [intros _; reflexivity|]. split; [exact H|]. cbn [app]. rewrite Q. reflexivity.
Qed.
Lemma ut_history b es : forall s i f h, running i f s -> ut_private i es -> in_hand (e_at s) h ->
  running i f (ut_run b es s) /\ ends (sock_of (ut_run b es s)) = ends (sock_of s) /\
  exists done h', (b = true -> Forall2 (tells f) (ut_tried b es s) done) /\ (b = false -> ut_tried b es s = []) /\ in_hand (e_at (ut_run b es s)) h' /\
    done ++ h' ++ u_queue (sock_of (ut_run b es s)) = h ++ u_queue (sock_of s) ++ arrivals i (ut_ops b es s) (e_world s).
Proof.
  induction es as [|e es IH]; intros s i f h Rn P H; cbn [ut_run ut_tried ut_ops].
  - split; [exact Rn|]. split; [reflexivity|]. exists [], h. split; [intros _; constructor|]. split; [reflexivity|]. split; [exact H|]. cbn. rewrite app_nil_r. reflexivity.
  - destruct (ut_step b e s i f h Rn) as (R1 & E1 & d1 & h1 & F1 & N1 & H1 & Q1); [intros o -> ; apply P; left; reflexivity|exact H|].
    destruct (IH (ut_do b e s) i f h1 R1) as (R2 & E2 & d2 & h2 & F2 & N2 & H2 & Q2); [intros o I; apply P; right; exact I|exact H1|].
    split; [exact R2|]. split; [congruence|]. exists (d1 ++ d2), h2. split; [intros B; apply Forall2_app; auto|]. split; [intros B; rewrite (N1 B), (N2 B); reflexivity|]. split; [exact H2|].
    rewrite <- app_assoc, Q2. rewrite (app_assoc d1), (app_assoc (d1 ++ h1)), <- (app_assoc d1), Q1, <- !app_assoc. do 2 f_equal.
    assert (W : e_world (ut_do b e s) = uop_run match ut_op b e s with Some o => [o] | None => [] end (e_world s)).
    { pose proof (ut_world b [e] s) as X. cbn [ut_run ut_ops] in X. rewrite app_nil_r in X. exact X. }
    rewrite W. destruct (ut_op b e s) as [o|]; cbn; reflexivity.
Qed.
Lemma ut_sent i f s c now d a p : running i f s -> e_at s = Holding d a p ->
  let n := w_node (e_world s) in let u := sock_of s in let s' := ut_do true (UThread c now) s in let n' := w_node (e_world s') in
  wf_addrs (my_addrs n) -> 0 <= s_id4 (n_tx n) -> family_of a = f -> addr_ok a -> 0 <= p < 65536 -> zlen now <= 1472 ->
  (e_at s' = AtTest /\ exists k, send_result n n' (source_for n u a) a (u_lport0 u) p now k) \/
  (e_at s' = Died GaiError /\ s_out (n_tx n') = s_out (n_tx n) /\ unspec (u_lip u) /\ unspec (pick_local_ip (my_addrs n) a)).
Proof.
  intros (Ei & L & C & B & F) A n u s' n' W I4 Fa Ao P Ld.
  subst s' n'. cbn [ut_do ut_op]. rewrite A. fold (sock_of s). fold u. cbn [uop_do]. rewrite Ei. unfold on_sock.
  replace (known i (e_world s)) with true by (symmetry; apply Nat.ltb_lt; exact L). unfold on_node. fold n.
  subst u. unfold sock_of in *. rewrite Ei in *. fold n in B, F. fold n.
  assert (X : exists x, text_for (family_of (u_lip (n_udp n i))) a = Some x /\ a = in_family (family_of (u_lip (n_udp n i))) x).
  { rewrite F, <- Fa. clear. destruct a as [x|x]; exists x; split; reflexivity. }
  destruct X as (x & -> & Ea).
  destruct (udp_sendto c i now (Some x) p n) as [n' r] eqn:E. cbn [e_with e_at e_world w_node].
  assert (A' : addr_ok (in_family (family_of (u_lip (n_udp n i))) x)) by (rewrite <- Ea; exact Ao).
  assert (SA : match family_of (u_lip (n_udp n i)) with Fam4 => in32 x | Fam6 => in128 x end) by (destruct (family_of (u_lip (n_udp n i))); exact A').
  destruct (sendto_sends c i now x p n n' r W SA E) as (_ & UP & R). rewrite <- Ea in R.
  destruct r as [k|e].
  - left. cbn [ret_of]. split; [reflexivity|]. exists k. destruct R as (_ & _ & R). rewrite (UP B) in R. exact R.
  - right. cbn [ret_of].
    destruct (sendto_fails c i now x p n n' e W I4 B A' P ltac:(lia) E) as [(-> & U1 & U2)|(-> & U1 & U2 & U3)].
    + split; [reflexivity|]. split; [exact R|]. rewrite <- Ea in U2. split; apply UdpApiProofs.unspecified_iff; assumption.
    + exfalso. lia.
Qed.
Lemma ut_stops b es : forall s, e_run s = false -> (length (ut_tried b es s) <= match e_at s with InRecv | Holding _ _ _ => 1 | _ => 0 end)%nat.
Proof.
  induction es as [|e es IH]; intros s R; cbn [ut_tried]; [cbn; lia|]. rewrite app_length.
  assert (R' : e_run (ut_do b e s) = false).
  { destruct e as [c now| |o]; cbn [ut_do]; try exact R; try reflexivity. destruct (e_at s); try exact R; destruct (ut_op _ _ _); try exact R; destruct (uop_do _ _); exact R. }
  specialize (IH _ R'). destruct e as [c now| |o]; [|cbn in *; exact IH|cbn in *; exact IH].
  cbn [ut_attempt ut_op ut_do] in *. destruct (e_at s) eqn:A; cbn [length] in *.
  - rewrite R in *. exact IH.
  - revert IH. destruct (echo_waits s); cbn [length Nat.add]; [rewrite A; intros IH; exact IH|].
    destruct (uop_do _ _) as [w r]. intros IH. cbn [e_with e_at] in IH. destruct r; lia.
  - destruct b; [|cbn [length Nat.add e_with e_at] in *; lia]. revert IH.
    destruct (uop_do _ _) as [w r]. intros IH. cbn [e_with e_at] in IH. cbn [length Nat.add]. destruct r; lia.
  - rewrite A in IH. exact IH.
  - rewrite A in IH. exact IH.
Qed.
(** nothing ends the discard service *)
Lemma discard_alive es : forall s i f h, running i f s -> ut_private i es -> in_hand (e_at s) h -> (forall x, e_at s <> Died x) -> forall x, e_at (ut_run false es s) <> Died x.
Proof.
  induction es as [|e es IH]; intros s i f h Rn P H N; [exact N|]. cbn [ut_run].
  destruct (ut_step false e s i f h Rn) as (R1 & _ & d1 & h1 & _ & _ & H1 & _); [intros o -> ; apply P; left; reflexivity|exact H|].
  apply (IH _ i f h1 R1); [intros o I; apply P; right; exact I|exact H1|]. clear IH H1 R1 d1 h1.
  destruct e as [c now| |o]; [|exact N|exact N]. destruct Rn as (Ei & L & C & _).
  cbn [ut_do ut_op]. destruct (e_at s) eqn:A.
  - cbn [e_with e_at]. destruct (e_run s); discriminate.
  - destruct (echo_waits s) eqn:Wt; [rewrite A; discriminate|]. unfold echo_waits in Wt. rewrite Ei in *.
    cbn [uop_do]. unfold on_sock. replace (known i (e_world s)) with true by (symmetry; apply Nat.ltb_lt; exact L). unfold on_node.
    destruct (udp_recvfrom i (w_node (e_world s))) as [n' r] eqn:E. destruct (recvfrom_spec _ _ _ _ E C) as (_ & _ & D). cbn [e_with e_at].
    destruct r as [x|x]; [destruct D as (m & -> & _); discriminate|].
    destruct D as ((_ & Q) & _). exfalso. unfold counted in C. rewrite C, Q in Wt. cbn in Wt. discriminate Wt.
  - discriminate.
  - rewrite A. discriminate.
  - exfalso. eapply N. reflexivity.
Qed.
