(** Registrations, completed handshakes and the delivery of segments. *)
From Verif Require Import Base BaseLemmas AddrModel TcpModel StackModel StackRxModel UdpApiModel SessModel TcpApiModel SpecSess SpecTcpApi UdpApiProofs SessProofs SessTrace SessHand SessFork TcpApiProofs.

(** ** A socket is registered under its own endpoints *)
Definition keyed (w : tworld) : Prop := forall k i, In (k, i) (tw_table w) -> k_type k = Stream -> (i < tw_nsock w)%nat /\ tcp_key (tw_sock w i) = k.
Lemma keyed_pop w k : keyed w -> keyed (put_table (sock_pop k (tw_table w)) w).
Proof. intros H x i X T. apply pop_in in X. apply H; tauto. Qed.
Lemma keyed_sock w i t : keyed w -> tcp_key t = tcp_key (tw_sock w i) -> keyed (put_sock i t w).
Proof.
  intros H E k x X T. destruct (H k x X T) as [A B]. split; [exact A|]. cbn [tw_sock put_sock]. destruct (Nat.eq_dec x i) as [->|N]; [rewrite upd_same; congruence|rewrite upd_other by exact N; exact B].
Qed.
Lemma keyed_put w i : keyed w -> (i < tw_nsock w)%nat -> keyed (put_table (sock_put (tcp_key (tw_sock w i)) i (tw_table w)) w).
Proof. intros H L k x X T. apply put_in_any in X. destruct X as [[-> ->]|X]; [split; [exact L|reflexivity]|]. apply H; auto. Qed.
Lemma keyed_add w t : keyed w -> keyed (add_sock t w).
Proof. intros H k x X T. destruct (H k x X T) as [A B]. cbn [tw_nsock tw_sock add_sock]. split; [lia|]. rewrite upd_other by lia. exact B. Qed.
Lemma keyed_register w i t : keyed w -> (i < tw_nsock w)%nat -> keyed (tcp_register i t w).
Proof.
  intros H L k x X T. cbn [tw_table tcp_register put_table tw_nsock tw_sock put_sock] in *. apply put_in_any in X. destruct X as [[-> ->]|X]; [split; [exact L|rewrite upd_same; reflexivity]|].
  apply pop_in in X. destruct X as [X N]. destruct (H k x X T) as [A B]. split; [exact A|]. rewrite upd_other; [exact B|]. intros ->. congruence.
Qed.
Lemma keyed_effect old iss j e w : keyed w -> (tw_owner w j < tw_nsock w)%nat -> keyed (effect old iss j e w) /\ (tw_owner (effect old iss j e w) j < tw_nsock (effect old iss j e w))%nat.
Proof.
  intros H L. destruct e as [|p]; unfold effect.
  - destruct (t_parent _) as [r|]; [|auto]. split; [|exact L]. apply keyed_sock; [exact H|reflexivity].
  - cbv zeta. generalize (listening_session (s_lip old) (s_lport old) (s_rip old) (s_rport old) iss). intros ls. split; [|cbn [tw_owner put_owner tw_nsock put_table add_sock]; rewrite upd_same; cbn [tw_nsock put_sock add_sess]; lia].
    set (w1 := put_sock (tw_owner w j) _ _). assert (H1 : keyed w1) by (apply keyed_sock; [exact H|reflexivity]).
    change (tw_nsock w) with (tw_nsock w1). clearbody w1. clear - H1.
    assert (X := keyed_put (add_sock (child_tcp j (tw_owner w j) p) w1) (tw_nsock w1) (keyed_add _ _ H1)). cbn [tw_nsock tw_sock add_sock] in X. rewrite upd_same in X. apply X. lia.
Qed.
Lemma keyed_called j iss m w : keyed w -> (tw_owner w j < tw_nsock w)%nat -> keyed (called j iss m w).
Proof.
  intros H L. unfold called. generalize (skipn (length (effs (tw_sess w j))) (effs (fst (m (set_reg (registered (tcp_key (tw_sock w (tw_owner w j))) (tw_table w)) (tw_sess w j)))))). intros l.
  generalize (tw_sess w j) at 1. intros old. set (s := fst _). clearbody s.
  assert (A : keyed (put_sess j s w) /\ (tw_owner (put_sess j s w) j < tw_nsock (put_sess j s w))%nat) by auto. revert A. generalize (put_sess j s w). clear - l. induction l as [|e l IH]; intros w [A B]; [exact A|].
  cbn [fold_left]. apply IH. apply keyed_effect; auto.
Qed.
Lemma keyed_call j iss m w : keyed w -> (tw_owner w j < tw_nsock w)%nat -> keyed (fst (session_call j iss m w)).
Proof. intros H L. pose proof (keyed_called j iss m w H L) as K. destruct (call_eq j iss m w) as [-> | ->]; [exact K|apply keyed_pop; exact K]. Qed.
Lemma keyed_step D o w : winv D w -> keyed w -> keyed (fst (top_do o w)).
Proof.
  intros I H. destruct o as [f|c i t p|c i t p iss|i iss|i|i|i d|j n r|c i|c|p iss|j|a|k i|k]; cbn [top_do].
  - apply keyed_add. exact H.
  - unfold on_tsock. destruct (Nat.ltb_spec i (tw_nsock w)) as [L|L]; [|exact H]. cbn [tret_of fst]. unfold tcp_bind. destruct (bound_port _); [exact H|]. destruct t as [a|]; [|exact H]. destruct (negb _); [exact H|]. destruct (negb _); [exact H|].
    destruct (if 0 <? p then _ else _) as [x|x]; [|exact H]. apply keyed_register; auto.
  - unfold on_tsock. destruct (Nat.ltb_spec i (tw_nsock w)) as [L|L]; [|exact H]. cbn [tret_of fst]. unfold tcp_connect. destruct (negb _); [exact H|]. destruct (if bound_port _ then _ else _) as [x|x]; [|exact H].
    destruct (tcp_set_ip _ _ _ _ _) as [[lip rip]|x']; [|exact H]. cbv zeta. apply keyed_call.
    + apply keyed_sock; [|reflexivity]. exact (keyed_register w i _ H L).
    + cbn [tw_owner tw_nsess put_sock add_sess]. rewrite upd_same. exact L.
  - unfold on_tsock. destruct (Nat.ltb_spec i (tw_nsock w)) as [L|L]; [|exact H]. cbn [tret_of fst]. unfold tcp_listen. cbv zeta. apply keyed_call.
    + set (w1 := put_sock i _ _). assert (H1 : keyed w1) by (apply keyed_sock; [exact H|reflexivity]). assert (K : tcp_key (tw_sock w1 i) = tcp_key (tw_sock w i)) by (unfold w1; cbn [tw_sock put_sock]; rewrite upd_same; reflexivity).
      rewrite <- K. apply keyed_put; [exact H1|exact L].
    + cbn [tw_owner tw_nsess put_table put_sock add_sess]. rewrite upd_same. exact L.
  - unfold on_tsock, accept_acquire. destruct (Nat.ltb _ _); [|exact H]. cbn [fst]. destruct (_ <? _); [|exact H]. apply keyed_sock; [exact H|reflexivity].
  - unfold on_tsock, accept_pop. destruct (Nat.ltb _ _); [|exact H]. destruct (_ <? _); [|exact H]. destruct (t_queue _); cbn [fst]; (apply keyed_sock; [exact H|reflexivity]).
  - unfold on_tsock, tcp_send. destruct (Nat.ltb _ _); [|exact H]. cbn [tret_of fst]. destruct (_ || _); [exact H|]. destruct (t_sess _); [|exact H]. destruct (session_send _ _) as [s [n'|e]]; exact H.
  - destruct (Nat.ltb _ _); exact H.
  - unfold on_tsock, close_load. destruct (Nat.ltb _ _); [|exact H]. cbn [tret_of fst]. destruct (t_sess _); exact H.
  - cbn [tret_of fst]. unfold close_call. destruct (tw_close w c) as [j|] eqn:E; [|exact H]. apply keyed_call; [exact H|]. apply (wi_owner D w I). apply (wi_close D w I c). exact E.
  - destruct (segment_target _ _) as [i|] eqn:T; [|exact H]. unfold on_tsock. destruct (Nat.ltb_spec i (tw_nsock w)) as [L|L]; [|exact H]. cbn [tret_of fst]. unfold deliver. destruct (t_sess _) as [j|] eqn:E; [|exact H].
    apply keyed_call; [exact H|]. apply (wi_owner D w I). apply (wi_sess D w I i); auto.
  - destruct (Nat.ltb_spec j (tw_nsess w)) as [L|L]; [|exact H]. cbn [tret_of fst]. apply keyed_call; [exact H|]. apply (wi_owner D w I). exact L.
  - exact H.
  - intros x y X T. cbn [fst tw_table put_table] in X. apply put_in_any in X. destruct X as [[-> _]|X]; [discriminate T|]. exact (H x y X T).
  - apply keyed_pop. exact H.
Qed.

(** ** What holds in every history *)
Lemma keyed_run ops : forall D w, winv D w -> NoDup D -> keyed w -> keyed (top_run ops w).
Proof.
  induction ops as [|o r IH]; intros D w I N H; [exact H|]. cbn [top_run]. destruct (top_step 0 D o w I) as [S1 S2 _]. apply (IH _ _ S1 (S2 N)). eapply keyed_step; eauto.
Qed.
Lemma fresh_keyed w : fresh_tcp w -> keyed w.
Proof. intros (_ & _ & C & _) k i X T. apply C in X. congruence. Qed.
Lemma history_inv ops w0 w : history ops w0 w -> (exists D, winv D w) /\ keyed w.
Proof.
  intros [F ->]. pose proof (fresh_inv w0 F) as I. split.
  - eexists. apply (run_inv 0 ops [] w0 I). constructor.
  - apply (keyed_run ops [] w0 I); [constructor|apply fresh_keyed; exact F].
Qed.

(** ** where a segment goes *)
Lemma get_in k t i : sock_get k t = Some i -> In (k, i) t.
Proof.
  unfold sock_get. destruct (find _ t) as [[a b]|] eqn:E; [|discriminate]. intros X. injection X as <-. apply find_some in E. destruct E as [A B]. cbn [fst] in B. apply skey_eqb_eq in B. subst a. exact A.
Qed.
Lemma match_in l t i : first_match l t = Some i -> exists k, In k l /\ sock_get k t = Some i.
Proof.
  induction l as [|k l IH]; cbn [first_match]; [discriminate|]. destruct (sock_get k t) eqn:E.
  - intros X. injection X as <-. exists k. split; [left; reflexivity|exact E].
  - intros X. apply IH in X. destruct X as (y & A & B). exists y. split; [right; exact A|exact B].
Qed.
Lemma target_in w p i : keyed w -> segment_target (tw_table w) p = Some i -> (i < tw_nsock w)%nat /\
  (ends_at (tw_sock w i) = ends_in p \/
   (sock_get (segment_key p) (tw_table w) = None /\ d_syn p = true /\ d_ack p = false /\ d_fin p = false /\ d_rst p = false /\
    (t_lip (tw_sock w i) = d_lip p \/ t_lip (tw_sock w i) = unspecified (d_lip p)) /\ t_lport (tw_sock w i) = d_lport p /\
    t_rip (tw_sock w i) = unspecified (d_lip p) /\ t_rport (tw_sock w i) = 0 /\ sock_get (tcp_key (tw_sock w i)) (tw_table w) = Some i)).
Proof.
  intros H. unfold segment_target. destruct (sock_get (segment_key p) (tw_table w)) as [x|] eqn:G.
  - intros X. injection X as ->. apply get_in in G. destruct (H _ _ G eq_refl) as [A B]. split; [exact A|]. left. unfold tcp_key, segment_key in B. injection B as B1 B2 B3 B4. unfold ends_at, ends_in. congruence.
  - destruct (d_syn p && negb (d_ack p || d_fin p || d_rst p)) eqn:F; [|discriminate]. intros X. apply match_in in X. destruct X as (k & K & X). pose proof (get_in _ _ _ X) as Y.
    assert (T : k_type k = Stream) by (destruct K as [<-|[<-|[]]]; reflexivity). destruct (H _ _ Y T) as [A B]. split; [exact A|]. right. rewrite B.
    apply andb_true_iff in F. destruct F as [F1 F2]. destruct (d_ack p), (d_fin p), (d_rst p); try discriminate F2.
    destruct K as [<-|[<-|[]]]; unfold tcp_key in B; injection B as B1 B2 B3 B4; repeat split; auto.
Qed.

(** ** who completes handshakes *)
Lemma completed_only q D o w k : winv D w -> keyed w -> In k (completions q w (fst (top_do o w))) ->
  exists p iss j s, o = TSegment p iss /\ segment_target (tw_table w) p = Some k /\ ends_at (tw_sock w k) = ends_in p /\ t_sess (tw_sock w k) = Some j /\
    t_parent (tw_sock w k) = Some q /\ st (tw_sess w j) = SYN_RCVD /\ last_ack p (tw_sess w j) /\ half_open [FFork s] (d_seq s + 1) (tw_sess w j) /\ st (tw_sess (fst (top_do o w)) j) = ESTABLISHED.
Proof.
  intros I HK X. unfold completions in X. apply in_map_iff in X. destruct X as (j & OW & F). apply filter_In in F. destruct F as [J F]. apply in_seq in J. rewrite !andb_true_iff, !fsm_eqb_iff in F.
  destruct F as ((F1 & F2) & F3). assert (L : (j < tw_nsess w)%nat) by lia. clear J.
  assert (Q : forall e x iss m w1, w1 = fst (session_call x iss m w) -> (forall b, kind e (tw_sess w x) (fst (m (set_reg b (tw_sess w x))))) -> st (tw_sess w1 j) = ESTABLISHED ->
    j = x /\ exists p, e = EPacket p /\ last_ack p (tw_sess w j)).
  { intros e x iss m w1 -> K E. destruct (call_sess x iss m w j L) as [b B]. rewrite B in E. destruct (Nat.eqb_spec j x) as [->|N]; [|congruence]. split; [reflexivity|]. specialize (K b). clear B.
    revert E K. generalize (fst (m (set_reg b (tw_sess w x)))). intros s E K. destruct K as [K1 K2 K3 K4|p K1 K2 K3 K4 K5|p K1 K2 K3 K4 K5 K6 K7 K8]; [apply K3 in F1; contradiction|congruence|]. exists p. auto. }
  assert (NO : tw_sess (fst (top_do o w)) j = tw_sess w j -> False) by (intros E; rewrite E in F2; congruence).
  destruct o as [f|c i t p|c i t p iss|i iss|i|i|i d|y n r|c i|c|p iss|y|a|x i|x]; cbn [top_do] in *; try (exfalso; apply NO; reflexivity).
  - exfalso. apply NO. unfold on_tsock. destruct (Nat.ltb _ _); [|reflexivity]. cbn [tret_of fst]. unfold tcp_bind. destruct (bound_port _); [reflexivity|]. destruct t; [|reflexivity]. destruct (negb _); [reflexivity|]. destruct (negb _); [reflexivity|].
    destruct (if 0 <? p then _ else _); reflexivity.
  - exfalso. apply NO. unfold on_tsock. destruct (Nat.ltb _ _); [|reflexivity]. cbn [tret_of fst]. unfold tcp_connect. destruct (negb _); [reflexivity|]. destruct (if bound_port _ then _ else _) as [x|x]; [|reflexivity].
    destruct (tcp_set_ip _ _ _ _ _) as [[lip rip]|x']; [|reflexivity]. cbv zeta.
    match goal with |- tw_sess (fst (session_call ?z ?a ?m ?w1)) _ = _ => destruct (call_sess z a m w1 j) as [b B]; [cbn [tw_nsess put_sock add_sess tcp_register put_table]; lia|]; rewrite B end.
    destruct (Nat.eqb_spec j (tw_nsess (tcp_register i (with_ends lip x rip p (tw_sock w i)) w))) as [E|N]; [cbn [tw_nsess tcp_register put_table put_sock] in E; lia|]. cbn [tw_sess put_sock add_sess]. rewrite upd_other by exact N. reflexivity.
  - exfalso. apply NO. unfold on_tsock. destruct (Nat.ltb _ _); [|reflexivity]. cbn [tret_of fst]. unfold tcp_listen. cbv zeta.
    match goal with |- tw_sess (fst (session_call ?z ?a ?m ?w1)) _ = _ => destruct (call_sess z a m w1 j) as [b B]; [cbn [tw_nsess put_sock add_sess put_table]; lia|]; rewrite B end.
    destruct (Nat.eqb_spec j (tw_nsess w)) as [E|N]; [lia|]. cbn [tw_sess put_table put_sock add_sess]. rewrite upd_other by exact N. reflexivity.
  - exfalso. apply NO. unfold on_tsock, accept_acquire. destruct (Nat.ltb _ _); [|reflexivity]. cbn [fst]. destruct (_ <? _); reflexivity.
  - exfalso. apply NO. unfold on_tsock, accept_pop. destruct (Nat.ltb _ _); [|reflexivity]. destruct (_ <? _); [|reflexivity]. destruct (t_queue _); reflexivity.
  - exfalso. unfold on_tsock, tcp_send in F2. destruct (Nat.ltb _ _); [|cbn [fst] in F2; congruence]. cbn [tret_of fst] in F2. destruct (_ || _); [cbn [fst] in F2; congruence|]. destruct (t_sess _) as [y|]; [|cbn [fst] in F2; congruence].
    pose proof (send_alike d (tw_sess w y)) as (A & _). destruct (session_send _ _) as [s [n'|e]]; cbn [fst tw_sess put_sess] in *; unfold upd in F2; destruct (Nat.eqb_spec j y); congruence.
  - exfalso. pose proof (read_alike n r (tw_sess w y)) as (A & _). destruct (Nat.ltb _ _); cbn [fst tw_sess put_sess] in F2; [|congruence]. unfold upd in F2. destruct (Nat.eqb_spec j y); congruence.
  - exfalso. apply NO. unfold on_tsock, close_load. destruct (Nat.ltb _ _); [|reflexivity]. cbn [tret_of fst]. destruct (t_sess _); reflexivity.
  - exfalso. cbn [tret_of fst] in F2. unfold close_call in F2. destruct (tw_close w c) as [y|] eqn:E; [|cbn [fst] in F2; congruence].
    destruct (call_sess y 0 (tcp_fsm (ECall Close)) (put_close c None w) j L) as [b B]. rewrite B in F2. cbn [tw_sess put_close] in F2. destruct (Nat.eqb_spec j y) as [->|N]; [|congruence].
    pose proof (fsm_kinds D w y (ECall Close) I L ltac:(discriminate) b) as K. clear B NO OW F3 Q. revert F2 K. generalize (fst (tcp_fsm (ECall Close) (set_reg b (tw_sess w y)))). intros s E2 K.
    destruct K as [K1 K2 K3 K4|p K1 K2 K3 K4 K5|p K1 K2 K3 K4 K5 K6 K7 K8]; [apply K3 in F1; contradiction|discriminate K1|discriminate K1].
  - destruct (segment_target (tw_table w) p) as [i|] eqn:T; [|exfalso; apply NO; reflexivity]. unfold on_tsock in *. destruct (Nat.ltb_spec i (tw_nsock w)) as [Li|Li]; [|exfalso; apply NO; reflexivity]. cbn [tret_of fst] in *.
    unfold deliver in *. destruct (t_sess (tw_sock w i)) as [y|] eqn:E; [|exfalso; apply NO; reflexivity]. destruct (wi_sess D w I i y Li E) as [Ly Oy].
    destruct (Q (EPacket p) y iss (tcp_fsm (EPacket p)) _ eq_refl (fsm_kinds D w y (EPacket p) I Ly ltac:(discriminate)) F2) as [-> (p' & E1 & LA)]. injection E1 as <-.
    destruct (wi_phase D w I y Ly) as [P|[(s & P)|P]]; [destruct P; congruence| |tauto].
    assert (KA : forall b, exists s', fst (tcp_fsm (EPacket p) (set_reg b (tw_sess w y))) = s' /\ effs s' = effs (tw_sess w y) ++ [FAccept]).
    { intros b. eexists. split; [reflexivity|]. pose proof (rcvd_packet [FFork s] (d_seq s + 1) p (set_reg b (tw_sess w y)) P) as [(_ & s' & -> & _ & R & _)|(NR & _)]; [|exfalso; apply NR; exact LA].
      cbn [fst]. rewrite R. destruct P as ((-> & _) & _). reflexivity. }
    assert (OO : let w' := fst (session_call y iss (tcp_fsm (EPacket p)) w) in tw_owner w' y = tw_owner w y /\ forall x, t_parent (tw_sock w' x) = t_parent (tw_sock w x)).
    { assert (C : let w' := called y iss (tcp_fsm (EPacket p)) w in tw_owner w' y = tw_owner w y /\ forall x, t_parent (tw_sock w' x) = t_parent (tw_sock w x)).
      { unfold called. set (b := registered _ _). destruct (KA b) as (s' & -> & R). rewrite (skipn_app_eq _ _ _ R). cbn [fold_left effect]. destruct (t_parent _) as [r|]; [|split; reflexivity]. split; [reflexivity|].
        intros x. cbn [tw_sock put_sock put_sess]. unfold upd. destruct (Nat.eqb_spec x r) as [->|]; reflexivity. }
      cbv zeta in *. destruct (call_eq y iss (tcp_fsm (EPacket p)) w) as [-> | ->]; exact C. }
    cbv zeta in OO. destruct OO as [O1 O2]. rewrite O1, Oy in OW. subst k. exists p, iss, y, s.
    split; [reflexivity|]. split; [exact T|]. split.
    { destruct (target_in w p i HK T) as [_ [X|(_ & X & _)]]; [exact X|]. exfalso. destruct LA as (LA & _). unfold is_ack in LA. rewrite X in LA. destruct (d_ack p), (d_fin p), (d_rst p); discriminate LA. }
    split; [exact E|]. split.
    { unfold comes_from in F3. rewrite O1, O2, Oy in F3. destruct (t_parent (tw_sock w i)) as [r|]; [|discriminate F3]. apply Nat.eqb_eq in F3. congruence. }
    auto.
  - exfalso. destruct (Nat.ltb_spec y (tw_nsess w)) as [Ly|Ly]; [|cbn [fst] in F2; congruence]. cbn [tret_of fst] in F2.
    destruct (Q ETimer y 0 tick _ eq_refl (tick_kinds D w y I Ly) F2) as (_ & p & X & _). discriminate X.
Qed.
(** the acknowledgement completes the handshake *)
Lemma ack_completes D w p iss k j q : winv D w -> (k < tw_nsock w)%nat -> segment_target (tw_table w) p = Some k -> t_sess (tw_sock w k) = Some j -> t_parent (tw_sock w k) = Some q ->
  st (tw_sess w j) = SYN_RCVD -> last_ack p (tw_sess w j) ->
  let w' := fst (top_do (TSegment p iss) w) in
  completions q w w' = [k] /\ st (tw_sess w' j) = ESTABLISHED /\ waiting_at q w' = waiting_at q w ++ [k] /\ snd (top_do (TSegment p iss) w) = TNone.
Proof.
  intros I L T E PA ST LA w'. destruct (wi_sess D w I k j L E) as [J O]. destruct (wi_phase D w I j J) as [P|[(s & P)|P]]; [destruct P; congruence| |tauto].
  assert (W : w' = fst (session_call j iss (tcp_fsm (EPacket p)) w) /\ snd (top_do (TSegment p iss) w) = match snd (session_call j iss (tcp_fsm (EPacket p)) w) with Ok _ => TNone | Exn e => TErr e end).
  { unfold w'. cbn [top_do]. rewrite T. unfold on_tsock. destruct (Nat.ltb_spec k (tw_nsock w)); [|lia]. cbn [tret_of fst snd]. unfold deliver. rewrite E. split; reflexivity. }
  assert (R : exists s', tcp_fsm (EPacket p) (set_reg (registered (tcp_key (tw_sock w (tw_owner w j))) (tw_table w)) (tw_sess w j)) = (s', Ok tt) /\ st s' = ESTABLISHED /\ effs s' = effs (tw_sess w j) ++ [FAccept]).
  { set (b := registered _ _). clearbody b. destruct (rcvd_packet [FFork s] (d_seq s + 1) p (set_reg b (tw_sess w j)) P) as [(_ & s' & A & B & C & _)|(NR & _)]; [|exfalso; apply NR; exact LA].
    exists s'. split; [exact A|]. split; [exact B|]. rewrite C. destruct P as ((-> & _) & _). reflexivity. }
  destruct R as (s' & R1 & R2 & R3). destruct W as [W1 W2].
  assert (C : let c := called j iss (tcp_fsm (EPacket p)) w in tw_sess c j = s' /\ tw_owner c = tw_owner w /\ (forall x, t_parent (tw_sock c x) = t_parent (tw_sock w x)) /\ forall i, i <> j -> tw_sess c i = tw_sess w i).
  { unfold called. rewrite R1. cbn [fst]. rewrite (skipn_app_eq _ _ _ R3). cbn [fold_left effect]. change (tw_owner (put_sess j s' w) j) with (tw_owner w j). change (tw_sock (put_sess j s' w)) with (tw_sock w). rewrite O, PA.
    cbn [tw_sess put_sock put_sess tw_owner tw_sock]. split; [apply upd_same|]. split; [reflexivity|]. split; [|intros i N; apply upd_other; exact N]. intros x. unfold upd. destruct (Nat.eqb_spec x q) as [->|]; reflexivity. }
  assert (C' : tw_sess w' j = s' /\ tw_owner w' = tw_owner w /\ (forall x, t_parent (tw_sock w' x) = t_parent (tw_sock w x)) /\ forall i, i <> j -> tw_sess w' i = tw_sess w i).
  { rewrite W1. cbv zeta in C. destruct (call_eq j iss (tcp_fsm (EPacket p)) w) as [-> | ->]; exact C. }
  destruct C' as (C1 & C2 & C3 & C4).
  assert (CO : completions q w w' = [k]).
  { rewrite (comp_one q j) by (auto; congruence). rewrite C2, O. unfold comes_from. rewrite C3, PA, Nat.eqb_refl. reflexivity. }
  split; [exact CO|]. split; [rewrite C1; exact R2|]. split.
  - destruct (top_step q D (TSegment p iss) w I) as [_ _ S]. fold w' in S. rewrite CO in S. exact S.
  - rewrite W2. unfold session_call. rewrite R1. reflexivity.
Qed.

(** ** SYN, SYN+ACK, ACK *)
Lemma served D w p iss1 iss2 i j a : winv D w -> keyed w -> segment_target (tw_table w) p = Some i -> t_sess (tw_sock w i) = Some j -> st (tw_sess w j) = LISTEN -> good_syn p ->
  let iss := snd_ini (tw_sess w j) in 0 <= iss -> iss + 1 < 2 ^ 32 -> 0 <= d_mss p -> 0 <= d_seq p -> d_seq p + 1 < 2 ^ 32 -> 0 <= d_lport p <= 0xFFFF -> 0 <= d_rport p <= 0xFFFF ->
  ends_in a = ends_in p -> is_ack a = true -> d_data a = [] -> d_seq a = d_seq p + 1 -> d_ackn a = iss + 1 ->
  let w1 := fst (top_do (TSegment p iss1) w) in let w2 := fst (top_do (TTick j) w1) in let w3 := fst (top_do (TSegment a iss2) w2) in
  (exists t, sent (tw_sess w2 j) = [t] /\ x_seq t = iss /\ x_fsyn t = true /\ x_fack t = true /\ x_ack t = d_seq p + 1) /\
  st (tw_sess w3 j) = ESTABLISHED /\ t_sess (tw_sock w3 (tw_nsock w)) = Some j /\ completions i w2 w3 = [tw_nsock w] /\ waiting_at i w3 = waiting_at i w ++ [tw_nsock w] /\
  snd (top_do (TSegment p iss1) w) = TNone /\ snd (top_do (TTick j) w1) = TNone /\ snd (top_do (TSegment a iss2) w2) = TNone.
Proof.
  intros I HK T E ST G iss B1 B2 M0 Q1 Q2 PO1 PO2 EN A1 A2 A3 A4 w1 w2 w3.
  destruct (target_in w p i HK T) as [L _]. destruct (wi_sess D w I i j L E) as [J O].
  destruct (fork_exact D i j p iss1 w I L E ST G) as (FK & FR & b & SJ).
  assert (W1 : w1 = fst (deliver i p iss1 w) /\ snd (top_do (TSegment p iss1) w) = TNone).
  { unfold w1. cbn [top_do]. rewrite T. unfold on_tsock. destruct (Nat.ltb_spec i (tw_nsock w)); [|lia]. cbn [tret_of fst snd]. rewrite FR. split; reflexivity. }
  destruct W1 as [W1 R1]. rewrite <- W1 in FK, SJ.
  assert (I1 : winv D w1). { destruct (top_step i D (TSegment p iss1) w I) as [S _ _]. fold w1 in S. rewrite comp_none, app_nil_r in S; [exact S|].
    intros x X X1 X2. destruct (Nat.eq_dec x j) as [->|N]; [congruence|]. rewrite (fk_sessions _ _ _ _ _ FK x X N) in X2. congruence. }
  assert (Q : waiting_at i w1 = waiting_at i w).
  { unfold waiting_at. destruct (fk_one _ _ _ _ _ FK) as [_ ->]. destruct (Nat.ltb_spec i (tw_nsock w)), (Nat.ltb_spec i (S (tw_nsock w))); try lia. apply (fk_kept _ _ _ _ _ FK). }
  clearbody w1. destruct (fk_one _ _ _ _ _ FK) as [N1 N2]. destruct (fk_sock _ _ _ _ _ FK) as (K1 & K2 & K3 & K4 & K5). destruct (fk_conn _ _ _ _ _ FK) as (K6 & K7 & K8).
  assert (V : (tx_to (tw_sess w j) = [] /\ snd_una (tw_sess w j) = iss /\ snd_nxt (tw_sess w j) = iss) /\ ooo (tw_sess w j) = [] /\ sent (tw_sess w j) = [] /\ snd_max (tw_sess w j) = iss /\ effs (tw_sess w j) = []).
  { destruct (wi_phase D w I j J) as [(_ & P1 & P2 & P3 & P4 & P5 & P6 & P7)|[(s & P)|P]]; [unfold iss; auto 10|destruct P; congruence|tauto]. }
  destruct V as ((V1 & V2 & V3) & V4 & V5 & V6 & V7).
  set (b' := registered (tcp_key (tw_sock w1 (tw_owner w1 j))) (tw_table w1)).
  assert (RG : b' = true). { unfold b', registered. rewrite K8. assert (KE : tcp_key (tw_sock w1 (tw_nsock w)) = segment_key p) by (unfold tcp_key, segment_key; unfold ends_at, ends_in in K1; injection K1 as -> -> -> ->; reflexivity). rewrite KE, K5. reflexivity. }
  destruct (adopted iss p (set_reg b (tw_sess w j)) V1 V2 V3 eq_refl V4 V5 V6 V7 ltac:(apply G) (conj PO1 PO2) Q1 Q2) as (U1 & U2 & U3 & U4 & U5 & U6 & U7 & U8 & U9 & U10 & U11 & U12 & _).
  rewrite <- SJ in *. set (s0 := tw_sess w1 j) in *. assert (EW : 0 <= snd_ewn (set_reg b' s0)). { change (0 <= snd_ewn s0). rewrite U5. apply Z.min_glb; [exact M0|vm_compute; discriminate]. }
  assert (TK := synack_tick (set_reg b' s0) U1 U2 U3 U4 EW U6). change (snd_ini (set_reg b' s0)) with (snd_ini s0) in TK. rewrite U7 in TK. specialize (TK ltac:(lia)).
  destruct (synacked iss p (set_reg b' s0) U1 U4 U7 U8 U9 U11 U12) as (X1 & X2 & X3 & X4 & X5 & t & X6 & X7 & X8 & X9 & X10).
  change (snd_ini (set_reg b' s0)) with (snd_ini s0) in *. rewrite U7 in *. set (s1 := pkt iss true true false false [] (set_tmr (tdec (tmr (set_reg b' s0))) (set_reg b' s0))) in *.
  assert (X0 : reg s1 = true) by (transitivity b'; [reflexivity|exact RG]). clearbody s1.
  assert (SC : session_call j 0 tick w1 = (put_sess j s1 w1, Ok tt)).
  { unfold session_call. fold b'. fold s0. rewrite TK. rewrite X0, skipn_all_eq by congruence. reflexivity. }
  assert (W2 : w2 = put_sess j s1 w1 /\ snd (top_do (TTick j) w1) = TNone).
  { unfold w2. cbn [top_do]. destruct (Nat.ltb_spec j (tw_nsess w1)); [|lia]. rewrite SC. split; reflexivity. }
  destruct W2 as [W2 R2].
  assert (I2 : winv D w2). { destruct (top_step i D (TTick j) w1 I1) as [S _ _]. fold w2 in S. rewrite comp_none, app_nil_r in S; [exact S|].
    rewrite W2. cbn [tw_sess put_sess]. unfold upd. intros x X Y Z. destruct (Nat.eqb_spec x j); congruence. }
  assert (SW : tw_sess w2 j = s1) by (rewrite W2; cbn [tw_sess put_sess]; apply upd_same).
  assert (SO : tw_sock w2 = tw_sock w1 /\ tw_nsock w2 = S (tw_nsock w) /\ tw_table w2 = tw_table w1) by (rewrite W2; auto). destruct SO as (SO & SN & SB).
  assert (QW : waiting_at i w2 = waiting_at i w1) by (unfold waiting_at; rewrite SO, SN, N2; reflexivity).
  clearbody w2. clear W2.
  assert (KA : segment_key a = segment_key p) by (unfold segment_key; unfold ends_in in EN; injection EN as -> -> -> ->; reflexivity).
  destruct (ack_completes D w2 a iss2 (tw_nsock w) j i) as (C1 & C2 & C3 & C4); auto.
  - lia.
  - unfold segment_target. rewrite KA, SB, K5. reflexivity.
  - rewrite SO. exact K2.
  - rewrite SO. exact K3.
  - rewrite SW. exact X1.
  - rewrite SW. split; [exact A1|]. split; [exact A2|]. split; congruence.
  - fold w3 in C1, C2, C3. split; [exists t; rewrite SW; auto|]. split; [exact C2|]. split; [|split; [exact C1|split; [rewrite C3, QW, Q; reflexivity|auto]]].
    (* the socket still has the session *)
    assert (TS : t_sess (tw_sock w3 (tw_nsock w)) = t_sess (tw_sock w2 (tw_nsock w))).
    { unfold w3. cbn [top_do]. unfold segment_target. rewrite KA, SB, K5. unfold on_tsock. destruct (Nat.ltb _ _); [|reflexivity]. cbn [tret_of fst]. unfold deliver. assert (T2 : t_sess (tw_sock w2 (tw_nsock w)) = Some j) by (rewrite SO; exact K2). rewrite T2.
      assert (CC : t_sess (tw_sock (called j iss2 (tcp_fsm (EPacket a)) w2) (tw_nsock w)) = Some j).
      { rewrite <- T2 at 1. assert (HO : half_open [FFork p] (d_seq p + 1) s1). { destruct (wi_phase D w2 I2 j (proj1 (wi_sess D w2 I2 (tw_nsock w) j ltac:(lia) T2))) as [P|[(s' & P)|P]]; [rewrite SW in P; destruct P; congruence| |rewrite SW in P; tauto].
          rewrite SW in P. destruct P as (P & P'). split; [|exact P']. destruct P as (P1 & P2 & P3 & P4). rewrite X5 in P1. injection P1 as <-. split; [exact X5|]. auto. }
        unfold called. rewrite SW. set (r := registered _ _). clearbody r.
        destruct (rcvd_packet [FFork p] (d_seq p + 1) a (set_reg r s1) HO) as [(_ & s' & -> & _ & Y & _)|(NR & _)]; [|exfalso; apply NR; split; [exact A1|split; [exact A2|split; [change (d_seq a = rcv_nxt s1)|change (d_ackn a = snd_nxt s1)]; congruence]]].
        cbn [fst]. rewrite (skipn_app_eq (effs s1) (effs s') [FAccept]) by (rewrite Y, X5; reflexivity). cbn [fold_left effect]. match goal with |- context [t_parent ?x] => destruct (t_parent x) as [y|] end; [|reflexivity]. cbn [tw_sock put_sock put_sess]. unfold upd. destruct (Nat.eqb_spec (tw_nsock w) y) as [<-|]; reflexivity. }
      destruct (call_eq j iss2 (tcp_fsm (EPacket a)) w2) as [-> | ->]; exact CC. }
    rewrite TS, SO. exact K2.
Qed.

(** ** the same for every history *)
Lemma fork_run ops w0 w p iss i j : history ops w0 w -> segment_target (tw_table w) p = Some i -> t_sess (tw_sock w i) = Some j -> st (tw_sess w j) = LISTEN -> good_syn p ->
  forked i j p w (fst (top_do (TSegment p iss) w)) /\ snd (top_do (TSegment p iss) w) = TNone.
Proof.
  intros H T E ST G. destruct (history_inv ops w0 w H) as [[D I] HK]. destruct (target_in w p i HK T) as [L _]. destruct (fork_exact D i j p iss w I L E ST G) as (F & R & _).
  cbn [top_do]. rewrite T. unfold on_tsock. destruct (Nat.ltb_spec i (tw_nsock w)); [|lia]. cbn [tret_of fst snd]. rewrite R. split; [exact F|reflexivity].
Qed.
Lemma target_kept p i j w w' q : forked i j p w w' -> d_rport p <> 0 -> segment_key q <> segment_key p -> segment_target (tw_table w') q = segment_target (tw_table w) q.
Proof.
  intros F R N. pose proof (fk_table _ _ _ _ _ F) as T. unfold segment_target. rewrite (T (segment_key q) N). destruct (sock_get (segment_key q) (tw_table w)); [reflexivity|].
  destruct (_ && _); [|reflexivity]. unfold listen_patterns. cbn [first_match]. rewrite !T by (unfold segment_key; intros X; injection X; congruence). reflexivity.
Qed.
Lemma order_run q ops w0 : fresh_tcp w0 -> let w := top_run ops w0 in
  accepted q ops w0 ++ waiting_at q w = completed q ops w0 /\ NoDup (completed q ops w0).
Proof.
  intros F. destruct (run_inv q ops [] w0 (fresh_inv w0 F) (NoDup_nil _)) as (_ & A & B). split; [|exact A]. rewrite B. unfold waiting_at. destruct F as (-> & _). reflexivity.
Qed.
Lemma pop_run ops w0 w i : history ops w0 w -> (i < tw_nsock w)%nat ->
  (forall e, snd (top_do (TPop i) w) <> TErr e) /\ 0 <= t_ready (tw_sock w i) /\ 0 <= t_between (tw_sock w i) /\ t_ready (tw_sock w i) + t_between (tw_sock w i) = zlen (t_queue (tw_sock w i)).
Proof.
  intros H L. destruct (history_inv ops w0 w H) as [[D I] _]. pose proof (wi_count D w I i L) as C. split; [|exact C]. intros e. cbn [top_do]. unfold on_tsock. destruct (Nat.ltb _ _); [|discriminate].
  unfold accept_pop. destruct (Z.ltb_spec 0 (t_between (tw_sock w i))); [|discriminate]. destruct (t_queue (tw_sock w i)); [|discriminate]. change (zlen (@nil nat)) with 0 in C. lia.
Qed.
Lemma synack_before q ops w0 w o k : history ops w0 w -> In k (completions q w (fst (top_do o w))) ->
  exists p iss j, o = TSegment p iss /\ t_sess (tw_sock w k) = Some j /\ (d_ackn p <> snd_ini (tw_sess w j) ->
    exists t, In t (sent (tw_sess w j)) /\ x_fsyn t = true /\ x_fack t = true /\ x_seq t + 1 = d_ackn p /\ x_ack t = d_seq p).
Proof.
  intros H X. destruct (history_inv ops w0 w H) as [[D I] HK]. destruct (completed_only q D o w k I HK X) as (p & iss & j & s & -> & T & EN & E & PA & ST & LA & HO & _).
  exists p, iss, j. split; [reflexivity|]. split; [exact E|]. intros N. destruct HO as ((_ & _ & _ & _ & Y) & _). destruct LA as (_ & _ & L1 & L2).
  destruct Y as [Y|(Y & t & Y1 & Y2 & Y3 & Y4 & Y5)]; [congruence|]. exists t. repeat split; auto; congruence.
Qed.

(** ** the receive path *)
Lemma segment_in src dst f plen ps s n : tcp_parse f plen ps = Ok (inr s) ->
  n_tcp (fst (phrx_tcp src dst f plen (Ok ps) n)) = n_tcp n ++ match segment_target (n_socks n) (tmd_of src dst s) with Some i => [(i, tmd_of src dst s)] | None => [] end.
Proof.
  intros E. unfold phrx_tcp, on_parsed, rbind', rlift. rewrite E. unfold rgets. unfold segment_target. change (segment_key (tmd_of src dst s)) with {| k_type := Stream; k_lip := dst; k_lport := s_dport s; k_rip := src; k_rport := s_sport s |}.
  cbn [d_syn d_ack d_fin d_rst d_lip d_lport tmd_of]. destruct (sock_get _ _) as [i|]; [reflexivity|]. destruct (if s_fsyn s && _ then _ else _) as [i|]; [reflexivity|].
  rewrite app_nil_r. unfold tx_, rbind', tx. destruct (phtx_tcp _ _ _ _ _ _ _ _ _ _ _ _ _ _ _) as [x [y|e]]; reflexivity.
Qed.
