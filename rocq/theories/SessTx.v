(** The sending side: order of the variables, what the segments carry, the state changes. *)
From Verif Require Import Base BaseLemmas AddrModel TcpModel StackModel StackRxModel SessModel SpecSess SessProofs SessTrace SessRun SessInv.

Lemma any_ok iss : allowed_ok false iss any_op.
Proof. intros o c _ X. discriminate. Qed.
Lemma sane_ok iss : allowed_ok true iss (sane_op iss).
Proof. intros o c H _. exact H. Qed.

(** * C67 *)
Lemma order_reach iss c0 c : opened iss c0 -> reach any_op c0 c ->
  iss <= snd_una (c_sess c) <= snd_nxt (c_sess c) /\ snd_nxt (c_sess c) <= snd_max (c_sess c).
Proof.
  intros O R. destruct (reach_good false iss any_op c0 c O (any_ok iss) R) as [[(H1 & H2 & _) _] I]. rewrite I in H1. auto.
Qed.
Lemma ack_ok_false p s : snd_max s < d_ackn p -> ack_ok p s = false.
Proof. intros H. unfold ack_ok. apply andb_false_iff. right. apply Z.leb_gt. lia. Qed.
Lemma fits_false p s : snd_max s < d_ackn p -> fits p s = false.
Proof. intros H. unfold fits. rewrite ack_ok_false by auto. apply andb_false_r. Qed.
Lemma ack_ignored p s : snd_una s <= snd_nxt s <= snd_max s -> d_ack p = true -> snd_max s < d_ackn p -> tcp_fsm (EPacket p) s = (s, Ok tt).
Proof.
  intros O A H. pose proof (ack_ok_false p s H) as H1. pose proof (fits_false p s H) as H2.
  assert (N : (d_ackn p =? snd_nxt s) = false) by (apply Z.eqb_neq; lia). assert (M : (d_ackn p =? snd_una s) = false) by (apply Z.eqb_neq; lia).
  assert (S : is_syn p = false) by (unfold is_syn; rewrite A; cbn; apply andb_false_r).
  assert (S2 : is_rst p = false) by (unfold is_rst; rewrite A; cbn; apply andb_false_r).
  unfold tcp_fsm. cbn [fsm]. destruct (st s); cbn [fsm_closed fsm_listen fsm_syn_sent fsm_syn_rcvd fsm_established fsm_fin_wait_1 fsm_fin_wait_2 fsm_closing fsm_close_wait fsm_last_ack fsm_time_wait];
  try reflexivity; unfold pwhen, pif; rewrite ?S, ?S2; cbn [andb orb]; try reflexivity;
  destruct (is_ack p), (is_finack p), (is_rstack p); cbv beta; rewrite ?N, ?M, ?H1, ?H2, ?andb_false_r; cbn [andb orb]; try reflexivity; try (destruct (negb _); reflexivity).
Qed.

(** * C65 *)
Definition flowing : list fsm_state := [ESTABLISHED; CLOSE_WAIT].
Definition unfinished : list fsm_state := [LISTEN; SYN_SENT; SYN_RCVD; ESTABLISHED; CLOSE_WAIT].
Definition tx_inv (w : bytes) (s : sess) : Prop :=
  (In (st s) flowing -> exists a, w = a ++ tx_buf s) /\
  (In (st s) unfinished -> Forall (fun t => x_ffin t = false) (sent s)) /\
  Forall (carries (snd_ini s) w) (sent s).
Lemma py_slice_firstn {A} a b (l : list A) : exists m, py_slice a b l = firstn m (skipn (Z.to_nat a) l).
Proof. unfold py_slice, slice. eauto. Qed.
Lemma firstn_length_self {A} m (l : list A) : firstn (length (firstn m l)) l = firstn m l.
Proof. rewrite firstn_length. destruct (Nat.min_spec m (length l)) as [[L ->]|[L ->]]; [reflexivity|]. rewrite firstn_all. symmetry. apply firstn_all2. auto. Qed.
Lemma tx_inv_same w a b : st b = st a -> tx_buf b = tx_buf a -> sent b = sent a -> snd_ini b = snd_ini a -> tx_inv w a -> tx_inv w b.
Proof. unfold tx_inv. intros -> -> -> ->. auto. Qed.
Lemma tx_inv_sent w a b t : st b = st a -> tx_buf b = tx_buf a -> sent b = sent a ++ [t] -> snd_ini b = snd_ini a ->
  carries (snd_ini a) w t -> (In (st a) unfinished -> x_ffin t = false) -> tx_inv w a -> tx_inv w b.
Proof.
  unfold tx_inv. intros -> -> -> -> C F (H1 & H2 & H3). split; [auto|]. split.
  - intros U. apply Forall_app. auto.
  - apply Forall_app. auto.
Qed.
Lemma tx_acked w p s : tx_inv w s -> tx_inv w (acked p s).
Proof.
  intros (H1 & H2 & H3). unfold tx_inv. sx. split; [|auto]. intros F. destruct (H1 F) as [a E].
  exists (a ++ slice 0 (Z.max (Z.max (snd_una s) (d_ackn p) - tx_mod s) 0) (tx_buf s)).
  rewrite <- app_assoc, <- slice_split by lia. exact E.
Qed.
Lemma tx_step n w e a b : n = zlen w -> pstep true e a b -> pre true n a -> tx_inv w a -> tx_inv w b.
Proof.
  intros N H [P S] T. destruct (S eq_refl) as [I SH]. destruct P as (P1 & P2 & P3 & P4 & P5). destruct H.
  all: try (eapply (tx_inv_same w s); [reflexivity|reflexivity|reflexivity|reflexivity|exact T]; fail).
  - (* go *) specialize (H0 eq_refl). destruct T as (H1 & H2 & H3). unfold tx_inv; sx. unfold may in H0. split; [|split; [|auto]].
    + intros F. unfold shape in SH. destruct (st s) eqn:ST; destruct n0; try contradiction; cbn in F; try (intuition discriminate);
      try (apply H1; cbn; auto; fail).
      * destruct SH as [_ SN]. exists []. rewrite SN in N. symmetry in N. apply zlen_zero_nil in N. subst w. unfold shape in *. destruct (S eq_refl) as [_ SH2].
        rewrite ST in SH2. destruct SH2 as [(B1 & _) _]. rewrite B1. reflexivity.
      * destruct SH as [_ SN]. exists []. rewrite SN in N. symmetry in N. apply zlen_zero_nil in N. subst w. unfold shape in *. destruct (S eq_refl) as [_ SH2].
        rewrite ST in SH2. destruct SH2 as [(B1 & _) _]. rewrite B1. reflexivity.
    + intros F. apply H2. destruct (st s) eqn:ST; destruct n0; try contradiction; cbn in F |- *; try (intuition discriminate); auto.
  - (* gone *) destruct T as (H3 & H4 & H5). unfold tx_inv, gone; sx. split; [cbn; intuition discriminate|]. split; [cbn; intuition discriminate|].
    apply Forall_app. split; [auto|]. constructor; [|constructor]. split; cbn; [congruence|discriminate].
  - apply tx_acked. eapply tx_inv_same; [| | | |exact T]; reflexivity.
  - destruct H as [[_ ->]|(_ & _ & ->)]; [exact T|]. eapply tx_inv_same; [| | | |exact T]; reflexivity.
  - apply tx_acked. destruct H as [[_ ->]|(_ & _ & ->)]; [exact T|]. eapply tx_inv_same; [| | | |exact T]; reflexivity.
  - rewrite rewind_eq. eapply tx_inv_same; [| | | |exact T]; reflexivity.
  - rewrite rewind_eq. eapply (tx_inv_sent w s); [reflexivity|reflexivity|reflexivity|reflexivity| |reflexivity|exact T]. split; cbn; [congruence|discriminate].
  - (* send *) eapply (tx_inv_sent w s); [reflexivity|reflexivity|reflexivity|reflexivity| | |exact T].
    + unfold sends in H. destruct syn, ack, fin; try contradiction.
      * destruct H as (_ & _ & _ & ->). split; cbn; [congruence|discriminate].
      * destruct H as (_ & _ & _ & ->). split; cbn; [congruence|discriminate].
      * destruct H as (_ & E & NF & ->). split; cbn; [congruence|]. intros _. rewrite <- N. unfold shape in SH. destruct E as [E|E]; rewrite E in SH; decompose [and] SH; lia.
      * destruct H as [->|(_ & E & _ & _ & D)]; [split; cbn; [congruence|discriminate]|]. split; [|discriminate]. cbn [x_data x_seq segment]. intros _.
        assert (F : In (st s) flowing) by (destruct E as [E|E]; rewrite E; cbn; auto). destruct T as (T1 & _). destruct (T1 F) as [pre0 EW].
        assert (B : tx_mod s = snd_una s /\ snd_ini s < snd_una s /\ snd_una s + zlen (tx_buf s) = snd_ini s + 1 + n /\ snd_max s <= snd_una s + zlen (tx_buf s))
          by (unfold shape in SH; destruct E as [E|E]; rewrite E in SH; tauto).
        destruct B as (B1 & B2 & B3 & B4). assert (LA : zlen pre0 = snd_una s - (snd_ini s + 1)) by (rewrite EW, zlen_app in N; lia).
        unfold tx_buf_nxt in D. rewrite B1, Z.max_l in D by lia. set (off := snd_nxt s - snd_una s) in *.
        assert (SK : skipn (Z.to_nat (zlen pre0 + off)) w = skipn (Z.to_nat off) (tx_buf s)).
        { rewrite EW. rewrite skipn_app. rewrite skipn_all2 by (unfold zlen, off; lia). cbn. f_equal. unfold zlen, off. lia. }
        exists (zlen pre0 + off). pose proof (zlen_nonneg pre0). split; [unfold off; lia|]. split; [unfold off; lia|].
        destruct (py_slice_firstn off (off + Z.min (Z.min (snd_mss s) (snd_ewn s - off)) (zlen (tx_buf s) - off)) (tx_buf s)) as [m M].
        rewrite M in D. split.
        -- rewrite D. unfold zlen. rewrite firstn_length, skipn_length. unfold zlen in *. rewrite EW, app_length. unfold off. lia.
        -- rewrite SK, D. symmetry. apply firstn_length_self.
    + intros U. destruct fin; [|reflexivity]. exfalso. unfold sends in H. destruct syn, ack; try contradiction.
      destruct H as (_ & E & _). destruct E as [E|E]; rewrite E in U; cbn in U; intuition discriminate.
Qed.
Lemma tx_steps n w e a b : n = zlen w -> steps true e a b -> pre true n a -> tx_inv w a -> tx_inv w b.
Proof. intros N. induction 1; auto. intros P T. apply IHsteps; [eapply pre_step; eauto|eapply tx_step; eauto]. Qed.
Lemma carries_grow iss w d t : carries iss w t -> x_ffin t = false -> carries iss (w ++ d) t.
Proof.
  intros [H1 H2] F. split; [|congruence]. intros N. destruct (H1 N) as (k & K1 & K2 & K3 & K4). exists k. pose proof (zlen_nonneg d). rewrite zlen_app.
  repeat split; auto; try lia. rewrite K4 at 1. unfold zlen in *. rewrite skipn_app, firstn_app.
  replace (length (x_data t) - length (skipn (Z.to_nat k) w))%nat with 0%nat by (rewrite skipn_length; lia). cbn. rewrite app_nil_r. reflexivity.
Qed.
Lemma tx_reach iss c0 c : opened iss c0 -> reach (sane_op iss) c0 c -> tx_inv (c_written c) (c_sess c).
Proof.
  intros O. apply (reach_ind_moves true iss (sane_op iss) c0 (fun c => tx_inv (c_written c) (c_sess c))); auto using sane_ok.
  - destruct O as (_ & call & lip & lport & rip & rport & timers & K & _ & ->).
    destruct K as [-> | ->]; (split; [cbn; intuition discriminate|split; [intros _; constructor|constructor]]).
  - intros o x x' _ [G _] _ T M. destruct o; cbn [moves] in M.
    1-3: destruct M as ((e & _ & S) & _ & ->); eapply tx_steps; eauto.
    + destruct M as [->|(E & S & _ & W)]; [exact T|]. rewrite S, W. destruct T as (T1 & T2 & T3).
      assert (U : In (st (c_sess x)) unfinished) by (cbn in *; tauto). specialize (T2 U). split; [|split; [auto|]].
      * intros _. destruct (T1 E) as [a A]. exists a. sx. rewrite A, app_assoc. reflexivity.
      * sx. rewrite Forall_forall in *. intros t I. apply carries_grow; auto.
    + destruct M as (W & b & v & d & S & _). rewrite W, S. eapply tx_inv_same; [| | | |exact T]; reflexivity.
Qed.
Lemma sent_reach iss c0 c : opened iss c0 -> reach (sane_op iss) c0 c -> Forall (carries iss (c_written c)) (sent (c_sess c)).
Proof.
  intros O R. destruct (tx_reach iss c0 c O R) as (_ & _ & H). destruct (reach_good true iss (sane_op iss) c0 c O (sane_ok iss) R) as [_ I]. rewrite I in H. exact H.
Qed.

(** * C68 *)
Definition op_of (e : event) : op := match e with EPacket p => OSegment p | ECall _ => OClose | ETimer => OTick end.
Lemma flags_ack p : is_ack p = true -> flags_of p = (false, true, false, false).
Proof. unfold is_ack, flags_of. destruct (d_ack p), (d_syn p), (d_rst p), (d_fin p); try discriminate; auto. Qed.
Lemma flags_finack p : is_finack p = true -> flags_of p = (false, true, true, false).
Proof. unfold is_finack, flags_of. destruct (d_ack p), (d_syn p), (d_rst p), (d_fin p); try discriminate; auto. Qed.
Lemma flags_syn p : is_syn p = true -> flags_of p = (true, false, false, false).
Proof. unfold is_syn, flags_of. destruct (d_ack p), (d_syn p), (d_rst p), (d_fin p); try discriminate; auto. Qed.
Lemma flags_synack p : is_synack p = true -> flags_of p = (true, true, false, false).
Proof. unfold is_synack, flags_of. destruct (d_ack p), (d_syn p), (d_rst p), (d_fin p); try discriminate; auto. Qed.
Lemma flags_rstack p : is_rstack p = true -> flags_of p = (false, true, false, true) /\ d_rst p = true.
Proof. unfold is_rstack, flags_of. destruct (d_ack p), (d_syn p), (d_rst p), (d_fin p); try discriminate; auto. Qed.
Lemma flags_rst p : is_rst p = true -> d_rst p = true.
Proof. unfold is_rst. destruct (d_rst p); auto. Qed.
Lemma may_documented e n s : may e n s -> documented (op_of e) (st s) n.
Proof.
  unfold may, documented. intros M.
  destruct (st s), n; try contradiction; repeat match goal with
  | H : exists _, _ |- _ => destruct H | H : _ /\ _ |- _ => destruct H | H : _ \/ _ |- _ => destruct H | H : e = _ |- _ => subst e end;
  cbn [op_of]; eauto 8 using flags_ack, flags_finack, flags_syn, flags_synack;
  repeat match goal with H : is_rstack _ = true |- _ => apply flags_rstack in H; destruct H | H : is_rst _ = true |- _ => apply flags_rst in H end;
  eauto 8 using flags_ack.
Qed.
Lemma edges_app o a b c : edges o a b -> edges o b c -> edges o a c.
Proof. induction 1; eauto using edges. Qed.
Lemma edge_step e a b : pstep true e a b -> edges (op_of e) (st a) (st b).
Proof.
  intros H. destruct H; try apply edges_0.
  - eapply edges_1; [|apply edges_0]. apply may_documented. auto.
  - change (st (gone s)) with CLOSED. eapply edges_1; [|apply edges_0]. subst e. cbn [op_of].
    cbn in H0. repeat (destruct H0 as [H0|H0]; [rewrite <- H0; cbn; auto|]). contradiction.
  - destruct H as [[_ ->]|(_ & _ & ->)]; apply edges_0.
  - destruct H as [[_ ->]|(_ & _ & ->)]; apply edges_0.
  - rewrite rewind_eq. apply edges_0.
  - rewrite rewind_eq. apply edges_0.
Qed.
Lemma edges_steps e a b : steps true e a b -> edges (op_of e) (st a) (st b).
Proof. induction 1; [apply edges_0|]. eapply edges_app; eauto using edge_step. Qed.
Lemma edges_reach iss c0 c o : opened iss c0 -> reach (sane_op iss) c0 c -> sane_op iss o c ->
  edges o (st (c_sess c)) (st (c_sess (fst (op_do o c)))).
Proof.
  intros O R S. pose proof (reach_good true iss _ c0 c O (sane_ok iss) R) as G.
  pose proof (op_moves true iss o c G (fun _ => S)) as M. destruct o; cbn [moves] in M.
  1-3: destruct M as ((e & E & K) & _); injection E as <-; apply (edges_steps _ _ _ K).
  - destruct M as [->|(_ & -> & _)]; apply edges_0.
  - destruct M as (_ & b & v & d & -> & _). apply edges_0.
Qed.
