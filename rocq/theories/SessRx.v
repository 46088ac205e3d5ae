(** The receiving side: what the application reads is what the peer sent. *)
From Verif Require Import Base BaseLemmas AddrModel TcpModel StackModel StackRxModel SessModel SpecSess SessProofs SessTrace SessRun SessInv.

Definition at_offset (P : bytes) (k : Z) (d : bytes) : Prop :=
  0 <= k /\ k + zlen d <= zlen P /\ d = firstn (length d) (skipn (Z.to_nat k) P).
(** a segment of the peer that is not before [from] *)
Definition placed (irs from : Z) (P : bytes) (p : tmd) : Prop :=
  (d_syn p = true -> d_seq p = irs) /\
  (d_data p <> [] \/ d_fin p = true -> from <= d_seq p -> at_offset P (d_seq p - irs - 1) (d_data p) /\
     (d_fin p = true -> d_seq p - irs - 1 + zlen (d_data p) = zlen P)).
Definition rx_sync (irs from : Z) (P D : bytes) (s : sess) : Prop :=
  rcv_ini s = irs /\ from <= rcv_nxt s /\
  (exists b, D ++ rx_buf s = firstn (length (D ++ rx_buf s)) P /\ zlen (D ++ rx_buf s) <= zlen P /\
     rcv_nxt s = irs + 1 + zlen (D ++ rx_buf s) + b /\ 0 <= b <= 1 /\ (b = 1 -> zlen (D ++ rx_buf s) = zlen P) /\
     (In (st s) [LISTEN; SYN_SENT] -> D ++ rx_buf s = [] /\ b = 0)) /\
  (forall k q, In (k, q) (ooo s) -> d_data q <> [] -> at_offset P (d_seq q - irs - 1) (d_data q)).
Definition rx_inv (irs from : Z) (P D : bytes) (s : sess) : Prop :=
  (from <= irs + 1 /\ rcv_ini s = 0 /\ rcv_nxt s = 0 /\ D ++ rx_buf s = [] /\ In (st s) [CLOSED; LISTEN; SYN_SENT] /\ ooo s = []) \/ rx_sync irs from P D s.

Lemma firstn_more P n (d : bytes) : (n <= length P)%nat -> d = firstn (length d) (skipn n P) -> firstn n P ++ d = firstn (n + length d) P.
Proof.
  intros H E. rewrite E at 1. rewrite <- (firstn_skipn n P) at 3. rewrite firstn_app. rewrite firstn_length, Nat.min_l by lia.
  replace (n + length d - n)%nat with (length d) by lia. f_equal. rewrite firstn_firstn. f_equal. lia.
Qed.
Lemma rx_take irs from P D e p s0 s : (forall q, e = EPacket q -> placed irs from P q) ->
  ooo_ok s0 -> origin e p s0 s -> takes p s -> In (st s) [SYN_RCVD; ESTABLISHED; FIN_WAIT_1; FIN_WAIT_2; CLOSE_WAIT] -> d_seq p = rcv_nxt s ->
  rx_sync irs from P D s0 -> rx_sync irs from P D (acked p s).
Proof.
  intros PL OK O T ST SQ (H1 & H2 & (b & B1 & B2 & B3 & B4 & B5 & B6) & H3).
  assert (F : st s = st s0 /\ rcv_ini s = rcv_ini s0 /\ rcv_nxt s = rcv_nxt s0 /\ rx_buf s = rx_buf s0) by (destruct O as [[_ ->]|(_ & _ & ->)]; auto).
  destruct F as (F1 & F2 & F3 & F4). pose proof (origin_ooo _ _ _ _ O) as OO.
  assert (SYN : d_syn p = false).
  { unfold takes in T. assert (X : is_ack p = true \/ is_finack p = true) by (destruct (st s); tauto).
    unfold is_ack, is_finack in X. destruct (d_syn p); auto. destruct (d_ack p), (d_fin p), (d_rst p); cbn in X; intuition discriminate. }
  assert (NS : ~ In (st s) [LISTEN; SYN_SENT]) by (cbn in *; intuition congruence).
  assert (CASE : (d_data p = [] /\ d_fin p = false) \/ (at_offset P (d_seq p - irs - 1) (d_data p) /\ (d_fin p = true -> d_seq p - irs - 1 + zlen (d_data p) = zlen P))).
  { destruct (d_fin p) eqn:FI; [|destruct (d_data p) as [|x l] eqn:DD; [auto|]]; right.
    - assert (A : is_ack p = false) by (unfold is_ack; rewrite FI; destruct (d_ack p), (d_syn p), (d_rst p); reflexivity).
      destruct O as [[-> _]|([X _] & _)]; [|apply OK in X; destruct X; congruence]. destruct (PL p eq_refl) as [_ K]. destruct (K (or_intror FI)) as [K1 K2]; [lia|]. auto.
    - rewrite <- DD. split; [|discriminate]. destruct O as [[-> _]|([X _] & _)].
      + destruct (PL p eq_refl) as [_ K]. apply K; [left; rewrite DD; discriminate|lia].
      + eapply H3; eauto. rewrite DD. discriminate. }
  unfold rx_sync. sx. rewrite SYN, F2, F4, SQ, F3. cbn [b2z]. rewrite app_assoc, zlen_app, app_length.
  pose proof (zlen_nonneg (d_data p)) as NN. pose proof (b2z_pos (d_fin p)) as BP.
  split; [auto|]. split; [lia|]. split; [|intros k q Q; apply (H3 k q); auto].
  destruct CASE as [[C1 C2]|[(K1 & K2 & K3) K4]].
  - rewrite C1, C2. exists b. rewrite app_nil_r. change (zlen (@nil Z)) with 0. cbn [b2z length]. rewrite Nat.add_0_r. repeat split; auto; try lia; tauto.
  - assert (b = 0) by (destruct (Z.eq_dec b 1) as [E|E]; [specialize (B5 E); lia|lia]). subst b.
    set (n := length (D ++ rx_buf s0)) in *. change (zlen (D ++ rx_buf s0)) with (Z.of_nat n) in *.
    replace (Z.to_nat (d_seq p - irs - 1)) with n in K3 by lia.
    exists (b2z (d_fin p)). repeat split; try lia; try tauto.
    + rewrite B1. change (length (firstn (length (D ++ rx_buf s0)) P)) with (length (firstn n P)). fold n.
      apply firstn_more; auto. unfold zlen in *. lia.
    + destruct (d_fin p); [|discriminate]. intros _. specialize (K4 eq_refl). lia.
Qed.
Lemma rx_inv_same irs from P D a b : st b = st a -> rcv_ini b = rcv_ini a -> rcv_nxt b = rcv_nxt a -> rx_buf b = rx_buf a -> ooo b = ooo a ->
  rx_inv irs from P D a -> rx_inv irs from P D b.
Proof. unfold rx_inv, rx_sync. intros -> -> -> -> ->. auto. Qed.
Lemma rx_step irs from P D e a b : 0 <= irs -> pstep false e a b -> pre0 a -> (forall q, e = EPacket q -> placed irs from P q) ->
  rx_inv irs from P D a -> rx_inv irs from P D b.
Proof.
  intros IP H PR PL R. destruct H.
  all: try (eapply (rx_inv_same irs from P D s); [reflexivity|reflexivity|reflexivity|reflexivity|reflexivity|exact R]; fail).
  - (* go *) destruct R as [(R0 & R1 & R2 & R3 & R4 & R5)|R].
    + left. sx. repeat split; auto. destruct n; cbn in H |- *; auto; lia.
    + right. destruct R as (R1 & R2 & (b & R3 & R4 & R5 & R6 & R7 & R8) & R9). unfold rx_sync; sx. split; [auto|]. split; [auto|]. split; [|exact R9].
      exists b. do 5 (split; [assumption|]). intros X. exfalso. cbn in X. destruct n; cbn in H; intuition discriminate.
  - (* gone *) destruct R as [(R0 & R1 & R2 & R3 & R4 & R5)|R].
    + left. unfold gone; sx. repeat split; auto. cbn. auto.
    + right. destruct R as (R1 & R2 & (b & R3 & R4 & R5 & R6 & R7 & R8) & R9). unfold rx_sync, gone; sx. split; [auto|]. split; [auto|]. split; [|exact R9].
      exists b. do 5 (split; [assumption|]). intros X. exfalso. cbn in X. intuition discriminate.
  - (* adopt *) right. assert (E : D ++ rx_buf s = [] /\ from <= irs + 1 /\ ooo s = []).
    { destruct PR as (_ & _ & _ & Q & _). assert (O : ooo s = []) by (apply Q; rewrite H0; cbn; auto).
      destruct R as [(R0 & R1 & R2 & R3 & R4 & R5)|(R1 & R2 & (b & _ & _ & R3 & _ & _ & R4) & _)].
      - repeat split; auto.
      - destruct R4 as [R4 R5]; [rewrite H0; cbn; auto|]. rewrite R4, R5 in R3. change (zlen (@nil Z)) with 0 in R3. repeat split; auto; lia. }
    destruct E as (E1 & E2 & E3).
    assert (SY : d_syn p = true) by (unfold is_syn in H1; destruct (d_syn p); auto). destruct (PL p H) as [S _]. specialize (S SY).
    unfold rx_sync; sx. rewrite E1, E3, S, SY. cbn [b2z]. change (zlen (@nil Z)) with 0. split; [auto|]. split; [lia|].
    split; [|intros k q []]. exists 0. pose proof (zlen_nonneg P). repeat split; auto; lia.
  - (* sync *) right. assert (E : D ++ rx_buf s = [] /\ from <= irs + 1 /\ ooo s = []).
    { destruct PR as (_ & _ & _ & Q & _). assert (O : ooo s = []) by (apply Q; rewrite H0; cbn; auto).
      destruct R as [(R0 & R1 & R2 & R3 & R4 & R5)|(R1 & R2 & (b & _ & _ & R3 & _ & _ & R4) & _)].
      - repeat split; auto.
      - destruct R4 as [R4 R5]; [rewrite H0; cbn; auto|]. rewrite R4, R5 in R3. change (zlen (@nil Z)) with 0 in R3. repeat split; auto; lia. }
    destruct E as (E1 & E2 & E3).
    assert (SY : d_syn p = true /\ d_fin p = false) by (unfold is_synack in H1; destruct (d_syn p), (d_ack p), (d_fin p); auto). destruct SY as [SY SF].
    destruct (PL p H) as [S _]. specialize (S SY). apply no_data_iff in H2.
    unfold rx_sync. rewrite sync_rcv_ini, sync_rcv_nxt, sync_st, sync_ooo. change (rx_buf (acked p (synchronise p s))) with (rx_buf s ++ d_data p).
    rewrite H2, app_nil_r, E1, E3, S, SY, SF. change (zlen (@nil Z)) with 0. cbn [b2z]. split; [auto|]. split; [lia|].
    split; [|intros k q []]. exists 0. pose proof (zlen_nonneg P). repeat split; auto; lia.
  - (* pop *) destruct H as [[_ ->]|(_ & _ & ->)]; [exact R|]. destruct R as [(R0 & R1 & R2 & R3 & R4 & R5)|(R1 & R2 & R3 & R4)].
    + left. sx. rewrite R5. repeat split; auto.
    + right. unfold rx_sync; sx. split; [auto|]. split; [auto|]. split; [exact R3|]. intros k q Q. apply (R4 k). eauto using in_ddel.
  - (* ack *) assert (ST : In (st s) [SYN_RCVD; ESTABLISHED; FIN_WAIT_1; FIN_WAIT_2; CLOSE_WAIT]) by (unfold takes in H0; destruct (st s); cbn; auto 10; contradiction).
    assert (PRS : pre0 s) by (eapply origin_pre0; eauto). destruct PRS as (A1 & A2 & _). destruct (takes_ack p s) as [_ SQ]; [lia|auto|].
    right. destruct PR as (_ & _ & OK & _). eapply rx_take; eauto.
    destruct R as [(_ & _ & _ & _ & R & _)|R]; [|exact R]. exfalso. assert (EQ : st s0 = st s) by (destruct H as [[_ ->]|(_ & _ & ->)]; auto).
    rewrite EQ in R. cbn in R, ST. intuition congruence.
  - (* store *) destruct R as [(_ & _ & _ & _ & R & _)|(R1 & R2 & R3 & R4)].
    { exfalso. cbn in R. destruct H0; intuition congruence. }
    right. unfold rx_sync; sx. split; [auto|]. split; [auto|]. split; [exact R3|]. intros k q Q D0. apply in_dset in Q. destruct Q as [Q|Q]; [|eapply R4; eauto]. injection Q as -> ->.
    destruct (PL p H) as [_ K]. apply K; [auto|lia].
  - rewrite rewind_eq. eapply (rx_inv_same irs from P D s); [reflexivity|reflexivity|reflexivity|reflexivity|reflexivity|exact R].
  - rewrite rewind_eq. eapply (rx_inv_same irs from P D s); [reflexivity|reflexivity|reflexivity|reflexivity|reflexivity|exact R].
Qed.
Lemma rx_steps irs from P D e a b : 0 <= irs -> steps false e a b -> pre0 a -> (forall q, e = EPacket q -> placed irs from P q) ->
  rx_inv irs from P D a -> rx_inv irs from P D b.
Proof. intros I. induction 1; auto. intros PR PL R. apply IHsteps; [eapply pre0_step; eauto|auto|eapply rx_step; eauto]. Qed.
Lemma rx_from irs from P D s : 0 <= irs -> rx_inv irs from P D s -> rx_inv irs (Z.max (rcv_nxt s) (irs + 1)) P D s.
Proof.
  intros I [(R0 & R1 & R2 & R3 & R4 & R5)|(R1 & R2 & R)].
  - left. repeat split; auto; lia.
  - right. unfold rx_sync. split; [auto|]. split; [|auto]. destruct R as ((b & _ & _ & R & B & _) & _). pose proof (zlen_nonneg (D ++ rx_buf s)). lia.
Qed.
Lemma peer_placed irs from P p s D : 0 <= irs < 2 ^ 32 -> rx_inv irs from P D s -> from_peer irs P (zlen (D ++ rx_buf s)) p ->
  placed irs (Z.max (rcv_nxt s) (irs + 1)) P p.
Proof.
  intros I R (F1 & F2 & F3). split; [auto|]. intros DF L. destruct (F3 DF) as (k & K1 & K2 & K3 & K4 & K5 & K6).
  enough (E : d_seq p - irs - 1 = k). { rewrite E. split; [split; auto|auto]. }
  assert (N : zlen (D ++ rx_buf s) <= d_seq p - irs - 1).
  { destruct R as [(R0 & R1 & R2 & R3 & R4 & R5)|(R1 & R2 & (b & _ & _ & R & B & _) & _)]; [rewrite R3; change (zlen (@nil Z)) with 0; lia|lia]. }
  pose proof (zlen_nonneg (D ++ rx_buf s)). set (g := zlen (D ++ rx_buf s)) in *.
  pose proof (Z.div_mod (irs + 1 + k) (2 ^ 32) ltac:(lia)) as DM. rewrite <- K3 in DM. set (m := (irs + 1 + k) / 2 ^ 32) in *.
  change (2 ^ 32) with 4294967296 in *. assert (0 <= m) by (apply Z.div_pos; lia). assert (m < 1) by lia. lia.
Qed.
Definition rx_conn (irs : Z) (P : bytes) (c : conn) : Prop := rx_inv irs 0 P (concat (c_read c)) (c_sess c).
Lemma rx_weak irs from P D s : 0 <= irs -> from >= 0 -> rx_inv irs from P D s -> rx_inv irs 0 P D s.
Proof.
  intros I F [(R0 & R)|(R1 & R2 & R)]; [left; split; [lia|exact R]|right]. unfold rx_sync. split; [auto|]. split; [lia|exact R].
Qed.
Lemma rx_reach irs P iss c0 c : 0 <= irs < 2 ^ 32 -> opened iss c0 -> reach (peer_op irs P) c0 c -> rx_conn irs P c.
Proof.
  intros I O. apply (reach_ind_moves false iss (peer_op irs P) c0 (rx_conn irs P)); auto.
  - intros o x _ X. discriminate.
  - destruct O as (_ & call & lip & lport & rip & rport & timers & K & _ & ->).
    left. destruct K as [-> | ->]; cbn; repeat split; auto; lia.
  - intros o x x' A [G _] _ R M. unfold rx_conn in *. destruct o; cbn [moves] in M.
    + destruct M as ((e & E & S) & -> & _). injection E as <-. eapply rx_steps; eauto; [lia|apply G|discriminate].
    + destruct M as ((e & E & S) & -> & _). injection E as <-. eapply (rx_weak _ (Z.max (rcv_nxt (c_sess x)) (irs + 1))); [lia|lia|].
      eapply rx_steps; eauto; [lia|apply G| |apply (rx_from _ 0); auto; lia].
      intros q Q. injection Q as <-. eapply peer_placed; eauto.
    + destruct M as ((e & E & S) & -> & _). injection E as <-. eapply rx_steps; eauto; [lia|apply G|discriminate].
    + destruct M as [->|(_ & -> & -> & _)]; [exact R|]. eapply rx_inv_same; [| | | | |exact R]; reflexivity.
    + destruct M as (_ & b & v & d & -> & -> & E). rewrite concat_app. destruct R as [(R0 & R1 & R2 & R3 & R)|(R1 & R2 & (y & R3 & R4) & R5)].
      * left. sx. split; [auto|]. split; [auto|]. split; [auto|]. rewrite <- app_assoc, E. auto.
      * right. unfold rx_sync. sx. split; [auto|]. split; [auto|]. split; [|auto]. exists y. rewrite <- app_assoc, E. auto.
Qed.
Lemma received_prefix irs P iss c0 c : 0 <= irs < 2 ^ 32 -> opened iss c0 -> reach (peer_op irs P) c0 c -> prefix (received c) P.
Proof.
  intros I O R. destruct (rx_reach irs P iss c0 c I O R) as [(_ & _ & _ & E & _)|(_ & _ & (b & E & _) & _)]; unfold received; [rewrite E; exists P; reflexivity|].
  rewrite E. exists (skipn (length (concat (c_read c) ++ rx_buf (c_sess c))) P). symmetry. apply firstn_skipn.
Qed.
Lemma read_prefix irs P iss c0 c : 0 <= irs < 2 ^ 32 -> opened iss c0 -> reach (peer_op irs P) c0 c -> prefix (concat (c_read c)) P.
Proof.
  intros I O R. destruct (received_prefix irs P iss c0 c I O R) as [r E]. unfold received in E. exists (rx_buf (c_sess c) ++ r). rewrite app_assoc. exact E.
Qed.
