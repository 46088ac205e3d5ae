(** The window and the ticks. *)
From Verif Require Import Base BaseLemmas AddrModel TcpModel StackModel StackRxModel SessModel SpecSess SessProofs SessTrace SessRun SessInv SessTx SessKeep.

(** * What is sent stays within the window or within one segment *)
Definition w_inv (s : sess) : Prop := snd_ewn s <= Z.max (snd_mss s) (snd_wnd s) /\ 0 <= snd_mss s <= LOCAL_TCP_MSS.
Definition good_mss (e : event) : Prop := forall p, e = EPacket p -> 0 <= d_mss p.
Definition within (u m w : Z) (t : tcp_tx) : Prop := x_data t = [] \/ zlen (x_data t) <= m /\ x_seq t + zlen (x_data t) <= u + Z.max m w.
Lemma w_step strict e a b : pstep strict e a b -> good_mss e -> w_inv a -> w_inv b.
Proof.
  intros S G H. unfold LOCAL_TCP_MSS in *. destruct S; try exact H; unfold w_inv in *.
  - specialize (G p H0). sx. unfold LOCAL_TCP_MSS in *. lia.
  - specialize (G p H0). unfold acked, synchronise. sx. unfold LOCAL_TCP_MSS in *. lia.
  - destruct H0 as [[_ ->]|(_ & _ & ->)]; exact H.
  - assert (H' : w_inv s) by (destruct H0 as [[_ ->]|(_ & _ & ->)]; exact H). unfold w_inv in H'. unfold acked. sx. lia.
  - rewrite rewind_eq. sx. lia.
  - rewrite rewind_eq. unfold pkt. sx. lia.
Qed.
Lemma pkt_sent t q syn ack fin rst data s : In t (sent (pkt q syn ack fin rst data s)) -> In t (sent s) \/ t = segment s q syn ack fin rst data.
Proof. unfold pkt. cbn [sent]. intros H. apply in_app_iff in H. destruct H as [H|[H|[]]]; auto. Qed.
Lemma py_slice_le a b (l : bytes) : 0 <= a -> a <= b -> zlen (py_slice a b l) <= b - a.
Proof.
  intros A B. unfold py_slice, py_end. destruct (b <? 0) eqn:E; [apply Z.ltb_lt in E; lia|]. unfold slice, zlen. rewrite firstn_length. lia.
Qed.
Lemma data_step n e a b : pstep true e a b -> pre true n a -> w_inv a ->
  (forall t, In t (sent b) -> In t (sent a) \/ x_data t = [] \/ e = ETimer /\ within (snd_una a) (snd_mss a) (snd_wnd a) t) /\
  (e = ETimer -> snd_una b = snd_una a /\ snd_mss b = snd_mss a /\ snd_wnd b = snd_wnd a).
Proof.
  intros S P H.
  assert (SAME : b = a \/ sent b = sent a -> forall t, In t (sent b) -> In t (sent a) \/ x_data t = [] \/ e = ETimer /\ within (snd_una a) (snd_mss a) (snd_wnd a) t) by (intros [-> | ->]; auto).
  destruct S; try (split; [apply SAME; right; reflexivity|intros; repeat split; reflexivity]).
  - split; [|auto]. intros t T. apply (pkt_sent t (snd_una s) false true false true [] s) in T. destruct T as [T| ->]; [left; exact T|right; left; reflexivity].
  - split; [apply SAME; right; reflexivity|]. intros ->. discriminate.
  - split; [apply SAME; right; reflexivity|]. intros ->. discriminate.
  - split; [apply SAME; right|intros ->]; destruct H0 as [[X ->]|([_ [p0 X]] & _ & ->)]; try reflexivity; try congruence; auto.
  - split; [apply SAME; right|intros ->]; destruct H0 as [[X ->]|([_ [p0 X]] & _ & ->)]; try reflexivity; try congruence.
  - split; [apply SAME; right; rewrite rewind_eq; reflexivity|]. intros _. rewrite rewind_eq. auto.
  - split; [|intros _; rewrite rewind_eq; auto]. intros t T. apply pkt_sent in T. destruct T as [T| ->]; [left; rewrite rewind_eq in T; exact T|right; left; reflexivity].
  - split; [|auto]. intros t T. apply pkt_sent in T. destruct T as [T| ->]; auto. right. unfold sends in H0.
    destruct syn, ack, fin; try (destruct H0; fail); try (left; apply H0).
    destruct H0 as [->|(ET & U & K & L & D)]; [left; reflexivity|]. right. split; [exact ET|]. right.
    destruct P as [P0 PS]. destruct (PS eq_refl) as [_ SH]. destruct P0 as (Q1 & Q2 & _).
    assert (M : tx_mod s = snd_una s) by (unfold shape in SH; destruct U as [U|U]; rewrite U in SH; tauto).
    unfold within. cbn [x_data x_seq segment]. cbv zeta in L, D. set (len := Z.min (Z.min (snd_mss s) (snd_ewn s - tx_buf_nxt s)) (zlen (tx_buf s) - tx_buf_nxt s)) in *.
    assert (N : tx_buf_nxt s = snd_nxt s - snd_una s) by (unfold tx_buf_nxt; lia).
    destruct (Z_lt_le_dec len 0) as [NEG|POS].
    + exfalso. assert (R : snd_max s <= snd_una s + zlen (tx_buf s)) by (unfold shape in SH; destruct U as [U|U]; rewrite U in SH; tauto).
      destruct H as [_ H2]. lia.
    + rewrite D. pose proof (py_slice_le (tx_buf_nxt s) (tx_buf_nxt s + len) (tx_buf s)) as B. destruct H as [G1 G2]. lia.
  - split; [apply SAME; right; reflexivity|]. intros ->. discriminate.
Qed.

Lemma within_steps n e a b : steps true e a b -> pre true n a -> good_mss e -> w_inv a ->
  w_inv b /\ forall t, In t (sent b) -> In t (sent a) \/ x_data t = [] \/ e = ETimer /\ within (snd_una a) (snd_mss a) (snd_wnd a) t.
Proof.
  intros S. induction S as [s|a b c S SS IH]; intros P G W; [auto|].
  pose proof (pre_step _ _ _ _ _ S P) as P1. pose proof (w_step _ _ _ _ S G W) as W1. destruct (IH P1 G W1) as [W2 T2].
  split; [exact W2|]. destruct (data_step n e a b S P W) as [T1 F1]. intros t T. apply T2 in T. destruct T as [T|[T|[E T]]]; [auto|auto|].
  destruct (F1 E) as (E1 & E2 & E3). rewrite E1, E2, E3 in T. auto.
Qed.
Lemma w_reach iss c0 c : opened iss c0 -> reach (sane_op iss) c0 c -> w_inv (c_sess c).
Proof.
  intros O R. revert c R. apply (reach_ind_moves true iss (sane_op iss) c0 (fun c => w_inv (c_sess c)) O (sane_ok iss)).
  - destruct O as (_ & call & lip & lport & rip & rport & timers & K & N & ->). unfold w_inv, LOCAL_TCP_MSS. destruct K as [-> | ->]; cbn; lia.
  - intros o c c' A [P I] _ W M. destruct o; cbn [moves op_event] in M.
    1-3: destruct M as ((e & E & S) & _); injection E as <-; eapply within_steps; eauto; intros q Q; try discriminate Q; injection Q as <-; apply A.
    + destruct M as [->|(_ & -> & _)]; exact W.
    + destruct M as (_ & b & w & d & -> & _). exact W.
Qed.
Lemma within_reach iss c0 c o t : opened iss c0 -> reach (sane_op iss) c0 c -> sane_op iss o c ->
  In t (sent (c_sess (fst (op_do o c)))) -> In t (sent (c_sess c)) \/ x_data t = [] \/
  (snd_mss (c_sess c) <= 1460 /\ zlen (x_data t) <= snd_mss (c_sess c) /\
   x_seq t + zlen (x_data t) <= snd_una (c_sess c) + Z.max (snd_mss (c_sess c)) (snd_wnd (c_sess c))).
Proof.
  intros O R A T. pose proof (reach_good true iss (sane_op iss) c0 c O (sane_ok iss) R) as G. pose proof (w_reach iss c0 c O R) as W.
  pose proof (op_moves true iss o c G (fun _ => A)) as M. destruct G as [P I]. destruct o; cbn [moves op_event] in M.
  1-3: destruct M as ((e & E & S) & _); injection E as <-; eapply within_steps in S; eauto;
    [|intros q Q; try discriminate Q; injection Q as <-; apply A]; destruct S as [_ S]; destruct (S t T) as [X|[X|[X [Y|Y]]]]; auto;
    right; right; destruct W as [_ W]; unfold LOCAL_TCP_MSS in W; lia.
  - destruct M as [E|(_ & E & _)]; rewrite E in T; auto.
  - destruct M as (_ & b & w & d & E & _). rewrite E in T. auto.
Qed.

(** * What the window is *)
Lemma window_taken p s : st s = ESTABLISHED -> ooo s = [] -> is_ack p = true -> fits p s = true -> zlen (d_data p) <= RCV_WND ->
  next_in p s && (d_ackn p =? snd_una s) && no_data p = false ->
  let s' := fst (tcp_fsm (EPacket p) s) in snd_una s' = d_ackn p /\ snd_wnd s' = d_win p * snd_wsc s /\ snd_mss s' = snd_mss s.
Proof.
  intros E O A F L N. cbv zeta. unfold tcp_fsm. cbn [fsm]. rewrite E. cbn [fsm_established]. rewrite A. unfold pif, pwhen, pif.
  assert (NX : d_seq p = rcv_nxt s) by (unfold fits, next_in in F; apply andb_true_iff in F; destruct F as [F _]; apply Z.eqb_eq in F; exact F).
  assert (AK : snd_una s <= d_ackn p) by (unfold fits, ack_ok in F; rewrite !andb_true_iff, !Z.leb_le in F; lia).
  rewrite N, F. replace (rcv_nxt s <? d_seq p) with false by (symmetry; apply Z.ltb_ge; lia). cbn [andb].
  replace ((rcv_nxt s <=? d_seq p) && (d_seq p <=? rcv_nxt s + RCV_WND - zlen (d_data p))) with true by (symmetry; apply andb_true_iff; rewrite !Z.leb_le; lia).
  cbn [negb]. rewrite process_eq. cbv zeta.
  change (ooo (acked p s)) with (ooo s). rewrite O. cbn [dget fst]. change (snd_una (acked p s)) with (Z.max (snd_una s) (d_ackn p)).
  split; [lia|split; reflexivity].
Qed.
