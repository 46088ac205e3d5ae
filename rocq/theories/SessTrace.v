(** The steps a session takes, what every step preserves, and that every call of the state
    machine is a sequence of such steps. *)
From Verif Require Import Base BaseLemmas AddrModel TcpModel StackModel StackRxModel SessModel SessProofs.

Definition keys_below {A} (n : Z) (d : dict A) : Prop := forall k v, In (k, v) d -> k < n.
(** where the packet being handled comes from: the event, or the out of order queue *)
Definition origin (e : event) (p : tmd) (s0 s : sess) : Prop :=
  (e = EPacket p /\ s = s0) \/ ((In (d_seq p, p) (ooo s0) /\ exists p0, e = EPacket p0) /\ d_seq p = rcv_nxt s0 /\ s = set_ooo (ddel (d_seq p) (ooo s0)) s0).
(** the segments whose acknowledgement number and data are taken *)
Definition takes (p : tmd) (s : sess) : Prop :=
  match st s with
  | SYN_RCVD => is_ack p = true /\ d_seq p = rcv_nxt s /\ d_ackn p = snd_nxt s /\ no_data p = true
  | ESTABLISHED | FIN_WAIT_1 | FIN_WAIT_2 => (is_ack p = true \/ is_finack p = true) /\ fits p s = true
  | CLOSE_WAIT => is_ack p = true /\ fits p s = true /\ no_data p = true
  | _ => False
  end.
Definition moved (n : fsm_state) (s : sess) : sess := set_st n (set_hist (hist s ++ [(st s, n)]) s).
(** giving up: the reset and the way out *)
Definition gone (s : sess) : sess :=
  let up := in_state [ESTABLISHED; FIN_WAIT_1; FIN_WAIT_2; CLOSE_WAIT] s in
  let opens := in_state [SYN_SENT] s in
  set_ev_rx (if up then ev_rx s + 1 else ev_rx s) (set_ev_conn (if opens then ev_conn s + 1 else ev_conn s)
    (set_conn_err (if up || opens then TimedOut else conn_err s) (moved CLOSED (pkt (snd_una s) false true false true [] s)))).
(** what any run respects when changing state *)
Definition may0 (n : fsm_state) (s : sess) : Prop :=
  match n with
  | CLOSED => True
  | LISTEN | SYN_SENT => False
  | SYN_RCVD => st s = LISTEN /\ rcv_ini s < rcv_nxt s
  | ESTABLISHED => (st s = SYN_SENT \/ st s = SYN_RCVD) /\ rcv_ini s < rcv_nxt s
  | _ => rcv_ini s < rcv_nxt s
  end.
(** and what it respects when the peer never acknowledges the initial sequence number itself *)
Definition may (e : event) (n : fsm_state) (s : sess) : Prop :=
  match st s, n with
  | LISTEN, SYN_RCVD => exists p, e = EPacket p /\ is_syn p = true
  | SYN_SENT, ESTABLISHED => exists p, e = EPacket p /\ is_synack p = true /\ snd_ini s < snd_una s
  | SYN_RCVD, ESTABLISHED => exists p, e = EPacket p /\ is_ack p = true /\ snd_ini s < snd_una s
  | ESTABLISHED, FIN_WAIT_1 | CLOSE_WAIT, LAST_ACK => e = ETimer /\ closing s = true /\ tx_buf s = []
  | ESTABLISHED, CLOSE_WAIT => exists p, e = EPacket p /\ is_finack p = true
  | FIN_WAIT_1, FIN_WAIT_2 | FIN_WAIT_2, FIN_WAIT_2 => exists p, e = EPacket p /\ d_ack p = true /\ (snd_fin s = 0 \/ is_ack p = true /\ snd_fin s <= d_ackn p)
  | FIN_WAIT_1, CLOSING => exists p, e = EPacket p /\ is_finack p = true /\ d_ackn p < snd_fin s
  | FIN_WAIT_1, TIME_WAIT => exists p, e = EPacket p /\ is_finack p = true /\ snd_fin s <= d_ackn p
  | FIN_WAIT_2, TIME_WAIT => exists p, e = EPacket p /\ is_finack p = true
  | CLOSING, TIME_WAIT => exists p, e = EPacket p /\ is_ack p = true /\ d_ackn p = snd_nxt s
  | LISTEN, CLOSED => e = ECall Close
  | SYN_SENT, CLOSED => e = ECall Close \/ (exists p, e = EPacket p /\ is_rstack p = true)
  | SYN_RCVD, CLOSED => exists p, e = EPacket p /\ (is_rstack p = true \/ is_rst p = true)
  | ESTABLISHED, CLOSED | FIN_WAIT_1, CLOSED | FIN_WAIT_2, CLOSED | CLOSING, CLOSED => exists p, e = EPacket p /\ is_rstack p = true
  | CLOSE_WAIT, CLOSED => exists p, e = EPacket p /\ is_rst p = true
  | LAST_ACK, CLOSED => exists p, e = EPacket p /\ (is_rstack p = true \/ is_ack p = true /\ d_ackn p = snd_nxt s)
  | TIME_WAIT, CLOSED => e = ETimer /\ expired TTimeWait (tmr s) = true
  | _, _ => False
  end.
(** what is sent, apart from resets *)
Definition sends (e : event) (s : sess) (syn ack fin : bool) (data : bytes) : Prop :=
  match syn, ack, fin with
  | true, false, false => e = ETimer /\ st s = SYN_SENT /\ snd_nxt s = snd_ini s /\ data = []
  | true, true, false => e = ETimer /\ st s = SYN_RCVD /\ snd_nxt s = snd_ini s /\ data = []
  | false, true, true => e = ETimer /\ (st s = FIN_WAIT_1 \/ st s = LAST_ACK) /\ snd_nxt s <> snd_fin s /\ data = []
  | false, true, false =>
      data = [] \/
      (e = ETimer /\ (st s = ESTABLISHED \/ st s = CLOSE_WAIT) /\ snd_una s <= snd_nxt s <= snd_una s + snd_ewn s /\
       let len := Z.min (Z.min (snd_mss s) (snd_ewn s - tx_buf_nxt s)) (zlen (tx_buf s) - tx_buf_nxt s) in
       len <> 0 /\ data = py_slice (tx_buf_nxt s) (tx_buf_nxt s + len) (tx_buf s))
  | _, _, _ => False
  end.

Inductive pstep (strict : bool) (e : event) : sess -> sess -> Prop :=
| ps_dec s : e = ETimer -> pstep strict e s (set_tmr (tdec (tmr s)) s)
| ps_tmr k v s : (k = TDelayedAck -> v = DELAYED_ACK_DELAY /\ rcv_nxt s <= rcv_una s) -> pstep strict e s (set_tmr (tset k v (tmr s)) s)
| ps_txreq d s : pstep strict e s (set_tx_req d s)
| ps_rxreq d s : (st s = ESTABLISHED \/ st s = CLOSE_WAIT) -> (forall k v, In (k, v) d -> In (k, v) (rx_req s) \/ k = rcv_nxt s) -> pstep strict e s (set_rx_req d s)
| ps_rx s : pstep strict e s (set_ev_rx (ev_rx s + 1) s)
| ps_conn s : pstep strict e s (set_ev_conn (ev_conn s + 1) s)
| ps_err x s : pstep strict e s (set_conn_err x s)
| ps_eff s : st s = ESTABLISHED -> pstep strict e s (set_effs (effs s ++ [FAccept]) s)
| ps_closing s : pstep strict e s (set_closing true s)
| ps_unreg s : st s = CLOSED -> pstep strict e s (set_reg false s)
| ps_go n s : may0 n s -> (strict = true -> may e n s) -> pstep strict e s (moved n s)
| ps_gone s : e = ETimer -> In (st s) [SYN_SENT; SYN_RCVD; ESTABLISHED; FIN_WAIT_1; CLOSE_WAIT; LAST_ACK] ->
    dget (snd_una s) (tx_to s) = Some RETRANSMIT_MAX -> tcp_tx_ok (segment s (snd_una s) false true false true []) = true ->
    pstep strict e s (gone s)
| ps_adopt p s : e = EPacket p -> st s = LISTEN -> is_syn p = true -> no_data p = true -> (strict = true -> 0 <= d_mss p) -> pstep strict e s (adopt p s)
| ps_sync p s : e = EPacket p -> st s = SYN_SENT -> is_synack p = true -> no_data p = true -> d_ackn p = snd_nxt s ->
    (strict = true -> d_ackn p <> snd_ini s) -> pstep strict e s (acked p (synchronise p s))
| ps_pop p s0 s : origin e p s0 s -> pstep strict e s0 s
| ps_ack p s0 s : origin e p s0 s -> takes p s -> (strict = true -> st s = SYN_RCVD -> d_ackn p <> snd_ini s) -> pstep strict e s0 (acked p s)
| ps_store p s : e = EPacket p -> (st s = ESTABLISHED \/ st s = CLOSE_WAIT) -> is_ack p = true -> rcv_nxt s < d_seq p -> ack_ok p s = true ->
    (st s = ESTABLISHED -> d_seq p <= rcv_nxt s + RCV_WND - zlen (d_data p)) -> pstep strict e s (set_ooo (dset (d_seq p) p (ooo s)) s)
| ps_rerequest s : (st s = ESTABLISHED \/ st s = CLOSE_WAIT) -> pstep strict e s (set_snd_nxt (snd_una s) s)
| ps_rewind c s : e = ETimer -> In (st s) [SYN_SENT; SYN_RCVD; ESTABLISHED; FIN_WAIT_1; CLOSE_WAIT; LAST_ACK] ->
    dget (snd_una s) (tx_to s) = Some c -> c <> RETRANSMIT_MAX ->
    (strict = true -> ~ In (st s) [SYN_SENT; SYN_RCVD]) -> pstep strict e s (rewind s)
| ps_resyn c s : e = ETimer -> In (st s) [SYN_SENT; SYN_RCVD] -> dget (snd_una s) (tx_to s) = Some c -> c <> RETRANSMIT_MAX -> snd_una s = snd_ini s ->
    pstep strict e s (pkt (snd_ini s) true (in_state [SYN_RCVD] s) false false [] (rewind s))
| ps_send syn ack fin data s : sends e s syn ack fin data -> tcp_tx_ok (segment s (snd_nxt s) syn ack fin false data) = true ->
    pstep strict e s (pkt (snd_nxt s) syn ack fin false data s)
| ps_una p s : e = EPacket p -> st s = CLOSING -> d_ackn p = snd_nxt s -> pstep strict e s (set_snd_una (d_ackn p) s).
Inductive steps (strict : bool) (e : event) : sess -> sess -> Prop :=
| steps_0 s : steps strict e s s
| steps_1 a b c : pstep strict e a b -> steps strict e b c -> steps strict e a c.
Lemma steps_app strict e a b c : steps strict e a b -> steps strict e b c -> steps strict e a c.
Proof. induction 1; eauto using steps. Qed.
Lemma steps_one strict e a b : pstep strict e a b -> steps strict e a b.
Proof. eauto using steps. Qed.

(** * The invariant of the trace *)
Definition ooo_ok (s : sess) : Prop :=
  forall k q, In (k, q) (ooo s) -> k = d_seq q /\ is_ack q = true.
(** the handshake *)
Definition opening (s : sess) : Prop :=
  tx_buf s = [] /\ snd_fin s = 0 /\ keys_below (snd_max s) (tx_to s) /\
  tx_mod s = snd_nxt s /\ snd_nxt s = snd_max s /\ snd_max s <= snd_ini s + 1 /\ (snd_una s = snd_ini s -> 0 <= snd_mss s) /\
  (snd_max s = snd_ini s + 1 -> tcp_tx_ok (segment s (snd_ini s) true (in_state [SYN_RCVD] s) false false []) = true).
(** [n] is the number of bytes written so far *)
Definition shape (n : Z) (s : sess) : Prop :=
  match st s with
  | CLOSED => True
  | LISTEN => opening s /\ snd_max s = snd_ini s /\ n = 0
  | SYN_SENT | SYN_RCVD => opening s /\ n = 0
  | ESTABLISHED | CLOSE_WAIT =>
      snd_fin s = 0 /\ keys_below (snd_max s) (tx_to s) /\ tx_mod s = snd_una s /\ snd_ini s < snd_una s /\
      snd_max s <= snd_una s + zlen (tx_buf s) /\ snd_una s + zlen (tx_buf s) = snd_ini s + 1 + n /\
      (forall k q, In (k, q) (ooo s) -> d_ackn q <= snd_max s)
  | FIN_WAIT_1 | FIN_WAIT_2 | CLOSING | LAST_ACK | TIME_WAIT =>
      tx_buf s = [] /\ keys_below (snd_max s) (tx_to s) /\ snd_ini s + 1 + n <= snd_una s /\
      (snd_fin s = 0 /\ snd_max s = snd_ini s + 1 + n \/ snd_fin s = snd_ini s + 2 + n /\ snd_max s = snd_ini s + 2 + n) /\
      (forall k q, In (k, q) (ooo s) -> d_ackn q <= snd_ini s + 1 + n)
  end.
Ltac sx := cbn [s_lip s_lport s_rip s_rport st snd_ini snd_nxt snd_max snd_una snd_fin snd_mss snd_wnd snd_ewn snd_wsc tx_mod rcv_ini rcv_nxt rcv_una tx_buf rx_buf tx_req tx_to rx_req ooo closing conn_err ev_conn ev_rx tmr reg sent hist effs
 set_s_lip set_s_lport set_s_rip set_s_rport set_st set_snd_ini set_snd_nxt set_snd_max set_snd_una set_snd_fin set_snd_mss set_snd_wnd set_snd_ewn set_snd_wsc set_tx_mod set_rcv_ini set_rcv_nxt set_rcv_una set_tx_buf set_rx_buf set_tx_req set_tx_to set_rx_req set_ooo set_closing set_conn_err set_ev_conn set_ev_rx set_tmr set_reg set_sent set_hist set_effs acked pkt adopt synchronise rewind moved] in *.
Lemma rewind_eq s : rewind s =
  set_tx_mod (if (snd_una s =? snd_ini s) || (snd_una s =? snd_fin s) then tx_mod s - 1 else tx_mod s) (set_snd_nxt (snd_una s) (set_snd_ewn (snd_mss s) s)).
Proof. unfold rewind. destruct s. sx. destruct (_ || _); reflexivity. Qed.
Lemma gone_st s : st (gone s) = CLOSED.
Proof. reflexivity. Qed.
Definition pre0 (s : sess) : Prop :=
  snd_ini s <= snd_una s <= snd_nxt s /\ snd_nxt s <= snd_max s /\ ooo_ok s /\
  (In (st s) [LISTEN; SYN_SENT; SYN_RCVD] -> ooo s = []) /\
  (~ In (st s) [CLOSED; LISTEN; SYN_SENT] -> rcv_ini s < rcv_nxt s).
Lemma origin_ooo e p s0 s : origin e p s0 s -> forall x, In x (ooo s) -> In x (ooo s0).
Proof. intros [[_ ->]|(_ & _ & ->)]; sx; eauto using in_ddel. Qed.
Lemma origin_pre0 e p s0 s : origin e p s0 s -> pre0 s0 -> pre0 s.
Proof.
  intros O (H1 & H2 & H3 & H4 & H5). pose proof (origin_ooo _ _ _ _ O) as S.
  assert (E : ooo s0 = [] -> ooo s = []) by (intros E; rewrite E in S; destruct (ooo s) as [|x l]; [reflexivity|destruct (S x); left; reflexivity]).
  destruct O as [[_ ->]|(_ & _ & ->)]; [exact (conj H1 (conj H2 (conj H3 (conj H4 H5))))|].
  unfold pre0, ooo_ok in *. sx. repeat split; try apply H1; auto; apply S in H; apply H3 in H; apply H.
Qed.
Lemma ack_ok_iff p s : ack_ok p s = true <-> snd_una s <= d_ackn p <= snd_max s.
Proof. unfold ack_ok. rewrite andb_true_iff, !Z.leb_le. reflexivity. Qed.
Lemma fits_iff p s : fits p s = true <-> d_seq p = rcv_nxt s /\ snd_una s <= d_ackn p <= snd_max s.
Proof. unfold fits, next_in. rewrite andb_true_iff, Z.eqb_eq, ack_ok_iff. reflexivity. Qed.
Lemma no_data_iff p : no_data p = true <-> d_data p = [].
Proof. unfold no_data. rewrite Z.eqb_eq. split; [apply zlen_zero_nil|intros ->; reflexivity]. Qed.
Lemma takes_ack p s : snd_una s <= snd_nxt s <= snd_max s -> takes p s -> snd_una s <= d_ackn p <= snd_max s /\ d_seq p = rcv_nxt s.
Proof.
  intros H. unfold takes. destruct (st s); rewrite ?fits_iff; intros T; try contradiction; intuition lia.
Qed.
Lemma acked_order p s : snd_una s <= snd_nxt s <= snd_max s -> d_ackn p <= snd_max s ->
  snd_una s <= snd_una (acked p s) <= snd_nxt (acked p s) /\ snd_nxt (acked p s) <= snd_max (acked p s).
Proof.
  intros H K. sx. destruct ((_ <? _) && (_ <=? _)) eqn:E; [lia|].
  apply andb_false_iff in E. rewrite Z.ltb_ge, Z.leb_gt in E. lia.
Qed.
Lemma sx_st l (s : sess) : In (st s) l -> in_state l s = true.
Proof. apply in_state_iff. Qed.
Lemma b2z_pos b : 0 <= b2z b <= 1.
Proof. destruct b; cbn; lia. Qed.
Ltac sp := refine (conj _ (conj _ (conj _ (conj _ _)))).
Lemma pre0_step strict e a b : pstep strict e a b -> pre0 a -> pre0 b.
Proof.
  intros H (P1 & P2 & P3 & P4 & P5). destruct H.
  all: try (unfold pre0, ooo_ok in *; sx; sp; auto; fail).
  - (* go *) unfold pre0, ooo_ok in *; sx. sp; try apply P1; auto.
    + intros [<-|[<-|[<-|[]]]]; cbn in H; try contradiction. apply P4. rewrite (proj1 H). cbn. auto.
    + intros N. destruct n; cbn in H; try apply H; try (destruct N; cbn; auto; fail).
  - (* gone *) unfold gone, pre0, ooo_ok in *. sx. rewrite zlen_nil. cbn [b2z].
    sp; try lia; auto. intros [E|[E|[E|[]]]]; discriminate. intros N. destruct N. cbn. auto.
  - (* adopt *) unfold pre0, ooo_ok in *. sx. sp; auto; try apply P1.
    rewrite H0. cbn. tauto.
  - (* sync *) unfold pre0. pose proof (acked_order p (synchronise p s)) as A. assert (X : d_ackn p <= snd_max s) by lia.
    specialize (A (conj (proj2 P1) P2) X). unfold ooo_ok in *. sx. sp; try lia; auto. intros N. rewrite H0 in N. cbn in N. tauto.
  - (* pop *) eapply origin_pre0; eauto. exact (conj P1 (conj P2 (conj P3 (conj P4 P5)))).
  - (* ack *) assert (Q : pre0 s) by (eapply origin_pre0; eauto; exact (conj P1 (conj P2 (conj P3 (conj P4 P5))))).
    destruct Q as (Q1 & Q2 & Q3 & Q4 & Q5). destruct (takes_ack p s) as [T1 T2]; [lia|auto|].
    pose proof (acked_order p s) as A. specialize (A (conj (proj2 Q1) Q2) (proj2 T1)).
    unfold pre0, ooo_ok in *. sx. sp; try lia; auto; auto.
    intros N. apply Q5 in N. pose proof (zlen_nonneg (d_data p)). pose proof (b2z_pos (d_syn p)). pose proof (b2z_pos (d_fin p)). lia.
  - (* store *) unfold pre0, ooo_ok in *. sx.
    assert (NI : In (st s) [LISTEN; SYN_SENT; SYN_RCVD] -> False) by (intros [E|[E|[E|[]]]]; destruct H0; congruence).
    sp; try apply P1; auto; try tauto; intros k q H5; apply in_dset in H5; (destruct H5 as [H5|H5]; [injection H5 as -> ->; auto|]; apply P3; auto).
  - (* rerequest *) unfold pre0, ooo_ok in *. sx. sp; try lia; auto.
  - (* rewind *) rewrite rewind_eq. unfold pre0, ooo_ok in *. sx. sp; try lia; auto.
  - (* resyn *) rewrite rewind_eq. unfold pre0, ooo_ok in *. sx. rewrite zlen_nil. cbn [b2z]. sp; try lia; auto.
  - (* send *) unfold pre0, ooo_ok in *. sx. pose proof (zlen_nonneg data). pose proof (b2z_pos syn). pose proof (b2z_pos fin).
    sp; try lia; auto.
  - (* una *) unfold pre0, ooo_ok in *. sx. sp; try lia; auto.
Qed.
Lemma py_slice_len {A} a b (l : list A) : 0 <= a -> zlen (py_slice a b l) <= Z.max 0 (zlen l - a).
Proof. intros H. unfold py_slice, slice, zlen. rewrite firstn_length, skipn_length. lia. Qed.
Lemma keys_mono {A} n m (d : dict A) : n <= m -> keys_below n d -> keys_below m d.
Proof. intros H K k v I. specialize (K k v I). lia. Qed.
Lemma keys_set {A} n k (v : A) d : k < n -> keys_below n d -> keys_below n (dset k v d).
Proof. intros H K j w I. apply in_dset in I. destruct I as [I|I]; [injection I as -> ->; auto|]. exact (K j w I). Qed.
Lemma keys_purge {A} n k (d : dict A) : keys_below n d -> keys_below n (dpurge k d).
Proof. intros K j w I. apply in_dpurge in I. exact (K j w (proj1 I)). Qed.
Lemma ini_step strict e a b : pstep strict e a b -> snd_ini b = snd_ini a.
Proof. destruct 1; try reflexivity; try (rewrite rewind_eq; reflexivity); destruct H as [[_ ->]|(_ & _ & ->)]; reflexivity. Qed.
Lemma slice_from_short {A} a (l : list A) : a = 0 -> slice_from a l = l.
Proof. intros ->. apply slice_from_0. Qed.
Lemma slice_from_nil {A} a : slice_from a (@nil A) = [].
Proof. unfold slice_from. apply skipn_nil. Qed.

Lemma shape_origin e p s0 s n : origin e p s0 s -> shape n s0 -> shape n s.
Proof.
  intros O S. pose proof (origin_ooo _ _ _ _ O) as I. destruct O as [[_ ->]|(_ & _ & ->)]; [exact S|].
  unfold shape, opening, segment, in_state in *; sx. destruct (st s0); intuition eauto.
Qed.
Lemma acked_shape e p s0 s n : origin e p s0 s -> takes p s -> (st s = SYN_RCVD -> d_ackn p <> snd_ini s) -> pre0 s -> shape n s -> shape n (acked p s).
Proof.
  intros O T NE (P1 & P2 & P3 & P4 & P5) S. destruct (takes_ack p s) as [T1 T2]; [lia|auto|].
  pose proof (acked_order p s (conj (proj2 P1) P2) (proj2 T1)) as A.
  unfold takes in T. unfold shape, opening, in_state, segment in *. sx. destruct (st s) eqn:ST; try contradiction; cbn [existsb fsm_eqb orb] in *.
  - (* SYN_RCVD *)
    specialize (NE eq_refl). destruct T as (T3 & _ & T4 & T5). apply no_data_iff in T5.
    destruct S as ((B1 & B2 & B3 & B4 & B5 & B6 & B7 & B8) & N).
    assert (F : d_syn p = false /\ d_fin p = false).
    { unfold is_ack in T3. destruct (d_ack p), (d_syn p), (d_rst p), (d_fin p); try discriminate T3; auto. }
    destruct F as [F1 F2]. rewrite F1, F2, T5, T2.
    change (zlen (@nil Z)) with 0. cbn [b2z]. rewrite !Z.add_0_r.
    repeat split; auto; try lia.
    + rewrite B1. apply slice_from_nil.
    + apply keys_purge. auto.
  - destruct S as (B1 & B2 & B3 & B4 & B5 & B6 & B7).
    repeat split; auto; try lia; try (apply keys_purge; auto); rewrite zlen_slice_from; lia.
  - destruct S as (B1 & B2 & B3 & B4 & B5). repeat split; auto; try lia; try (apply keys_purge; auto). rewrite B1. apply slice_from_nil.
  - destruct S as (B1 & B2 & B3 & B4 & B5). repeat split; auto; try lia; try (apply keys_purge; auto). rewrite B1. apply slice_from_nil.
  - destruct S as (B1 & B2 & B3 & B4 & B5 & B6 & B7).
    repeat split; auto; try lia; try (apply keys_purge; auto); rewrite zlen_slice_from; lia.
Qed.
Lemma in_state_1 x s : in_state [x] s = fsm_eqb (st s) x.
Proof. unfold in_state. cbn. apply orb_false_r. Qed.
Lemma shape_step n e a b : pstep true e a b -> pre0 a -> 0 <= snd_ini a -> shape n a -> shape n b.
Proof.
  intros H P I S. destruct H.
  all: try (unfold shape, opening, segment, in_state in *; sx; exact S).
  - (* go *) destruct P as (P1 & P2 & P3 & P4 & P5). specialize (H0 eq_refl). unfold may in H0. unfold shape, opening, in_state, segment in *; sx.
    destruct (st s) eqn:ST, n0; cbn [existsb fsm_eqb orb] in *; try contradiction; auto.
    + destruct S as (B & B0 & N). decompose [and] B. repeat split; auto. intros E. lia.
    + destruct H0 as (p & _ & _ & L). destruct S as (B & N). decompose [and] B.
      rewrite (P4 (or_intror (or_introl eq_refl))). rewrite H0. change (zlen (@nil Z)) with 0. repeat split; auto; try lia. intros k q [].
    + destruct H0 as (p & _ & _ & L). destruct S as (B & N). decompose [and] B.
      rewrite (P4 (or_intror (or_intror (or_introl eq_refl)))). rewrite H0. change (zlen (@nil Z)) with 0. repeat split; auto; try lia. intros k q [].
    + destruct H0 as (_ & _ & E). decompose [and] S. rewrite E in *. change (zlen (@nil Z)) with 0 in *.
      repeat split; auto; try lia.
    + destruct H0 as (_ & _ & E). decompose [and] S. rewrite E in *. change (zlen (@nil Z)) with 0 in *.
      repeat split; auto; try lia.
  - exact Logic.I.
  - (* adopt *) unfold shape, opening, in_state, segment in *; sx. rewrite H0 in *. destruct S as (B & B0 & N). decompose [and] B.
    repeat split; auto. + intros _. specialize (H3 eq_refl). unfold LOCAL_TCP_MSS. lia. + intros E. lia.
  - (* sync *) destruct P as (P1 & P2 & P3 & P4 & P5). specialize (H4 eq_refl).
    pose proof (acked_order p (synchronise p s)) as A. assert (X : d_ackn p <= snd_max s) by lia. specialize (A (conj (proj2 P1) P2) X).
    unfold shape, opening, in_state, segment in *; sx. rewrite H0 in *. cbn [existsb fsm_eqb orb] in *. destruct S as (B & N). decompose [and] B.
    repeat split; auto; try lia. + rewrite H5. apply slice_from_nil. + apply keys_purge; auto.
  - eapply shape_origin; eauto.
  - assert (Q : pre0 s) by (eapply origin_pre0; eauto). eapply acked_shape; eauto. eapply shape_origin; eauto.
  - (* store *) apply ack_ok_iff in H3. unfold shape, opening, in_state, segment in *; sx.
    destruct H0 as [E|E]; rewrite E in *; decompose [and] S; repeat split; auto;
    (intros k q K; apply in_dset in K; destruct K as [K|K]; [injection K as -> ->; lia|eauto]).
  - (* rerequest *) unfold shape, opening, in_state, segment in *; sx. destruct H as [E|E]; rewrite E in *; exact S.
  - (* rewind *) rewrite rewind_eq. destruct P as (P1 & P2 & P3 & P4 & P5). specialize (H3 eq_refl).
    unfold shape, opening, in_state, segment in *; sx. destruct (st s); try (destruct H3; cbn; auto; fail); auto;
    try (cbn in H0; repeat (destruct H0 as [H0|H0]; [discriminate H0|]); contradiction).
    + decompose [and] S. replace ((snd_una s =? snd_ini s) || (snd_una s =? snd_fin s)) with false. repeat split; auto.
      symmetry. apply orb_false_iff. rewrite !Z.eqb_neq. lia.
    + decompose [and] S. replace ((snd_una s =? snd_ini s) || (snd_una s =? snd_fin s)) with false. repeat split; auto.
      symmetry. apply orb_false_iff. rewrite !Z.eqb_neq. lia.
  - (* resyn *) rewrite rewind_eq. destruct P as (P1 & P2 & P3 & P4 & P5). apply dget_in in H1.
    unfold shape, opening, in_state, segment in *; sx. rewrite H3 in *. rewrite (Z.eqb_refl (snd_ini s)). cbn [orb].
    assert (M : snd_max s = snd_ini s + 1 -> Z.max (snd_max s) (snd_ini s + zlen (@nil Z) + b2z true + b2z false) = snd_max s)
      by (change (zlen (@nil Z)) with 0; cbn [b2z]; lia).
    destruct H0 as [E|[E|[]]]; rewrite <- E in *; cbn [existsb fsm_eqb orb negb] in *; destruct S as ((B1 & B2 & B3 & B4 & B5 & B6 & B7 & B8) & N);
    pose proof (B3 _ _ H1); rewrite M by lia; change (zlen (@nil Z)) with 0; cbn [b2z]; repeat split; auto; try lia; apply keys_set; auto; lia.
  - (* send *) destruct P as (P1 & P2 & P3 & P4 & P5). unfold sends in H. destruct syn, ack, fin; try contradiction.
    + destruct H as (-> & E & N & ->). unfold shape, opening, in_state, segment in *; sx. rewrite E in *. cbn [existsb fsm_eqb orb negb] in *.
      destruct S as (B & N0). decompose [and] B. change (zlen (@nil Z)) with 0; cbn [b2z].
      replace (snd_max s) with (snd_ini s) in * by lia. rewrite N in *. rewrite Z.max_r by lia. repeat split; auto; try lia.
      apply keys_set; [lia|]. apply (keys_mono (snd_ini s)); auto; lia.
    + destruct H as (-> & E & N & ->). unfold shape, opening, in_state, segment in *; sx. rewrite E in *. cbn [existsb fsm_eqb orb negb] in *.
      destruct S as (B & N0). decompose [and] B. change (zlen (@nil Z)) with 0; cbn [b2z].
      replace (snd_max s) with (snd_ini s) in * by lia. rewrite N in *. rewrite Z.max_r by lia. repeat split; auto; try lia.
      apply keys_set; [lia|]. apply (keys_mono (snd_ini s)); auto; lia.
    + destruct H as (-> & E & N & ->). unfold shape, opening, in_state, segment in *; sx. change (zlen (@nil Z)) with 0; cbn [b2z existsb orb negb].
      destruct E as [E|E]; rewrite E in *; cbn [existsb fsm_eqb orb negb]; decompose [and] S; repeat split; auto; try lia;
      (apply keys_set; [lia|]; apply (keys_mono (snd_max s)); auto; lia).
    + assert (L : data = [] \/ (st s = ESTABLISHED \/ st s = CLOSE_WAIT) /\ zlen data <= Z.max 0 (zlen (tx_buf s) - Z.max (snd_nxt s - tx_mod s) 0)).
      { destruct H as [->|(_ & E & _ & _ & ->)]; auto. right. split; auto. apply py_slice_len. unfold tx_buf_nxt. lia. }
      clear H. pose proof (zlen_nonneg (tx_buf s)) as NN. pose proof (zlen_nonneg data) as ND.
      unfold shape, opening, in_state, segment in *; sx. cbn [b2z]. rewrite !Z.add_0_r in *.
      destruct L as [->|(E & L)].
      * change (zlen (@nil Z)) with 0. cbn [Z.eqb negb orb]. rewrite Z.add_0_r. rewrite Z.max_l by lia. exact S.
      * assert (K : forall c, keys_below (snd_max s) (tx_to s) -> keys_below (Z.max (snd_max s) (snd_nxt s + zlen data))
           (if negb (zlen data =? 0) || false || false then dset (snd_nxt s) c (tx_to s) else tx_to s)).
        { intros c K0. destruct (zlen data =? 0) eqn:Z0; cbn [negb orb]; [|apply Z.eqb_neq in Z0; apply keys_set; [lia|]];
          apply (keys_mono (snd_max s)); auto; lia. }
        destruct E as [E|E]; rewrite E in *; decompose [and] S; repeat split; auto; try lia; intros k q Q; apply H7 in Q; lia.
  - (* una *) unfold shape, opening, in_state, segment in *; sx. rewrite H0 in *. decompose [and] S. destruct P as (P1 & P2 & P3 & P4 & P5). repeat split; auto; lia.
Qed.

Definition pre (strict : bool) (n : Z) (s : sess) : Prop :=
  pre0 s /\ (strict = true -> 0 <= snd_ini s /\ shape n s).
Lemma pre_step strict n e a b : pstep strict e a b -> pre strict n a -> pre strict n b.
Proof.
  intros H [P S]. split; [eapply pre0_step; eauto|]. intros ->. destruct (S eq_refl) as [I J].
  rewrite (ini_step _ _ _ _ H). split; [auto|]. eapply shape_step; eauto.
Qed.
Lemma pre_steps strict n e a b : steps strict e a b -> pre strict n a -> pre strict n b.
Proof. induction 1; eauto using pre_step. Qed.

(** * The trace of a call *)
Definition exn_ok (r : res unit) : Prop := match r with Ok _ | Exn AssertionError | Exn KeyError => True | _ => False end.
Definition run (strict : bool) (n : Z) (e : event) (s0 : sess) (r : sess * res unit) (Q : sess -> Prop) : Prop :=
  steps strict e s0 (fst r) /\ exn_ok (snd r) /\ (snd r = Ok tt -> pre strict n (fst r) -> Q (fst r)).
Lemma run_bind strict n e s0 (m : P unit) k s Q : pre strict n s0 ->
  run strict n e s0 (m s) (fun s' => run strict n e s' (k tt s') Q) -> run strict n e s0 (pbind m k s) Q.
Proof.
  intros P (H1 & H2 & H3). unfold pbind. destruct (m s) as [s1 [[]|x]]; cbn [fst snd] in *.
  - pose proof (pre_steps _ _ _ _ _ H1 P) as P1. destruct (H3 eq_refl P1) as (K1 & K2 & K3).
    split; [eapply steps_app; eauto|]. auto.
  - split; [auto|]. split; [auto|]. discriminate.
Qed.
Lemma run_ret strict n e s (Q : sess -> Prop) : (pre strict n s -> Q s) -> run strict n e s (pret tt s) Q.
Proof. intros H. split; [apply steps_0|]. split; [exact Logic.I|]. auto. Qed.
Lemma run_ok strict n e s s' (Q : sess -> Prop) : pstep strict e s s' -> (pre strict n s' -> Q s') -> run strict n e s (s', Ok tt) Q.
Proof. intros H K. split; [apply steps_one; auto|]. split; [exact Logic.I|]. auto. Qed.
Lemma run_do strict n e s f (Q : sess -> Prop) : pstep strict e s (f s) -> (pre strict n (f s) -> Q (f s)) -> run strict n e s (pdo f s) Q.
Proof. apply run_ok. Qed.
Lemma run_if strict n e s0 s c a b Q : (c s = true -> run strict n e s0 (a s) Q) -> (c s = false -> run strict n e s0 (b s) Q) -> run strict n e s0 (pif c a b s) Q.
Proof. unfold pif. destruct (c s); auto. Qed.
Lemma run_when strict n e s c a (Q : sess -> Prop) : (c s = true -> run strict n e s (a s) Q) -> (c s = false -> pre strict n s -> Q s) -> run strict n e s (pwhen c a s) Q.
Proof. intros H K. apply run_if; auto. intros E. apply run_ret; auto. Qed.
Lemma run_weak strict n e s0 r (Q R : sess -> Prop) : run strict n e s0 r Q -> (forall s, pre strict n s -> Q s -> R s) -> run strict n e s0 r R.
Proof. intros (H1 & H2 & H3) K. split; [auto|]. split; auto. Qed.
Lemma run_first strict n e s0 s r Q : pstep strict e s0 s -> run strict n e s r Q -> run strict n e s0 r Q.
Proof. intros H (H1 & H2 & H3). split; [econstructor; eauto|]. auto. Qed.
Lemma run_change strict n e m s (Q : sess -> Prop) : may0 m s -> (strict = true -> may e m s) ->
  (forall r, r = reg s \/ m = CLOSED -> Q (set_reg r (moved m s))) -> run strict n e s (change_state m s) Q.
Proof.
  intros H K L. unfold change_state. rewrite pbind_do. unfold pwhen, pif. rewrite in_state_1.
  change (set_st m (set_hist (hist s ++ [(st s, m)]) s)) with (moved m s). change (st (moved m s)) with m.
  assert (E : moved m s = set_reg (reg s) (moved m s)) by reflexivity.
  destruct (fsm_eqb m CLOSED) eqn:F.
  - apply fsm_eqb_eq in F. subst m. change (reg (moved CLOSED s)) with (reg s). destruct (reg s) eqn:R.
    + apply (run_first _ _ _ _ (moved CLOSED s)); [apply ps_go; auto|]. apply run_ok; [apply ps_unreg; reflexivity|]. auto.
    + split; [apply steps_one, ps_go; auto|]. split; [exact Logic.I|]. discriminate.
  - apply run_ok; [apply ps_go; auto|]. intros _. rewrite E. auto.
Qed.
Lemma run_send strict n e syn ack fin data s (Q : sess -> Prop) : sends e s syn ack fin data ->
  Q (pkt (snd_nxt s) syn ack fin false data s) -> run strict n e s (transmit_packet None syn ack fin false data s) Q.
Proof.
  intros H K. rewrite transmit_eq. cbn [seq_of]. destruct (tcp_tx_ok _) eqn:E.
  - apply run_ok; auto. apply ps_send; auto.
  - split; [apply steps_0|]. split; [exact Logic.I|]. discriminate.
Qed.
(** what the transmitting statements leave alone *)
Definition same (a b : sess) : Prop :=
  st b = st a /\ tx_buf b = tx_buf a /\ closing b = closing a /\ rcv_ini b = rcv_ini a /\ rcv_nxt b = rcv_nxt a /\ snd_fin b = snd_fin a /\ ooo b = ooo a.
Lemma same_refl s : same s s. Proof. repeat split. Qed.
Lemma same_pkt q syn ack rst data s : same s (pkt q syn ack false rst data s). Proof. repeat split. Qed.
Definition near (a b : sess) : Prop :=
  st b = st a /\ tx_buf b = tx_buf a /\ closing b = closing a /\ rcv_ini b = rcv_ini a /\ rcv_nxt b = rcv_nxt a.
Lemma near_refl s : near s s. Proof. repeat split. Qed.
Lemma near_pkt q syn ack fin rst data s : near s (pkt q syn ack fin rst data s). Proof. repeat split. Qed.
Lemma run_ack strict n e s (Q : sess -> Prop) : (forall s', same s s' -> Q s') -> run strict n e s (transmit_ack s) Q.
Proof. intros H. apply run_send; [cbn; auto|]. apply H, same_pkt. Qed.
Lemma run_transmit strict n s : pre strict n s -> run strict n ETimer s (transmit_data s) (near s).
Proof.
  intros P. unfold transmit_data, passert, pbind. destruct ((_ <=? _) && (_ <=? _)) eqn:E.
  2: { split; [apply steps_0|]. split; [exact Logic.I|]. discriminate. }
  apply andb_true_iff in E. rewrite !Z.leb_le in E.
  apply run_if; [|intros _; apply run_if; [|intros _; apply run_if; [|intros _; apply run_when]]].
  - intros C. apply andb_true_iff in C. rewrite in_state_1, fsm_eqb_eq, Z.eqb_eq in C.
    apply run_send; [|apply near_pkt]. cbn. tauto.
  - intros C. apply andb_true_iff in C. rewrite in_state_1, fsm_eqb_eq, Z.eqb_eq in C.
    apply run_send; [|apply near_pkt]. cbn. tauto.
  - intros C. apply andb_true_iff in C. rewrite in_state_iff in C. destruct C as [C _]. cbv zeta.
    destruct (_ =? 0) eqn:L; [apply run_ret; intros _; apply near_refl|].
    apply run_send; [|apply near_pkt]. cbn. right. apply Z.eqb_neq in L. destruct C as [C|[C|[]]]; auto 8.
  - intros C. apply andb_true_iff in C. rewrite in_state_iff, negb_true_iff, Z.eqb_neq in C. destruct C as [C D].
    apply run_send; [|apply near_pkt]. cbn. destruct C as [C|[C|[]]]; auto.
  - intros _ _. apply near_refl.
Qed.
Lemma run_timer strict n e s k d (Q : sess -> Prop) : (k = TDelayedAck -> d = DELAYED_ACK_DELAY /\ rcv_nxt s <= rcv_una s) -> (forall s', same s s' -> Q s') -> run strict n e s (register_timer k d s) Q.
Proof. intros K H. apply run_do; [apply ps_tmr; exact K|]. intros _. apply H. repeat split. Qed.
Lemma run_delayed strict n e s : pre strict n s -> run strict n e s (delayed_ack s) (same s).
Proof.
  intros P. unfold delayed_ack. apply run_when; [|intros; apply same_refl]. intros _. apply run_bind; [exact P|].
  apply run_when.
  - intros _. unfold transmit_ack. rewrite transmit_eq. cbn [seq_of]. destruct (tcp_tx_ok _) eqn:T; [|split; [apply steps_0|split; [exact Logic.I|discriminate]]].
    apply run_ok; [apply ps_send; [left; reflexivity|exact T]|]. intros _. apply run_timer.
    + intros _. split; [reflexivity|]. apply Z.le_refl.
    + intros s2 S2. pose proof (same_pkt (snd_nxt s) false true false [] s) as S1. unfold same in *. intuition congruence.
  - intros C _. apply run_timer; auto. intros _. split; [reflexivity|]. apply Z.ltb_ge in C. exact C.
Qed.
Lemma give_up_eq s : give_up s =
  if tcp_tx_ok (segment s (snd_una s) false true false true []) then
    if reg s then (set_reg false (gone s), Ok tt) else (gone s, Exn KeyError)
  else (s, Exn AssertionError).
Proof.
  unfold give_up, pbind at 1. rewrite transmit_eq. cbn [seq_of]. destruct (tcp_tx_ok _); [|reflexivity].
  set (s1 := pkt (snd_una s) false true false true [] s).
  unfold gone. fold s1. assert (ST : forall l, in_state l s1 = in_state l s) by reflexivity.
  assert (X : forall k : unit -> P unit, (pbind (pwhen (in_state [ESTABLISHED; FIN_WAIT_1; FIN_WAIT_2; CLOSE_WAIT]) (_ <# pdo (set_conn_err TimedOut) ;; release_rx)) k) s1 =
    k tt (if in_state [ESTABLISHED; FIN_WAIT_1; FIN_WAIT_2; CLOSE_WAIT] s then set_ev_rx (ev_rx s1 + 1) (set_conn_err TimedOut s1) else s1)).
  { intros k. unfold pbind, pwhen, pif. rewrite ST. destruct (in_state _ s); reflexivity. }
  rewrite X. clear X.
  assert (Y : forall s2 (k : unit -> P unit), (pbind (pwhen (in_state [SYN_SENT]) (_ <# pdo (set_conn_err TimedOut) ;; release_conn)) k) s2 =
    k tt (if in_state [SYN_SENT] s2 then set_ev_conn (ev_conn s2 + 1) (set_conn_err TimedOut s2) else s2)).
  { intros s2 k. unfold pbind, pwhen, pif. destruct (in_state _ s2); reflexivity. }
  rewrite Y. clear Y. unfold change_state. rewrite pbind_do. unfold pwhen, pif. rewrite in_state_1.
  pose proof (eq_refl : st s1 = st s) as S2. unfold in_state. cbn [existsb].
  destruct (st s) eqn:S1; cbn [fsm_eqb orb]; sx; rewrite ?S2; cbn [fsm_eqb orb]; reflexivity.
Qed.
