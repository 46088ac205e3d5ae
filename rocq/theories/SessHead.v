(** The headers of the segments a session sends. *)
From Verif Require Import Base BaseLemmas AddrModel TcpModel StackModel StackRxModel SessModel SpecSess SpecSess2 SessProofs SessTrace SessRun SessInv SessTx SessKeep SessWin SessTick SessHand.

Definition heads (s : sess) : Prop := forall t, In t (sent s) -> header (snd_ini s) (s_lport s) (s_rport s) t.
(** * States that do not listen *)
Definition headed (e : event) (a b : sess) : Prop :=
  st b <> LISTEN /\ s_lip b = s_lip a /\ s_rip b = s_rip a /\ s_lport b = s_lport a /\ s_rport b = s_rport a /\ snd_ini b = snd_ini a /\ (heads a -> heads b) /\
  (st b = SYN_SENT -> st a = SYN_SENT) /\ (st b = SYN_RCVD -> st a = SYN_RCVD).
Lemma heads_pkt q syn ack fin rst data s :
  match syn, fin, rst with
  | true, false, false => q = snd_ini s /\ data = []
  | false, false, false => ack = true
  | false, true, false | false, false, true => ack = true /\ data = []
  | _, _, _ => False
  end -> heads s -> heads (pkt q syn ack fin rst data s).
Proof.
  intros K H t T. apply pkt_sent in T. destruct T as [T| ->]; [apply H in T; exact T|].
  unfold header, segment. cbn [x_sport x_dport x_win x_urp x_fns x_fcrw x_fece x_furg x_fpsh x_fack x_fsyn x_ffin x_frst x_seq x_data x_opts x_ack].
  split; [reflexivity|]. split; [reflexivity|]. split; [reflexivity|]. repeat split.
  - destruct syn; [reflexivity|]. destruct fin, rst, ack; try discriminate H0; try contradiction; try discriminate K; destruct K as [K _]; discriminate K.
  - rewrite H0. reflexivity.
  - destruct syn, fin, rst; try contradiction; try reflexivity; repeat split; try apply K.
Qed.
Lemma head_origin e p s0 s : origin e p s0 s -> st s = st s0 /\ s_lip s = s_lip s0 /\ s_rip s = s_rip s0 /\ s_lport s = s_lport s0 /\ s_rport s = s_rport s0 /\ snd_ini s = snd_ini s0 /\ sent s = sent s0.
Proof. intros [[_ ->]|(_ & _ & ->)]; repeat split. Qed.
Lemma head_step e a b : pstep false e a b -> st a <> LISTEN -> headed e a b.
Proof.
  intros S N. unfold headed. destruct S; try (split; [exact N|]; do 5 (split; [reflexivity|]); split; [intros T; exact T|split; intros T; exact T]).
  - split; [intros X; cbn in X; subst n; destruct H|]. do 6 (split; [solve [reflexivity|intros T; exact T]|]). split; cbn; intros ->; destruct H. congruence.
  - split; [discriminate|]. do 5 (split; [reflexivity|]). split; [|split; discriminate].
    intros T x X. exact (heads_pkt (snd_una s) false true false true [] s (conj eq_refl eq_refl) T x X).
  - contradiction.
  - destruct (head_origin _ _ _ _ H) as (E0 & E1 & E2 & E3 & E4 & E5 & E6). unfold heads. rewrite E0, E1, E2, E3, E4, E5, E6. tauto.
  - destruct (head_origin _ _ _ _ H) as (E0 & E1 & E2 & E3 & E4 & E5 & E6). unfold acked, heads. sx. rewrite E0, E1, E2, E3, E4, E5, E6. tauto.
  - rewrite rewind_eq. unfold heads. sx. tauto.
  - assert (R : st (rewind s) = st s /\ s_lip (rewind s) = s_lip s /\ s_rip (rewind s) = s_rip s /\ s_lport (rewind s) = s_lport s /\ s_rport (rewind s) = s_rport s /\ snd_ini (rewind s) = snd_ini s /\ sent (rewind s) = sent s)
      by (rewrite rewind_eq; repeat split; reflexivity).
    destruct R as (R0 & R1 & R2 & R3 & R4 & R5 & R6).
    assert (HR : heads s -> heads (rewind s)) by (unfold heads; rewrite R3, R4, R5, R6; auto).
    rewrite <- R5. set (w := rewind s) in *. assert (HK : heads w -> heads (pkt (snd_ini w) true (in_state [SYN_RCVD] s) false false [] w)) by (apply heads_pkt; auto).
    split; [cbn [st pkt]; congruence|]. do 5 (split; [cbn [pkt s_lip s_rip s_lport s_rport snd_ini]; congruence|]). split; [auto|]. cbn [st pkt]. rewrite R0. auto.
  - split; [exact N|]. do 5 (split; [reflexivity|]). split; [|split; intros T; exact T]. apply heads_pkt.
    unfold sends in H. destruct syn, ack, fin; try contradiction; try (split; [|apply H]; auto; apply H). reflexivity.
Qed.
Lemma head_steps e a b : steps false e a b -> st a <> LISTEN -> headed e a b.
Proof.
  intros S. induction S as [s|a b c S SS IH]; intros N; [unfold headed, heads; tauto|].
  pose proof (head_step e a b S N) as H1. destruct H1 as (A0 & A1 & A2 & A3 & A4 & A5 & A6 & A7 & A8).
  destruct (IH A0) as (B0 & B1 & B2 & B3 & B4 & B5 & B6 & B7 & B8). unfold headed. rewrite B1, B2, B3, B4, B5. tauto.
Qed.

(** * The listening session *)
Lemma listen_do o c : st (c_sess c) = LISTEN -> sent (c_sess (fst (op_do o c))) = sent (c_sess c) /\ snd_ini (c_sess (fst (op_do o c))) = snd_ini (c_sess c).
Proof.
  intros E. destruct o; cbn [op_do].
  - unfold tick. rewrite pbind_do. unfold tcp_fsm. cbn [fsm]. sx. rewrite E. cbn [with_sess fst c_sess]. split; reflexivity.
  - unfold tcp_fsm. cbn [fsm]. rewrite E. unfold fsm_listen. destruct (is_syn p && _); [|split; reflexivity].
    rewrite pbind_do. unfold change_state. rewrite pbind_do. unfold pwhen, pif. rewrite in_state_1. split; reflexivity.
  - unfold tcp_fsm. cbn [fsm]. rewrite E. unfold fsm_listen. unfold change_state. rewrite pbind_do. unfold pwhen, pif. rewrite in_state_1. sx. cbn [fsm_eqb].
    destruct (reg _); split; reflexivity.
  - unfold session_send. unfold in_state. rewrite E. cbn [existsb fsm_eqb orb fst]. split; reflexivity.
  - destruct (read_step n (c_rd c i) (c_sess c)) as [[s r] d] eqn:R. cbn [fst c_sess]. unfold read_step in R.
    destruct (c_rd c i); [destruct (0 <? _)| |destruct (ended _)|cbv zeta in R]; injection R as <- _ _; try (split; reflexivity).
    destruct (negb _ || _); split; reflexivity.
Qed.
Definition head_inv (c : conn) : Prop := heads (c_sess c) /\ (st (c_sess c) = LISTEN -> sent (c_sess c) = []).
Lemma head_reach iss c0 c : opened iss c0 -> reach any_op c0 c -> head_inv c /\ snd_ini (c_sess c) = iss.
Proof.
  intros O R. split; [|exact (proj2 (reach_good false iss any_op c0 c O (any_ok iss) R))]. induction R as [|c o R IH A].
  - destruct O as (_ & call & lip & lport & rip & rport & timers & K & N & ->). destruct K as [-> | ->]; split; try (intros t []); reflexivity.
  - pose proof (reach_good false iss any_op c0 c O (any_ok iss) R) as G. pose proof (op_moves false iss o c G ltac:(discriminate)) as M. destruct IH as [H L].
    destruct (fsm_eqb (st (c_sess c)) LISTEN) eqn:E.
    + apply fsm_eqb_eq in E. destruct (listen_do o c E) as [X _]. rewrite (L E) in X. split; [|auto]. intros t T. rewrite X in T. destruct T.
    + assert (N : st (c_sess c) <> LISTEN) by (intros X; rewrite X in E; discriminate). destruct o; cbn [moves op_event] in M.
      1-3: destruct M as ((e & X & S) & _); injection X as <-; destruct (head_steps _ _ _ S N) as (A0 & _ & _ & A1 & A2 & A3 & A4 & _); split; [auto|contradiction].
      * unfold head_inv. destruct M as [->|(_ & -> & _)]; split; auto; contradiction.
      * unfold head_inv. destruct M as (_ & b & w & d' & -> & _). split; auto; contradiction.
Qed.
Lemma headers iss c0 c t : opened iss c0 -> reach any_op c0 c -> In t (sent (c_sess c)) -> header iss (s_lport (c_sess c)) (s_rport (c_sess c)) t.
Proof. intros O R T. destruct (head_reach iss c0 c O R) as [[H _] E]. rewrite <- E. apply H. exact T. Qed.

(** * Acknowledgement numbers *)
(** every segment sent by a run of the state machine acknowledges what has been received when
    it is sent *)
Definition acks (e : event) (a b : sess) : Prop :=
  rcv_nxt a <= rcv_nxt b /\ (e = ETimer -> rcv_nxt b = rcv_nxt a) /\
  forall t, In t (sent b) -> In t (sent a) \/ x_fack t = true /\ rcv_nxt a <= x_ack t <= rcv_nxt b.
Lemma acks_none e a b : sent b = sent a -> rcv_nxt b = rcv_nxt a -> acks e a b.
Proof. intros S R. split; [lia|]. split; [auto|]. intros t T. left. congruence. Qed.
Lemma acks_pkt e q syn fin rst data s : acks e s (pkt q syn true fin rst data s).
Proof.
  split; [reflexivity|]. split; [reflexivity|]. intros t T. apply pkt_sent in T. destruct T as [T| ->]; auto. right.
  cbn [rcv_nxt pkt x_fack x_ack segment]. split; [reflexivity|lia].
Qed.
Lemma b2z_nn b : 0 <= b2z b. Proof. destruct b; cbn; lia. Qed.
Lemma acks_step e a b : pstep false e a b -> ~ In (st a) [LISTEN; SYN_SENT] -> pre0 a -> acks e a b /\ ~ In (st b) [LISTEN; SYN_SENT].
Proof.
  intros S N P. destruct S; try (split; [apply acks_none; reflexivity|exact N]).
  - split; [apply acks_none; reflexivity|]. cbn. intros [<-|[<-|[]]]; destruct H.
  - split; [|cbn; intuition discriminate]. exact (acks_pkt e (snd_una s) false false true [] s).
  - rewrite H0 in N. destruct N. cbn. auto.
  - rewrite H0 in N. destruct N. cbn. auto.
  - destruct (head_origin _ _ _ _ H) as (E0 & E1 & E2 & E3 & E4 & E5 & E6). rewrite E0. split; [|exact N]. apply acks_none; [exact E6|]. destruct H as [[_ ->]|(_ & _ & ->)]; reflexivity.
  - destruct (head_origin _ _ _ _ H) as (E0 & E1 & E2 & E3 & E4 & E5 & E6). cbn [st acked]. rewrite E0. split; [|exact N].
    pose proof (origin_pre0 _ _ _ _ H P) as (Q1 & Q2 & _).
    destruct (takes_ack p s) as [_ SQ]; [lia|assumption|]. assert (RS : rcv_nxt s = rcv_nxt s0) by (destruct H as [[_ ->]|(_ & _ & ->)]; reflexivity).
    unfold acks. cbn [rcv_nxt acked sent]. rewrite SQ, RS, E6. pose proof (b2z_nn (d_syn p)). pose proof (b2z_nn (d_fin p)). pose proof (zlen_nonneg (d_data p)). split; [lia|]. split; [|auto].
    intros ->. destruct H as [[X _]|((_ & [p0 X]) & _)]; discriminate.
  - rewrite rewind_eq. split; [apply acks_none; reflexivity|exact N].
  - assert (R : st (rewind s) = st s /\ rcv_nxt (rewind s) = rcv_nxt s /\ sent (rewind s) = sent s) by (rewrite rewind_eq; repeat split; reflexivity).
    destruct R as (R0 & R1 & R2). split; [|cbn [st pkt]; rewrite R0; exact N]. assert (SR : in_state [SYN_RCVD] s = true) by (rewrite in_state_1; destruct H0 as [X|[X|[]]]; rewrite <- X in *; [destruct N; cbn; auto|reflexivity]).
    rewrite SR. pose proof (acks_pkt e (snd_ini s) true false false [] (rewind s)) as K.
    unfold acks in *. rewrite R1, R2 in K. exact K.
  - split; [|exact N]. destruct ack; [apply acks_pkt|]. exfalso. unfold sends in H. destruct syn, fin; try contradiction. destruct H as (_ & X & _). rewrite X in N. apply N. cbn. auto.
Qed.
Lemma acks_steps e a b : steps false e a b -> ~ In (st a) [LISTEN; SYN_SENT] -> pre0 a -> acks e a b.
Proof.
  intros S. induction S as [s|a b c S SS IH]; intros N P; [apply acks_none; reflexivity|].
  destruct (acks_step e a b S N P) as [(A1 & A2 & A3) N1]. destruct (IH N1 (pre0_step _ _ _ _ S P)) as (B1 & B2 & B3).
  split; [lia|]. split; [intros E; rewrite B2, A2; auto|]. intros t T.
  destruct (B3 t T) as [X|[F X]]; [|right; split; [exact F|lia]]. destruct (A3 t X) as [Y|[F Y]]; [auto|right; split; [exact F|lia]].
Qed.
Lemma ack_numbers iss c0 c o t : opened iss c0 -> reach any_op c0 c -> ~ In (st (c_sess c)) [LISTEN; SYN_SENT] ->
  In t (sent (c_sess (fst (op_do o c)))) -> In t (sent (c_sess c)) \/
  x_fack t = true /\ rcv_nxt (c_sess c) <= x_ack t <= rcv_nxt (c_sess (fst (op_do o c))) /\ (o = OTick -> x_ack t = rcv_nxt (c_sess c)).
Proof.
  intros O R N T. pose proof (reach_good false iss any_op c0 c O (any_ok iss) R) as G. pose proof (op_moves false iss o c G ltac:(discriminate)) as M.
  destruct G as [[P _] I]. destruct o; cbn [moves op_event] in M.
  1-3: destruct M as ((e & X & S) & _); injection X as <-; destruct (acks_steps _ _ _ S N P) as (A1 & A2 & A3); destruct (A3 t T) as [X|[F X]]; auto; right; split; [exact F|]; split; [exact X|]; intros Q; try discriminate Q; specialize (A2 eq_refl); lia.
  - left. destruct M as [E|(_ & E & _)]; rewrite E in T; auto.
  - left. destruct M as (_ & b & w & d & E & _). rewrite E in T. auto.
Qed.

(** * The length of the data *)
Definition early (s : sess) : Prop := In (st s) [LISTEN; SYN_SENT; SYN_RCVD].
Lemma early_step e a b : pstep true e a b -> early b -> (forall t, In t (sent a) -> early a -> x_data t = []) -> early a /\ forall t, In t (sent b) -> x_data t = [].
Proof.
  intros S E H. unfold early in *. destruct S; try (split; [exact E|intros t T; apply H; auto; fail]).
  - cbn [st moved set_st] in E. cbn [sent moved set_st set_hist]. destruct E as [<-|[<-|[<-|[]]]]; cbn in H0; try contradiction.
    assert (L : In (st s) [LISTEN; SYN_SENT; SYN_RCVD]) by (rewrite (proj1 H0); cbn; auto). split; [exact L|]. intros t T. auto.
  - cbn in E. intuition discriminate.
  - destruct (head_origin _ _ _ _ H0) as (E0 & _ & _ & _ & _ & _ & E6). rewrite E0 in E. rewrite E6. split; [exact E|]. auto.
  - destruct (head_origin _ _ _ _ H0) as (E0 & _ & _ & _ & _ & _ & E6). cbn [st acked] in E. cbn [sent acked]. rewrite E0 in E. rewrite E6. split; [exact E|]. auto.
  - rewrite rewind_eq in *. split; [exact E|]. intros t T. apply H; auto.
  - assert (R0 : st (rewind s) = st s /\ sent (rewind s) = sent s) by (rewrite rewind_eq; split; reflexivity). destruct R0 as [R0 R1].
    cbn [st pkt] in E. rewrite R0 in E. split; [exact E|]. intros t T. apply pkt_sent in T. rewrite R1 in T. destruct T as [T| ->]; auto.
  - split; [exact E|]. intros t T. apply pkt_sent in T. destruct T as [T| ->]; auto. cbn [x_data segment]. cbn [st pkt] in E.
    unfold sends in H0. destruct syn, ack, fin; try contradiction; try apply H0. destruct H0 as [->|(_ & [X|X] & _)]; [reflexivity| |]; rewrite X in E; cbn in E; intuition discriminate.
Qed.
Definition bare (s : sess) : Prop := forall t, In t (sent s) -> x_data t = [].
Lemma early_steps e a b : steps true e a b -> (early a -> bare a) -> early b -> early a /\ bare b.
Proof.
  intros S. induction S as [s|a b c S SS IH]; intros H E; [auto|].
  assert (HB : early b -> bare b) by (intros EB; exact (proj2 (early_step e a b S EB (fun t T EA => H EA t T)))).
  destruct (IH HB E) as [EB BC]. split; [|exact BC]. exact (proj1 (early_step e a b S EB (fun t T EA => H EA t T))).
Qed.
Lemma bare_reach iss c0 c : opened iss c0 -> reach (sane_op iss) c0 c -> early (c_sess c) -> bare (c_sess c).
Proof.
  intros O R. revert c R. apply (reach_ind_moves true iss (sane_op iss) c0 (fun c => early (c_sess c) -> bare (c_sess c)) O (sane_ok iss)).
  - destruct O as (_ & call & lip & lport & rip & rport & timers & K & N & ->). destruct K as [-> | ->]; intros _ t [].
  - intros o c c' A G _ H M E. destruct o; cbn [moves op_event] in M.
    1-3: destruct M as ((e & X & S) & _); injection X as <-; eapply early_steps; eauto.
    + destruct M as [->|(X & Y & _)]; [auto|]. rewrite Y in *. auto.
    + destruct M as (_ & b & w & d & Y & _). rewrite Y in *. auto.
Qed.
Definition past (s : sess) : Prop := ~ In (st s) [LISTEN; SYN_SENT].
Lemma mss_step e a b : pstep true e a b -> past a -> past b /\ snd_mss b = snd_mss a.
Proof.
  intros S N. unfold past in *. destruct S; try (split; [exact N|reflexivity]).
  - split; [|reflexivity]. cbn. intros [<-|[<-|[]]]; destruct H.
  - split; [cbn; intuition discriminate|reflexivity].
  - rewrite H0 in N. destruct N. cbn. auto.
  - rewrite H0 in N. destruct N. cbn. auto.
  - destruct H as [[_ ->]|(_ & _ & ->)]; split; auto.
  - destruct H as [[_ ->]|(_ & _ & ->)]; split; auto.
  - rewrite rewind_eq. split; auto.
  - rewrite rewind_eq. split; auto.
Qed.
Lemma mss_steps e a b : steps true e a b -> past a -> past b /\ snd_mss b = snd_mss a.
Proof.
  intros S. induction S as [s|a b c S SS IH]; intros N; [auto|]. destruct (mss_step e a b S N) as [N1 E1]. destruct (IH N1) as [N2 E2]. split; [auto|congruence].
Qed.
Lemma reach_trans (allowed : op -> conn -> Prop) a b c : reach allowed a b -> reach allowed b c -> reach allowed a c.
Proof. intros R1 R2. induction R2; [exact R1|]. apply reach_op; auto. Qed.
Lemma mss_kept iss c0 c1 c : opened iss c0 -> reach (sane_op iss) c0 c1 -> past (c_sess c1) -> bare (c_sess c1) -> reach (sane_op iss) c1 c ->
  past (c_sess c) /\ snd_mss (c_sess c) = snd_mss (c_sess c1) /\ forall t, In t (sent (c_sess c)) -> zlen (x_data t) <= snd_mss (c_sess c1).
Proof.
  intros O R1 N B R. induction R as [|c o R IH A].
  - split; [exact N|]. split; [reflexivity|]. intros t T. rewrite (B t T). change (zlen (@nil Z)) with 0. apply (w_reach iss c0 c1 O R1).
  - destruct IH as (N2 & E2 & L). pose proof (reach_trans _ _ _ _ R1 R) as R2.
    pose proof (reach_good true iss (sane_op iss) c0 c O (sane_ok iss) R2) as G. pose proof (op_moves true iss o c G (fun _ => A)) as M.
    assert (K : past (c_sess (fst (op_do o c))) /\ snd_mss (c_sess (fst (op_do o c))) = snd_mss (c_sess c)).
    { destruct o; cbn [moves op_event] in M.
      1-3: destruct M as ((e & X & S) & _); injection X as <-; eapply mss_steps; eauto.
      - destruct M as [->|(X & -> & _)]; auto.
      - destruct M as (_ & b & w & d & -> & _). auto. }
    destruct K as [N3 E3]. split; [exact N3|]. split; [congruence|]. intros t T.
    destruct (within_reach iss c0 c o t O R2 A T) as [X|[X|(_ & X & _)]]; [auto| |congruence].
    rewrite X. change (zlen (@nil Z)) with 0. apply (w_reach iss c0 c1 O R1).
Qed.
Lemma mss_listen p s : st s = LISTEN -> st (fst (tcp_fsm (EPacket p) s)) = SYN_RCVD -> snd_mss (fst (tcp_fsm (EPacket p) s)) = Z.min (d_mss p) 1460.
Proof.
  intros E. unfold tcp_fsm. cbn [fsm]. rewrite E. unfold fsm_listen. destruct (is_syn p && _); [|cbn; congruence].
  rewrite pbind_do. unfold change_state. rewrite pbind_do. unfold pwhen, pif. rewrite in_state_1. reflexivity.
Qed.
Lemma mss_sent p s : st s = SYN_SENT -> ooo s = [] -> st (fst (tcp_fsm (EPacket p) s)) = ESTABLISHED -> snd_mss (fst (tcp_fsm (EPacket p) s)) = Z.min (d_mss p) 1460.
Proof.
  intros E OO. unfold tcp_fsm. rewrite OO. cbn [length fsm]. rewrite E. unfold fsm_syn_sent. unfold pif at 1 2. destruct (is_synack p && _).
  - intros _. rewrite pbind_do. unfold pbind at 1. rewrite process_eq. cbv zeta. rewrite sync_ooo, OO. cbn [dget]. unfold transmit_ack, pbind at 1. rewrite transmit_eq.
    destruct (tcp_tx_ok _); [|apply sync_mss]. reflexivity.
  - unfold pwhen, pif. destruct (is_rstack p && _); [|cbn; congruence]. cbv [pbind change_state pwhen pif pdo in_state release_conn]. sx. cbn [existsb fsm_eqb orb].
    destruct (reg s); discriminate.
Qed.
Lemma mss_kept_hand iss c0 c p c2 t : opened iss c0 -> reach (sane_op iss) c0 c -> sane_op iss (OSegment p) c ->
  let c1 := fst (op_do (OSegment p) c) in
  (st (c_sess c) = LISTEN /\ st (c_sess c1) = SYN_RCVD) \/ (st (c_sess c) = SYN_SENT /\ st (c_sess c1) = ESTABLISHED) ->
  reach (sane_op iss) c1 c2 -> In t (sent (c_sess c2)) -> zlen (x_data t) <= Z.min (d_mss p) 1460.
Proof.
  intros O R A c1 K R2 T. assert (R1 : reach (sane_op iss) c0 c1) by (apply reach_op; auto).
  pose proof (reach_good true iss (sane_op iss) c0 c O (sane_ok iss) R) as G. pose proof (op_moves true iss (OSegment p) c G (fun _ => A)) as M. fold c1 in M.
  cbn [moves op_event] in M. destruct M as ((e & X & S) & _). injection X as <-. destruct G as [[P _] _].
  assert (E : early (c_sess c)) by (unfold early; destruct K as [[-> _]|[-> _]]; cbn; auto).
  assert (OO : ooo (c_sess c) = []) by (apply P; exact E).
  assert (M : snd_mss (c_sess c1) = Z.min (d_mss p) 1460) by (destruct K as [[K1 K2]|[K1 K2]]; [apply mss_listen|apply mss_sent]; auto).
  assert (B : bare (c_sess c1)).
  { pose proof (bare_reach iss c0 c O R E) as B. destruct K as [[K1 K2]|[K1 K2]].
    - intros x X. destruct (listen_do (OSegment p) c K1) as [L _]. fold c1 in L. rewrite L in X. auto.
    - intros x X. pose proof (reach_good true iss (sane_op iss) c0 c O (sane_ok iss) R) as [PP _].
      destruct (within_steps _ _ _ _ S PP ltac:(intros q Q; injection Q as <-; apply A) (w_reach iss c0 c O R)) as [_ W]. destruct (W x X) as [Y|[Y|(Y & _)]]; auto. discriminate Y. }
  rewrite <- M. eapply mss_kept; eauto. unfold past. destruct K as [[_ ->]|[_ ->]]; cbn; intuition discriminate.
Qed.
Lemma header_unscaled iss lp rp t w : header iss lp rp t -> ~ In (TOWscale w) (x_opts t).
Proof.
  intros (_ & _ & _ & _ & _ & _ & _ & _ & _ & _ & H) X. destruct (x_fsyn t), (x_ffin t), (x_frst t); try contradiction; try (destruct H as (_ & _ & H)); try (destruct H as (_ & H)); rewrite H in X; cbn in X; intuition discriminate.
Qed.
