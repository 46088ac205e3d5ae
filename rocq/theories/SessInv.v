(** What holds of every reachable connection. *)
From Verif Require Import Base BaseLemmas AddrModel TcpModel StackModel StackRxModel SessModel SpecSess SessProofs SessTrace SessRun.

Definition allowed_ok (strict : bool) (iss : Z) (allowed : op -> conn -> Prop) : Prop :=
  forall o c, allowed o c -> strict = true -> sane_op iss o c.
Definition op_event (o : op) : option event :=
  match o with OTick => Some ETimer | OSegment p => Some (EPacket p) | OClose => Some (ECall Close) | _ => None end.
(** the session after an operation: a run of the state machine, bytes appended by send, or
    bytes taken by a read *)
Definition moves (strict : bool) (o : op) (c c' : conn) : Prop :=
  match o with
  | OTick | OSegment _ | OClose =>
      (exists e, op_event o = Some e /\ steps strict e (c_sess c) (c_sess c')) /\ c_read c' = c_read c /\ c_written c' = c_written c
  | OSend d =>
      c' = c \/ In (st (c_sess c)) [ESTABLISHED; CLOSE_WAIT] /\ c_sess c' = set_tx_buf (tx_buf (c_sess c) ++ d) (c_sess c) /\
        c_read c' = c_read c /\ c_written c' = c_written c ++ d
  | ORead i n =>
      c_written c' = c_written c /\ exists b v d, c_sess c' = set_rx_buf b (set_ev_rx v (c_sess c)) /\ c_read c' = c_read c ++ d /\
        concat d ++ b = rx_buf (c_sess c)
  end.
Lemma py_end_bound {A} k (l : list A) : 0 <= py_end k l \/ k < 0. Proof. unfold py_end. destruct (k <? 0) eqn:E; [left; lia|]. apply Z.ltb_ge in E. auto. Qed.
Lemma take_split k (l : bytes) : py_slice 0 k l ++ slice_from (py_end k l) l = l.
Proof.
  unfold py_slice, py_end. destruct (k <? 0) eqn:E.
  - rewrite <- (slice_split l (Z.max 0 (k + zlen l))) by lia. reflexivity.
  - apply Z.ltb_ge in E. rewrite <- (slice_split l k) by lia. reflexivity.
Qed.
Lemma ini_steps strict e a b : steps strict e a b -> snd_ini b = snd_ini a.
Proof. induction 1; auto. rewrite IHsteps. eapply ini_step; eauto. Qed.
Definition good (strict : bool) (iss : Z) (c : conn) : Prop := pre strict (zlen (c_written c)) (c_sess c) /\ snd_ini (c_sess c) = iss.
Lemma set_back s : s = set_rx_buf (rx_buf s) (set_ev_rx (ev_rx s) s).
Proof. destruct s. reflexivity. Qed.
Lemma op_moves strict iss o c : good strict iss c -> (strict = true -> sane_op iss o c) -> moves strict o c (fst (op_do o c)).
Proof.
  intros [P I] K. destruct o; cbn [op_do moves].
  - unfold tick. rewrite pbind_do. cbn [with_sess fst c_sess c_read c_written]. repeat split; auto. exists ETimer. split; [reflexivity|].
    eapply steps_1; [apply ps_dec; reflexivity|].
    apply (trace strict (zlen (c_written c))); [eapply pre_step; [apply (ps_dec _ ETimer); reflexivity|exact P]|intros _; exact Logic.I|discriminate].
  - cbn [with_sess fst c_sess c_read c_written]. repeat split; auto. exists (EPacket p). split; [reflexivity|].
    apply (trace strict (zlen (c_written c))); [exact P| |discriminate]. intros S. rewrite I. exact (K S).
  - cbn [with_sess fst c_sess c_read c_written]. repeat split; auto. exists (ECall Close). split; [reflexivity|].
    apply (trace strict (zlen (c_written c))); [exact P|exact K|]. intros x X. congruence.
  - unfold session_send. destruct (in_state _ _) eqn:E; cbn [fst c_sess c_read c_written]; auto. right. apply in_state_iff in E. auto.
  - unfold read_step. destruct (c_rd c i).
    + destruct (0 <? ev_rx (c_sess c)); cbn [fst c_sess c_read c_written]; split; auto.
      * exists (rx_buf (c_sess c)), (ev_rx (c_sess c) - 1), []. repeat split; rewrite ?app_nil_r; auto using set_back.
      * exists (rx_buf (c_sess c)), (ev_rx (c_sess c)), []. repeat split; rewrite ?app_nil_r; auto using set_back.
    + cbn [fst c_sess c_read c_written]; split; auto. exists (rx_buf (c_sess c)), (ev_rx (c_sess c)), []. repeat split; rewrite ?app_nil_r; auto using set_back.
    + destruct (ended (c_sess c)); cbn [fst c_sess c_read c_written]; split; auto.
      * exists (rx_buf (c_sess c)), (ev_rx (c_sess c)), [[]]. repeat split; rewrite ?app_nil_r; auto using set_back.
      * exists (rx_buf (c_sess c)), (ev_rx (c_sess c)), []. repeat split; rewrite ?app_nil_r; auto using set_back.
    + cbv zeta. set (k := take_count n (c_sess c)). set (b := slice_from (py_end k (rx_buf (c_sess c))) (rx_buf (c_sess c))).
      cbn [fst c_sess c_read c_written]; split; auto.
      exists b, (if negb (zlen b =? 0) || ended (c_sess c) then ev_rx (c_sess c) + 1 else ev_rx (c_sess c)), [py_slice 0 k (rx_buf (c_sess c))].
      split; [|split; [reflexivity|cbn [concat]; rewrite app_nil_r; apply take_split]].
      change (ended (set_rx_buf b (c_sess c))) with (ended (c_sess c)). change (rx_buf (set_rx_buf b (c_sess c))) with b.
      destruct (negb (zlen b =? 0) || ended (c_sess c)); reflexivity.
Qed.
Lemma good_moves strict iss o c c' : good strict iss c -> moves strict o c c' -> good strict iss c'.
Proof.
  intros [P I] M. destruct o; cbn [moves] in M.
  1-3: destruct M as ((e & _ & S) & R & W); split; [rewrite W; eapply pre_steps; eauto|rewrite <- I; eapply ini_steps; eauto].
  - destruct M as [->|(E & S & R & W)]; [split; auto|]. split; [|rewrite S; exact I]. rewrite W, S, zlen_app.
    destruct P as [P0 PS]. split; [exact P0|]. intros T. destruct (PS T) as [I0 SH]. split; [exact I0|].
    pose proof (zlen_nonneg d). unfold shape in *; sx. rewrite zlen_app. destruct E as [E|[E|[]]]; rewrite <- E in *; decompose [and] SH; repeat split; auto; lia.
  - destruct M as (W & b & v & d & S & _). split; [|rewrite S; exact I]. rewrite W, S. destruct P as [P0 PS]. split; [exact P0|]. intros T. exact (PS T).
Qed.
Lemma start_good strict iss c : opened iss c -> good strict iss c.
Proof.
  intros (I & call & lip & lport & rip & rport & timers & K & _ & ->). destruct K as [-> | ->].
  - split; [|reflexivity]. split; [unfold pre0, ooo_ok; cbn; sp; try lia; intros; tauto|].
    intros _. split; [cbn; lia|]. unfold shape, opening. cbn. repeat split; auto; try lia. intros k v [].
  - split; [|reflexivity]. split; [unfold pre0, ooo_ok; cbn; sp; try lia; intros; tauto|].
    intros _. split; [cbn; lia|]. unfold shape, opening. cbn. repeat split; auto; try lia. intros k v [].
Qed.
Lemma reach_good strict iss allowed c0 c : opened iss c0 -> allowed_ok strict iss allowed -> reach allowed c0 c -> good strict iss c.
Proof.
  intros O A R. induction R; [apply start_good; auto|]. eapply good_moves; eauto. eapply op_moves; eauto.
Qed.
(** induction over reachable connections *)
Lemma reach_ind_moves strict iss allowed c0 (J : conn -> Prop) : opened iss c0 -> allowed_ok strict iss allowed -> J c0 ->
  (forall o c c', allowed o c -> good strict iss c -> good strict iss c' -> J c -> moves strict o c c' -> J c') ->
  forall c, reach allowed c0 c -> J c.
Proof.
  intros O A J0 JS c R. induction R; auto. pose proof (reach_good _ _ _ _ _ O A R) as G.
  pose proof (op_moves strict iss o c G (A o c H)) as M. eapply JS; eauto. eapply good_moves; eauto.
Qed.
