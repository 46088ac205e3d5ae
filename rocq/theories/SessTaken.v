(** Acknowledgements of what was sent are taken, whatever has been rewound since. *)
From Verif Require Import Base BaseLemmas AddrModel TcpModel StackModel StackRxModel SessModel SpecSess SpecSess2 SpecSess3 SessProofs SessTrace SessRun SessInv SessTx SessReset SessKeep SessOoo.

(** nothing sent lies beyond snd_max *)
Definition max_ok (s : sess) : Prop := forall t, In t (sent s) -> seg_end t <= snd_max s.
Lemma max_pkt q syn ack fin rst data s : max_ok s -> max_ok (pkt q syn ack fin rst data s).
Proof. intros M t T. sx. apply in_app_iff in T. destruct T as [T|[<-|[]]]; [apply M in T; lia|]. unfold seg_end, segment. cbn [x_seq x_data x_fsyn x_ffin]. lia. Qed.
Lemma max_step strict e a b : pstep strict e a b -> max_ok a -> max_ok b.
Proof.
  intros S; destruct S; intros M; try exact M; try (rewrite rewind_eq; exact M); try (apply max_pkt; try rewrite rewind_eq; exact M).
  - destruct H as [[_ ->]|(_ & _ & ->)]; exact M.
  - destruct H as [[_ ->]|(_ & _ & ->)]; exact M.
Qed.
Lemma max_reach strict iss (allowed : op -> conn -> Prop) c0 c : allowed_ok strict iss allowed -> opened iss c0 -> reach allowed c0 c -> max_ok (c_sess c).
Proof.
  intros AO O R. eapply (sess_reach strict iss allowed max_ok c0 c AO); auto.
  - intros e a b. apply max_step.
  - destruct O as (_ & call & lip & lport & rip & rport & timers & K & N & ->). destruct K as [-> | ->]; intros t [].
Qed.
(** the first unacknowledged number never goes back *)
Lemma una_step strict e a b : pstep strict e a b -> pre0 a -> snd_una a <= snd_una b.
Proof.
  intros S P; destruct S; try (cbn; lia); try (rewrite rewind_eq; cbn; lia).
  - destruct H as [[_ ->]|(_ & _ & ->)]; cbn; lia.
  - destruct H as [[_ ->]|(_ & _ & ->)]; cbn; lia.
  - destruct P as (P1 & P2 & _). cbn. lia.
Qed.
Lemma una_steps strict e n a b : steps strict e a b -> pre strict n a -> snd_una a <= snd_una b.
Proof. induction 1 as [|a b c S SS IH]; intros P; [lia|]. pose proof (una_step _ _ _ _ S (proj1 P)). pose proof (IH (pre_step _ _ _ _ _ S P)). lia. Qed.

Lemma una_lasting m : lasting (fun s => m <= snd_una s).
Proof. constructor; intros; try assumption; try (rewrite rewind_eq); sx; try lia. Qed.
Lemma taken_process fuel p : leads (fun _ => True) (process_ack (fun q => fsm fuel (EPacket q)) p) (fun s => d_ackn p <= snd_una s).
Proof.
  intros s _. rewrite process_eq. cbv zeta. assert (A : d_ackn p <= snd_una (acked p s)) by (sx; lia). destruct (dget _ _) as [q|]; [|exact A].
  apply (keeps_fsm _ (una_lasting (d_ackn p))). exact A.
Qed.
Lemma taken p s : is_ack p = true -> d_data p = [] -> d_seq p = rcv_nxt s -> snd_una s < d_ackn p <= snd_max s -> In (st s) [ESTABLISHED; FIN_WAIT_1; FIN_WAIT_2; CLOSE_WAIT] ->
  d_ackn p <= snd_una (fst (tcp_fsm (EPacket p) s)).
Proof.
  intros A D SQ AK ST. unfold tcp_fsm. set (fuel := length (ooo s)). cbn [fsm]. pose proof (una_lasting (d_ackn p)) as L.
  assert (F : fits p s = true) by (apply fits_iff; lia). assert (ND : no_data p = true) by (apply no_data_iff; exact D).
  assert (EQ : d_ackn p =? snd_una s = false) by (apply Z.eqb_neq; lia). assert (LT : rcv_nxt s <? d_seq p = false) by (apply Z.ltb_ge; lia).
  pose proof (taken_process fuel p s Logic.I) as T.
  assert (K : forall k : unit -> P unit, keeps_it (fun s => d_ackn p <= snd_una s) (k tt) -> d_ackn p <= snd_una (fst (pbind (process_ack (fun q => fsm fuel (EPacket q)) p) k s))).
  { intros k H. unfold pbind. destruct (process_ack _ p s) as [s1 [[]|e]]; [apply H; exact T|exact T]. }
  destruct ST as [E|[E|[E|[E|[]]]]]; rewrite <- E.
  - unfold fsm_established. rewrite A. unfold pif, pwhen, pif. rewrite F, EQ, LT, andb_false_r. cbn [andb]. destruct (negb _) eqn:W; [|exact T].
    rewrite D, SQ in W. apply negb_true_iff, andb_false_iff in W. rewrite !Z.leb_gt in W. unfold RCV_WND in W. change (zlen (@nil Z)) with 0 in W. lia.
  - unfold fsm_fin_wait_1. rewrite A. unfold pwhen at 1, pif. rewrite F. apply K. rewrite ND. kq.
  - unfold fsm_fin_wait_2. rewrite A. unfold pwhen, pif. rewrite F. apply K. rewrite ND. kq.
  - unfold fsm_close_wait. rewrite A. unfold pif, pwhen, pif. rewrite F, EQ, LT, ND, andb_false_r. cbn [andb]. exact T.
Qed.
Lemma taken_reach iss c0 c p t : opened iss c0 -> reach (sane_op iss) c0 c -> flags_of p = (false, true, false, false) -> d_data p = [] -> d_seq p = rcv_nxt (c_sess c) ->
  In (st (c_sess c)) [ESTABLISHED; FIN_WAIT_1; FIN_WAIT_2; CLOSE_WAIT] -> In t (sent (c_sess c)) -> snd_una (c_sess c) < d_ackn p <= seg_end t ->
  d_ackn p <= snd_una (c_sess (fst (op_do (OSegment p) c))).
Proof.
  intros O R F D SQ ST T AK. cbn [op_do with_sess fst c_sess]. apply taken; auto; [apply flags_is_ack, F|].
  pose proof (max_reach true iss _ c0 c (sane_ok iss) O R t T). lia.
Qed.
