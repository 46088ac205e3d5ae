(** What every statement of the session keeps; the timers; the stay in TIME-WAIT. *)
From Verif Require Import Base BaseLemmas AddrModel TcpModel StackModel StackRxModel SessModel SpecSess SessProofs SessTrace SessRun SessInv SessTx.

Definition leads {A} (I : sess -> Prop) (m : P A) (Q : sess -> Prop) : Prop := forall s, I s -> Q (fst (m s)).
Definition keeps_it {A} (I : sess -> Prop) (m : P A) : Prop := leads I m I.
Lemma leads_bind {A B} (I J Q : sess -> Prop) (m : P A) (k : A -> P B) : leads I m J -> (forall s, J s -> Q s) -> (forall a, leads J (k a) Q) -> leads I (pbind m k) Q.
Proof. intros M W K s H. unfold pbind. specialize (M s H). destruct (m s) as [s' [a|x]]; [apply K|apply W]; exact M. Qed.
Lemma keeps_bind {A B} I (m : P A) (k : A -> P B) : keeps_it I m -> (forall a, keeps_it I (k a)) -> keeps_it I (pbind m k).
Proof. intros M K. eapply leads_bind; eauto. Qed.
Lemma leads_do (I Q : sess -> Prop) f : (forall s, I s -> Q (f s)) -> leads I (pdo f) Q.
Proof. intros H s J. apply H. exact J. Qed.
Lemma leads_if (I Q : sess -> Prop) c a b : leads (fun s => I s /\ c s = true) a Q -> leads (fun s => I s /\ c s = false) b Q -> leads I (pif c a b) Q.
Proof. intros A B s H. unfold pif. destruct (c s) eqn:E; [apply A|apply B]; auto. Qed.
Lemma keeps_if I c a b : keeps_it I a -> keeps_it I b -> keeps_it I (pif c a b).
Proof. intros A B s H. unfold pif. destruct (c s); [apply A|apply B]; auto. Qed.
Lemma keeps_ret {A} I (a : A) : keeps_it I (pret a).
Proof. intros s H. exact H. Qed.
Lemma keeps_when I c a : keeps_it I a -> keeps_it I (pwhen c a).
Proof. intros A. apply keeps_if; auto using keeps_ret. Qed.
Lemma keeps_assert I c : keeps_it I (passert c).
Proof. intros s H. unfold passert. destruct (c s); exact H. Qed.
Lemma keeps_tx (I : sess -> Prop) o syn ack fin rst data : (forall s, I s -> I (pkt (seq_of o s) syn ack fin rst data s)) -> keeps_it I (transmit_packet o syn ack fin rst data).
Proof. intros H s J. rewrite transmit_eq. destruct (tcp_tx_ok _); [apply H|]; exact J. Qed.
Lemma keeps_process (I : sess -> Prop) again p : (forall s, I s -> I (acked p s)) -> (forall s k, I s -> I (set_ooo (ddel k (ooo s)) s)) ->
  (forall q, keeps_it I (again q)) -> keeps_it I (process_ack again p).
Proof.
  intros A D N s J. rewrite process_eq. cbv zeta. destruct (dget _ _) as [q|]; [|apply A; exact J]. apply N. apply D, A, J.
Qed.
Lemma keeps_weak {A} (I J : sess -> Prop) (m : P A) : (forall s, I s <-> J s) -> keeps_it I m -> keeps_it J m.
Proof. intros E K s H. apply E, K, E, H. Qed.
(** an assertion about the session that no statement can break *)
Record lasting (I : sess -> Prop) : Prop := {
  la_tmr : forall k v s, I s -> I (set_tmr (tset k v (tmr s)) s);
  la_txreq : forall d s, I s -> I (set_tx_req d s);
  la_rxreq : forall d s, I s -> I (set_rx_req d s);
  la_end : forall n s, n = CLOSE_WAIT \/ n = CLOSED -> I s -> I (moved n (set_ev_rx (ev_rx s + 1) s));
  la_conn : forall v s, I s -> I (set_ev_conn v s);
  la_err : forall v s, I s -> I (set_conn_err v s);
  la_eff : forall v s, I s -> I (set_effs v s);
  la_closing : forall v s, I s -> I (set_closing v s);
  la_reg : forall v s, I s -> I (set_reg v s);
  la_moved : forall n s, n <> CLOSE_WAIT -> I s -> I (moved n s);
  la_adopt : forall p s, I s -> I (adopt p s);
  la_sync : forall p s, I s -> I (synchronise p s);
  la_acked : forall p s, I s -> I (acked p s);
  la_ooo : forall d s, I s -> I (set_ooo d s);
  la_nxt : forall v s, I s -> I (set_snd_nxt v s);
  la_una : forall v s, snd_una s <= v -> I s -> I (set_snd_una v s);
  la_rewind : forall s, I s -> I (rewind s);
  la_pkt : forall q syn ack fin rst data s, I s -> I (pkt q syn ack fin rst data s) }.
Lemma keeps_change I n : lasting I -> n <> CLOSE_WAIT -> keeps_it I (change_state n).
Proof.
  intros L N. unfold change_state. apply keeps_bind; [apply leads_do; intros s; apply (la_moved I L); exact N|]. intros _. apply keeps_when.
  intros s J. destruct (reg s); [apply (la_reg I L)|]; exact J.
Qed.
Lemma keeps_end I n : lasting I -> n = CLOSE_WAIT \/ n = CLOSED -> keeps_it I (_ <# release_rx ;; change_state n).
Proof.
  intros L N s J. apply (la_end I L n s N) in J. unfold release_rx, change_state. rewrite !pbind_do. unfold pwhen, pif. rewrite in_state_1.
  change (set_st n _) with (moved n (set_ev_rx (ev_rx s + 1) s)). set (x := moved n _) in *. clearbody x.
  destruct (fsm_eqb _ _); [|exact J]. destruct (reg x); [apply (la_reg I L)|]; exact J.
Qed.
Ltac kleaf L := match goal with
  | |- _ -> _ (set_tmr _ _) => apply (la_tmr _ L)
  | |- _ -> _ (set_tx_req _ _) => apply (la_txreq _ L)
  | |- _ -> _ (set_rx_req _ _) => apply (la_rxreq _ L)
  | |- _ -> _ (set_ev_conn _ _) => apply (la_conn _ L)
  | |- _ -> _ (set_conn_err _ _) => apply (la_err _ L)
  | |- _ -> _ (set_effs _ _) => apply (la_eff _ L)
  | |- _ -> _ (set_closing _ _) => apply (la_closing _ L)
  | |- _ -> _ (set_reg _ _) => apply (la_reg _ L)
  | |- _ -> _ (adopt _ _) => apply (la_adopt _ L)
  | |- _ -> _ (synchronise _ _) => apply (la_sync _ L)
  | |- _ -> _ (acked _ _) => apply (la_acked _ L)
  | |- _ -> _ (set_ooo _ _) => apply (la_ooo _ L)
  | |- _ -> _ (set_snd_nxt _ _) => apply (la_nxt _ L)
  | |- _ -> _ (rewind _) => apply (la_rewind _ L)
  | |- _ -> _ (pkt _ _ _ _ _ _ _) => apply (la_pkt _ L)
  end.
Ltac kp1 L := match goal with
  | |- keeps_it _ (pbind release_rx _) => apply keeps_end; [exact L|auto]
  | |- keeps_it _ (pbind _ _) => apply keeps_bind; [|intros ?]
  | |- keeps_it _ (pif _ _ _) => apply keeps_if
  | |- keeps_it _ (pwhen _ _) => apply keeps_when
  | |- keeps_it _ (pret _) => apply keeps_ret
  | |- keeps_it _ (passert _) => apply keeps_assert
  | |- keeps_it _ (change_state _) => apply keeps_change; [exact L|discriminate]
  | |- keeps_it _ (transmit_packet _ _ _ _ _ _) => apply keeps_tx; intros ?; kleaf L
  | |- keeps_it _ (pdo _) => apply leads_do; intros ?; kleaf L
  | |- keeps_it _ (if ?c then _ else _) => destruct c
  end.
Ltac kp := match goal with L : lasting _ |- _ => repeat kp1 L end.
Lemma keeps_ack I : lasting I -> keeps_it I transmit_ack. Proof. intros L. unfold transmit_ack. kp. Qed.
Lemma keeps_data I : lasting I -> keeps_it I transmit_data.
Proof.
  intros L. unfold transmit_data. kp. intros s J. cbv zeta. destruct (_ =? 0); [exact J|]. rewrite transmit_eq. destruct (tcp_tx_ok _); [apply (la_pkt I L)|]; exact J.
Qed.
Lemma keeps_giveup I : lasting I -> keeps_it I give_up.
Proof.
  intros L s J. rewrite give_up_eq. destruct (tcp_tx_ok _); [|exact J].
  assert (G : I (gone s)).
  { apply (la_pkt I L (snd_una s) false true false true []) in J. unfold gone. change (ev_rx s) with (ev_rx (pkt (snd_una s) false true false true [] s)).
    change (ev_conn s) with (ev_conn (pkt (snd_una s) false true false true [] s)). change (conn_err s) with (conn_err (pkt (snd_una s) false true false true [] s)).
    destruct (in_state [ESTABLISHED; FIN_WAIT_1; FIN_WAIT_2; CLOSE_WAIT] s).
    - apply (la_end I L CLOSED) in J; [|auto]. apply (la_err I L TimedOut) in J. destruct (in_state [SYN_SENT] s); [|exact J].
      apply (la_conn I L (ev_conn (pkt (snd_una s) false true false true [] s) + 1)) in J. exact J.
    - apply (la_moved I L CLOSED) in J; [|discriminate]. destruct (in_state [SYN_SENT] s); [|exact J].
      apply (la_err I L TimedOut) in J. apply (la_conn I L (ev_conn (pkt (snd_una s) false true false true [] s) + 1)) in J. exact J. }
  destruct (reg s); [apply (la_reg I L)|]; exact G.
Qed.
Lemma keeps_timeout I : lasting I -> keeps_it I retransmit_timeout.
Proof.
  intros L s J. unfold retransmit_timeout. destruct (dget _ _); [|exact J]. destruct (expired _ _); [|exact J].
  destruct (_ =? _); [apply keeps_giveup; auto|apply (la_rewind I L); exact J].
Qed.
Lemma keeps_delayed I : lasting I -> keeps_it I delayed_ack.
Proof. intros L. unfold delayed_ack, register_timer. pose proof (keeps_ack I L). kp; auto. Qed.
Ltac kq := match goal with L : lasting _ |- _ => repeat first
  [ kp1 L
  | match goal with
    | |- keeps_it _ transmit_ack => apply keeps_ack; exact L
    | |- keeps_it _ transmit_data => apply keeps_data; exact L
    | |- keeps_it _ retransmit_timeout => apply keeps_timeout; exact L
    | |- keeps_it _ delayed_ack => apply keeps_delayed; exact L
    | |- keeps_it _ (process_ack _ _) => apply keeps_process; [intros ?; kleaf L|intros ? ?; kleaf L|assumption]
    end ] end.
Lemma keeps_fsm I : lasting I -> forall fuel e, keeps_it I (fsm fuel e).
Proof.
  intros L. induction fuel as [|fuel IH]; intros e s J; [exact J|]. cbn [fsm].
  assert (N : forall q, keeps_it I (fsm fuel (EPacket q))) by (intros q; apply IH).
  destruct (st s); revert s J; (match goal with |- forall s, I s -> I (fst (?f s)) => change (keeps_it I f) end).
  - unfold fsm_closed. destruct e as [p|[]|]; kq.
  - unfold fsm_listen. destruct e as [p|[]|]; kq.
  - unfold fsm_syn_sent, release_conn. destruct e as [p|[]|]; kq.
  - unfold fsm_syn_rcvd, release_conn. destruct e as [p|[]|]; kq.
  - unfold fsm_established, store_ooo, retransmit_request. destruct e as [p|[]|]; kq.
  - unfold fsm_fin_wait_1, enter_time_wait, register_timer. destruct e as [p|[]|]; kq.
  - unfold fsm_fin_wait_2, enter_time_wait, register_timer. destruct e as [p|[]|]; kq.
  - assert (T : keeps_it I enter_time_wait) by (unfold enter_time_wait, register_timer; kq).
    unfold fsm_closing. destruct e as [p|[]|]; try (intros s J; exact J). destruct (is_ack p); [|kq]. intros s J. unfold pwhen, pif.
    destruct ((d_ackn p =? snd_nxt s) && ack_ok p s) eqn:C; [|exact J]. apply andb_true_iff in C. destruct C as [_ C]. apply ack_ok_iff in C.
    rewrite pbind_do. apply T. apply (la_una I L); [apply C|exact J].
  - unfold fsm_close_wait, store_ooo, retransmit_request. destruct e as [p|[]|]; kq.
  - unfold fsm_last_ack. destruct e as [p|[]|]; kq.
  - unfold fsm_time_wait. destruct e as [p|[]|]; kq.
Qed.

(** * The timers *)
Lemma tkey_eqb_eq a b : tkey_eqb a b = true <-> a = b.
Proof. destruct a, b; cbn; try (split; congruence). rewrite Z.eqb_eq. split; congruence. Qed.
Lemma tkey_refl a : tkey_eqb a a = true. Proof. apply tkey_eqb_eq. reflexivity. Qed.
Lemma tget_set k j v l : tget j (tset k v l) = if tkey_eqb k j then Some v else tget j l.
Proof.
  induction l as [|[i w] l IH]; cbn; [reflexivity|]. destruct (tkey_eqb i k) eqn:E; cbn.
  - apply tkey_eqb_eq in E. subst. destruct (tkey_eqb k j); reflexivity.
  - rewrite IH. destruct (tkey_eqb i j) eqn:E1; [|reflexivity]. apply tkey_eqb_eq in E1. subst.
    destruct (tkey_eqb k j) eqn:E2; [apply tkey_eqb_eq in E2; subst; rewrite tkey_refl in E; discriminate|reflexivity].
Qed.
Lemma tset_keys k v l x : In x (map fst (tset k v l)) -> x = k \/ In x (map fst l).
Proof.
  induction l as [|[i w] l IH]; cbn; [intros [<-|[]]; auto|]. destruct (tkey_eqb i k) eqn:E; cbn.
  - intros [<-|H]; auto.
  - intros [<-|H]; auto. apply IH in H. tauto.
Qed.
Lemma tset_nodup k v l : NoDup (map fst l) -> NoDup (map fst (tset k v l)).
Proof.
  induction l as [|[i w] l IH]; cbn; intros N; [repeat constructor; auto|]. inversion N as [|x y N1 N2]; subst.
  destruct (tkey_eqb i k) eqn:E; cbn; constructor; auto. intros H. apply tset_keys in H. destruct H as [->|H]; [|auto]. rewrite tkey_refl in E. discriminate.
Qed.
Lemma tdec_keys l x : In x (map fst (tdec l)) -> In x (map fst l).
Proof.
  unfold tdec. induction l as [|[i w] l IH]; cbn; [tauto|]. destruct (negb _); cbn; intros H; [destruct H|]; auto.
Qed.
Lemma tdec_nodup l : NoDup (map fst l) -> NoDup (map fst (tdec l)).
Proof.
  induction l as [|[i w] l IH]; intros N; [constructor|]. inversion N as [|x y N1 N2]; subst.
  unfold tdec in *. cbn. destruct (negb _); cbn; auto. constructor; auto. intros H. apply N1. apply tdec_keys. exact H.
Qed.
Lemma tget_none k l : ~ In k (map fst l) -> tget k l = None.
Proof.
  induction l as [|[i w] l IH]; cbn; auto. intros H. destruct (tkey_eqb i k) eqn:E; [apply tkey_eqb_eq in E; tauto|]. auto.
Qed.
Lemma tget_dec k l : NoDup (map fst l) -> tget k (tdec l) = match tget k l with None => None | Some v => if v - 1 =? 0 then None else Some (v - 1) end.
Proof.
  induction l as [|[i w] l IH]; intros N; [reflexivity|]. inversion N as [|x y N1 N2]; subst. specialize (IH N2).
  change (tdec ((i, w) :: l)) with (if negb (w - 1 =? 0) then (i, w - 1) :: tdec l else tdec l). cbn [tget].
  destruct (w - 1 =? 0) eqn:E; cbn [negb].
  - destruct (tkey_eqb i k) eqn:K; [|exact IH]. apply tkey_eqb_eq in K. subst. rewrite E. apply tget_none. intros H. apply N1, tdec_keys, H.
  - cbn [tget]. destruct (tkey_eqb i k); [rewrite E; reflexivity|exact IH].
Qed.
(** the timers stay a dict *)
Definition timers_ok (s : sess) : Prop := NoDup (map fst (tmr s)).
Lemma timers_lasting : lasting timers_ok.
Proof.
  constructor; unfold timers_ok; intros; try assumption.
  - apply tset_nodup. assumption.
  - rewrite rewind_eq. assumption.
  - unfold pkt. cbv zeta. cbn [tmr]. destruct (_ || _), (in_state _ _); auto using tset_nodup.
Qed.
Lemma timers_fsm e s : timers_ok s -> timers_ok (fst (tcp_fsm e s)).
Proof. unfold tcp_fsm. apply keeps_fsm. exact timers_lasting. Qed.
Lemma timers_start iss c : opened iss c -> timers_ok (c_sess c).
Proof. intros (_ & call & lip & lport & rip & rport & timers & K & N & ->). unfold start. cbn [c_sess]. apply timers_fsm. exact N. Qed.
Lemma timers_do o c : timers_ok (c_sess c) -> timers_ok (c_sess (fst (op_do o c))).
Proof.
  intros H. destruct o; cbn [op_do].
  - unfold tick. rewrite pbind_do. unfold with_sess. cbn [fst c_sess]. apply timers_fsm. apply tdec_nodup. exact H.
  - unfold with_sess. cbn [fst c_sess]. apply timers_fsm. exact H.
  - unfold with_sess. cbn [fst c_sess]. apply timers_fsm. exact H.
  - unfold session_send. destruct (in_state _ _); exact H.
  - unfold read_step. destruct (c_rd c i); [destruct (0 <? _)|destruct (_ =? 0)|destruct (ended _)|cbv zeta; destruct (_ || _)]; exact H.
Qed.
Lemma timers_reach iss allowed c0 c : opened iss c0 -> reach allowed c0 c -> timers_ok (c_sess c).
Proof. intros O R. induction R; [eapply timers_start; eauto|apply timers_do; assumption]. Qed.

(** * Entering TIME-WAIT *)
Definition calm (s : sess) : Prop := ooo_ok s /\ st s <> CLOSING /\ st s <> TIME_WAIT.
Lemma calm_change n : n <> CLOSING -> n <> TIME_WAIT -> keeps_it calm (change_state n).
Proof.
  intros A B. unfold change_state. apply keeps_bind; [apply leads_do; intros s (O & _); split; [exact O|split; assumption]|]. intros _. apply keeps_when.
  intros s J. destruct (reg s); exact J.
Qed.
Lemma calm_tx o syn ack fin rst data : keeps_it calm (transmit_packet o syn ack fin rst data).
Proof. apply keeps_tx. intros s J. exact J. Qed.
Lemma calm_rewind s : calm s -> calm (rewind s).
Proof. intros J. rewrite rewind_eq. exact J. Qed.
Ltac ck := repeat match goal with
  | |- keeps_it _ (pbind _ _) => apply keeps_bind; [|intros ?]
  | |- keeps_it _ (pif _ _ _) => apply keeps_if
  | |- keeps_it _ (pwhen _ _) => apply keeps_when
  | |- keeps_it _ (pret _) => apply keeps_ret
  | |- keeps_it _ (passert _) => apply keeps_assert
  | |- keeps_it calm (change_state _) => apply calm_change; discriminate
  | |- keeps_it calm (transmit_packet _ _ _ _ _ _) => apply calm_tx
  | |- keeps_it calm (pdo _) => apply leads_do; let H := fresh in intros ? H; first [exact H | apply calm_rewind; exact H]
  | |- keeps_it _ (if ?c then _ else _) => destruct c
  end.
Lemma calm_data : keeps_it calm transmit_data.
Proof. unfold transmit_data. ck. intros s J. cbv zeta. destruct (_ =? 0); [exact J|]. apply calm_tx. exact J. Qed.
Lemma calm_giveup : keeps_it calm give_up.
Proof. unfold give_up, release_rx, release_conn. ck. intros s J. apply calm_tx. exact J. Qed.
Lemma calm_timeout : keeps_it calm retransmit_timeout.
Proof.
  intros s J. unfold retransmit_timeout. destruct (dget _ _); [|exact J]. destruct (expired _ _); [|exact J].
  destruct (_ =? _); [apply calm_giveup; auto|apply calm_rewind; exact J].
Qed.
Lemma calm_acked p s : calm s -> calm (acked p s). Proof. intros J. exact J. Qed.
(** packets from the queue neither enter CLOSING nor TIME-WAIT *)
Lemma calm_process again p : (forall q, is_ack q = true -> keeps_it calm (again q)) -> keeps_it calm (process_ack again p).
Proof.
  intros N s J. rewrite process_eq. cbv zeta. set (s1 := acked p s). assert (J1 : calm s1) by exact J. clearbody s1.
  destruct (dget _ _) as [q|] eqn:E; [|exact J1]. apply dget_in in E. destruct J1 as (O & A & B). apply N; [eapply O; eauto|].
  split; [|split; assumption]. intros k x H. cbn [ooo set_ooo] in H. apply in_ddel in H. apply O; auto.
Qed.
Lemma calm_store p : is_ack p = true -> keeps_it calm (store_ooo p).
Proof.
  intros A. unfold store_ooo, transmit_ack. ck. apply leads_do. intros s (O & B & C). split; [|split; assumption].
  intros k q H. cbn [ooo set_ooo] in H. apply in_dset in H. destruct H as [E|H]; [injection E as -> ->; auto|apply O; exact H].
Qed.
Lemma calm_nested fuel : forall q, is_ack q = true -> keeps_it calm (fsm fuel (EPacket q)).
Proof.
  induction fuel as [|fuel IH]; intros q A s J; [exact J|]. cbn [fsm].
  assert (F : is_finack q = false). { destruct (is_finack q) eqn:F; auto. apply finack_not_ack in F. congruence. }
  pose proof (calm_process _ q IH) as PR. pose proof (calm_store q A) as SO.
  assert (X : st s <> CLOSING /\ st s <> TIME_WAIT) by apply J. destruct (st s); try (exfalso; tauto); clear X; revert s J;
    match goal with |- forall s, calm s -> calm (fst (?f s)) => change (keeps_it calm f) end.
  - unfold fsm_closed. ck.
  - unfold fsm_listen. ck.
  - unfold fsm_syn_sent, release_conn, transmit_ack. ck; try exact PR.
  - unfold fsm_syn_rcvd, release_conn. ck; try exact PR.
  - unfold fsm_established, retransmit_request, release_rx, transmit_ack. rewrite F, A. ck; auto.
  - unfold fsm_fin_wait_1, transmit_ack. rewrite A. ck; auto.
  - unfold fsm_fin_wait_2, transmit_ack. rewrite A. ck; auto.
  - unfold fsm_close_wait, retransmit_request, transmit_ack. rewrite A. ck; auto.
  - unfold fsm_last_ack, transmit_ack. rewrite A. ck; auto.
Qed.
(** whoever enters TIME-WAIT has just set its timer *)
Definition fresh (s : sess) : Prop := st s = TIME_WAIT -> tget TTimeWait (tmr s) = Some TIME_WAIT_DELAY.
Lemma fresh_enter (I : sess -> Prop) : leads I enter_time_wait fresh.
Proof.
  intros s _. unfold enter_time_wait, change_state, register_timer, pbind, pwhen, pif, pdo, pret.
  change (in_state [CLOSED] (set_st TIME_WAIT (set_hist (hist s ++ [(st s, TIME_WAIT)]) s))) with false. cbv iota beta. cbn [fst].
  intros _. cbn [tmr set_tmr]. rewrite tget_set, tkey_refl. reflexivity.
Qed.
Lemma calm_fresh s : calm s -> fresh s.
Proof. intros (_ & _ & T) E. congruence. Qed.
Lemma fresh_keeps {A} (m : P A) : keeps_it calm m -> leads calm m fresh.
Proof. intros K s J. apply calm_fresh, K, J. Qed.
Lemma fresh_closing n : n <> TIME_WAIT -> leads calm (change_state n) fresh.
Proof.
  intros A s J. unfold change_state. rewrite pbind_do. unfold pwhen, pif. destruct (in_state _ _); [|intros E; exfalso; apply A; exact E].
  destruct (reg _); intros E; exfalso; apply A; exact E.
Qed.
Lemma leads_pre {A} (I J Q : sess -> Prop) (m : P A) : (forall s, J s -> I s) -> leads I m Q -> leads J m Q.
Proof. intros W L s H. apply L, W, H. Qed.
Lemma enters_fresh e s : ooo_ok s -> st s <> TIME_WAIT -> fresh (fst (tcp_fsm e s)).
Proof.
  intros O N. unfold tcp_fsm. cbn [fsm]. set (again := fun p => fsm (length (ooo s)) (EPacket p)).
  assert (PR : forall p, keeps_it calm (process_ack again p)). { intros p. apply calm_process. intros q. apply calm_nested. }
  clearbody again. assert (C : st s <> CLOSING -> calm s) by (intros; split; [|split]; assumption).
  destruct (st s) eqn:S; try congruence.
  1-7,9-10: specialize (C ltac:(discriminate)); clear O N S; revert s C;
    match goal with |- forall s, calm s -> fresh (fst (?f s)) => change (leads calm f fresh) end.
  - apply fresh_keeps. unfold fsm_closed. destruct e as [p|[]|]; ck.
  - apply fresh_keeps. unfold fsm_listen. destruct e as [p|[]|]; ck.
  - apply fresh_keeps. unfold fsm_syn_sent, release_conn, transmit_ack. destruct e as [p|[]|]; ck; auto using calm_timeout, calm_data.
  - apply fresh_keeps. unfold fsm_syn_rcvd, release_conn. destruct e as [p|[]|]; ck; auto using calm_timeout, calm_data.
  - apply fresh_keeps. unfold fsm_established, retransmit_request, release_rx, transmit_ack, delayed_ack, register_timer, transmit_ack.
    destruct e as [p|[]|]; [destruct (is_ack p) eqn:A; [pose proof (calm_store p A)|]|..]; ck; auto using calm_timeout, calm_data.
  - unfold fsm_fin_wait_1, transmit_ack. destruct e as [p|c|]; [|apply fresh_keeps; ck|apply fresh_keeps; ck; auto using calm_timeout, calm_data].
    destruct (is_ack p); [apply fresh_keeps; ck; auto|]. destruct (is_finack p); [|apply fresh_keeps; ck].
    apply leads_if; [|intros s [J _]; apply calm_fresh; exact J]. eapply leads_pre; [intros s [J _]; exact J|].
    eapply leads_bind; [apply PR|apply calm_fresh|]. intros _. eapply leads_bind; [apply calm_tx|apply calm_fresh|]. intros _.
    apply leads_if; [apply fresh_enter|]. eapply leads_pre; [intros s [J _]; exact J|]. apply fresh_closing. discriminate.
  - unfold fsm_fin_wait_2, transmit_ack. destruct e as [p|c|]; [|apply fresh_keeps; ck|apply fresh_keeps; ck].
    destruct (is_ack p); [apply fresh_keeps; ck; auto|]. destruct (is_finack p); [|apply fresh_keeps; ck].
    apply leads_if; [|intros s [J _]; apply calm_fresh; exact J]. eapply leads_pre; [intros s [J _]; exact J|].
    eapply leads_bind; [apply PR|apply calm_fresh|]. intros _. eapply leads_bind; [apply calm_tx|apply calm_fresh|]. intros _. apply fresh_enter.
  - apply fresh_keeps. unfold fsm_close_wait, retransmit_request, transmit_ack, delayed_ack, register_timer, transmit_ack.
    destruct e as [p|[]|]; [destruct (is_ack p) eqn:A; [pose proof (calm_store p A)|]|..]; ck; auto using calm_timeout, calm_data.
  - apply fresh_keeps. unfold fsm_last_ack. destruct e as [p|[]|]; ck; auto using calm_timeout, calm_data.
  - assert (F : fresh s) by (intros E; congruence). clear C. unfold fsm_closing. destruct e as [p|c|]; [|exact F|exact F].
    destruct (is_ack p).
    + unfold pwhen, pif. destruct (_ && _); [|exact F]. rewrite pbind_do. apply (fresh_enter (fun _ => True)). exact Logic.I.
    + destruct (is_rstack p); [|exact F]. unfold pwhen, pif. destruct (fits p s); [|exact F]. unfold change_state. rewrite pbind_do. unfold pwhen, pif.
      destruct (in_state _ _); [destruct (reg _)|]; intros E; discriminate E.
Qed.

(** * The stay in TIME-WAIT *)
Definition waiting (v : Z) (c : conn) : Prop := timers_ok (c_sess c) /\ st (c_sess c) = TIME_WAIT /\ tget TTimeWait (tmr (c_sess c)) = Some v /\ 0 < v.
Lemma waiting_segment p c : st (c_sess c) = TIME_WAIT -> tcp_fsm (EPacket p) (c_sess c) = (c_sess c, Ok tt).
Proof. intros E. unfold tcp_fsm. cbn [fsm]. rewrite E. reflexivity. Qed.
Lemma waiting_do v o c : waiting v c -> let c' := fst (op_do o c) in
  sent (c_sess c') = sent (c_sess c) /\
  match o with
  | OTick => if v =? 1 then st (c_sess c') = CLOSED else waiting (v - 1) c'
  | _ => waiting v c'
  end.
Proof.
  intros (T & S & G & V). pose proof (timers_do o c T) as T'. destruct o; cbv zeta; cbn [op_do] in *.
  - unfold tick in *. rewrite pbind_do in *. unfold with_sess in *. cbn [fst c_sess] in *. set (s1 := set_tmr (tdec (tmr (c_sess c))) (c_sess c)) in *.
    assert (S1 : st s1 = TIME_WAIT) by exact S.
    assert (G1 : tget TTimeWait (tmr s1) = if v - 1 =? 0 then None else Some (v - 1)).
    { unfold s1. cbn [tmr set_tmr]. rewrite tget_dec by exact T. rewrite G. reflexivity. }
    assert (H1 : sent s1 = sent (c_sess c)) by reflexivity. clearbody s1.
    unfold tcp_fsm in *. cbn [fsm] in *. rewrite S1 in *. cbn [fsm_time_wait] in *. unfold pwhen, pif, expired in *. rewrite G1 in *.
    destruct (v =? 1) eqn:E; destruct (v - 1 =? 0) eqn:E1; rewrite ?Z.eqb_eq, ?Z.eqb_neq in *; try (exfalso; lia).
    + unfold change_state. rewrite pbind_do. unfold pwhen, pif. change (in_state [CLOSED] (set_st CLOSED _)) with true. cbv iota.
      destruct (reg _); split; try exact H1; reflexivity.
    + destruct (v - 1 =? 0) eqn:E2; [apply Z.eqb_eq in E2; lia|]. cbn [fst pret] in *. split; [exact H1|]. repeat split; auto. lia.
  - rewrite (waiting_segment p c S) in *. repeat split; auto.
  - unfold with_sess, tcp_fsm in *. cbn [fst c_sess fsm] in *. rewrite S in *. cbn in *. repeat split; auto.
  - unfold session_send in *. unfold in_state. rewrite S in *. cbn in *. repeat split; auto.
  - unfold read_step in *. destruct (c_rd c i); [destruct (0 <? _)|destruct (_ =? 0)|destruct (ended _)|cbv zeta; destruct (_ || _)]; repeat split; auto.
Qed.
Lemma closed_do o c : st (c_sess c) = CLOSED -> let c' := fst (op_do o c) in st (c_sess c') = CLOSED /\ sent (c_sess c') = sent (c_sess c).
Proof.
  intros S. destruct o; cbv zeta; cbn [op_do].
  - unfold tick. rewrite pbind_do. unfold with_sess, tcp_fsm. cbn [fst c_sess fsm]. change (st (set_tmr _ (c_sess c))) with (st (c_sess c)). rewrite S. cbn. auto.
  - unfold with_sess, tcp_fsm. cbn [fst c_sess fsm]. rewrite S. cbn. auto.
  - unfold with_sess, tcp_fsm. cbn [fst c_sess fsm]. rewrite S. cbn. auto.
  - unfold session_send, in_state. rewrite S. cbn. auto.
  - unfold read_step. destruct (c_rd c i); [destruct (0 <? _)|destruct (_ =? 0)|destruct (ended _)|cbv zeta; destruct (_ || _)]; auto.
Qed.
Lemma run_head o l c : fst (op_run (o :: l) c) = fst (op_run l (fst (op_do o c))).
Proof. cbn [op_run]. destruct (op_do o c) as [c1 r]. cbn [fst]. destruct (op_run l c1). reflexivity. Qed.
Lemma closed_run l : forall c, st (c_sess c) = CLOSED -> st (c_sess (fst (op_run l c))) = CLOSED /\ sent (c_sess (fst (op_run l c))) = sent (c_sess c).
Proof.
  induction l as [|o l IH]; intros c S; [auto|]. rewrite run_head. destruct (closed_do o c S) as [S1 T1]. destruct (IH _ S1) as [S2 T2]. split; congruence.
Qed.
Lemma ticks_cons o l : ticks (o :: l) = match o with OTick => 1 | _ => 0 end + ticks l.
Proof. unfold ticks. destruct o; cbn [filter]; rewrite ?zlen_cons; lia. Qed.
Lemma waiting_run l : forall v c, waiting v c ->
  sent (c_sess (fst (op_run l c))) = sent (c_sess c) /\
  st (c_sess (fst (op_run l c))) = if ticks l <? v then TIME_WAIT else CLOSED.
Proof.
  induction l as [|o l IH]; intros v c W.
  - destruct W as (_ & S & _ & V). split; [reflexivity|]. change (ticks []) with 0. destruct (0 <? v) eqn:E; [exact S|apply Z.ltb_ge in E; lia].
  - rewrite run_head, ticks_cons. pose proof (zlen_nonneg (filter (fun o => match o with OTick => true | _ => false end) l)) as NN. fold (ticks l) in NN.
    pose proof (waiting_do v o c W) as D. cbv zeta in D. destruct D as [D1 D2].
    destruct o; [destruct (v =? 1) eqn:E|..].
    + apply closed_run with (l := l) in D2. destruct D2 as [D2 D3]. split; [congruence|]. apply Z.eqb_eq in E. subst.
      destruct (1 + ticks l <? 1) eqn:F; [apply Z.ltb_lt in F; lia|exact D2].
    + apply IH in D2. destruct D2 as [D2 D3]. split; [congruence|]. rewrite D3. destruct (ticks l <? v - 1) eqn:F, (1 + ticks l <? v) eqn:F1; auto; rewrite ?Z.ltb_lt, ?Z.ltb_ge in *; lia.
    + apply IH in D2. destruct D2 as [D2 D3]. split; [congruence|exact D3].
    + apply IH in D2. destruct D2 as [D2 D3]. split; [congruence|exact D3].
    + apply IH in D2. destruct D2 as [D2 D3]. split; [congruence|exact D3].
    + apply IH in D2. destruct D2 as [D2 D3]. split; [congruence|exact D3].
Qed.
Lemma enter_waiting iss c0 c o : opened iss c0 -> reach any_op c0 c -> st (c_sess c) <> TIME_WAIT -> st (c_sess (fst (op_do o c))) = TIME_WAIT ->
  waiting TIME_WAIT_DELAY (fst (op_do o c)).
Proof.
  intros O R N E. pose proof (timers_reach _ _ _ _ O R) as T. apply (timers_do o) in T.
  pose proof (reach_good false iss any_op c0 c O (any_ok iss) R) as [[P0 _] _]. destruct P0 as (_ & _ & Q & _).
  split; [exact T|split; [exact E|split; [|unfold TIME_WAIT_DELAY; lia]]].
  destruct o; cbn [op_do] in *.
  - unfold tick in *. rewrite pbind_do in *. unfold with_sess in *. cbn [fst c_sess] in *. apply enters_fresh; auto.
  - apply enters_fresh; auto.
  - apply enters_fresh; auto.
  - exfalso. unfold session_send in E. destruct (in_state _ _); apply N; exact E.
  - exfalso. apply N. unfold read_step in E. destruct (c_rd c i); [destruct (0 <? _)|destruct (_ =? 0)|destruct (ended _)|cbv zeta in E; destruct (_ || _)]; exact E.
Qed.
Lemma time_wait_exact iss c0 c o l : opened iss c0 -> reach any_op c0 c -> st (c_sess c) <> TIME_WAIT -> st (c_sess (fst (op_do o c))) = TIME_WAIT ->
  let c1 := fst (op_do o c) in let c2 := fst (op_run l c1) in
  sent (c_sess c2) = sent (c_sess c1) /\ st (c_sess c2) = if ticks l <? 30000 then TIME_WAIT else CLOSED.
Proof. intros O R N E. cbv zeta. apply waiting_run. change 30000 with TIME_WAIT_DELAY. eapply enter_waiting; eauto. Qed.
