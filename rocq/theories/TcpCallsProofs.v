(** send() and close() of TCP sockets. *)
From Verif Require Import Base BaseLemmas AddrModel TcpModel StackModel StackRxModel UdpApiModel SpecUdpApi SessModel TcpApiModel SpecSess SpecTcpApi UdpApiProofs SessProofs SessTrace SessHand SessFork TcpApiProofs TcpApiProofs2 SpecTcpReg TcpRegProofs SpecTcpCalls.

(** ** A socket with a peer has a session *)
Definition met (w : tworld) : Prop := forall k, (k < tw_nsock w)%nat -> t_sess (tw_sock w k) = None -> ~ has_peer (tw_sock w k).
Lemma met_sock w i t : met w -> (t_sess t = None -> t_sess (tw_sock w i) = None /\ t_rip t = t_rip (tw_sock w i) /\ t_rport t = t_rport (tw_sock w i)) -> met (put_sock i t w).
Proof.
  intros H E k L. cbn [tw_sock tw_nsock put_sock] in *. destruct (Nat.eq_dec k i) as [->|N]; [rewrite upd_same|rewrite upd_other by exact N; exact (H k L)].
  intros X. destruct (E X) as (A & B & C). unfold has_peer. rewrite B, C. exact (H i L A).
Qed.
Lemma met_add w t : met w -> (t_sess t = None -> ~ has_peer t) -> met (add_sock t w).
Proof.
  intros H E k L. cbn [tw_sock tw_nsock add_sock] in *. destruct (Nat.eq_dec k (tw_nsock w)) as [->|N]; [rewrite upd_same; exact E|rewrite upd_other by exact N; apply H; lia].
Qed.
Lemma met_effect old iss j e w : met w -> met (effect old iss j e w).
Proof.
  intros H. destruct e as [|p]; unfold effect.
  - destruct (t_parent _) as [r|]; [|exact H]. apply met_sock; [exact H|]. auto.
  - cbv zeta. generalize (listening_session (s_lip old) (s_lport old) (s_rip old) (s_rport old) iss). intros ls.
    apply (met_add (put_sock (tw_owner w j) (with_sess_of (tw_nsess w) (tw_sock (add_sess ls (tw_owner w j) w) (tw_owner w j))) (add_sess ls (tw_owner w j) w))); [|discriminate].
    apply met_sock; [exact H|discriminate].
Qed.
Lemma met_call j iss m w : met w -> met (fst (session_call j iss m w)).
Proof.
  intros H. assert (K : met (called j iss m w)).
  { unfold called. generalize (skipn (length (effs (tw_sess w j))) (effs (fst (m (set_reg (registered (tcp_key (tw_sock w (tw_owner w j))) (tw_table w)) (tw_sess w j)))))). intros l.
    generalize (tw_sess w j) at 1. intros old. set (s := fst _). clearbody s.
    assert (A : met (put_sess j s w)) by exact H. revert A. generalize (put_sess j s w). clear - l. induction l as [|e l IH]; intros w A; [exact A|].
    cbn [fold_left]. apply IH. apply met_effect. exact A. }
  destruct (call_eq j iss m w) as [-> | ->]; exact K.
Qed.
Lemma met_step o w : met w -> met (fst (top_do o w)).
Proof.
  intros H. destruct o as [f|c i t p|c i t p iss|i iss|i|i|i d|j n r|c i|c|p iss|j|a|k i|k]; cbn [top_do].
  - apply met_add; [exact H|]. intros _ [A _]. apply A. destruct f; [left|right]; reflexivity.
  - unfold on_tsock. destruct (Nat.ltb _ _); [|exact H]. cbn [tret_of fst]. unfold tcp_bind. destruct (bound_port _); [exact H|]. destruct t as [a|]; [|exact H]. destruct (negb _); [exact H|]. destruct (negb _); [exact H|].
    destruct (if 0 <? p then _ else _) as [x|x]; [|exact H]. apply (met_sock w i); [exact H|]. auto.
  - unfold on_tsock. destruct (Nat.ltb _ _); [|exact H]. cbn [tret_of fst]. unfold tcp_connect. destruct (negb _); [exact H|]. destruct (if bound_port _ then _ else _) as [x|x]; [|exact H].
    destruct (tcp_set_ip _ _ _ _ _) as [[lip rip]|x']; [|exact H]. cbv zeta. apply met_call. intros k L. cbn [tw_sock tw_nsock put_sock add_sess tcp_register put_table] in *.
    destruct (Nat.eq_dec k i) as [->|N]; [rewrite upd_same; discriminate|rewrite !upd_other by exact N; exact (H k L)].
  - unfold on_tsock. destruct (Nat.ltb _ _); [|exact H]. cbn [tret_of fst]. unfold tcp_listen. cbv zeta. apply met_call. apply (met_sock (add_sess _ i w) i); [exact H|discriminate].
  - unfold on_tsock, accept_acquire. destruct (Nat.ltb _ _); [|exact H]. cbn [fst]. destruct (_ <? _); [|exact H]. apply met_sock; [exact H|]. auto.
  - unfold on_tsock, accept_pop. destruct (Nat.ltb _ _); [|exact H]. destruct (_ <? _); [|exact H]. destruct (t_queue _); cbn [fst]; (apply met_sock; [exact H|]; auto).
  - unfold on_tsock, tcp_send. destruct (Nat.ltb _ _); [|exact H]. cbn [tret_of fst]. destruct (_ || _); [exact H|]. destruct (t_sess _); [|exact H]. destruct (session_send _ _) as [s [n'|e]]; exact H.
  - destruct (Nat.ltb _ _); exact H.
  - unfold on_tsock, close_load. destruct (Nat.ltb _ _); [|exact H]. cbn [tret_of fst]. destruct (t_sess _); exact H.
  - cbn [tret_of fst]. unfold close_call. destruct (tw_close w c) as [j|]; [|exact H]. apply met_call. exact H.
  - destruct (segment_target _ _) as [i|]; [|exact H]. unfold on_tsock. destruct (Nat.ltb _ _); [|exact H]. cbn [tret_of fst]. unfold deliver. destruct (t_sess _) as [j|]; [|exact H]. apply met_call. exact H.
  - destruct (Nat.ltb _ _); [|exact H]. cbn [tret_of fst]. apply met_call. exact H.
  - exact H.
  - exact H.
  - exact H.
Qed.
Lemma met_history ops w0 w : history ops w0 w -> met w.
Proof.
  intros [F ->]. assert (M : met w0) by (intros k L; destruct F as [N _]; rewrite N in L; inversion L).
  revert M. clear F. revert w0. induction ops as [|o r IH]; intros w0 M; [exact M|]. cbn [top_run]. apply IH, met_step. exact M.
Qed.

(** ** send() *)
Lemma writable_iff s : in_state [ESTABLISHED; CLOSE_WAIT] s = true <-> writable s.
Proof. unfold in_state, writable. destruct (st s); cbn; intuition discriminate. Qed.
Lemma peer_iff t : is_unspecified (t_rip t) || (t_rport t =? 0) = false <-> has_peer t.
Proof.
  rewrite orb_false_iff, Z.eqb_neq. unfold has_peer. rewrite <- UdpApiProofs.unspecified_iff. destruct (is_unspecified _); intuition discriminate.
Qed.
Lemma only_put j s w : only_session j s w (put_sess j s w).
Proof. split; cbn; auto; [apply upd_same|intros x N; apply upd_other; exact N]. Qed.
Lemma send_outcomes ops w0 w i d : history ops w0 w -> (i < tw_nsock w)%nat -> send_outcome i d w (fst (tcp_send i d w)) (snd (tcp_send i d w)).
Proof.
  intros H L. pose proof (met_history _ _ _ H i L) as M. unfold send_outcome, tcp_send. destruct (is_unspecified _ || _) eqn:P.
  - left. split; [|split; reflexivity]. intros X. apply peer_iff in X. congruence.
  - apply peer_iff in P. right. split; [exact P|]. destruct (t_sess _) as [j|]; [|destruct (M eq_refl P)]. exists j. split; [reflexivity|].
    unfold session_send. destruct (in_state _ _) eqn:E; cbn [fst snd]; (split; [reflexivity|]; split; [reflexivity|]).
    + left. apply writable_iff in E. split; [exact E|]. split; [reflexivity|]. apply only_put.
    + right. split; [|split; [reflexivity|]; apply only_put]. intros X. apply writable_iff in X. congruence.
Qed.

(** ** close() *)
Lemma pop_absent k t : sock_get k t = None -> sock_pop k t = t.
Proof.
  unfold sock_pop, sock_get. induction t as [|[x i] t IH]; [reflexivity|]. cbn [find filter fst]. destruct (skey_eqb k x); intros H; [discriminate H|]. cbn [negb]. rewrite IH by exact H. reflexivity.
Qed.
Lemma no_effects (s : sess) e : effs s = e -> skipn (length e) (effs s) = [].
Proof. intros ->. apply skipn_all. Qed.
Lemma close_outcomes c w j : tw_close w c = Some j -> close_outcome j w (fst (close_call c w)) (snd (close_call c w)).
Proof.
  intros E. unfold close_call. rewrite E. unfold session_call. cbn [tw_sess tw_sock tw_owner tw_table put_close].
  set (s := tw_sess w j). set (k := tcp_key (tw_sock w (tw_owner w j))). set (b := registered k (tw_table w)).
  assert (PA : b = false -> sock_pop k (tw_table w) = tw_table w).
  { unfold b, registered. intros X. apply pop_absent. destruct (sock_get k (tw_table w)); [discriminate X|reflexivity]. }
  assert (STAY : forall s', effs s' = effs s -> reg s' = b ->
    let w1 := put_sess j s' (put_close c None w) in
    let w' := if reg s' then w1 else put_table (sock_pop (tcp_key (tw_sock w1 (tw_owner w1 j))) (tw_table w1)) w1 in
    only_session j s' w w' /\ tw_table w' = tw_table w).
  { intros s' _ R w1 w'. unfold w'. rewrite R. destruct b eqn:B; (split; [split; cbn; auto; [apply upd_same|intros x N; apply upd_other; exact N]|]); [reflexivity|]. cbn. apply PA. reflexivity. }
  unfold close_outcome. fold s k b.
  assert (CASES : (In (st s) [LISTEN; SYN_SENT] /\ tcp_fsm (ECall Close) (set_reg b s) = if b then (set_reg false (moved CLOSED (set_reg b s)), Ok tt) else (moved CLOSED (set_reg b s), Exn KeyError)) \/
    (st s = SYN_RCVD /\ tcp_fsm (ECall Close) (set_reg b s) = (moved FIN_WAIT_1 (set_reg b s), Ok tt)) \/
    (writable s /\ tcp_fsm (ECall Close) (set_reg b s) = (set_closing true (set_reg b s), Ok tt)) \/
    (In (st s) [FIN_WAIT_1; FIN_WAIT_2; CLOSING; LAST_ACK; TIME_WAIT; CLOSED] /\ tcp_fsm (ECall Close) (set_reg b s) = (set_reg b s, Ok tt))).
  { clear. clearbody s b. unfold writable, moved, tcp_fsm. cbn [fsm]. change (st (set_reg b s)) with (st s). destruct (st s) eqn:S.
    all: try (left; split; [cbn; tauto|]; destruct b; unfold fsm_listen, fsm_syn_sent, change_state, pbind, pdo, pwhen, pif, in_state; cbn; rewrite ?S; reflexivity).
    all: try (right; right; right; split; [cbn; tauto|reflexivity]).
    all: try (right; right; left; split; [tauto|reflexivity]).
    right; left. split; [reflexivity|]. unfold fsm_syn_rcvd, change_state, pbind, pdo, pwhen, pif, in_state. cbn. rewrite ?S. reflexivity. }
  destruct CASES as [[S F]|[[S F]|[[S F]|[S F]]]]; rewrite F; clear F.
  - destruct b eqn:B; cbv beta iota.
    + change (effs (set_reg false (moved CLOSED (set_reg true s)))) with (effs s). rewrite skipn_all. cbn [fold_left fst snd reg set_reg].
      eexists. split; [split; cbn [tw_sess tw_sock tw_nsock tw_owner tw_nsess tw_addrs put_table put_sess put_close]; [apply upd_same|intros x N; apply upd_other; exact N|auto|auto|reflexivity]|].
      left. split; [exact S|]. split; [destruct s; reflexivity|]. left. split; [reflexivity|]. split; [reflexivity|]. cbn [tw_table put_table put_sess put_close tw_sock tw_owner]. fold k.
      split; [apply get_pop_same|]. intros x N. apply get_pop_other. exact N.
    + change (effs (moved CLOSED (set_reg false s))) with (effs s). rewrite skipn_all. cbn [fold_left fst snd].
      destruct (STAY (moved CLOSED (set_reg false s)) eq_refl eq_refl) as [O T]. eexists. split; [exact O|]. left. split; [exact S|]. split; [destruct s; reflexivity|]. right. auto.
  - cbv beta iota. change (effs (moved FIN_WAIT_1 (set_reg b s))) with (effs s). rewrite skipn_all. cbn [fold_left fst snd].
    destruct (STAY (moved FIN_WAIT_1 (set_reg b s)) eq_refl eq_refl) as [O T]. eexists. split; [exact O|]. right. split; [exact T|]. split; [reflexivity|]. left. split; [exact S|]. destruct s; reflexivity.
  - cbv beta iota. change (effs (set_closing true (set_reg b s))) with (effs s). rewrite skipn_all. cbn [fold_left fst snd].
    destruct (STAY (set_closing true (set_reg b s)) eq_refl eq_refl) as [O T]. eexists. split; [exact O|]. right. split; [exact T|]. split; [reflexivity|]. right. left. split; [exact S|]. destruct s; reflexivity.
  - cbv beta iota. change (effs (set_reg b s)) with (effs s). rewrite skipn_all. cbn [fold_left fst snd].
    destruct (STAY (set_reg b s) eq_refl eq_refl) as [O T]. eexists. split; [exact O|]. right. split; [exact T|]. split; [reflexivity|]. right. right. split; [exact S|]. destruct s; reflexivity.
Qed.
