(** send() and sendto(). *)
From Verif Require Import Base BaseLemmas AddrModel StackModel StackRxModel UdpApiModel SpecUdpApi StackSendProofs StackRouteProofs UdpApiProofs SpecUdpSend.

Lemma unspecified_iff a : is_unspecified a = true <-> a = A4 0 \/ a = A6 0.
Proof. destruct a as [x|x]; unfold is_unspecified, ip4_is_unspecified, ip6_is_unspecified; rewrite Z.eqb_eq; split; [intros ->; auto|intros [H|H]; congruence|intros ->; auto|intros [H|H]; congruence]. Qed.
Lemma no_remote_iff u : is_unspecified (u_rip u) || (u_rport u =? 0) = true <-> no_remote u.
Proof. rewrite orb_true_iff, unspecified_iff, Z.eqb_eq. unfold no_remote. tauto. Qed.
Lemma status_iff a b : tx_status_eqb a b = true <-> a = b.
Proof. destruct a, b; cbn; split; congruence. Qed.
(** the common tail *)
Lemma tail_result src dst sp dp data n n' r : wf_addrs (my_addrs n) -> addr_ok dst -> (st <+ tx (phtx_udp src dst sp dp data) ;; rret (sent_len st data)) n = (n', r) ->
  same_sockets n n' /\ match r with Ok k => send_result n n' src dst sp dp data k | Exn _ => s_out (n_tx n') = s_out (n_tx n) end.
Proof.
  intros W D E. unfold rbind', tx in E. destruct (phtx_udp src dst sp dp data (n_tx n)) as [t q] eqn:P.
  destruct (send_status (n_tx n) (QUdp src dst sp dp data) t q W D P) as (new & F & X).
  destruct q as [s|e]; injection E as <- <-; (split; [repeat split|]).
  - exists new. split; [exact F|]. unfold sent_len. destruct (tx_status_eqb s PassedToTxRing) eqn:Q.
    + apply status_iff in Q. subst s. left. split; [reflexivity|exact X].
    + right. split; [reflexivity|]. destruct s; try exact X. discriminate Q.
  - subst new. cbn [n_tx set_tx]. rewrite F, app_nil_r. reflexivity.
Qed.
Lemma send_unset i data n : no_remote (n_udp n i) -> udp_send i data n = (n, Exn (OsError 89)).
Proof. intros H. unfold udp_send, rbind' at 1, rgets. apply no_remote_iff in H. rewrite H. reflexivity. Qed.
Lemma send_refused i data n : ~ no_remote (n_udp n i) -> u_unreach (n_udp n i) = true -> udp_send i data n = (set_udp i (set_unreach false (n_udp n i)) n, Exn ConnRefused).
Proof.
  intros H U. unfold udp_send, rbind' at 1, rgets. destruct (_ || _) eqn:E; [apply no_remote_iff in E; contradiction|]. rewrite U. reflexivity.
Qed.
Lemma send_sends i data n n' r : wf_addrs (my_addrs n) -> addr_ok (u_rip (n_udp n i)) -> ~ no_remote (n_udp n i) -> u_unreach (n_udp n i) = false -> udp_send i data n = (n', r) ->
  same_sockets n n' /\ match r with
  | Ok k => send_result n n' (u_lip (n_udp n i)) (u_rip (n_udp n i)) (u_lport0 (n_udp n i)) (u_rport (n_udp n i)) data k
  | Exn _ => s_out (n_tx n') = s_out (n_tx n) end.
Proof.
  intros W A H U E. unfold udp_send, rbind' at 1, rgets in E. destruct (_ || _) eqn:Q; [apply no_remote_iff in Q; contradiction|]. rewrite U in E. eapply tail_result; eauto.
Qed.
Lemma set_ip_result i text lip p rp n n' r : udp_set_ip i text lip p rp n = (n', r) ->
  n_tx n' = n_tx n /\ n_socks n' = n_socks n /\ (forall j, ends (n_udp n' j) = ends (n_udp n j)) /\
  match r with Ok (l, q) => exists a, text = Some a /\ q = in_family (family_of lip) a /\ l = (if is_unspecified lip then pick_local_ip (my_addrs n) q else lip) | Exn e => e = GaiError end.
Proof.
  intros E. unfold udp_set_ip in E. destruct text as [a|]; [|injection E as <- <-; auto].
  set (rip := in_family _ a) in *. unfold rbind' at 1 in E.
  set (m := if is_unspecified rip then rupd (fun n => set_udp i (set_unreach true (n_udp n i)) n) else rret tt) in E.
  assert (M : exists n1, m n = (n1, Ok tt) /\ n_tx n1 = n_tx n /\ n_socks n1 = n_socks n /\ forall j, ends (n_udp n1 j) = ends (n_udp n j)).
  { subst m. destruct (is_unspecified rip).
    - eexists. split; [reflexivity|]. split; [reflexivity|]. split; [reflexivity|]. intros j. cbn [set_udp n_udp]. destruct (Nat.eqb j i) eqn:Q; [apply Nat.eqb_eq in Q; subst j|]; reflexivity.
    - exists n. repeat split. }
  destruct M as (n1 & M1 & M2 & M3 & M4). rewrite M1 in E. assert (A : my_addrs n1 = my_addrs n) by (unfold my_addrs; rewrite M2; reflexivity).
  destruct (is_unspecified lip).
  - unfold rbind', rgets in E. rewrite A in E. destruct (is_unspecified (pick_local_ip _ _) && _); injection E as <- <-; (split; [exact M2|split; [exact M3|split; [exact M4|]]]); [reflexivity|]. exists a. auto.
  - injection E as <- <-. split; [exact M2|]. split; [exact M3|]. split; [exact M4|]. exists a. auto.
Qed.
Lemma in_family_ok f a : match f with Fam4 => in32 a | Fam6 => in128 a end -> addr_ok (in_family f a).
Proof. destruct f; exact (fun H => H). Qed.
Lemma sendto_sends c i data a rp n n' r : wf_addrs (my_addrs n) -> match family_of (u_lip (n_udp n i)) with Fam4 => in32 a | Fam6 => in128 a end ->
  udp_sendto c i data (Some a) rp n = (n', r) ->
  let u := n_udp n i in let u' := n_udp n' i in let rip := in_family (family_of (u_lip u)) a in
  (u_lip u', u_rip u', u_rport u') = (u_lip u, u_rip u, u_rport u) /\ (bound_port (u_lport0 u) = true -> u_lport0 u' = u_lport0 u) /\
  match r with
  | Ok k => 0 <= rp < 65536 /\ bound_port (u_lport0 u') = true /\ send_result n n' (source_for n u rip) rip (u_lport0 u') rp data k
  | Exn _ => s_out (n_tx n') = s_out (n_tx n)
  end.
Proof.
  intros W A E u u' rip. unfold udp_sendto in E. destruct (negb _) eqn:RP; [injection E as <- <-; split; [reflexivity|]; split; reflexivity|].
  apply negb_false_iff, andb_true_iff in RP. rewrite Z.leb_le, Z.ltb_lt in RP. unfold rbind' at 1, rgets at 1 in E. apply bind_inv in E.
  assert (FST : forall n1 x, (if bound_port (u_lport0 (n_udp n i)) then rret tt else
      _ <+ rupd (fun n0 => set_socks (sock_pop (udp_key (n_udp n i)) (n_socks n0)) n0) ;; p <+ (fun n0 => rlift (pick_port c (n_socks n0)) n0) ;;
      _ <+ rupd (fun n0 => set_udp i (set_local (u_lip (n_udp n i)) p (n_udp n0 i)) n0) ;; rupd (fun n0 => set_socks (sock_put (udp_key (n_udp n0 i)) i (n_socks n0)) n0)) n = (n1, x) ->
    n_tx n1 = n_tx n /\ (u_lip (n_udp n1 i), u_rip (n_udp n1 i), u_rport (n_udp n1 i)) = (u_lip u, u_rip u, u_rport u) /\ (bound_port (u_lport0 u) = true -> u_lport0 (n_udp n1 i) = u_lport0 u) /\
    (x = Ok tt -> bound_port (u_lport0 (n_udp n1 i)) = true)).
  { intros n1 x F. fold u in F. destruct (bound_port (u_lport0 u)) eqn:B.
    - injection F as <- <-. split; [reflexivity|]. split; [reflexivity|]. split; [reflexivity|]. intros _. exact B.
    - unfold rbind', rupd, rlift in F. cbn [set_socks n_socks] in F. destruct (pick_port c _) as [q|e] eqn:PP; injection F as <- <-.
      + split; [reflexivity|]. cbn [set_socks set_udp n_udp n_socks]. rewrite Nat.eqb_refl. cbn [set_local u_lip u_rip u_rport u_lport0]. split; [reflexivity|]. split; [discriminate|].
        intros _. apply pick_port_ok in PP. destruct PP as [PP _]. apply ephemeral_bound in PP. exact PP.
      + split; [reflexivity|]. split; [reflexivity|]. split; [discriminate|]. discriminate. }
  destruct E as [(n1 & x & E1 & E2)|(e & E1 & ->)]; [|destruct (FST _ _ E1) as (F1 & F2 & F3 & _); rewrite F1; auto].
  destruct x. destruct (FST _ _ E1) as (F1 & F2 & F3 & F4). specialize (F4 eq_refl). clear FST E1.
  unfold rbind' at 1, rgets at 1 in E2. apply bind_inv in E2. destruct E2 as [(n2 & ips & E2 & E3)|(e & E2 & ->)].
  - destruct ips as [l q]. destruct (set_ip_result _ _ _ _ _ _ _ _ E2) as (T & S & U & a0 & TA & Q & L). injection TA as <-. fold u in Q, L. fold rip in Q. subst q. cbn [fst snd] in E3.
    assert (W2 : wf_addrs (my_addrs n2)) by (unfold my_addrs in *; rewrite T, F1; exact W).
    destruct (tail_result l rip (u_lport0 (n_udp n1 i)) rp data n2 n' r W2 (in_family_ok _ _ A) E3) as [(K1 & K2 & K3) R].
    subst u'. rewrite K2. specialize (U i). unfold ends in U. injection U as U1 U2 U3 U4. rewrite U1, U2, U3, U4. split; [exact F2|]. split; [exact F3|].
    assert (LE : l = source_for n u rip) by (rewrite L; unfold source_for, my_addrs; rewrite F1; reflexivity). rewrite LE in R. clear L LE.
    destruct r as [k|e]; [|rewrite R, T, F1; reflexivity]. split; [exact RP|]. split; [exact F4|]. unfold send_result, frames_out, datagram_left in *. rewrite T, F1 in R. exact R.
  - destruct (set_ip_result _ _ _ _ _ _ _ _ E2) as (T & S & U & _). subst u'. specialize (U i). unfold ends in U. injection U as U1 U2 U3 U4. rewrite U1, U2, U3, U4, T, F1. auto.
Qed.
Lemma sendto_range c i data t rp n : ~ 0 <= rp < 65536 -> udp_sendto c i data t rp n = (n, Exn OverflowErr).
Proof.
  intros H. unfold udp_sendto. replace (negb _) with true; [reflexivity|]. symmetry. apply negb_true_iff, andb_false_iff. rewrite Z.leb_gt, Z.ltb_ge. lia.
Qed.
