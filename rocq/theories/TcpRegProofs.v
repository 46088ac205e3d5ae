(** Lemmas for C106. *)
From Verif Require Import Base BaseLemmas AddrModel TcpModel StackModel StackRxModel UdpApiModel SpecUdpApi ReactProofs UdpApiProofs SessModel TcpApiModel SpecTcpApi TcpApiProofs TcpApiProofs2 SpecTcpReg.

Lemma get_pop_same k t : sock_get k (sock_pop k t) = None.
Proof.
  unfold sock_get, sock_pop. induction t as [|[a b] r IH]; cbn [filter find fst]; [reflexivity|].
  destruct (skey_eqb k a) eqn:E; cbn [negb]; [exact IH|]. cbn [find fst]. rewrite E. exact IH.
Qed.
Lemma get_pop_other k t x : x <> k -> sock_get x (sock_pop k t) = sock_get x t.
Proof.
  intros N. unfold sock_get, sock_pop. induction t as [|[a b] r IH]; cbn [filter find fst]; [reflexivity|].
  destruct (skey_eqb k a) eqn:E; cbn [negb].
  - apply skey_eqb_eq in E. subst a. assert (F : skey_eqb x k = false) by (apply not_true_is_false; rewrite skey_eqb_eq; exact N). rewrite F. exact IH.
  - cbn [find fst]. destruct (skey_eqb x a); [reflexivity|exact IH].
Qed.
Lemma skey_dec (a b : skey) : {a = b} + {a <> b}.
Proof. destruct (skey_eqb a b) eqn:E; [left; apply skey_eqb_eq; exact E|right; intros X; apply skey_eqb_eq in X; congruence]. Qed.

Lemma bound_iff t : bound_port (t_lport t) = true <-> is_bound t.
Proof. unfold bound_port, is_bound. lia. Qed.
Lemma in_use_iff w a p : keyed w -> (tcp_in_use w a p = true <-> taken w a p).
Proof.
  intros K. unfold tcp_in_use, taken. rewrite existsb_exists. split.
  - intros ([k i] & I & E). cbn [fst snd] in E. rewrite !andb_true_iff, !orb_true_iff, family_eqb_eq, ipaddr_eqb_eq, !unspecified_iff, Z.eqb_eq in E.
    destruct E as (((T & F) & O) & P). assert (T' : k_type k = Stream) by (destruct (k_type k); [discriminate T|reflexivity] || (destruct (k_type k); [reflexivity|discriminate T])).
    destruct (K k i I T') as (_ & X). exists k, i. split; [exact I|]. split; [exact T'|]. rewrite <- X. cbn [k_lport k_lip tcp_key]. split; [exact P|]. split; [exact F|tauto].
  - intros (k & i & I & T & P & F & O). exists (k, i). split; [exact I|]. cbn [fst snd].
    destruct (K k i I T) as (_ & X). rewrite <- X in P, F, O. cbn [k_lport k_lip tcp_key] in P, F, O.
    rewrite !andb_true_iff, !orb_true_iff, family_eqb_eq, ipaddr_eqb_eq, !unspecified_iff, Z.eqb_eq, T. split; [split; [split; [reflexivity|exact F]|tauto]|exact P].
Qed.
Lemma may_bind_iff w f a : mem a ((match f with Fam4 => ip4_unicast (tw_addrs w) | Fam6 => ip6_unicast (tw_addrs w) end) ++ [0]) = true <-> may_bind w f a.
Proof.
  unfold may_bind. rewrite mem_in, in_app_iff. cbn. intuition congruence.
Qed.
Lemma pick_free c w p : pick_port c (tw_table w) = Ok p -> free_port w p.
Proof. intros E. apply pick_port_ok in E. destruct E as (I & N). apply ephemeral_in in I. split; assumption. Qed.
Lemma pick_none c w e : pick_port c (tw_table w) = Exn e -> e = OsError 98 /\ forall p, ~ free_port w p.
Proof.
  intros E. apply pick_port_exn in E. destruct E as (-> & A). split; [reflexivity|]. intros p (P & N). apply N, A, ephemeral_in. exact P.
Qed.

(** ** registration *)
Lemma register_rebound i lip p rip rp w : let t := tw_sock w i in
  rebound i (lip, p) (rip, rp) w (tcp_register i (with_ends lip p rip rp t) w) /\
  t_sess (tw_sock (tcp_register i (with_ends lip p rip rp t) w) i) = t_sess t.
Proof.
  intros t. set (n := with_ends lip p rip rp t).
  assert (S : tw_sock (tcp_register i n w) i = n) by (unfold tcp_register, put_table, put_sock; cbn; apply upd_same).
  assert (T : tw_table (tcp_register i n w) = sock_put (tcp_key n) i (sock_pop (tcp_key t) (tw_table w))) by reflexivity.
  split; [|rewrite S; reflexivity].
  constructor; rewrite ?S.
  - split; reflexivity.
  - repeat split.
  - intros x N. unfold tcp_register, put_table, put_sock. cbn. apply upd_other. exact N.
  - repeat split.
  - intros x _. split; reflexivity.
  - rewrite T. apply get_put_same.
  - intros k N1 N2. rewrite T, get_put_other by exact N2. apply get_pop_other. exact N1.
  - intros N. rewrite T, get_put_other by exact N. apply get_pop_same.
Qed.
Lemma rebound_others i l r w w' : rebound i l r w w' -> own_key w i (tcp_key (tw_sock w i)) -> own_key w i (tcp_key (tw_sock w' i)) -> others_kept i w w'.
Proof.
  intros R O1 O2 k x N G. destruct (skey_dec k (tcp_key (tw_sock w i))) as [->|N1]; [destruct N; apply O1; exact G|].
  destruct (skey_dec k (tcp_key (tw_sock w' i))) as [->|N2]; [destruct N; apply O2; exact G|]. rewrite (rb_table _ _ _ _ _ R k N1 N2). exact G.
Qed.
Lemma free_own w i k p : free_port w p -> k_lport k = p -> own_key w i k.
Proof. intros (_ & N) E x G. destruct N. exists k, x. split; [apply get_in; exact G|exact E]. Qed.
Lemma untaken_own w i k a p : ~ taken w a p -> k_type k = Stream -> k_lip k = a -> k_lport k = p -> own_key w i k.
Proof. intros N T A P x G. destruct N. exists k, x. split; [apply get_in; exact G|]. split; [exact T|]. split; [exact P|]. rewrite A. split; [reflexivity|left; reflexivity]. Qed.

(** ** bind *)
Lemma bind_outcomes c i text port w : keyed w -> (i < tw_nsock w)%nat ->
  bind_outcome i text port w (fst (top_do (TBind c i text port) w)) (snd (top_do (TBind c i text port) w)).
Proof.
  intros K L. unfold bind_outcome. cbv zeta. cbn [top_do]. unfold on_tsock. rewrite (proj2 (Nat.ltb_lt _ _) L). unfold tcp_bind.
  destruct (bound_port (t_lport (tw_sock w i))) eqn:B.
  { left. split; [apply bound_iff; exact B|]. split; reflexivity. }
  right. assert (NB : ~ is_bound (tw_sock w i)) by (rewrite <- bound_iff; congruence).
  destruct text as [a|]; [|left; split; [exact NB|]; repeat split]. right. split; [exact NB|]. exists a. split; [reflexivity|]. cbv zeta.
  destruct (mem a _) eqn:M; cbn [negb].
  2:{ left. rewrite <- may_bind_iff. split; [congruence|split; reflexivity]. }
  apply may_bind_iff in M. right. destruct ((0 <=? port) && (port <? 65536)) eqn:P; cbn [negb].
  2:{ left. split; [exact M|]. split; [unfold port_ok; lia|split; reflexivity]. }
  right. destruct (0 <? port) eqn:P0.
  - destruct (tcp_in_use w _ port) eqn:U.
    + left. split; [exact M|]. split; [lia|]. split; [apply in_use_iff; assumption|split; reflexivity].
    + right. right. split; [exact M|]. split; [reflexivity|]. exists port. split; [left; split; [lia|]; split; [reflexivity|]; rewrite <- in_use_iff by exact K; congruence|].
      destruct (register_rebound i (in_family (family_of (t_lip (tw_sock w i))) a) port (t_rip (tw_sock w i)) (t_rport (tw_sock w i)) w) as (R & Q).
      split; [exact R|]. split; [reflexivity|exact Q].
  - assert (port = 0) as -> by lia. right. destruct (pick_port c (tw_table w)) as [p|e] eqn:E.
    + right. split; [exact M|]. split; [reflexivity|]. exists p. split; [right; split; [reflexivity|exact (pick_free _ _ _ E)]|].
      destruct (register_rebound i (in_family (family_of (t_lip (tw_sock w i))) a) p (t_rip (tw_sock w i)) (t_rport (tw_sock w i)) w) as (R & Q).
      split; [exact R|]. split; [reflexivity|exact Q].
    + left. split; [exact M|]. split; [reflexivity|]. destruct (pick_none _ _ _ E) as (-> & A). split; [exact A|]. split; reflexivity.
Qed.
Lemma bind_key i l r w w' : rebound i l r w w' -> k_lip (tcp_key (tw_sock w' i)) = fst l /\ k_lport (tcp_key (tw_sock w' i)) = snd l.
Proof. intros R. destruct (rb_ends _ _ _ _ _ R) as (<- & _). split; reflexivity. Qed.
Lemma bind_others c i text port w : keyed w -> (i < tw_nsock w)%nat -> own_key w i (tcp_key (tw_sock w i)) ->
  others_kept i w (fst (top_do (TBind c i text port) w)).
Proof.
  intros K L O. destruct (bind_outcomes c i text port w K L) as [(_ & _ & ->)|[(_ & _ & _ & ->)|(_ & a & _ & [(_ & _ & ->)|[(_ & _ & _ & ->)|[(_ & _ & _ & _ & ->)|[(_ & _ & _ & _ & ->)|(_ & _ & p & C & R & _)]]]])]];
    try (intros k x _ G; exact G).
  apply (rebound_others _ _ _ _ _ R O). destruct (bind_key _ _ _ _ _ R) as (A & P). destruct C as [(_ & -> & N)|(_ & F)].
  - eapply untaken_own; [exact N|reflexivity|exact A|exact P].
  - eapply free_own; [exact F|exact P].
Qed.

(** ** a new session at the socket *)
Lemma open_call i e s lip p rip rp iss w :
  (e = ECall Connect /\ s = SYN_SENT \/ e = ECall Listen /\ s = LISTEN) ->
  let j := tw_nsess w in
  let w1 := add_sess (new_session lip p rip rp iss true []) i w in
  let w2 := put_sock i (with_sess_of j (tw_sock w1 i)) w1 in
  forall tab, sock_get (tcp_key (tw_sock w i)) tab = Some i ->
  let w3 := put_table tab w2 in
  let w4 := fst (session_call j 0 (tcp_fsm e) w3) in
  snd (session_call j 0 (tcp_fsm e) w3) = Ok tt /\ tw_table w4 = tab /\ tw_addrs w4 = tw_addrs w /\ tw_close w4 = tw_close w /\ tw_nsock w4 = tw_nsock w /\
  tw_sock w4 = upd i (with_sess_of j (tw_sock w i)) (tw_sock w) /\ tw_nsess w4 = S j /\
  (forall x, (x < j)%nat -> tw_sess w4 x = tw_sess w x /\ tw_owner w4 x = tw_owner w x) /\
  tw_owner w4 j = i /\ st (tw_sess w4 j) = s /\ ends_of (tw_sess w4 j) = (lip, p, rip, rp).
Proof.
  intros E j w1 w2 tab G w3 w4.
  assert (Sj : tw_sess w3 j = new_session lip p rip rp iss true []) by (unfold w3, w2, w1, j; cbn; apply upd_same).
  assert (Oj : tw_owner w3 j = i) by (unfold w3, w2, w1, j; cbn; apply upd_same).
  assert (Ki : tw_sock w3 i = with_sess_of j (tw_sock w i)) by (unfold w3, w2, w1; cbn; apply upd_same).
  assert (Rg : registered (tcp_key (tw_sock w3 (tw_owner w3 j))) (tw_table w3) = true).
  { rewrite Oj, Ki. unfold registered. change (tcp_key (with_sess_of j (tw_sock w i))) with (tcp_key (tw_sock w i)). change (tw_table w3) with tab. rewrite G. reflexivity. }
  unfold w4, session_call. rewrite Rg, Sj.
  remember (tcp_fsm e (set_reg true (new_session lip p rip rp iss true []))) as c eqn:C.
  assert (X : effs (fst c) = [] /\ reg (fst c) = true /\ snd c = Ok tt /\ st (fst c) = s /\ ends_of (fst c) = (lip, p, rip, rp)).
  { rewrite C. destruct E as [(-> & ->)|(-> & ->)]; repeat split; reflexivity. }
  clear C. destruct c as [s' r]. cbn [fst snd] in X. destruct X as (X1 & X2 & X3 & X4 & X5). rewrite X1, X2. cbn [fst snd].
  change (effs (new_session lip p rip rp iss true [])) with (@nil eff). cbn [length skipn fold_left].
  split; [exact X3|]. split; [reflexivity|]. split; [reflexivity|]. split; [reflexivity|]. split; [reflexivity|]. split; [reflexivity|]. split; [reflexivity|]. split.
  { intros x Hx. unfold put_sess. cbn [tw_sess tw_owner]. rewrite upd_other by lia. unfold w3, w2, w1, j. cbn. rewrite !upd_other by lia. split; reflexivity. }
  split; [exact Oj|]. unfold put_sess. cbn [tw_sess]. rewrite upd_same. split; [exact X4|exact X5].
Qed.
Lemma table_id w : put_table (tw_table w) w = w.
Proof. destruct w; reflexivity. Qed.

(** ** connect *)
Lemma set_ip_cases w text lip p rp : 
  match tcp_set_ip (tw_addrs w) text lip p rp with
  | Exn e => (text = None /\ e = GaiError) \/
      exists r, text = Some r /\ let rip := in_family (family_of lip) r in
        (unspec rip /\ e = ConnRefused) \/ (~ unspec rip /\ e = GaiError /\ forall a, ~ local_for w lip rip p rp a)
  | Ok (l, rip) => exists r, text = Some r /\ rip = in_family (family_of lip) r /\ ~ unspec rip /\ local_for w lip rip p rp l
  end.
Proof.
  unfold tcp_set_ip. destruct text as [r|]; [|left; split; reflexivity]. cbv zeta.
  destruct (is_unspecified (in_family (family_of lip) r)) eqn:U.
  { right. exists r. split; [reflexivity|]. cbv zeta. left. split; [apply unspecified_iff; exact U|reflexivity]. }
  assert (NU : ~ unspec (in_family (family_of lip) r)) by (rewrite <- unspecified_iff; congruence).
  destruct (is_unspecified lip) eqn:L.
  - apply unspecified_iff in L. destruct (is_unspecified (pick_local_ip (tw_addrs w) (in_family (family_of lip) r)) && negb ((p =? 68) && (rp =? 67))) eqn:B.
    + right. exists r. split; [reflexivity|]. cbv zeta. right. split; [exact NU|]. split; [reflexivity|].
      intros a [(N & _)|(_ & -> & D)]; [contradiction|]. rewrite <- unspecified_iff in D. destruct D as [D|(-> & ->)].
      * apply D. apply andb_true_iff in B. tauto.
      * cbn in B. rewrite andb_false_r in B. discriminate.
    + exists r. split; [reflexivity|]. split; [reflexivity|]. split; [exact NU|]. right. split; [exact L|]. split; [reflexivity|].
      rewrite <- unspecified_iff. destruct (is_unspecified (pick_local_ip _ _)); [|left; discriminate]. right. cbn in B. lia.
  - exists r. split; [reflexivity|]. split; [reflexivity|]. split; [exact NU|]. left. split; [rewrite <- unspecified_iff; congruence|reflexivity].
Qed.
Lemma connect_outcomes c i text rport iss w : (i < tw_nsock w)%nat ->
  connect_outcome i text rport w (fst (top_do (TConnect c i text rport iss) w)) (snd (top_do (TConnect c i text rport iss) w)).
Proof.
  intros L. unfold connect_outcome. cbv zeta. cbn [top_do]. unfold on_tsock. rewrite (proj2 (Nat.ltb_lt _ _) L). unfold tcp_connect.
  destruct ((0 <=? rport) && (rport <? 65536)) eqn:P; cbn [negb].
  2:{ left. split; [unfold port_ok; lia|split; reflexivity]. }
  right. assert (PO : port_ok rport) by (unfold port_ok; lia). cbv zeta.
  assert (Q : match (if bound_port (t_lport (tw_sock w i)) then Ok (t_lport (tw_sock w i)) else pick_port c (tw_table w)) with
    | Ok p => (is_bound (tw_sock w i) /\ p = t_lport (tw_sock w i)) \/ (~ is_bound (tw_sock w i) /\ free_port w p)
    | Exn e => ~ is_bound (tw_sock w i) /\ e = OsError 98 /\ forall p, ~ free_port w p end).
  { destruct (bound_port _) eqn:B; [left; split; [apply bound_iff; exact B|reflexivity]|].
    assert (NB : ~ is_bound (tw_sock w i)) by (rewrite <- bound_iff; congruence).
    destruct (pick_port c (tw_table w)) as [p|e] eqn:E; [right; split; [exact NB|exact (pick_free _ _ _ E)]|split; [exact NB|exact (pick_none _ _ _ E)]]. }
  destruct (if bound_port (t_lport (tw_sock w i)) then _ else _) as [p|e].
  2:{ left. destruct Q as (NB & -> & A). repeat (split; [assumption|]). split; reflexivity. }
  right. split; [exact PO|]. exists p. split; [exact Q|]. pose proof (set_ip_cases w text (t_lip (tw_sock w i)) p rport) as S.
  destruct (tcp_set_ip (tw_addrs w) text (t_lip (tw_sock w i)) p rport) as [[l rip]|e].
  - right. destruct S as (x & -> & -> & NU & LF). exists x. split; [reflexivity|]. cbv zeta. right. right. split; [exact NU|].
    set (rip := in_family (family_of (t_lip (tw_sock w i))) x) in *.
    destruct (register_rebound i l p rip rport w) as (R & _). set (w1 := tcp_register i (with_ends l p rip rport (tw_sock w i)) w) in *.
    pose proof (open_call i (ECall Connect) SYN_SENT l p rip rport iss w1 (or_introl (conj eq_refl eq_refl)) (tw_table w1) (rb_registered _ _ _ _ _ R)) as O. cbv zeta in O.
    change (tw_table w1) with (tw_table (put_sock i (with_sess_of (tw_nsess w1) (tw_sock (add_sess (new_session l p rip rport iss true []) i w1) i)) (add_sess (new_session l p rip rport iss true []) i w1))) in O at 1 2 3 4 5 6 7 8 9 10 11.
    rewrite !table_id in O. destruct O as (O1 & O2 & O3 & O4 & O5 & O6 & O7 & O8 & O9 & O10 & O11).
    unfold tret_of. cbn [fst snd]. rewrite O1. split; [reflexivity|]. exists l. split; [exact LF|].
    remember (fst (session_call _ _ _ _)) as w4. clear Heqw4.
    assert (Ki : tw_sock w4 i = with_sess_of (tw_nsess w1) (tw_sock w1 i)) by (rewrite O6; apply upd_same).
    assert (Kk : tcp_key (tw_sock w4 i) = tcp_key (tw_sock w1 i)) by (rewrite Ki; reflexivity).
    assert (N1 : tw_nsess w1 = tw_nsess w) by reflexivity.
    split.
    + destruct R as [R1 R2 R3 R4 R5 R6 R7 R8]. constructor.
      * rewrite Ki. exact R1.
      * rewrite Ki. exact R2.
      * intros y Ny. rewrite O6, upd_other by exact Ny. apply R3. exact Ny.
      * rewrite O5, O3, O4. exact R4.
      * intros y Hy. destruct (O8 y ltac:(rewrite N1; exact Hy)) as (-> & ->). apply R5. exact Hy.
      * rewrite Kk, O2. exact R6.
      * intros k. rewrite Kk, O2. apply R7.
      * rewrite Kk, O2. exact R8.
    + unfold opened. rewrite <- N1. split; [exact O7|]. split; [rewrite Ki; reflexivity|]. split; [exact O9|]. split; [exact O10|].
      rewrite O11, Ki. destruct R as [(R1 & R1') _ _ _ _ _ _ _]. unfold local_ends in R1. unfold remote_ends in R1'. injection R1 as R1 R1b. injection R1' as R1' R1c. unfold ends_at. cbn. rewrite R1, R1b, R1', R1c. reflexivity.
  - destruct S as [(-> & ->)|(x & -> & S)]; [left; split; [reflexivity|split; reflexivity]|]. right. exists x. split; [reflexivity|]. cbv zeta in S |- *.
    destruct S as [(U & ->)|(NU & -> & A)]; [left; split; [exact U|split; reflexivity]|].
    right. left. split; [exact NU|]. split; [exact A|]. split; reflexivity.
Qed.
Lemma connect_others c i text rport iss w : (i < tw_nsock w)%nat -> own_key w i (tcp_key (tw_sock w i)) ->
  (is_bound (tw_sock w i) -> own_key w i (tcp_key (tw_sock (fst (top_do (TConnect c i text rport iss) w)) i))) ->
  others_kept i w (fst (top_do (TConnect c i text rport iss) w)).
Proof.
  intros L O N. destruct (connect_outcomes c i text rport iss w L) as [(_ & _ & ->)|[(_ & _ & _ & _ & ->)|(_ & p & Q & [(_ & _ & ->)|(x & _ & [(_ & _ & ->)|[(_ & _ & _ & ->)|(_ & _ & a & _ & R & _)]])])]];
    try (intros k y _ G; exact G).
  apply (rebound_others _ _ _ _ _ R O). destruct Q as [(B & _)|(_ & F)]; [exact (N B)|].
  eapply free_own; [exact F|]. apply (bind_key _ _ _ _ _ R).
Qed.

(** ** listen *)
Lemma listen_outcome i iss w : (i < tw_nsock w)%nat ->
  let w' := fst (top_do (TListen i iss) w) in
  snd (top_do (TListen i iss) w) = TNone /\ rebound i (local_ends (tw_sock w i)) (remote_ends (tw_sock w i)) w w' /\ opened i LISTEN w w'.
Proof.
  intros L. cbv zeta. cbn [top_do]. unfold on_tsock. rewrite (proj2 (Nat.ltb_lt _ _) L). unfold tcp_listen. cbv zeta.
  set (t := tw_sock w i).
  pose proof (open_call i (ECall Listen) LISTEN (t_lip t) (t_lport t) (t_rip t) (t_rport t) iss w (or_intror (conj eq_refl eq_refl)) (sock_put (tcp_key t) i (tw_table w)) (get_put_same _ _ _)) as O. cbv zeta in O.
  cbn [tw_table put_sock add_sess] in O |- *. destruct O as (O1 & O2 & O3 & O4 & O5 & O6 & O7 & O8 & O9 & O10 & O11).
  unfold tret_of. cbn [fst snd]. unfold put_sock, add_sess in O1 |- *. cbn in O1 |- *. fold t in O1 |- *. rewrite O1. split; [reflexivity|].
  unfold put_sock, add_sess in *. cbn in O2, O3, O4, O5, O6, O7, O8, O9, O10, O11. fold t in O2, O3, O4, O5, O6, O7, O8, O9, O10, O11 |- *.
  remember (fst (session_call _ _ _ _)) as w4. clear Heqw4.
  assert (Ki : tw_sock w4 i = with_sess_of (tw_nsess w) t) by (rewrite O6; apply upd_same).
  assert (Kk : tcp_key (tw_sock w4 i) = tcp_key t) by (rewrite Ki; reflexivity).
  split.
  - constructor.
    + rewrite Ki. split; reflexivity.
    + rewrite Ki. repeat split.
    + intros y Ny. rewrite O6. apply upd_other. exact Ny.
    + rewrite O3, O4, O5. repeat split.
    + exact O8.
    + rewrite Kk, O2. apply get_put_same.
    + intros k _. rewrite Kk, O2. intros N. apply get_put_other. exact N.
    + rewrite Kk. intros N. destruct N. reflexivity.
  - unfold opened. split; [exact O7|]. split; [rewrite Ki; reflexivity|]. split; [exact O9|]. split; [exact O10|]. rewrite O11, Ki. reflexivity.
Qed.
Lemma listen_others i iss w : (i < tw_nsock w)%nat -> own_key w i (tcp_key (tw_sock w i)) -> others_kept i w (fst (top_do (TListen i iss) w)).
Proof.
  intros L O. destruct (listen_outcome i iss w L) as (_ & R & _). apply (rebound_others _ _ _ _ _ R O).
  destruct (rb_ends _ _ _ _ _ R) as (E1 & E2). unfold local_ends, remote_ends in E1, E2.
  assert (tcp_key (tw_sock (fst (top_do (TListen i iss) w)) i) = tcp_key (tw_sock w i)) as ->; [|exact O].
  unfold tcp_key. congruence.
Qed.
