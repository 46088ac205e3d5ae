(** Lemmas: start() as a whole. *)
From Verif Require Import Base BaseLemmas AddrModel SpecAddr AddrProofs CodecModel EtherModel StackModel StackRxModel AcquireModel SpecAcquire AcquireProofs StartModel SpecStart StartProofs.

Definition leaves_addrs (fetch : W (option host)) : Prop := forall w w' r, fit w -> fetch w = (w', r) ->
  fit w' /\ my_addrs (w_node w') = my_addrs (w_node w).
Lemma acquired6_keeps lla gua cands w w' : acquired6 lla gua cands w w' -> same4 (my_addrs (w_node w)) (my_addrs (w_node w')).
Proof. intros (l1 & l2 & l3 & g1 & g2 & o & n & _ & _ & _ & _ & _ & _ & Q & _). exact Q. Qed.
Lemma tr_all l : traced (claim_all6 l).
Proof. induction l as [|h l IH]; cbn [claim_all6]; [apply tr_ret|]. apply tr_bind; [apply tr_claim|auto]. Qed.
Lemma tr_prefixes l : traced (claim_prefixes l).
Proof.
  induction l as [|[p g] l IH]; cbn [claim_prefixes]; [apply tr_ret|]. tr; auto using tr_claim.
Qed.
Lemma tr_acquire6 lla gua cands : traced (acquire_ip6 lla gua cands).
Proof.
  assert (Ra : traced (acquire n_ra_ev ra_taken)) by (apply tr_acquire; [reflexivity|intros n X; exact X]).
  unfold acquire_ip6, create_ip6. tr; auto using tr_all, tr_claim, tr_prefixes;
    match goal with |- traced (match ?l with _ => _ end) => destruct l end; tr; auto using tr_all, tr_prefixes.
Qed.
Lemma act_gets_run {A} (f : node -> A) w : act (rgets f) w = (w, Ok (f (w_node w))).
Proof. unfold act, rgets. destruct w; reflexivity. Qed.
(** the address found by [fetch], if it was asked *)
Lemma start_outcome c fetch w w' : fit w -> quiet (w_node w) -> leaves_addrs fetch ->
  let a := my_addrs (w_node w) in
  a_sup4 a = true -> a_sup6 a = true -> Forall (fun h => 0 <= h_addr h < 2 ^ 128) (c_cand6 c) ->
  stack_start c fetch w = (w', Ok tt) ->
  exists w1 lease, acquired6 (c_lla c) (c_gua c) (c_cand6 c) w w1 /\
    let b := my_addrs (w_node w') in
    a_host6 b = a_host6 (my_addrs (w_node w1)) /\ a_sup6 b = a_sup6 (my_addrs (w_node w1)) /\ a_mac b = a_mac a /\
    a_host4 b = a_host4 a ++ a_cand4 a ++ lease /\ a_cand4 b = [] /\ (a_sup4 b = false <-> a_host4 b = []) /\
    (if c_dhcp c then a_cand4 a <> [] -> lease = [] else lease = []) /\
    (a_cand4 a = [] -> c_dhcp c = true -> exists w2 r, fetch w1 = (w2, Ok r) /\ lease = match r with Some h => [h] | None => [] end).
Proof.
  intros F Q Fe a S4 S6 Hc E. unfold stack_start in E. apply wbind_ok in E as (w1 & [] & E1 & E).
  pose proof (acquire6_did _ _ _ _ _ F Q S6 Hc E1) as A6. destruct (tr_acquire6 _ _ _ _ _ _ F E1) as (sg & (F1 & _)).
  pose proof (acquired6_keeps _ _ _ _ _ A6) as (Q1 & Q2 & Q3 & Q4 & Q5). exists w1.
  unfold acquire_ip4 in E. apply wbind_ok in E as (x & y & E2 & E). apply act_gets in E2 as (-> & E2). injection E2 as ->.
  fold a in Q1, Q2, Q4, Q5. rewrite Q5, S4, Q4 in E.
  assert (Fin : forall wf lease, fit wf -> my_addrs (w_node wf) = with_cand4 (a_cand4 a ++ lease) (my_addrs (w_node w1)) ->
    create_ip4 wf = (w', Ok tt) ->
    let b := my_addrs (w_node w') in
    a_host6 b = a_host6 (my_addrs (w_node w1)) /\ a_sup6 b = a_sup6 (my_addrs (w_node w1)) /\ a_mac b = a_mac a /\
    a_host4 b = a_host4 a ++ a_cand4 a ++ lease /\ a_cand4 b = [] /\ (a_sup4 b = false <-> a_host4 b = [])).
  { intros wf lease Ff Af Ef. destruct (create_ip4_outcome wf Ff ltac:(rewrite Af; cbn; congruence)) as (wz & o & Ez & H1 & H2 & H3 & H4 & H5 & H6 & _).
    rewrite Ez in Ef. injection Ef as ->. cbv zeta. rewrite H1, H2, H4, H5, H6, Af. cbn. rewrite Q1, Q2.
    rewrite H1, Af in H3. cbn in H3. rewrite Q2 in H3. auto 10. }
  assert (Self : my_addrs (w_node w1) = with_cand4 (a_cand4 a) (my_addrs (w_node w1)))
    by (rewrite <- Q4; destruct (my_addrs (w_node w1)); reflexivity).
  apply wbind_ok in E as (w3 & [] & E3 & E). destruct (a_cand4 a) as [|c4 t4] eqn:C4.
  - destruct (c_dhcp c) eqn:Dh.
    + apply wbind_ok in E3 as (w2 & r & E2 & E3). destruct (Fe _ _ _ F1 E2) as (F2 & A2). destruct r as [h|].
      * exists [h]. split; [exact A6|].
        assert (X : fit w3 /\ my_addrs (w_node w3) = with_cand4 [h] (my_addrs (w_node w1))).
        { pose proof (act_inv _ _ _ _ E3) as (E4 & _). unfold rupd in E4. injection E4 as E4.
          assert (R : rsteps (with_cand4 (a_cand4 (my_addrs (w_node w2)) ++ [h]) (my_addrs (w_node w2))) (w_node w2) (w_node w3)).
          { rewrite <- E4. apply (rsteps_set (fun a => with_cand4 (a_cand4 a ++ [h]) a)). }
          destruct (moved_act _ _ _ _ _ E3 R F2) as (F3 & A3 & _). split; [exact F3|]. rewrite A3, A2, Q4. reflexivity. }
        destruct X as (F3 & A3). destruct (Fin w3 [h] F3 A3 E) as (H1 & H2 & H3 & H4 & H5 & H6). repeat (split; [assumption|]).
        split; [intros X; contradiction|]. intros _ _. exists w2, (Some h). auto.
      * unfold wret in E3. injection E3 as <-. exists []. split; [exact A6|].
        destruct (Fin w2 [] F2 ltac:(rewrite A2; exact Self) E) as (H1 & H2 & H3 & H4 & H5 & H6). repeat (split; [assumption|]).
        split; [auto|]. intros _ _. exists w2, None. auto.
    + unfold wret in E3. injection E3 as <-. exists []. split; [exact A6|].
      destruct (Fin w1 [] F1 Self E) as (H1 & H2 & H3 & H4 & H5 & H6). repeat (split; [assumption|]). split; [auto|]. intros _ X. discriminate.
  - unfold wret in E3. injection E3 as <-. exists []. split; [exact A6|].
    destruct (Fin w1 [] F1 ltac:(rewrite app_nil_r; exact Self) E) as (H1 & H2 & H3 & H4 & H5 & H6). repeat (split; [assumption|]).
    split; [destruct (c_dhcp c); auto|]. intros X. discriminate.
Qed.
