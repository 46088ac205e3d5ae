(** The TCP discard service. *)
From Verif Require Import Base BaseLemmas AddrModel TcpModel StackModel StackRxModel SessModel SpecSess SpecSess2 SpecSess3 SessProofs SessTrace SessRun SessInv SessTx SessRx SessKeep SessRead PropSess
  EchoModel SpecEcho EchoProofs EchoTcpModel SpecEchoTcp EchoTcpProofs DiscardModel SpecDiscard.

Lemma dsc_notice m : notice_of m match dsc_reply m with Some d => d | None => [] end.
Proof.
  unfold dsc_reply. destruct (zlen m =? 0) eqn:Z.
  - apply Z.eqb_eq, zlen_zero_nil in Z. apply nt_closed. exact Z.
  - assert (N : m <> []) by (intros ->; discriminate Z). destruct (quits m) eqn:Q.
    + apply nt_leave; [exact N|apply quits_iff; exact Q].
    + apply nt_data; [exact N|]. intros H. apply quits_iff in H. congruence.
Qed.
Lemma noted_more l m w : noted_all l w -> noted_all (l ++ [m]) (w ++ match dsc_reply m with Some d => d | None => [] end).
Proof.
  intros (r & F & ->). exists (r ++ [match dsc_reply m with Some d => d | None => [] end]).
  split; [apply Forall2_app; [exact F|constructor; [apply dsc_notice|constructor]]|].
  rewrite concat_app, <- app_assoc. cbn [concat]. rewrite app_nil_r. reflexivity.
Qed.
Lemma dsc_conn e s : z_conn (dsc_do e s) = match dsc_op e s with Some o => fst (op_do o (z_conn s)) | None => z_conn s end.
Proof.
  destruct e as [| | |p]; try reflexivity. unfold dsc_do. cbn [dsc_op]. destruct (z_at s); try reflexivity. destruct (dsc_reply m); reflexivity.
Qed.
Lemma dsc_step e s : In (st (c_sess (z_conn s))) established_states -> dsc_transcript (z_at s) (z_conn s) -> dsc_transcript (z_at (dsc_do e s)) (z_conn (dsc_do e s)).
Proof.
  intros L T. destruct e as [| | |p]; unfold dsc_do.
  - destruct (z_at s) eqn:A; cbn [dsc_op]; rewrite ?A; cbn [z_with z_at z_conn].
    + destruct T as [R W]. destruct (op_send hello (z_conn s)) as (R' & _ & [(-> & W' & _)|((e & ->) & -> & _)]).
      * cbn [dsc_transcript]. rewrite R', W', R, W. exists []. split; [constructor|]. reflexivity.
      * cbn. left. auto.
    + destruct (z_run s); exact T.
    + destruct (op_read (z_conn s)) as [W R]. destruct (snd (read_step _ _ _)) as [m|]; cbn [dsc_transcript] in *.
      * exists (c_read (z_conn s)). rewrite W. auto.
      * rewrite R, W, app_nil_r. exact T.
    + destruct T as (l & R & W). pose proof (noted_more _ m _ W) as M. destruct (dsc_reply m) as [d|] eqn:D; cbn [z_with z_at z_conn].
      * destruct (op_send d (z_conn s)) as (R' & _ & [(-> & W' & _)|((e & ->) & -> & _)]).
        -- cbn [dsc_transcript]. rewrite R', W', R. exact M.
        -- cbn. right. eauto.
      * cbn [dsc_transcript]. rewrite R. rewrite app_nil_r in M. exact M.
    + rewrite (close_late _ L). destruct (op_keeps OClose (z_conn s)) as [R W]; try discriminate.
      destruct again; cbn [dsc_transcript]; rewrite R, W; exact T.
    + rewrite (close_late _ L). destruct (op_keeps OClose (z_conn s)) as [R W]; try discriminate.
      cbn [dsc_transcript]; rewrite R, W; exact T.
    + exact T.
    + exact T.
  - exact T.
  - cbn [dsc_op z_with z_at z_conn]. destruct (op_keeps OTick (z_conn s)) as [R W]; try discriminate. unfold dsc_transcript. rewrite R, W. exact T.
  - cbn [dsc_op z_with z_at z_conn]. destruct (op_keeps (OSegment p) (z_conn s)) as [R W]; try discriminate. unfold dsc_transcript. rewrite R, W. exact T.
Qed.
Lemma dsc_allowed (P : tmd -> conn -> Prop) (allowed : op -> conn -> Prop) e s o : fair P allowed -> In (st (c_sess (z_conn s))) established_states ->
  match e with SSegment p => P p (z_conn s) | _ => True end -> dsc_op e s = Some o -> allowed o (z_conn s).
Proof.
  intros FA L G E. apply FA. destruct e as [| | |p]; cbn [dsc_op] in E; try discriminate; [|injection E as <-; exact Logic.I|injection E as <-; exact G].
  assert (N : st (c_sess (z_conn s)) <> SYN_RCVD) by (intros X; rewrite X in L; clear - L; cbn in L; intuition discriminate).
  destruct (z_at s); try discriminate; [| |destruct (dsc_reply m); try discriminate| |]; injection E as <-; try exact Logic.I; exact N.
Qed.
Lemma dsc_reach (P : tmd -> conn -> Prop) (allowed : op -> conn -> Prop) iss c0 : passive iss c0 -> (forall o c, allowed o c -> sane_op iss o c) -> fair P allowed ->
  forall es s, reach allowed c0 (z_conn s) -> In (st (c_sess (z_conn s))) established_states -> dsc_transcript (z_at s) (z_conn s) -> dsc_segments P es s ->
  let s' := dsc_run es s in reach allowed c0 (z_conn s') /\ In (st (c_sess (z_conn s'))) established_states /\ dsc_transcript (z_at s') (z_conn s').
Proof.
  intros PO SA FA. pose proof (passive_opened _ _ PO) as O.
  assert (SR : forall c, reach allowed c0 c -> reach (sane_op iss) c0 c).
  { induction 1 as [|c o R IH A]; [apply reach_0|]. apply reach_op; auto. }
  induction es as [|e es IH]; intros s R L T G; [auto|]. destruct G as [G1 G2]. cbn [dsc_run]. apply IH; auto.
  - rewrite dsc_conn. destruct (dsc_op e s) as [o|] eqn:E; [|exact R]. apply reach_op; [exact R|]. eapply dsc_allowed; eauto.
  - rewrite dsc_conn. destruct (dsc_op e s) as [o|] eqn:E; [|exact L].
    assert (A : allowed o (z_conn s)) by (eapply dsc_allowed; eauto).
    eapply edges_late; [|exact L]. eapply edges_reach; eauto.
  - apply dsc_step; auto.
Qed.
Lemma dsc_handed (P : tmd -> conn -> Prop) (allowed : op -> conn -> Prop) iss c : handed allowed iss c -> (forall o c, allowed o c -> sane_op iss o c) -> fair P allowed ->
  forall es, dsc_segments P es (discard c) -> let s' := dsc_run es (discard c) in
  (exists c0, passive iss c0 /\ reach allowed c0 (z_conn s')) /\ In (st (c_sess (z_conn s'))) established_states /\ dsc_transcript (z_at s') (z_conn s').
Proof.
  intros (c0 & PO & R & L & Rd & Wr & _) SA FA es G. destruct (dsc_reach P allowed iss c0 PO SA FA es (discard c) R L) as (A & B & C); [split; assumption|exact G|].
  split; [eauto|auto].
Qed.
Lemma dsc_stream iss irs stream c es : 0 <= irs < 2 ^ 32 -> handed (eof_op iss irs stream) iss c ->
  dsc_segments (fun p c => sane_seg iss p c /\ from_peer irs stream (zlen (received c)) p) es (discard c) ->
  let c' := z_conn (dsc_run es (discard c)) in
  prefix (concat (c_read c')) stream /\ Forall (carries iss (c_written c')) (sent (c_sess c')).
Proof.
  intros I H G. destruct (dsc_handed _ _ iss c H (eof_sane iss irs stream) (fair_eof iss irs stream) es G) as ((c0 & PO & R) & _).
  pose proof (passive_opened _ _ PO) as O. split.
  - eapply (read_prefix irs stream iss c0); eauto. eapply reach_more; [|exact R]. intros o x X. apply X.
  - eapply (sent_reach iss c0); eauto. eapply reach_more; [|exact R]. intros o x X. apply X.
Qed.
Lemma drun_app a b s : dsc_run (a ++ b) s = dsc_run b (dsc_run a s).
Proof. revert s. induction a; cbn; auto. Qed.
Lemma dsegments_app P a b s : dsc_segments P (a ++ b) s <-> dsc_segments P a s /\ dsc_segments P b (dsc_run a s).
Proof. revert s. induction a as [|e a IH]; intros s; cbn [app dsc_segments dsc_run]; [tauto|]. rewrite IH. tauto. Qed.
Lemma dsc_died iss c : handed (sane_op iss) iss c -> forall es, dsc_segments (sane_seg iss) es (discard c) ->
  forall e, z_at (dsc_run es (discard c)) = XDied e -> e = BrokenPipe /\
  exists es1 es2, es = es1 ++ SThread :: es2 /\ let s := dsc_run es1 (discard c) in
    (z_at s = XGreet \/ exists m, z_at s = XGot m /\ (m = [] \/ takes_leave m)) /\ ~ In (st (c_sess (z_conn s))) [ESTABLISHED; CLOSE_WAIT].
Proof.
  intros H. induction es as [|ev es IH] using rev_ind; intros G e D; [discriminate D|].
  apply dsegments_app in G. destruct G as [G1 _]. rewrite drun_app in D. cbn [dsc_run] in D.
  destruct (dsc_handed _ _ iss c H (fun o c X => X) (fair_sane iss) es G1) as (_ & L & _). set (s := dsc_run es (discard c)) in *.
  assert (PREV : z_at s = XDied e -> e = BrokenPipe /\ exists es1 es2, es ++ [ev] = es1 ++ SThread :: es2 /\ let s := dsc_run es1 (discard c) in
    (z_at s = XGreet \/ exists m, z_at s = XGot m /\ (m = [] \/ takes_leave m)) /\ ~ In (st (c_sess (z_conn s))) [ESTABLISHED; CLOSE_WAIT]).
  { intros D'. destruct (IH G1 e D') as (-> & es1 & es2 & -> & X). split; [reflexivity|]. exists es1, (es2 ++ [ev]). rewrite <- app_assoc. auto. }
  destruct ev as [| | |p]; [|exact (PREV D)|exact (PREV D)|exact (PREV D)].
  unfold dsc_do in D. cbn [dsc_op] in D. destruct (z_at s) eqn:A; cbn [z_with z_at] in D.
  - destruct (op_send hello (z_conn s)) as (_ & _ & [(E & _)|((x & E) & _ & N)]); rewrite E in D; [discriminate D|]. injection D as <-. split; [reflexivity|].
    exists es, []. fold s. auto.
  - destruct (z_run s); discriminate D.
  - destruct (snd (read_step _ _ _)); discriminate D.
  - pose proof (dsc_notice m) as NT. destruct (dsc_reply m) as [d|] eqn:DR; cbn [z_with z_at] in D; [|discriminate D].
    destruct (op_send d (z_conn s)) as (_ & _ & [(E & _)|((x & E) & _ & N)]); rewrite E in D; [discriminate D|].
    injection D as <-. split; [reflexivity|]. exists es, []. fold s. split; [reflexivity|]. split; [|exact N]. right. exists m. split; [exact A|].
    unfold dsc_reply in DR. destruct (zlen m =? 0) eqn:Z; [left; apply Z.eqb_eq, zlen_zero_nil in Z; exact Z|].
    destruct (quits m) eqn:Q; [right; apply quits_iff; exact Q|discriminate DR].
  - rewrite (close_late _ L) in D. destruct again; discriminate D.
  - rewrite (close_late _ L) in D. discriminate D.
  - rewrite A in D. discriminate D.
  - apply PREV. congruence.
Qed.
Lemma dsc_stops es : forall s, z_run s = false -> (length (c_read (z_conn (dsc_run es s))) <= length (c_read (z_conn s)) + match z_at s with XRecv => 1 | _ => 0 end)%nat.
Proof.
  induction es as [|e es IH]; intros s R; cbn [dsc_run]; [destruct (z_at s); lia|].
  assert (R' : z_run (dsc_do e s) = false).
  { destruct e as [| | |p]; try exact R; try reflexivity. unfold dsc_do. cbn [dsc_op]. destruct (z_at s); try exact R. destruct (dsc_reply m); exact R. }
  specialize (IH _ R'). etransitivity; [exact IH|]. clear IH R'. destruct e as [| | |p]; unfold dsc_do; cbn [dsc_op].
  - destruct (z_at s) eqn:A; cbn [z_with z_conn z_at]; rewrite ?A, ?R.
    + destruct (op_send hello (z_conn s)) as (-> & _ & [(-> & _)|((x & ->) & _)]); lia.
    + lia.
    + destruct (op_read (z_conn s)) as [_ ->]. rewrite app_length. destruct (snd (read_step _ _ _)); cbn [length]; lia.
    + destruct (dsc_reply m) as [d|]; cbn [z_with z_conn z_at]; [|lia].
      destruct (op_send d (z_conn s)) as (-> & _ & [(-> & _)|((x & ->) & _)]); lia.
    + destruct (op_keeps OClose (z_conn s)) as [-> _]; try discriminate. destruct (snd _); [destruct again|]; lia.
    + destruct (op_keeps OClose (z_conn s)) as [-> _]; try discriminate. destruct (snd _); lia.
    + lia.
    + lia.
  - cbn. lia.
  - cbn [z_with z_conn z_at]. destruct (op_keeps OTick (z_conn s)) as [-> _]; try discriminate. lia.
  - cbn [z_with z_conn z_at]. destruct (op_keeps (OSegment p) (z_conn s)) as [-> _]; try discriminate. lia.
Qed.
(** ** the closing *)
Lemma close_open c : In (st (c_sess c)) [ESTABLISHED; CLOSE_WAIT] -> snd (op_do OClose c) = Ok tt /\ closing (c_sess (fst (op_do OClose c))) = true /\ st (c_sess (fst (op_do OClose c))) = st (c_sess c).
Proof.
  intros W. cbn [op_do]. unfold with_sess, tcp_fsm. cbn [fsm fst snd]. cbn in W. destruct W as [E|[E|[]]]; rewrite <- E; repeat split; auto.
Qed.
Lemma dsc_closes s m : z_at s = XGot m -> In (st (c_sess (z_conn s))) [ESTABLISHED; CLOSE_WAIT] ->
  (m = [] -> let s' := dsc_run [SThread; SThread; SThread] s in z_at s' = XDone /\ closing (c_sess (z_conn s')) = true) /\
  (m <> [] -> takes_leave m -> let s' := dsc_run [SThread; SThread] s in z_at s' = XTest /\ closing (c_sess (z_conn s')) = true) /\
  (m <> [] -> ~ takes_leave m -> dsc_do SThread s = z_with (z_conn s) XTest s).
Proof.
  intros A W.
  assert (SND : forall d, dsc_reply m = Some d -> exists c, dsc_do SThread s = z_with c (XClose (negb (zlen m =? 0))) s /\ st (c_sess c) = st (c_sess (z_conn s))).
  { intros d D. destruct (op_send d (z_conn s)) as (_ & _ & [(E & _)|(_ & _ & N)]); [|contradiction].
    exists (fst (op_do (OSend d) (z_conn s))). split; [unfold dsc_do; cbn [dsc_op]; rewrite A, D, E; reflexivity|].
    cbn [op_do]. unfold session_send. destruct (in_state _ _); reflexivity. }
  assert (CL : forall b c, In (st (c_sess c)) [ESTABLISHED; CLOSE_WAIT] -> dsc_do SThread (z_with c (XClose b) s) = z_with (fst (op_do OClose c)) (if b then XTest else XLast) s).
  { intros b c X. destruct (close_open c X) as (E & _). unfold dsc_do. cbn [dsc_op z_with z_at z_conn]. rewrite E. reflexivity. }
  assert (LA : forall c, In (st (c_sess c)) [ESTABLISHED; CLOSE_WAIT] -> dsc_do SThread (z_with c XLast s) = z_with (fst (op_do OClose c)) XDone s).
  { intros c X. destruct (close_open c X) as (E & _). unfold dsc_do. cbn [dsc_op z_with z_at z_conn]. rewrite E. reflexivity. }
  split; [|split].
  - intros ->. cbn zeta. cbn [dsc_run]. destruct (SND client_closed eq_refl) as (c & -> & C). rewrite <- C in W.
    change (negb (zlen (@nil Z) =? 0)) with false. rewrite (CL false c W). cbn iota. destruct (close_open c W) as (_ & _ & C2). rewrite <- C2 in W.
    rewrite (LA _ W). split; [reflexivity|]. cbn [z_with z_conn]. apply (close_open _ W).
  - intros N T. cbn zeta. cbn [dsc_run]. apply quits_iff in T.
    assert (Z : (zlen m =? 0) = false) by (apply Z.eqb_neq; intros Z; apply zlen_zero_nil in Z; contradiction).
    destruct (SND client_open) as (c & -> & C); [unfold dsc_reply; rewrite Z, T; reflexivity|]. rewrite <- C in W.
    rewrite Z. cbn [negb]. rewrite (CL true c W). split; [reflexivity|]. cbn [z_with z_conn]. apply (close_open _ W).
  - intros N T. assert (Z : (zlen m =? 0) = false) by (apply Z.eqb_neq; intros Z; apply zlen_zero_nil in Z; contradiction).
    assert (Q : quits m = false) by (destruct (quits m) eqn:Q; auto; apply quits_iff in Q; contradiction).
    unfold dsc_do. cbn [dsc_op]. rewrite A. unfold dsc_reply. rewrite Z, Q. reflexivity.
Qed.
(** stop() and a turn of the loop: the connection is closed *)
Lemma dsc_last s : z_at s = XTest -> z_run s = false -> In (st (c_sess (z_conn s))) [ESTABLISHED; CLOSE_WAIT] ->
  let s' := dsc_run [SThread; SThread] s in z_at s' = XDone /\ closing (c_sess (z_conn s')) = true.
Proof.
  intros A R W. cbn zeta. cbn [dsc_run]. assert (E : dsc_do SThread s = z_with (z_conn s) XLast s) by (unfold dsc_do; cbn [dsc_op]; rewrite A, R; reflexivity).
  rewrite E. destruct (close_open (z_conn s) W) as (O & C & _). unfold dsc_do. cbn [dsc_op z_with z_at z_conn]. rewrite O. auto.
Qed.
(** ** why it returns *)
Definition dsc_reason (s : dsc) : Prop := z_run s = true /\
  match z_at s with
  | XGot m => exists l, c_read (z_conn s) = l ++ [m]
  | XClose false | XLast | XDone => exists l, c_read (z_conn s) = l ++ [[]]
  | _ => True
  end.
Lemma dsc_reason_step e s : e <> SStop -> dsc_reason s -> dsc_reason (dsc_do e s).
Proof.
  intros N [R A]. unfold dsc_reason. destruct e as [| | |p]; [|contradiction| |].
  - unfold dsc_do. cbn [dsc_op]. destruct (z_at s) eqn:Z; cbn [z_with z_run z_at z_conn]; rewrite ?R, ?Z.
    + split; [reflexivity|]. destruct (snd (op_do _ _)); exact Logic.I.
    + split; [reflexivity|]. exact Logic.I.
    + split; [reflexivity|]. destruct (op_read (z_conn s)) as [_ RD]. destruct (snd (read_step _ _ _)) as [m|]; [|exact Logic.I]. exists (c_read (z_conn s)). exact RD.
    + destruct A as (l & A). destruct (dsc_reply m) as [d|] eqn:D; cbn [z_with z_run z_at z_conn]; [|auto].
      split; [exact R|]. destruct (op_send d (z_conn s)) as (RD & _). destruct (snd (op_do _ _)); [|exact Logic.I].
      destruct (zlen m =? 0) eqn:ZM; cbn [negb]; [|exact Logic.I]. apply Z.eqb_eq, zlen_zero_nil in ZM. subst m. rewrite RD. eauto.
    + split; [reflexivity|]. destruct (op_keeps OClose (z_conn s)) as [RD _]; try discriminate.
      destruct (snd (op_do _ _)); [|exact Logic.I]. destruct again; [exact Logic.I|]. rewrite RD. exact A.
    + split; [reflexivity|]. destruct (op_keeps OClose (z_conn s)) as [RD _]; try discriminate.
      destruct (snd (op_do _ _)); [|exact Logic.I]. rewrite RD. exact A.
    + split; [reflexivity|exact A].
    + split; [reflexivity|exact Logic.I].
  - unfold dsc_do. cbn [dsc_op z_with z_run z_at z_conn]. destruct (op_keeps OTick (z_conn s)) as [-> _]; try discriminate. split; assumption.
  - unfold dsc_do. cbn [dsc_op z_with z_run z_at z_conn]. destruct (op_keeps (OSegment p) (z_conn s)) as [-> _]; try discriminate. split; assumption.
Qed.
Lemma dsc_why es : forall s, ~ In SStop es -> dsc_reason s -> dsc_reason (dsc_run es s).
Proof.
  induction es as [|e es IH]; intros s N R; [exact R|]. cbn [dsc_run]. apply IH; [intros I; apply N; right; exact I|].
  apply dsc_reason_step; [intros ->; apply N; left; reflexivity|exact R].
Qed.
