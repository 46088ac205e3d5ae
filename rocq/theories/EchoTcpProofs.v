(** The TCP echo service. *)
From Verif Require Import Base BaseLemmas AddrModel TcpModel StackModel StackRxModel SessModel SpecSess SpecSess2 SpecSess3 SessProofs SessTrace SessRun SessInv SessTx SessRx SessKeep SessRead PropSess
  EchoModel SpecEcho EchoProofs EchoTcpModel SpecEchoTcp.

(** ** the words *)
Lemma blank_iff b : is_space b = true <-> blank b.
Proof. unfold is_space, blank. cbn [In]. rewrite orb_true_iff, andb_true_iff, Z.eqb_eq, !Z.leb_le. lia. Qed.
Lemma lstrip_exact m : exists a, m = a ++ lstrip m /\ Forall blank a.
Proof.
  induction m as [|b r (a & E & F)]; cbn [lstrip]; [exists []; auto|]. destruct (is_space b) eqn:S; [|exists []; auto].
  exists (b :: a). split; [cbn; congruence|]. constructor; [apply blank_iff; exact S|exact F].
Qed.
Lemma lstrip_drops a x : Forall blank a -> lstrip (a ++ x) = lstrip x.
Proof. induction 1 as [|b a B _ IH]; [reflexivity|]. cbn [app lstrip]. apply blank_iff in B. rewrite B. exact IH. Qed.
Lemma lstrip_solid x b : solid x -> lstrip (x ++ b) = x ++ b.
Proof. intros (N & F). destruct x as [|c x]; [congruence|]. cbn. rewrite F by (left; reflexivity). reflexivity. Qed.
Lemma strip_exact m : exists a b, m = a ++ strip m ++ b /\ Forall blank a /\ Forall blank b.
Proof.
  unfold strip. destruct (lstrip_exact m) as (a & E & F). destruct (lstrip_exact (rev (lstrip m))) as (b & E' & F').
  exists a, (rev b). split; [|split; [exact F|apply Forall_rev; exact F']].
  rewrite E at 1. f_equal. rewrite <- (rev_involutive (lstrip m)) at 1. rewrite E' at 1. rewrite rev_app_distr. reflexivity.
Qed.
Lemma strip_solid a x b : solid x -> Forall blank a -> Forall blank b -> strip (a ++ x ++ b) = x.
Proof.
  intros S A B. unfold strip. rewrite (lstrip_drops _ _ A), (lstrip_solid _ _ S), rev_app_distr, (lstrip_drops _ _ (Forall_rev B)).
  rewrite <- (app_nil_r (rev x)), lstrip_solid by (apply solid_rev; exact S). rewrite app_nil_r. apply rev_involutive.
Qed.
Lemma quit_small w : In w quit_words -> small_word w.
Proof. intros I. cbn in I. decompose [or] I; try contradiction; subst w; (split; [discriminate|intros c H; cbn in H; lia]). Qed.
Lemma bytes_eqb_iff a b : bytes_eqb a b = true <-> a = b.
Proof. unfold bytes_eqb. destruct (list_eq_dec Z.eq_dec a b); split; congruence. Qed.
Lemma quits_iff m : quits m = true <-> takes_leave m.
Proof.
  unfold quits. rewrite existsb_exists. split.
  - intros (w & I & E). apply bytes_eqb_iff in E. destruct (strip_exact m) as (a & b & E' & A & B). exists w, a, (strip m), b.
    repeat split; auto. apply lower_word; [apply quit_small; exact I|exact E].
  - intros (w & a & x & b & I & -> & A & B & L). exists w. split; [exact I|]. apply bytes_eqb_iff.
    rewrite strip_solid; auto; [|eapply word_solid; [apply quit_small; exact I|exact L]]. apply lower_word; [apply quit_small; exact I|exact L].
Qed.
Lemma srv_replies m : reply_to m (srv_reply m).
Proof.
  unfold srv_reply. destruct (zlen m =? 0) eqn:Z.
  - apply Z.eqb_eq, zlen_zero_nil in Z. apply rp_closed. exact Z.
  - assert (N : m <> []) by (intros ->; discriminate Z). destruct (quits m) eqn:Q.
    + apply rp_leave; [exact N|apply quits_iff; exact Q].
    + apply rp_echo; [exact N| |apply echo_answer]. intros H. apply quits_iff in H. congruence.
Qed.

(** ** one event *)
Lemma said_more l m w : said_all l w -> said_all (l ++ [m]) (w ++ srv_reply m).
Proof.
  intros (r & F & ->). exists (r ++ [srv_reply m]). split; [apply Forall2_app; [exact F|constructor; [apply srv_replies|constructor]]|].
  rewrite concat_app, <- app_assoc. cbn. rewrite app_nil_r. reflexivity.
Qed.
Lemma op_keeps o c : (forall d, o <> OSend d) -> (forall i n, o <> ORead i n) -> c_read (fst (op_do o c)) = c_read c /\ c_written (fst (op_do o c)) = c_written c.
Proof. intros S R. destruct o; try (split; reflexivity); [exfalso; eapply S; reflexivity|exfalso; eapply R; reflexivity]. Qed.
Lemma op_send d c : let r := op_do (OSend d) c in c_read (fst r) = c_read c /\ c_rd (fst r) = c_rd c /\
  ((snd r = Ok tt /\ c_written (fst r) = c_written c ++ d /\ In (st (c_sess c)) [ESTABLISHED; CLOSE_WAIT]) \/
   ((exists e, snd r = Exn e) /\ fst r = c /\ ~ In (st (c_sess c)) [ESTABLISHED; CLOSE_WAIT])).
Proof.
  cbn [op_do]. unfold session_send, in_state. destruct (existsb _ _) eqn:E; cbn [fst snd].
  - repeat split. left. repeat split. apply existsb_exists in E. destruct E as (x & I & E). destruct (st (c_sess c)), x; try discriminate E; exact I.
  - repeat split. right. split; [eauto|]. split; [reflexivity|]. intros I.
    assert (X : existsb (fsm_eqb (st (c_sess c))) [ESTABLISHED; CLOSE_WAIT] = true) by (cbn in I; destruct I as [<-|[<-|[]]]; reflexivity).
    congruence.
Qed.
Lemma op_read c : c_written (fst (op_do (ORead 0 None) c)) = c_written c /\
  c_read (fst (op_do (ORead 0 None) c)) = c_read c ++ match snd (read_step None (c_rd c 0%nat) (c_sess c)) with Some d => [d] | None => [] end.
Proof. cbn [op_do]. destruct (read_step _ _ _) as [[s r] d]. split; reflexivity. Qed.
Lemma close_late c : In (st (c_sess c)) established_states -> snd (op_do OClose c) = Ok tt.
Proof. intros I. cbn in I. cbn [op_do]. unfold with_sess, tcp_fsm. cbn [snd fsm]. decompose [or] I; try contradiction; match goal with H : _ = st _ |- _ => rewrite <- H end; reflexivity. Qed.
Lemma srv_step e s : In (st (c_sess (v_conn s))) established_states -> transcript (v_at s) (v_conn s) -> transcript (v_at (srv_do e s)) (v_conn (srv_do e s)).
Proof.
  intros L T. destruct e as [| | |p]; unfold srv_do.
  - destruct (v_at s) eqn:A; cbn [srv_op]; rewrite ?A; cbn [v_with v_at v_conn].
    + destruct T as [R W]. destruct (op_send hello (v_conn s)) as (R' & _ & [(-> & W' & _)|((e & ->) & -> & _)]).
      * cbn [transcript]. rewrite R', W', R, W. exists []. split; [constructor|]. reflexivity.
      * cbn. left. auto.
    + destruct (v_run s); exact T.
    + destruct (op_read (v_conn s)) as [W R]. destruct (snd (read_step _ _ _)) as [m|]; cbn [transcript] in *.
      * exists (c_read (v_conn s)). rewrite W. auto.
      * rewrite R, W, app_nil_r. exact T.
    + destruct T as (l & R & W). destruct (op_send (srv_reply m) (v_conn s)) as (R' & _ & [(-> & W' & _)|((e & ->) & -> & _)]).
      * assert (X : said_all (c_read (fst (op_do (OSend (srv_reply m)) (v_conn s)))) (c_written (fst (op_do (OSend (srv_reply m)) (v_conn s)))))
          by (rewrite R', W', R; apply said_more; exact W).
        unfold srv_next. destruct (zlen m =? 0); [exact X|]. destruct (quits m); exact X.
      * cbn. right. eauto.
    + rewrite (close_late _ L). destruct (op_keeps OClose (v_conn s)) as [R W]; try discriminate.
      destruct again; cbn [transcript]; rewrite R, W; exact T.
    + exact T.
    + exact T.
  - exact T.
  - cbn [srv_op v_with v_at v_conn]. destruct (op_keeps OTick (v_conn s)) as [R W]; try discriminate. unfold transcript. rewrite R, W. exact T.
  - cbn [srv_op v_with v_at v_conn]. destruct (op_keeps (OSegment p) (v_conn s)) as [R W]; try discriminate. unfold transcript. rewrite R, W. exact T.
Qed.
Lemma srv_conn e s : v_conn (srv_do e s) = match srv_op e s with Some o => fst (op_do o (v_conn s)) | None => v_conn s end.
Proof.
  destruct e as [| | |p]; try reflexivity. unfold srv_do. cbn [srv_op]. destruct (v_at s); reflexivity.
Qed.

(** ** the states *)
Lemma documented_late o a b : documented o a b -> In a established_states -> In b established_states.
Proof. intros D I. cbn in I. decompose [or] I; try contradiction; subst a; destruct b; cbn in D |- *; try contradiction; auto 12. Qed.
Lemma edges_late o a b : edges o a b -> In a established_states -> In b established_states.
Proof. induction 1 as [a|a b c D E IH]; intros I; [exact I|]. apply IH. eapply documented_late; eauto. Qed.
Lemma passive_opened iss c : passive iss c -> opened iss c.
Proof. intros (H & lip & lport & rip & rport & ->). split; [exact H|]. exists Listen, lip, lport, rip, rport, []. split; [auto|split; [constructor|reflexivity]]. Qed.
(** [P] allows what the service does anyway *)
Definition fair (P : tmd -> conn -> Prop) (allowed : op -> conn -> Prop) : Prop :=
  forall o c, match o with OSegment p => P p c | OClose => st (c_sess c) <> SYN_RCVD | _ => True end -> allowed o c.
Lemma srv_reach (P : tmd -> conn -> Prop) (allowed : op -> conn -> Prop) iss c0 : passive iss c0 -> (forall o c, allowed o c -> sane_op iss o c) -> fair P allowed ->
  forall es s, reach allowed c0 (v_conn s) -> In (st (c_sess (v_conn s))) established_states -> transcript (v_at s) (v_conn s) -> segments P es s ->
  let s' := srv_run es s in reach allowed c0 (v_conn s') /\ In (st (c_sess (v_conn s'))) established_states /\ transcript (v_at s') (v_conn s').
Proof.
  intros PO SA FA. pose proof (passive_opened _ _ PO) as O.
  assert (SR : forall c, reach allowed c0 c -> reach (sane_op iss) c0 c).
  { induction 1 as [|c o R IH A]; [apply reach_0|]. apply reach_op; auto. }
  induction es as [|e es IH]; intros s R L T G; [auto|]. destruct G as [G1 G2]. cbn [srv_run]. apply IH; auto.
  - rewrite srv_conn. destruct (srv_op e s) as [o|] eqn:E; [|exact R]. apply reach_op; [exact R|]. apply FA.
    destruct e as [| | |p]; cbn [srv_op] in E; try discriminate; [|injection E as <-; exact Logic.I|injection E as <-; exact G1].
    destruct (v_at s); try discriminate; injection E as <-; try exact Logic.I. intros X. rewrite X in L. cbn in L. intuition discriminate.
  - rewrite srv_conn. destruct (srv_op e s) as [o|] eqn:E; [|exact L].
    assert (A : allowed o (v_conn s)).
    { apply FA. destruct e as [| | |p]; cbn [srv_op] in E; try discriminate; [|injection E as <-; exact Logic.I|injection E as <-; exact G1].
      destruct (v_at s); try discriminate; injection E as <-; try exact Logic.I. intros X. rewrite X in L. cbn in L. intuition discriminate. }
    eapply edges_late; [|exact L]. eapply edges_reach; eauto.
  - apply srv_step; auto.
Qed.
Lemma handed_run (P : tmd -> conn -> Prop) (allowed : op -> conn -> Prop) iss c : handed allowed iss c -> (forall o c, allowed o c -> sane_op iss o c) -> fair P allowed ->
  forall es, segments P es (serve c) -> let s' := srv_run es (serve c) in
  (exists c0, passive iss c0 /\ reach allowed c0 (v_conn s')) /\ In (st (c_sess (v_conn s'))) established_states /\ transcript (v_at s') (v_conn s').
Proof.
  intros (c0 & PO & R & L & Rd & Wr & _) SA FA es G. destruct (srv_reach P allowed iss c0 PO SA FA es (serve c) R L) as (A & B & C); [split; assumption|exact G|].
  split; [eauto|auto].
Qed.
Lemma fair_sane iss : fair (sane_seg iss) (sane_op iss).
Proof. intros o c H. destruct o; try exact Logic.I; exact H. Qed.
Lemma fair_eof iss irs stream : fair (fun p c => sane_seg iss p c /\ from_peer irs stream (zlen (received c)) p) (eof_op iss irs stream).
Proof. intros o c H. destruct o; (split; [|try exact Logic.I]); try exact Logic.I; try apply H. Qed.
Lemma eof_sane iss irs stream o c : eof_op iss irs stream o c -> sane_op iss o c.
Proof. intros H. apply H. Qed.
Lemma reach_more (a b : op -> conn -> Prop) c0 c : (forall o c, a o c -> b o c) -> reach a c0 c -> reach b c0 c.
Proof. intros H. induction 1 as [|c o R IH A]; [apply reach_0|apply reach_op; auto]. Qed.
(** ** the streams *)
Lemma srv_stream iss irs stream c es : 0 <= irs < 2 ^ 32 -> handed (eof_op iss irs stream) iss c ->
  segments (fun p c => sane_seg iss p c /\ from_peer irs stream (zlen (received c)) p) es (serve c) ->
  let c' := v_conn (srv_run es (serve c)) in
  prefix (concat (c_read c')) stream /\ Forall (carries iss (c_written c')) (sent (c_sess c')).
Proof.
  intros I H G. destruct (handed_run _ _ iss c H (eof_sane iss irs stream) (fair_eof iss irs stream) es G) as ((c0 & PO & R) & _).
  pose proof (passive_opened _ _ PO) as O. split.
  - eapply (read_prefix irs stream iss c0); eauto. eapply reach_more; [|exact R]. intros o x X. apply X.
  - eapply (sent_reach iss c0); eauto. eapply reach_more; [|exact R]. intros o x X. apply X.
Qed.
(** ** how it ends *)
Lemma srun_app a b s : srv_run (a ++ b) s = srv_run b (srv_run a s).
Proof. revert s. induction a; cbn; auto. Qed.
Lemma segments_app P a b s : segments P (a ++ b) s <-> segments P a s /\ segments P b (srv_run a s).
Proof. revert s. induction a as [|e a IH]; intros s; cbn [app segments srv_run]; [tauto|]. rewrite IH. tauto. Qed.
Lemma srv_died iss c : handed (sane_op iss) iss c -> forall es, segments (sane_seg iss) es (serve c) ->
  forall e, v_at (srv_run es (serve c)) = SDied e -> e = BrokenPipe /\
  exists es1 es2, es = es1 ++ SThread :: es2 /\ let s := srv_run es1 (serve c) in
    (v_at s = SGreet \/ exists m, v_at s = SGot m) /\ ~ In (st (c_sess (v_conn s))) [ESTABLISHED; CLOSE_WAIT].
Proof.
  intros H. induction es as [|ev es IH] using rev_ind; intros G e D; [discriminate D|].
  apply segments_app in G. destruct G as [G1 _]. rewrite srun_app in D. cbn [srv_run] in D.
  destruct (handed_run _ _ iss c H (fun o c X => X) (fair_sane iss) es G1) as (_ & L & _). set (s := srv_run es (serve c)) in *.
  assert (PREV : v_at s = SDied e -> e = BrokenPipe /\ exists es1 es2, es ++ [ev] = es1 ++ SThread :: es2 /\ let s := srv_run es1 (serve c) in
    (v_at s = SGreet \/ exists m, v_at s = SGot m) /\ ~ In (st (c_sess (v_conn s))) [ESTABLISHED; CLOSE_WAIT]).
  { intros D'. destruct (IH G1 e D') as (-> & es1 & es2 & -> & X). split; [reflexivity|]. exists es1, (es2 ++ [ev]). rewrite <- app_assoc. auto. }
  destruct ev as [| | |p]; [|exact (PREV D)|exact (PREV D)|exact (PREV D)].
  unfold srv_do in D. cbn [srv_op] in D. destruct (v_at s) eqn:A; cbn [v_with v_at] in D.
  - destruct (op_send hello (v_conn s)) as (_ & _ & [(E & _)|((x & E) & _ & N)]); rewrite E in D; [discriminate D|]. injection D as <-. split; [reflexivity|].
    exists es, []. fold s. auto.
  - destruct (v_run s); discriminate D.
  - destruct (snd (read_step _ _ _)); discriminate D.
  - destruct (op_send (srv_reply m) (v_conn s)) as (_ & _ & [(E & _)|((x & E) & _ & N)]); rewrite E in D.
    + unfold srv_next in D. destruct (zlen m =? 0); [discriminate D|]. destruct (quits m); discriminate D.
    + injection D as <-. split; [reflexivity|]. exists es, []. fold s. split; [reflexivity|]. split; [right; eauto|exact N].
  - rewrite (close_late _ L) in D. destruct again; discriminate D.
  - rewrite A in D. discriminate D.
  - apply PREV. congruence.
Qed.
(** after stop() one recv() at most *)
Lemma srv_stops es : forall s, v_run s = false -> (length (c_read (v_conn (srv_run es s))) <= length (c_read (v_conn s)) + match v_at s with SRecv => 1 | _ => 0 end)%nat.
Proof.
  induction es as [|e es IH]; intros s R; cbn [srv_run]; [destruct (v_at s); lia|].
  assert (R' : v_run (srv_do e s) = false).
  { destruct e as [| | |p]; try exact R; try reflexivity. unfold srv_do. cbn [srv_op]. destruct (v_at s); exact R. }
  specialize (IH _ R'). etransitivity; [exact IH|]. clear IH R'. destruct e as [| | |p]; unfold srv_do; cbn [srv_op].
  - destruct (v_at s) eqn:A; cbn [v_with v_conn v_at]; rewrite ?A, ?R.
    + destruct (op_send hello (v_conn s)) as (-> & _ & [(-> & _)|((x & ->) & _)]); lia.
    + lia.
    + destruct (op_read (v_conn s)) as [_ ->]. rewrite app_length. destruct (snd (read_step _ _ _)); cbn [length]; lia.
    + destruct (op_send (srv_reply m) (v_conn s)) as (-> & _ & [(-> & _)|((x & ->) & _)]); [|lia].
      unfold srv_next. destruct (zlen m =? 0); [lia|]. destruct (quits m); lia.
    + destruct (op_keeps OClose (v_conn s)) as [-> _]; try discriminate. destruct (snd _); [destruct again|]; lia.
    + lia.
    + lia.
  - cbn. lia.
  - cbn [v_with v_conn v_at]. destruct (op_keeps OTick (v_conn s)) as [-> _]; try discriminate. lia.
  - cbn [v_with v_conn v_at]. destruct (op_keeps (OSegment p) (v_conn s)) as [-> _]; try discriminate. lia.
Qed.
(** ** the closing *)
Lemma srv_closes s m : v_at s = SGot m -> In (st (c_sess (v_conn s))) [ESTABLISHED; CLOSE_WAIT] ->
  let s' := srv_run [SThread; SThread] s in
  (m = [] -> v_at s' = SDone /\ closing (c_sess (v_conn s')) = true) /\
  (m <> [] -> takes_leave m -> v_at s' = STest /\ closing (c_sess (v_conn s')) = true) /\
  (m <> [] -> ~ takes_leave m -> v_at s' = (if v_run s then SRecv else SDone) /\ closing (c_sess (v_conn s')) = closing (c_sess (v_conn s))).
Proof.
  intros A W s'. unfold s'. cbn [srv_run]. clear s'.
  destruct (op_send (srv_reply m) (v_conn s)) as (_ & _ & [(E & _)|(_ & _ & N)]); [|contradiction].
  assert (S1 : srv_do SThread s = v_with (fst (op_do (OSend (srv_reply m)) (v_conn s))) (srv_next m) s).
  { unfold srv_do. cbn [srv_op]. rewrite A, E. reflexivity. }
  rewrite S1. set (c := fst (op_do (OSend (srv_reply m)) (v_conn s))).
  assert (C : closing (c_sess c) = closing (c_sess (v_conn s)) /\ st (c_sess c) = st (c_sess (v_conn s))).
  { unfold c. cbn [op_do]. unfold session_send. destruct (in_state _ _); split; reflexivity. }
  destruct C as [C1 C2]. clearbody c. clear S1 E.
  assert (CL : forall b, let s2 := srv_do SThread (v_with c (SClose b) s) in v_at s2 = (if b then STest else SDone) /\ closing (c_sess (v_conn s2)) = true).
  { intros b. unfold srv_do. cbn [srv_op v_with v_at v_conn op_do]. unfold with_sess, tcp_fsm. cbn [fsm fst snd].
    rewrite C2. cbn in W. destruct W as [<-|[<-|[]]]; destruct b; split; reflexivity. }
  unfold srv_next. split; [|split].
  - intros ->. exact (CL false).
  - intros N L. destruct (zlen m =? 0) eqn:Z; [apply Z.eqb_eq, zlen_zero_nil in Z; contradiction|]. apply quits_iff in L. rewrite L. exact (CL true).
  - intros N L. destruct (zlen m =? 0) eqn:Z; [apply Z.eqb_eq, zlen_zero_nil in Z; contradiction|].
    destruct (quits m) eqn:Q; [apply quits_iff in Q; contradiction|]. unfold srv_do. cbn [srv_op v_with v_at v_conn]. auto.
Qed.
