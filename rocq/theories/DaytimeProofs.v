(** The TCP daytime service. *)
From Verif Require Import Base BaseLemmas AddrModel TcpModel StackModel StackRxModel SessModel SpecSess SpecSess2 SpecSess3 SessProofs SessTrace SessRun SessInv SessTx SessRx SessKeep SessRead PropSess
  EchoModel SpecEcho EchoProofs EchoTcpModel SpecEchoTcp EchoTcpProofs DaytimeModel SpecDaytime.

Lemma day_conn e s : y_conn (day_do e s) = match day_op e s with Some o => fst (op_do o (y_conn s)) | None => y_conn s end.
Proof. destruct e; try reflexivity. unfold day_do. cbn [day_op]. destruct (y_at s); reflexivity. Qed.
Lemma drun_app a b s : day_run (a ++ b) s = day_run b (day_run a s).
Proof. revert s. induction a; cbn; auto. Qed.
Lemma day_segments_app P a b s : day_segments P (a ++ b) s <-> day_segments P a s /\ day_segments P b (day_run a s).
Proof. revert s. induction a as [|e a IH]; intros s; cbn [app day_segments day_run]; [tauto|]. rewrite IH. tauto. Qed.
Lemma clocks_app a b : clocks (a ++ b) = clocks a ++ clocks b.
Proof. induction a as [|e a IH]; [reflexivity|]. destruct e; cbn [app clocks]; rewrite IH; reflexivity. Qed.
Lemma part_end {A} (a b : list A) x : part_of a b -> part_of (a ++ [x]) (b ++ [x]).
Proof. induction 1; cbn; repeat constructor; auto. Qed.
Lemma part_more {A} (a b c : list A) : part_of a b -> part_of a (b ++ c).
Proof. induction 1; cbn; [|constructor; auto|constructor; auto]. induction c; constructor; auto. Qed.

(** ** the states *)
Lemma day_allowed (P : tmd -> conn -> Prop) (allowed : op -> conn -> Prop) e s o : fair P allowed -> In (st (c_sess (y_conn s))) established_states ->
  match e with DSegment p => P p (y_conn s) | _ => True end -> day_op e s = Some o -> allowed o (y_conn s).
Proof.
  intros FA L G E. apply FA. destruct e as [t| | |p]; cbn [day_op] in E; try discriminate; [|injection E as <-; exact Logic.I|injection E as <-; exact G].
  destruct (y_at s); try discriminate; injection E as <-; try exact Logic.I. intros X. rewrite X in L. cbn in L. intuition discriminate.
Qed.
Lemma day_reach (P : tmd -> conn -> Prop) (allowed : op -> conn -> Prop) iss c0 : passive iss c0 -> (forall o c, allowed o c -> sane_op iss o c) -> fair P allowed ->
  forall es s, reach allowed c0 (y_conn s) -> In (st (c_sess (y_conn s))) established_states -> day_segments P es s ->
  let s' := day_run es s in reach allowed c0 (y_conn s') /\ In (st (c_sess (y_conn s'))) established_states.
Proof.
  intros PO SA FA. pose proof (passive_opened _ _ PO) as O.
  induction es as [|e es IH]; intros s R L G; [auto|]. destruct G as [G1 G2]. cbn [day_run].
  apply IH; auto; rewrite day_conn; destruct (day_op e s) as [o|] eqn:E; auto.
  - apply reach_op; [exact R|]. eapply day_allowed; eauto.
  - assert (A := day_allowed P allowed e s o FA L G1 E). eapply edges_late; [|exact L].
    eapply edges_reach; eauto. eapply reach_more; [|exact R]. auto.
Qed.
Lemma day_handed (P : tmd -> conn -> Prop) (allowed : op -> conn -> Prop) iss c : handed allowed iss c -> (forall o c, allowed o c -> sane_op iss o c) -> fair P allowed ->
  forall k es, day_segments P es (daytime k c) -> let s' := day_run es (daytime k c) in
  (exists c0, passive iss c0 /\ reach allowed c0 (y_conn s')) /\ In (st (c_sess (y_conn s'))) established_states.
Proof.
  intros (c0 & PO & R & L & _) SA FA k es G. destruct (day_reach P allowed iss c0 PO SA FA es (daytime k c) R L G) as (A & B). split; [eauto|auto].
Qed.

(** ** what it says *)
(** the number of messages on the way to be counted *)
Definition uncounted (a : day_at) : Z := match a with DSleep => 1 | _ => 0 end.
Record kept (k : Z) (seen ts : list bytes) (s : day) : Prop := {
  k_told : told ts s;
  k_part : part_of ts seen;
  k_say : forall m, y_at s = DSay m -> exists t, m = line t /\ part_of (ts ++ [t]) seen;
  k_count : y_count s = k - zlen ts + uncounted (y_at s);
  k_left : y_at s = DSleep \/ (exists m, y_at s = DSay m) -> y_count s <> 0;
  k_bound : 0 <= k -> 0 <= y_count s;
  k_read : c_read (y_conn s) = [];
  k_close : y_at s = DClose -> y_run s = false \/ y_count s = 0 \/ ~ accepts (y_conn s)
}.
Definition refusing : list fsm_state := [FIN_WAIT_1; FIN_WAIT_2; CLOSING; LAST_ACK; TIME_WAIT; CLOSED].
Lemma refuses c : In (st (c_sess c)) established_states -> (~ accepts c <-> In (st (c_sess c)) refusing).
Proof. intros L. unfold accepts. cbn in L. decompose [or] L; try contradiction; match goal with H : _ = st _ |- _ => rewrite <- H end; cbn; intuition discriminate. Qed.
Lemma documented_refusing o a b : documented o a b -> In a refusing -> In b refusing.
Proof. intros D I. cbn in I. decompose [or] I; try contradiction; subst a; destruct b; cbn in D |- *; try contradiction; auto 12. Qed.
Lemma edges_refusing o a b : edges o a b -> In a refusing -> In b refusing.
Proof. induction 1 as [a|a b c D E IH]; intros I; [exact I|]. apply IH. eapply documented_refusing; eauto. Qed.
Lemma concat_snoc (l : list bytes) x : concat (map line (l ++ [x])) = concat (map line l) ++ line x.
Proof. rewrite map_app, concat_app. cbn. rewrite app_nil_r. reflexivity. Qed.
Lemma day_keeps P iss c0 e s k seen ts : passive iss c0 -> reach (sane_op iss) c0 (y_conn s) -> In (st (c_sess (y_conn s))) established_states -> fair P (sane_op iss) ->
  match e with DSegment p => P p (y_conn s) | _ => True end -> kept k seen ts s -> exists ts', kept k (seen ++ clocks [e]) ts' (day_do e s).
Proof.
  intros PO R L FA G K. pose proof (passive_opened _ _ PO) as O. destruct K as [K1 K2 K3 K4 K5 KB K6 K7].
  assert (MORE : forall x, part_of x seen -> part_of x (seen ++ clocks [e])) by (intros; apply part_more; assumption).
  assert (STAY : forall o, day_op e s = Some o -> ~ accepts (y_conn s) -> ~ accepts (fst (op_do o (y_conn s)))).
  { intros o E N. assert (A := day_allowed P _ e s o FA L G E). assert (ED := edges_reach iss c0 _ o O R A).
    apply refuses; [eapply edges_late; eauto|]. eapply edges_refusing; [exact ED|]. apply refuses; auto. }
  assert (QUIET : forall o, day_op e s = Some o -> (forall d, o <> OSend d) -> (forall i n, o <> ORead i n) -> day_do e s = y_with (fst (op_do o (y_conn s))) (y_at s) (y_count s) s ->
    exists ts', kept k (seen ++ clocks [e]) ts' (day_do e s)).
  { intros o E N1 N2 ->. destruct (op_keeps o (y_conn s) N1 N2) as [RD WR]. exists ts. constructor; cbn [y_with y_at y_conn y_run y_count].
    - unfold told in *. cbn [y_with y_at y_conn]. rewrite WR. exact K1.
    - auto.
    - intros m A. destruct (K3 m A) as (t & -> & X). eauto.
    - exact K4.
    - exact K5.
    - exact KB.
    - rewrite RD. exact K6.
    - intros A. destruct (K7 A) as [X|[X|X]]; auto. }
  destruct e as [t| | |p].
  - unfold day_do. cbn [day_op] in *. unfold told in K1. destruct (y_at s) eqn:A; cbn [uncounted] in K4.
    + destruct K1 as [-> W]. destruct (op_send hello (y_conn s)) as (R' & _ & [(E & W' & _)|((x & E) & W' & _)]); rewrite E; exists [].
      * constructor; cbn [y_with y_at y_conn y_run y_count uncounted]; auto; try discriminate.
        -- unfold told. cbn [y_with y_at y_conn map concat]. rewrite W', W, app_nil_r. reflexivity.
        -- intros [X|[m X]]; discriminate X.
        -- rewrite R'. exact K6.
      * constructor; cbn [y_with y_at y_conn y_run y_count uncounted]; auto; try discriminate.
        -- unfold told. cbn [y_with y_at y_conn]. rewrite W'. auto.
        -- intros [X|[m X]]; discriminate X.
        -- rewrite W'. exact K6.
    + exists ts. destruct (y_run s && negb (y_count s =? 0)) eqn:B.
      * apply andb_true_iff in B. destruct B as [B1 B2]. apply negb_true_iff, Z.eqb_neq in B2.
        constructor; cbn [y_with y_at y_conn y_run y_count uncounted]; auto; try discriminate.
        intros m X. injection X as <-. exists t. split; [reflexivity|]. apply part_end. exact K2.
      * constructor; cbn [y_with y_at y_conn y_run y_count uncounted]; auto; try discriminate.
        -- intros [X|[m X]]; discriminate X.
        -- intros _. destruct (y_run s); [|auto]. right. left. apply negb_false_iff, Z.eqb_eq in B. exact B.
    + destruct (K3 m eq_refl) as (t' & -> & X). destruct (op_send (line t') (y_conn s)) as (R' & _ & [(E & W' & _)|((x & E) & W' & N)]); rewrite E.
      * exists (ts ++ [t']). constructor; cbn [y_with y_at y_conn y_run y_count uncounted]; auto; try discriminate.
        -- unfold told. cbn [y_with y_at y_conn]. rewrite W', K1, concat_snoc, app_assoc. reflexivity.
        -- rewrite zlen_app. change (zlen [t']) with 1. lia.
        -- intros _. apply K5. eauto.
        -- rewrite R'. exact K6.
      * exists ts. constructor; cbn [y_with y_at y_conn y_run y_count uncounted]; auto; try discriminate.
        -- unfold told. cbn [y_with y_at y_conn]. rewrite W'. exact K1.
        -- intros [Y|[m Y]]; discriminate Y.
        -- rewrite W'. exact K6.
    + exists ts. constructor; cbn [y_with y_at y_conn y_run y_count uncounted]; auto; try discriminate.
      * lia.
      * intros [X|[m X]]; discriminate X.
      * intros X. specialize (KB X). specialize (K5 (or_introl eq_refl)). lia.
    + exists ts. rewrite (close_late _ L). destruct (op_keeps OClose (y_conn s)) as [RD WR]; try discriminate.
      constructor; cbn [y_with y_at y_conn y_run y_count uncounted]; auto; try discriminate.
      intros [X|[m X]]; discriminate X.
    + exists ts. constructor; rewrite ?A; auto; try discriminate. unfold told. rewrite A. exact K1.
    + exists ts. constructor; rewrite ?A; auto; try discriminate. unfold told. rewrite A. exact K1.
  - exists ts. constructor; cbn [day_do y_at y_conn y_run y_count]; auto.
    intros m A. destruct (K3 m A) as (t & -> & X). eauto.
  - apply (QUIET OTick); try discriminate; reflexivity.
  - apply (QUIET (OSegment p)); try discriminate; reflexivity.
Qed.
Lemma day_kept iss c k es : handed (sane_op iss) iss c -> day_segments (sane_seg iss) es (daytime k c) ->
  exists ts, kept k (clocks es) ts (day_run es (daytime k c)).
Proof.
  intros H. induction es as [|e es IH] using rev_ind; intros G.
  - destruct H as (c0 & _ & _ & _ & RD & WR & _). exists []. constructor; cbn [day_run daytime y_at y_conn y_run y_count uncounted]; try discriminate; try lia; auto.
    + unfold told. cbn. auto.
    + constructor.
    + change (zlen (@nil bytes)) with 0. lia.
    + intros [X|[m X]]; discriminate X.
  - apply day_segments_app in G. destruct G as [G1 [G2 _]]. destruct (IH G1) as (ts & K).
    destruct (day_handed _ _ iss c H (fun o c X => X) (fair_sane iss) k es G1) as ((c0 & PO & R) & L).
    rewrite drun_app, clocks_app. cbn [day_run]. eapply (day_keeps (sane_seg iss)); eauto. apply fair_sane.
Qed.
Lemma day_says iss c k es : handed (sane_op iss) iss c -> day_segments (sane_seg iss) es (daytime k c) -> let s := day_run es (daytime k c) in
  c_read (y_conn s) = [] /\ exists ts, part_of ts (clocks es) /\ told ts s /\ (0 <= k -> zlen ts <= k) /\
  (y_at s = DClose -> y_run s = false \/ zlen ts = k \/ ~ accepts (y_conn s)).
Proof.
  intros H G s. destruct (day_kept iss c k es H G) as (ts & K). fold s in K. destruct K as [K1 K2 K3 K4 K5 KB K6 K7]. split; [exact K6|]. exists ts.
  split; [exact K2|]. split; [exact K1|]. split; [intros X; specialize (KB X); destruct (y_at s); cbn [uncounted] in K4; try lia; specialize (K5 (or_introl eq_refl)); lia|intros A; destruct (K7 A) as [X|[X|X]]; auto; right; left; rewrite A in K4; cbn in K4; lia].
Qed.
(** ** how it ends *)
Lemma day_stream iss irs stream c k es : handed (eof_op iss irs stream) iss c ->
  day_segments (fun p c => sane_seg iss p c /\ from_peer irs stream (zlen (received c)) p) es (daytime k c) ->
  Forall (carries iss (c_written (y_conn (day_run es (daytime k c))))) (sent (c_sess (y_conn (day_run es (daytime k c))))).
Proof.
  intros H G. destruct (day_handed _ _ iss c H (eof_sane iss irs stream) (fair_eof iss irs stream) k es G) as ((c0 & PO & R) & _).
  eapply (sent_reach iss c0); [apply passive_opened; exact PO|]. eapply reach_more; [|exact R]. intros o x X. apply X.
Qed.
Lemma day_died iss c k : handed (sane_op iss) iss c -> forall es, day_segments (sane_seg iss) es (daytime k c) ->
  forall e, y_at (day_run es (daytime k c)) = DDied e -> e = BrokenPipe /\
  exists es1 t es2, es = es1 ++ DThread t :: es2 /\ y_at (day_run es1 (daytime k c)) = DGreet /\ ~ accepts (y_conn (day_run es1 (daytime k c))).
Proof.
  intros H. induction es as [|ev es IH] using rev_ind; intros G e D; [discriminate D|].
  apply day_segments_app in G. destruct G as [G1 _]. rewrite drun_app in D. cbn [day_run] in D.
  destruct (day_handed _ _ iss c H (fun o c X => X) (fair_sane iss) k es G1) as (_ & L). set (s := day_run es (daytime k c)) in *.
  assert (PREV : y_at s = DDied e -> e = BrokenPipe /\ exists es1 t es2, es ++ [ev] = es1 ++ DThread t :: es2 /\ y_at (day_run es1 (daytime k c)) = DGreet /\ ~ accepts (y_conn (day_run es1 (daytime k c)))).
  { intros D'. destruct (IH G1 e D') as (-> & es1 & t & es2 & -> & X). split; [reflexivity|]. exists es1, t, (es2 ++ [ev]). rewrite <- app_assoc. auto. }
  destruct ev as [t| | |p]; [|exact (PREV D)|exact (PREV D)|exact (PREV D)].
  unfold day_do in D. cbn [day_op] in D. destruct (y_at s) eqn:A; cbn [y_with y_at] in D.
  - destruct (op_send hello (y_conn s)) as (_ & _ & [(E & _)|((x & E) & _ & N)]); rewrite E in D; [discriminate D|]. injection D as <-. split; [reflexivity|].
    exists es, t, []. fold s. auto.
  - destruct (_ && _); discriminate D.
  - destruct (snd _); discriminate D.
  - discriminate D.
  - rewrite (close_late _ L) in D. discriminate D.
  - rewrite A in D. discriminate D.
  - apply PREV. congruence.
Qed.
(** after stop() what is being sent, and nothing more *)
Lemma day_stops es : forall s, y_run s = false -> exists d, c_written (y_conn (day_run es s)) = c_written (y_conn s) ++ d /\
  (d = [] \/ (y_at s = DGreet /\ d = hello) \/ y_at s = DSay d).
Proof.
  assert (TRIV : forall s, exists d, c_written (y_conn s) = c_written (y_conn s) ++ d /\ (d = [] \/ (y_at s = DGreet /\ d = hello) \/ y_at s = DSay d)).
  { intros s. exists []. rewrite app_nil_r. auto. }
  induction es as [|e es IH]; intros s R; cbn [day_run]; [apply TRIV|].
  assert (R' : y_run (day_do e s) = false).
  { destruct e; try exact R; try reflexivity. unfold day_do. cbn [day_op]. destruct (y_at s); exact R. }
  destruct (IH _ R') as (d & E & X). rewrite E. clear IH R' E.
  assert (QUIET : forall o, (forall d, o <> OSend d) -> (forall i n, o <> ORead i n) -> day_do e s = y_with (fst (op_do o (y_conn s))) (y_at s) (y_count s) s ->
    exists d0, c_written (y_conn (day_do e s)) ++ d = c_written (y_conn s) ++ d0 /\ (d0 = [] \/ (y_at s = DGreet /\ d0 = hello) \/ y_at s = DSay d0)).
  { intros o N1 N2 Y. rewrite Y in *. destruct (op_keeps o (y_conn s) N1 N2) as [_ W]. cbn [y_with y_conn y_at] in *. rewrite W. eauto. }
  assert (NIL : (d = [] \/ False) -> forall d0, d0 ++ d = d0) by (intros [->|[]] d0; apply app_nil_r).
  destruct e as [t| | |p].
  - unfold day_do in *. cbn [day_op] in *. destruct (y_at s) eqn:A; cbn [y_with y_conn y_at] in *.
    + destruct (op_send hello (y_conn s)) as (_ & _ & [(E & W & _)|((x & E) & W & _)]); rewrite E in X; rewrite W.
      * exists hello. rewrite <- app_assoc, NIL; [auto|]. destruct X as [X|[[X _]|X]]; [auto|discriminate X|discriminate X].
      * exists []. rewrite app_nil_r, NIL; [auto|]. destruct X as [X|[[X _]|X]]; [auto|discriminate X|discriminate X].
    + exists []. rewrite app_nil_r, NIL; [auto|]. rewrite R in X. cbn [andb] in X. destruct X as [X|[[X _]|X]]; [auto|discriminate X|discriminate X].
    + destruct (op_send m (y_conn s)) as (_ & _ & [(E & W & _)|((x & E) & W & _)]); rewrite E in X; rewrite W.
      * exists m. rewrite <- app_assoc, NIL; [auto|]. destruct X as [X|[[X _]|X]]; [auto|discriminate X|discriminate X].
      * exists []. rewrite app_nil_r, NIL; [auto|]. destruct X as [X|[[X _]|X]]; [auto|discriminate X|discriminate X].
    + exists []. rewrite app_nil_r, NIL; [auto|]. destruct X as [X|[[X _]|X]]; [auto|discriminate X|discriminate X].
    + exists []. destruct (op_keeps OClose (y_conn s)) as [_ W]; try discriminate. rewrite W, app_nil_r, NIL; [auto|].
      destruct X as [X|[[X _]|X]]; [auto|destruct (snd _); discriminate X|destruct (snd _); discriminate X].
    + rewrite A in X. eauto.
    + rewrite A in X. eauto.
  - cbn [day_do y_conn y_at] in *. eauto.
  - apply (QUIET OTick); try discriminate; reflexivity.
  - apply (QUIET (OSegment p)); try discriminate; reflexivity.
Qed.
(** ** the closing *)
Lemma day_closes s t : y_at s = DClose -> accepts (y_conn s) -> y_at (day_do (DThread t) s) = DDone /\ closing (c_sess (y_conn (day_do (DThread t) s))) = true.
Proof.
  intros A W. unfold day_do. cbn [day_op]. rewrite A. cbn [y_with y_at y_conn op_do]. unfold with_sess, tcp_fsm. cbn [fsm fst snd].
  unfold accepts in W. cbn in W. destruct W as [<-|[<-|[]]]; split; reflexivity.
Qed.
(** the loop goes on as long as it may *)
Lemma day_goes s t : accepts (y_conn s) -> y_run s = true -> y_count s <> 0 -> y_at s = DTest ->
  let s' := day_run [DThread t; DThread t; DThread t] s in
  y_at s' = DTest /\ y_count s' = y_count s - 1 /\ c_written (y_conn s') = c_written (y_conn s) ++ line t /\ st (c_sess (y_conn s')) = st (c_sess (y_conn s)) /\ y_run s' = true.
Proof.
  intros W R N A. destruct (op_send (line t) (y_conn s)) as (_ & _ & [(E & W' & _)|(_ & _ & X)]); [|contradiction].
  assert (S1 : day_do (DThread t) s = y_with (y_conn s) (DSay (line t)) (y_count s) s).
  { unfold day_do. cbn [day_op]. rewrite A, R. apply Z.eqb_neq in N. rewrite N. reflexivity. }
  assert (S2 : day_do (DThread t) (day_do (DThread t) s) = y_with (fst (op_do (OSend (line t)) (y_conn s))) DSleep (y_count s) s).
  { rewrite S1. unfold day_do. cbn [day_op y_with y_at y_conn y_run y_count]. rewrite E. reflexivity. }
  cbn [day_run]. rewrite S2. set (c := fst (op_do (OSend (line t)) (y_conn s))) in *.
  assert (C : st (c_sess c) = st (c_sess (y_conn s))) by (unfold c; cbn [op_do]; unfold session_send; destruct (in_state _ _); reflexivity).
  clearbody c. cbn [day_do day_op y_with y_at y_conn y_run y_count].
  split; [reflexivity|]. split; [lia|]. split; [exact W'|]. split; [exact C|exact R].
Qed.
