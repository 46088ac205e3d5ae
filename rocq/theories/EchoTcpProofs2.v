(** The TCP echo service when no recv() is interrupted. *)
From Verif Require Import Base BaseLemmas AddrModel TcpModel StackModel StackRxModel SessModel SpecSess SpecSess2 SpecSess3 SessProofs SessTrace SessRun SessInv SessTx SessRx SessKeep SessRead PropSess
  EchoModel SpecEcho EchoProofs EchoTcpModel SpecEchoTcp EchoTcpProofs.

Definition rd1 (c : conn) : conn := fst (op_do (ORead 0 None) c).
Lemma rd1_spec c : let d := snd (read_step None (c_rd c 0%nat) (c_sess c)) in
  c_read (rd1 c) = c_read c ++ match d with Some d => [d] | None => [] end /\
  (c_rd (rd1 c) 0%nat <> RIdle -> d = None) /\ (d <> None -> c_rd (rd1 c) 0%nat = RIdle) /\
  (c_rd c 0%nat <> RIdle -> c_rd (rd1 c) 0%nat = RIdle -> d <> None).
Proof.
  unfold rd1. cbn [op_do]. destruct (c_rd c 0%nat) eqn:R; cbn [read_step].
  - destruct (0 <? _); cbn; repeat split; congruence.
  - destruct (zlen _ =? 0); cbn; repeat split; congruence.
  - destruct (ended _); cbn; repeat split; congruence.
  - destruct (_ || _); cbn; repeat split; congruence.
Qed.
Lemma read_on_eq f c : read_on f 0 None c = match f, c_rd (rd1 c) 0%nat with S f, (RAcquired | RSawEmpty | RTake) => read_on f 0 None (rd1 c) | _, _ => rd1 c end.
Proof. destruct f; reflexivity. Qed.
Lemma read_on_more f c : c_rd (rd1 c) 0%nat <> RIdle -> read_on (S f) 0 None c = read_on f 0 None (rd1 c).
Proof. intros N. rewrite read_on_eq. destruct (c_rd (rd1 c) 0%nat); congruence. Qed.
Lemma read_on_last f c : c_rd (rd1 c) 0%nat = RIdle -> read_on f 0 None c = rd1 c.
Proof. intros N. rewrite read_on_eq, N. destruct f; reflexivity. Qed.
(** between two recv()s, or inside one that began in [b] *)
Definition amid (allowed : op -> conn -> Prop) (c0 : conn) (s : srv) (b : conn) (f : nat) : Prop :=
  areach allowed c0 b /\ c_read (v_conn s) = c_read b /\ v_at s = SRecv /\ read_on f 0 None (v_conn s) = read_now 0 None b.
Definition joint (allowed : op -> conn -> Prop) (c0 : conn) (s : srv) : Prop :=
  (c_rd (v_conn s) 0%nat = RIdle -> areach allowed c0 (v_conn s)) /\ (c_rd (v_conn s) 0%nat <> RIdle -> exists b f, amid allowed c0 s b f).
Lemma op_idle o c : (forall i n, o <> ORead i n) -> c_rd c 0%nat = RIdle -> c_rd (fst (op_do o c)) 0%nat = RIdle.
Proof. intros N I. destruct o; try exact I; [destruct (op_send d c) as (_ & -> & _); exact I|exfalso; eapply N; reflexivity]. Qed.
Lemma joint_step (P : tmd -> conn -> Prop) (allowed : op -> conn -> Prop) iss c0 e s : passive iss c0 -> fair P allowed -> joint allowed c0 s -> In (st (c_sess (v_conn s))) established_states ->
  whole_ev P e s -> joint allowed c0 (srv_do e s) /\
  (v_at s = SRecv -> e = SThread -> forall m, v_at (srv_do e s) = SGot m ->
     exists b, areach allowed c0 b /\ v_conn (srv_do e s) = read_now 0 None b /\ c_read (v_conn (srv_do e s)) = c_read b ++ [m]).
Proof.
  intros PO FA [J1 J2] L W. pose proof (passive_opened _ _ PO) as O.
  assert (OUT : v_at s <> SRecv -> c_rd (v_conn s) 0%nat = RIdle).
  { intros N. destruct (c_rd (v_conn s) 0%nat) eqn:R; auto; (destruct J2 as (b & f & _ & _ & A & _); [congruence|contradiction]). }
  assert (IDLE : forall s', c_rd (v_conn s') 0%nat = RIdle -> areach allowed c0 (v_conn s') -> joint allowed c0 s') by (intros s' A B; split; [auto|contradiction]).
  assert (OP : forall o, srv_op e s = Some o -> (forall i n, o <> ORead i n) -> c_rd (v_conn s) 0%nat = RIdle -> joint allowed c0 (srv_do e s)).
  { intros o E N I. assert (V := srv_conn e s). rewrite E in V. apply IDLE; rewrite V; [apply op_idle; auto|]. apply areach_op; [exact (J1 I)| |exact N]. apply FA.
    destruct e as [| | |p]; cbn [srv_op] in E; try discriminate; [|injection E as <-; exact Logic.I|injection E as <-; apply W].
    destruct (v_at s); try discriminate; injection E as <-; try exact Logic.I. intros X. rewrite X in L. cbn in L. intuition discriminate. }
  assert (NONE : srv_op e s = None -> v_at s <> SRecv -> joint allowed c0 (srv_do e s)).
  { intros E N. assert (V := srv_conn e s). rewrite E in V. apply IDLE; rewrite V; auto. }
  destruct e as [| | |p].
  - destruct (v_at s) eqn:A.
    1: { split; [|discriminate]. apply (OP (OSend hello)); [cbn [srv_op]; rewrite A; reflexivity|discriminate|apply OUT; discriminate]. }
    1: { split; [|discriminate]. apply NONE; [cbn [srv_op]; rewrite A; reflexivity|discriminate]. }
    2: { split; [|discriminate]. apply (OP (OSend (srv_reply m))); [cbn [srv_op]; rewrite A; reflexivity|discriminate|apply OUT; discriminate]. }
    2: { split; [|discriminate]. apply (OP OClose); [cbn [srv_op]; rewrite A; reflexivity|discriminate|apply OUT; discriminate]. }
    2: { split; [|discriminate]. apply NONE; [cbn [srv_op]; rewrite A; reflexivity|discriminate]. }
    2: { split; [|discriminate]. apply NONE; [cbn [srv_op]; rewrite A; reflexivity|discriminate]. }
    assert (V := srv_conn SThread s). cbn [srv_op] in V. rewrite A in V. fold (rd1 (v_conn s)) in V.
    assert (AT : v_at (srv_do SThread s) = match snd (read_step None (c_rd (v_conn s) 0%nat) (c_sess (v_conn s))) with Some m => SGot m | None => SRecv end).
    { unfold srv_do. cbn [srv_op]. rewrite A. reflexivity. }
    destruct (rd1_spec (v_conn s)) as (R1 & R2 & R3 & R4). set (d := snd (read_step _ _ _)) in *.
    assert (B : exists b f, areach allowed c0 b /\ c_read (v_conn s) = c_read b /\ read_on f 0 None (v_conn s) = read_now 0 None b).
    { destruct (c_rd (v_conn s) 0%nat) eqn:R; try (destruct J2 as (b & f & B1 & B2 & B3 & B4); [discriminate|exists b, f; auto]; fail).
      exists (v_conn s), 3%nat. auto. }
    destruct B as (b & f & B1 & B2 & B3).
    assert (FIN : c_rd (rd1 (v_conn s)) 0%nat = RIdle -> read_now 0 None b = rd1 (v_conn s)) by (intros I; rewrite <- B3; apply read_on_last; exact I).
    split.
    + destruct (c_rd (rd1 (v_conn s)) 0%nat) eqn:R.
      1: { apply IDLE; rewrite V; [exact R|]. rewrite <- (FIN eq_refl). apply areach_read. exact B1. }
      all: split; [rewrite V; intros X; rewrite R in X; discriminate X|intros _].
      all: destruct f as [|f]; [exfalso; assert (X : read_now 0 None b = rd1 (v_conn s)) by (rewrite <- B3; rewrite read_on_eq; destruct (c_rd (rd1 (v_conn s)) 0%nat); reflexivity);
             pose proof (proj1 (areach_idle iss allowed c0 _ O (areach_read allowed c0 b 0%nat None B1)) 0%nat) as Y; rewrite X, R in Y; discriminate Y|].
      all: exists b, f; split; [exact B1|]; rewrite V, AT; rewrite R2 in * by discriminate; split; [rewrite R1, app_nil_r; exact B2|]; split; [reflexivity|].
      all: rewrite <- B3; symmetry; apply read_on_more; rewrite R; discriminate.
    + intros _ _ m G. rewrite AT in G. destruct d as [m'|]; [|discriminate G]. injection G as ->. exists b. split; [exact B1|]. rewrite V. split; [symmetry; apply FIN, R3; discriminate|].
      rewrite R1, B2. reflexivity.
  - split; [|discriminate]. split; [exact J1|]. intros N. destruct (J2 N) as (b & f & X). exists b, f. exact X.
  - split; [|discriminate]. apply (OP OTick); [reflexivity|discriminate|exact W].
  - split; [|discriminate]. apply (OP (OSegment p)); [reflexivity|discriminate|apply W].
Qed.
Lemma joint_run (P : tmd -> conn -> Prop) (allowed : op -> conn -> Prop) iss c0 : passive iss c0 -> (forall o c, allowed o c -> sane_op iss o c) -> fair P allowed ->
  forall es s, reach allowed c0 (v_conn s) -> In (st (c_sess (v_conn s))) established_states -> transcript (v_at s) (v_conn s) -> joint allowed c0 s -> unbroken P es s ->
  let s' := srv_run es s in joint allowed c0 s' /\ In (st (c_sess (v_conn s'))) established_states.
Proof.
  intros PO SA FA. induction es as [|e es IH]; intros s R L T J U; [auto|]. destruct U as [U1 U2]. cbn [srv_run].
  assert (G : segments P [e] s) by (split; [destruct e; try exact Logic.I; apply U1|exact Logic.I]).
  destruct (srv_reach P allowed iss c0 PO SA FA [e] s R L T G) as (R' & L' & T'). cbn [srv_run] in R', L', T'.
  apply IH; auto. apply (joint_step P allowed iss c0 e s PO FA J L). destruct e; exact U1.
Qed.
Lemma polite iss irs stream c es : 0 <= irs < 2 ^ 32 -> handed_whole (eof_op iss irs stream) iss c ->
  unbroken (fun p c => sane_seg iss p c /\ from_peer irs stream (zlen (received c)) p) es (serve c) ->
  let s := srv_run es (serve c) in v_at s = SRecv -> v_at (srv_do SThread s) = SGot [] ->
  concat (c_read (v_conn s)) = stream \/ aborted (c_sess (v_conn s)).
Proof.
  intros I (c0 & PO & R & L & RD & WR) U s A G. pose proof (passive_opened _ _ PO) as O.
  assert (R' : reach (eof_op iss irs stream) c0 c) by (apply areach_reach; [|exact R]; intros; split; exact Logic.I).
  destruct (joint_run _ _ iss c0 PO (eof_sane iss irs stream) (fair_eof iss irs stream) es (serve c) R' L (conj RD WR)) as [J LS]; auto.
  { split; [intros _; exact R|]. intros N. destruct N. apply (areach_idle iss _ c0 c O R). }
  fold s in J, LS. destruct (joint_step _ _ iss c0 SThread s PO (fair_eof iss irs stream) J LS Logic.I) as [_ K].
  destruct (K A eq_refl [] G) as (b & B1 & B2 & B3).
  assert (V := srv_conn SThread s). cbn [srv_op] in V. rewrite A in V. fold (rd1 (v_conn s)) in V.
  destruct (rd1_spec (v_conn s)) as (R1 & _). set (d := snd (read_step _ _ _)) in *.
  assert (AT : v_at (srv_do SThread s) = match d with Some m => SGot m | None => SRecv end) by (unfold srv_do; cbn [srv_op]; rewrite A; reflexivity).
  rewrite AT in G. destruct d as [m|]; [|discriminate G]. injection G as ->. rewrite V, R1 in B3. apply app_inj_tail in B3. destruct B3 as [B3 _].
  rewrite V in B2. destruct (eof_read iss irs stream 0%nat None c0 b I O B1) as [X|(a & X & Y)].
  - intros k K0. discriminate K0.
  - rewrite <- B2, R1, B3. reflexivity.
  - left. congruence.
  - right. exists a. split; [|exact Y].
    assert (H1 : hist (c_sess (read_now 0 None b)) = hist (c_sess b)).
    { destruct (read_cases 0%nat None b (proj1 (areach_idle iss _ c0 b O B1) 0%nat)) as [c' _ E _ _ _|c' _ _ _ E _ _ _|c' _ _ E _ _ _]; rewrite E; reflexivity. }
    assert (H2 : hist (c_sess (rd1 (v_conn s))) = hist (c_sess (v_conn s))).
    { unfold rd1. cbn [op_do]. destruct (c_rd (v_conn s) 0%nat); cbn [read_step].
      - destruct (0 <? _); reflexivity.
      - reflexivity.
      - destruct (ended _); reflexivity.
      - destruct (_ || _); reflexivity. }
    rewrite <- H2, B2, H1. exact X.
Qed.
(** ** why it returns *)
Definition srv_reason (s : srv) : Prop := v_run s = true /\
  match v_at s with
  | SGot m => exists l, c_read (v_conn s) = l ++ [m]
  | SClose false | SDone => exists l, c_read (v_conn s) = l ++ [[]]
  | _ => True
  end.
Lemma srv_reason_step e s : e <> SStop -> srv_reason s -> srv_reason (srv_do e s).
Proof.
  intros N [R A]. unfold srv_reason. destruct e as [| | |p]; [|contradiction| |].
  - unfold srv_do. cbn [srv_op]. destruct (v_at s) eqn:Z; cbn [v_with v_run v_at v_conn]; rewrite ?R, ?Z.
    + split; [reflexivity|]. destruct (snd (op_do _ _)); exact Logic.I.
    + split; [reflexivity|]. exact Logic.I.
    + split; [reflexivity|]. destruct (op_read (v_conn s)) as [_ RD]. destruct (snd (read_step _ _ _)) as [m|]; [|exact Logic.I]. exists (c_read (v_conn s)). exact RD.
    + split; [reflexivity|]. destruct A as (l & A). destruct (op_send (srv_reply m) (v_conn s)) as (RD & _). destruct (snd (op_do _ _)); [|exact Logic.I].
      unfold srv_next. destruct (zlen m =? 0) eqn:ZM; [|destruct (quits m); exact Logic.I]. apply Z.eqb_eq, zlen_zero_nil in ZM. subst m. rewrite RD. eauto.
    + split; [reflexivity|]. destruct (op_keeps OClose (v_conn s)) as [RD _]; try discriminate.
      destruct (snd (op_do _ _)); [|exact Logic.I]. destruct again; [exact Logic.I|]. rewrite RD. exact A.
    + split; [reflexivity|exact A].
    + split; [reflexivity|exact Logic.I].
  - unfold srv_do. cbn [srv_op v_with v_run v_at v_conn]. destruct (op_keeps OTick (v_conn s)) as [-> _]; try discriminate. split; assumption.
  - unfold srv_do. cbn [srv_op v_with v_run v_at v_conn]. destruct (op_keeps (OSegment p) (v_conn s)) as [-> _]; try discriminate. split; assumption.
Qed.
Lemma srv_why es : forall s, ~ In SStop es -> srv_reason s -> srv_reason (srv_run es s).
Proof.
  induction es as [|e es IH]; intros s N R; [exact R|]. cbn [srv_run]. apply IH; [intros I; apply N; right; exact I|].
  apply srv_reason_step; [intros ->; apply N; left; reflexivity|exact R].
Qed.
Lemma stop_dec es : In SStop es \/ ~ In SStop es.
Proof.
  induction es as [|e es [I|N]]; [right; intros []|left; right; exact I|]. destruct e; [right|left; left; reflexivity|right|right]; intros [X|X]; auto; discriminate X.
Qed.
