(** The TCP echo client. *)
From Verif Require Import Base BaseLemmas AddrModel TcpModel StackModel StackRxModel SessModel SpecSess SpecSess2 SpecSess3 SessProofs SessTrace SessRun SessInv SessTx SessRx SessKeep SessRead PropSess
  EchoModel SpecEcho EchoProofs EchoTcpModel SpecEchoTcp EchoTcpProofs DiscardModel SpecDiscard DiscardProofs EchoClientModel SpecEchoClient.

(** * The message *)
Lemma dec_reads f : forall n acc, 0 <= n < 10 ^ Z.of_nat f -> fold_left (fun a d => 10 * a + (d - 48)) (dec_onto f n acc) 0 = fold_left (fun a d => 10 * a + (d - 48)) acc n.
Proof.
  induction f as [|f IH]; intros n acc H.
  - cbn in H. assert (n = 0) as -> by lia. reflexivity.
  - cbn [dec_onto]. pose proof (Z.div_mod n 10 ltac:(lia)) as D. pose proof (Z.mod_pos_bound n 10 ltac:(lia)) as B. destruct (n <? 10) eqn:L.
    + apply Z.ltb_lt in L. rewrite Z.mod_small by lia. cbn [fold_left]. f_equal. lia.
    + rewrite IH.
      * cbn [fold_left]. f_equal. lia.
      * rewrite Nat2Z.inj_succ, Z.pow_succ_r in H by lia. split; [apply Z.div_pos; lia|apply Z.div_lt_upper_bound; lia].
Qed.
Lemma dec_digits f : forall n acc, Forall is_digit acc -> Forall is_digit (dec_onto f n acc).
Proof.
  induction f as [|f IH]; intros n acc H; [exact H|]. cbn [dec_onto]. pose proof (Z.mod_pos_bound n 10 ltac:(lia)) as B.
  assert (Forall is_digit ((48 + n mod 10) :: acc)) as G by (constructor; [unfold is_digit; lia|exact H]). destruct (n <? 10); [exact G|apply IH; exact G].
Qed.
Lemma dec_short k : forall f n acc, 0 <= n < 10 ^ Z.of_nat (S k) -> (length (dec_onto f n acc) <= S k + length acc)%nat.
Proof.
  induction k as [|k IH]; intros f n acc H; (destruct f as [|f]; [cbn [dec_onto]; lia|]); cbn [dec_onto]; destruct (n <? 10) eqn:L; try (cbn [length]; lia).
  - rewrite Nat2Z.inj_succ, Z.pow_succ_r in H by lia. specialize (IH f (n / 10) ((48 + n mod 10) :: acc)). cbn [length] in IH.
    assert (0 <= n / 10 < 10 ^ Z.of_nat (S k)) by (split; [apply Z.div_pos; lia|apply Z.div_lt_upper_bound; lia]). specialize (IH H0). lia.
Qed.
Lemma zeros_read n : forall t, reads_as (repeat 48 n ++ t) = reads_as t.
Proof. induction n as [|n IH]; intros t; [reflexivity|]. exact (IH t). Qed.
Lemma block_ok i : 0 <= i -> block (i + 1) (msg_block i).
Proof.
  intros P. exists (five (i + 1)). split; [reflexivity|]. unfold five. set (n := i + 1). set (f := Z.to_nat (Z.log2 n + 1)).
  pose proof (Z.log2_nonneg n) as LN. assert (R : 0 <= n < 10 ^ Z.of_nat f).
  { split; [lia|]. unfold f. rewrite Z2Nat.id by lia. apply Z.lt_le_trans with (2 ^ (Z.log2 n + 1)); [apply Z.log2_lt_pow2; lia|apply Z.pow_le_mono_l; lia]. }
  set (t := dec_onto f n []). assert (D : Forall is_digit t) by (apply dec_digits; constructor).
  split; [|split; [|split]].
  - apply Forall_app. split; [|exact D]. apply Forall_forall. intros x I. apply repeat_spec in I. subst x. unfold is_digit. lia.
  - rewrite app_length, repeat_length. lia.
  - intros S5. rewrite app_length, repeat_length. pose proof (dec_short 4 f n [] ltac:(change (10 ^ Z.of_nat 5) with 100000; lia)) as L. fold t in L. cbn [length] in L. lia.
  - rewrite zeros_read. exact (dec_reads f n [] R).
Qed.
Lemma message_ok size : message_of size (echo_message size).
Proof.
  exists (map (fun i => msg_block (Z.of_nat i)) (seq 0 (Z.to_nat (size - 2)))). split; [reflexivity|]. split; [rewrite map_length, seq_length; reflexivity|].
  intros i b E. rewrite nth_error_map in E. destruct (nth_error (seq 0 _) i) as [j|] eqn:N; [|discriminate E]. cbn in E. injection E as <-.
  assert (j = i) as ->.
  { assert (L : (i < length (seq 0 (Z.to_nat (size - 2))))%nat) by (apply nth_error_Some; congruence). apply nth_error_nth with (d := 0%nat) in N. rewrite seq_length in L. rewrite seq_nth in N by exact L. lia. }
  apply block_ok. lia.
Qed.
Lemma blocks_length bs : (Z.of_nat (length bs) < 100000) -> (forall i b, nth_error bs i = Some b -> block (Z.of_nat i + 1) b) -> length (concat bs) = (20 * length bs)%nat.
Proof.
  intros L H. assert (F : Forall (fun b => length b = 20%nat) bs).
  { apply Forall_forall. intros b I. apply In_nth_error in I. destruct I as [i I]. assert (LI : (i < length bs)%nat) by (apply (proj1 (nth_error_Some bs i)); intros X; pose proof (eq_trans (eq_sym I) X) as Y; discriminate Y). destruct (H i b I) as (t & -> & _ & _ & T & _).
    rewrite !app_length, T by lia. reflexivity. }
  clear L H. induction F as [|b bs B F IH]; [reflexivity|]. cbn [concat length]. rewrite app_length, B, IH. lia.
Qed.
Lemma message_length size m : size < 100002 -> message_of size m -> zlen m = 20 * Z.max 2 size.
Proof.
  intros S (bs & -> & L & H). assert (LB : Z.of_nat (length bs) < 100000) by (rewrite L; lia).
  assert (C : length (concat bs) = (20 * Z.to_nat (size - 2))%nat) by (rewrite <- L; exact (blocks_length bs LB H)). unfold zlen. rewrite !app_length. rewrite C. cbn [length]. lia.
Qed.

(** * The thread *)
Definition cl_inv (n size : Z) (c : conn) (s : cl) : Prop :=
  k_size s = size /\ c_read (k_conn s) = c_read c /\ exists k : nat,
  c_written (k_conn s) = c_written c ++ concat (repeat (echo_message size) k) /\ (0 <= n -> Z.of_nat k <= n) /\
  match k_at s with
  | KTest => k_left s = n - Z.of_nat k
  | KSend => k_left s = n - Z.of_nat k /\ k_left s <> 0
  | KSleep => k_left s = n - Z.of_nat k + 1
  | KClose | KDone | KDied _ => k_told s = true \/ Z.of_nat k = n
  end.
Lemma concat_more (m : bytes) k : concat (repeat m (S k)) = concat (repeat m k) ++ m.
Proof. induction k as [|k IH]; [cbn; rewrite app_nil_r; reflexivity|]. change (concat (repeat m (S (S k)))) with (m ++ concat (repeat m (S k))). rewrite IH at 1. rewrite app_assoc. reflexivity. Qed.
Lemma cl_step n size c e s : cl_inv n size c s -> cl_inv n size c (cl_do e s).
Proof.
  intros (S & R & k & W & B & A). destruct e as [| | |p].
  - unfold cl_do. destruct (k_at s) eqn:E.
    + split; [exact S|]. split; [exact R|]. exists k. split; [exact W|]. split; [exact B|]. cbn [k_with k_at k_left k_told]. destruct (k_left s =? 0) eqn:Z0.
      * apply Z.eqb_eq in Z0. right. lia.
      * apply Z.eqb_neq in Z0. split; assumption.
    + destruct A as [A N]. pose proof (op_send (echo_message (k_size s)) (k_conn s)) as (RD & _ & X). destruct (op_do (OSend _) (k_conn s)) as [c' r]. cbn [fst snd] in *.
      destruct X as [(-> & W' & _)|((x & ->) & -> & _)].
      * split; [exact S|]. split; [cbn [k_with k_conn]; congruence|]. exists (Datatypes.S k). cbn [k_with k_conn k_at k_left]. rewrite concat_more, app_assoc, <- W, W', S.
        split; [reflexivity|]. split; lia.
      * split; [exact S|]. split; [exact R|]. exists k. split; [exact W|]. split; [exact B|]. left. reflexivity.
    + split; [exact S|]. split; [exact R|]. exists k. split; [exact W|]. split; [exact B|]. cbn [k_with k_at k_left]. lia.
    + destruct (op_keeps OClose (k_conn s)) as [RD WR]; try discriminate. destruct (op_do OClose (k_conn s)) as [c' r]. cbn [fst snd] in *.
      split; [exact S|]. split; [cbn [k_with k_conn]; congruence|]. exists k. split; [cbn [k_with k_conn]; congruence|]. split; [exact B|]. cbn [k_with k_at k_told]. destruct r; exact A.
    + split; [exact S|]. split; [exact R|]. exists k. rewrite E. auto.
    + split; [exact S|]. split; [exact R|]. exists k. rewrite E. auto.
  - split; [exact S|]. split; [exact R|]. exists k. auto.
  - destruct (op_keeps OTick (k_conn s)) as [RD WR]; try discriminate. split; [exact S|]. cbn [cl_do k_with k_conn k_at k_left k_told]. rewrite RD, WR. split; [exact R|]. exists k. auto.
  - destruct (op_keeps (OSegment p) (k_conn s)) as [RD WR]; try discriminate. split; [exact S|]. cbn [cl_do k_with k_conn k_at k_left k_told]. rewrite RD, WR. split; [exact R|]. exists k. auto.
Qed.
Lemma cl_all n size c es : forall s, cl_inv n size c s -> cl_inv n size c (cl_run es s).
Proof. induction es as [|e es IH]; intros s H; [exact H|]. apply IH, cl_step, H. Qed.
Lemma cl_start n size c : cl_inv n size c (client n size c).
Proof. split; [reflexivity|]. split; [reflexivity|]. exists 0%nat. cbn. rewrite app_nil_r. split; [reflexivity|]. split; lia. Qed.
