(** C64 and C85: the end of the stream a TCP session receives. *)
From Verif Require Import Base BaseLemmas AddrModel TcpModel StackModel StackRxModel SessModel SpecSess SessProofs SessTrace SessRun SessInv SessTx SessRx SessKeep SessRead PropSess.

(** * Checking that a run is one of the peer's *)
Definition from_peerb (irs : Z) (stream : bytes) (got : Z) (p : tmd) : bool :=
  let k := d_seq p - irs - 1 in
  (0 <=? d_seq p) && (d_seq p <? 2 ^ 32) && (negb (d_syn p) || (d_seq p =? irs)) &&
  ((zlen (d_data p) =? 0) && negb (d_fin p) ||
   (0 <=? k) && (Z.abs (k - got) <? 2 ^ 32) && (k + zlen (d_data p) <=? zlen stream) &&
   (if list_eq_dec Z.eq_dec (d_data p) (firstn (length (d_data p)) (skipn (Z.to_nat k) stream)) then true else false) && (negb (d_fin p) || (k + zlen (d_data p) =? zlen stream))).
Lemma from_peer_b irs stream got p : from_peerb irs stream got p = true -> from_peer irs stream got p.
Proof.
  unfold from_peerb. intros H. rewrite !andb_true_iff, !orb_true_iff, !andb_true_iff in H.
  destruct H as (((H1 & H2) & H3) & H4). apply Z.leb_le in H1. apply Z.ltb_lt in H2. split; [lia|]. split.
  - intros S. rewrite S in H3. destruct H3 as [H3|H3]; [discriminate|apply Z.eqb_eq in H3; exact H3].
  - intros D. destruct H4 as [[Z F]|((((A & B) & C) & E) & F)].
    + apply Z.eqb_eq, zlen_zero_nil in Z. apply negb_true_iff in F. destruct D; congruence.
    + apply Z.leb_le in A, C. apply Z.ltb_lt in B. destruct (list_eq_dec _ _ _) as [E'|] in E; [clear E; rename E' into E|discriminate]. exists (d_seq p - irs - 1). split; [exact A|]. split; [exact B|].
      split; [rewrite Z.mod_small; lia|]. split; [exact C|]. split; [exact E|]. intros X. rewrite X in F. cbn in F. apply Z.eqb_eq. exact F.
Qed.
Definition eof_opb (iss irs : Z) (stream : bytes) (o : op) (c : conn) : bool :=
  sane_opb iss o c && match o with OSegment p => from_peerb irs stream (zlen (received c)) p | _ => true end.
Lemma eof_op_b iss irs stream o c : eof_opb iss irs stream o c = true -> eof_op iss irs stream o c.
Proof.
  unfold eof_opb. intros H. apply andb_true_iff in H. destruct H as [H1 H2]. split.
  - apply (sane_all iss [o] c). cbn [sane_allb]. rewrite H1. reflexivity.
  - destruct o; try exact Logic.I. apply from_peer_b. exact H2.
Qed.
Fixpoint eof_allb (iss irs : Z) (stream : bytes) (l : list op) (c : conn) : bool :=
  match l with [] => true | o :: l => eof_opb iss irs stream o c && eof_allb iss irs stream l (fst (op_do o c)) end.
Lemma eof_all iss irs stream l : forall c, eof_allb iss irs stream l c = true -> all_allowed (eof_op iss irs stream) l c.
Proof.
  induction l as [|o l IH]; intros c H; [exact Logic.I|]. cbn [eof_allb] in H. apply andb_true_iff in H. destruct H as [H1 H2].
  split; [apply eof_op_b; exact H1|apply IH; exact H2].
Qed.
(** runs whose reads are uninterrupted *)
Fixpoint arun (l : list op) (c : conn) : conn :=
  match l with [] => c | ORead i n :: l => arun l (read_now i n c) | o :: l => arun l (fst (op_do o c)) end.
Fixpoint eof_runb (iss irs : Z) (stream : bytes) (l : list op) (c : conn) : bool :=
  match l with
  | [] => true
  | ORead i n :: l => eof_runb iss irs stream l (read_now i n c)
  | o :: l => eof_opb iss irs stream o c && eof_runb iss irs stream l (fst (op_do o c))
  end.
Lemma arun_reach iss irs stream c0 l : forall c, areach (eof_op iss irs stream) c0 c -> eof_runb iss irs stream l c = true -> areach (eof_op iss irs stream) c0 (arun l c).
Proof.
  induction l as [|o l IH]; intros c R H; [exact R|]. destruct o; cbn [eof_runb arun] in *;
    try (apply andb_true_iff in H; destruct H as [H1 H2]; apply IH; [apply areach_op; [exact R|apply eof_op_b; exact H1|discriminate]|exact H2]; fail).
  apply IH; [apply areach_read; exact R|exact H].
Qed.

(** * C64 *)
(** an empty result of a read tells the end of the stream: all was read, or the session was
    torn down *)
Definition C64_eof_statement : Prop := forall iss irs stream c0 c i k, 0 <= irs < 2 ^ 32 -> opened iss c0 ->
  reach (eof_op iss irs stream) c0 c -> asks k -> c_read (fst (op_do (ORead i k) c)) = c_read c ++ [[]] ->
  concat (c_read c) = stream \/ aborted (c_sess c).
(** the reader has taken the semaphore for the first segment and not yet looked at the buffer
    when the second arrives: both segments are read, the semaphore stays released and the next
    read returns nothing although the connection is established *)
Definition ex_race : list op := firstn 3 ex_history ++
  [OSegment (ex_seg false true false false 501 101 1000 [7; 8]); ORead 0 None; OSegment (ex_seg false true false false 503 101 1000 [9; 10]);
   ORead 0 None; ORead 0 None; ORead 0 None; ORead 0 None; ORead 0 None].
Theorem C64_eof_refuted : ~ C64_eof_statement.
Proof.
  intros H. set (c := fst (op_run ex_race ex_conn)).
  assert (R : reach (eof_op 100 500 ex_peer) ex_conn c) by (apply reach_all, eof_all; vm_compute; reflexivity).
  assert (E : c_read c = [[7; 8; 9; 10]] /\ c_read (fst (op_do (ORead 0 None) c)) = [[7; 8; 9; 10]; []] /\ hist (c_sess c) = [(CLOSED, SYN_SENT); (SYN_SENT, ESTABLISHED)])
    by (split; [|split]; vm_compute; reflexivity).
  destruct E as (E1 & E2 & E3). destruct (H 100 500 ex_peer ex_conn c 0%nat None) as [X|X].
  - lia.
  - exact ex_opened.
  - exact R.
  - intros k X. discriminate X.
  - rewrite E1, E2. reflexivity.
  - rewrite E1 in X. discriminate.
  - destruct X as (a & X & _). rewrite E3 in X. cbn in X. intuition discriminate.
Qed.
Print Assumptions C64_eof_refuted.
(** it holds when no segment arrives in the middle of a read *)
Theorem C64_eof_partial : forall iss irs stream i k c0 c, 0 <= irs < 2 ^ 32 -> opened iss c0 ->
  areach (eof_op iss irs stream) c0 c -> asks k -> c_read (read_now i k c) = c_read c ++ [[]] ->
  concat (c_read c) = stream \/ aborted (c_sess c).
Proof. exact eof_read. Qed.
Print Assumptions C64_eof_partial.
(** and then a read is not held up while there is something to read *)
Theorem C64_ready : forall iss (allowed : op -> conn -> Prop) i k c0 c, opened iss c0 -> areach allowed c0 c -> asks k -> rx_buf (c_sess c) <> [] ->
  exists d, d <> [] /\ c_read (read_now i k c) = c_read c ++ [d].
Proof. exact read_ready. Qed.
Print Assumptions C64_ready.
(** once the peer's end has been taken in, all it sent is there, whatever the interleaving *)
Theorem C64_complete : forall iss irs stream c0 c, 0 <= irs < 2 ^ 32 -> opened iss c0 -> reach (eof_op iss irs stream) c0 c ->
  In (st (c_sess c)) [CLOSE_WAIT; LAST_ACK; CLOSING; TIME_WAIT] \/ st (c_sess c) = CLOSED /\ ~ aborted (c_sess c) ->
  concat (c_read c) ++ rx_buf (c_sess c) = stream.
Proof. exact end_reach. Qed.
Print Assumptions C64_complete.
Definition ex_end : list op := firstn 3 ex_history ++
  [OSegment (ex_seg false true false false 503 101 1000 [9; 10]); OSegment (ex_seg false true false false 501 101 1000 [7; 8]); ORead 0 (Some 3);
   OSegment (ex_seg false true true false 505 101 1000 [11]); ORead 0 (Some 10)].
Example C64_example : let c := arun ex_end ex_conn in
  areach (eof_op 100 500 ex_peer) ex_conn c /\ c_read c = [[7; 8; 9]; [10; 11]] /\ c_read (read_now 0 (Some 10) c) = c_read c ++ [[]] /\ st (c_sess c) = CLOSE_WAIT.
Proof. cbv zeta. split; [apply arun_reach; [apply areach_0|vm_compute; reflexivity]|]. split; [|split]; vm_compute; reflexivity. Qed.
Example C64_ready_example : let c := arun (firstn 6 ex_end) ex_conn in
  areach (eof_op 100 500 ex_peer) ex_conn c /\ rx_buf (c_sess c) = [10] /\ c_read (read_now 0 None c) = [[7; 8; 9]; [10]].
Proof. cbv zeta. split; [apply arun_reach; [apply areach_0|vm_compute; reflexivity]|]. split; vm_compute; reflexivity. Qed.

(** * C85 *)
(** once the peer has closed, a read returns *)
Definition C85_wakeup_statement : Prop := forall iss irs stream c0 c i k, 0 <= irs < 2 ^ 32 -> opened iss c0 -> areach (eof_op iss irs stream) c0 c ->
  In (st (c_sess c)) [CLOSE_WAIT; LAST_ACK; CLOSING; TIME_WAIT; CLOSED] -> asks k -> exists d, c_read (read_now i k c) = c_read c ++ [d].
(** a later read at the end of the stream waits *)
Theorem C85_wakeup_refuted : ~ C85_wakeup_statement.
Proof.
  intros H. set (c := arun (ex_end ++ [ORead 0 None; ORead 0 None]) ex_conn).
  assert (R : areach (eof_op 100 500 ex_peer) ex_conn c) by (apply arun_reach; [apply areach_0|vm_compute; reflexivity]).
  assert (E : c_read (read_now 0 None c) = c_read c /\ st (c_sess c) = CLOSE_WAIT) by (split; vm_compute; reflexivity). destruct E as [E1 E2]. clearbody c.
  destruct (H 100 500 ex_peer ex_conn c 0%nat None) as [d X].
  - lia.
  - exact ex_opened.
  - exact R.
  - rewrite E2. cbn. auto.
  - intros k X. discriminate X.
  - rewrite E1 in X. apply (f_equal (@length bytes)) in X. rewrite app_length in X. cbn in X. lia.
Qed.
Print Assumptions C85_wakeup_refuted.
(** so does a read begun before the peer closed, when this end had closed first *)
Definition ex_half : list op := firstn 3 ex_history ++
  [OClose; OTick; OTick; OSegment (ex_seg false true false false 501 102 1000 []); OSegment (ex_seg false true true false 501 102 1000 [])].
Theorem C85_half_refuted : exists c, areach (eof_op 100 500 []) ex_conn c /\ st (c_sess c) = TIME_WAIT /\ c_read c = [] /\ c_read (read_now 0 None c) = [].
Proof.
  exists (arun ex_half ex_conn). split; [apply arun_reach; [apply areach_0|vm_compute; reflexivity]|]. split; [|split]; vm_compute; reflexivity.
Qed.
Print Assumptions C85_half_refuted.
(** in CLOSE-WAIT reads return until one has returned nothing *)
Theorem C85_wakeup_partial : forall iss (allowed : op -> conn -> Prop) i k c0 c, opened iss c0 -> areach allowed c0 c ->
  st (c_sess c) = CLOSE_WAIT -> ~ In [] (c_read c) -> exists d, c_read (read_now i k c) = c_read c ++ [d].
Proof. exact close_wait_read. Qed.
Print Assumptions C85_wakeup_partial.
Example C85_example : let c := arun ex_end ex_conn in
  st (c_sess c) = CLOSE_WAIT /\ c_read c = [[7; 8; 9]; [10; 11]] /\ c_read (read_now 0 None c) = [[7; 8; 9]; [10; 11]; []].
Proof. cbv zeta. split; [|split]; vm_compute; reflexivity. Qed.
