(** C114: the TCP echo client of the examples. *)
From Verif Require Import Base BaseLemmas AddrModel TcpModel StackModel StackRxModel SessModel SpecSess SpecSess2 SpecSess3 SessProofs SessTrace SessRun SessInv SessTx SessRx SessKeep SessRead PropSess
  EchoModel SpecEcho EchoProofs EchoTcpModel SpecEchoTcp EchoTcpProofs DiscardModel SpecDiscard DiscardProofs EchoClientModel SpecEchoClient EchoClientProofs.

(** * What it sends *)
(** Whatever the interleaving, it has written whole messages of the size asked for and nothing
    else, and no more of them than asked for; it reads nothing.  When it
    closes the connection, and after that, it has written just as many as asked for, unless it has
    reported a send() error. *)
Theorem C114_sends : forall n size es c, let s := cl_run es (client n size c) in
  exists m k, message_of size m /\ c_written (k_conn s) = c_written c ++ concat (repeat m k) /\ c_read (k_conn s) = c_read c /\
    (0 <= n -> Z.of_nat k <= n) /\ (~ In (k_at s) [KTest; KSend; KSleep] -> k_told s = true \/ Z.of_nat k = n).
Proof.
  intros n size es c s. destruct (cl_all n size c es _ (cl_start n size c)) as (_ & R & k & W & B & A). fold s in R, W, A.
  exists (echo_message size), k. split; [apply message_ok|]. split; [exact W|]. split; [exact R|]. split; [exact B|].
  intros D. destruct (k_at s); try exact A; exfalso; apply D; cbn [In]; auto.
Qed.
Print Assumptions C114_sends.
(** a message is twenty bytes for each unit of its size, and at least forty *)
Theorem C114_length : forall size m, size < 100002 -> message_of size m -> zlen m = 20 * Z.max 2 size.
Proof. exact message_length. Qed.
Print Assumptions C114_length.
(** asked for a negative number it goes on until a send() fails *)
Theorem C114_endless : forall n size es c, n < 0 -> let s := cl_run es (client n size c) in k_at s = KDone -> k_told s = true.
Proof.
  intros n size es c N s D. destruct (C114_sends n size es c) as (m & k & _ & _ & _ & _ & A). fold s in A. rewrite D in A. destruct A as [T|T]; [intros [X|[X|[X|[]]]]; discriminate X|exact T|lia].
Qed.
Print Assumptions C114_endless.
(** a send() on an open connection succeeds, and the loop goes on with one message less to send;
    on another it is reported and leads to the close() *)
Theorem C114_round : forall s, k_at s = KSend ->
  (In (st (c_sess (k_conn s))) [ESTABLISHED; CLOSE_WAIT] ->
   exists m, message_of (k_size s) m /\ let s' := cl_run [SThread; SThread] s in
   k_at s' = KTest /\ k_left s' = k_left s - 1 /\ k_told s' = k_told s /\ c_written (k_conn s') = c_written (k_conn s) ++ m) /\
  (~ In (st (c_sess (k_conn s))) [ESTABLISHED; CLOSE_WAIT] ->
   let s' := cl_do SThread s in k_at s' = KClose /\ k_told s' = true /\ k_conn s' = k_conn s).
Proof.
  intros s A. pose proof (op_send (echo_message (k_size s)) (k_conn s)) as (_ & _ & X). split; intros I.
  - exists (echo_message (k_size s)). split; [apply message_ok|]. cbn [cl_run]. unfold cl_do at 2 4 6 8. rewrite A.
    destruct (op_do (OSend _) (k_conn s)) as [c' r]. cbn [fst snd] in X. destruct X as [(-> & W & _)|(_ & _ & N)]; [|contradiction].
    cbn [cl_do k_with k_at k_left k_told k_conn]. split; [reflexivity|]. split; [lia|]. split; [reflexivity|exact W].
  - cbn zeta. unfold cl_do. rewrite A. destruct (op_do (OSend _) (k_conn s)) as [c' r]. cbn [fst snd] in X. destruct X as [(_ & _ & N)|((x & ->) & -> & _)]; [contradiction|].
    split; [reflexivity|]. split; reflexivity.
Qed.
Print Assumptions C114_round.
(** at the test it stops sending exactly when nothing is left to send; then it closes the
    connection and returns *)
Theorem C114_closes : forall s, k_at s = KTest ->
  (k_left s = 0 <-> k_at (cl_do SThread s) = KClose) /\ (k_left s <> 0 <-> k_at (cl_do SThread s) = KSend) /\
  (k_left s = 0 -> In (st (c_sess (k_conn s))) [ESTABLISHED; CLOSE_WAIT] ->
   let s' := cl_run [SThread; SThread] s in k_at s' = KDone /\ closing (c_sess (k_conn s')) = true).
Proof.
  intros s A. assert (T : cl_do SThread s = k_with (k_conn s) (if k_left s =? 0 then KClose else KSend) (k_left s) (k_told s) s) by (unfold cl_do; rewrite A; reflexivity).
  split; [|split].
  - rewrite T. cbn [k_with k_at]. destruct (Z.eqb_spec (k_left s) 0); split; intros; auto; try contradiction; discriminate.
  - rewrite T. cbn [k_with k_at]. destruct (Z.eqb_spec (k_left s) 0); split; intros; auto; try contradiction; discriminate.
  - intros L I. cbn [cl_run]. rewrite T, L. cbn zeta. change (0 =? 0) with true. cbn iota. unfold cl_do. cbn [k_with k_at k_conn k_left k_told].
    destruct (close_open (k_conn s) I) as (C1 & C2 & _). destruct (op_do OClose (k_conn s)) as [c' r]. cbn [fst snd] in *. subst r. split; [reflexivity|exact C2].
Qed.
Print Assumptions C114_closes.

(** on a connection that has been open the close() raises nothing *)
Theorem C114_returns : forall s, k_at s = KClose -> In (st (c_sess (k_conn s))) established_states -> k_at (cl_do SThread s) = KDone.
Proof.
  intros s A I. unfold cl_do. rewrite A. pose proof (close_late (k_conn s) I) as C. destruct (op_do OClose (k_conn s)) as [c' r]. cbn [snd] in C. subst r. reflexivity.
Qed.
Print Assumptions C114_returns.

(** * Examples *)
Definition ex_connected : conn := fst (op_run (firstn 3 ex_history) ex_conn).
(** two messages of three parts *)
Example C114_example_two : let s := cl_run (repeat SThread 8) (client 2 3 ex_connected) in
  k_at s = KDone /\ k_told s = false /\ zlen (c_written (k_conn s)) = 120 /\ closing (c_sess (k_conn s)) = true.
Proof. repeat split; vm_compute; reflexivity. Qed.
Example C114_example_block : msg_block 41 = [91; 45; 45; 45; 45; 45; 45; 48; 48; 48; 52; 50; 45; 45; 45; 45; 45; 45; 93; 32].
Proof. vm_compute. reflexivity. Qed.
(** the peer resets the connection *)
Example C114_example_reset : let s := cl_run ([SThread; SThread; SSegment (ex_seg false true false true 501 101 1000 [])] ++ repeat SThread 4) (client (-1) 2 ex_connected) in
  k_at s = KDone /\ k_told s = true /\ zlen (c_written (k_conn s)) = 40.
Proof. repeat split; vm_compute; reflexivity. Qed.
Example C114_example_send : let s := cl_run [SThread] (client 2 3 ex_connected) in k_at s = KSend /\ In (st (c_sess (k_conn s))) [ESTABLISHED; CLOSE_WAIT].
Proof. split; [vm_compute; reflexivity|]. left. vm_compute. reflexivity. Qed.

(** * What it should do and does not *)
(** after stop() it sends at most one more message *)
Definition C114_stop_statement : Prop := forall n size es es' c m, message_of size m ->
  zlen (c_written (k_conn (cl_run (es ++ SStop :: es') (client n size c)))) <= zlen (c_written (k_conn (cl_run es (client n size c)))) + zlen m.
(** the loop does not look at _run_thread *)
Theorem C114_stop_refuted : ~ C114_stop_statement.
Proof.
  intros H. specialize (H (-1) 2 [] (repeat SThread 9) ex_connected (echo_message 2) (message_ok 2)). vm_compute in H. apply H. reflexivity.
Qed.
Print Assumptions C114_stop_refuted.
