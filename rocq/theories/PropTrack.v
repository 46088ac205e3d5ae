(** C103, C104: packet trackers; stopping the threads of the stack. *)
From Verif Require Import Base BaseLemmas TrackModel LifeModel SpecTrack TrackProofs.

(** ** C103 *)
(** a serial shows its kind and number in four digits *)
Theorem C103_serial : forall p n, 0 <= n < 65536 -> shows p n (serial_text p n).
Proof. exact serial_shows. Qed.
(** the i-th packet shows how many of its kind came before *)
Theorem C103_numbers : forall l s i p, 0 <= sr_rx s < 65536 -> 0 <= sr_tx s < 65536 -> nth_error l i = Some p ->
  exists t, nth_error (trackers l s) i = Some t /\
    shows p (((match p with RX => sr_rx s | TX => sr_tx s end) + before p i l) mod 65536) (serial_of t).
Proof.
  intros l s i p Hr Ht N. eexists. split; [apply trackers_nth; eassumption|]. cbn [serial_of]. apply serial_shows. apply Z.mod_pos_bound. lia.
Qed.
(** two packets with one serial are of one kind, and 65536 or more of that kind apart *)
Theorem C103_distinct : forall l s i j p q t u, 0 <= sr_rx s < 65536 -> 0 <= sr_tx s < 65536 ->
  nth_error l i = Some p -> nth_error l j = Some q -> nth_error (trackers l s) i = Some t -> nth_error (trackers l s) j = Some u ->
  serial_of t = serial_of u -> p = q /\ (before p j l - before p i l) mod 65536 = 0.
Proof.
  intros l s i j p q t u Hr Ht Np Nq Nt Nu E.
  destruct (C103_numbers l s i p Hr Ht Np) as (t' & Nt' & St). destruct (C103_numbers l s j q Hr Ht Nq) as (u' & Nu' & Su).
  rewrite Nt in Nt'. injection Nt' as <-. rewrite Nu in Nu'. injection Nu' as <-. rewrite E in St.
  destruct (shows_fun _ _ _ _ _ St Su) as (<- & M). split; [reflexivity|]. destruct p; lia.
Qed.
(** what is printed tells the packet, the one it answers, and so on *)
Theorem C103_made : forall p e s, 0 <= sr_rx s < 65536 -> 0 <= sr_tx s < 65536 -> match e with Some e => made e | None => True end ->
  made (snd (new_tracker p e s)) /\ 0 <= sr_rx (fst (new_tracker p e s)) < 65536 /\ 0 <= sr_tx (fst (new_tracker p e s)) < 65536 /\
  (forall x, e = Some x -> chain (snd (new_tracker p e s)) = serial_of (snd (new_tracker p e s)) :: chain x).
Proof.
  intros p e s Hr Ht M.
  assert (forall n, 0 <= n < 65536 -> 0 <= next_serial n < 65536) by (intros n Hn; rewrite next_serial_mod by assumption; apply Z.mod_pos_bound; lia).
  destruct p; cbn [new_tracker fst snd made sr_rx sr_tx]; (split; [split; [eexists _, _; split; [|reflexivity]; assumption|exact M]|]); (split; [auto|]); (split; [auto|]); intros x ->; reflexivity.
Qed.
Theorem C103_printed : forall t u, made t -> made u -> tracker_str t = tracker_str u -> chain t = chain u.
Proof. exact str_chain. Qed.

(** trackers of outgoing packets are made by several threads; in full, the claims for them *)
Definition C103_threads_statement : Prop := forall k n l i j a b, 0 <= n < 65536 -> Z.of_nat k <= 65536 -> i <> j ->
  option_map th_serial (nth_error (snd (sched l (n, repeat fresh_thread k))) i) = Some (Some a) ->
  option_map th_serial (nth_error (snd (sched l (n, repeat fresh_thread k))) j) = Some (Some b) -> a <> b.
Theorem C103_threads_refuted : ~ C103_threads_statement.
Proof.
  intros F. apply (F 2%nat 0 [0; 1]%nat 0%nat 1%nat 0 0); [lia|lia|lia|vm_compute; reflexivity|vm_compute; reflexivity|reflexivity].
Qed.
Definition C103_width_statement : Prop := forall k n l i a, 0 <= n < 65536 ->
  option_map th_serial (nth_error (snd (sched l (n, repeat fresh_thread k))) i) = Some (Some a) ->
  length (serial_text TX a) = 13%nat.
Theorem C103_width_refuted : ~ C103_width_statement.
Proof.
  intros F. specialize (F 2%nat 65535 [0; 0; 0; 1]%nat 1%nat 65536 ltac:(lia) ltac:(vm_compute; reflexivity)). vm_compute in F. discriminate F.
Qed.
(** missing: constructors that overlap.  One that runs undisturbed does what [new_tracker] says *)
Theorem C103_threads_partial : forall n ts i, nth_error ts i = Some fresh_thread -> 0 <= n < 65536 ->
  exists k ts', sched (repeat i k) (n, ts) = (next_serial n, ts') /\ nth_error ts' i = Some {| th_pc := PDone; th_serial := Some n |} /\
    (forall j, j <> i -> nth_error ts' j = nth_error ts j) /\ length ts' = length ts.
Proof. exact alone. Qed.

Example C103_ex :
  map tracker_str (trackers [RX; TX; RX] {| sr_rx := 65535; sr_tx := 171 |}) =
    [ [60; 108; 103; 62; 82; 88; 70; 70; 70; 70; 60; 47; 62]; [60; 108; 114; 62; 84; 88; 48; 48; 65; 66; 60; 47; 62];
      [60; 108; 103; 62; 82; 88; 48; 48; 48; 48; 60; 47; 62] ].
Proof. vm_compute. reflexivity. Qed.
Example C103_ex_echo : let rx := snd (new_tracker RX None {| sr_rx := 1; sr_tx := 0 |}) in
  made rx /\ chain (snd (new_tracker TX (Some rx) {| sr_rx := 2; sr_tx := 0 |})) = [serial_text TX 0; serial_text RX 1].
Proof. cbv zeta. split; [cbn; split; [exists RX, 1; split; [lia|reflexivity]|exact I]|reflexivity]. Qed.
Example C103_ex_alone : sched [1; 1; 1; 1; 1]%nat (65535, [fresh_thread; fresh_thread]) = (0, [fresh_thread; {| th_pc := PDone; th_serial := Some 65535 |}]).
Proof. vm_compute. reflexivity. Qed.

(** ** C104 *)
(** after the stop and until the next start a thread finishes the round it is in, and no other *)
Theorem C104_stop : forall l s i, ~ In LUp l ->
  (rounds_of i s <= rounds_of i (lrun (stop_ops ++ l) s) <=
   rounds_of i s + match nth_error (l_threads s) i with Some InRound => 1 | _ => 0 end)%nat.
Proof.
  intros l s i N. change (lrun (stop_ops ++ l) s) with (lrun l (lstep LDown s)).
  exact (down_run i l (lstep LDown s) eq_refl N).
Qed.
(** a thread that gets two turns after the stop has ended *)
Theorem C104_ends : forall l s i, ~ In LUp l -> (i < length (l_threads s))%nat -> (2 <= turns i l)%nat ->
  nth_error (l_threads (lrun (stop_ops ++ l) s)) i = Some Ended.
Proof.
  intros l s i N L T. change (lrun (stop_ops ++ l) s) with (lrun l (lstep LDown s)).
  apply down_ends; auto. unfold left_. destruct (nth_error _ i) as [[| |]|]; lia.
Qed.
(** an ended thread stays so, started again or not *)
Theorem C104_ended : forall l s i, nth_error (l_threads s) i = Some Ended ->
  nth_error (l_threads (lrun l s)) i = Some Ended /\ rounds_of i (lrun l s) = rounds_of i s.
Proof.
  induction l as [|o l IH]; intros s i E; cbn [lrun]; [auto|].
  assert (H : nth_error (l_threads (lstep o s)) i = Some Ended /\ rounds_of i (lstep o s) = rounds_of i s).
  { destruct o as [| | |j]; cbn [lstep]; auto.
    - cbn [l_threads]. rewrite nth_error_app1 by (apply nth_error_Some; congruence). auto.
    - destruct (nth_error (l_threads s) j) as [[| |]|] eqn:Ej; auto; assert (i <> j) by congruence.
      + cbn [l_threads]. rewrite set_place_other by assumption. auto.
      + cbn [l_threads]. rewrite set_place_other by assumption. rewrite rounds_snoc. destruct (Nat.eqb_spec i j); [congruence|]. split; [exact E|lia]. }
  destruct H as (H1 & H2). destruct (IH (lstep o s) i H1) as (H3 & H4). split; [exact H3|congruence].
Qed.
(** a thread that was started works: a round for every two turns *)
Theorem C104_works : forall s i, l_run s = true -> nth_error (l_threads s) i = Some AtTest ->
  rounds_of i (lrun [LTurn i; LTurn i] s) = S (rounds_of i s) /\ l_run (lrun [LTurn i; LTurn i] s) = true /\
  nth_error (l_threads (lrun [LTurn i; LTurn i] s)) i = Some AtTest.
Proof.
  intros s i R E. cbn [lrun lstep]. rewrite E, R. cbn [l_threads]. rewrite (set_place_same _ _ _ _ E).
  split; [|split; [reflexivity|]].
  - unfold rounds_of. cbn [l_rounds]. rewrite filter_app, app_length. cbn [filter]. rewrite Nat.eqb_refl. cbn [length]. lia.
  - cbn [l_threads]. eapply set_place_same. apply (set_place_same _ _ _ _ E).
Qed.
Theorem C104_started : forall s, l_run (lrun start_ops s) = true /\
  nth_error (l_threads (lrun start_ops s)) (length (l_threads s)) = Some AtTest.
Proof. intros s. cbn. split; [reflexivity|]. rewrite nth_error_app2, Nat.sub_diag by lia. reflexivity. Qed.

(** in full: starts and stops in turn leave one live thread at most *)
Fixpoint cycles (n : nat) : list lop := match n with O => start_ops | S n => start_ops ++ stop_ops ++ cycles n end.
Definition C104_single_statement : Prop := forall n ts, (alive (lrun (cycles n ++ map LTurn ts) idle) <= 1)%nat.
(** false: no one waits for the thread of the first start *)
Theorem C104_single_refuted : ~ C104_single_statement /\
  exists l, let s := lrun (cycles 1 ++ l) idle in
    (forall o, In o l -> exists i, o = LTurn i) /\ l_threads s = [InRound; InRound] /\ rounds_of 0 s = 1%nat /\ rounds_of 1 s = 1%nat.
Proof.
  split.
  - intros F. specialize (F 1%nat []). vm_compute in F. lia.
  - exists [LTurn 0; LTurn 1; LTurn 0; LTurn 1; LTurn 0; LTurn 1]. cbv zeta. split; [|vm_compute; auto].
    intros o H. repeat (destruct H as [<-|H]; [eexists; reflexivity|]). destruct H.
Qed.
(** missing: a start while a thread lives.  Otherwise one live thread at most *)
Theorem C104_single_partial : forall l s, (alive s <= 1)%nat ->
  (forall a b, l = a ++ LSpawn :: b -> alive (lrun a s) = 0%nat) -> (alive (lrun l s) <= 1)%nat.
Proof.
  induction l as [|o l IH]; intros s A H; cbn [lrun]; [exact A|]. apply IH.
  - apply alive_step; [|exact A]. intros ->. exact (H [] l eq_refl).
  - intros a b ->. exact (H (o :: a) b eq_refl).
Qed.

Example C104_ex : let s := lrun (start_ops ++ [LTurn 0; LTurn 0; LTurn 0]) idle in
  nth_error (l_threads s) 0 = Some InRound /\ rounds_of 0 s = 1%nat /\
  rounds_of 0 (lrun (stop_ops ++ [LTurn 0; LTurn 0; LTurn 0]) s) = 2%nat /\ turns 0 [LTurn 0; LTurn 0; LTurn 0] = 3%nat.
Proof. vm_compute. auto. Qed.
Example C104_ex_again : let l := start_ops ++ stop_ops ++ [LTurn 0] ++ start_ops ++ [LTurn 1] in
  l_threads (lrun l idle) = [Ended; InRound] /\ alive (lrun (start_ops ++ stop_ops ++ [LTurn 0; LUp]) idle) = 0%nat.
Proof. vm_compute. auto. Qed.

Print Assumptions C103_serial.
Print Assumptions C103_numbers.
Print Assumptions C103_distinct.
Print Assumptions C103_made.
Print Assumptions C103_printed.
Print Assumptions C103_threads_refuted.
Print Assumptions C103_width_refuted.
Print Assumptions C103_threads_partial.
Print Assumptions C104_stop.
Print Assumptions C104_ends.
Print Assumptions C104_ended.
Print Assumptions C104_works.
Print Assumptions C104_started.
Print Assumptions C104_single_refuted.
Print Assumptions C104_single_partial.
