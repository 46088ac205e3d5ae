From Verif Require Import Base BaseLemmas TimerModel SpecTimer.

Definition names (t : timers) := map fst t.
Definition ti_ok (t : timers) := NoDup (names t).

Lemma timer_set_names : forall name v t, names (timer_set name v t) = if existsb (String.eqb name) (names t) then names t else names t ++ [name].
Proof.
  induction t as [|[k w] r IH]; cbn; auto.
  rewrite (String.eqb_sym name k). destruct (String.eqb k name); cbn; auto.
  unfold names in *. rewrite IH. destruct (existsb _ _); auto.
Qed.
Lemma timer_set_ok : forall name v t, ti_ok t -> ti_ok (timer_set name v t).
Proof.
  unfold ti_ok. intros. rewrite timer_set_names. destruct (existsb _ _) eqn:E; auto.
  apply (NoDup_Add (a := name) (l := names t)).
  - rewrite <- (app_nil_r (names t)) at 1. apply Add_app.
  - split; auto. intros I. assert (X : existsb (String.eqb name) (names t) = true); [|congruence].
    apply existsb_exists. exists name. split; auto. apply String.eqb_refl.
Qed.
Lemma timer_tick_names : forall t x, In x (names (timers_tick t)) -> In x (names t).
Proof.
  unfold names, timers_tick. intros t x I. apply in_map_iff in I. destruct I as ([k v] & <- & I).
  apply filter_In in I. destruct I as [I _]. apply in_map_iff in I. destruct I as ([k' v'] & E & I).
  inversion E; subst. cbn. apply in_map_iff. exists (k, v'). auto.
Qed.
Lemma timer_tick_ok : forall t, ti_ok t -> ti_ok (timers_tick t).
Proof.
  induction t as [|[k v] r IH]; cbn; auto. intros N. inversion N; subst.
  unfold timers_tick; cbn. unfold timer_live at 1; cbn. destruct (negb _); [|apply IH; auto].
  unfold ti_ok; cbn. constructor; [|apply IH; auto]. intros I. apply (timer_tick_names r) in I. auto.
Qed.
Lemma timer_get_in : forall name t v, timer_get name t = Some v -> In name (names t).
Proof.
  induction t as [|[k w] r IH]; cbn; [discriminate|]. intros v.
  destruct (String.eqb_spec k name); [left; auto|right; eauto].
Qed.
Lemma timer_get_none : forall name t, ~ In name (names t) -> timer_get name t = None.
Proof.
  intros name t N. destruct (timer_get name t) eqn:E; auto. exfalso; apply N; eapply timer_get_in; eauto.
Qed.
Lemma timer_get_tick : forall name t, ti_ok t ->
  timer_get name (timers_tick t) = match timer_get name t with Some v => if v - 1 =? 0 then None else Some (v - 1) | None => None end.
Proof.
  induction t as [|[k v] r IH]; intros N; cbn; auto. inversion N; subst.
  unfold timers_tick; cbn. unfold timer_live at 1; cbn.
  destruct (String.eqb_spec k name) as [->|Nk].
  - destruct (v - 1 =? 0); cbn.
    + apply timer_get_none. intros I. apply (timer_tick_names r) in I. auto.
    + rewrite String.eqb_refl. auto.
  - destruct (v - 1 =? 0); cbn; [apply IH; auto|].
    destruct (String.eqb_spec k name); [congruence|]. apply IH; auto.
Qed.
Lemma timer_get_set : forall name x v t, timer_get name (timer_set x v t) = if String.eqb x name then Some v else timer_get name t.
Proof.
  induction t as [|[k w] r IH]; cbn; auto.
  destruct (String.eqb_spec k x) as [->|Nk]; cbn.
  - destruct (String.eqb_spec x name); auto.
  - rewrite IH. destruct (String.eqb_spec k name), (String.eqb_spec x name); subst; auto; congruence.
Qed.

Lemma timer_do_ok : forall o s, ti_ok (ti_timers s) -> ti_ok (ti_timers (fst (timer_do o s))).
Proof.
  intros [name n|t|st] s N; cbn; auto using timer_set_ok, timer_tick_ok.
Qed.
Lemma timer_run_ok : forall ops s, ti_ok (ti_timers s) -> ti_ok (ti_timers (timer_run ops s)).
Proof. induction ops; cbn; auto using timer_do_ok. Qed.
Lemma timer_run_app : forall a b s, timer_run (a ++ b) s = timer_run b (timer_run a s).
Proof. induction a; cbn; auto. Qed.
Lemma ticks_nonneg : forall ops, 0 <= ticks ops.
Proof. induction ops as [|[] r IH]; cbn [ticks]; lia. Qed.

Lemma timer_get_run : forall ops name s, ti_ok (ti_timers s) -> no_timer name ops ->
  timer_get name (ti_timers (timer_run ops s)) =
  match timer_get name (ti_timers s) with
  | Some v => if (0 <? v) && (v <=? ticks ops) then None else Some (v - ticks ops)
  | None => None end.
Proof.
  induction ops as [|o r IH]; intros name s N Nt.
  - cbn. destruct (timer_get _ _) as [v|]; auto. replace (v <=? 0) with (negb (0 <? v)) by (destruct (Z.ltb_spec 0 v), (Z.leb_spec v 0); auto; lia).
    destruct (0 <? v); cbn; f_equal; lia.
  - cbn [timer_run]. rewrite IH.
    2: { apply timer_do_ok; auto. }
    2: { intros m I. apply (Nt m). right; auto. }
    destruct o as [x n|t|st]; cbn [timer_do fst ti_timers ticks].
    + rewrite timer_get_set. destruct (String.eqb_spec x name) as [->|]; auto.
      exfalso. apply (Nt n). left; auto.
    + auto.
    + destruct (tasks_tick _ _); cbn [fst ti_timers]. rewrite timer_get_tick by auto.
      pose proof (ticks_nonneg r).
      destruct (timer_get _ _) as [v|]; auto.
      destruct (Z.eqb_spec (v - 1) 0).
      * replace v with 1 by lia. destruct (Z.leb_spec 1 (1 + ticks r)); auto. lia.
      * destruct (Z.ltb_spec 0 (v - 1)), (Z.ltb_spec 0 v), (Z.leb_spec (v - 1) (ticks r)), (Z.leb_spec v (1 + ticks r)); cbn; auto; try lia; f_equal; lia.
Qed.

Lemma named_timer : forall ops1 name n ops2, 0 < n -> no_timer name ops2 ->
  is_expired name (ti_timers (timer_run (ops1 ++ ORegTimer name n :: ops2) timer0)) = (n <=? ticks ops2).
Proof.
  intros. rewrite timer_run_app. cbn [timer_run]. unfold is_expired. rewrite timer_get_run; auto.
  2: { apply timer_do_ok, timer_run_ok. constructor. }
  cbn [timer_do fst ti_timers]. rewrite timer_get_set, String.eqb_refl.
  destruct (Z.ltb_spec 0 n); [|lia]. destruct (Z.leb_spec n (ticks ops2)); cbn; auto.
  apply Z.eqb_neq. lia.
Qed.
Lemma timer_nonpos : forall ops1 name n ops2, n <= 0 -> no_timer name ops2 ->
  is_expired name (ti_timers (timer_run (ops1 ++ ORegTimer name n :: ops2) timer0)) = (n =? 0) && (ticks ops2 =? 0).
Proof.
  intros. rewrite timer_run_app. cbn [timer_run]. unfold is_expired. rewrite timer_get_run; auto.
  2: { apply timer_do_ok, timer_run_ok. constructor. }
  cbn [timer_do fst ti_timers]. rewrite timer_get_set, String.eqb_refl.
  destruct (Z.ltb_spec 0 n); [lia|]. cbn. pose proof (ticks_nonneg ops2).
  destruct (Z.eqb_spec n 0), (Z.eqb_spec (ticks ops2) 0), (Z.eqb_spec (n - ticks ops2) 0); cbn; auto; lia.
Qed.

(** ** Tasks *)
Definition only (id : nat) (l : list task) : list task := filter (fun t => Nat.eqb (k_id t) id) l.
Lemma task_tick_id : forall st t, k_id (fst (task_tick st t)) = k_id t.
Proof. intros. unfold task_tick. destruct st; auto. destruct (negb _); auto. destruct (negb _); auto. Qed.
Lemma only_tick : forall id st l, only id (fst (tasks_tick st l)) = fst (tasks_tick st (only id l)).
Proof.
  intros id st. induction l as [|t r IH]; cbn; auto.
  unfold tasks_tick in IH; cbn in IH.
  destruct (task_live _) eqn:L; cbn [only filter].
  - rewrite task_tick_id. destruct (Nat.eqb (k_id t) id); cbn [map filter]; [rewrite L; f_equal|]; apply IH.
  - destruct (Nat.eqb (k_id t) id); cbn [map filter]; [rewrite L|]; apply IH.
Qed.
Lemma only_calls : forall id st l, count_occ Nat.eq_dec (snd (tasks_tick st l)) id = length (snd (tasks_tick st (only id l))).
Proof.
  intros id st. induction l as [|t r IH]; cbn; auto. unfold tasks_tick in IH; cbn in IH.
  destruct (Nat.eqb_spec (k_id t) id) as [E|E]; cbn [filter map snd].
  - destruct (snd (task_tick _ t)); cbn [map count_occ length]; [|apply IH].
    destruct (Nat.eq_dec (k_id t) id); [|congruence]. f_equal. apply IH.
  - destruct (snd (task_tick _ t)); cbn [map count_occ]; [|apply IH].
    destruct (Nat.eq_dec (k_id t) id); [congruence|]. apply IH.
Qed.

(** where a task is after [j] calls and [n] ticks *)
Inductive task_at (id : nat) (d : Z) (e : bool) (r : Z) (n : Z) : Z -> list task -> Prop :=
| At_live : forall j rt, 0 <= j -> (r < 0 /\ rt = r \/ j <= r /\ rt = r - j) ->
    (j = 0 \/ run_time d e j <= n) -> n < run_time d e (j + 1) -> 0 <= n ->
    task_at id d e r n j [ {| k_id := id; k_delay := d; k_exp := e; k_repeat := rt; k_rem := run_time d e (j + 1) - n; k_factor := j |} ]
| At_done : forall j, 0 <= r -> j = r + 1 -> run_time d e j <= n -> task_at id d e r n j [].

Lemma run_time_next : forall d e j, 0 <= j -> run_time d e (j + 1) + (if e then d * Z.shiftl 1 j else d) = run_time d e (j + 2).
Proof.
  intros. unfold run_time. destruct e; [|lia].
  rewrite Z.shiftl_1_l. replace (j + 2 - 1) with (Z.succ j) by lia. rewrite Z.pow_succ_r by lia.
  replace (j + 1 - 1) with j by lia. lia.
Qed.
Lemma task_step : forall id d e r n j l st, 0 < d -> st id = false -> task_at id d e r n j l ->
  task_at id d e r (n + 1) (j + Z.of_nat (length (snd (tasks_tick st l)))) (fst (tasks_tick st l)).
Proof.
  intros id d e r n j l st D S A. destruct A as [j rt J R T1 T2 Hn|j R J T].
  2: { cbn. rewrite Z.add_0_r. apply At_done; auto; lia. }
  unfold tasks_tick; cbn [map filter k_id]. rewrite S. unfold task_tick; cbn [k_rem k_id k_delay k_exp k_repeat k_factor].
  assert (D2 : 0 < (if e then d * Z.shiftl 1 j else d)).
  { destruct e; auto. rewrite Z.shiftl_1_l. apply Z.mul_pos_pos; auto. apply Z.pow_pos_nonneg; lia. }
  pose proof (run_time_next d e j J) as NX.
  destruct (Z.eqb_spec (run_time d e (j + 1) - n - 1) 0) as [E|E]; cbn [negb].
  - destruct (Z.eqb_spec rt 0) as [E0|E0]; cbn [negb fst snd map filter length].
    + unfold task_live; cbn [k_rem]. rewrite E. cbn. apply At_done; lia || (replace (j + 1) with (j + 1) by lia; lia).
    + unfold task_live; cbn [k_rem].
      assert (X : forall z, 0 < z -> (z =? 0) = false) by (intros; apply Z.eqb_neq; lia).
      rewrite (X _ D2). cbn [negb length map].
      replace ((if e then d * Z.shiftl 1 j else d)) with (run_time d e (j + Z.of_nat 1 + 1) - (n + 1)) at 1.
      2: { replace (j + Z.of_nat 1 + 1) with (j + 2) by lia. rewrite <- NX. lia. }
      replace (j + 1) with (j + Z.of_nat 1) at 1 by lia.
      apply At_live; try lia.
      * destruct (Z.ltb_spec 0 rt); lia.
      * right. replace (j + Z.of_nat 1) with (j + 1) by lia. lia.
      * replace (j + Z.of_nat 1 + 1) with (j + 2) by lia. lia.
  - cbn [fst snd map filter length]. unfold task_live; cbn [k_rem].
    destruct (Z.eqb_spec (run_time d e (j + 1) - n - 1) 0); [lia|]. cbn [negb length map].
    rewrite Z.add_0_r. replace (run_time d e (j + 1) - n - 1) with (run_time d e (j + 1) - (n + 1)) by lia.
    apply At_live; auto; lia.
Qed.

Lemma task_along : forall ops id d e r n j s, 0 < d -> no_task id ops -> never_stopped id ops ->
  task_at id d e r n j (only id (ti_tasks s)) ->
  task_at id d e r (n + ticks ops) (j + calls id ops s) (only id (ti_tasks (timer_run ops s))).
Proof.
  induction ops as [|o q IH]; intros id d e r n j s D Nt Ns A.
  - cbn. rewrite !Z.add_0_r. auto.
  - cbn [timer_run calls ticks].
    assert (Nt' : no_task id q) by (intros t I; apply Nt; right; auto).
    assert (Ns' : never_stopped id q) by (intros t I; apply Ns; right; auto).
    destruct o as [x m|t|st]; cbn [timer_do fst snd count_occ].
    + apply IH; auto.
    + apply IH; auto. cbn [ti_tasks]. unfold only. rewrite filter_app. cbn.
      destruct (Nat.eqb_spec (k_id t) id); [exfalso; eapply Nt; [left; auto|auto]|]. rewrite app_nil_r. auto.
    + rewrite Z.add_assoc, Z.add_assoc.
      pose proof (only_calls id st (ti_tasks s)) as OC. pose proof (only_tick id st (ti_tasks s)) as OT.
      destruct (tasks_tick st (ti_tasks s)) as [l c] eqn:E. cbn [fst snd] in *.
      apply IH; auto. cbn [ti_tasks]. rewrite OT, OC. apply task_step; auto. apply Ns. left; auto.
Qed.

Lemma only_fresh : forall id l, (forall t, In t l -> k_id t <> id) -> only id l = [].
Proof.
  induction l as [|t r IH]; cbn; auto. intros N. destruct (Nat.eqb_spec (k_id t) id); [exfalso; eapply N; eauto|]. auto.
Qed.
Lemma task_registered : forall s id d e r, 0 < d -> (forall t, In t (ti_tasks s) -> k_id t <> id) ->
  task_at id d e r 0 0 (only id (ti_tasks (fst (timer_do (ORegTask (new_task id d e r)) s)))) \/ False.
Proof.
  intros. left. cbn. unfold only. rewrite filter_app. fold (only id (ti_tasks s)). rewrite only_fresh by auto.
  cbn. rewrite Nat.eqb_refl. unfold new_task.
  assert (R1 : run_time d e 1 = d) by (unfold run_time; destruct e; cbn; lia).
  destruct (Z.ltb_spec r 0).
  - pose proof (At_live id d e r 0 0 r) as A. change (0 + 1) with 1 in A. rewrite R1, !Z.sub_0_r in A. apply A; auto; lia.
  - pose proof (At_live id d e r 0 0 (r - 0)) as A. change (0 + 1) with 1 in A. rewrite R1, !Z.sub_0_r in A. apply A; auto; lia.
Qed.
Lemma run_time_mono : forall d e i j, 0 < d -> 1 <= i <= j -> run_time d e i <= run_time d e j.
Proof.
  intros. unfold run_time. destruct e; [|nia].
  apply Z.mul_le_mono_nonneg_l; [lia|]. apply Z.pow_le_mono_r; lia.
Qed.
Lemma task_calls : forall s id d e r ops, 0 < d -> (forall t, In t (ti_tasks s) -> k_id t <> id) ->
  no_task id ops -> never_stopped id ops ->
  forall j, 1 <= j ->
  (j <= calls id ops (fst (timer_do (ORegTask (new_task id d e r)) s)) <->
   run_time d e j <= ticks ops /\ (r < 0 \/ j <= r + 1)).
Proof.
  intros s id d e r ops D F Nt Ns j J.
  destruct (task_registered s id d e r D F) as [A|[]].
  eapply task_along with (ops := ops) in A; eauto.
  generalize dependent (calls id ops (fst (timer_do (ORegTask (new_task id d e r)) s))). intros c A.
  rewrite !Z.add_0_l in A.
  inversion A as [j' rt J' R T1 T2 Hn Ej El|j' R J' T Ej El]; subst.
  - split.
    + intros L. split; [|lia]. destruct T1; [lia|]. pose proof (run_time_mono d e j c D). lia.
    + intros [T R']. destruct (Z.le_gt_cases j c); auto.
      pose proof (run_time_mono d e (c + 1) j D). lia.
  - split.
    + intros L. split; [|lia]. pose proof (run_time_mono d e j (r + 1) D). lia.
    + intros [_ X]. lia.
Qed.

(** a stopped task is gone *)
Lemma calls_none : forall ops id s, only id (ti_tasks s) = [] -> no_task id ops -> calls id ops s = 0.
Proof.
  induction ops as [|o q IH]; intros id s N Nt; cbn [calls]; auto.
  assert (Nt' : no_task id q) by (intros t I; apply Nt; right; auto).
  destruct o as [x m|t|st]; cbn [timer_do fst snd count_occ].
  - rewrite IH; auto.
  - rewrite IH; auto. cbn [ti_tasks]. unfold only. rewrite filter_app. fold (only id (ti_tasks s)). rewrite N. cbn.
    destruct (Nat.eqb_spec (k_id t) id); [exfalso; eapply Nt; [left; auto|auto]|]. auto.
  - pose proof (only_calls id st (ti_tasks s)) as OC. pose proof (only_tick id st (ti_tasks s)) as OT.
    destruct (tasks_tick st (ti_tasks s)) as [l c] eqn:E. cbn [fst snd] in *. rewrite OC, N in *. cbn in *.
    rewrite IH; auto.
Qed.
Lemma stop_gone : forall id st l, st id = true -> only id (fst (tasks_tick st l)) = [] /\ count_occ Nat.eq_dec (snd (tasks_tick st l)) id = 0%nat.
Proof.
  intros id st l S. rewrite only_tick, only_calls.
  assert (A : Forall (fun t => k_id t = id) (only id l)).
  { apply Forall_forall. intros t I. apply filter_In in I. apply Nat.eqb_eq. apply I. }
  induction A as [|t r E A IH]; cbn; auto. unfold tasks_tick in IH; cbn in IH.
  rewrite E, S. cbn. apply IH.
Qed.
Lemma task_stop : forall s id st ops, st id = true -> no_task id ops -> calls id (OTick st :: ops) s = 0.
Proof.
  intros s id st ops S Nt. cbn [calls timer_do].
  destruct (stop_gone id st (ti_tasks s) S) as [G C].
  destruct (tasks_tick st (ti_tasks s)) as [l c]; cbn [fst snd] in *. rewrite C.
  rewrite calls_none; auto.
Qed.

(** a delay of zero or less never comes *)
Lemma zero_delay : forall ops id s, no_task id ops -> never_stopped id ops ->
  Forall (fun t => k_rem t <= 0) (only id (ti_tasks s)) -> calls id ops s = 0.
Proof.
  induction ops as [|o q IH]; intros id s Nt Ns A; cbn [calls]; auto.
  assert (Nt' : no_task id q) by (intros t I; apply Nt; right; auto).
  assert (Ns' : never_stopped id q) by (intros t I; apply Ns; right; auto).
  destruct o as [x m|t|st]; cbn [timer_do fst snd count_occ].
  - rewrite (IH id); auto.
  - rewrite (IH id); auto. cbn [ti_tasks]. unfold only. rewrite filter_app. cbn.
    destruct (Nat.eqb_spec (k_id t) id); [exfalso; eapply Nt; [left; auto|auto]|]. rewrite app_nil_r. auto.
  - pose proof (only_calls id st (ti_tasks s)) as OC. pose proof (only_tick id st (ti_tasks s)) as OT.
    assert (X : Forall (fun t => k_rem t <= 0) (fst (tasks_tick st (only id (ti_tasks s)))) /\ snd (tasks_tick st (only id (ti_tasks s))) = []).
    { assert (S : st id = false) by (apply Ns; left; auto).
      assert (B : Forall (fun t => k_id t = id) (only id (ti_tasks s))).
      { apply Forall_forall. intros t I. apply filter_In in I. apply Nat.eqb_eq. apply I. }
      clear - A S B. induction (only id (ti_tasks s)) as [|t l IHl]; cbn; auto.
      inversion A; inversion B; subst. destruct (IHl H2 H6) as [F N]. unfold tasks_tick in F, N; cbn in F, N.
      rewrite S. unfold task_tick, task_live.
      destruct (Z.eqb_spec (k_rem t - 1) 0); [lia|]. cbn [negb fst snd k_rem].
      destruct (Z.eqb_spec (k_rem t - 1) 0); [lia|]. cbn [negb]. split; auto. constructor; auto. cbn. lia. }
    destruct X as [F N]. rewrite <- OT in F. rewrite N in OC.
    destruct (tasks_tick st (ti_tasks s)) as [l c] eqn:E. cbn [fst snd] in *. rewrite OC.
    rewrite (IH id); auto.
Qed.

(** ** The thread step by step *)
Fixpoint steps (n : nat) (s : timer_th) : timer_th := match n with O => s | S m => steps m (th_step false s) end.
Lemma steps_add : forall a b s, steps (a + b) s = steps b (steps a s).
Proof. induction a; cbn; auto. Qed.

(** a timer registered after the timer part of a pass is in the dict at the end of the pass *)
Definition late (p : timer_pc) : Prop :=
  match p with PTicks _ | PCleanTasks _ _ | PSetTasks _ => True | _ => False end.
Lemma late_step : forall e s name n, late (th_pc s) -> timer_get name (th_timers s) = Some n ->
  (forall m, e <> ERegTimer name m) ->
  timer_get name (th_timers (th_do e s)) = Some n /\ (late (th_pc (th_do e s)) \/ th_pc (th_do e s) = PSleep).
Proof.
  intros e [p t k] name n L G N. destruct e as [st|x m|q]; cbn in *.
  - destruct p; try contradiction; unfold th_step; cbn.
    + destruct (nth_error k i); cbn; auto.
    + destruct (nth_error k i); cbn; auto.
    + auto.
  - rewrite timer_get_set. destruct (String.eqb_spec x name); [subst; exfalso; eapply N; eauto|auto].
  - auto.
Qed.
(** the run stops at the end of the pass *)
Inductive pass_run : list timer_ev -> timer_th -> timer_th -> Prop :=
| PR_end : forall s, th_pc s = PSleep -> pass_run [] s s
| PR_step : forall e es s s', th_pc s <> PSleep -> pass_run es (th_do e s) s' -> pass_run (e :: es) s s'.
Lemma late_kept : forall es s s' name n, pass_run es s s' -> late (th_pc s) -> timer_get name (th_timers s) = Some n ->
  (forall m, ~ In (ERegTimer name m) es) -> timer_get name (th_timers s') = Some n.
Proof.
  intros es s s' name n P. induction P; intros L G N; auto.
  destruct (late_step e s name n L G) as [G' [L'|S']].
  - intros m ->. apply (N m). left; auto.
  - apply IHP; auto. intros m I. apply (N m). right; auto.
  - inversion P; subst; auto. congruence.
Qed.

(** a task registered before the list comprehension ends is in the list at the end of the pass *)
Definition task_in (id : nat) (l : list task) : Prop := exists t, In t l /\ k_id t = id /\ 0 < k_rem t.
Definition no_stop (es : list timer_ev) : Prop := forall st, In (EStep st) es -> st = false.
(* the task sits at or after the place the thread has reached, or is already collected *)
Definition task_safe (id : nat) (s : timer_th) : Prop :=
  match th_pc s with
  | PSetTasks acc => task_in id acc
  | PCleanTasks i acc => task_in id acc \/ task_in id (skipn i (th_tasks s))
  | PTicks i => task_in id (firstn i (th_tasks s)) \/ exists t, In t (skipn i (th_tasks s)) /\ k_id t = id /\ 1 < k_rem t
  | PDead => True
  | _ => exists t, In t (th_tasks s) /\ k_id t = id /\ 1 < k_rem t
  end.
Definition pc_ok (s : timer_th) : Prop :=
  match th_pc s with PCleanTasks i _ | PTicks i => (i <= length (th_tasks s))%nat | _ => True end.
Lemma set_nth_split : forall {A} i (x : A) l y, nth_error l i = Some y -> set_nth i x l = firstn i l ++ x :: skipn (S i) l.
Proof.
  induction i; destruct l; cbn; intros; try discriminate; auto. f_equal. eapply IHi; eauto.
Qed.
Lemma nth_error_split3 : forall {A} i (l : list A) y, nth_error l i = Some y -> l = firstn i l ++ y :: skipn (S i) l /\ length (firstn i l) = i.
Proof.
  induction i; destruct l; cbn; intros; try discriminate; auto.
  - injection H as <-. auto.
  - destruct (IHi _ _ H) as [E L]. split; [f_equal; apply E|f_equal; apply L].
Qed.
Lemma skipn_app_len : forall {A} (a b : list A), skipn (length a) (a ++ b) = b.
Proof. induction a; cbn; auto. Qed.
Lemma firstn_app_len : forall {A} (a b : list A), firstn (length a) (a ++ b) = a.
Proof. induction a; cbn; auto. intros; f_equal; auto. Qed.
Lemma nth_error_none_skipn : forall {A} i (l : list A), nth_error l i = None -> skipn i l = [].
Proof. intros. apply skipn_all2. apply nth_error_None. auto. Qed.

Lemma firstn_S_at : forall {A} i (a : list A) x b, length a = i -> firstn (S i) (a ++ x :: b) = a ++ [x].
Proof. induction i; destruct a; cbn; intros; try discriminate; auto. f_equal. apply IHi. lia. Qed.
Lemma skipn_S_at : forall {A} i (a : list A) x b, length a = i -> skipn (S i) (a ++ x :: b) = b.
Proof. induction i; destruct a; cbn; intros; try discriminate; auto. apply IHi. lia. Qed.
Lemma skipn_at : forall {A} i (a : list A) b, length a = i -> skipn i (a ++ b) = b.
Proof. intros A i a b <-. apply skipn_app_len. Qed.

Lemma pc_ok_do : forall e s, pc_ok s -> pc_ok (th_do e s).
Proof.
  intros [st|x m|q] [p t k] O; unfold pc_ok in *; cbn [th_do th_pc th_tasks th_timers] in *; auto.
  - destruct p; cbn [th_step th_pc th_at th_tasks th_timers] in *; unfold th_step; cbn [th_pc th_tasks th_timers].
    + cbn; auto.
    + destruct (negb _); cbn; auto. destruct (nth_error t i) as [[]|]; cbn; auto.
    + cbn; auto.
    + destruct (negb _); cbn; auto. destruct (nth_error t i) as [[]|]; cbn; auto.
    + cbn. lia.
    + destruct (nth_error k i) eqn:E; cbn; [|lia]. rewrite (set_nth_split _ _ _ _ E), app_length.
      destruct (nth_error_split3 _ _ _ E) as [_ L]. rewrite L. cbn. lia.
    + destruct (nth_error k i) eqn:E; cbn; auto. apply nth_error_Some. congruence.
    + cbn; auto.
    + cbn; auto.
  - destruct p; auto; rewrite app_length; lia.
Qed.

Lemma task_tick_later : forall t, 1 < k_rem t -> 0 < k_rem (fst (task_tick false t)).
Proof. intros. unfold task_tick. destruct (Z.eqb_spec (k_rem t - 1) 0); [lia|]. cbn. lia. Qed.
Lemma skipn_incl : forall {A} i (l : list A) x, In x (skipn (S i) l) -> In x (skipn i l).
Proof. induction i; destruct l; intros x; [contradiction|right; auto|contradiction|apply IHi]. Qed.

Lemma task_safe_step : forall s id, pc_ok s -> task_safe id s ->
  th_pc (th_step false s) = PSleep /\ task_in id (th_tasks (th_step false s)) \/ task_safe id (th_step false s).
Proof.
  intros [p t k] id O S. unfold task_safe in S; cbn [th_pc th_tasks] in S. unfold pc_ok in O; cbn [th_pc th_tasks] in O.
  unfold th_step; cbn [th_pc th_timers th_tasks].
  destruct p.
  - right. exact S.
  - right. destruct (negb _); [exact Logic.I|]. destruct (nth_error t i) as [[]|]; exact S.
  - right. exact S.
  - right. destruct (negb _); [exact Logic.I|]. destruct (nth_error t i) as [[]|]; exact S.
  - right. unfold task_safe; cbn. right. auto.
  - right. destruct (nth_error k i) as [q|] eqn:E; unfold task_safe; cbn [th_pc th_tasks th_at].
    + rewrite (set_nth_split _ _ _ _ E). destruct (nth_error_split3 _ _ _ E) as [Ek L].
      rewrite (firstn_S_at _ _ _ _ L), (skipn_S_at _ _ _ _ L).
      destruct S as [(x & I & D & R)|(x & I & D & R)].
      * left. exists x. split; auto. apply in_or_app; auto.
      * rewrite Ek, (skipn_at _ _ _ L) in I. destruct I as [<-|I].
        -- left. exists (fst (task_tick false q)). split; [apply in_or_app; right; left; auto|].
           rewrite task_tick_id. split; auto using task_tick_later.
        -- right. exists x. auto.
    + right. rewrite skipn_O. apply nth_error_none_skipn in E. rewrite E in S.
      destruct S as [(x & I & D & R)|(x & [] & _)]. exists x. split; auto.
      rewrite <- (firstn_skipn i k). apply in_or_app; auto.
  - right. destruct (nth_error k i) as [q|] eqn:E; unfold task_safe; cbn [th_pc th_tasks th_at].
    + destruct (nth_error_split3 _ _ _ E) as [Ek L].
      destruct S as [(x & I & D & R)|(x & I & D & R)].
      * left. exists x. split; auto. destruct (task_live q); auto. apply in_or_app; auto.
      * rewrite Ek, (skipn_at _ _ _ L) in I. destruct I as [<-|I].
        -- left. exists q. unfold task_live. destruct (Z.eqb_spec (k_rem q) 0); [lia|]. cbn.
           split; [apply in_or_app; right; left; auto|auto].
        -- right. exists x. auto.
    + apply nth_error_none_skipn in E. rewrite E in S. destruct S as [S|(x & [] & _)]. auto.
  - left. split; auto.
  - right. exact Logic.I.
Qed.
Lemma in_skipn_app : forall {A} i (l m : list A) x, In x (skipn i l) -> In x (skipn i (l ++ m)).
Proof. intros. rewrite skipn_app. apply in_or_app; auto. Qed.
Lemma task_safe_reg : forall s id q, pc_ok s -> task_safe id s -> task_safe id (th_do (ERegTask q) s).
Proof.
  intros [p t k] id q O S. unfold task_safe, pc_ok in *; cbn [th_do th_pc th_tasks] in *.
  destruct p; auto.
  1-5: destruct S as (x & I & D); exists x; split; auto; apply in_or_app; auto.
  - destruct S as [(x & I & D)|(x & I & D)].
    + left. exists x. split; auto. rewrite firstn_app. apply in_or_app; auto.
    + right. exists x. split; auto. apply in_skipn_app; auto.
  - destruct S as [S|(x & I & D)]; auto. right. exists x. split; auto. apply in_skipn_app; auto.
Qed.
Lemma task_safe_new : forall s q, pc_ok s -> 1 < k_rem q -> (forall acc, th_pc s <> PSetTasks acc) ->
  task_safe (k_id q) (th_do (ERegTask q) s).
Proof.
  intros [p t k] q O R N. unfold task_safe, pc_ok in *; cbn [th_do th_pc th_tasks] in *.
  assert (X : exists x, In x (k ++ [q]) /\ k_id x = k_id q /\ 1 < k_rem x).
  { exists q. split; auto. apply in_or_app; right; left; auto. }
  destruct p; auto.
  - right. exists q. split; auto. rewrite skipn_app. replace (i - length k)%nat with 0%nat by lia. apply in_or_app; right; left; auto.
  - right. exists q. split; [|split; auto; lia]. rewrite skipn_app. replace (i - length k)%nat with 0%nat by lia. apply in_or_app; right; left; auto.
  - exfalso. eapply N; eauto.
Qed.
Lemma task_safe_run : forall es s s' id, pass_run es s s' -> pc_ok s -> no_stop es -> th_pc s <> PSleep ->
  task_safe id s -> task_in id (th_tasks s').
Proof.
  intros es s s' id P. induction P; intros O N Np S; [contradiction|].
  assert (N' : no_stop es) by (intros b I; apply N; right; auto).
  assert (X : th_pc (th_do e s) = PSleep /\ task_in id (th_tasks (th_do e s)) \/ task_safe id (th_do e s) /\ th_pc (th_do e s) <> PSleep).
  { destruct e as [st|x m|q].
    - assert (st = false) by (apply N; left; auto). subst st.
      destruct (task_safe_step s id O S) as [D|D]; auto.
      destruct (th_pc (th_do (EStep false) s)) eqn:E; try (right; split; [exact D|discriminate]).
      left. split; auto. unfold task_safe in D. cbn [th_do] in E. rewrite E in D. destruct D as (y & I & D & R). exists y. split; auto. split; auto; lia.
    - right. split; [exact S|auto].
    - right. split; [apply task_safe_reg; auto|auto]. }
  destruct X as [[E D]|[D E]].
  - inversion P; subst; auto. contradiction.
  - apply IHP; auto. apply pc_ok_do; auto.
Qed.
Lemma task_kept : forall es s s' q, pc_ok s -> 1 < k_rem q -> (forall acc, th_pc s <> PSetTasks acc) -> th_pc s <> PSleep ->
  no_stop es -> pass_run es (th_do (ERegTask q) s) s' -> task_in (k_id q) (th_tasks s').
Proof.
  intros. eapply task_safe_run; eauto.
  - apply (pc_ok_do (ERegTask q)); auto.
  - apply task_safe_new; auto.
Qed.
Lemma th_run_ok : forall es s, pc_ok s -> pc_ok (th_run es s).
Proof. induction es; cbn; auto using pc_ok_do. Qed.

(** a pass without registrations is one tick of the atomic model *)
Lemma set_at : forall a name v w b, ~ In name (names a) -> timer_set name w (a ++ (name, v) :: b) = a ++ (name, w) :: b.
Proof.
  induction a as [|[k x] r IH]; cbn; intros.
  - rewrite String.eqb_refl. auto.
  - destruct (String.eqb_spec k name); [exfalso; auto|]. f_equal. apply IH. auto.
Qed.
Lemma names_dec : forall a, names (map timer_dec a) = names a.
Proof. intros. unfold names. rewrite map_map. apply map_ext. auto. Qed.
Lemma nth_error_at : forall {A} (a : list A) x b, nth_error (a ++ x :: b) (length a) = Some x.
Proof. induction a; cbn; auto. Qed.
Lemma nth_error_end : forall {A} (a : list A), nth_error a (length a) = None.
Proof. induction a; cbn; auto. Qed.
Lemma pass_dec : forall b a k, ti_ok (a ++ b) ->
  exists n, steps n {| th_pc := PDec (length a) (length (a ++ b)); th_timers := map timer_dec a ++ b; th_tasks := k |} =
            {| th_pc := PClean 0 (length (a ++ b)) []; th_timers := map timer_dec (a ++ b); th_tasks := k |}.
Proof.
  induction b as [|[nm v] b IH]; intros a k N.
  - exists 1%nat. cbn [steps]. unfold th_step; cbn [th_pc th_timers th_tasks]. rewrite !app_nil_r, map_length, Nat.eqb_refl. cbn [negb].
    replace (nth_error (map timer_dec a) (length a)) with (@None (string * Z)); auto. symmetry. rewrite <- (map_length timer_dec a). apply nth_error_end.
  - destruct (IH (a ++ [(nm, v)]) k) as [n E]; [rewrite <- app_assoc; exact N|].
    exists (2 + n)%nat. rewrite steps_add. cbn [steps]. unfold th_step at 2; cbn [th_pc th_timers th_tasks].
    replace (length (map timer_dec a ++ (nm, v) :: b)) with (length (a ++ (nm, v) :: b)) by (rewrite !app_length, map_length; auto).
    rewrite Nat.eqb_refl. cbn [negb].
    replace (nth_error (map timer_dec a ++ (nm, v) :: b) (length a)) with (Some (nm, v)).
    2: { symmetry. rewrite <- (map_length timer_dec a). apply nth_error_at. }
    unfold th_step, th_at; cbn [th_pc th_timers th_tasks]. rewrite set_at.
    2: { rewrite names_dec. unfold ti_ok, names in N. rewrite map_app in N. cbn in N. apply NoDup_remove_2 in N.
         intros I. apply N. apply in_or_app; auto. }
    rewrite <- !app_assoc in E. cbn [app] in E. rewrite app_length in E. cbn [length] in E. rewrite Nat.add_1_r in E.
    rewrite map_app in E. rewrite <- app_assoc in E. cbn [map app] in E. unfold timer_dec at 2 in E; cbn [fst snd] in E. exact E.
Qed.
Lemma pass_clean : forall b a acc k,
  exists n, steps n {| th_pc := PClean (length a) (length (a ++ b)) acc; th_timers := a ++ b; th_tasks := k |} =
            {| th_pc := PTicks 0; th_timers := acc ++ filter timer_live b; th_tasks := k |}.
Proof.
  induction b as [|kv b IH]; intros a acc k.
  - exists 2%nat. cbn [steps]. unfold th_step at 2; cbn [th_pc th_timers th_tasks]. rewrite !app_nil_r, Nat.eqb_refl. cbn [negb].
    rewrite nth_error_end. auto.
  - destruct (IH (a ++ [kv]) (if timer_live kv then acc ++ [kv] else acc) k) as [n E].
    exists (1 + n)%nat. rewrite steps_add. cbn [steps]. unfold th_step; cbn [th_pc th_timers th_tasks].
    rewrite Nat.eqb_refl. cbn [negb]. rewrite nth_error_at. unfold th_at; cbn [th_timers th_tasks].
    rewrite <- !app_assoc in E. cbn [app] in E. rewrite app_length in E. cbn [length] in E. rewrite Nat.add_1_r in E.
    rewrite E. cbn [filter]. destruct (timer_live kv); auto. rewrite <- app_assoc. auto.
Qed.
Lemma set_nth_at : forall {A} (a : list A) x y b, set_nth (length a) y (a ++ x :: b) = a ++ y :: b.
Proof. induction a; cbn; auto. intros; f_equal; auto. Qed.
Lemma pass_ticks : forall b a t,
  exists n, steps n {| th_pc := PTicks (length a); th_timers := t; th_tasks := map (fun q => fst (task_tick false q)) a ++ b |} =
            {| th_pc := PCleanTasks 0 []; th_timers := t; th_tasks := map (fun q => fst (task_tick false q)) (a ++ b) |}.
Proof.
  induction b as [|q b IH]; intros a t.
  - exists 1%nat. cbn [steps]. unfold th_step; cbn [th_pc th_timers th_tasks]. rewrite !app_nil_r.
    rewrite <- (map_length (fun q => fst (task_tick false q)) a), nth_error_end at 1. auto.
  - destruct (IH (a ++ [q]) t) as [n E]. exists (1 + n)%nat. rewrite steps_add. cbn [steps].
    unfold th_step; cbn [th_pc th_timers th_tasks].
    replace (nth_error (map (fun q => fst (task_tick false q)) a ++ q :: b) (length a)) with (Some q).
    2: { symmetry. rewrite <- (map_length (fun q => fst (task_tick false q)) a). apply nth_error_at. }
    replace (set_nth (length a) (fst (task_tick false q)) (map (fun q0 => fst (task_tick false q0)) a ++ q :: b))
      with (map (fun q0 => fst (task_tick false q0)) a ++ fst (task_tick false q) :: b).
    2: { symmetry. rewrite <- (map_length (fun q => fst (task_tick false q)) a). apply set_nth_at. }
    rewrite <- !app_assoc in E. cbn [app] in E. rewrite app_length in E. cbn [length] in E. rewrite Nat.add_1_r in E.
    rewrite map_app in E. rewrite <- app_assoc in E. exact E.
Qed.
Lemma pass_clean_tasks : forall b a acc t,
  exists n, steps n {| th_pc := PCleanTasks (length a) acc; th_timers := t; th_tasks := a ++ b |} =
            {| th_pc := PSleep; th_timers := t; th_tasks := acc ++ filter task_live b |}.
Proof.
  induction b as [|q b IH]; intros a acc t.
  - exists 2%nat. cbn [steps]. unfold th_step at 2; cbn [th_pc th_timers th_tasks]. rewrite !app_nil_r, nth_error_end. auto.
  - destruct (IH (a ++ [q]) (if task_live q then acc ++ [q] else acc) t) as [n E].
    exists (1 + n)%nat. rewrite steps_add. cbn [steps]. unfold th_step; cbn [th_pc th_timers th_tasks].
    rewrite nth_error_at. unfold th_at; cbn [th_timers th_tasks].
    rewrite <- !app_assoc in E. cbn [app] in E. rewrite app_length in E. cbn [length] in E. rewrite Nat.add_1_r in E.
    rewrite E. cbn [filter]. destruct (task_live q); auto. rewrite <- app_assoc. auto.
Qed.
Lemma quiet_pass : forall t k, ti_ok t ->
  exists n, steps n {| th_pc := PSleep; th_timers := t; th_tasks := k |} =
            {| th_pc := PSleep; th_timers := timers_tick t; th_tasks := fst (tasks_tick (fun _ => false) k) |}.
Proof.
  intros t k N. destruct (pass_dec t [] k N) as [n1 E1]. destruct (pass_clean (map timer_dec t) [] [] k) as [n2 E2].
  destruct (pass_ticks k [] (timers_tick t)) as [n3 E3].
  destruct (pass_clean_tasks (map (fun q => fst (task_tick false q)) k) [] [] (timers_tick t)) as [n4 E4].
  cbn [app length map] in *. rewrite map_length in E2.
  exists (1 + (n1 + (n2 + (n3 + n4))))%nat. rewrite !steps_add. cbn [steps].
  unfold th_step at 1; cbn [th_pc th_timers th_tasks]. unfold th_at; cbn [th_timers th_tasks].
  rewrite E1, E2. unfold timers_tick in E3 at 1. rewrite E3, E4. auto.
Qed.
