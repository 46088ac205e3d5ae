(** C76-C78: the stack timer. *)
From Verif Require Import Base BaseLemmas TimerModel SpecTimer TimerProofs.
Open Scope string_scope. Open Scope list_scope. Open Scope Z_scope.

(** * C76: a timer registered with timeout n is expired from tick n on and not before *)
Definition C76_named_timers_statement : Prop :=
  forall ops1 name n ops2, no_timer name ops2 ->
  is_expired name (ti_timers (timer_run (ops1 ++ ORegTimer name n :: ops2) timer0)) = (n <=? ticks ops2).
(** every positive timeout, every history before and after, every other timer and task *)
Theorem C76_named_timers_partial : forall ops1 name n ops2, 0 < n -> no_timer name ops2 ->
  is_expired name (ti_timers (timer_run (ops1 ++ ORegTimer name n :: ops2) timer0)) = (n <=? ticks ops2).
Proof. exact named_timer. Qed.
Print Assumptions C76_named_timers_partial.
(** what is missing: a timeout of 0 is expired only until the next tick, a negative one never *)
Theorem C76_timeout_zero_partial : forall ops1 name n ops2, n <= 0 -> no_timer name ops2 ->
  is_expired name (ti_timers (timer_run (ops1 ++ ORegTimer name n :: ops2) timer0)) = (n =? 0) && (ticks ops2 =? 0).
Proof. exact timer_nonpos. Qed.
Print Assumptions C76_timeout_zero_partial.
Theorem C76_named_timers_refuted : ~ C76_named_timers_statement.
Proof.
  intros H. specialize (H [] "a" 0 [OTick (fun _ => false)]).
  assert (X : no_timer "a" [OTick (fun _ => false)]) by (intros m [E|[]]; discriminate).
  specialize (H X). vm_compute in H. discriminate.
Qed.
Print Assumptions C76_named_timers_refuted.
(** a name never registered counts as expired *)
Theorem C76_unknown_timer : forall name ops, no_timer name ops -> is_expired name (ti_timers (timer_run ops timer0)) = true.
Proof.
  intros. unfold is_expired. rewrite timer_get_run; auto. constructor.
Qed.
Print Assumptions C76_unknown_timer.
Example C76_example :
  let h := [OTick (fun _ => false); ORegTimer "b" 1; OTick (fun _ => false); ORegTimer "c" 7] in
  no_timer "a" h /\
  is_expired "a" (ti_timers (timer_run ([ORegTimer "a" 9; OTick (fun _ => true)] ++ ORegTimer "a" 3 :: h) timer0)) = false /\
  is_expired "a" (ti_timers (timer_run ([ORegTimer "a" 9; OTick (fun _ => true)] ++ ORegTimer "a" 3 :: h ++ [OTick (fun _ => false)]) timer0)) = true.
Proof.
  split; [|split; vm_compute; reflexivity].
  intros m I. cbn in I. repeat destruct I as [I|I]; try discriminate; contradiction.
Qed.

(** * C77: the j-th call of a task comes at tick [run_time d exp j], up to r+1 calls, forever
    when r is negative *)
Definition C77_tasks_statement : Prop :=
  forall s id d e r ops, (forall t, In t (ti_tasks s) -> k_id t <> id) -> no_task id ops -> never_stopped id ops ->
  forall j, 1 <= j ->
  (j <= calls id ops (fst (timer_do (ORegTask (new_task id d e r)) s)) <->
   run_time d e j <= ticks ops /\ (r < 0 \/ j <= r + 1)).
Theorem C77_tasks_partial : forall s id d e r ops, 0 < d ->
  (forall t, In t (ti_tasks s) -> k_id t <> id) -> no_task id ops -> never_stopped id ops ->
  forall j, 1 <= j ->
  (j <= calls id ops (fst (timer_do (ORegTask (new_task id d e r)) s)) <->
   run_time d e j <= ticks ops /\ (r < 0 \/ j <= r + 1)).
Proof. exact task_calls. Qed.
Print Assumptions C77_tasks_partial.
(** what is missing: a delay of zero or less never comes *)
Theorem C77_zero_delay_partial : forall s id d e r ops, d <= 0 ->
  (forall t, In t (ti_tasks s) -> k_id t <> id) -> no_task id ops -> never_stopped id ops ->
  calls id ops (fst (timer_do (ORegTask (new_task id d e r)) s)) = 0.
Proof.
  intros. apply zero_delay; auto. cbn. unfold only. rewrite filter_app. fold (only id (ti_tasks s)).
  rewrite only_fresh by auto. cbn. rewrite Nat.eqb_refl. constructor; auto.
Qed.
Print Assumptions C77_zero_delay_partial.
Theorem C77_tasks_refuted : ~ C77_tasks_statement.
Proof.
  intros H. specialize (H timer0 0%nat 0 false 0 [OTick (fun _ => false)]).
  destruct (H ltac:(intros t [])) with (j := 1) as [_ X].
  - intros t [E|[]]; discriminate.
  - intros st [E|[]]; injection E as <-; auto.
  - lia.
  - apply Z.leb_le in X.
    + vm_compute in X. discriminate.
    + split; [vm_compute; discriminate|right; lia].
Qed.
Print Assumptions C77_tasks_refuted.
(** a task whose stop condition holds at a tick is not called at this tick nor later *)
Theorem C77_stop_condition : forall s id st ops, st id = true -> no_task id ops -> calls id (OTick st :: ops) s = 0.
Proof. exact task_stop. Qed.
Print Assumptions C77_stop_condition.
Example C77_example :
  let tk := OTick (fun _ => false) in
  let s := fst (timer_do (ORegTask (new_task 1 2 true 2)) timer0) in
  (forall t, In t (ti_tasks timer0) -> k_id t <> 1%nat) /\
  map (fun n => calls 1 (repeat tk n) s) [1; 2; 3; 4; 5; 6; 7; 8; 9; 20]%nat = [0; 1; 1; 2; 2; 2; 2; 3; 3; 3] /\
  calls 1 (repeat tk 3 ++ OTick (fun i => Nat.eqb i 1) :: repeat tk 20) s = 1 /\
  map (fun n => calls 1 (repeat tk n) (fst (timer_do (ORegTask (new_task 1 3 false (-1))) timer0))) [2; 3; 5; 6; 9; 31]%nat = [0; 1; 1; 2; 3; 10].
Proof. split; [intros t []|]. vm_compute. auto. Qed.

(** * C78: registrations by other threads while the timer thread runs *)
Definition th0 : timer_th := {| th_pc := PSleep; th_timers := []; th_tasks := [] |}.
(** a timer of more than one tick or a task registered at any moment is still there when the
    thread has finished the pass, and the thread goes on *)
Definition C78_timers_kept_statement : Prop :=
  forall es1 name n es2 s', 1 < n -> (forall m, ~ In (ERegTimer name m) es2) ->
  pass_run es2 (th_do (ERegTimer name n) (th_run es1 th0)) s' -> is_expired name (th_timers s') = false.
Definition C78_tasks_kept_statement : Prop :=
  forall es1 q es2 s', 1 < k_rem q -> no_stop es2 ->
  pass_run es2 (th_do (ERegTask q) (th_run es1 th0)) s' -> task_in (k_id q) (th_tasks s').
Definition C78_thread_alive_statement : Prop := forall es, th_pc (th_run es th0) <> PDead.

Definition st_ := EStep false.
(** lost: registered after the comprehension over the timers is done and before its result is
    assigned *)
Theorem C78_timers_kept_refuted : ~ C78_timers_kept_statement.
Proof.
  intros H.
  specialize (H [st_; st_; st_] "a" 5 [st_; st_; st_; st_]
    {| th_pc := PSleep; th_timers := []; th_tasks := [] |} ltac:(lia)).
  assert (X : forall m, ~ In (ERegTimer "a" m) [st_; st_; st_; st_]).
  { intros m I. cbn in I. repeat destruct I as [I|I]; try discriminate; contradiction. }
  specialize (H X).
  assert (P : pass_run [st_; st_; st_; st_] (th_do (ERegTimer "a" 5) (th_run [st_; st_; st_] th0))
    {| th_pc := PSleep; th_timers := []; th_tasks := [] |}).
  { apply PR_step; [discriminate|]. apply PR_step; [discriminate|]. apply PR_step; [discriminate|].
    apply PR_step; [discriminate|]. apply PR_end. reflexivity. }
  specialize (H P). discriminate.
Qed.
Print Assumptions C78_timers_kept_refuted.
(** lost: registered after the comprehension over the tasks is done and before its result is
    assigned *)
Theorem C78_tasks_kept_refuted : ~ C78_tasks_kept_statement.
Proof.
  intros H.
  specialize (H [st_; st_; st_; st_; st_; st_] (new_task 1 5 false (-1)) [st_]
    {| th_pc := PSleep; th_timers := []; th_tasks := [] |} ltac:(cbn; lia)).
  assert (X : no_stop [st_]) by (intros m [I|[]]; injection I as <-; auto).
  specialize (H X).
  assert (P : pass_run [st_] (th_do (ERegTask (new_task 1 5 false (-1))) (th_run [st_; st_; st_; st_; st_; st_] th0))
    {| th_pc := PSleep; th_timers := []; th_tasks := [] |}).
  { apply PR_step; [discriminate|]. apply PR_end. reflexivity. }
  specialize (H P). destruct H as (t & [] & _).
Qed.
Print Assumptions C78_tasks_kept_refuted.
(** the thread dies: a new name while the thread goes through the dict *)
Theorem C78_thread_alive_refuted : ~ C78_thread_alive_statement.
Proof. intros H. apply (H [ERegTimer "a" 3; st_; st_; ERegTimer "b" 3; st_; st_]). vm_compute. reflexivity. Qed.
Print Assumptions C78_thread_alive_refuted.
(** what holds: a timer registered during the task part of a pass, for instance by a task, is
    untouched at the end of the pass; one registered between passes is there for the next one *)
Theorem C78_timers_kept_partial : forall s name n es s', late (th_pc s) ->
  (forall m, ~ In (ERegTimer name m) es) ->
  pass_run es (th_do (ERegTimer name n) s) s' -> timer_get name (th_timers s') = Some n.
Proof.
  intros s name n es s' L N P. eapply late_kept; eauto.
  cbn. rewrite timer_get_set, String.eqb_refl. auto.
Qed.
Print Assumptions C78_timers_kept_partial.
(** a task registered at any moment of a pass other than just before the last assignment is there
    at the end of the pass *)
Theorem C78_tasks_kept_partial : forall es1 q es2 s', 1 < k_rem q -> no_stop es2 ->
  th_pc (th_run es1 th0) <> PSleep -> (forall acc, th_pc (th_run es1 th0) <> PSetTasks acc) ->
  pass_run es2 (th_do (ERegTask q) (th_run es1 th0)) s' -> task_in (k_id q) (th_tasks s').
Proof.
  intros. eapply task_kept with (s := th_run es1 th0); eauto. apply th_run_ok. exact Logic.I.
Qed.
Print Assumptions C78_tasks_kept_partial.
(** a pass during which nothing is registered is exactly one tick: every timer and task registered
    between passes is counted *)
Theorem C78_quiet_pass_is_a_tick : forall t k, ti_ok t ->
  exists n, steps n {| th_pc := PSleep; th_timers := t; th_tasks := k |} =
            {| th_pc := PSleep; th_timers := timers_tick t; th_tasks := fst (tasks_tick (fun _ => false) k) |}.
Proof. exact quiet_pass. Qed.
Print Assumptions C78_quiet_pass_is_a_tick.
Example C78_example :
  late (th_pc (th_run [st_; st_; st_; st_] th0)) /\
  pass_run [st_; st_; st_] (th_do (ERegTimer "a" 5) (th_run [st_; st_; st_; st_] th0))
    {| th_pc := PSleep; th_timers := [("a", 5)]; th_tasks := [] |} /\
  pass_run [st_; st_; st_; st_; st_; st_; st_; st_] (th_do (ERegTask (new_task 1 5 false 2)) (th_run [st_] th0))
    {| th_pc := PSleep; th_timers := []; th_tasks := [ {| k_id := 1; k_delay := 5; k_exp := false; k_repeat := 2; k_rem := 4; k_factor := 0 |} ] |}.
Proof.
  split; [exact Logic.I|]. split.
  - do 3 (apply PR_step; [discriminate|]). apply PR_end. reflexivity.
  - do 8 (apply PR_step; [discriminate|]). apply PR_end. reflexivity.
Qed.
