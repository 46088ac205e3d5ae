(** What the stack timer is expected to do, stated over histories of calls and ticks. *)
From Verif Require Import Base TimerModel.

(** the number of ticks in a history *)
Fixpoint ticks (ops : list timer_op) : Z :=
  match ops with [] => 0 | OTick _ :: r => 1 + ticks r | _ :: r => ticks r end.
Definition no_timer (name : string) (ops : list timer_op) : Prop := forall m, ~ In (ORegTimer name m) ops.
Definition no_task (id : nat) (ops : list timer_op) : Prop := forall t, In (ORegTask t) ops -> k_id t <> id.
Definition never_stopped (id : nat) (ops : list timer_op) : Prop := forall st, In (OTick st) ops -> st id = false.
(** how often the method [id] is called along a history *)
Fixpoint calls (id : nat) (ops : list timer_op) (s : timer_st) : Z :=
  match ops with
  | [] => 0
  | o :: r => Z.of_nat (count_occ Nat.eq_dec (snd (timer_do o s)) id) + calls id r (fst (timer_do o s))
  end.
(** the tick, counted from the registration, of the j-th call (j >= 1): d, 2d, 3d, ... or, with
    exponential delay, gaps of d, d, 2d, 4d, ... *)
Definition run_time (d : Z) (exp : bool) (j : Z) : Z := if exp then d * 2 ^ (j - 1) else d * j.

Definition timer0 : timer_st := {| ti_timers := []; ti_tasks := [] |}.
