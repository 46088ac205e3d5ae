(** The stack timer, subsystems/timer.py. *)
From Verif Require Import Base.

(** ** Named timers: self._timers, a dict from name to remaining ticks, in insertion order *)
Definition timers := list (string * Z).
Fixpoint timer_get (name : string) (t : timers) : option Z :=
  match t with [] => None | (k, v) :: r => if String.eqb k name then Some v else timer_get name r end.
(** dict assignment: register_timer, timer.py:193-197 *)
Fixpoint timer_set (name : string) (v : Z) (t : timers) : timers :=
  match t with
  | [] => [(name, v)]
  | (k, w) :: r => if String.eqb k name then (k, v) :: r else (k, w) :: timer_set name v r
  end.
(** is_expired, timer.py:199-204: "not self._timers.get(name, None)" *)
Definition is_expired (name : string) (t : timers) : bool :=
  match timer_get name t with None => true | Some v => v =? 0 end.
(** the decrement and the cleanup of one tick, timer.py:152-157 *)
Definition timer_dec (kv : string * Z) : string * Z := (fst kv, snd kv - 1).
Definition timer_live (kv : string * Z) : bool := negb (snd kv =? 0).
Definition timers_tick (t : timers) : timers := filter timer_live (map timer_dec t).

(** ** Tasks: TimerTask, timer.py:48-109.  [k_id] stands for the method and its arguments *)
Record task := { k_id : nat; k_delay : Z; k_exp : bool; k_repeat : Z; k_rem : Z; k_factor : Z }.
(** __init__, timer.py:53-76 *)
Definition new_task (id : nat) (delay : Z) (exp : bool) (repeat : Z) : task :=
  {| k_id := id; k_delay := delay; k_exp := exp; k_repeat := repeat; k_rem := delay; k_factor := 0 |}.
(** tick, timer.py:85-109; [stop] is "self._stop_condition and self._stop_condition()"; the
    second component tells whether the method was called.  The method is taken to return. *)
Definition task_tick (stop : bool) (t : task) : task * bool :=
  let rem := k_rem t - 1 in
  if stop then
    ({| k_id := k_id t; k_delay := k_delay t; k_exp := k_exp t; k_repeat := k_repeat t; k_rem := 0; k_factor := k_factor t |}, false)
  else if negb (rem =? 0) then
    ({| k_id := k_id t; k_delay := k_delay t; k_exp := k_exp t; k_repeat := k_repeat t; k_rem := rem; k_factor := k_factor t |}, false)
  else if negb (k_repeat t =? 0) then
    ({| k_id := k_id t; k_delay := k_delay t; k_exp := k_exp t;
        k_repeat := if 0 <? k_repeat t then k_repeat t - 1 else k_repeat t;
        k_rem := if k_exp t then k_delay t * Z.shiftl 1 (k_factor t) else k_delay t;
        k_factor := k_factor t + 1 |}, true)
  else
    ({| k_id := k_id t; k_delay := k_delay t; k_exp := k_exp t; k_repeat := k_repeat t; k_rem := rem; k_factor := k_factor t |}, true).
Definition task_live (t : task) : bool := negb (k_rem t =? 0).
(** the task part of one tick, timer.py:159-164: the tasks left and the methods called *)
Definition tasks_tick (stops : nat -> bool) (l : list task) : list task * list nat :=
  (filter task_live (map (fun t => fst (task_tick (stops (k_id t)) t)) l),
   map k_id (filter (fun t => snd (task_tick (stops (k_id t)) t)) l)).

(** ** Ticks as atomic steps: calls of register_timer, register_method and ticks, in any order.
    A method that registers a timer during the task part of a tick is an [ORegTimer] after it. *)
Inductive timer_op := ORegTimer (name : string) (n : Z) | ORegTask (t : task) | OTick (stops : nat -> bool).
Record timer_st := { ti_timers : timers; ti_tasks : list task }.
Definition timer_do (o : timer_op) (s : timer_st) : timer_st * list nat :=
  match o with
  | ORegTimer name n => ({| ti_timers := timer_set name n (ti_timers s); ti_tasks := ti_tasks s |}, [])
  | ORegTask t => ({| ti_timers := ti_timers s; ti_tasks := ti_tasks s ++ [t] |}, [])
  | OTick stops => let (l, c) := tasks_tick stops (ti_tasks s) in
      ({| ti_timers := timers_tick (ti_timers s); ti_tasks := l |}, c)
  end.
Fixpoint timer_run (ops : list timer_op) (s : timer_st) : timer_st :=
  match ops with [] => s | o :: r => timer_run r (fst (timer_do o s)) end.

(** ** The thread, step by step, with registrations by other threads in between.
    timer.py:149-164.  CPython: a dict iterator raises RuntimeError when the size of the dict
    has changed; a list iterator looks at the current length; "d[name] -= 1" reads, then
    writes; a comprehension is finished before its result is assigned. *)
Inductive timer_pc :=
| PSleep
| PDec (i size : nat)                        (* about to fetch the i-th name *)
| PWrite (i size : nat) (name : string) (v : Z)   (* has read v for the i-th name *)
| PClean (i size : nat) (acc : timers)       (* in the dict comprehension *)
| PSetTimers (acc : timers)                  (* about to assign self._timers *)
| PTicks (i : nat)                           (* about to fetch the i-th task *)
| PCleanTasks (i : nat) (acc : list task)    (* in the list comprehension *)
| PSetTasks (acc : list task)                (* about to assign self._tasks *)
| PDead.                                     (* RuntimeError *)
Record timer_th := { th_pc : timer_pc; th_timers : timers; th_tasks : list task }.
Inductive timer_ev := EStep (stop : bool) | ERegTimer (name : string) (n : Z) | ERegTask (t : task).
Definition th_at (p : timer_pc) (s : timer_th) : timer_th := {| th_pc := p; th_timers := th_timers s; th_tasks := th_tasks s |}.
Fixpoint set_nth {A} (i : nat) (x : A) (l : list A) : list A :=
  match l, i with [], _ => [] | _ :: r, O => x :: r | y :: r, S i' => y :: set_nth i' x r end.
Definition th_step (stop : bool) (s : timer_th) : timer_th :=
  match th_pc s with
  | PSleep => th_at (PDec 0 (length (th_timers s))) s
  | PDec i size =>
      if negb (Nat.eqb (length (th_timers s)) size) then th_at PDead s
      else match nth_error (th_timers s) i with
           | Some (name, v) => th_at (PWrite i size name v) s
           | None => th_at (PClean 0 (length (th_timers s)) []) s
           end
  | PWrite i size name v =>
      {| th_pc := PDec (S i) size; th_timers := timer_set name (v - 1) (th_timers s); th_tasks := th_tasks s |}
  | PClean i size acc =>
      if negb (Nat.eqb (length (th_timers s)) size) then th_at PDead s
      else match nth_error (th_timers s) i with
           | Some kv => th_at (PClean (S i) size (if timer_live kv then acc ++ [kv] else acc)) s
           | None => th_at (PSetTimers acc) s
           end
  | PSetTimers acc => {| th_pc := PTicks 0; th_timers := acc; th_tasks := th_tasks s |}
  | PTicks i =>
      match nth_error (th_tasks s) i with
      | Some t => {| th_pc := PTicks (S i); th_timers := th_timers s; th_tasks := set_nth i (fst (task_tick stop t)) (th_tasks s) |}
      | None => th_at (PCleanTasks 0 []) s
      end
  | PCleanTasks i acc =>
      match nth_error (th_tasks s) i with
      | Some t => th_at (PCleanTasks (S i) (if task_live t then acc ++ [t] else acc)) s
      | None => th_at (PSetTasks acc) s
      end
  | PSetTasks acc => {| th_pc := PSleep; th_timers := th_timers s; th_tasks := acc |}
  | PDead => s
  end.
Definition th_do (e : timer_ev) (s : timer_th) : timer_th :=
  match e with
  | EStep stop => th_step stop s
  | ERegTimer name n => {| th_pc := th_pc s; th_timers := timer_set name n (th_timers s); th_tasks := th_tasks s |}
  | ERegTask t => {| th_pc := th_pc s; th_timers := th_timers s; th_tasks := th_tasks s ++ [t] |}
  end.
Fixpoint th_run (es : list timer_ev) (s : timer_th) : timer_th :=
  match es with [] => s | e :: r => th_run r (th_do e s) end.
