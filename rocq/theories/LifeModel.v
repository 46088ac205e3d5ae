(** Starting and stopping the threads of the stack.  No proofs here.

    The six subsystems share one skeleton: start sets a flag and starts a thread, stop clears
    the flag, the thread tests the flag before each round.
    rx_ring.py:67-108, tx_ring.py:68-132, timer.py:125-166, arp_cache.py:80-142,
    nd_cache.py:85-147, packet_handler.py:189-204,294-305.  None of them waits for the thread
    to end; the sleeps of 0.1 s promise nothing about the other threads. *)
From Verif Require Import Base.

(** a thread: before the test, in a round, or ended *)
Inductive place := AtTest | InRound | Ended.
Record life := { l_run : bool; l_threads : list place; l_rounds : list nat }.
(** what happens: the flag is set, rx_ring.py:72; a thread starts, line 74; the flag is
    cleared, line 82; thread [i] tests the flag, line 92, or finishes its round *)
Inductive lop := LUp | LSpawn | LDown | LTurn (i : nat).
Fixpoint set_place (i : nat) (p : place) (l : list place) : list place :=
  match l, i with
  | [], _ => []
  | _ :: r, O => p :: r
  | q :: r, S i => q :: set_place i p r
  end.
Definition lstep (o : lop) (s : life) : life :=
  match o with
  | LUp => {| l_run := true; l_threads := l_threads s; l_rounds := l_rounds s |}
  | LDown => {| l_run := false; l_threads := l_threads s; l_rounds := l_rounds s |}
  | LSpawn => {| l_run := l_run s; l_threads := l_threads s ++ [AtTest]; l_rounds := l_rounds s |}
  | LTurn i =>
      match nth_error (l_threads s) i with
      | Some AtTest => {| l_run := l_run s;
          l_threads := set_place i (if l_run s then InRound else Ended) (l_threads s); l_rounds := l_rounds s |}
      | Some InRound => {| l_run := l_run s; l_threads := set_place i AtTest (l_threads s);
          l_rounds := l_rounds s ++ [i] |}
      | _ => s
      end
  end.
Fixpoint lrun (l : list lop) (s : life) : life := match l with [] => s | o :: r => lrun r (lstep o s) end.
(** a subsystem that has not been started *)
Definition idle : life := {| l_run := false; l_threads := []; l_rounds := [] |}.
(** start and stop *)
Definition start_ops : list lop := [LUp; LSpawn].
Definition stop_ops : list lop := [LDown].
