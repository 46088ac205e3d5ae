(** Packet trackers, lib/tracker.py.  No proofs here.  Timestamps, [latency] and [__repr__]
    are left out; trackers made with serial=, tracker.py:63-65, occur in tests only. *)
From Verif Require Import Base.

Notation text := (list Z) (only parsing).

(** f"{n:0>4x}" in upper case, tracker.py:71,78 *)
Definition hex_up (d : Z) : Z := if d <? 10 then 48 + d else 55 + d.
Fixpoint hex_fuel (fuel : nat) (n : Z) : text :=
  match fuel with
  | O => []
  | S f => (if n <? 16 then [] else hex_fuel f (n / 16)) ++ [hex_up (n mod 16)]
  end.
Definition hex_num (n : Z) : text := hex_fuel (S (Z.to_nat (Z.log2 n))) n.
Definition fill4 (t : text) : text := repeat 48 (4 - length t) ++ t.
Inductive prefix := RX | TX.
(** the two serials, tracker.py:71 and 78: "<lg>RX....</>" and "<lr>TX....</>" *)
Definition serial_text (p : prefix) (n : Z) : text :=
  match p with RX => [60; 108; 103; 62; 82; 88] | TX => [60; 108; 114; 62; 84; 88] end
  ++ fill4 (hex_num n) ++ [60; 47; 62].

Inductive tracker := Track (serial : text) (echo : option tracker).
(** the class attributes serial_rx and serial_tx, tracker.py:47-48 *)
Record serials := { sr_rx : Z; sr_tx : Z }.
(** lines 72-74 and 79-81 *)
Definition next_serial (n : Z) : Z := if n + 1 >? 0xFFFF then 0 else n + 1.
(** Tracker.__init__, tracker.py:50-81, nothing else running *)
Definition new_tracker (p : prefix) (echo : option tracker) (s : serials) : serials * tracker :=
  match p with
  | RX => ({| sr_rx := next_serial (sr_rx s); sr_tx := sr_tx s |}, Track (serial_text RX (sr_rx s)) echo)
  | TX => ({| sr_rx := sr_rx s; sr_tx := next_serial (sr_tx s) |}, Track (serial_text TX (sr_tx s)) echo)
  end.
(** the trackers of a sequence of packets, none of them an echo *)
Fixpoint trackers (l : list prefix) (s : serials) : list tracker :=
  match l with
  | [] => []
  | p :: r => let (s', t) := new_tracker p None s in t :: trackers r s'
  end.
(** __str__, tracker.py:83-89 *)
Fixpoint tracker_str (t : tracker) : text :=
  match t with
  | Track s (Some e) => s ++ [32] ++ tracker_str e
  | Track s None => s
  end.

(** ** several threads *)
(** Tracker(prefix="TX") statement by statement, tracker.py:78-81: the serial is read for the
    text; the increment reads it and writes it; the test reads it; it may be set to 0 *)
Inductive tpc := PText | PLoad | PStore (v : Z) | PTest | PReset | PDone.
Record tthread := { th_pc : tpc; th_serial : option Z }.
Definition thread_step (n : Z) (t : tthread) : Z * tthread :=
  match th_pc t with
  | PText => (n, {| th_pc := PLoad; th_serial := Some n |})
  | PLoad => (n, {| th_pc := PStore n; th_serial := th_serial t |})
  | PStore v => (v + 1, {| th_pc := PTest; th_serial := th_serial t |})
  | PTest => (n, {| th_pc := if n >? 0xFFFF then PReset else PDone; th_serial := th_serial t |})
  | PReset => (0, {| th_pc := PDone; th_serial := th_serial t |})
  | PDone => (n, t)
  end.
Fixpoint set_nth {A} (i : nat) (x : A) (l : list A) : list A :=
  match l, i with
  | [], _ => []
  | _ :: r, O => x :: r
  | y :: r, S i => y :: set_nth i x r
  end.
(** the thread with number [i] takes a step *)
Definition sched_step (i : nat) (w : Z * list tthread) : Z * list tthread :=
  match nth_error (snd w) i with
  | Some t => let (n, t') := thread_step (fst w) t in (n, set_nth i t' (snd w))
  | None => w
  end.
Fixpoint sched (l : list nat) (w : Z * list tthread) : Z * list tthread :=
  match l with [] => w | i :: r => sched r (sched_step i w) end.
Definition fresh_thread : tthread := {| th_pc := PText; th_serial := None |}.
