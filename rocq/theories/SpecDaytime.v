(** What a TCP daytime service promises its client. *)
From Verif Require Import Base AddrModel TcpModel StackModel StackRxModel SessModel SpecSess EchoTcpModel SpecEchoTcp DaytimeModel.

Definition line (t : bytes) : bytes := t ++ [10].
(** [a] is [b] with some of its elements left out *)
Inductive part_of {A : Type} : list A -> list A -> Prop :=
| po_nil : part_of [] []
| po_take x a b : part_of a b -> part_of (x :: a) (x :: b)
| po_skip x a b : part_of a b -> part_of a (x :: b).
(** what the clock said at the steps of the thread *)
Fixpoint clocks (es : list day_ev) : list bytes :=
  match es with [] => [] | DThread t :: r => t :: clocks r | _ :: r => clocks r end.
(** written so far: nothing, or the greeting and the times [ts], one per line *)
Definition told (ts : list bytes) (s : day) : Prop :=
  match y_at s with
  | DGreet | DDied _ => ts = [] /\ c_written (y_conn s) = []
  | _ => c_written (y_conn s) = hello ++ concat (map line ts)
  end.
Definition accepts (c : conn) : Prop := In (st (c_sess c)) [ESTABLISHED; CLOSE_WAIT].
(** every segment satisfies [P] when it arrives *)
Fixpoint day_segments (P : tmd -> conn -> Prop) (es : list day_ev) (s : day) : Prop :=
  match es with
  | [] => True
  | e :: r => match e with DSegment p => P p (y_conn s) | _ => True end /\ day_segments P r (day_do e s)
  end.
