(** What trackers and threads must satisfy. *)
From Verif Require Import Base TrackModel LifeModel.

(** ** trackers *)
(** four upper-case hexadecimal digits and their value *)
Definition hex_value (d : Z) (c : Z) : Prop := (c = 48 + d /\ 0 <= d <= 9) \/ (c = 65 + (d - 10) /\ 10 <= d <= 15).
Definition label (p : prefix) : list Z := match p with RX => [60; 108; 103; 62; 82; 88] | TX => [60; 108; 114; 62; 84; 88] end.
Definition shows (p : prefix) (n : Z) (t : list Z) : Prop :=
  exists a b c d x y z w, t = label p ++ [a; b; c; d] ++ [60; 47; 62] /\
    hex_value x a /\ hex_value y b /\ hex_value z c /\ hex_value w d /\ n = ((x * 16 + y) * 16 + z) * 16 + w.
(** how many packets of the kind came before *)
Definition prefix_eqb (p q : prefix) : bool := match p, q with RX, RX | TX, TX => true | _, _ => false end.
Definition before (p : prefix) (i : nat) (l : list prefix) : Z := Z.of_nat (length (filter (prefix_eqb p) (firstn i l))).
Definition serial_of (t : tracker) : list Z := match t with Track s _ => s end.
(** the packet, the one it answers, and so on *)
Fixpoint chain (t : tracker) : list (list Z) :=
  match t with Track s None => [s] | Track s (Some e) => s :: chain e end.
(** every serial of it was made by the constructor *)
Fixpoint made (t : tracker) : Prop :=
  match t with
  | Track s e => (exists p n, 0 <= n < 65536 /\ s = serial_text p n) /\ match e with Some e => made e | None => True end
  end.

(** ** threads *)
Definition turns (i : nat) (l : list lop) : nat := length (filter (fun o => match o with LTurn j => Nat.eqb i j | _ => false end) l).
Definition rounds_of (i : nat) (s : life) : nat := length (filter (Nat.eqb i) (l_rounds s)).
Definition alive (s : life) : nat := length (filter (fun p => match p with Ended => false | _ => true end) (l_threads s)).
