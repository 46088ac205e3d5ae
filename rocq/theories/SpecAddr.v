(** Specifications for addresses, masks and networks. *)
From Verif Require Import Base.

(** exactly one of the given conditions holds *)
Definition exactly_one (l : list bool) : Prop := length (filter (fun b => b) l) = 1%nat.

(** at most one of the given conditions holds *)
Definition at_most_one (l : list bool) : Prop := (length (filter (fun b => b) l) <= 1)%nat.

(** two n-bit addresses agree on their first k bits *)
Definition same_prefix (n k a b : Z) : Prop := a / 2 ^ (n - k) = b / 2 ^ (n - k).

(** the n-bit mask made of k ones followed by n-k zeros *)
Definition prefix_mask (n k : Z) : Z := 2 ^ n - 2 ^ (n - k).

(** 32-bit address from its dotted parts *)
Definition dot (a b c d : Z) : Z := ((a * 256 + b) * 256 + c) * 256 + d.

(** a is in the range lo..hi *)
Definition between (lo a hi : Z) : Prop := lo <= a <= hi.

(** value of a hexadecimal digit character (code point) *)
Inductive hex_char : Z -> Z -> Prop :=
| hex_09 : forall d, 0 <= d <= 9 -> hex_char (48 + d) d
| hex_af : forall d, 10 <= d <= 15 -> hex_char (97 + (d - 10)) d
| hex_AF : forall d, 10 <= d <= 15 -> hex_char (65 + (d - 10)) d.

(** a byte written with two hex digits *)
Definition hex_pair (t : list Z) (v : Z) : Prop :=
  exists c1 c2 d1 d2, t = [c1; c2] /\ hex_char c1 d1 /\ hex_char c2 d2 /\ v = 16 * d1 + d2.

(** separator ':' or '-' *)
Definition mac_sep (c : Z) : Prop := c = 58 \/ c = 45.

(** bytes written as hex pairs with separators in between *)
Inductive mac_text : list Z -> bytes -> Prop :=
| mt_one : forall t v, hex_pair t v -> mac_text t [v]
| mt_more : forall t v s r l,
    hex_pair t v -> mac_sep s -> mac_text r l -> mac_text (t ++ s :: r) (v :: l).
