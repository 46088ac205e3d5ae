(** The texts Python's int() takes for a whole number in base ten: blanks, an
    optional sign, decimal digits with single underscores between them, blanks.
    ASCII texts only, and without the interpreter's limit on their length. *)
From Verif Require Import Base SpecIpText.

Definition blank (c : Z) : Prop := 9 <= c <= 13 \/ c = 32.

(** digits with single underscores (95) between them, and the digits alone *)
Inductive dig_groups : list Z -> list Z -> Prop :=
| dg_one m : m <> [] -> Forall dec_char m -> dig_groups m m
| dg_more m r ds : m <> [] -> Forall dec_char m -> dig_groups r ds ->
    dig_groups (m ++ 95 :: r) (m ++ ds).

(** "+" is 43, "-" is 45 *)
Definition int_text (t : list Z) (n : Z) : Prop :=
  exists a s u b ds v, t = a ++ s ++ u ++ b /\ Forall blank a /\ Forall blank b
    /\ dig_groups u ds /\ dec_num ds v
    /\ ((s = [] \/ s = [43]) /\ n = v \/ s = [45] /\ n = - v).
