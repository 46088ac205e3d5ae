(** What the TCP echo client promises. *)
From Verif Require Import Base.

Definition is_digit (d : Z) : Prop := 48 <= d <= 57.
Definition reads_as (t : bytes) : Z := fold_left (fun a d => 10 * a + (d - 48)) t 0.
(** the block of number k: its number, in at least five decimal digits *)
Definition block (k : Z) (b : bytes) : Prop :=
  exists t, b = [91; 45; 45; 45; 45; 45; 45] ++ t ++ [45; 45; 45; 45; 45; 45; 93; 32] /\
    Forall is_digit t /\ (5 <= length t)%nat /\ (k < 100000 -> length t = 5%nat) /\ reads_as t = k.
(** "[------START------] ", the blocks 1, 2, ..., and "[-------END-------]\n" *)
Definition message_of (size : Z) (m : bytes) : Prop :=
  exists bs, m = [91; 45; 45; 45; 45; 45; 45; 83; 84; 65; 82; 84; 45; 45; 45; 45; 45; 45; 93; 32] ++ concat bs ++
                 [91; 45; 45; 45; 45; 45; 45; 45; 69; 78; 68; 45; 45; 45; 45; 45; 45; 45; 93; 10] /\
    length bs = Z.to_nat (size - 2) /\ forall i b, nth_error bs i = Some b -> block (Z.of_nat i + 1) b.
