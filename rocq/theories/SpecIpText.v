(** What the text forms of addresses mean: RFC 4291 section 2.2 for IPv6, four
    decimal octets for IPv4.  Written as relations between a text (code points)
    and a number, without reference to any parser or printer. *)
From Verif Require Import Base.

(** a hexadecimal digit and its value *)
Definition hex_char (c d : Z) : Prop :=
  (48 <= c <= 57 /\ d = c - 48) \/ (97 <= c <= 102 /\ d = c - 87)
  \/ (65 <= c <= 70 /\ d = c - 55).
(** a decimal digit *)
Definition dec_char (c : Z) : Prop := 48 <= c <= 57.

(** a sequence of digits and the number it denotes *)
Inductive hex_num : list Z -> Z -> Prop :=
| hex_none : hex_num [] 0
| hex_more t v c d : hex_num t v -> hex_char c d -> hex_num (t ++ [c]) (v * 16 + d).
Inductive dec_num : list Z -> Z -> Prop :=
| dec_none : dec_num [] 0
| dec_more t v c : dec_num t v -> dec_char c -> dec_num (t ++ [c]) (v * 10 + (c - 48)).

(** a decimal octet without leading zeros *)
Definition octet (t : list Z) (v : Z) : Prop :=
  dec_num t v /\ t <> [] /\ 0 <= v <= 255 /\ forall u, t = 48 :: u -> u = [].

(** four octets joined by dots (46) *)
Definition quad (t : list Z) (v : Z) : Prop :=
  exists t1 t2 t3 t4 a b c d,
    octet t1 a /\ octet t2 b /\ octet t3 c /\ octet t4 d
    /\ t = t1 ++ 46 :: t2 ++ 46 :: t3 ++ 46 :: t4
    /\ v = a * 16777216 + b * 65536 + c * 256 + d.

(** a group of one to four hexadecimal digits *)
Definition group (t : list Z) (v : Z) : Prop := hex_num t v /\ 1 <= zlen t <= 4.

(** one or more groups joined by colons (58), and their values *)
Inductive groups : list Z -> list Z -> Prop :=
| groups_one t v : group t v -> groups t [v]
| groups_more t v u vs : group t v -> groups u vs -> groups (t ++ 58 :: u) (v :: vs).

(** the same with the last two values possibly written as an IPv4 address *)
Inductive tail6 : list Z -> list Z -> Prop :=
| tail_groups t vs : groups t vs -> tail6 t vs
| tail_quad t v : quad t v -> tail6 t [v / 65536; v mod 65536]
| tail_both t vs u v :
    groups t vs -> quad u v -> tail6 (t ++ 58 :: u) (vs ++ [v / 65536; v mod 65536]).

(** the number made of 16-bit values *)
Definition words_val (ws : list Z) : Z := fold_left (fun acc w => acc * 65536 + w) ws 0.

(** RFC 4291: eight values, or at most seven with "::" in place of the
    missing zeros *)
Definition denotes6 (t : list Z) (v : Z) : Prop :=
  (exists ws, tail6 t ws /\ zlen ws = 8 /\ v = words_val ws)
  \/ (exists l r lw rw,
        t = l ++ 58 :: 58 :: r
        /\ (l = [] /\ lw = [] \/ groups l lw) /\ (r = [] /\ rw = [] \/ tail6 r rw)
        /\ zlen lw + zlen rw <= 7
        /\ v = words_val (lw ++ repeat 0 (8 - length lw - length rw) ++ rw)).

(** six groups and an IPv4 address *)
Definition six_and_quad (t : list Z) : Prop :=
  exists l lw q v, groups l lw /\ zlen lw = 6 /\ quad q v /\ t = l ++ 58 :: q.

(** only decimal digits and dots, and no digit after a 0 that begins a number *)
Definition plain4 (t : list Z) : Prop :=
  Forall (fun c => dec_char c \/ c = 46) t
  /\ forall a b c, t = a ++ 48 :: c :: b -> dec_char c -> exists a' e, a = a' ++ [e] /\ dec_char e.

(** the addresses of version 6 or 4, and their length in bits *)
Definition ip_range (v6 : bool) (a : Z) : Prop := 0 <= a < 2 ^ (if v6 then 128 else 32).
Definition width (v6 : bool) : nat := if v6 then 128%nat else 32%nat.

(** no "/" (47) inside *)
Definition no_slash (t : list Z) : Prop := Forall (fun c => c <> 47) t.
