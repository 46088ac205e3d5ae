(** Model of pytcp/lib/ip_helper.py: inet_cksum. *)
From Verif Require Import Base.

(** sum(struct.unpack_from(f"!{n}Q", data)) resp. "!5L": the sum of the first n
    big-endian words of w bytes.  pytcp/lib/ip_helper.py L53-55 *)
Fixpoint word_sum (w : nat) (n : nat) (data : bytes) : Z :=
  match n with
  | O => 0
  | S n' => be (firstn w data) + word_sum w n' (skipn w data)
  end.

(** pytcp/lib/ip_helper.py L49-64: inet_cksum(data, init).
    data[-remainder:] is the last [remainder] bytes, remainder > 0. *)
Definition inet_cksum (data : bytes) (init : Z) : Z :=
  let dlen := zlen data in
  let c :=
    if dlen =? 20 then init + word_sum 4 5 data
    else
      let c0 := init + word_sum 8 (Z.to_nat (Z.shiftr dlen 3)) data in
      let remainder := Z.land dlen 7 in
      let c1 :=
        if negb (remainder =? 0)
        then c0 + Z.shiftl (be (slice_from (dlen - remainder) data))
                           (Z.shiftl (8 - remainder) 3)
        else c0 in
      Z.shiftr c1 64 + Z.land c1 18446744073709551615 in
  let c := Z.shiftr c 32 + Z.land c 4294967295 in
  let c := Z.shiftr c 16 + Z.land c 65535 in
  Z.land (Z.lnot (c + Z.shiftr c 16)) 65535.
