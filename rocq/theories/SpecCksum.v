(** Independent specification of the Internet checksum (RFC 1071): the 16-bit
    one's complement of the one's-complement sum of the 16-bit words. *)
From Verif Require Import Base.

(** Sum of the 16-bit big-endian words, an odd last byte being padded with a
    zero byte on the right (RFC 1071, section 1). *)
Fixpoint words16 (l : bytes) : Z :=
  match l with
  | [] => 0
  | [a] => 256 * a
  | a :: b :: r => 256 * a + b + words16 r
  end.

(** One's-complement value of a non-negative number on 16 bits: repeated
    end-around carry.  0 only for 0, otherwise the representative of x modulo
    65535 in 1..65535. *)
Definition ones_sum (x : Z) : Z :=
  if x =? 0 then 0 else (x - 1) mod 65535 + 1.

(** RFC 1071 checksum of a block to which [init] (a pseudo-header sum) is
    added. *)
Definition rfc1071 (data : bytes) (init : Z) : Z :=
  65535 - ones_sum (words16 data + init).

(** RFC 1071 verification: the one's-complement sum over the block including
    its checksum field is all ones. *)
Definition rfc1071_verifies (data : bytes) (init : Z) : Prop :=
  ones_sum (words16 data + init) = 65535.
