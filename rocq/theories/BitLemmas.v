(** Masks, shifts and disjoint unions as arithmetic. *)
From Verif Require Import BaseLemmas.

Lemma lor_add a b : Z.land a b = 0 -> Z.lor a b = a + b.
Proof. intros H. rewrite Z.add_nocarry_lxor by auto. symmetry. apply Z.lxor_lor; auto. Qed.

Lemma land_disjoint a b n : 0 <= n -> 0 <= b < 2 ^ n -> Z.land (a * 2 ^ n) b = 0.
Proof.
  intros Hn Hb. apply Z.bits_inj'. intros i Hi. rewrite Z.land_spec, Z.bits_0.
  destruct (Z.ltb_spec i n) as [L|L].
  - rewrite Z.mul_pow2_bits_low by lia. reflexivity.
  - rewrite <- (Z.mod_small b (2 ^ n)) by lia. rewrite Z.mod_pow2_bits_high by lia.
    apply andb_false_r.
Qed.

Lemma lor_shift a b n : 0 <= n -> 0 <= b < 2 ^ n -> Z.lor (a * 2 ^ n) b = a * 2 ^ n + b.
Proof. intros. apply lor_add, land_disjoint; auto. Qed.

(** keeping the bits from j to n-1 *)
Lemma land_high a n j :
  0 <= j <= n -> 0 <= a < 2 ^ n -> Z.land a (2 ^ n - 2 ^ j) = a - a mod 2 ^ j.
Proof.
  intros Hj Ha.
  replace (2 ^ n - 2 ^ j) with (Z.ldiff (2 ^ n - 1) (2 ^ j - 1)).
  - replace (2 ^ n - 1) with (Z.ones n) by (rewrite Z.ones_equiv; lia).
    replace (2 ^ j - 1) with (Z.ones j) by (rewrite Z.ones_equiv; lia).
    replace (Z.land a (Z.ldiff (Z.ones n) (Z.ones j))) with (Z.ldiff a (Z.ones j)).
    + rewrite Z.ldiff_ones_r by lia. rewrite Z.shiftl_mul_pow2, Z.shiftr_div_pow2 by lia.
      pose proof (Z.div_mod a (2 ^ j) ltac:(lia)). lia.
    + apply Z.bits_inj'. intros i Hi. rewrite Z.land_spec, !Z.ldiff_spec.
      destruct (Z.ltb_spec i n) as [L|L].
      * rewrite (Z.ones_spec_low n) by lia. destruct (Z.testbit a i); reflexivity.
      * rewrite <- (Z.mod_small a (2 ^ n)) by lia. rewrite Z.mod_pow2_bits_high by lia. reflexivity.
  - replace (2 ^ n - 1) with (Z.ones n) by (rewrite Z.ones_equiv; lia).
    replace (2 ^ j - 1) with (Z.ones j) by (rewrite Z.ones_equiv; lia).
    rewrite Z.ldiff_ones_r by lia. rewrite Z.shiftl_mul_pow2, Z.shiftr_div_pow2 by lia.
    rewrite Z.ones_equiv.
    assert (E : 2 ^ n = 2 ^ (n - j) * 2 ^ j) by (rewrite <- Z.pow_add_r by lia; f_equal; lia).
    assert (0 < 2 ^ j) by (apply Z.pow_pos_nonneg; lia).
    replace (Z.pred (2 ^ n)) with ((2 ^ (n - j) - 1) * 2 ^ j + (2 ^ j - 1)) by lia.
    rewrite Z.div_add_l by lia. rewrite (Z.div_small (2 ^ j - 1)) by lia. lia.
Qed.

Lemma land_ones_eq a n : 0 <= n -> (Z.land a (2 ^ n - 1) = a <-> 0 <= a < 2 ^ n).
Proof.
  intros Hn. rewrite land_ones' by auto.
  assert (0 < 2 ^ n) by (apply Z.pow_pos_nonneg; lia).
  split; intros E; [|apply Z.mod_small; auto].
  rewrite <- E. apply Z.mod_pos_bound; auto.
Qed.

(** ** bits of a*2^n + r *)
Lemma testbit_split a r n i : 0 <= n -> 0 <= r < 2 ^ n -> 0 <= i ->
  Z.testbit (a * 2 ^ n + r) i = if i <? n then Z.testbit r i else Z.testbit a (i - n).
Proof.
  intros Hn Hr Hi. rewrite <- lor_shift by auto. rewrite Z.lor_spec.
  destruct (Z.ltb_spec i n) as [L|L].
  - rewrite Z.mul_pow2_bits_low by lia. reflexivity.
  - rewrite Z.mul_pow2_bits by lia.
    rewrite <- (Z.mod_small r (2 ^ n)) by lia. rewrite Z.mod_pow2_bits_high by lia.
    apply orb_false_r.
Qed.
Lemma lxor_shift a b r n : 0 <= n -> 0 <= r < 2 ^ n ->
  Z.lxor (a * 2 ^ n + r) (b * 2 ^ n) = Z.lxor a b * 2 ^ n + r.
Proof.
  intros Hn Hr. apply Z.bits_inj'. intros i Hi. rewrite Z.lxor_spec.
  rewrite !testbit_split by auto.
  replace (b * 2 ^ n) with (b * 2 ^ n + 0) by lia.
  rewrite testbit_split by lia.
  destruct (i <? n); [rewrite Z.bits_0; apply xorb_false_r|]. rewrite Z.lxor_spec. reflexivity.
Qed.
Lemma land_shift a b r s n : 0 <= n -> 0 <= r < 2 ^ n -> 0 <= s < 2 ^ n ->
  Z.land (a * 2 ^ n + r) (b * 2 ^ n + s) = Z.land a b * 2 ^ n + Z.land r s.
Proof.
  intros Hn Hr Hs.
  assert (0 <= Z.land r s < 2 ^ n).
  { rewrite <- (Z.mod_small r (2 ^ n)) by auto. rewrite <- (Z.mod_small s (2 ^ n)) by auto.
    rewrite <- !Z.land_ones by auto.
    replace (Z.land (Z.land r (Z.ones n)) (Z.land s (Z.ones n)))
      with (Z.land (Z.land r s) (Z.ones n)).
    - rewrite Z.land_ones by auto. apply Z.mod_pos_bound. lia.
    - apply Z.bits_inj'; intros; rewrite !Z.land_spec.
      destruct (Z.testbit r n0), (Z.testbit s n0), (Z.testbit (Z.ones n) n0); reflexivity. }
  apply Z.bits_inj'. intros i Hi. rewrite Z.land_spec.
  rewrite !testbit_split by auto. destruct (i <? n); rewrite Z.land_spec; reflexivity.
Qed.
