(** Proofs about inet_cksum. *)
From Verif Require Import BaseLemmas CksumModel SpecCksum.

(** x and y are the same one's-complement number *)
Definition oeq (x y : Z) : Prop :=
  0 <= x /\ 0 <= y /\ (x = 0 <-> y = 0) /\ exists k, x = y + 65535 * k.

Lemma oeq_refl x : 0 <= x -> oeq x x.
Proof. intros; repeat split; auto; exists 0; lia. Qed.
Lemma oeq_trans x y z : oeq x y -> oeq y z -> oeq x z.
Proof.
  intros (?&?&?&k1&?) (?&?&?&k2&?); repeat split; try tauto.
  exists (k1 + k2); lia.
Qed.
Lemma oeq_sym x y : oeq x y -> oeq y x.
Proof. intros (?&?&?&k&?); repeat split; try tauto. exists (- k); lia. Qed.
Lemma oeq_add a b c d : oeq a b -> oeq c d -> oeq (a + c) (b + d).
Proof.
  intros (?&?&?&k1&?) (?&?&?&k2&?); split; [lia|]; split; [lia|]; split; [lia|].
  exists (k1 + k2); lia.
Qed.
Lemma oeq_ones x y : oeq x y -> ones_sum x = ones_sum y.
Proof.
  intros (Hx&Hy&Hz&k&E). unfold ones_sum.
  destruct (Z.eqb_spec x 0), (Z.eqb_spec y 0); try lia.
Qed.
Lemma ones_sum_range x : 0 <= x -> 0 <= ones_sum x <= 65535.
Proof. unfold ones_sum; intros; destruct (Z.eqb_spec x 0); lia. Qed.

(** 256^(2k) = 1 + 65535*j with j >= 0 *)
Lemma pow_even k : exists j, 0 <= j /\ 256 ^ (2 * Z.of_nat k) = 1 + 65535 * j.
Proof.
  induction k as [|k (j & Hj & E)].
  - exists 0; split; [lia|reflexivity].
  - exists (1 + 65536 * j). split; [lia|].
    replace (2 * Z.of_nat (S k)) with (2 + 2 * Z.of_nat k) by lia.
    rewrite Z.pow_add_r by lia. rewrite E. change (256 ^ 2) with 65536. lia.
Qed.

Lemma words16_nonneg l : wf_bytes l -> 0 <= words16 l.
Proof.
  revert l. fix IH 1. intros [|a [|b r]] H; cbn [words16].
  - lia.
  - inversion H as [|? ? Ha _]; subst. unfold is_byte in Ha. lia.
  - inversion H as [|? ? Ha H']; subst. inversion H' as [|? ? Hb Hr]; subst.
    specialize (IH r Hr). unfold is_byte in *. lia.
Qed.

Lemma be_words16 k l : length l = (2 * k)%nat -> wf_bytes l -> oeq (be l) (words16 l).
Proof.
  revert l; induction k as [|k IH]; intros l L H.
  - destruct l; [|cbn in L; lia]. cbn. apply oeq_refl; lia.
  - destruct l as [|a [|b r]]; try (cbn in L; lia).
    inversion H as [|? ? Ha H']; subst. inversion H' as [|? ? Hb Hr]; subst.
    unfold is_byte in *.
    rewrite be_cons, be_cons, zlen_cons. cbn [words16].
    assert (Lr : length r = (2 * k)%nat) by (cbn in L; lia).
    specialize (IH r Lr Hr).
    unfold zlen. rewrite Lr. replace (Z.of_nat (2 * k)) with (2 * Z.of_nat k) by lia.
    rewrite Z.pow_add_r by lia. change (256 ^ 1) with 256.
    destruct (pow_even k) as (j & Hj & E). rewrite E.
    replace (a * (256 * (1 + 65535 * j)) + (b * (1 + 65535 * j) + be r))
      with ((256 * a + b) * (1 + 65535 * j) + be r) by lia.
    apply oeq_add; [|exact IH].
    split; [nia|]. split; [lia|]. split; [nia|]. exists ((256 * a + b) * j). lia.
Qed.

Lemma words16_app a b k : length a = (2 * k)%nat -> words16 (a ++ b) = words16 a + words16 b.
Proof.
  revert a; induction k as [|k IH]; intros a L.
  - destruct a; [|cbn in L; lia]. cbn. lia.
  - destruct a as [|x [|y r]]; try (cbn in L; lia).
    cbn [app words16]. rewrite IH by (cbn in L; lia). lia.
Qed.

Lemma words16_zeros n : words16 (repeat 0 n) = 0.
Proof.
  assert (forall k, words16 (repeat 0 (2 * k)) = 0 /\ words16 (repeat 0 (S (2 * k))) = 0) as H.
  { induction k as [|k [IH1 IH2]]; [split; reflexivity|].
    replace (2 * S k)%nat with (S (S (2 * k))) by lia.
    cbn [repeat words16]. cbn [repeat] in IH2. split; [lia|]. exact IH2. }
  destruct (Nat.Even_or_Odd n) as [[k ->]|[k ->]]; [apply H|].
  replace (2 * k + 1)%nat with (S (2 * k)) by lia. apply H.
Qed.

Lemma words16_pad l n : words16 (l ++ repeat 0 n) = words16 l.
Proof.
  destruct (Nat.Even_or_Odd (length l)) as [[k E]|[k E]].
  - rewrite (words16_app _ _ k) by auto. rewrite words16_zeros. lia.
  - destruct n; [cbn; rewrite app_nil_r; auto|].
    assert (exists a x, l = a ++ [x] /\ length a = (2 * k)%nat) as (a & x & -> & La).
    { destruct (exists_last (l := l)) as (a & x & ->).
      - intros ->; cbn in E; lia.
      - exists a, x; split; auto. rewrite app_length in E; cbn in E; lia. }
    rewrite <- app_assoc. rewrite (words16_app a ([x] ++ _) k), (words16_app a [x] k) by auto.
    cbn [repeat app words16]. rewrite words16_zeros. lia.
Qed.

Lemma be_pad l n : be (l ++ repeat 0 n) = be l * 256 ^ Z.of_nat n.
Proof.
  rewrite be_app. unfold zlen; rewrite repeat_length.
  assert (be (repeat 0 n) = 0) as ->.
  { induction n; [reflexivity|]. cbn [repeat]. rewrite be_cons, IHn. lia. }
  lia.
Qed.

Lemma word_sum_words16 w k n data :
  w = (2 * k)%nat -> (n * w <= length data)%nat -> wf_bytes data ->
  oeq (word_sum w n data) (words16 (firstn (n * w) data)).
Proof.
  intros Hw. revert data; induction n as [|n IH]; intros data L H.
  - cbn. apply oeq_refl; lia.
  - cbn [word_sum]. replace (S n * w)%nat with (w + n * w)%nat by lia.
    rewrite <- (firstn_skipn w data) at 3.
    rewrite firstn_app, firstn_firstn.
    replace (Nat.min (w + n * w) w) with w by lia.
    rewrite firstn_length. replace (Nat.min w (length data)) with w by lia.
    replace (w + n * w - w)%nat with (n * w)%nat by lia.
    rewrite (words16_app _ _ k) by (rewrite firstn_length; lia).
    apply oeq_add.
    + apply (be_words16 k); [rewrite firstn_length; lia | apply wf_firstn; auto].
    + apply IH; [rewrite skipn_length; lia | apply wf_skipn; auto].
Qed.

(** the end-around-carry folds *)
Lemma fold_oeq x n : 0 <= x ->
  (exists j, 0 <= j /\ 2 ^ n = 1 + 65535 * j) -> 0 < n ->
  oeq (Z.shiftr x n + Z.land x (2 ^ n - 1)) x.
Proof.
  intros Hx (j & Hj & E) Hn. rewrite Z.shiftr_div_pow2, land_ones' by lia.
  assert (Hp : 0 < 2 ^ n) by lia.
  assert (1 < 2 ^ n) by (apply Z.pow_gt_1; lia).
  pose proof (Z.div_mod x (2 ^ n) ltac:(lia)) as D.
  pose proof (Z.mod_pos_bound x (2 ^ n) Hp) as M.
  assert (0 <= x / 2 ^ n) by (apply Z.div_pos; lia).
  set (q := x / 2 ^ n) in *. set (r := x mod 2 ^ n) in *. rewrite E in *.
  split; [lia|]. split; [lia|]. split; [nia|]. exists (- j * q). nia.
Qed.

Lemma pow16_1 : exists j, 0 <= j /\ 2 ^ 16 = 1 + 65535 * j.
Proof. exists 1; split; [lia|reflexivity]. Qed.
Lemma pow32_1 : exists j, 0 <= j /\ 2 ^ 32 = 1 + 65535 * j.
Proof. exists 65537; split; [lia|reflexivity]. Qed.
Lemma pow64_1 : exists j, 0 <= j /\ 2 ^ 64 = 1 + 65535 * j.
Proof. exists 281479271743489; split; [lia|reflexivity]. Qed.

(** inet_cksum is the last fold applied to [pre3]: the value after the
    16-bit fold *)
Definition cksum0 (data : bytes) (init : Z) : Z :=
  let dlen := zlen data in
  if dlen =? 20 then init + word_sum 4 5 data
  else
    let c0 := init + word_sum 8 (Z.to_nat (Z.shiftr dlen 3)) data in
    let remainder := Z.land dlen 7 in
    if negb (remainder =? 0)
    then c0 + Z.shiftl (be (slice_from (dlen - remainder) data))
                       (Z.shiftl (8 - remainder) 3)
    else c0.
Definition fold64 (data : bytes) (c : Z) : Z :=
  if zlen data =? 20 then c else Z.shiftr c 64 + Z.land c 18446744073709551615.
Definition fold32 (c : Z) : Z := Z.shiftr c 32 + Z.land c 4294967295.
Definition fold16 (c : Z) : Z := Z.shiftr c 16 + Z.land c 65535.
Definition pre3 (data : bytes) (init : Z) : Z :=
  fold16 (fold32 (fold64 data (cksum0 data init))).

Lemma inet_cksum_pre3 data init :
  inet_cksum data init
  = 65535 - (pre3 data init + pre3 data init / 65536) mod 65536.
Proof.
  assert (forall x, Z.land (Z.lnot x) 65535 = 65535 - x mod 65536) as L.
  { intros x. change 65535 with (2 ^ 16 - 1) at 1. rewrite land_ones' by lia.
    unfold Z.lnot. change (2 ^ 16) with 65536. lia. }
  unfold inet_cksum, pre3, fold16, fold32, fold64, cksum0.
  destruct (zlen data =? 20); rewrite L, !Z.shiftr_div_pow2 by lia; reflexivity.
Qed.

Lemma fold16_oeq x : 0 <= x -> oeq (fold16 x) x.
Proof.
  intros. unfold fold16. change 65535 with (2 ^ 16 - 1) at 1.
  apply fold_oeq; [auto|apply pow16_1|lia].
Qed.
Lemma fold32_oeq x : 0 <= x -> oeq (fold32 x) x.
Proof.
  intros. unfold fold32. change 4294967295 with (2 ^ 32 - 1).
  apply fold_oeq; [auto|apply pow32_1|lia].
Qed.
Lemma fold64_oeq d x : 0 <= x -> oeq (fold64 d x) x.
Proof.
  intros. unfold fold64. destruct (zlen d =? 20); [apply oeq_refl; auto|].
  change 18446744073709551615 with (2 ^ 64 - 1).
  apply fold_oeq; [auto|apply pow64_1|lia].
Qed.

Lemma cksum0_oeq data init :
  wf_bytes data -> 0 <= init -> oeq (cksum0 data init) (words16 data + init).
Proof.
  intros H Hi. unfold cksum0.
  destruct (Z.eqb_spec (zlen data) 20) as [L|L].
  - rewrite Z.add_comm. apply oeq_add; [|apply oeq_refl; auto].
    assert (length data = 20%nat) by (unfold zlen in L; lia).
    pose proof (word_sum_words16 4 2 5 data eq_refl) as W.
    rewrite firstn_all2 in W by lia. apply W; auto; lia.
  - change 7 with (2 ^ 3 - 1). rewrite land_ones' by lia.
    rewrite Z.shiftr_div_pow2 by lia. change (2 ^ 3) with 8.
    set (d := zlen data) in *. assert (0 <= d) by apply zlen_nonneg.
    assert (Ld : length data = Z.to_nat d) by (unfold d, zlen; lia).
    set (n := Z.to_nat (d / 8)).
    assert (W := word_sum_words16 8 4 n data eq_refl ltac:(lia) H).
    destruct (Z.eqb_spec (d mod 8) 0) as [R|R]; cbn [negb].
    + rewrite Z.add_comm. apply oeq_add; [|apply oeq_refl; auto].
      rewrite firstn_all2 in W by lia. exact W.
    + rewrite Z.shiftl_mul_pow2 by (rewrite Z.shiftl_mul_pow2 by lia; lia).
      rewrite Z.shiftl_mul_pow2 by lia. change (2 ^ 3) with 8.
      replace (2 ^ ((8 - d mod 8) * 8)) with (256 ^ Z.of_nat (Z.to_nat (8 - d mod 8))).
      2:{ rewrite Z2Nat.id by lia. change 256 with (2 ^ 8).
          rewrite <- Z.pow_mul_r by lia. f_equal; lia. }
      rewrite <- be_pad.
      replace (d - d mod 8) with (Z.of_nat (n * 8)) by lia.
      unfold slice_from. rewrite Nat2Z.id.
      replace (words16 data + init)
        with (init + words16 (firstn (n * 8) data) + words16 (skipn (n * 8) data)).
      2:{ rewrite <- (firstn_skipn (n * 8) data) at 3.
          rewrite (words16_app _ _ (n * 4)) by (rewrite firstn_length; lia). lia. }
      apply oeq_add; [apply oeq_add; [apply oeq_refl; auto|exact W]|].
      rewrite <- (words16_pad _ (Z.to_nat (8 - d mod 8))).
      apply (be_words16 4).
      * rewrite app_length, skipn_length, repeat_length. lia.
      * apply wf_app; split; [apply wf_skipn; auto|].
        apply Forall_forall. intros x Hx. apply repeat_spec in Hx. subst. unfold is_byte; lia.
Qed.

Lemma pre3_oeq data init :
  wf_bytes data -> 0 <= init -> oeq (pre3 data init) (words16 data + init).
Proof.
  intros H Hi. pose proof (cksum0_oeq data init H Hi) as O0.
  unfold pre3. set (c := cksum0 data init) in *. clearbody c.
  assert (O1 : oeq (fold64 data c) (words16 data + init)).
  { eapply oeq_trans; [|exact O0]. apply fold64_oeq, O0. }
  assert (O2 : oeq (fold32 (fold64 data c)) (words16 data + init)).
  { eapply oeq_trans; [|exact O1]. apply fold32_oeq, O1. }
  eapply oeq_trans; [|exact O2]. apply fold16_oeq, O2.
Qed.

(** bounds *)
Lemma word_sum_bound w n data :
  wf_bytes data -> 0 <= word_sum w n data <= Z.of_nat n * (256 ^ Z.of_nat w - 1).
Proof.
  revert data; induction n as [|n IH]; intros data H; cbn [word_sum]; [lia|].
  specialize (IH _ (wf_skipn w data H)).
  pose proof (be_bound _ (wf_firstn w data H)) as B.
  assert (256 ^ zlen (firstn w data) <= 256 ^ Z.of_nat w).
  { apply Z.pow_le_mono_r; [lia|]. unfold zlen. rewrite firstn_length. lia. }
  nia.
Qed.

Lemma cksum0_bound data init :
  wf_bytes data -> 0 <= init < 2 ^ 67 -> zlen data < 2 ^ 32 ->
  0 <= cksum0 data init < 2 ^ 67 + (if zlen data =? 20 then 2 ^ 35 else 2 ^ 93 + 2 ^ 64).
Proof.
  intros H Hi Hl. unfold cksum0.
  destruct (Z.eqb_spec (zlen data) 20) as [L|L].
  - pose proof (word_sum_bound 4 5 data H) as B.
    change (256 ^ Z.of_nat 4) with (2 ^ 32) in B. lia.
  - change 7 with (2 ^ 3 - 1). rewrite land_ones' by lia.
    rewrite Z.shiftr_div_pow2 by lia. change (2 ^ 3) with 8.
    set (d := zlen data) in *. assert (0 <= d) by apply zlen_nonneg.
    pose proof (word_sum_bound 8 (Z.to_nat (d / 8)) data H) as B.
    change (256 ^ Z.of_nat 8) with (2 ^ 64) in B.
    assert (Bn : 0 <= Z.of_nat (Z.to_nat (d / 8)) <= 2 ^ 29) by lia.
    assert (Bw : 0 <= word_sum 8 (Z.to_nat (d / 8)) data <= 2 ^ 29 * (2 ^ 64 - 1)) by nia.
    destruct (Z.eqb_spec (d mod 8) 0) as [R|R]; cbn [negb]; [lia|].
    rewrite Z.shiftl_mul_pow2 by (rewrite Z.shiftl_mul_pow2 by lia; lia).
    rewrite Z.shiftl_mul_pow2 by lia. change (2 ^ 3) with 8.
    replace (2 ^ ((8 - d mod 8) * 8)) with (256 ^ Z.of_nat (Z.to_nat (8 - d mod 8))).
    2:{ rewrite Z2Nat.id by lia. change 256 with (2 ^ 8).
        rewrite <- Z.pow_mul_r by lia. f_equal; lia. }
    rewrite <- be_pad.
    set (t := slice_from (d - d mod 8) data ++ repeat 0 (Z.to_nat (8 - d mod 8))).
    assert (wf_bytes t).
    { apply wf_app; split; [apply wf_slice_from; auto|].
      apply Forall_forall. intros x Hx. apply repeat_spec in Hx. subst. unfold is_byte; lia. }
    pose proof (be_bound t ltac:(auto)) as Bt.
    replace (zlen t) with 8 in Bt.
    2:{ unfold t. rewrite zlen_app, zlen_slice_from by (unfold d in *; lia).
        unfold zlen at 2. rewrite repeat_length. unfold d in *. lia. }
    change (256 ^ 8) with (2 ^ 64) in Bt. lia.
Qed.

Lemma fold_div c n : 0 < n -> Z.shiftr c n + Z.land c (2 ^ n - 1) = c / 2 ^ n + c mod 2 ^ n.
Proof. intros. rewrite Z.shiftr_div_pow2, land_ones' by lia. reflexivity. Qed.

Lemma fold64_bound data c : zlen data =? 20 = false ->
  0 <= c < 2 ^ 67 + (2 ^ 93 + 2 ^ 64) -> 0 <= fold64 data c < 2 ^ 64 + 2 ^ 30.
Proof.
  intros L Hc. unfold fold64. rewrite L.
  change 18446744073709551615 with (2 ^ 64 - 1). rewrite fold_div by lia.
  assert (0 <= c / 2 ^ 64 <= 2 ^ 29 + 9).
  { split; [apply Z.div_pos; lia|]. apply Z.lt_succ_r. apply Z.div_lt_upper_bound; lia. }
  pose proof (Z.mod_pos_bound c (2 ^ 64) ltac:(lia)). lia.
Qed.

Lemma fold32_bound c : 0 <= c < 2 ^ 64 + 2 ^ 30 -> 0 <= fold32 c <= 2 ^ 33 - 2.
Proof.
  intros Hc. unfold fold32. change 4294967295 with (2 ^ 32 - 1). rewrite fold_div by lia. lia.
Qed.
Lemma fold32_bound20 c : 0 <= c < 2 ^ 67 + 2 ^ 35 -> 0 <= fold32 c <= 2 ^ 36.
Proof.
  intros Hc. unfold fold32. change 4294967295 with (2 ^ 32 - 1). rewrite fold_div by lia. lia.
Qed.
Lemma fold16_bound c : 0 <= c <= 2 ^ 33 - 2 -> 0 <= fold16 c <= 196605.
Proof.
  intros Hc. unfold fold16. change 65535 with (2 ^ 16 - 1). rewrite fold_div by lia. lia.
Qed.
Lemma fold16_bound20 c : 0 <= c <= 2 ^ 36 -> 0 <= fold16 c < 2 ^ 21.
Proof.
  intros Hc. unfold fold16. change 65535 with (2 ^ 16 - 1). rewrite fold_div by lia. lia.
Qed.

Lemma pre3_bound data init :
  wf_bytes data -> 0 <= init < 2 ^ 67 -> zlen data < 2 ^ 32 ->
  0 <= pre3 data init < 2 ^ 21.
Proof.
  intros H Hi Hl. pose proof (cksum0_bound data init H Hi Hl) as B. unfold pre3.
  destruct (zlen data =? 20) eqn:L.
  - apply fold16_bound20, fold32_bound20. unfold fold64. rewrite L. exact B.
  - pose proof (fold16_bound _ (fold32_bound _ (fold64_bound data _ L B))). lia.
Qed.
Lemma pre3_bound_not20 data init :
  wf_bytes data -> 0 <= init < 2 ^ 67 -> zlen data < 2 ^ 32 -> zlen data <> 20 ->
  0 <= pre3 data init <= 196605.
Proof.
  intros H Hi Hl L'. pose proof (cksum0_bound data init H Hi Hl) as B. unfold pre3.
  destruct (zlen data =? 20) eqn:L; [lia|].
  exact (fold16_bound _ (fold32_bound _ (fold64_bound data _ L B))).
Qed.
Lemma pre3_bound_20 data init :
  wf_bytes data -> 0 <= init < 2 ^ 34 -> zlen data = 20 ->
  0 <= pre3 data init <= 131070.
Proof.
  intros H Hi L. unfold pre3, fold64, cksum0. rewrite L.
  change (20 =? 20) with true. cbv iota.
  pose proof (word_sum_bound 4 5 data H) as B.
  change (256 ^ Z.of_nat 4) with (2 ^ 32) in B.
  set (c := init + word_sum 4 5 data) in *.
  assert (0 <= c < 9 * 2 ^ 32) by lia. clearbody c.
  unfold fold16, fold32. change 65535 with (2 ^ 16 - 1). change 4294967295 with (2 ^ 32 - 1).
  rewrite !fold_div by lia.
  assert (0 <= c / 2 ^ 32 <= 8) by lia.
  assert (0 <= c mod 2 ^ 32 <= 4294967295) by lia.
  set (d := c / 2 ^ 32 + c mod 2 ^ 32) in *.
  assert (0 <= d <= 4294967303) by lia. clearbody d. clear - H3. lia.
Qed.

(** C01 *)
Lemma cksum_verify data init :
  wf_bytes data -> 0 <= init < 2 ^ 67 -> zlen data < 2 ^ 32 ->
  (inet_cksum data init = 0 <-> rfc1071_verifies data init).
Proof.
  intros H Hi Hl. rewrite inet_cksum_pre3. unfold rfc1071_verifies.
  rewrite <- (oeq_ones _ _ (pre3_oeq data init H ltac:(lia))).
  pose proof (pre3_bound data init H Hi Hl) as B.
  set (c := pre3 data init) in *. clearbody c.
  unfold ones_sum. destruct (Z.eqb_spec c 0); lia.
Qed.

(** generation: exact up to one wrong end-around carry *)
Lemma cksum_gen data init :
  wf_bytes data -> 0 <= init < 2 ^ 67 -> zlen data < 2 ^ 32 ->
  inet_cksum data init = rfc1071 data init \/
  (inet_cksum data init = rfc1071 data init + 1 /\ 65503 < rfc1071 data init < 65535).
Proof.
  intros H Hi Hl. rewrite inet_cksum_pre3. unfold rfc1071.
  rewrite <- (oeq_ones _ _ (pre3_oeq data init H ltac:(lia))).
  pose proof (pre3_bound data init H Hi Hl) as B.
  set (c := pre3 data init) in *. clearbody c.
  unfold ones_sum. destruct (Z.eqb_spec c 0); lia.
Qed.
Lemma cksum_gen_not20 data init :
  wf_bytes data -> 0 <= init < 2 ^ 67 -> zlen data < 2 ^ 32 -> zlen data <> 20 ->
  rfc1071 data init <> 65534 -> inet_cksum data init = rfc1071 data init.
Proof.
  intros H Hi Hl L. rewrite inet_cksum_pre3. unfold rfc1071.
  rewrite <- (oeq_ones _ _ (pre3_oeq data init H ltac:(lia))).
  pose proof (pre3_bound_not20 data init H Hi Hl L) as B.
  set (c := pre3 data init) in *. clearbody c.
  unfold ones_sum. destruct (Z.eqb_spec c 0); lia.
Qed.
Lemma cksum_gen_20 data init :
  wf_bytes data -> 0 <= init < 2 ^ 34 -> zlen data = 20 ->
  inet_cksum data init = rfc1071 data init.
Proof.
  intros H Hi L. rewrite inet_cksum_pre3. unfold rfc1071.
  rewrite <- (oeq_ones _ _ (pre3_oeq data init H ltac:(lia))).
  pose proof (pre3_bound_20 data init H Hi L) as B.
  set (c := pre3 data init) in *. clearbody c.
  unfold ones_sum. destruct (Z.eqb_spec c 0); lia.
Qed.

Lemma rfc1071_range data init : wf_bytes data -> 0 <= init -> 0 <= rfc1071 data init <= 65535.
Proof.
  intros H Hi. unfold rfc1071. pose proof (words16_nonneg data H).
  pose proof (ones_sum_range (words16 data + init) ltac:(lia)). lia.
Qed.
Lemma inet_cksum_range data init :
  wf_bytes data -> 0 <= init < 2 ^ 67 -> zlen data < 2 ^ 32 -> 0 <= inet_cksum data init <= 65535.
Proof. intros. rewrite inet_cksum_pre3. lia. Qed.
Lemma inet_cksum_range' data init : 0 <= inet_cksum data init <= 65535.
Proof. rewrite inet_cksum_pre3. lia. Qed.

(** filling in the RFC checksum makes a block verify *)
Lemma rfc_fill a b init k :
  wf_bytes a -> wf_bytes b -> 0 <= init -> length a = (2 * k)%nat ->
  rfc1071_verifies (a ++ be_enc 2 (rfc1071 (a ++ [0; 0] ++ b) init) ++ b) init.
Proof.
  intros Ha Hb Hi L. unfold rfc1071_verifies.
  assert (Hw : wf_bytes (a ++ [0; 0] ++ b)).
  { apply wf_app; split; auto. apply wf_app; split; auto.
    repeat (constructor; [unfold is_byte; lia|]); constructor. }
  pose proof (rfc1071_range _ init Hw Hi) as Rg.
  set (c := rfc1071 (a ++ [0; 0] ++ b) init) in *.
  assert (Ec : c = 65535 - ones_sum (words16 (a ++ [0; 0] ++ b) + init)) by reflexivity.
  clearbody c.
  rewrite (words16_app a ([0; 0] ++ b) k) in Ec by auto.
  rewrite (words16_app a (be_enc 2 c ++ b) k) by auto. cbn [be_enc app words16] in *.
  pose proof (words16_nonneg a Ha). pose proof (words16_nonneg b Hb).
  set (wa := words16 a) in *; set (wb := words16 b) in *. clearbody wa wb.
  replace (256 * (c / 256 mod 256) + c mod 256) with c by lia.
  unfold ones_sum in *.
  match type of Ec with context [if ?b then _ else _] => destruct b eqn:E1 end;
  match goal with |- context [if ?b then _ else _] => destruct b eqn:E2 end; lia.
Qed.

(** changing a single byte *)
Lemma words16_change a x y b :
  words16 (a ++ x :: b) - words16 (a ++ y :: b) = (x - y) \/
  words16 (a ++ x :: b) - words16 (a ++ y :: b) = 256 * (x - y).
Proof.
  destruct (Nat.Even_or_Odd (length a)) as [[k E]|[k E]].
  - right. rewrite (words16_app a (x :: b) k), (words16_app a (y :: b) k) by auto. destruct b; cbn [words16]; lia.
  - left. assert (exists c z, a = c ++ [z] /\ length c = (2 * k)%nat) as (c & z & -> & Lc).
    { destruct (exists_last (l := a)) as (c & z & ->).
      - intros ->; cbn in E; lia.
      - exists c, z; split; auto. rewrite app_length in E; cbn in E; lia. }
    rewrite <- !app_assoc. rewrite (words16_app c ([z] ++ x :: b) k), (words16_app c ([z] ++ y :: b) k) by auto. cbn [app words16]. lia.
Qed.

Lemma single_byte_detected a x y b init :
  wf_bytes (a ++ x :: b) -> is_byte y -> x <> y -> 0 <= init < 2 ^ 67 ->
  zlen (a ++ x :: b) < 2 ^ 32 ->
  inet_cksum (a ++ x :: b) init = 0 -> inet_cksum (a ++ y :: b) init <> 0.
Proof.
  intros H Hy Hne Hi Hl E1 E2.
  assert (H2 : wf_bytes (a ++ y :: b)).
  { apply wf_app in H as [H1 H3]. inversion H3; subst. apply wf_app; split; auto. constructor; auto. }
  assert (Hx : is_byte x) by (apply wf_app in H as [_ H]; inversion H; auto).
  apply cksum_verify in E1; auto.
  apply cksum_verify in E2; auto.
  2:{ rewrite zlen_app, zlen_cons in *. lia. }
  unfold rfc1071_verifies, ones_sum in *. unfold is_byte in *.
  pose proof (words16_nonneg _ H). pose proof (words16_nonneg _ H2).
  pose proof (words16_change a x y b) as C.
  set (w1 := words16 (a ++ x :: b)) in *. set (w2 := words16 (a ++ y :: b)) in *. clearbody w1 w2.
  destruct (Z.eqb_spec (w1 + init) 0), (Z.eqb_spec (w2 + init) 0); try lia.
Qed.

(** C03 *)
Lemma ip4_header_cksum a b :
  wf_bytes a -> wf_bytes b -> zlen a = 10 -> zlen b = 8 ->
  let c := inet_cksum (a ++ [0; 0] ++ b) 0 in
  c = rfc1071 (a ++ [0; 0] ++ b) 0 /\
  rfc1071_verifies (a ++ be_enc 2 c ++ b) 0 /\
  inet_cksum (a ++ be_enc 2 c ++ b) 0 = 0.
Proof.
  intros Ha Hb La Lb c.
  assert (Hw : wf_bytes (a ++ [0; 0] ++ b)).
  { apply wf_app; split; auto. apply wf_app; split; auto.
    repeat (constructor; [unfold is_byte; lia|]); constructor. }
  assert (E : c = rfc1071 (a ++ [0; 0] ++ b) 0).
  { apply cksum_gen_20; auto; [lia|]. rewrite !zlen_app. cbn. lia. }
  assert (V : rfc1071_verifies (a ++ be_enc 2 c ++ b) 0).
  { rewrite E. apply (rfc_fill a b 0 5); auto; [lia|]. unfold zlen in La; lia. }
  split; [exact E|]. split; [exact V|].
  apply cksum_verify; auto; [|lia|].
  - apply wf_app; split; auto. apply wf_app; split; auto. apply be_enc_wf.
  - rewrite !zlen_app, be_enc_zlen. lia.
Qed.
