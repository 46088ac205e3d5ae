(** Proofs about addresses, masks, networks and hosts. *)
From Verif Require Import BaseLemmas BitLemmas AddrModel SpecAddr.

(** * MAC values *)
Lemma mac_of_bytes_be b : wf_bytes b -> zlen b = 6 -> mac_of_bytes b = Ok (be b).
Proof.
  intros H L. unfold mac_of_bytes. rewrite L. change (6 =? 6) with true. cbv iota. f_equal.
  inv_len L. slices. rewrite !Z.shiftl_mul_pow2 by lia. unfold be; cbn [fold_left]. lia.
Qed.
Lemma mac_bytes_enc a : 0 <= a < 2 ^ 48 -> mac_bytes a = be_enc 6 a.
Proof.
  intros H. unfold mac_bytes.
  rewrite (be_enc_split 2 4), (be_enc_split 2 2).
  change 0xFFFF with (2 ^ 16 - 1). rewrite !land_ones', !Z.shiftr_div_pow2 by lia.
  change (2 ^ 16) with (256 ^ Z.of_nat 2) at 1 3 4. rewrite !be_enc_mod. reflexivity.
Qed.
Lemma mac_bytes_round a : 0 <= a < 2 ^ 48 -> mac_of_bytes (mac_bytes a) = Ok a.
Proof.
  intros H. rewrite mac_bytes_enc by auto. rewrite mac_of_bytes_be.
  - rewrite be_be_enc_small; [auto|]. change (256 ^ Z.of_nat 6) with (2 ^ 48); lia.
  - apply be_enc_wf.
  - apply be_enc_zlen.
Qed.
Lemma mac_of_bytes_inv b v : wf_bytes b -> mac_of_bytes b = Ok v -> 0 <= v < 2 ^ 48 /\ mac_bytes v = b.
Proof.
  intros H E. unfold mac_of_bytes in E. destruct (Z.eqb_spec (zlen b) 6) as [L|L]; [|discriminate].
  assert (Ev : v = be b).
  { pose proof (mac_of_bytes_be b H L) as M. unfold mac_of_bytes in M. rewrite L in M.
    change (6 =? 6) with true in M. cbv iota in M. congruence. }
  pose proof (be_bound b H) as B. rewrite L in B. change (256 ^ 6) with (2 ^ 48) in B. subst v.
  split; [auto|]. rewrite mac_bytes_enc by auto.
  replace 6%nat with (length b) by (unfold zlen in L; lia). apply be_enc_be; auto.
Qed.
Lemma mac_of_bytes_len b : zlen b <> 6 -> mac_of_bytes b = Exn FormatError.
Proof. unfold mac_of_bytes. destruct (Z.eqb_spec (zlen b) 6); tauto. Qed.
Lemma mac_of_int_iff a : (mac_of_int a = Ok a <-> 0 <= a < 2 ^ 48) /\
                         (~ (0 <= a < 2 ^ 48) <-> mac_of_int a = Exn FormatError).
Proof.
  unfold mac_of_int. change (2 ^ 48) with 0x1000000000000.
  destruct ((0 <=? a) && (a <? 0x1000000000000)) eqn:E;
    split; split; intros; try congruence; try discriminate; lia.
Qed.

(** * MAC text *)
Lemma hex_digit_val d : 0 <= d < 16 -> hex_val (hex_digit d) = Some d.
Proof.
  intros H. unfold hex_digit, hex_val. destruct (Z.ltb_spec d 10).
  - replace ((48 <=? 48 + d) && (48 + d <=? 57)) with true by lia. f_equal; lia.
  - replace ((48 <=? 87 + d) && (87 + d <=? 57)) with false by lia.
    replace ((97 <=? 87 + d) && (87 + d <=? 102)) with true by lia. f_equal; lia.
Qed.
Lemma hex_val_char c d : hex_val c = Some d <-> hex_char c d.
Proof.
  unfold hex_val. split.
  - destruct ((48 <=? c) && (c <=? 57)) eqn:E1; [intros [= <-]|].
    { replace c with (48 + (c - 48)) at 1 by lia. constructor; lia. }
    destruct ((97 <=? c) && (c <=? 102)) eqn:E2; [intros [= <-]|].
    { replace c with (97 + ((c - 87) - 10)) at 1 by lia. constructor; lia. }
    destruct ((65 <=? c) && (c <=? 70)) eqn:E3; [intros [= <-]|discriminate].
    replace c with (65 + ((c - 55) - 10)) at 1 by lia. constructor; lia.
  - intros H. destruct H as [d H|d H|d H].
    + replace ((48 <=? 48 + d) && (48 + d <=? 57)) with true by lia. f_equal; lia.
    + replace ((48 <=? 97 + (d - 10)) && (97 + (d - 10) <=? 57)) with false by lia.
      replace ((97 <=? 97 + (d - 10)) && (97 + (d - 10) <=? 102)) with true by lia. f_equal; lia.
    + replace ((48 <=? 65 + (d - 10)) && (65 + (d - 10) <=? 57)) with false by lia.
      replace ((97 <=? 65 + (d - 10)) && (65 + (d - 10) <=? 102)) with false by lia.
      replace ((65 <=? 65 + (d - 10)) && (65 + (d - 10) <=? 70)) with true by lia. f_equal; lia.
Qed.
Lemma hex_char_byte c d : hex_char c d -> 0 <= d < 16 /\ py_space c = false.
Proof. intros [d' H|d' H|d' H]; (split; [lia|unfold py_space; lia]). Qed.

Lemma mac_groups_spec n t l :
  mac_groups n t = Some l <-> mac_text t l /\ length l = S n.
Proof.
  revert t l; induction n as [|n IH]; intros t l; split.
  - destruct t as [|a [|b r]]; try discriminate. cbn [mac_groups].
    destruct (hex_val a) eqn:Ea; [|discriminate]. destruct (hex_val b) eqn:Eb; [|discriminate].
    destruct r; [|discriminate]. intros [= <-]. split; [|reflexivity]. constructor.
    exists a, b, z, z0. rewrite <- !hex_val_char; auto.
  - intros [H L]. inversion H as [t' v (c1 & c2 & d1 & d2 & -> & H1 & H2 & ->)|t' v s r l' Hp Hs Hr]; subst.
    + cbn [mac_groups]. apply hex_val_char in H1, H2. rewrite H1, H2. reflexivity.
    + cbn in L. destruct l'; [|discriminate]. inversion Hr.
  - destruct t as [|a [|b r]]; try discriminate. cbn [mac_groups].
    destruct (hex_val a) eqn:Ea; [|discriminate]. destruct (hex_val b) eqn:Eb; [|discriminate].
    destruct r as [|s r]; [discriminate|].
    destruct ((s =? 58) || (s =? 45)) eqn:Es; [|discriminate].
    destruct (mac_groups n r) as [l'|] eqn:E; [|discriminate]. intros [= <-].
    apply IH in E as [E L]. split; [|cbn; lia].
    change (a :: b :: s :: r) with ([a; b] ++ s :: r). constructor; auto.
    + exists a, b, z, z0. rewrite <- !hex_val_char; auto.
    + unfold mac_sep. lia.
  - intros [H L]. inversion H as [t' v Hp|t' v s r l' (c1 & c2 & d1 & d2 & -> & H1 & H2 & ->) Hs Hr]; subst.
    + discriminate.
    + cbn [app mac_groups]. apply hex_val_char in H1, H2. rewrite H1, H2.
      replace ((s =? 58) || (s =? 45)) with true by (unfold mac_sep in Hs; lia).
      rewrite (proj2 (IH r l')); [reflexivity|]. split; auto.
Qed.

Lemma hex_pair_byte t v : hex_pair t v -> is_byte v.
Proof.
  intros (c1 & c2 & d1 & d2 & -> & H1 & H2 & ->).
  apply hex_char_byte in H1 as [? _], H2 as [? _]. unfold is_byte; lia.
Qed.
Lemma mac_text_wf t l : mac_text t l -> wf_bytes l.
Proof.
  induction 1 as [t v Hp|t v s r l Hp Hs Hr IH]; constructor; eauto using hex_pair_byte.
Qed.

(** strip *)
Definition spaces (w : list Z) : Prop := Forall (fun c => py_space c = true) w.
Lemma lstrip_split t : exists w, t = w ++ lstrip t /\ spaces w.
Proof.
  induction t as [|c r (w & E & H)]; [exists []; split; [auto|constructor]|].
  cbn [lstrip]. destruct (py_space c) eqn:Ec.
  - exists (c :: w). split; [cbn; congruence|constructor; auto].
  - exists []; split; [auto|constructor].
Qed.
Lemma lstrip_app w t : spaces w -> lstrip (w ++ t) = lstrip t.
Proof. induction 1 as [|c w Hc Hw IH]; cbn; [auto|]. rewrite Hc. auto. Qed.
Lemma spaces_rev w : spaces w -> spaces (rev w).
Proof. unfold spaces; intros; apply Forall_rev; auto. Qed.
Lemma strip_split t : exists w1 w2, t = w1 ++ strip t ++ w2 /\ spaces w1 /\ spaces w2.
Proof.
  destruct (lstrip_split t) as (w1 & E1 & H1).
  destruct (lstrip_split (rev (lstrip t))) as (w2 & E2 & H2).
  exists w1, (rev w2). split; [|split; auto using spaces_rev].
  unfold strip. rewrite <- rev_app_distr, <- E2, rev_involutive. exact E1.
Qed.
Lemma strip_core w1 w2 a c b :
  spaces w1 -> spaces w2 -> py_space a = false -> py_space b = false ->
  strip (w1 ++ (a :: c ++ [b]) ++ w2) = a :: c ++ [b].
Proof.
  intros H1 H2 Ha Hb. unfold strip. rewrite lstrip_app by auto. cbn [app lstrip]. rewrite Ha.
  change (a :: (c ++ [b]) ++ w2) with ((a :: c ++ [b]) ++ w2).
  rewrite rev_app_distr, lstrip_app by (apply spaces_rev; auto).
  cbn [rev]. rewrite rev_app_distr. cbn [rev app lstrip]. rewrite Hb. cbn [rev].
  rewrite rev_app_distr, rev_involutive. reflexivity.
Qed.
Lemma mac_text_ends t l : mac_text t l ->
  exists a c b, t = a :: c ++ [b] /\ py_space a = false /\ py_space b = false.
Proof.
  induction 1 as [t v (c1 & c2 & d1 & d2 & -> & H1 & H2 & _)
                 |t v s r l (c1 & c2 & d1 & d2 & -> & H1 & H2 & _) Hs Hr (a & c & b & -> & Ha & Hb)].
  - exists c1, [], c2. apply hex_char_byte in H1 as [_ ?], H2 as [_ ?]. auto.
  - exists c1, (c2 :: s :: a :: c), b. apply hex_char_byte in H1 as [_ ?]. auto.
Qed.

Lemma mac_of_text_spec t v :
  mac_of_text t = Ok v <->
  exists w1 c w2 l, t = w1 ++ c ++ w2 /\ spaces w1 /\ spaces w2 /\
                    mac_text c l /\ length l = 6%nat /\ v = be l.
Proof.
  unfold mac_of_text. split.
  - destruct (mac_groups 5 (strip t)) as [l|] eqn:E; [|discriminate].
    apply mac_groups_spec in E as [E L]. intros M.
    rewrite mac_of_bytes_be in M by (try (unfold zlen; lia); eauto using mac_text_wf).
    injection M as <-.
    destruct (strip_split t) as (w1 & w2 & Et & H1 & H2).
    exists w1, (strip t), w2, l. auto 10.
  - intros (w1 & c & w2 & l & -> & H1 & H2 & M & L & ->).
    destruct (mac_text_ends _ _ M) as (a & c' & b & -> & Ha & Hb).
    rewrite strip_core by auto. rewrite (proj2 (mac_groups_spec 5 _ _) (conj M L)).
    apply mac_of_bytes_be; [eauto using mac_text_wf|unfold zlen; lia].
Qed.
Lemma mac_of_text_total t : (exists v, mac_of_text t = Ok v) \/ mac_of_text t = Exn FormatError.
Proof.
  unfold mac_of_text. destruct (mac_groups 5 (strip t)); [|auto].
  unfold mac_of_bytes. destruct (_ =? 6); eauto.
Qed.

Lemma hex2_pair b : is_byte b -> hex_pair (hex2 b) b.
Proof.
  intros H. unfold is_byte in H. exists (hex_digit (b / 16)), (hex_digit (b mod 16)), (b / 16), (b mod 16).
  rewrite <- !hex_val_char, !hex_digit_val by lia. repeat split; lia.
Qed.
Lemma join_text l : l <> [] -> wf_bytes l -> mac_text (join_colon (map hex2 l)) l.
Proof.
  induction l as [|b l IH]; intros Hn H; [congruence|].
  inversion H as [|? ? Hb Hl]; subst. destruct l as [|b' l].
  - cbn. constructor. apply hex2_pair; auto.
  - cbn [map join_colon]. constructor; [apply hex2_pair; auto|left; auto|].
    apply IH; [discriminate|auto].
Qed.
Lemma mac_str_round a : 0 <= a < 2 ^ 48 -> mac_of_text (mac_str a) = Ok a.
Proof.
  intros H. apply mac_of_text_spec. exists [], (mac_str a), [], (be_enc 6 a).
  rewrite app_nil_r. split; [reflexivity|]. split; [constructor|]. split; [constructor|].
  unfold mac_str. rewrite mac_bytes_enc by auto. split.
  - apply join_text; [|apply be_enc_wf]. intros E. apply (f_equal (@length Z)) in E.
    rewrite be_enc_length in E. discriminate.
  - rewrite be_enc_length. split; auto. symmetry; apply be_be_enc_small.
    change (256 ^ Z.of_nat 6) with (2 ^ 48). lia.
Qed.
Lemma mac_str_inj a b : 0 <= a < 2 ^ 48 -> 0 <= b < 2 ^ 48 -> mac_str a = mac_str b -> a = b.
Proof. intros Ha Hb E. apply mac_str_round in Ha, Hb. rewrite E in Ha. congruence. Qed.

(** * MAC classes *)
Lemma mac_classes a : 0 <= a < 2 ^ 48 ->
  exactly_one [mac_is_unspecified a; mac_is_broadcast a; mac_is_multicast_ip4 a;
               mac_is_multicast_ip6 a; mac_is_unicast a].
Proof.
  intros H. unfold exactly_one, mac_is_unspecified, mac_is_broadcast, mac_is_multicast_ip4,
    mac_is_multicast_ip6, mac_is_unicast, in_range.
  destruct (Z.eqb_spec a 0); [subst; reflexivity|].
  destruct (Z.eqb_spec a 0xFFFFFFFFFFFF); [subst; reflexivity|].
  destruct ((0x1005E000000 <=? a) && (a <? 0x1005F000000)) eqn:E1.
  - replace ((0x333300000000 <=? a) && (a <? 0x333400000000)) with false by lia. reflexivity.
  - destruct ((0x333300000000 <=? a) && (a <? 0x333400000000)); reflexivity.
Qed.

(** * IPv4 values *)
Lemma ip4_of_int_ok a : ip4_of_int a = if (0 <=? a) && (a <? 2 ^ 32) then Ok a else Exn FormatError.
Proof.
  unfold ip4_of_int. pose proof (land_ones_eq a 32 ltac:(lia)) as L.
  change (2 ^ 32 - 1) with 0xFFFFFFFF in L.
  destruct (Z.eqb_spec (Z.land a 0xFFFFFFFF) a);
  destruct ((0 <=? a) && (a <? 2 ^ 32)) eqn:E; try reflexivity; exfalso.
  - apply L in e. lia.
  - apply n, L. lia.
Qed.
Lemma ip4_bytes_round a : 0 <= a < 2 ^ 32 -> ip4_of_bytes (ip4_bytes a) = Ok a.
Proof.
  intros. unfold ip4_of_bytes, ip4_bytes. rewrite be_enc_zlen.
  change (Z.of_nat 4 =? 4) with true. cbv iota. rewrite be_be_enc_small; auto.
Qed.
Lemma ip4_of_bytes_inv b v : wf_bytes b -> ip4_of_bytes b = Ok v -> 0 <= v < 2 ^ 32 /\ ip4_bytes v = b.
Proof.
  intros H E. unfold ip4_of_bytes in E. destruct (Z.eqb_spec (zlen b) 4) as [L|L]; [|discriminate].
  injection E as <-. pose proof (be_bound b H) as B. rewrite L in B. split; [exact B|].
  unfold ip4_bytes. replace 4%nat with (length b) by (unfold zlen in L; lia). apply be_enc_be; auto.
Qed.

(** class predicates as intervals *)
Ltac high n j := change (2 ^ n - 2 ^ j) with (2 ^ n - 2 ^ j).
Lemma mask_class (a m v n j : Z) :
  0 <= j <= n -> m = 2 ^ n - 2 ^ j -> v mod 2 ^ j = 0 -> 0 <= a < 2 ^ n ->
  (Z.land a m =? v) = ((v <=? a) && (a <=? v + 2 ^ j - 1)).
Proof.
  intros Hj -> Hv Ha. rewrite land_high by auto.
  assert (0 < 2 ^ j) by (apply Z.pow_pos_nonneg; lia).
  set (p := 2 ^ j) in *. clearbody p. clear Hj Ha n.
  pose proof (Z.div_mod a p ltac:(lia)) as D. pose proof (Z.mod_pos_bound a p ltac:(lia)) as M.
  pose proof (Z.div_mod v p ltac:(lia)) as D'. rewrite Hv in D'.
  set (q := a / p) in *. set (r := a mod p) in *. set (q' := v / p) in *. clearbody q r q'. subst a v.
  destruct (Z.eqb_spec (p * q + r - r) (p * q' + 0)) as [E|E].
  - assert (q = q') by nia. subst. lia.
  - symmetry. apply andb_false_iff.
    destruct (Z.lt_trichotomy q q') as [L|[L|L]]; [left; nia|subst; lia|right; nia].
Qed.

Lemma ip4_link_local_iv a : 0 <= a < 2 ^ 32 ->
  ip4_is_link_local a = ((0xA9FE0000 <=? a) && (a <=? 0xA9FEFFFF)).
Proof. intros. unfold ip4_is_link_local. rewrite (mask_class a _ _ 32 16); auto; lia. Qed.
Lemma ip4_loopback_iv a : 0 <= a < 2 ^ 32 ->
  ip4_is_loopback a = ((0x7F000000 <=? a) && (a <=? 0x7FFFFFFF)).
Proof. intros. unfold ip4_is_loopback. rewrite (mask_class a _ _ 32 24); auto; lia. Qed.
Lemma ip4_multicast_iv a : 0 <= a < 2 ^ 32 ->
  ip4_is_multicast a = ((0xE0000000 <=? a) && (a <=? 0xEFFFFFFF)).
Proof. intros. unfold ip4_is_multicast. rewrite (mask_class a _ _ 32 28); auto; lia. Qed.
Lemma ip4_private_iv a : 0 <= a < 2 ^ 32 ->
  ip4_is_private a = ((0x0A000000 <=? a) && (a <=? 0x0AFFFFFF))
    || ((0xAC100000 <=? a) && (a <=? 0xAC1FFFFF)) || ((0xC0A80000 <=? a) && (a <=? 0xC0A8FFFF)).
Proof.
  intros. unfold ip4_is_private.
  rewrite (mask_class a 0xFF000000 0xA000000 32 24), (mask_class a 0xFFF00000 0xAC100000 32 20),
    (mask_class a 0xFFFF0000 0xC0A80000 32 16) by (auto; lia).
  reflexivity.
Qed.
Lemma ip4_invalid_iv a : 0 <= a < 2 ^ 32 ->
  ip4_is_invalid a = ((1 <=? a) && (a <=? 0x00FFFFFF)).
Proof.
  intros. unfold ip4_is_invalid. rewrite (mask_class a 0xFF000000 0 32 24) by (auto; lia). lia.
Qed.
Lemma ip4_reserved_iv a : 0 <= a < 2 ^ 32 ->
  ip4_is_reserved a = ((0xF0000000 <=? a) && Z.even a).
Proof.
  intros H. unfold ip4_is_reserved.
  replace 0xF0000001 with ((0x78000000) * 2 ^ 1 + 1) by lia.
  rewrite (Z.div_mod a (2 ^ 1)) at 1 by lia.
  rewrite (Z.mul_comm (2 ^ 1)), land_shift by lia.
  replace 0x78000000 with (2 ^ 31 - 2 ^ 27) by lia. rewrite land_high by lia.
  rewrite Zeven_mod. change (2 ^ 1) with 2.
  assert (a mod 2 = 0 \/ a mod 2 = 1) as [E|E] by lia; rewrite E.
  - change (Z.land 0 1) with 0. unfold Zeq_bool. cbn. lia.
  - change (Z.land 1 1) with 1. unfold Zeq_bool. cbn. lia.
Qed.
Lemma ip4_classes a : 0 <= a < 2 ^ 32 ->
  exactly_one [ip4_is_unspecified a; ip4_is_invalid a; ip4_is_loopback a; ip4_is_link_local a;
               ip4_is_private a; ip4_is_multicast a; ip4_is_reserved a;
               ip4_is_limited_broadcast a; ip4_is_global a].
Proof.
  intros H. unfold ip4_is_global.
  rewrite ip4_invalid_iv, ip4_link_local_iv, ip4_loopback_iv, ip4_multicast_iv, ip4_private_iv,
    ip4_reserved_iv by auto. unfold ip4_is_unspecified, ip4_is_limited_broadcast, exactly_one.
  destruct (Z.eqb_spec a 0); [subst; reflexivity|].
  destruct (Z.eqb_spec a 0xFFFFFFFF); [subst; reflexivity|].
  destruct ((1 <=? a) && (a <=? 0x00FFFFFF)) eqn:E1;
  destruct ((0x7F000000 <=? a) && (a <=? 0x7FFFFFFF)) eqn:E2; try (exfalso; lia);
  destruct ((0xA9FE0000 <=? a) && (a <=? 0xA9FEFFFF)) eqn:E3; try (exfalso; lia);
  destruct (((0x0A000000 <=? a) && (a <=? 0x0AFFFFFF)) || ((0xAC100000 <=? a) && (a <=? 0xAC1FFFFF)) || ((0xC0A80000 <=? a) && (a <=? 0xC0A8FFFF))) eqn:E4; try (exfalso; lia);
  destruct ((0xE0000000 <=? a) && (a <=? 0xEFFFFFFF)) eqn:E5; try (exfalso; lia);
  destruct ((0xF0000000 <=? a) && Z.even a) eqn:E6; try (exfalso; lia); reflexivity.
Qed.

(** * IPv6 values *)
Lemma ip6_of_int_ok a : ip6_of_int a = if (0 <=? a) && (a <? 2 ^ 128) then Ok a else Exn FormatError.
Proof.
  unfold ip6_of_int. pose proof (land_ones_eq a 128 ltac:(lia)) as L.
  change (2 ^ 128 - 1) with 0xFFFFFFFFFFFFFFFFFFFFFFFFFFFFFFFF in L.
  destruct (Z.eqb_spec (Z.land a 0xFFFFFFFFFFFFFFFFFFFFFFFFFFFFFFFF) a);
  destruct ((0 <=? a) && (a <? 2 ^ 128)) eqn:E; try reflexivity; exfalso.
  - apply L in e. lia.
  - apply n, L. lia.
Qed.
Lemma ip6_bytes_enc a : 0 <= a < 2 ^ 128 -> ip6_bytes a = be_enc 16 a.
Proof.
  intros H. unfold ip6_bytes.
  rewrite (be_enc_split 4 12), (be_enc_split 4 8), (be_enc_split 4 4).
  change 0xFFFFFFFF with (2 ^ 32 - 1). rewrite !land_ones', !Z.shiftr_div_pow2 by lia.
  change (2 ^ 32) with (256 ^ Z.of_nat 4) at 1 2 4 5. rewrite !be_enc_mod. reflexivity.
Qed.
Lemma ip6_of_bytes_be b : zlen b = 16 -> ip6_of_bytes b = Ok (be b).
Proof.
  intros L. unfold ip6_of_bytes. rewrite L. change (16 =? 16) with true. cbv iota. f_equal.
  inv_len L. slices. rewrite !Z.shiftl_mul_pow2 by lia. unfold be; cbn [fold_left]. lia.
Qed.
Lemma ip6_bytes_round a : 0 <= a < 2 ^ 128 -> ip6_of_bytes (ip6_bytes a) = Ok a.
Proof.
  intros. rewrite ip6_bytes_enc by auto. rewrite ip6_of_bytes_be by apply be_enc_zlen.
  rewrite be_be_enc_small; auto.
Qed.
Lemma ip6_global_iv a : 0 <= a < 2 ^ 128 ->
  ip6_is_global a = ((0x2000 * 2 ^ 112 <=? a) && (a <=? 0x4000 * 2 ^ 112 - 1)).
Proof.
  intros. unfold ip6_is_global. rewrite !Z.shiftl_mul_pow2 by lia.
  rewrite (mask_class a _ _ 128 125); auto; lia.
Qed.
Lemma ip6_private_iv a : 0 <= a < 2 ^ 128 ->
  ip6_is_private a = ((0xFC00 * 2 ^ 112 <=? a) && (a <=? 0xFE00 * 2 ^ 112 - 1)).
Proof.
  intros. unfold ip6_is_private. rewrite !Z.shiftl_mul_pow2 by lia.
  rewrite (mask_class a _ _ 128 121); auto; lia.
Qed.
Lemma ip6_link_local_iv a : 0 <= a < 2 ^ 128 ->
  ip6_is_link_local a = ((0xFE80 * 2 ^ 112 <=? a) && (a <=? 0xFEC0 * 2 ^ 112 - 1)).
Proof.
  intros. unfold ip6_is_link_local. rewrite !Z.shiftl_mul_pow2 by lia.
  rewrite (mask_class a _ _ 128 118); auto; lia.
Qed.
Lemma ip6_multicast_iv a : 0 <= a < 2 ^ 128 ->
  ip6_is_multicast a = ((0xFF00 * 2 ^ 112 <=? a) && (a <=? 2 ^ 128 - 1)).
Proof.
  intros. unfold ip6_is_multicast. rewrite !Z.shiftl_mul_pow2 by lia.
  rewrite (mask_class a _ _ 128 120); auto; lia.
Qed.
Lemma ip6_sn_iv a : 0 <= a < 2 ^ 128 ->
  ip6_is_solicited_node_multicast a = ((sn_base <=? a) && (a <=? sn_base + 0xFFFFFF)).
Proof.
  intros. unfold ip6_is_solicited_node_multicast.
  rewrite (mask_class a _ _ 128 24); auto; unfold sn_base; rewrite ?Z.shiftl_mul_pow2 by lia; lia.
Qed.

(** an interval made of all addresses with a given prefix *)
Lemma prefix_iv n k v a : 0 <= k <= n -> v mod 2 ^ (n - k) = 0 ->
  (same_prefix n k a v <-> v <= a <= v + 2 ^ (n - k) - 1).
Proof.
  intros Hk Hv. unfold same_prefix.
  assert (0 < 2 ^ (n - k)) by (apply Z.pow_pos_nonneg; lia).
  set (p := 2 ^ (n - k)) in *. clearbody p.
  pose proof (Z.div_mod a p ltac:(lia)) as D. pose proof (Z.mod_pos_bound a p ltac:(lia)) as M.
  pose proof (Z.div_mod v p ltac:(lia)) as D'. rewrite Hv in D'.
  split; [intros E; nia|intros E].
  symmetry. apply (Z.div_unique a p (v / p) (a - v)); lia.
Qed.

(** * Masks *)
Lemma bits_length n m : length (bits n m) = n.
Proof. revert m; induction n; intros; cbn [bits]; [auto|]. rewrite app_length, IHn; cbn; lia. Qed.
Lemma bits_val_app a b : bits_val (a ++ [b]) = 2 * bits_val a + (if b then 1 else 0).
Proof. unfold bits_val. rewrite fold_left_app. reflexivity. Qed.
Lemma bits_val_bits n m : 0 <= m < 2 ^ Z.of_nat n -> bits_val (bits n m) = m.
Proof.
  revert m; induction n as [|n IH]; intros m H.
  - cbn in *. lia.
  - cbn [bits]. rewrite bits_val_app.
    rewrite Nat2Z.inj_succ, Z.pow_succ_r in H by lia. rewrite IH by lia.
    pose proof (Zodd_mod m) as O. unfold Zeq_bool in O.
    destruct (Z.odd m); destruct (m mod 2 ?= 1) eqn:E; try discriminate.
    + apply Z.compare_eq in E. lia.
    + assert (m mod 2 <> 1) by (intros F; rewrite F in E; discriminate). lia.
    + assert (m mod 2 <> 1) by (intros F; rewrite F in E; discriminate). lia.
Qed.
Lemma bits_val_range l : 0 <= bits_val l < 2 ^ Z.of_nat (length l).
Proof.
  induction l as [|b l IH] using rev_ind; [cbn; lia|].
  rewrite bits_val_app, app_length. cbn [length]. rewrite Nat.add_1_r, Nat2Z.inj_succ, Z.pow_succ_r by lia.
  destruct b; lia.
Qed.
Lemma bits_of_val l : bits (length l) (bits_val l) = l.
Proof.
  induction l as [|b l IH] using rev_ind; [reflexivity|].
  rewrite app_length. cbn [length]. rewrite Nat.add_1_r. cbn [bits]. rewrite bits_val_app.
  f_equal.
  - replace ((2 * bits_val l + (if b then 1 else 0)) / 2) with (bits_val l) by (destruct b; lia).
    exact IH.
  - f_equal. rewrite Z.odd_add, Z.odd_mul. destruct b; reflexivity.
Qed.
Lemma all_false l : forallb negb l = true <-> l = repeat false (length l).
Proof.
  induction l as [|[] l IH]; cbn; [tauto| |]; (split; [|intros [= E]]); try discriminate.
  - intros E. f_equal. apply IH; auto.
  - apply IH; auto.
Qed.
Lemma validate_spec l :
  validate_bits l = true <-> exists k, (k <= length l)%nat /\ l = repeat true k ++ repeat false (length l - k).
Proof.
  induction l as [|[] l IH]; cbn [validate_bits].
  - split; auto. intros _. exists 0%nat. split; auto.
  - rewrite IH. split; intros (k & Hk & E).
    + exists (S k). cbn [length repeat app]. split; [lia|]. f_equal. exact E.
    + destruct k as [|k]; cbn [length repeat app Nat.sub] in *.
      * discriminate E.
      * exists k. split; [lia|]. injection E as E. exact E.
  - rewrite all_false. split.
    + intros E. exists 0%nat. split; [lia|]. cbn [length repeat app Nat.sub]. f_equal. exact E.
    + intros (k & Hk & E). destruct k as [|k]; cbn [length repeat app Nat.sub] in E; [|discriminate].
      injection E as E. exact E.
Qed.
Lemma bits_val_prefix k j :
  bits_val (repeat true k ++ repeat false j) = 2 ^ (Z.of_nat k + Z.of_nat j) - 2 ^ Z.of_nat j.
Proof.
  induction j as [|j IH].
  - cbn [repeat]. rewrite app_nil_r, Z.add_0_r. change (2 ^ Z.of_nat 0) with 1.
    induction k as [|k IH]; [reflexivity|].
    replace (S k) with (k + 1)%nat at 1 by lia. rewrite repeat_app. cbn [repeat].
    rewrite bits_val_app, IH, Nat2Z.inj_succ, Z.pow_succ_r by lia. lia.
  - replace (S j) with (j + 1)%nat at 1 by lia. rewrite repeat_app, app_assoc. cbn [repeat].
    rewrite bits_val_app, IH, Nat2Z.inj_succ, Z.add_succ_r, !Z.pow_succ_r by lia. lia.
Qed.
Lemma mask_of_int_spec n m :
  (mask_of_int n m = Ok m <-> exists k, 0 <= k <= Z.of_nat n /\ m = prefix_mask (Z.of_nat n) k) /\
  (mask_of_int n m = Ok m \/ mask_of_int n m = Exn FormatError).
Proof.
  unfold mask_of_int. split; [|destruct (_ && _); auto].
  pose proof (land_ones_eq m (Z.of_nat n) ltac:(lia)) as LO. split.
  - destruct (Z.eqb_spec (Z.land m (2 ^ Z.of_nat n - 1)) m) as [E|E]; [|discriminate].
    destruct (validate_bits (bits n m)) eqn:V; [|discriminate]. intros _.
    apply LO in E. apply validate_spec in V as (k & Hk & V). rewrite bits_length in *.
    exists (Z.of_nat k). split; [lia|]. rewrite <- (bits_val_bits n m E), V, bits_val_prefix.
    unfold prefix_mask. replace (Z.of_nat (n - k)) with (Z.of_nat n - Z.of_nat k) by lia.
    f_equal; f_equal; lia.
  - intros (k & Hk & Em). unfold prefix_mask in Em.
    assert (Eb : m = bits_val (repeat true (Z.to_nat k) ++ repeat false (n - Z.to_nat k))).
    { rewrite bits_val_prefix, Em. replace (Z.of_nat (n - Z.to_nat k)) with (Z.of_nat n - k) by lia.
      f_equal; f_equal; lia. }
    set (l := repeat true (Z.to_nat k) ++ repeat false (n - Z.to_nat k)) in *.
    assert (Ll : length l = n) by (unfold l; rewrite app_length, !repeat_length; lia).
    assert (R : 0 <= m < 2 ^ Z.of_nat n) by (rewrite Eb, <- Ll; apply bits_val_range).
    rewrite (proj2 (Z.eqb_eq _ _) (proj2 LO R)). cbn [andb].
    replace (bits n m) with l by (rewrite Eb, <- Ll; symmetry; apply bits_of_val).
    rewrite (proj2 (validate_spec l)); [reflexivity|].
    exists (Z.to_nat k). split; [lia|]. rewrite Ll. reflexivity.
Qed.
Lemma mask_of_bytes_spec n b : wf_bytes b ->
  (mask_of_bytes n b = Ok (be b) <->
     8 * zlen b = Z.of_nat n /\ exists k, 0 <= k <= Z.of_nat n /\ be b = prefix_mask (Z.of_nat n) k) /\
  (mask_of_bytes n b = Ok (be b) \/ mask_of_bytes n b = Exn FormatError).
Proof.
  intros H. unfold mask_of_bytes. destruct (Z.eqb_spec (8 * zlen b) (Z.of_nat n)) as [L|L].
  2:{ split; [|auto]. split; [discriminate|]. tauto. }
  pose proof (be_bound b H) as B.
  assert (E : 256 ^ zlen b = 2 ^ Z.of_nat n).
  { rewrite <- L. change 256 with (2 ^ 8). rewrite <- Z.pow_mul_r; [auto|lia|apply zlen_nonneg]. }
  rewrite E in B. destruct (mask_of_int_spec n (be b)) as [S _]. unfold mask_of_int in S.
  rewrite (proj2 (Z.eqb_eq _ _) (proj2 (land_ones_eq (be b) (Z.of_nat n) ltac:(lia)) B)) in S.
  cbn [andb] in S. split; [|destruct (validate_bits _); auto]. rewrite S. tauto.
Qed.
Lemma mask_of_prefix_spec n k :
  mask_of_prefix n k = if (0 <=? k) && (k <=? Z.of_nat n)
                       then Ok (prefix_mask (Z.of_nat n) k) else Exn FormatError.
Proof.
  unfold mask_of_prefix. destruct ((0 <=? k) && (k <=? Z.of_nat n)) eqn:E; [|auto].
  rewrite bits_val_prefix. unfold prefix_mask.
  replace (Z.of_nat (n - Z.to_nat k)) with (Z.of_nat n - k) by lia. f_equal; f_equal; f_equal; lia.
Qed.
Lemma mask_len_double x : 0 <= x -> mask_len (2 * x) = mask_len x.
Proof. intros H. destruct x; cbn; auto; lia. Qed.
Lemma mask_len_double1 x : 0 <= x -> mask_len (2 * x + 1) = 1 + mask_len x.
Proof. intros H. destruct x; cbn; auto; lia. Qed.
Lemma mask_len_ones k : mask_len (2 ^ Z.of_nat k - 1) = Z.of_nat k.
Proof.
  induction k as [|k IH]; [reflexivity|].
  rewrite Nat2Z.inj_succ, Z.pow_succ_r by lia.
  replace (2 * 2 ^ Z.of_nat k - 1) with (2 * (2 ^ Z.of_nat k - 1) + 1) by lia.
  rewrite mask_len_double1; [lia|]. pose proof (Z.pow_pos_nonneg 2 (Z.of_nat k)). lia.
Qed.
Lemma mask_len_shift x j : 0 <= x -> mask_len (x * 2 ^ Z.of_nat j) = mask_len x.
Proof.
  intros H. induction j as [|j IH]; [f_equal; change (2 ^ Z.of_nat 0) with 1; lia|].
  rewrite Nat2Z.inj_succ, Z.pow_succ_r by lia.
  replace (x * (2 * 2 ^ Z.of_nat j)) with (2 * (x * 2 ^ Z.of_nat j)) by lia.
  rewrite mask_len_double; auto. pose proof (Z.pow_pos_nonneg 2 (Z.of_nat j)). nia.
Qed.
Lemma mask_len_prefix n k : 0 <= k <= n -> mask_len (prefix_mask n k) = k.
Proof.
  intros H. unfold prefix_mask.
  replace (2 ^ n - 2 ^ (n - k)) with ((2 ^ Z.of_nat (Z.to_nat k) - 1) * 2 ^ Z.of_nat (Z.to_nat (n - k))).
  - rewrite mask_len_shift, mask_len_ones; [lia|].
    pose proof (Z.pow_pos_nonneg 2 (Z.of_nat (Z.to_nat k))). lia.
  - rewrite !Z2Nat.id by lia. rewrite Z.mul_sub_distr_r, <- Z.pow_add_r by lia.
    replace (k + (n - k)) with n by lia. lia.
Qed.

(** * Networks *)
Lemma mk_net_spec n k addr : 0 <= k <= Z.of_nat n -> 0 <= addr < 2 ^ Z.of_nat n ->
  mk_net n addr (prefix_mask (Z.of_nat n) k) =
  Ok {| n_addr := addr - addr mod 2 ^ (Z.of_nat n - k); n_mask := prefix_mask (Z.of_nat n) k |}.
Proof.
  intros Hk Ha. unfold mk_net, prefix_mask. rewrite land_high by lia.
  set (N := Z.of_nat n) in *.
  assert (0 < 2 ^ (N - k)) by (apply Z.pow_pos_nonneg; lia).
  assert (0 <= addr mod 2 ^ (N - k) <= addr).
  { split; [apply Z.mod_pos_bound; auto|apply Z.mod_le; lia]. }
  rewrite (proj2 (Z.eqb_eq _ _)); [reflexivity|]. apply land_ones_eq; lia.
Qed.
Lemma net_last_spec n k addr : 0 <= k <= Z.of_nat n -> 0 <= addr < 2 ^ Z.of_nat n ->
  net_last n {| n_addr := addr - addr mod 2 ^ (Z.of_nat n - k); n_mask := prefix_mask (Z.of_nat n) k |}
  = addr - addr mod 2 ^ (Z.of_nat n - k) + 2 ^ (Z.of_nat n - k) - 1.
Proof.
  intros Hk Ha. unfold net_last. cbn [n_addr n_mask]. rewrite land_ones' by lia.
  unfold prefix_mask, Z.lnot. set (N := Z.of_nat n) in *.
  assert (0 < 2 ^ (N - k) <= 2 ^ N).
  { split; [apply Z.pow_pos_nonneg; lia|apply Z.pow_le_mono_r; lia]. }
  replace (Z.pred (- (2 ^ N - 2 ^ (N - k)))) with (2 ^ (N - k) - 1 + (-1) * 2 ^ N) by lia.
  rewrite Z.mod_add by lia. rewrite (Z.mod_small (2 ^ (N - k) - 1)) by lia. lia.
Qed.
Lemma net_contains_spec n k addr a w :
  0 <= k <= Z.of_nat n -> 0 <= addr < 2 ^ Z.of_nat n ->
  mk_net n addr (prefix_mask (Z.of_nat n) k) = Ok w ->
  (net_contains n w a = true <-> same_prefix (Z.of_nat n) k a addr) /\
  (net_contains n w a = true -> n_addr w <= a <= net_last n w) /\
  net_contains n w (n_addr w) = true /\ net_contains n w (net_last n w) = true /\
  0 <= n_addr w /\ net_last n w < 2 ^ Z.of_nat n.
Proof.
  intros Hk Ha E. rewrite mk_net_spec in E by auto. injection E as <-.
  unfold net_contains. rewrite net_last_spec by auto. cbn [n_addr].
  set (N := Z.of_nat n) in *. set (p := 2 ^ (N - k)).
  assert (Hp : 0 < p) by (apply Z.pow_pos_nonneg; lia).
  pose proof (Z.mod_pos_bound addr p Hp) as M.
  assert (Z.modulo addr p <= addr) by (apply Z.mod_le; lia).
  split; [|repeat split; try lia].
  - pose proof (prefix_iv N k (addr - addr mod p) a Hk) as P.
    fold p in P. unfold same_prefix in *. fold p in P |- *.
    assert (Hd : (addr - addr mod p) / p = addr / p).
    { pose proof (Z.div_mod addr p ltac:(lia)). symmetry.
      replace (addr - addr mod p) with (addr / p * p) by lia. symmetry. apply Z.div_mul. lia. }
    assert (Hm : (addr - addr mod p) mod p = 0).
    { pose proof (Z.div_mod addr p ltac:(lia)).
      replace (addr - addr mod p) with (addr / p * p) by lia. apply Z.mod_mul. lia. }
    rewrite Hd in P. specialize (P Hm). rewrite P. lia.
  - assert (E2 : 2 ^ N = 2 ^ k * p) by (unfold p; rewrite <- Z.pow_add_r by lia; f_equal; lia).
    pose proof (Z.div_mod addr p ltac:(lia)).
    assert (addr / p < 2 ^ k) by (apply Z.div_lt_upper_bound; lia).
    nia.
Qed.

(** * Gateways *)
Definition ip4_gw_ok (h : host) : Prop :=
  match h_gw h with
  | None => True
  | Some g => net_contains 32 (h_net h) g = true /\ g <> n_addr (h_net h) /\
              g <> net_last 32 (h_net h) /\ g <> h_addr h
  end.
Lemma ip4_set_gateway_ok h g : ip4_gw_ok h -> ip4_gw_ok (fst (ip4_set_gateway h g)).
Proof.
  intros H. unfold ip4_set_gateway. destruct g as [a|]; [|exact I].
  destruct (_ || _) eqn:E; [exact H|]. cbn. unfold ip4_gw_ok; cbn. unfold ip4_broadcast in E.
  apply orb_false_iff in E as [E E4]. apply orb_false_iff in E as [E E3].
  apply orb_false_iff in E as [E1 E2]. apply negb_false_iff in E1. split; [auto|lia].
Qed.
Lemma ip4_gateways_ok h gs : ip4_gw_ok h ->
  ip4_gw_ok (fold_left (fun h g => fst (ip4_set_gateway h g)) gs h).
Proof. revert h; induction gs as [|g gs IH]; cbn; auto using ip4_set_gateway_ok. Qed.
Lemma set_gateway_frame h gs :
  let h' := fold_left (fun h g => fst (ip4_set_gateway h g)) gs h in
  h_addr h' = h_addr h /\ h_net h' = h_net h.
Proof.
  revert h; induction gs as [|g gs IH]; cbn; [auto|]. intros h. destruct (IH (fst (ip4_set_gateway h g))) as [-> ->].
  unfold ip4_set_gateway. destruct g; [|auto]. destruct (_ || _); auto.
Qed.

Lemma ip6_ll_contains a : 0 <= a < 2 ^ 128 -> net_contains 128 ip6_ll_net a = ip6_is_link_local a.
Proof.
  intros H. rewrite ip6_link_local_iv by auto. unfold net_contains, net_last, ip6_ll_net. cbn [n_addr n_mask].
  change (Z.land (Z.lnot (Z.shiftl 0xFFC0 112)) (2 ^ Z.of_nat 128 - 1)) with (0x40 * 2 ^ 112 - 1).
  change (Z.shiftl 0xFE80 112) with (0xFE80 * 2 ^ 112).
  reflexivity.
Qed.

(** * EUI-64 *)
Lemma land_hi24 x : 0 <= x < 2 ^ 48 -> Z.land x 0xFFFFFF000000 = x / 2 ^ 24 * 2 ^ 24.
Proof.
  intros. replace 0xFFFFFF000000 with (2 ^ 48 - 2 ^ 24) by lia. rewrite land_high by lia. lia.
Qed.
Lemma lxor_byte b : 0 <= b < 256 -> 0 <= Z.lxor b 2 < 256.
Proof.
  intros H. assert (B : forallb (fun x => (0 <=? Z.lxor x 2) && (Z.lxor x 2 <? 256)) (map Z.of_nat (seq 0 256)) = true)
    by (vm_compute; reflexivity).
  rewrite forallb_forall in B. specialize (B b). rewrite in_map_iff in B.
  assert (exists x, Z.of_nat x = b /\ In x (seq 0 256)) as E
    by (exists (Z.to_nat b); split; [lia|apply in_seq; lia]).
  specialize (B E). lia.
Qed.
Lemma lxor2_inj a b : Z.lxor a 2 = Z.lxor b 2 -> a = b.
Proof.
  intros E. assert (Z.lxor (Z.lxor a 2) 2 = Z.lxor (Z.lxor b 2) 2) as E2 by congruence.
  rewrite !Z.lxor_assoc, Z.lxor_nilpotent, !Z.lxor_0_r in E2. exact E2.
Qed.
Lemma eui64_spec addr mac b0 b1 b2 b3 b4 b5 w :
  0 <= addr < 2 ^ 128 -> mk_net 128 addr (prefix_mask 128 64) = Ok w ->
  wf_bytes [b0; b1; b2; b3; b4; b5] -> mac = be [b0; b1; b2; b3; b4; b5] ->
  exists h, ip6_eui64 w mac = Ok h /\
    h_addr h = be (be_enc 8 (addr / 2 ^ 64) ++ [Z.lxor b0 2; b1; b2; 255; 254; b3; b4; b5]) /\
    h_net h = w /\ h_gw h = None /\ 0 <= h_addr h < 2 ^ 128.
Proof.
  intros Ha Ew Hb Em.
  change 128%Z with (Z.of_nat 128) in Ew. rewrite mk_net_spec in Ew by lia. injection Ew as <-.
  set (pre := addr / 2 ^ 64).
  assert (Hpre : 0 <= pre < 2 ^ 64) by (unfold pre; lia).
  change (Z.of_nat 128 - 64) with 64.
  assert (Eaddr : addr - addr mod 2 ^ 64 = pre * 2 ^ 64) by (unfold pre; lia).
  assert (Hs : is_byte b0 /\ is_byte b1 /\ is_byte b2 /\ is_byte b3 /\ is_byte b4 /\ is_byte b5).
  { repeat match goal with H : wf_bytes (_ :: _) |- _ => inversion H; subst; clear H end.
    repeat match goal with H : Forall _ (_ :: _) |- _ => inversion H; subst; clear H end. auto 10. }
  unfold is_byte in Hs. destruct Hs as (H0 & H1 & H2 & H3 & H4 & H5).
  pose proof (lxor_byte b0 H0) as Hx.
  set (hi := b0 * 2 ^ 16 + b1 * 2 ^ 8 + b2). set (lo := b3 * 2 ^ 16 + b4 * 2 ^ 8 + b5).
  assert (Emac : mac = hi * 2 ^ 24 + lo) by (subst mac; unfold be, hi, lo; cbn; lia).
  assert (Hlo : 0 <= lo < 2 ^ 24) by (unfold lo; lia).
  assert (Hhi : 0 <= hi < 2 ^ 24) by (unfold hi; lia).
  unfold ip6_eui64. cbn [n_mask n_addr]. change (Z.of_nat 128) with 128.
  rewrite mask_len_prefix by lia. change (64 =? 64) with true. unfold assert_. cbv zeta.
  rewrite land_hi24 by lia. change 0xFFFFFF with (2 ^ 24 - 1). rewrite land_ones' by lia.
  rewrite Z.shiftl_mul_pow2 by lia.
  replace (mac / 2 ^ 24) with hi by lia. replace (mac mod 2 ^ 24) with lo by lia.
  replace (hi * 2 ^ 24 * 2 ^ 16) with (hi * 2 ^ 40) by lia.
  rewrite lor_shift by lia.
  assert (El : Z.lor (hi * 2 ^ 40 + lo) 0xFFFE000000 = hi * 2 ^ 40 + 0xFFFE000000 + lo).
  { rewrite lor_add; [lia|].
    replace 0xFFFE000000 with (0 * 2 ^ 40 + 0xFFFE000000) by lia.
    rewrite land_shift by lia. rewrite Z.land_0_r.
    replace lo with (0 * 2 ^ 24 + lo) by lia.
    replace 0xFFFE000000 with (0xFFFE * 2 ^ 24 + 0) by lia.
    rewrite land_shift by lia. rewrite Z.land_0_l, Z.land_0_r. lia. }
  rewrite El.
  assert (Ex : Z.lxor (hi * 2 ^ 40 + 0xFFFE000000 + lo) 0x200000000000000
               = Z.lxor b0 2 * 2 ^ 56 + (b1 * 2 ^ 48 + b2 * 2 ^ 40 + 0xFFFE000000 + lo)).
  { replace 0x200000000000000 with (2 * 2 ^ 56) by lia.
    replace (hi * 2 ^ 40 + 0xFFFE000000 + lo)
      with (b0 * 2 ^ 56 + (b1 * 2 ^ 48 + b2 * 2 ^ 40 + 0xFFFE000000 + lo)) by (unfold hi; lia).
    apply lxor_shift; lia. }
  rewrite Ex. change (128 - 64) with 64. rewrite Eaddr. rewrite lor_shift by lia.
  set (A := pre * 2 ^ 64 + _).
  assert (EA : A = be (be_enc 8 pre ++ [Z.lxor b0 2; b1; b2; 255; 254; b3; b4; b5])).
  { rewrite be_app, be_be_enc_small by (change (256 ^ Z.of_nat 8) with (2 ^ 64); lia).
    change (zlen [Z.lxor b0 2; b1; b2; 255; 254; b3; b4; b5]) with 8.
    change (256 ^ 8) with (2 ^ 64). unfold A, lo. f_equal.
    unfold be; cbn [fold_left]. lia. }
  assert (HA : 0 <= A < 2 ^ 128) by (unfold A; lia).
  rewrite ip6_of_int_ok. replace ((0 <=? A) && (A <? 2 ^ 128)) with true by lia. cbn [rbind].
  rewrite mask_of_prefix_spec. change ((0 <=? 64) && (64 <=? Z.of_nat 128)) with true. cbv iota. cbn [rbind].
  unfold mk_host. rewrite mk_net_spec by (change (Z.of_nat 128) with 128; lia). cbn [rbind].
  eexists; split; [reflexivity|]. cbn [h_addr h_net h_gw]. split; [exact EA|]. split; [|auto].
  change (Z.of_nat 128) with 128. change (128 - 64) with 64.
  f_equal. unfold A. lia.
Qed.
Lemma eui_wf b0 b1 b2 b3 b4 b5 : wf_bytes [b0; b1; b2; b3; b4; b5] ->
  wf_bytes [Z.lxor b0 2; b1; b2; 255; 254; b3; b4; b5].
Proof.
  unfold wf_bytes. rewrite !Forall_cons_iff. intros (H0 & H1 & H2 & H3 & H4 & H5 & _).
  pose proof (lxor_byte b0 H0). unfold is_byte in *. repeat split; auto; lia.
Qed.
Lemma eui64_inj addr w mac1 mac2 h1 h2 :
  0 <= addr < 2 ^ 128 -> mk_net 128 addr (prefix_mask 128 64) = Ok w ->
  0 <= mac1 < 2 ^ 48 -> 0 <= mac2 < 2 ^ 48 ->
  ip6_eui64 w mac1 = Ok h1 -> ip6_eui64 w mac2 = Ok h2 -> h_addr h1 = h_addr h2 -> mac1 = mac2.
Proof.
  intros Ha Ew M1 M2 E1 E2 E.
  assert (G : forall mac, 0 <= mac < 2 ^ 48 -> exists b0 b1 b2 b3 b4 b5,
             wf_bytes [b0; b1; b2; b3; b4; b5] /\ mac = be [b0; b1; b2; b3; b4; b5]).
  { intros mac Hm. pose proof (be_enc_zlen 6 mac) as L. pose proof (be_enc_wf 6 mac) as W.
    pose proof (be_be_enc_small 6 mac ltac:(change (256 ^ Z.of_nat 6) with (2 ^ 48); lia)) as B.
    set (l := be_enc 6 mac) in *. clearbody l. change (Z.of_nat 6) with 6 in L. inv_len L.
    do 6 eexists; split; [exact W|auto]. }
  destruct (G mac1 M1) as (a0 & a1 & a2 & a3 & a4 & a5 & W1 & B1).
  destruct (G mac2 M2) as (c0 & c1 & c2 & c3 & c4 & c5 & W2 & B2).
  destruct (eui64_spec addr mac1 _ _ _ _ _ _ w Ha Ew W1 B1) as (h1' & F1 & A1 & _).
  destruct (eui64_spec addr mac2 _ _ _ _ _ _ w Ha Ew W2 B2) as (h2' & F2 & A2 & _).
  rewrite F1 in E1. injection E1 as ->. rewrite F2 in E2. injection E2 as ->.
  rewrite A1, A2 in E. apply be_inj in E.
  - apply app_inv_head in E. injection E as E0 ? ? ? ? ?. apply lxor2_inj in E0. congruence.
  - apply wf_app; split; [apply be_enc_wf|apply eui_wf; auto].
  - apply wf_app; split; [apply be_enc_wf|apply eui_wf; auto].
  - rewrite !app_length. reflexivity.
Qed.

(** * Multicast mapping *)
Lemma sn_value : sn_base = (0xFF02 * 2 ^ 88 + 0x1FF) * 2 ^ 24.
Proof. reflexivity. Qed.
Lemma solicited_node_spec a : 0 <= a < 2 ^ 128 ->
  exists g, ip6_solicited_node_multicast a = Ok g /\
    g = be [255; 2; 0; 0; 0; 0; 0; 0; 0; 0; 0; 1; 255; 0; 0; 0] + a mod 2 ^ 24 /\
    0 <= g < 2 ^ 128 /\ ip6_is_solicited_node_multicast g = true /\ ip6_is_multicast g = true.
Proof.
  intros H. unfold ip6_solicited_node_multicast. change 0xFFFFFF with (2 ^ 24 - 1). rewrite land_ones' by lia.
  rewrite Z.lor_comm, sn_value, lor_shift by lia.
  set (g := _ + a mod 2 ^ 24).
  assert (Hg : 0 <= g < 2 ^ 128) by (unfold g; lia).
  exists g. rewrite ip6_of_int_ok. replace ((0 <=? g) && (g <? 2 ^ 128)) with true by lia.
  split; [reflexivity|]. split; [reflexivity|]. split; [exact Hg|].
  rewrite ip6_sn_iv, ip6_multicast_iv, sn_value by auto. unfold g. lia.
Qed.
Lemma ip6_multicast_mac_spec a : 0 <= a < 2 ^ 128 ->
  if ip6_is_multicast a
  then exists m, ip6_multicast_mac a = Ok m /\ m = be [0x33; 0x33; 0; 0; 0; 0] + a mod 2 ^ 32 /\
       mac_is_multicast_ip6 m = true
  else ip6_multicast_mac a = Exn AssertionError.
Proof.
  intros H. unfold ip6_multicast_mac, assert_. destruct (ip6_is_multicast a); [|reflexivity].
  change (mac_of_int 0x333300000000) with (@Ok Z 0x333300000000). cbn [rbind].
  change 0xFFFFFFFF with (2 ^ 32 - 1). rewrite land_ones' by lia.
  replace 0x333300000000 with (0x3333 * 2 ^ 32) by lia. rewrite lor_shift by lia.
  set (m := _ + a mod 2 ^ 32).
  assert (Hm : 0x333300000000 <= m < 0x333400000000) by (unfold m; lia).
  exists m. unfold mac_of_int, mac_is_multicast_ip6, in_range.
  replace ((0 <=? m) && (m <? 0x1000000000000)) with true by lia.
  split; [reflexivity|]. split; [reflexivity|lia].
Qed.
Lemma ip4_multicast_mac_spec a : 0 <= a < 2 ^ 32 ->
  if ip4_is_multicast a
  then exists m, ip4_multicast_mac a = Ok m /\ m = be [0x01; 0x00; 0x5e; 0; 0; 0] + a mod 2 ^ 23 /\
       mac_is_multicast_ip4 m = true
  else ip4_multicast_mac a = Exn AssertionError.
Proof.
  intros H. unfold ip4_multicast_mac, assert_. destruct (ip4_is_multicast a); [|reflexivity].
  change (mac_of_int 0x1005E000000) with (@Ok Z 0x1005E000000). cbn [rbind].
  change 0x7FFFFF with (2 ^ 23 - 1). rewrite land_ones' by lia.
  replace 0x1005E000000 with (0x200BC * 2 ^ 23) by lia. rewrite lor_shift by lia.
  set (m := _ + a mod 2 ^ 23).
  assert (Hm : 0x1005E000000 <= m < 0x1005F000000) by (unfold m; lia).
  exists m. unfold mac_of_int, mac_is_multicast_ip4, in_range.
  replace ((0 <=? m) && (m <? 0x1000000000000)) with true by lia.
  split; [reflexivity|]. split; [reflexivity|lia].
Qed.

Lemma ip4_unicast_iff a :
  ip4_is_unicast a = true <-> ip4_is_global a = true \/ ip4_is_private a = true \/
    ip4_is_link_local a = true \/ ip4_is_loopback a = true.
Proof. unfold ip4_is_unicast. rewrite !orb_true_iff. tauto. Qed.
Lemma ip4_ranges a : 0 <= a < 2 ^ 32 ->
  (ip4_is_loopback a = true <-> between (dot 127 0 0 0) a (dot 127 255 255 255)) /\
  (ip4_is_link_local a = true <-> between (dot 169 254 0 0) a (dot 169 254 255 255)) /\
  (ip4_is_private a = true <-> between (dot 10 0 0 0) a (dot 10 255 255 255) \/
     between (dot 172 16 0 0) a (dot 172 31 255 255) \/
     between (dot 192 168 0 0) a (dot 192 168 255 255)) /\
  (ip4_is_multicast a = true <-> between (dot 224 0 0 0) a (dot 239 255 255 255)) /\
  (ip4_is_invalid a = true <-> between (dot 0 0 0 1) a (dot 0 255 255 255)) /\
  (ip4_is_unspecified a = true <-> a = dot 0 0 0 0) /\
  (ip4_is_limited_broadcast a = true <-> a = dot 255 255 255 255) /\
  (ip4_is_reserved a = true <-> between (dot 240 0 0 0) a (dot 255 255 255 254) /\ a mod 2 = 0).
Proof.
  intros H. rewrite ip4_invalid_iv, ip4_link_local_iv, ip4_loopback_iv, ip4_multicast_iv,
    ip4_private_iv, ip4_reserved_iv by auto.
  unfold ip4_is_unspecified, ip4_is_limited_broadcast, between, dot.
  repeat split; intros; try lia.
  - rewrite Zeven_mod in H0. unfold Zeq_bool in H0. destruct (a mod 2 ?= 0) eqn:E; try lia.
    apply Z.compare_eq in E. lia.
  - rewrite Zeven_mod in H0. unfold Zeq_bool in H0. destruct (a mod 2 ?= 0) eqn:E; try lia.
    apply Z.compare_eq in E. lia.
  - destruct H0 as [H0 E]. rewrite Zeven_mod. rewrite E. unfold Zeq_bool. cbn. lia.
Qed.
Lemma ip6_prefixes a : 0 <= a < 2 ^ 128 ->
  (ip6_is_unspecified a = true <-> a = 0) /\
  (ip6_is_loopback a = true <-> a = 1) /\
  (ip6_is_link_local a = true <-> same_prefix 128 10 a (0xFE80 * 2 ^ 112)) /\
  (ip6_is_private a = true <-> same_prefix 128 7 a (0xFC00 * 2 ^ 112)) /\
  (ip6_is_global a = true <-> same_prefix 128 3 a (0x2000 * 2 ^ 112)) /\
  (ip6_is_multicast a = true <-> same_prefix 128 8 a (0xFF00 * 2 ^ 112)) /\
  (ip6_is_solicited_node_multicast a = true <->
     same_prefix 128 104 a 0xFF0200000000000000000001FF000000) /\
  at_most_one [ip6_is_unspecified a; ip6_is_loopback a; ip6_is_link_local a; ip6_is_private a;
               ip6_is_global a; ip6_is_multicast a].
Proof.
  intros H.
  rewrite ip6_link_local_iv, ip6_private_iv, ip6_global_iv, ip6_multicast_iv, ip6_sn_iv by auto.
  rewrite !prefix_iv by (lia || (vm_compute; reflexivity)).
  unfold ip6_is_unspecified, ip6_is_loopback, at_most_one. rewrite sn_value.
  do 2 (split; [lia|]). do 5 (split; [lia|]).
  destruct (Z.eqb_spec a 0); destruct (Z.eqb_spec a 1); try (exfalso; lia);
  destruct ((0xFE80 * 2 ^ 112 <=? a) && (a <=? 0xFEC0 * 2 ^ 112 - 1)) eqn:E1; try (exfalso; lia);
  destruct ((0xFC00 * 2 ^ 112 <=? a) && (a <=? 0xFE00 * 2 ^ 112 - 1)) eqn:E2; try (exfalso; lia);
  destruct ((0x2000 * 2 ^ 112 <=? a) && (a <=? 0x4000 * 2 ^ 112 - 1)) eqn:E3; try (exfalso; lia);
  destruct ((0xFF00 * 2 ^ 112 <=? a) && (a <=? 2 ^ 128 - 1)) eqn:E4; try (exfalso; lia);
  cbn; lia.
Qed.
Lemma ip4_gateway_usable n_host gs h g :
  h_gw n_host = None ->
  h = fold_left (fun h g => fst (ip4_set_gateway h g)) gs n_host ->
  h_gw h = Some g ->
  net_contains 32 (h_net n_host) g = true /\ g <> n_addr (h_net n_host) /\
  g <> ip4_broadcast (h_net n_host) /\ g <> h_addr n_host.
Proof.
  intros Hn E Hg.
  assert (I0 : ip4_gw_ok n_host) by (unfold ip4_gw_ok; rewrite Hn; exact I).
  pose proof (ip4_gateways_ok n_host gs I0) as O. pose proof (set_gateway_frame n_host gs) as F.
  cbv zeta in F. rewrite <- E in O, F. destruct F as [F1 F2]. unfold ip4_gw_ok in O. rewrite Hg, F1, F2 in O.
  exact O.
Qed.
Lemma rejected_keeps h g e :
  (snd (ip4_set_gateway h g) = Some e -> fst (ip4_set_gateway h g) = h) /\
  (snd (ip6_set_gateway h g) = Some e -> fst (ip6_set_gateway h g) = h).
Proof.
  unfold ip4_set_gateway, ip6_set_gateway. destruct g; [|split; discriminate].
  destruct (_ || _); destruct (negb _); cbn; split; auto; discriminate.
Qed.
Lemma ip6_gateway_ll h0 gs h g :
  h_gw h0 = None -> Forall (fun o => forall a, o = Some a -> 0 <= a < 2 ^ 128) gs ->
  h = fold_left (fun h g => fst (ip6_set_gateway h g)) gs h0 ->
  h_gw h = Some g -> same_prefix 128 10 g (0xFE80 * 2 ^ 112).
Proof.
  intros Hn HF E Hg.
  assert (I0 : match h_gw h0 with Some g => same_prefix 128 10 g (0xFE80 * 2 ^ 112) | None => True end)
    by (rewrite Hn; exact I).
  clear Hn. revert h0 E I0. induction HF as [|o gs Ho HF IH]; cbn [fold_left]; intros h0 E I0.
  - subst. rewrite Hg in I0. exact I0.
  - apply (IH _ E). unfold ip6_set_gateway. destruct o as [a|]; [|exact I].
    specialize (Ho a eq_refl).
    destruct (negb _) eqn:N; [exact I0|]. cbn. apply negb_false_iff in N.
    rewrite ip6_ll_contains in N by auto. apply ip6_prefixes in N; auto.
Qed.
Lemma eui64_full addr w mac b0 b1 b2 b3 b4 b5 :
  0 <= addr < 2 ^ 128 -> mk_net 128 addr (prefix_mask 128 64) = Ok w ->
  wf_bytes [b0; b1; b2; b3; b4; b5] -> mac = be [b0; b1; b2; b3; b4; b5] ->
  exists h, ip6_eui64 w mac = Ok h /\
    h_addr h = be (be_enc 8 (addr / 2 ^ 64) ++ [Z.lxor b0 2; b1; b2; 255; 254; b3; b4; b5]) /\
    h_net h = w /\ net_contains 128 w (h_addr h) = true /\ h_gw h = None.
Proof.
  intros Ha Ew W B. destruct (eui64_spec addr mac _ _ _ _ _ _ w Ha Ew W B) as (h & E1 & E2 & E3 & E4 & E5).
  exists h. repeat split; auto.
  apply (net_contains_spec 128 64 addr (h_addr h) w ltac:(lia) Ha Ew).
  unfold same_prefix. change (Z.of_nat 128 - 64) with 64. rewrite E2, be_app.
  change (zlen [Z.lxor b0 2; b1; b2; 255; 254; b3; b4; b5]) with 8.
  change (256 ^ 8) with (2 ^ 64).
  rewrite be_be_enc_small by (change (256 ^ Z.of_nat 8) with (2 ^ 64); lia).
  pose proof (be_bound _ (eui_wf _ _ _ _ _ _ W)) as R.
  change (zlen [Z.lxor b0 2; b1; b2; 255; 254; b3; b4; b5]) with 8 in R.
  change (256 ^ 8) with (2 ^ 64) in R. lia.
Qed.
