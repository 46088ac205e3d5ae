(** Lemmas for C105. *)
From Verif Require Import Base BaseLemmas AddrModel AddrProofs SpecAddr IpTextModel SpecIpText IpText4 IpText5 EqModel SpecEq.

Lemma mask_len_inj n k j : 0 <= k <= n -> 0 <= j <= n -> mask_len (prefix_mask n k) = mask_len (prefix_mask n j) -> k = j.
Proof. intros K J. rewrite !mask_len_prefix by assumption. auto. Qed.
Lemma slash_text v a k b j : ip_range v a -> ip_range v b -> 0 <= k -> 0 <= j ->
  ip_str v a ++ lit "/" ++ dec_str k = ip_str v b ++ lit "/" ++ dec_str j -> a = b /\ k = j.
Proof.
  intros A B K J E. change (lit "/") with [47] in E. cbn [app] in E.
  apply slash_inj in E; [|apply ip_str_no_slash; assumption|apply ip_str_no_slash; assumption].
  destruct E as (E1 & E2). split; [eapply ip_str_inj; eauto|eapply dec_str_inj; eauto].
Qed.
Lemma net_len v w : net_good v w -> exists k, 0 <= k <= Z.of_nat (width v) /\ n_mask w = prefix_mask (Z.of_nat (width v)) k /\ mask_len (n_mask w) = k.
Proof. intros (k & K & M & _). exists k. split; [exact K|]. split; [exact M|]. rewrite M. apply mask_len_prefix. exact K. Qed.
Lemma obj_eq_iff o p : good o -> good p -> (obj_eq o p = true <-> same o p).
Proof.
  intros G G'. unfold obj_eq. rewrite text_eqb_spec. split.
  - intros E. destruct o as [a|v a|v m|v w|v h], p as [a'|v' a'|v' m'|v' w'|v' h'];
      try (exfalso; repeat match goal with b : bool |- _ => destruct b end; cbn [obj_repr ip_name app] in E; unfold ip_name in E; cbn in E; discriminate E).
    all: cbn [obj_repr same good] in *; unfold ip_name in *; rewrite <- ?app_assoc in E.
    + apply app_inv_head in E. apply app_inv_head in E. apply app_inv_tail in E. eapply mac_str_inj; eauto.
    + apply app_inv_head in E. assert (v = v') as <- by (destruct v, v'; auto; discriminate E). split; [reflexivity|].
      do 3 apply app_inv_head in E. apply app_inv_tail in E. eapply ip_str_inj; eauto.
    + apply app_inv_head in E. assert (v = v') as <- by (destruct v, v'; auto; discriminate E). split; [reflexivity|].
      do 3 apply app_inv_head in E. apply app_inv_tail in E. unfold mask_str in E. injection E as E.
      destruct G as (k & K & ->), G' as (j & J & ->). rewrite !mask_len_prefix in E by assumption.
      apply dec_str_inj in E; [congruence|lia|lia].
    + apply app_inv_head in E. assert (v = v') as <- by (destruct v, v'; auto; discriminate E). split; [reflexivity|].
      do 3 apply app_inv_head in E. apply app_inv_tail in E. unfold net_str in E.
      destruct (net_len _ _ G) as (k & K & M & L), (net_len _ _ G') as (j & J & M' & L'). rewrite L, L' in E.
      apply slash_text in E; [|destruct G as (? & _ & _ & R & _); exact R|destruct G' as (? & _ & _ & R & _); exact R|lia|lia].
      destruct E as (Ea & ->). destruct w, w'; cbn in *. congruence.
    + apply app_inv_head in E. assert (v = v') as <- by (destruct v, v'; auto; discriminate E). split; [reflexivity|].
      do 3 apply app_inv_head in E. apply app_inv_tail in E. unfold host_str in E. destruct G as (R & G), G' as (R' & G').
      destruct (net_len _ _ G) as (k & K & M & L), (net_len _ _ G') as (j & J & M' & L'). rewrite L, L' in E.
      apply slash_text in E; [|assumption|assumption|lia|lia]. destruct E as (Ea & ->). split; [exact Ea|congruence].
  - intros S. destruct o as [a|v a|v m|v w|v h], p as [a'|v' a'|v' m'|v' w'|v' h']; cbn [same] in S; try contradiction.
    + congruence.
    + destruct S as (-> & ->); reflexivity.
    + destruct S as (-> & ->); reflexivity.
    + destruct S as (-> & ->); reflexivity.
    + destruct S as (-> & Ea & Em). cbn [obj_repr]. unfold host_str. rewrite Ea, Em. reflexivity.
Qed.
(** one network of a given length contains an address *)
Lemma home_net v h : good (OHost v h) -> at_home (OHost v h) -> forall k, 0 <= k <= Z.of_nat (width v) -> n_mask (h_net h) = prefix_mask (Z.of_nat (width v)) k ->
  n_addr (h_net h) = h_addr h - h_addr h mod 2 ^ (Z.of_nat (width v) - k).
Proof.
  intros (R & k' & K' & M' & Rn & D) C k K M. cbn [at_home] in C. unfold net_contains, net_last in C.
  assert (k' = k) as -> by (apply (mask_len_inj (Z.of_nat (width v))); [exact K'|exact K|congruence]).
  rewrite M in C.
  set (p := 2 ^ (Z.of_nat (width v) - k)) in *. assert (0 < p) by (apply Z.pow_pos_nonneg; lia).
  assert (L : Z.land (Z.lnot (prefix_mask (Z.of_nat (width v)) k)) (2 ^ Z.of_nat (width v) - 1) = p - 1).
  { replace (2 ^ Z.of_nat (width v) - 1) with (Z.ones (Z.of_nat (width v))) by (rewrite Z.ones_equiv; lia).
    rewrite Z.land_ones by lia. unfold Z.lnot, prefix_mask. fold p.
    replace (Z.pred (- (2 ^ Z.of_nat (width v) - p))) with (p - 1 + (-1) * 2 ^ Z.of_nat (width v)) by lia.
    rewrite Z.mod_add by lia. apply Z.mod_small. assert (p <= 2 ^ Z.of_nat (width v)) by (apply Z.pow_le_mono_r; lia). lia. }
  rewrite L in C. apply andb_true_iff in C. destruct C as (C1 & C2). apply Z.leb_le in C1, C2.
  assert (h_addr h mod p = h_addr h - n_addr (h_net h)).
  { replace (h_addr h) with (h_addr h - n_addr (h_net h) + (n_addr (h_net h) / p) * p) at 1 by (pose proof (Z.div_mod (n_addr (h_net h)) p ltac:(lia)); lia).
    rewrite Z.mod_add by lia. apply Z.mod_small. lia. }
  lia.
Qed.
Lemma home_same v h v' h' : good (OHost v h) -> good (OHost v' h') -> at_home (OHost v h) -> at_home (OHost v' h') ->
  same (OHost v h) (OHost v' h') -> h_net h = h_net h'.
Proof.
  intros G G' A A' (<- & Ea & Em). pose proof G as (_ & k & K & M & _).
  pose proof (home_net v h G A k K M) as E1. pose proof (home_net v h' G' A' k K ltac:(congruence)) as E2.
  destruct (h_net h), (h_net h'); cbn in *. congruence.
Qed.
Lemma hash_home o p : good o -> good p -> at_home o -> at_home p -> obj_eq o p = true -> obj_hash o = obj_hash p.
Proof.
  intros G G' A A' E. apply obj_eq_iff in E; [|assumption|assumption].
  destruct o as [a|v a|v m|v w|v h], p as [a'|v' a'|v' m'|v' w'|v' h']; cbn [same] in E; try contradiction.
  - congruence.
  - destruct E as (_ & ->); reflexivity.
  - destruct E as (_ & ->); reflexivity.
  - destruct E as (_ & ->); reflexivity.
  - pose proof (home_same _ _ _ _ G G' A A' E) as N. destruct E as (_ & Ea & _). cbn [obj_hash]. rewrite Ea, N. reflexivity.
Qed.
(** a network is its own copy *)
Lemma net_land v w : net_good v w -> Z.land (n_addr w) (n_mask w) = n_addr w.
Proof.
  intros (k & K & M & R & D). rewrite M. unfold prefix_mask.
  set (n := Z.of_nat (width v)) in *. assert (0 < 2 ^ (n - k)) by (apply Z.pow_pos_nonneg; lia).
  assert (E : 2 ^ n - 2 ^ (n - k) = Z.shiftl (Z.ones k) (n - k)).
  { rewrite Z.shiftl_mul_pow2, Z.ones_equiv by lia. replace n with (k + (n - k)) at 1 by lia. rewrite Z.pow_add_r by lia. lia. }
  rewrite E. assert (A : n_addr w = Z.shiftl (n_addr w / 2 ^ (n - k)) (n - k)).
  { rewrite Z.shiftl_mul_pow2 by lia. pose proof (Z.div_mod (n_addr w) (2 ^ (n - k)) ltac:(lia)). lia. }
  rewrite A at 1. rewrite <- Z.shiftl_land, Z.land_ones by lia. rewrite A at 2. f_equal. apply Z.mod_small.
  unfold ip_range in R. assert (2 ^ (if v then 128 else 32) = 2 ^ (n - k) * 2 ^ k) as En.
  { rewrite <- Z.pow_add_r by lia. f_equal. unfold n. destruct v; cbn; lia. }
  rewrite En in R. split; [apply Z.div_pos; lia|apply Z.div_lt_upper_bound; lia].
Qed.
