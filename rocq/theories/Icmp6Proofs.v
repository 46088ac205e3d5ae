(** Proofs about the ICMPv6 codec. *)
From Verif Require Import BaseLemmas BitLemmas CodecModel CksumModel AddrModel SpecAddr AddrProofs
  SpecCksum CksumProofs SpecWire SpecNd Ip4Model Ip4Proofs Ip6Model Ip6Proofs EtherProofs CodecLemmas PshdrLemmas UdpIpProofs
  TcpProofs Icmp4Proofs Icmp6Model.

(** ** option reading on arbitrary bytes *)
Lemma nd_lla_ok mk g : wf_bytes g -> 8 <= zlen g -> nd_lla mk g = Ok (mk (be (slice 2 8 g))).
Proof.
  intros W L. unfold nd_lla. take_bytes L. readf. rewrite mac_of_bytes_be; [reflexivity| |reflexivity].
  wf_split W. wf_solve.
Qed.
Lemma net6_ok k a : 0 <= k <= 128 -> 0 <= a < 2 ^ 128 ->
  mk_net 128 a (prefix_mask 128 k) = Ok {| n_addr := a - a mod 2 ^ (128 - k); n_mask := prefix_mask 128 k |}.
Proof. intros. apply (mk_net_spec 128); auto. Qed.
Definition nd_pi_of (g : bytes) : nd_opt :=
  let k := nth 2 g 0 in let fl := nth 3 g 0 in let a := be (slice 16 32 g) in
  NPi (bit_at g 3 7) (bit_at g 3 6) (bit_at g 3 5) (be (slice 4 8 g)) (be (slice 8 12 g))
      {| n_addr := a - a mod 2 ^ (128 - k); n_mask := prefix_mask 128 k |}.
Lemma nd_pi_ok g : wf_bytes g -> 32 <= zlen g -> nth 2 g 0 <= 128 -> nd_pi g = Ok (nd_pi_of g).
Proof.
  intros W L K. unfold nd_pi, nd_pi_of.
  rewrite !unpack_from_ok by (cbn; lia).
  assert (La : zlen (slice 16 32 g) = 16) by (rewrite zlen_slice; lia).
  rewrite ip6_of_bytes_be by auto.
  assert (Ba : 0 <= be (slice 16 32 g) < 2 ^ 128).
  { pose proof (be_bound (slice 16 32 g) (wf_slice _ _ _ W)) as B. rewrite La in B. exact B. }
  assert (R : u8 g 0 = Ok (nth 0 g 0) /\ u8 g 1 = Ok (nth 1 g 0) /\ u8 g 2 = Ok (nth 2 g 0) /\ u8 g 3 = Ok (nth 3 g 0)).
  { clear - L. assert (L' : 4 <= zlen g) by lia. take_bytes L'. auto. }
  destruct R as (-> & -> & -> & ->). cbn [rbind].
  rewrite mask_of_prefix_spec. pose proof (byte_at_range g 2 W) as B2. unfold byte_at, is_byte in B2.
  replace ((0 <=? nth 2 g 0) && (nth 2 g 0 <=? Z.of_nat 128)) with true by lia. cbn [rbind].
  rewrite net6_ok by (auto; lia). cbn [rbind]. unfold bit_at.
  rewrite (land_bit _ 7), (land_bit _ 6), (land_bit _ 5) by (reflexivity || lia). reflexivity.
Qed.
Lemma nd_unk_ok g : 2 <= zlen g ->
  nd_unk g = Ok (NUnk (nth 0 g 0) (8 * nth 1 g 0) (slice 2 (8 * nth 1 g 0) g)).
Proof.
  intros L. unfold nd_unk. take_bytes L. readf. cbn [nth].
  rewrite !Z.shiftl_mul_pow2 by lia. change (2 ^ 3) with 8. rewrite (Z.mul_comm b0 8). reflexivity.
Qed.

(** the option that starts a well-formed area *)
Definition nd_opt_of (g : bytes) : nd_opt :=
  if nth 0 g 0 =? 1 then NSlla (be (slice 2 8 g)) else if nth 0 g 0 =? 2 then NTlla (be (slice 2 8 g))
  else if nth 0 g 0 =? 3 then nd_pi_of g
  else NUnk (nth 0 g 0) (8 * nth 1 g 0) (slice 2 (8 * nth 1 g 0) g).
Lemma nd_opt_read_ok g : wf_bytes g -> 8 <= zlen g ->
  (nth 0 g 0 = 3 -> 32 <= zlen g /\ nth 2 g 0 <= 128) -> nd_opt_read g = Ok (nd_opt_of g).
Proof.
  intros W L H. unfold nd_opt_read, nd_opt_of.
  assert (u8 g 0 = Ok (nth 0 g 0)) as ->.
  { clear - L. assert (L' : 1 <= zlen g) by lia. take_bytes L'. auto. }
  cbn [rbind]. destruct (Z.eqb_spec (nth 0 g 0) 1); [apply nd_lla_ok; auto|].
  destruct (Z.eqb_spec (nth 0 g 0) 2); [apply nd_lla_ok; auto|].
  destruct (Z.eqb_spec (nth 0 g 0) 3); [apply nd_pi_ok; tauto|]. apply nd_unk_ok. lia.
Qed.

Fixpoint nd_opts_of (fuel : nat) (g : bytes) : list nd_opt :=
  match fuel, g with
  | S k, _ :: n :: _ => nd_opt_of g :: nd_opts_of k (slice_from (8 * n) g)
  | _, _ => []
  end.

Lemma shl3 n : Z.shiftl n 3 = 8 * n.
Proof. rewrite Z.shiftl_mul_pow2 by lia. lia. Qed.

Lemma nd_area_read area : nd_area area -> forall pre fuel, wf_bytes area ->
  (length area < fuel)%nat ->
  nd_check fuel (pre ++ area) (zlen pre) = Ok None /\
  nd_read fuel (pre ++ area) (zlen pre) = Ok (nd_opts_of fuel area).
Proof.
  induction 1 as [|k n d rest Hn Hd H3 Hr IH]; intros pre fuel W L.
  - destruct fuel; [cbn in L; lia|]. rewrite app_nil_r. cbn [nd_check nd_read nd_opts_of].
    replace (zlen pre <? zlen pre) with false by lia. auto.
  - destruct fuel as [|fuel]; [cbn in L; lia|]. cbn [nd_check nd_read nd_opts_of].
    set (g := k :: n :: d ++ rest) in *.
    assert (Lg : zlen g = 8 * n + zlen rest) by (unfold g; rewrite !zlen_cons, zlen_app; lia).
    pose proof (zlen_nonneg rest). pose proof (zlen_nonneg pre).
    rewrite !zlen_app, Lg.
    replace (zlen pre <? zlen pre + (8 * n + zlen rest)) with true by lia.
    unfold check. replace (zlen pre + (8 * n + zlen rest) <? zlen pre + 1) with false by lia.
    assert (u8 (pre ++ g) (zlen pre + 1) = Ok n) as ->.
    { unfold u8. rewrite index_app_shift by lia. replace (zlen pre + 1 - zlen pre) with 1 by lia. reflexivity. }
    cbn [rbind]. replace (n =? 0) with false by lia. rewrite shl3.
    replace (zlen pre + (8 * n + zlen rest) <? zlen pre + 8 * n) with false by lia.
    rewrite slice_from_exact by auto.
    assert (Wg : wf_bytes g) by exact W.
    assert (Wr : wf_bytes rest).
    { unfold g in W. wf_split W. apply wf_app in W. tauto. }
    rewrite nd_opt_read_ok; [|exact Wg|lia|].
    2:{ unfold g. cbn [nth]. intros K. destruct (H3 K) as [A B]. fold g. split; [lia|].
        destruct d as [|x d]; [cbn in Hd; lia|]. exact B. }
    cbn [rbind].
    assert (Eg : pre ++ g = (pre ++ k :: n :: d) ++ rest) by (unfold g; rewrite <- app_assoc; reflexivity).
    assert (Ep : zlen pre + 8 * n = zlen (pre ++ k :: n :: d)) by (rewrite zlen_app, !zlen_cons; lia).
    rewrite Eg, Ep. destruct (IH (pre ++ k :: n :: d) fuel Wr) as [I1 I2].
    { unfold g in L. cbn [length] in L. rewrite app_length in L. lia. }
    rewrite I1, I2. cbn [rbind]. split; [reflexivity|]. unfold g at 2.
    replace (slice_from (8 * n) g) with rest; [reflexivity|].
    unfold g. change (k :: n :: d ++ rest) with ((k :: n :: d) ++ rest).
    symmetry. apply slice_from_exact. rewrite !zlen_cons. lia.
Qed.

(** the integrity loop always makes progress; once it has passed, so does reading *)
Lemma nd_check_fuel fuel f optr : wf_bytes f -> 0 <= optr -> zlen f - optr < Z.of_nat fuel -> (0 < fuel)%nat ->
  nd_check fuel f optr <> Exn OutOfFuel.
Proof.
  revert optr. induction fuel as [|k IH]; intros optr W Ho L P; [lia|].
  cbn [nd_check]. destruct (Z.ltb_spec optr (zlen f)) as [Lt|]; [|discriminate].
  unfold check. destruct (zlen f <? optr + 1); [discriminate|].
  destruct (u8 f (optr + 1)) as [n|e] eqn:E.
  - cbn [rbind]. pose proof (wf_index f (optr + 1) n W E) as Hn. unfold is_byte in Hn. rewrite shl3.
    destruct (Z.eqb_spec n 0); [discriminate|].
    destruct (Z.ltb_spec (zlen f) (optr + 8 * n)); [discriminate|].
    destruct k as [|k]; [lia|]. apply IH; auto; lia.
  - cbn [rbind]. unfold u8, index in E. destruct (nth_error f (Z.to_nat (optr + 1))); congruence.
Qed.
Lemma nd_opt_read_fuel g : nd_opt_read g <> Exn OutOfFuel.
Proof.
  assert (U : forall f i, u8 f i <> Exn OutOfFuel).
  { intros f i. unfold u8, index. destruct (nth_error f (Z.to_nat i)); discriminate. }
  assert (V : forall n f i, unpack_from n f i <> Exn OutOfFuel).
  { intros n f i. unfold unpack_from. destruct (_ <=? _); discriminate. }
  assert (M : forall b, mac_of_bytes b <> Exn OutOfFuel).
  { intros b. unfold mac_of_bytes. destruct (_ =? _); discriminate. }
  assert (A : forall b, ip6_of_bytes b <> Exn OutOfFuel).
  { intros b. unfold ip6_of_bytes. destruct (_ =? _); discriminate. }
  assert (B : forall n k, mask_of_prefix n k <> Exn OutOfFuel).
  { intros n k. unfold mask_of_prefix. destruct (_ && _); discriminate. }
  assert (N : forall n k m, mk_net n k m <> Exn OutOfFuel).
  { intros n k m. unfold mk_net. destruct (_ =? _); discriminate. }
  assert (Bd : forall A B (m : res A) (k : A -> res B), m <> Exn OutOfFuel ->
    (forall x, k x <> Exn OutOfFuel) -> rbind m k <> Exn OutOfFuel).
  { intros A' B' m k Hm Hk. destruct m; cbn; [apply Hk|congruence]. }
  unfold nd_opt_read, nd_lla, nd_pi, nd_unk.
  apply Bd; [apply U|]. intros c.
  destruct (c =? 1); [repeat (apply Bd; [solve [auto]|intros ?]); discriminate|].
  destruct (c =? 2); [repeat (apply Bd; [solve [auto]|intros ?]); discriminate|].
  destruct (c =? 3); repeat (apply Bd; [solve [auto]|intros ?]); discriminate.
Qed.
Lemma nd_read_fuel fuel f optr : nd_check fuel f optr = Ok None -> nd_read fuel f optr <> Exn OutOfFuel.
Proof.
  revert optr. induction fuel as [|k IH]; intros optr; [discriminate|].
  cbn [nd_check nd_read]. destruct (optr <? zlen f); [|discriminate].
  unfold check. destruct (zlen f <? optr + 1); [discriminate|].
  destruct (u8 f (optr + 1)) as [n|e] eqn:E; cbn [rbind]; [|discriminate].
  destruct (n =? 0); [discriminate|]. destruct (zlen f <? _); [discriminate|].
  intros H. pose proof (nd_opt_read_fuel (slice_from optr f)).
  destruct (nd_opt_read (slice_from optr f)); cbn [rbind]; [|congruence].
  specialize (IH _ H). destruct (nd_read k f (optr + Z.shiftl n 3)); cbn [rbind]; [discriminate|congruence].
Qed.

(** reading a router solicitation's options never ends when the byte it takes for
    the first option's length is 0 *)
Lemma nd_read_stuck f optr o : optr < zlen f -> nd_opt_read (slice_from optr f) = Ok o ->
  u8 f (optr + 1) = Ok 0 -> forall fuel, nd_read fuel f optr = Exn OutOfFuel.
Proof.
  intros L R U fuel. induction fuel as [|k IH]; [reflexivity|]. cbn [nd_read].
  replace (optr <? zlen f) with true by lia. rewrite R, U. cbn [rbind].
  change (Z.shiftl 0 3) with 0. rewrite Z.add_0_r, IH. reflexivity.
Qed.

(** ** the parser on arbitrary bytes *)
Definition nd_type (t : Z) : Prop := 133 <= t <= 136.
(** where the options of each message start (RFC 4861) *)
Definition nd_start (t : Z) : Z := if t =? 133 then 8 else if t =? 134 then 16 else 24.

Lemma u8_nth f i : 0 <= i < zlen f -> u8 f i = Ok (nth (Z.to_nat i) f 0).
Proof.
  intros H. unfold u8, index. destruct (nth_error f (Z.to_nat i)) eqn:E.
  - f_equal. symmetry. apply nth_error_nth. exact E.
  - apply nth_error_None in E. unfold zlen in H. lia.
Qed.
Lemma u16_be f a : 0 <= a -> a + 2 <= zlen f -> u16 f a = Ok (be (slice a (a + 2) f)).
Proof. intros. unfold u16. apply unpack_ok. rewrite zlen_slice; lia. Qed.
Lemma u32_be f a : 0 <= a -> a + 4 <= zlen f -> u32 f a = Ok (be (slice a (a + 4) f)).
Proof. intros. unfold u32. apply unpack_ok. rewrite zlen_slice; lia. Qed.

Lemma mld2_walk_total n f plen optr : wf_bytes f -> 0 <= optr -> plen <= zlen f ->
  exists v, mld2_walk n f plen optr = Ok v.
Proof.
  revert optr. induction n as [|n IH]; intros optr W Ho L; cbn [mld2_walk]; unfold check.
  - destruct (negb _); eauto.
  - destruct (Z.ltb_spec plen (optr + 20)); [eauto|].
    rewrite u8_nth by lia. rewrite unpack_from_ok by (cbn; lia). cbn [rbind].
    pose proof (byte_at_range f (Z.to_nat (optr + 1)) W) as B. unfold byte_at, is_byte in B.
    pose proof (be_bound (slice (optr + 2) (optr + 2 + Z.of_nat 2) f) (wf_slice _ _ _ W)).
    apply IH; auto; lia.
Qed.

(** the integrity check passes only what it should, and raises only in the option loop *)
Lemma icmp6_integrity_cases f plen ps pseudo : wf_bytes f -> 0 <= plen < 65536 -> pshdr_for pseudo ps ->
  (exists r, icmp6_integrity f plen ps = Ok (Some r)) \/
  (rfc1071_verifies (pseudo ++ slice 0 plen f) 0 /\ 4 <= plen <= zlen f /\
   let t := nth 0 f 0 in
   (t = 1 -> 12 <= plen) /\ (t = 128 \/ t = 129 -> 8 <= plen) /\ (t = 130 -> 28 <= plen) /\
   (nd_type t -> nd_start t <= plen) /\ (t = 143 -> 8 <= plen) /\
   (nd_type t -> icmp6_integrity f plen ps = nd_option_check f (nd_start t)) /\
   (~ nd_type t -> icmp6_integrity f plen ps = Ok None)).
Proof.
  intros W Hl Hp. unfold icmp6_integrity, check.
  assert (Hs : wf_bytes (slice 0 plen f)) by (apply wf_slice; auto).
  assert (Hz : zlen (slice 0 plen f) < 2 ^ 32) by (unfold slice, zlen; rewrite firstn_length; lia).
  pose proof (pshdr_cksum_check _ _ _ Hp Hs Hz) as K.
  destruct (z2b (inet_cksum (slice 0 plen f) ps)) eqn:Z; [left; eauto|].
  apply z2b_false in Z. apply K in Z.
  destruct ((4 <=? plen) && (plen <=? zlen f)) eqn:L; cbn [negb]; [|left; eauto].
  apply andb_true_iff in L as [L1 L2]. apply Z.leb_le in L1, L2.
  rewrite u8_nth by lia. change (Z.to_nat 0) with 0%nat. cbn [rbind].
  unfold nd_type, nd_start. set (t := nth 0 f 0) in *. clearbody t.
  replace (plen <=? zlen f) with true by lia. rewrite !andb_true_r.
  destruct (Z.eqb_spec t 1) as [T1|T1].
  { destruct (Z.leb_spec 12 plen); cbn [negb]; [right|left; eauto]. repeat split; auto; lia. }
  destruct ((t =? 128) || (t =? 129)) eqn:T2.
  { destruct (Z.leb_spec 8 plen); cbn [negb]; [right|left; eauto]. repeat split; auto; lia. }
  destruct (Z.eqb_spec t 130) as [T3|T3].
  { destruct (Z.leb_spec 28 plen); cbn [negb]; [|left; eauto].
    rewrite u16_be by lia. cbn [rbind]. destruct (negb _); [left; eauto|right]. repeat split; auto; lia. }
  destruct (Z.eqb_spec t 133) as [T4|T4].
  { destruct (Z.leb_spec 8 plen); cbn [negb]; [right|left; eauto].
    repeat split; auto; lia. }
  destruct (Z.eqb_spec t 134) as [T5|T5].
  { destruct (Z.leb_spec 16 plen); cbn [negb]; [right|left; eauto].
    repeat split; auto; lia. }
  destruct (Z.eqb_spec t 135) as [T6|T6].
  { destruct (Z.leb_spec 24 plen); cbn [negb]; [right|left; eauto].
    repeat split; auto; lia. }
  destruct (Z.eqb_spec t 136) as [T7|T7].
  { destruct (Z.leb_spec 24 plen); cbn [negb]; [right|left; eauto].
    repeat split; auto; lia. }
  destruct (Z.eqb_spec t 143) as [T8|T8].
  { destruct (Z.leb_spec 8 plen); cbn [negb]; [|left; eauto].
    rewrite u16_be by lia. cbn [rbind].
    destruct (mld2_walk_total (Z.to_nat (be (slice 6 (6 + 2) f))) f plen 8 W ltac:(lia) L2) as [[v|] E]; rewrite E.
    - left; eauto.
    - right. repeat split; auto; lia. }
  right. repeat split; auto; lia.
Qed.

(** what the sanity check lets through *)
Definition icmp6_sane (f : bytes) (src dst hop : Z) (opts : list nd_opt) : Prop :=
  let t := nth 0 f 0 in let c := nth 1 f 0 in let tg := be (slice 8 24 f) in
  (t = 1 -> c <= 6) /\ (t = 2 -> c = 0) /\ (t = 3 -> c <= 1) /\ (t = 4 -> c <= 2) /\
  (t = 128 \/ t = 129 -> c = 0) /\ (t = 130 \/ t = 143 -> c = 0 /\ hop = 1) /\
  (nd_type t -> c = 0 /\ hop = 255) /\
  (t = 133 -> (ip6_is_unicast src = true \/ src = 0) /\ dst = ip6_all_routers /\
              (src = 0 -> nd_slla opts = None)) /\
  (t = 134 -> ip6_is_link_local src = true /\ (ip6_is_unicast dst = true \/ dst = ip6_all_nodes)) /\
  (t = 135 -> (ip6_is_unicast src = true \/ src = 0) /\ ip6_is_unicast tg = true /\
              (dst = tg \/ ip6_solicited_node_multicast tg = Ok dst) /\ (src = 0 -> nd_slla opts = None)) /\
  (t = 136 -> ip6_is_unicast src = true /\
              (dst = ip6_all_nodes \/ bit_at f 4 6 = true /\ ip6_is_unicast dst = true)).
(** where the parser starts reading the options *)
Definition nd_read_start (t : Z) : Z := if t =? 133 then 12 else if t =? 134 then 16 else 24.

Lemma icmp6_sanity_spec f src dst hop : wf_bytes f -> 4 <= zlen f ->
  (nd_type (nth 0 f 0) -> nd_start (nth 0 f 0) <= zlen f) ->
  match icmp6_sanity f src dst hop with
  | Ok None => forall opts, (nd_type (nth 0 f 0) -> nd_options f (nd_read_start (nth 0 f 0)) = Ok opts) ->
                 icmp6_sane f src dst hop opts
  | Ok (Some _) => forall opts, (nd_type (nth 0 f 0) -> nd_options f (nd_read_start (nth 0 f 0)) = Ok opts) ->
                 ~ icmp6_sane f src dst hop opts
  | Exn e => nd_type (nth 0 f 0) /\ nd_options f (nd_read_start (nth 0 f 0)) = Exn e
  end.
Proof.
  intros W L Hn. unfold icmp6_sanity, icmp6_sane. rewrite !u8_nth by lia.
  change (Z.to_nat 0) with 0%nat. change (Z.to_nat 1) with 1%nat. cbn [rbind].
  unfold nd_type, nd_start, nd_read_start in *. unfold check.
  pose proof (byte_at_range f 1 W) as B1. unfold byte_at, is_byte in B1.
  set (t := nth 0 f 0) in *. set (c := nth 1 f 0) in *. clearbody t c.
  destruct (Z.eqb_spec t 1) as [T1|T1].
  { destruct (Z.leb_spec c 6); cbn [negb]; intros opts _; lia. }
  destruct (Z.eqb_spec t 2) as [T2|T2].
  { destruct (Z.eqb_spec c 0); cbn [negb]; intros opts _; lia. }
  destruct (Z.eqb_spec t 3) as [T3|T3].
  { destruct (Z.leb_spec c 1); cbn [negb]; intros opts _; lia. }
  destruct (Z.eqb_spec t 4) as [T4|T4].
  { destruct (Z.leb_spec c 2); cbn [negb]; intros opts _; lia. }
  destruct ((t =? 128) || (t =? 129)) eqn:T5.
  { destruct (Z.eqb_spec c 0); cbn [negb]; intros opts _; lia. }
  destruct (Z.eqb_spec t 130) as [T6|T6].
  { destruct (Z.eqb_spec c 0); cbn [negb]; [|intros opts _; lia].
    destruct (Z.eqb_spec hop 1); cbn [negb]; intros opts _; lia. }
  destruct (Z.eqb_spec t 133) as [T7|T7].
  { specialize (Hn ltac:(lia)).
    destruct (Z.eqb_spec c 0) as [Hc|]; cbn [negb]; [|intros opts _; lia].
    destruct (Z.eqb_spec hop 255) as [Hh|]; cbn [negb]; [|intros opts _; lia].
    unfold ip6_is_unspecified.
    destruct (ip6_is_unicast src || (src =? 0)) eqn:Es; cbn [negb].
    2:{ intros opts _ H. apply orb_false_iff in Es as [E1 E2]. apply Z.eqb_neq in E2.
        destruct H as (_ & _ & _ & _ & _ & _ & _ & H & _). destruct (H T7) as ([H'|H'] & _); congruence. }
    assert (Es' : ip6_is_unicast src = true \/ src = 0).
    { apply orb_true_iff in Es as [E|E]; [auto|right; lia]. }
    destruct (Z.eqb_spec dst ip6_all_routers) as [Hd|]; cbn [negb].
    2:{ intros opts _ H. lia. }
    destruct (Z.eqb_spec src 0) as [E0|E0].
    - destruct (nd_options f 12) as [l|e] eqn:El; cbn [rbind].
      + destruct (nd_slla l) eqn:Sl.
        * intros opts Ho H. specialize (Ho ltac:(lia)). assert (opts = l) as -> by congruence.
          destruct H as (_ & _ & _ & _ & _ & _ & _ & H & _). destruct (H T7) as (_ & _ & H'). rewrite H' in Sl by auto.
          discriminate.
        * intros opts Ho. specialize (Ho ltac:(lia)). assert (opts = l) as -> by congruence.
          repeat split; auto; lia.
      + split; [lia|reflexivity].
    - intros opts Ho. repeat split; auto; try lia. }
  destruct (Z.eqb_spec t 134) as [T8|T8].
  { specialize (Hn ltac:(lia)).
    destruct (Z.eqb_spec c 0) as [Hc|]; cbn [negb]; [|intros opts _; lia].
    destruct (Z.eqb_spec hop 255) as [Hh|]; cbn [negb]; [|intros opts _; lia].
    destruct (ip6_is_link_local src) eqn:Es; cbn [negb].
    2:{ intros opts _ H. destruct H as (_ & _ & _ & _ & _ & _ & _ & _ & H & _). destruct (H T8). congruence. }
    destruct (ip6_is_unicast dst || (dst =? ip6_all_nodes)) eqn:Ed; cbn [negb].
    2:{ intros opts _ H. destruct H as (_ & _ & _ & _ & _ & _ & _ & _ & H & _). destruct (H T8) as [_ [H'|H']].
        - rewrite H' in Ed. discriminate.
        - rewrite H', Z.eqb_refl, orb_true_r in Ed. discriminate. }
    intros opts _. assert (ip6_is_unicast dst = true \/ dst = ip6_all_nodes).
    { apply orb_true_iff in Ed as [E|E]; [auto|right; lia]. }
    repeat split; auto; lia. }
  destruct (Z.eqb_spec t 135) as [T9|T9].
  { specialize (Hn ltac:(lia)). subst t. change (24 <= zlen f) in Hn.
    destruct (Z.eqb_spec c 0) as [Hc|]; cbn [negb]; [|intros opts _; lia].
    destruct (Z.eqb_spec hop 255) as [Hh|]; cbn [negb]; [|intros opts _; lia].
    unfold ip6_is_unspecified.
    destruct (ip6_is_unicast src || (src =? 0)) eqn:Es; cbn [negb].
    2:{ intros opts _ H. apply orb_false_iff in Es as [E1 E2]. apply Z.eqb_neq in E2.
        destruct H as (_ & _ & _ & _ & _ & _ & _ & _ & _ & H & _). destruct (H eq_refl) as ([H'|H'] & _); congruence. }
    assert (Es' : ip6_is_unicast src = true \/ src = 0).
    { apply orb_true_iff in Es as [E|E]; [auto|right; lia]. }
    assert (La : zlen (slice 8 24 f) = 16) by (rewrite zlen_slice; lia).
    rewrite ip6_of_bytes_be by auto. cbn [rbind].
    pose proof (be_bound (slice 8 24 f) (wf_slice _ _ _ W)) as Bt. rewrite La in Bt.
    destruct (solicited_node_spec _ Bt) as (g & Eg & _). rewrite Eg. cbn [rbind].
    set (tg := be (slice 8 24 f)) in *.
    destruct ((dst =? tg) || (dst =? g)) eqn:Ed; cbn [negb].
    2:{ intros opts _ H. destruct H as (_ & _ & _ & _ & _ & _ & _ & _ & _ & H & _).
        destruct (H eq_refl) as (_ & _ & [H'|H'] & _).
        - rewrite H', Z.eqb_refl in Ed. discriminate.
        - injection H' as ->. rewrite Z.eqb_refl, orb_true_r in Ed. discriminate. }
    assert (Ed' : dst = tg \/ Ok g = Ok dst).
    { apply orb_true_iff in Ed as [E|E]; [left; lia|right; f_equal; lia]. }
    destruct (ip6_is_unicast tg) eqn:Et; cbn [negb].
    2:{ intros opts _ H. destruct H as (_ & _ & _ & _ & _ & _ & _ & _ & _ & H & _).
        destruct (H eq_refl) as (_ & H' & _). congruence. }
    destruct (Z.eqb_spec src 0) as [E0|E0].
    - change (nd_options f 24) with (nd_options f 24).
      destruct (nd_options f 24) as [l|e] eqn:El; cbn [rbind].
      + destruct (nd_slla l) eqn:Sl.
        * intros opts Ho H. specialize (Ho ltac:(lia)). cbn [Z.eqb Pos.eqb] in Ho.
          assert (opts = l) as -> by congruence.
          destruct H as (_ & _ & _ & _ & _ & _ & _ & _ & _ & H & _).
          destruct (H eq_refl) as (_ & _ & _ & H'). rewrite H' in Sl by auto. discriminate.
        * intros opts Ho. specialize (Ho ltac:(lia)). cbn [Z.eqb Pos.eqb] in Ho.
          assert (opts = l) as -> by congruence. repeat split; auto; lia.
      + split; [lia|reflexivity].
    - intros opts Ho. repeat split; auto; lia. }
  destruct (Z.eqb_spec t 136) as [T10|T10].
  { specialize (Hn ltac:(lia)). subst t. change (24 <= zlen f) in Hn.
    destruct (Z.eqb_spec c 0) as [Hc|]; cbn [negb]; [|intros opts _; lia].
    destruct (Z.eqb_spec hop 255) as [Hh|]; cbn [negb]; [|intros opts _; lia].
    destruct (ip6_is_unicast src) eqn:Es; cbn [negb].
    2:{ intros opts _ H. destruct H as (_ & _ & _ & _ & _ & _ & _ & _ & _ & _ & H).
        destruct (H eq_refl). congruence. }
    rewrite u8_nth by lia. cbn [rbind]. change (Z.to_nat 4) with 4%nat.
    rewrite (land_bit _ 6) by (reflexivity || lia). fold (bit_at f 4 6).
    destruct (Z.eqb_spec dst ip6_all_nodes) as [Hd|Hd].
    - rewrite orb_true_r, !andb_false_r. intros opts _. repeat split; auto; lia.
    - rewrite orb_false_r. cbn [negb]. rewrite andb_true_r.
      destruct (bit_at f 4 6) eqn:Eb; cbn [negb andb].
      + destruct (ip6_is_unicast dst) eqn:Eu; cbn [negb].
        * intros opts _. repeat split; auto; lia.
        * intros opts _ H. destruct H as (_ & _ & _ & _ & _ & _ & _ & _ & _ & _ & H).
          destruct (H eq_refl) as [_ [H'|[_ H']]]; congruence.
      + intros opts _ H. destruct H as (_ & _ & _ & _ & _ & _ & _ & _ & _ & _ & H).
        destruct (H eq_refl) as [_ [H'|[H' _]]]; congruence. }
  destruct (Z.eqb_spec t 143) as [T11|T11].
  { destruct (Z.eqb_spec c 0); cbn [negb]; [|intros opts _; lia].
    destruct (Z.eqb_spec hop 1); cbn [negb]; intros opts _; lia. }
  intros opts _. lia.
Qed.

(** the fields at their RFC positions *)
Definition icmp6_of (f : bytes) (plen : Z) (opts : list nd_opt) : icmp6 :=
  let t := nth 0 f 0 in
  {| q6_type := t; q6_code := nth 1 f 0; q6_cksum := be (slice 2 4 f);
     q6_body :=
       if t =? 1 then B6Unreach (slice 8 plen f)
       else if (t =? 128) || (t =? 129) then B6Echo (be (slice 4 6 f)) (be (slice 6 8 f)) (slice 8 plen f)
       else if t =? 133 then B6Rs opts
       else if t =? 134 then
         B6Ra (nth 4 f 0) (bit_at f 5 7) (bit_at f 5 6) (be (slice 6 8 f)) (be (slice 8 12 f)) (be (slice 12 16 f)) opts
       else if t =? 135 then B6Ns (be (slice 8 24 f)) opts
       else if t =? 136 then B6Na (bit_at f 4 7) (bit_at f 4 6) (bit_at f 4 5) (be (slice 8 24 f)) opts
       else if t =? 143 then B6Mld2 (be (slice 6 8 f))
       else B6Other |}.

Lemma icmp6_fields_spec f plen : 4 <= zlen f ->
  let t := nth 0 f 0 in
  (t = 128 \/ t = 129 \/ t = 143 -> 8 <= zlen f) -> (nd_type t -> nd_start t <= zlen f) ->
  (~ nd_type t -> forall opts, icmp6_fields f plen = Ok (icmp6_of f plen opts)) /\
  (nd_type t -> icmp6_fields f plen = (opts <- nd_options f (nd_read_start t) ;; Ok (icmp6_of f plen opts))).
Proof.
  intros L t H8 Hn. subst t. unfold icmp6_fields, icmp6_of. rewrite !u8_nth, u16_be by lia.
  change (Z.to_nat 0) with 0%nat. change (Z.to_nat 1) with 1%nat. cbn [rbind].
  unfold nd_type, nd_start, nd_read_start in *. set (t := nth 0 f 0) in *. clearbody t.
  destruct (Z.eqb_spec t 1) as [T1|T1]; [split; [reflexivity|lia]|].
  destruct ((t =? 128) || (t =? 129)) eqn:T2.
  { specialize (H8 ltac:(lia)). rewrite !u16_be by lia. split; [reflexivity|lia]. }
  destruct (Z.eqb_spec t 133) as [T4|T4].
  { split; [lia|intros _]. destruct (nd_options f 12); reflexivity. }
  destruct (Z.eqb_spec t 134) as [T5|T5].
  { split; [lia|intros _]. specialize (Hn ltac:(lia)).
    rewrite !u8_nth, u16_be, !u32_be by lia.
    change (Z.to_nat 4) with 4%nat. change (Z.to_nat 5) with 5%nat.
    destruct (nd_options f 16); cbn [rbind]; [|reflexivity].
    rewrite (land_bit _ 7), (land_bit _ 6) by (reflexivity || lia). reflexivity. }
  destruct (Z.eqb_spec t 135) as [T6|T6].
  { split; [lia|intros _]. specialize (Hn ltac:(lia)). subst t. change (24 <= zlen f) in Hn.
    rewrite ip6_of_bytes_be by (rewrite zlen_slice; lia).
    destruct (nd_options f 24); reflexivity. }
  destruct (Z.eqb_spec t 136) as [T7|T7].
  { split; [lia|intros _]. specialize (Hn ltac:(lia)). subst t. change (24 <= zlen f) in Hn.
    rewrite ip6_of_bytes_be by (rewrite zlen_slice; lia). rewrite u8_nth by lia. change (Z.to_nat 4) with 4%nat.
    destruct (nd_options f 24); cbn [rbind]; [|reflexivity].
    rewrite (land_bit _ 7), (land_bit _ 6), (land_bit _ 5) by (reflexivity || lia). reflexivity. }
  destruct (Z.eqb_spec t 143) as [T8|T8].
  { specialize (H8 ltac:(lia)). rewrite u16_be by lia. split; [reflexivity|lia]. }
  split; [reflexivity|lia].
Qed.

(** every outcome of parsing arbitrary bytes *)
Lemma icmp6_parse_cases f plen ps pseudo src dst hop : wf_bytes f -> 0 <= plen < 65536 -> pshdr_for pseudo ps ->
  let t := nth 0 f 0 in
  (exists r, icmp6_parse f plen ps src dst hop = Ok (inl r)) \/
  (exists opts, icmp6_parse f plen ps src dst hop = Ok (inr (icmp6_of f plen opts)) /\
     rfc1071_verifies (pseudo ++ slice 0 plen f) 0 /\ 4 <= plen <= zlen f /\
     (nd_type t -> nd_start t <= plen /\ nd_option_check f (nd_start t) = Ok None /\
                   nd_options f (nd_read_start t) = Ok opts) /\
     icmp6_sane f src dst hop opts) \/
  (nd_type t /\ exists e, icmp6_parse f plen ps src dst hop = Exn e /\
     (nd_option_check f (nd_start t) = Exn e \/
      nd_option_check f (nd_start t) = Ok None /\ nd_options f (nd_read_start t) = Exn e)).
Proof.
  intros W Hl Hp t. unfold icmp6_parse, run_parser.
  destruct (icmp6_integrity_cases f plen ps pseudo W Hl Hp) as [[r E]|(V & Lp & C)].
  { left. rewrite E. eexists. reflexivity. }
  cbn zeta in C. fold t in C. destruct C as (C1 & C2 & C3 & Cn & Cm & En & Eo).
  assert (Dec : nd_type t \/ ~ nd_type t) by (unfold nd_type; lia).
  assert (Cn' : nd_type (nth 0 f 0) -> nd_start (nth 0 f 0) <= zlen f).
  { fold t. intros K. specialize (Cn K). lia. }
  pose proof (icmp6_sanity_spec f src dst hop W ltac:(lia) Cn') as S.
  fold t in S.
  destruct (icmp6_fields_spec f plen ltac:(lia)) as [F1 F2].
  { fold t. intros [K|[K|K]]; [specialize (C2 (or_introl K))|specialize (C2 (or_intror K))|specialize (Cm K)]; lia. }
  { fold t. intros K. specialize (Cn K). lia. }
  fold t in F1, F2.
  destruct Dec as [N|N].
  - rewrite (En N). specialize (F2 N).
    destruct (nd_option_check f (nd_start t)) as [[r|]|e] eqn:Ec; cbn [rbind].
    + left; eauto.
    + destruct (icmp6_sanity f src dst hop) as [[r|]|e] eqn:Es; cbn [rbind].
      * left; eauto.
      * rewrite F2. destruct (nd_options f (nd_read_start t)) as [opts|e] eqn:Eopts; cbn [rbind].
        -- right; left. exists opts. split; [reflexivity|]. split; [exact V|]. split; [exact Lp|].
           split; [auto|]. apply S. auto.
        -- right; right. split; [exact N|]. exists e. auto.
      * destruct S as [_ S]. right; right. split; [exact N|]. exists e. auto.
    + right; right. split; [exact N|]. exists e. auto.
  - rewrite (Eo N). cbn [rbind]. destruct (icmp6_sanity f src dst hop) as [[r|]|e] eqn:Es; cbn [rbind].
    + left; eauto.
    + right; left. exists []. rewrite (F1 N []). split; [reflexivity|]. split; [exact V|]. split; [exact Lp|].
      split; [intros; contradiction|]. apply S. intros; contradiction.
    + destruct S; contradiction.
Qed.

Lemma icmp6_other_total f plen ps pseudo src dst hop : wf_bytes f -> 0 <= plen < 65536 -> pshdr_for pseudo ps ->
  ~ nd_type (nth 0 f 0) -> exists r, icmp6_parse f plen ps src dst hop = Ok r.
Proof.
  intros W L Hp N. destruct (icmp6_parse_cases f plen ps pseudo src dst hop W L Hp) as [[r E]|[(o & E & _)|(K & _)]];
    eauto. contradiction.
Qed.

Lemma icmp6_nd_total f plen ps pseudo src dst hop : wf_bytes f -> 0 <= plen < 65536 -> pshdr_for pseudo ps ->
  134 <= nth 0 f 0 <= 136 \/ nth 0 f 0 = 133 /\ zlen f <= 8 ->
  nd_area (slice_from (nd_start (nth 0 f 0)) f) ->
  exists r, icmp6_parse f plen ps src dst hop = Ok r.
Proof.
  intros W L Hp T A.
  destruct (icmp6_parse_cases f plen ps pseudo src dst hop W L Hp) as [[r E]|[(o & E & _)|(K & e & E & H)]]; eauto.
  exfalso. set (t := nth 0 f 0) in *.
  destruct (Z.le_gt_cases (nd_start t) (zlen f)) as [Ls|Ls].
  - assert (St : 0 <= nd_start t) by (unfold nd_start; repeat destruct (_ =? _); lia).
    pose proof (slice_split f (nd_start t) St) as Sp.
    destruct (nd_area_read _ A (slice 0 (nd_start t) f) (S (length f)) (wf_slice_from _ _ W)) as [R1 R2].
    { unfold slice_from. rewrite skipn_length. lia. }
    assert (Lz : zlen (slice 0 (nd_start t) f) = nd_start t) by (rewrite zlen_slice; lia).
    rewrite <- Sp, Lz in R1, R2. unfold nd_option_check, nd_options in H. rewrite R1 in H.
    destruct T as [T|[T T']].
    + replace (nd_read_start t) with (nd_start t) in H
        by (unfold nd_read_start, nd_start; replace (t =? 133) with false by lia; reflexivity).
      rewrite R2 in H. destruct H as [H|[_ H]]; discriminate.
    + unfold nd_read_start in H. rewrite T in H. cbn [Z.eqb Pos.eqb nd_read] in H.
      replace (12 <? zlen f) with false in H by lia. destruct H as [H|[_ H]]; discriminate.
  - unfold nd_option_check, nd_options in H. cbn [nd_check nd_read] in H.
    replace (nd_start t <? zlen f) with false in H by lia.
    replace (nd_read_start t <? zlen f) with false in H
      by (unfold nd_read_start, nd_start in *; destruct (t =? 133); lia).
    destruct H as [H|[_ H]]; discriminate.
Qed.

Lemma icmp6_terminates f plen ps pseudo src dst hop : wf_bytes f -> 0 <= plen < 65536 -> pshdr_for pseudo ps ->
  nth 0 f 0 <> 133 -> icmp6_parse f plen ps src dst hop <> Exn OutOfFuel.
Proof.
  intros W L Hp T.
  destruct (icmp6_parse_cases f plen ps pseudo src dst hop W L Hp) as [[r E]|[(o & E & _)|(K & e & E & H)]];
    rewrite E; try discriminate.
  intros X. assert (e = OutOfFuel) as -> by congruence.
  set (t := nth 0 f 0) in *. pose proof (zlen_nonneg f).
  assert (St : 0 <= nd_start t) by (unfold nd_start; repeat destruct (_ =? _); lia).
  destruct H as [H|[H1 H2]].
  - revert H. apply nd_check_fuel; auto; [unfold zlen; lia|lia].
  - replace (nd_read_start t) with (nd_start t) in H2
      by (unfold nd_read_start, nd_start; replace (t =? 133) with false by lia; reflexivity).
    revert H2. apply nd_read_fuel. exact H1.
Qed.

(** acceptance, the other way round *)
Lemma icmp6_accept f plen ps pseudo src dst hop opts : wf_bytes f -> 0 <= plen < 65536 -> pshdr_for pseudo ps ->
  let t := nth 0 f 0 in
  rfc1071_verifies (pseudo ++ slice 0 plen f) 0 -> 4 <= plen <= zlen f ->
  (t = 1 -> 12 <= plen) -> (t = 128 \/ t = 129 -> 8 <= plen) -> t <> 130 ->
  (nd_type t -> nd_start t <= plen /\ nd_option_check f (nd_start t) = Ok None /\
                nd_options f (nd_read_start t) = Ok opts) ->
  (t = 143 -> 8 <= plen /\ mld2_walk (Z.to_nat (be (slice 6 8 f))) f plen 8 = Ok None) ->
  icmp6_sane f src dst hop opts ->
  icmp6_parse f plen ps src dst hop = Ok (inr (icmp6_of f plen opts)).
Proof.
  intros W Hl Hp t V L H1 H2 H3 Hn Hm S. unfold icmp6_parse, run_parser.
  assert (I : icmp6_integrity f plen ps = Ok None).
  { unfold icmp6_integrity, check.
    assert (Hs : wf_bytes (slice 0 plen f)) by (apply wf_slice; auto).
    assert (Hz : zlen (slice 0 plen f) < 2 ^ 32) by (unfold slice, zlen; rewrite firstn_length; lia).
    pose proof (pshdr_cksum_check _ _ _ Hp Hs Hz) as K. apply K in V. rewrite V. change (z2b 0) with false.
    replace (negb ((4 <=? plen) && (plen <=? zlen f))) with false by lia.
    rewrite u8_nth by lia. change (Z.to_nat 0) with 0%nat. cbn [rbind]. fold t.
    replace (plen <=? zlen f) with true by lia. rewrite !andb_true_r.
    unfold nd_type, nd_start in Hn. clearbody t.
    destruct (Z.eqb_spec t 1) as [T1|T1]; [replace (12 <=? plen) with true by lia; reflexivity|].
    destruct ((t =? 128) || (t =? 129)) eqn:T2; [replace (8 <=? plen) with true by lia; reflexivity|].
    destruct (Z.eqb_spec t 130) as [T3|T3]; [contradiction|].
    destruct (Z.eqb_spec t 133) as [T4|T4].
    { destruct (Hn ltac:(lia)) as (A & B & _). replace (8 <=? plen) with true by lia. exact B. }
    destruct (Z.eqb_spec t 134) as [T5|T5].
    { destruct (Hn ltac:(lia)) as (A & B & _). replace (16 <=? plen) with true by lia. exact B. }
    destruct (Z.eqb_spec t 135) as [T6|T6].
    { destruct (Hn ltac:(lia)) as (A & B & _). replace (24 <=? plen) with true by lia. exact B. }
    destruct (Z.eqb_spec t 136) as [T7|T7].
    { destruct (Hn ltac:(lia)) as (A & B & _). replace (24 <=? plen) with true by lia. exact B. }
    destruct (Z.eqb_spec t 143) as [T8|T8]; [|reflexivity].
    destruct (Hm T8) as (A & B). replace (8 <=? plen) with true by lia. cbn [negb]. rewrite u16_be by lia.
    cbn [rbind]. exact B. }
  rewrite I. cbn [rbind].
  assert (Dec : nd_type t \/ ~ nd_type t) by (unfold nd_type; lia).
  assert (Cn : nd_type (nth 0 f 0) -> nd_start (nth 0 f 0) <= zlen f).
  { fold t. intros K. destruct (Hn K). lia. }
  pose proof (icmp6_sanity_spec f src dst hop W ltac:(lia) Cn) as Sp. fold t in Sp.
  assert (Ho : nd_type t -> nd_options f (nd_read_start t) = Ok opts) by (intros K; apply Hn; exact K).
  destruct (icmp6_fields_spec f plen ltac:(lia)) as [F1 F2].
  { fold t. intros [K|[K|K]]; [specialize (H2 (or_introl K))|specialize (H2 (or_intror K))|destruct (Hm K)]; lia. }
  { exact Cn. }
  fold t in F1, F2.
  destruct (icmp6_sanity f src dst hop) as [[r|]|e]; cbn [rbind].
  - exfalso. exact (Sp opts Ho S).
  - destruct Dec as [N|N].
    + rewrite (F2 N), (Ho N). reflexivity.
    + rewrite (F1 N opts). reflexivity.
  - exfalso. destruct Sp as [N E]. rewrite (Ho N) in E. discriminate.
Qed.
