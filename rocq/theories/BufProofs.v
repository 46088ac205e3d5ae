(** Assembling into a reused buffer (C34): what a packet's assemble() leaves in
    the buffer does not depend on what the buffer held before, whether it succeeds
    or raises. *)
From Verif Require Import Base BaseLemmas CksumModel AddrModel CodecModel CodecLemmas EtherModel Ip4Model Ip6Model
  UdpModel TcpModel Icmp4Model Icmp6Model.

Definition fld_len (f : fld) : Z := match f with FI n _ => Z.of_nat n | FB l => zlen l end.
Definition flds_len (fs : list fld) : Z := fold_right Z.add 0 (map fld_len fs).

Lemma pack_len fs w : pack fs = Ok w -> zlen w = flds_len fs.
Proof.
  revert w; induction fs as [|f fs IH]; intros w E; cbn [pack] in E.
  - injection E as <-. reflexivity.
  - unfold flds_len. cbn [map fold_right]. fold (flds_len fs). destruct f as [n v|l].
    + destruct ((0 <=? v) && (v <? 256 ^ Z.of_nat n)); [|discriminate].
      destruct (pack fs) as [t|] eqn:P; [|discriminate]. cbn [rbind] in E. injection E as <-.
      rewrite zlen_app, be_enc_zlen, (IH t eq_refl). reflexivity.
    + destruct (pack fs) as [t|] eqn:P; [|discriminate]. cbn [rbind] in E. injection E as <-.
      rewrite zlen_app, (IH t eq_refl). reflexivity.
Qed.

Lemma pack_into_len b off fs w : 0 <= off -> pack_into b off fs = Ok w -> zlen w = zlen b.
Proof.
  unfold pack_into. intros Ho E. destruct (pack fs) as [p|]; [|discriminate]. cbn [rbind] in E.
  destruct (off + zlen p <=? zlen b) eqn:L; [|discriminate]. injection E as <-.
  unfold zlen in *. rewrite overwrite_length; lia.
Qed.

Lemma pack_into_any b1 b2 fs : flds_len fs = zlen b1 -> zlen b1 = zlen b2 ->
  pack_into b1 0 fs = pack_into b2 0 fs.
Proof.
  intros L1 L2. destruct (pack fs) as [w|e] eqn:P.
  - pose proof (pack_len _ _ P). rewrite (pack_into_full b1 fs w P), (pack_into_full b2 fs w P) by lia. reflexivity.
  - unfold pack_into. rewrite P. reflexivity.
Qed.

(** a header in front of an untouched rest *)
Lemma pack_into_hdr fs h : flds_len fs = h ->
  (exists w, zlen w = h /\ forall b, h <= zlen b -> pack_into b 0 fs = Ok (w ++ slice_from h b)) \/
  (exists e, forall b, pack_into b 0 fs = Exn e).
Proof.
  intros L. destruct (pack fs) as [w|e] eqn:P.
  - left. exists w. pose proof (pack_len _ _ P) as Lw. split; [lia|]. intros b Hb.
    rewrite (pack_into_0 b fs w P) by lia. do 3 f_equal. lia.
  - right. exists e. intros b. unfold pack_into. rewrite P. reflexivity.
Qed.

Lemma pack_into_left w t off fs : 0 <= off -> off + flds_len fs <= zlen w ->
  pack_into (w ++ t) off fs = (w' <- pack_into w off fs ;; Ok (w' ++ t)).
Proof.
  intros Ho L. unfold pack_into. destruct (pack fs) as [p|e] eqn:P; [|reflexivity]. cbn [rbind].
  pose proof (pack_len _ _ P) as Lp. rewrite zlen_app. pose proof (zlen_nonneg t).
  replace (off + zlen p <=? zlen w + zlen t) with true by lia.
  replace (off + zlen p <=? zlen w) with true by lia. cbn [rbind]. f_equal.
  unfold overwrite, zlen in *. rewrite <- !app_assoc.
  rewrite firstn_app. replace (Z.to_nat off - length w)%nat with O by lia.
  rewrite skipn_app. replace (Z.to_nat off + length p - length w)%nat with O by lia.
  cbn [firstn skipn]. rewrite app_nil_r. reflexivity.
Qed.

(** independent of the buffer, and filling exactly it *)
Definition indep (c : carried) : Prop := 0 <= c_len c /\
  (forall b1 b2 ps, zlen b1 = c_len c -> zlen b2 = c_len c -> c_asm c b1 ps = c_asm c b2 ps) /\
  (forall b ps w, zlen b = c_len c -> c_asm c b ps = Ok w -> zlen w = c_len c).

Lemma assert_same {A} b (x y : res A) : (b = true -> x = y) -> assert_ b x = assert_ b y.
Proof. destruct b; cbn; auto. Qed.
Lemma assert_Ok {A} b (x : res A) v : assert_ b x = Ok v -> b = true /\ x = Ok v.
Proof. destruct b; cbn; [auto|discriminate]. Qed.

Lemma mac_bytes_zlen m : zlen (mac_bytes m) = 6. Proof. reflexivity. Qed.
Lemma ip4_bytes_zlen m : zlen (ip4_bytes m) = 4. Proof. reflexivity. Qed.
Lemma ip6_bytes_zlen m : zlen (ip6_bytes m) = 16. Proof. reflexivity. Qed.

Lemma raw_indep d : indep (raw_carried d).
Proof.
  unfold indep, raw_carried, raw_asm. cbn [c_len c_asm]. repeat split.
  - apply zlen_nonneg.
  - intros b1 b2 _ L1 L2. apply pack_into_any; [|lia]. unfold flds_len. cbn [map fold_right fld_len]. lia.
  - intros b _ w L E. apply pack_into_len in E; lia.
Qed.

Ltac flen := unfold flds_len; cbn [map fold_right fld_len];
  rewrite ?mac_bytes_zlen, ?ip4_bytes_zlen, ?ip6_bytes_zlen.

Lemma fill_any b1 b2 fs (g : bytes -> res bytes) : flds_len fs = zlen b1 -> zlen b1 = zlen b2 ->
  (b <- pack_into b1 0 fs ;; g b) = (b <- pack_into b2 0 fs ;; g b).
Proof. intros L1 L2. rewrite (pack_into_any b1 b2 fs L1 L2). reflexivity. Qed.
Lemma fill_len b fs off (fs' : bytes -> Z -> list fld) f w : 0 <= off ->
  (b' <- pack_into b 0 fs ;; pack_into b' off (fs' b' f)) = Ok w -> zlen w = zlen b.
Proof.
  intros Ho E. destruct (pack_into b 0 fs) as [b'|] eqn:P; [|discriminate]. cbn [rbind] in E.
  apply pack_into_len in P; [|lia]. apply pack_into_len in E; lia.
Qed.

Lemma arp_indep p : indep (arp_carried p).
Proof.
  unfold indep, arp_carried, arp_asm. cbn [c_len c_asm]. repeat split; [lia|..].
  - intros b1 b2 _ L1 L2. apply assert_same. intros _. apply pack_into_any; [flen|]; lia.
  - intros b _ w L E. apply assert_Ok in E as [_ E]. apply pack_into_len in E; lia.
Qed.
Lemma frag6_indep n o m i d : indep (frag6_carried n o m i d).
Proof.
  unfold indep, frag6_carried, frag6_asm. cbn [c_len c_asm]. pose proof (zlen_nonneg d). repeat split; [lia|..].
  - intros b1 b2 _ L1 L2. apply assert_same. intros _. apply pack_into_any; [flen|]; lia.
  - intros b _ w L E. apply assert_Ok in E as [_ E]. apply pack_into_len in E; lia.
Qed.
Lemma udp_indep s d x : indep (udp_carried s d x).
Proof.
  unfold indep, udp_carried, udp_asm. cbn [c_len c_asm]. pose proof (zlen_nonneg x). repeat split; [lia|..].
  - intros b1 b2 ps L1 L2. apply assert_same; intros _. apply assert_same; intros _. apply fill_any; [flen|]; lia.
  - intros b ps w L E. apply assert_Ok in E as [_ E]. apply assert_Ok in E as [_ E].
    apply (fill_len b _ 6 (fun b ps => [FI 2 (inet_cksum b ps)]) ps) in E; lia.
Qed.
Lemma icmp4_indep t : indep (icmp4_carried t).
Proof.
  unfold indep, icmp4_carried, icmp4_asm. cbn [c_len c_asm].
  assert (0 <= icmp4_tx_len t) by (destruct t as [? ? x|x|? ? x]; cbn [icmp4_tx_len]; pose proof (zlen_nonneg x); lia).
  repeat split; [assumption|..].
  - intros b1 b2 ps L1 L2. apply fill_any; [|lia]. rewrite L1. destruct t; flen; cbn [icmp4_tx_len]; lia.
  - intros b ps w L E. apply (fill_len b _ 2 (fun b ps => [FI 2 (inet_cksum b ps)]) 0) in E; lia.
Qed.

Lemma tcp_raw_len l w : tcp_raw_options l = Ok w -> zlen w = fold_right Z.add 0 (map tcp_topt_len l).
Proof.
  revert w; induction l as [|o l IH]; intros w E; cbn [tcp_raw_options] in E.
  - injection E as <-. reflexivity.
  - destruct (tcp_topt_bytes o) as [a|] eqn:Ea; [|discriminate]. cbn [rbind] in E.
    destruct (tcp_raw_options l) as [t|] eqn:Et; [|discriminate]. cbn [rbind] in E. injection E as <-.
    rewrite zlen_app, (IH t eq_refl). cbn [map fold_right]. f_equal.
    destruct o; cbn [tcp_topt_bytes] in Ea; apply pack_len in Ea; rewrite Ea; reflexivity.
Qed.
Lemma tcp_opts_nonneg l : 0 <= fold_right Z.add 0 (map tcp_topt_len l).
Proof. induction l as [|o l IH]; cbn [map fold_right]; [lia|]. destruct o; cbn [tcp_topt_len]; lia. Qed.
Lemma tcp_indep t : indep (tcp_carried t).
Proof.
  unfold indep, tcp_carried, tcp_asm. cbn [c_len c_asm].
  pose proof (tcp_opts_nonneg (x_opts t)). pose proof (zlen_nonneg (x_data t)).
  repeat split; [unfold x_len, x_hlen; lia|..].
  - intros b1 b2 ps L1 L2. apply assert_same; intros _.
    destruct (tcp_raw_options (x_opts t)) as [raw|] eqn:R; [|reflexivity]. cbn [rbind].
    apply tcp_raw_len in R. apply fill_any; [flen; unfold x_len, x_hlen in L1|]; lia.
  - intros b ps w L E. apply assert_Ok in E as [_ E].
    destruct (tcp_raw_options (x_opts t)) as [raw|] eqn:R; [|discriminate]. cbn [rbind] in E.
    apply (fill_len b _ 16 (fun b ps => [FI 2 (inet_cksum b ps)]) ps) in E; lia.
Qed.

Lemma nd_topts_len l w : nd_topts_bytes l = Ok w -> zlen w = zsum (map nd_topt_len l).
Proof.
  unfold nd_topts_bytes. revert w; induction l as [|o l IH]; intros w E; cbn [rconcat map] in E.
  - injection E as <-. reflexivity.
  - destruct (nd_topt_bytes o) as [a|] eqn:Ea; [|discriminate]. cbn [rbind] in E.
    destruct (rconcat (map nd_topt_bytes l)) as [t|] eqn:Et; [|discriminate]. cbn [rbind] in E. injection E as <-.
    rewrite zlen_app, (IH t eq_refl). cbn [map zsum fold_right]. f_equal.
    destruct o; cbn [nd_topt_bytes] in Ea; apply pack_len in Ea; rewrite Ea; flen; reflexivity.
Qed.
Lemma concat_ip6_len l : zlen (concat (map ip6_bytes l)) = 16 * zlen l.
Proof. induction l as [|a l IH]; [reflexivity|]. cbn [map concat]. rewrite zlen_app, IH, ip6_bytes_zlen, zlen_cons. lia. Qed.
Lemma mld2_len l w : rconcat (map mld2_rec_bytes l) = Ok w -> zlen w = zsum (map mld2_rec_len l).
Proof.
  revert w; induction l as [|o l IH]; intros w E; cbn [rconcat map] in E.
  - injection E as <-. reflexivity.
  - destruct (mld2_rec_bytes o) as [a|] eqn:Ea; [|discriminate]. cbn [rbind] in E.
    destruct (rconcat (map mld2_rec_bytes l)) as [t|] eqn:Et; [|discriminate]. cbn [rbind] in E. injection E as <-.
    rewrite zlen_app, (IH t eq_refl). cbn [map zsum fold_right]. f_equal.
    unfold mld2_rec_bytes in Ea. match type of Ea with rbind (pack ?f) _ = _ => destruct (pack f) as [h|] eqn:P end; [|discriminate].
    cbn [rbind] in Ea. injection Ea as <-. apply pack_len in P. rewrite !zlen_app, concat_ip6_len, P.
    unfold mld2_rec_len. flen. lia.
Qed.
Lemma nd_lens_nonneg l : 0 <= zsum (map nd_topt_len l).
Proof. induction l as [|o l IH]; cbn [map zsum fold_right]; [lia|]. destruct o; cbn [nd_topt_len]; fold zsum; unfold zsum in *; lia. Qed.
Lemma mld2_lens_nonneg l : 0 <= zsum (map mld2_rec_len l).
Proof.
  induction l as [|o l IH]; cbn [map zsum fold_right]; [lia|]. unfold zsum in *. unfold mld2_rec_len at 1.
  pose proof (zlen_nonneg (mr_srcs o)). pose proof (zlen_nonneg (mr_aux o)). lia.
Qed.
Lemma icmp6_indep t : indep (icmp6_carried t).
Proof.
  unfold indep, icmp6_carried, icmp6_asm. cbn [c_len c_asm].
  repeat split.
  - destruct t as [d|i s d|i s d|l|h m o li re rt l|tg l|r s o tg l|l]; cbn [icmp6_tx_len];
      try pose proof (zlen_nonneg d); try pose proof (nd_lens_nonneg l); try pose proof (mld2_lens_nonneg l); lia.
  - intros b1 b2 ps L1 L2.
    destruct t as [d|i s d|i s d|l|h m o li re rt l|tg l|r s o tg l|l]; cbn [icmp6_tx_len] in *;
      cbn [rbind]; try (apply fill_any; [flen|]; lia);
      try (destruct (nd_topts_bytes l) as [w|] eqn:E; [|reflexivity]; cbn [rbind]; apply nd_topts_len in E;
           apply fill_any; [flen|]; lia).
    destruct (rconcat (map mld2_rec_bytes l)) as [w|] eqn:E; [|reflexivity]; cbn [rbind]; apply mld2_len in E.
    apply fill_any; [flen|]; lia.
  - intros b ps w L E.
    match type of E with rbind ?x _ = _ => destruct x as [fs|]; [|discriminate] end. cbn [rbind] in E.
    apply (fill_len b _ 2 (fun b ps => [FI 2 (inet_cksum b ps)]) ps) in E; lia.
Qed.

(** ** packets that carry packets *)
Lemma asm_tail_ok' w t c ps h : zlen w = h -> asm_tail (w ++ t) h c ps = (t' <- c_asm c t ps ;; Ok (w ++ t')).
Proof.
  intros L. unfold asm_tail. rewrite slice_from_exact by auto. rewrite slice_0_exact by auto. reflexivity.
Qed.

Lemma ip4_indep t c : indep c -> indep (ip4_carried t c).
Proof.
  intros (Hc & I1 & I2). unfold indep, ip4_carried, ip4_asm. cbn [c_len c_asm].
  set (plen := ip4_len t (c_len c)).
  assert (Hh : 20 <= t4_hlen t) by (unfold t4_hlen; pose proof (zlen_nonneg (ip4_raw_options (t4_opts t))); lia).
  assert (Hp : plen = t4_hlen t + c_len c).
  { unfold plen, ip4_len, t4_hlen, ip4_raw_options, zlen. rewrite map_length. lia. }
  assert (Hf : flds_len (ip4_hdr_flds t plen) = t4_hlen t) by (unfold ip4_hdr_flds, t4_hlen; flen; lia).
  assert (G : (exists w ps, zlen w = t4_hlen t /\ forall b, zlen b = plen ->
    (b <- pack_into b 0 (ip4_hdr_flds t plen) ;;
     b <- pack_into b 10 [FI 2 (inet_cksum (slice 0 (t4_hlen t) b) 0)] ;;
     ps <- ip4_pshdr_sum (t4_src t) (t4_dst t) (t4_proto t) (plen - t4_hlen t) ;;
     asm_tail b (t4_hlen t) c ps) = (t' <- c_asm c (slice_from (t4_hlen t) b) ps ;; Ok (w ++ t'))) \/
   (exists e, forall b, zlen b = plen ->
    (b <- pack_into b 0 (ip4_hdr_flds t plen) ;;
     b <- pack_into b 10 [FI 2 (inet_cksum (slice 0 (t4_hlen t) b) 0)] ;;
     ps <- ip4_pshdr_sum (t4_src t) (t4_dst t) (t4_proto t) (plen - t4_hlen t) ;;
     asm_tail b (t4_hlen t) c ps) = Exn e)).
  { destruct (pack_into_hdr _ _ Hf) as [(w & Lw & W)|(e & E)].
    2:{ right. exists e. intros b _. rewrite E. reflexivity. }
    assert (L2 : forall v, 10 + flds_len [FI 2 v] <= zlen w) by (intros v; flen; lia).
    destruct (pack_into w 10 [FI 2 (inet_cksum w 0)]) as [w'|e] eqn:P.
    2:{ right. exists e. intros b Lb. rewrite W by lia. cbn [rbind]. rewrite slice_0_exact by auto.
        rewrite pack_into_left by (auto; lia). rewrite P. reflexivity. }
    destruct (ip4_pshdr_sum (t4_src t) (t4_dst t) (t4_proto t) (plen - t4_hlen t)) as [ps|e] eqn:Q.
    2:{ right. exists e. intros b Lb. rewrite W by lia. cbn [rbind]. rewrite slice_0_exact by auto.
        rewrite pack_into_left by (auto; lia). rewrite P. reflexivity. }
    left. exists w', ps. apply pack_into_len in P as Lw'; [|lia]. split; [lia|].
    intros b Lb. rewrite W by lia. cbn [rbind]. rewrite slice_0_exact by auto.
    rewrite pack_into_left by (auto; lia). rewrite P. cbn [rbind]. rewrite asm_tail_ok' by lia. reflexivity. }
  repeat split; [lia|..].
  - intros b1 b2 _ L1 L2. apply assert_same; intros _.
    destruct G as [(w & ps & Lw & G)|(e & G)]; [|rewrite !G by auto; reflexivity].
    rewrite !G by auto. rewrite (I1 (slice_from (t4_hlen t) b1) (slice_from (t4_hlen t) b2)); [reflexivity|..];
      rewrite zlen_slice_from; lia.
  - intros b _ w L E. apply assert_Ok in E as [_ E].
    destruct G as [(w' & ps & Lw & G)|(e & G)]; rewrite G in E by auto; [|discriminate].
    destruct (c_asm c (slice_from (t4_hlen t) b) ps) as [t'|] eqn:A; [|discriminate]. cbn [rbind] in E. injection E as <-.
    rewrite zlen_app, Lw. apply I2 in A; [|rewrite zlen_slice_from]; lia.
Qed.

Lemma ip4_frag_indep t d : indep (ip4_frag_carried t d).
Proof.
  unfold indep, ip4_frag_carried, ip4_frag_asm. cbn [c_len c_asm].
  assert (Hh : ip4_len t (zlen d) = flds_len (ip4_hdr_flds t (ip4_len t (zlen d)) ++ [FB d])).
  { unfold ip4_hdr_flds. cbn [app]. flen. unfold ip4_len, ip4_raw_options, zlen. rewrite map_length. lia. }
  repeat split.
  - unfold ip4_len. pose proof (zlen_nonneg d). pose proof (zlen_nonneg (t4_opts t)). lia.
  - intros b1 b2 _ L1 L2. apply assert_same; intros _. apply fill_any; lia.
  - intros b _ w L E. apply assert_Ok in E as [_ E].
    apply (fill_len b _ 10 (fun b ps => [FI 2 (inet_cksum (slice 0 (t4_hlen t) b) ps)]) 0) in E; lia.
Qed.

Lemma hdr_then_indep fs h c (P : res Z) : 0 <= h -> flds_len fs = h -> indep c ->
  (forall b1 b2, zlen b1 = h + c_len c -> zlen b2 = h + c_len c ->
     (b <- pack_into b1 0 fs ;; ps <- P ;; asm_tail b h c ps) = (b <- pack_into b2 0 fs ;; ps <- P ;; asm_tail b h c ps)) /\
  (forall b w, zlen b = h + c_len c -> (b <- pack_into b 0 fs ;; ps <- P ;; asm_tail b h c ps) = Ok w -> zlen w = h + c_len c).
Proof.
  intros Hh Hf (Hc & I1 & I2). destruct (pack_into_hdr _ _ Hf) as [(w & Lw & W)|(e & E)].
  2:{ split; intros; [rewrite !E; reflexivity|]. rewrite E in *. discriminate. }
  destruct P as [ps|e].
  2:{ split; intros; [rewrite !W by lia; reflexivity|]. rewrite W in * by lia. discriminate. }
  split.
  - intros b1 b2 L1 L2. rewrite !W by lia. cbn [rbind]. rewrite !asm_tail_ok' by lia.
    rewrite (I1 (slice_from h b1) (slice_from h b2)); [reflexivity|..]; rewrite zlen_slice_from; lia.
  - intros b w' L E. rewrite W in E by lia. cbn [rbind] in E. rewrite asm_tail_ok' in E by lia.
    destruct (c_asm c (slice_from h b) ps) as [t'|] eqn:A; [|discriminate]. cbn [rbind] in E. injection E as <-.
    rewrite zlen_app, Lw. apply I2 in A; [|rewrite zlen_slice_from]; lia.
Qed.

Lemma ip6_indep t c : indep c -> indep (ip6_carried t c).
Proof.
  intros I. assert (Hc := proj1 I). unfold indep, ip6_carried, ip6_asm. cbn [c_len c_asm].
  match goal with |- context [pack_into _ 0 ?fs] => assert (Hf : flds_len fs = 40) by (flen; lia);
    destruct (hdr_then_indep fs 40 c (ip6_pshdr_sum (t6_src t) (t6_dst t) (c_len c) (t6_next t))) as [J1 J2];
    [lia|exact Hf|exact I|] end.
  repeat split; [lia|..].
  - intros b1 b2 _ L1 L2. apply assert_same; intros _. apply J1; assumption.
  - intros b _ w L E. apply assert_Ok in E as [_ E]. exact (J2 b w L E).
Qed.
Lemma ether_indep dst src ty c b1 b2 : indep c -> zlen b1 = ether_len c -> zlen b2 = ether_len c ->
  ether_asm dst src ty c b1 = ether_asm dst src ty c b2 /\
  (forall w, ether_asm dst src ty c b1 = Ok w -> zlen w = ether_len c).
Proof.
  intros I L1 L2. unfold ether_asm, ether_len in *.
  destruct (hdr_then_indep [FB (mac_bytes dst); FB (mac_bytes src); FI 2 ty] 14 c (Ok 0)) as [J1 J2];
    [lia|flen; lia|exact I|]. cbn [rbind] in J1, J2. split.
  - apply assert_same; intros _. apply J1; assumption.
  - intros w E. apply assert_Ok in E as [_ E]. exact (J2 b1 w L1 E).
Qed.
