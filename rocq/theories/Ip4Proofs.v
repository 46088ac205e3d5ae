(** Proofs about the IPv4 codec. *)
From Verif Require Import BaseLemmas BitLemmas CodecModel CksumModel SpecCksum CksumProofs
  AddrModel AddrProofs Ip4Model SpecWire CodecLemmas EtherProofs.

(** ** fields in plain arithmetic *)
Definition byte_at (f : bytes) (i : nat) : Z := nth i f 0.
Definition word_at (f : bytes) (i : nat) : Z := byte_at f i * 256 + byte_at f (S i).

Definition ip4_of (f : bytes) (opts : list ip4_opt) : ip4 :=
  {| i4_ver := byte_at f 0 / 16; i4_hlen := byte_at f 0 mod 16 * 4;
     i4_dscp := byte_at f 1 / 4; i4_ecn := byte_at f 1 mod 4;
     i4_plen := word_at f 2; i4_id := word_at f 4;
     i4_df := byte_at f 6 / 64 mod 2 =? 1; i4_mf := byte_at f 6 / 32 mod 2 =? 1;
     i4_offset := word_at f 6 mod 8192 * 8; i4_ttl := byte_at f 8; i4_proto := byte_at f 9;
     i4_cksum := word_at f 10; i4_src := be (slice 12 16 f); i4_dst := be (slice 16 20 f);
     i4_opts := opts; i4_frame := f |}.

Lemma be2 a b : be [a; b] = a * 256 + b.
Proof. unfold be; cbn [fold_left]. lia. Qed.

Lemma ip4_reads f : wf_bytes f -> 20 <= zlen f ->
  ip4_ver f = Ok (byte_at f 0 / 16) /\ ip4_hlen f = Ok (byte_at f 0 mod 16 * 4) /\
  u8 f 1 = Ok (byte_at f 1) /\ ip4_plen f = Ok (word_at f 2) /\ u16 f 4 = Ok (word_at f 4) /\
  ip4_df f = Ok (byte_at f 6 / 64 mod 2 =? 1) /\ ip4_mf f = Ok (byte_at f 6 / 32 mod 2 =? 1) /\
  ip4_offset f = Ok (word_at f 6 mod 8192 * 8) /\ u8 f 8 = Ok (byte_at f 8) /\
  u8 f 9 = Ok (byte_at f 9) /\ u16 f 10 = Ok (word_at f 10) /\
  ip4_src f = Ok (be (slice 12 16 f)) /\ ip4_dst f = Ok (be (slice 16 20 f)).
Proof.
  intros W L. take_bytes L.
  unfold ip4_ver, ip4_hlen, ip4_plen, ip4_df, ip4_mf, ip4_offset, ip4_src, ip4_dst. readf.
  rewrite !be2, land_15, land_1fff, !Z.shiftl_mul_pow2, !Z.shiftr_div_pow2 by lia.
  rewrite (land_bit b5 6 0x40), (land_bit b5 5 0x20) by (lia || reflexivity).
  rewrite !ip4_of_bytes_be by reflexivity.
  repeat split; reflexivity.
Qed.

Lemma ip4_fields_ok f : wf_bytes f -> 20 <= zlen f ->
  ip4_fields f = (opts <- ip4_options ip4_fuel f (byte_at f 0 mod 16 * 4) 20 ;; Ok (ip4_of f opts)).
Proof.
  intros W L. unfold ip4_fields.
  destruct (ip4_reads f W L) as (E1&E2&E3&E4&E5&E6&E7&E8&E9&E10&E11&E12&E13).
  rewrite E1, E2, E3, E4, E5, E6, E7, E8, E9, E10, E11, E12, E13. cbn [rbind].
  destruct (ip4_options _ _ _ _); cbn [rbind]; [|reflexivity]. unfold ip4_of.
  do 2 f_equal.
  - assert (B : is_byte (byte_at f 1)).
    { take_bytes L. wf_split W. assumption. }
    unfold is_byte in B. rewrite (shr_land_field _ 2 6) by (lia || reflexivity).
    change (2 ^ 2) with 4. change (2 ^ 6) with 64. lia.
  - apply land_3.
Qed.

Lemma byte_at_range f i : wf_bytes f -> is_byte (byte_at f i).
Proof.
  intros W. unfold byte_at. destruct (nth_in_or_default i f 0) as [I|E].
  - apply (proj1 (Forall_forall _ _) W _ I).
  - rewrite E. unfold is_byte; lia.
Qed.

Lemma z2b_false x : z2b x = false -> x = 0.
Proof. unfold z2b. destruct (Z.eqb_spec x 0); cbn; congruence. Qed.

(** ** option area *)
(** the check's outcomes; an exception needs a frame that ends with the header *)
Lemma ip4_opt_check_total fuel : forall f hlen optr,
  wf_bytes f -> 0 <= optr -> hlen <= zlen f -> (Z.to_nat (hlen - optr) < fuel)%nat ->
  (exists v, ip4_opt_check fuel f hlen optr = Ok v) \/
  (ip4_opt_check fuel f hlen optr = Exn IndexError /\ zlen f = hlen /\ optr < hlen /\
   exists k, index f (hlen - 1) = Ok k /\ 2 <= k).
Proof.
  induction fuel as [|fuel IH]; intros f hlen optr W Ho Hl Hf; [lia|].
  cbn [ip4_opt_check]. destruct (Z.ltb_spec optr hlen) as [Lt|Lt]; [|left; eexists; reflexivity].
  destruct (index_ok f optr ltac:(lia)) as [k Ek]. unfold u8. rewrite Ek. cbn [rbind].
  pose proof (wf_index _ _ _ W Ek) as Bk. unfold is_byte in Bk.
  destruct (Z.eqb_spec k 0) as [K0|K0]; [left; eexists; reflexivity|].
  unfold check. replace (hlen <? optr + 1) with false by lia.
  destruct (Z.eqb_spec k 1) as [K1|K1].
  - destruct (IH f hlen (optr + 1) W ltac:(lia) Hl ltac:(lia)) as [Hok|(H1&H2&H3&H4)]; [left; auto|].
    right; repeat split; auto; lia.
  - destruct (Z.ltb_spec (optr + 1) (zlen f)) as [L1|L1].
    + destruct (index_ok f (optr + 1) ltac:(lia)) as [l El]. rewrite El. cbn [rbind].
      pose proof (wf_index _ _ _ W El) as Bl. unfold is_byte in Bl.
      destruct (Z.eqb_spec l 0); [left; eexists; reflexivity|].
      destruct (Z.ltb_spec hlen (optr + l)); [left; eexists; reflexivity|].
      destruct (IH f hlen (optr + l) W ltac:(lia) Hl ltac:(lia)) as [Hok|(H1&H2&H3&H4)]; [left; auto|].
      right; repeat split; auto; lia.
    + right. rewrite index_exn by lia. cbn [rbind]. repeat split; auto; try lia.
      exists k. replace (hlen - 1) with optr by lia. split; [auto|lia].
Qed.

Lemma index_slice_from {A} (f : list A) a i : 0 <= a -> 0 <= i ->
  index (slice_from a f) i = index f (a + i).
Proof.
  intros. unfold index, slice_from.
  replace (Z.to_nat (a + i)) with (Z.to_nat a + Z.to_nat i)%nat by lia.
  generalize (Z.to_nat a) (Z.to_nat i). intros n m. revert f.
  induction n as [|n IH]; intros [|x f]; cbn; auto.
  - destruct m; reflexivity.
Qed.

(** once the check has passed, reading the options cannot fail *)
Lemma ip4_options_after_check fuel : forall f hlen optr,
  wf_bytes f -> 0 <= optr -> ip4_opt_check fuel f hlen optr = Ok None ->
  exists l, ip4_options fuel f hlen optr = Ok l.
Proof.
  induction fuel as [|fuel IH]; intros f hlen optr W Ho E; [discriminate|].
  cbn [ip4_opt_check] in E. cbn [ip4_options].
  destruct (optr <? hlen); [|eauto]. destruct (u8 f optr) as [k|] eqn:Ek; [|discriminate].
  cbn [rbind] in *. destruct (k =? 0); [eauto|]. unfold check in E.
  destruct (k =? 1).
  - destruct (hlen <? optr + 1); [discriminate|]. apply IH in E as [l ->]; [|auto|lia]. cbn; eauto.
  - destruct (hlen <? optr + 1); [discriminate|].
    destruct (u8 f (optr + 1)) as [l|] eqn:El; [|discriminate]. cbn [rbind] in E.
    destruct (l =? 0); [discriminate|]. destruct (hlen <? optr + l); [discriminate|].
    unfold ip4_opt_unk, u8 in *. rewrite !index_slice_from by lia.
    rewrite Z.add_0_r, Ek, El. cbn [rbind].
    pose proof (wf_index _ _ _ W El) as Bl. unfold is_byte in Bl.
    apply IH in E as [r ->]; [|auto|lia]. cbn; eauto.
Qed.

(** ** totality and soundness *)
Lemma ip4_parse_cases f : wf_bytes f ->
  (exists r, ip4_parse f = Ok (inl r)) \/
  (ip4_parse f = Exn IndexError /\ 24 <= zlen f /\ zlen f = byte_at f 0 mod 16 * 4 /\
   zlen f = word_at f 2 /\ inet_cksum f 0 = 0 /\ 2 <= byte_at f (length f - 1)) \/
  (exists opts, ip4_parse f = Ok (inr (ip4_of f opts)) /\
     ip4_opt_check ip4_fuel f (byte_at f 0 mod 16 * 4) 20 = Ok None /\
     ip4_options ip4_fuel f (byte_at f 0 mod 16 * 4) 20 = Ok opts /\
     20 <= byte_at f 0 mod 16 * 4 <= word_at f 2 /\ word_at f 2 <= zlen f /\
     inet_cksum (slice 0 (byte_at f 0 mod 16 * 4) f) 0 = 0 /\
     byte_at f 0 / 16 = 4 /\
     ip4_is_multicast (be (slice 12 16 f)) = false /\
     ip4_is_reserved (be (slice 12 16 f)) = false /\
     ip4_is_limited_broadcast (be (slice 12 16 f)) = false /\
     (byte_at f 6 / 64 mod 2 =? 1) && (byte_at f 6 / 32 mod 2 =? 1) = false /\
     z2b (word_at f 6 mod 8192 * 8) && (byte_at f 6 / 64 mod 2 =? 1) = false).
Proof.
  intros W. unfold ip4_parse, run_parser, ip4_integrity, check.
  destruct (Z.ltb_spec (zlen f) 20) as [L|L]; [left; eexists; reflexivity|].
  rewrite (ip4_fields_ok f W L).
  destruct (ip4_reads f W L) as (E1&E2&E3&E4&E5&E6&E7&E8&E9&E10&E11&E12&E13).
  unfold ip4_sanity, check. rewrite E1, E2, E4, E6, E7, E8, E12. cbn [rbind].
  set (hlen := byte_at f 0 mod 16 * 4) in *. set (plen := word_at f 2) in *.
  set (src := be (slice 12 16 f)) in *.
  assert (Hh : hlen <= 60) by (subst hlen; pose proof (byte_at_range f 0 W); unfold is_byte in *; lia).
  destruct ((20 <=? hlen) && (hlen <=? plen) && (plen <=? zlen f)) eqn:C; cbn [negb rbind];
    [|left; eexists; reflexivity].
  apply andb_true_iff in C as [C C3]. apply andb_true_iff in C as [C1 C2].
  apply Z.leb_le in C1, C2, C3.
  destruct (z2b (inet_cksum (slice 0 hlen f) 0)) eqn:K; cbn [rbind]; [left; eexists; reflexivity|].
  apply z2b_false in K.
  destruct (ip4_opt_check_total ip4_fuel f hlen 20 W ltac:(lia) ltac:(lia)) as [[v Ev]|(Ev & Hz & Hl & k & Ek & Bk)].
  { unfold ip4_fuel. lia. }
  2:{ right; left. rewrite Ev. cbn [rbind]. split; [reflexivity|].
      assert (byte_at f (length f - 1) = k).
      { unfold index in Ek. destruct (nth_error f (Z.to_nat (hlen - 1))) eqn:N; [|discriminate].
        injection Ek as <-. unfold byte_at. apply nth_error_nth.
        replace (length f - 1)%nat with (Z.to_nat (hlen - 1)) by (unfold zlen in *; lia). auto. }
      assert (slice 0 hlen f = f) as Es by (apply slice_all; lia). rewrite Es in K.
      subst hlen. repeat split; try lia. }
  rewrite Ev. cbn [rbind]. destruct v as [m|]; [left; eexists; reflexivity|].
  destruct (Z.eqb_spec (byte_at f 0 / 16) 4) as [V|V]; cbn [negb rbind]; [|left; eexists; reflexivity].
  rewrite V. change (4 =? 0) with false. cbv iota.
  destruct (ip4_is_multicast src) eqn:S1; cbn [rbind]; [left; eexists; reflexivity|].
  destruct (ip4_is_reserved src) eqn:S2; cbn [rbind]; [left; eexists; reflexivity|].
  destruct (ip4_is_limited_broadcast src) eqn:S3; cbn [rbind]; [left; eexists; reflexivity|].
  destruct ((byte_at f 6 / 64 mod 2 =? 1) && (byte_at f 6 / 32 mod 2 =? 1)) eqn:S4; cbn [rbind];
    [left; eexists; reflexivity|].
  destruct (z2b (word_at f 6 mod 8192 * 8) && (byte_at f 6 / 64 mod 2 =? 1)) eqn:S5; cbn [rbind];
    [left; eexists; reflexivity|].
  destruct (ip4_options_after_check ip4_fuel f hlen 20 W ltac:(lia) Ev) as [opts Eo].
  rewrite Eo. cbn [rbind]. right; right. exists opts. repeat split; auto; lia.
Qed.

(** ** assembling *)
Definition hdr_of (t : ip4_tx) (plen ck : Z) : bytes :=
  ip4_hdr_wire (t4_dscp t) (t4_ecn t) plen (t4_id t) (t4_df t) (t4_mf t) (t4_offset t)
    (t4_ttl t) (t4_proto t) ck (t4_src t) (t4_dst t) (ip4_raw_options (t4_opts t)).

Lemma hdr_of_split t plen : exists a b, zlen a = 10 /\ zlen b = 8 + zlen (t4_opts t) /\
  forall ck, hdr_of t plen ck = a ++ be_enc 2 ck ++ b.
Proof.
  unfold hdr_of, ip4_hdr_wire.
  exists ([4 * 16 + (20 + zlen (ip4_raw_options (t4_opts t))) / 4] ++ [t4_dscp t * 4 + t4_ecn t]
    ++ be_enc 2 plen ++ be_enc 2 (t4_id t)
    ++ be_enc 2 (b2z (t4_df t) * 16384 + b2z (t4_mf t) * 8192 + t4_offset t / 8)
    ++ [t4_ttl t] ++ [t4_proto t]),
    (be_enc 4 (t4_src t) ++ be_enc 4 (t4_dst t) ++ ip4_raw_options (t4_opts t)).
  split; [|split; [|intros ck; rewrite <- !app_assoc; reflexivity]].
  - rewrite !zlen_app, !be_enc_zlen. reflexivity.
  - rewrite !zlen_app, !be_enc_zlen. unfold ip4_raw_options, zlen. rewrite map_length. lia.
Qed.
Lemma hdr_of_len t plen ck : zlen (hdr_of t plen ck) = t4_hlen t.
Proof.
  destruct (hdr_of_split t plen) as (a & b & La & Lb & E). rewrite E, !zlen_app, be_enc_zlen, La, Lb.
  unfold t4_hlen, ip4_raw_options, zlen. rewrite map_length. lia.
Qed.

Definition ip4_tx_wf (t : ip4_tx) : Prop :=
  ip4_tx_ok t = true /\ 0 <= t4_src t < 2 ^ 32 /\ 0 <= t4_dst t < 2 ^ 32 /\
  0 <= t4_offset t < 65536 /\ zlen (t4_opts t) <= 40.

Lemma ip4_tx_ok_inv t : ip4_tx_ok t = true ->
  0 <= t4_ttl t <= 255 /\ 0 <= t4_dscp t <= 63 /\ 0 <= t4_ecn t <= 3 /\ 0 <= t4_id t <= 65535 /\
  In (t4_proto t) [1; 17; 6; 255].
Proof.
  unfold ip4_tx_ok, IP4_PROTO_ICMP4, IP4_PROTO_UDP, IP4_PROTO_TCP, IP4_PROTO_RAW. cbn [In]. lia.
Qed.

Lemma ip4_hdr_pack t plen tl w : ip4_tx_wf t -> 0 <= plen < 65536 -> pack tl = Ok w ->
  pack (ip4_hdr_flds t plen ++ tl) = Ok (hdr_of t plen 0 ++ w).
Proof.
  intros (Hok & Hs & Hd & Ho & Hn) Hp Hw. apply ip4_tx_ok_inv in Hok as (H1 & H2 & H3 & H4 & H5).
  assert (Lr : zlen (ip4_raw_options (t4_opts t)) = zlen (t4_opts t))
    by (unfold ip4_raw_options, zlen; rewrite map_length; auto).
  assert (H5' : 0 <= t4_proto t < 256) by (cbn [In] in H5; lia).
  pose proof (zlen_nonneg (t4_opts t)).
  unfold ip4_hdr_flds, hdr_of, ip4_hdr_wire, t4_hlen. cbn [app].
  rewrite !Z.shiftl_mul_pow2, !Z.shiftr_div_pow2 by lia.
  rewrite (lor_shift 4 _ 4), (lor_shift _ (t4_ecn t) 2) by lia.
  assert (Ef : Z.lor (Z.lor (b2z (t4_df t) * 2 ^ 14) (b2z (t4_mf t) * 2 ^ 13)) (t4_offset t / 2 ^ 3)
               = b2z (t4_df t) * 16384 + b2z (t4_mf t) * 8192 + t4_offset t / 8).
  { rewrite (lor_shift (b2z (t4_df t)) (b2z (t4_mf t) * 2 ^ 13) 14) by (destruct (t4_mf t); cbn [b2z]; lia).
    replace (b2z (t4_df t) * 2 ^ 14 + b2z (t4_mf t) * 2 ^ 13)
      with ((b2z (t4_df t) * 2 + b2z (t4_mf t)) * 2 ^ 13) by lia.
    rewrite lor_shift by lia. change (2 ^ 3) with 8. lia. }
  rewrite Ef, Lr.
  assert (Bf : 0 <= b2z (t4_df t) * 16384 + b2z (t4_mf t) * 8192 + t4_offset t / 8 < 65536)
    by (destruct (t4_df t), (t4_mf t); cbn [b2z]; lia).
  set (fl := b2z (t4_df t) * 16384 + b2z (t4_mf t) * 8192 + t4_offset t / 8) in *. clearbody fl.
  change (2 ^ 4) with 16. change (2 ^ 2) with 4.
  unfold ip4_bytes. repeat (rewrite <- app_assoc || (progress cbn [app])).
  packs. exact Hw.
Qed.

Lemma ip4_cksum_bound d ps : 0 <= inet_cksum d ps < 65536.
Proof.
  unfold inet_cksum. change 65535 with (2 ^ 16 - 1).
  rewrite land_ones' by lia. apply Z.mod_pos_bound. lia.
Qed.

Lemma ip4_pshdr_ok src dst proto dlen :
  0 <= proto < 256 -> 0 <= dlen < 65536 ->
  ip4_pshdr_sum src dst proto dlen = Ok (word_sum 4 3 (ip4_pseudo src dst proto dlen)).
Proof.
  intros H1 H2. unfold ip4_pshdr_sum, ip4_pseudo, ip4_bytes.
  assert (E : pack [FB (be_enc 4 src); FB (be_enc 4 dst); FI 1 0; FI 1 proto; FI 2 dlen]
          = Ok (be_enc 4 src ++ be_enc 4 dst ++ [0] ++ [proto] ++ be_enc 2 dlen)).
  { cbn [app]. rewrite <- (app_nil_r (be_enc 2 dlen)). packs. }
  rewrite E. reflexivity.
Qed.

(** Ip4Assembler fills any buffer of the right length with the wire format *)
Lemma ip4_asm_to t c enc ps0 : ip4_tx_wf t ->
  let plen := ip4_len t (c_len c) in
  0 <= c_len c -> plen < 65536 ->
  asm_to c enc (word_sum 4 3 (ip4_pseudo (t4_src t) (t4_dst t) (t4_proto t) (c_len c))) ->
  asm_to (ip4_carried t c)
    (fun _ => hdr_of t plen (inet_cksum (hdr_of t plen 0) 0)
              ++ enc (word_sum 4 3 (ip4_pseudo (t4_src t) (t4_dst t) (t4_proto t) (c_len c)))) ps0.
Proof.
  intros Hw plen Hc Hp Ha. pose proof Hw as Hw'. destruct Hw' as (Hok & Hs & Hd & Ho & Hn).
  pose proof (ip4_tx_ok_inv t Hok) as (_ & _ & _ & _ & Hpr).
  pose proof (zlen_nonneg (t4_opts t)).
  assert (Hh : t4_hlen t = 20 + zlen (t4_opts t)).
  { unfold t4_hlen, ip4_raw_options, zlen. rewrite map_length. auto. }
  assert (Hpl : plen = t4_hlen t + c_len c) by (unfold plen, ip4_len; lia).
  split.
  - rewrite zlen_app, hdr_of_len, (proj1 Ha). cbn [ip4_carried c_len]. fold plen. lia.
  - intros buf Lb. cbn [ip4_carried c_len c_asm] in *. fold plen in Lb.
    unfold ip4_asm, assert_. rewrite Hok. fold plen. cbv zeta.
    rewrite (pack_into_0 _ _ (hdr_of t plen 0)).
    2:{ pose proof (ip4_hdr_pack t plen [] [] Hw ltac:(lia) pack_nil) as E.
        rewrite !app_nil_r in E. exact E. }
    2:{ rewrite hdr_of_len. lia. }
    cbn [rbind]. set (tl := slice_from (zlen (hdr_of t plen 0)) buf).
    assert (Lt : zlen tl = c_len c) by (unfold tl; rewrite hdr_of_len, zlen_slice_from; lia).
    rewrite slice_0_exact by (rewrite hdr_of_len; auto).
    set (ck := inet_cksum (hdr_of t plen 0) 0).
    assert (Bk : 0 <= ck < 256 ^ Z.of_nat 2) by apply ip4_cksum_bound.
    destruct (hdr_of_split t plen) as (a & b & La & Lb' & E).
    rewrite (E 0), <- !app_assoc.
    rewrite (pack_into_mid a (be_enc 2 0) (b ++ tl) 10 2 ck) by (auto; rewrite be_enc_zlen; auto).
    cbn [rbind]. replace (plen - t4_hlen t) with (c_len c) by lia.
    rewrite ip4_pshdr_ok by (cbn [In] in Hpr; lia). cbn [rbind].
    replace (a ++ be_enc 2 ck ++ b ++ tl) with (hdr_of t plen ck ++ tl)
      by (rewrite (E ck), <- !app_assoc; reflexivity).
    apply asm_tail_ok; auto. rewrite hdr_of_len. auto.
Qed.

(** Ip4FragAssembler likewise *)
Lemma ip4_frag_asm_to t data ps0 : ip4_tx_wf t ->
  let plen := ip4_len t (zlen data) in plen < 65536 ->
  asm_to (ip4_frag_carried t data)
    (fun _ => hdr_of t plen (inet_cksum (hdr_of t plen 0) 0) ++ data) ps0.
Proof.
  intros Hw plen Hp. pose proof Hw as Hw'. destruct Hw' as (Hok & Hs & Hd & Ho & Hn).
  pose proof (zlen_nonneg (t4_opts t)). pose proof (zlen_nonneg data).
  assert (Hh : t4_hlen t = 20 + zlen (t4_opts t)).
  { unfold t4_hlen, ip4_raw_options, zlen. rewrite map_length. auto. }
  assert (Hpl : plen = t4_hlen t + zlen data) by (unfold plen, ip4_len; lia).
  split.
  - rewrite zlen_app, hdr_of_len. cbn [ip4_frag_carried c_len]. fold plen. lia.
  - intros buf Lb. cbn [ip4_frag_carried c_len c_asm] in *. fold plen in Lb.
    unfold ip4_frag_asm, assert_. rewrite Hok. fold plen. cbv zeta.
    rewrite (pack_into_full _ _ (hdr_of t plen 0 ++ data)).
    2:{ apply ip4_hdr_pack; auto; [lia|]. rewrite <- (app_nil_r data) at 2. packs. }
    2:{ rewrite zlen_app, hdr_of_len. lia. }
    cbn [rbind]. rewrite slice_0_exact by (rewrite hdr_of_len; auto).
    set (ck := inet_cksum (hdr_of t plen 0) 0).
    assert (Bk : 0 <= ck < 256 ^ Z.of_nat 2) by apply ip4_cksum_bound.
    destruct (hdr_of_split t plen) as (a & b & La & Lb' & E).
    rewrite (E 0), (E ck), <- !app_assoc. apply pack_into_mid; auto.
Qed.

(** ** round trip *)
(** RFC 791: end-of-list ends the option list *)
Fixpoint upto_eol (l : list ip4_topt) : list ip4_opt :=
  match l with
  | [] => []
  | T4Eol :: _ => [O4Eol]
  | T4Nop :: r => O4Nop :: upto_eol r
  end.

Lemma index_mid {A} (p : list A) x s i : i = zlen p -> index (p ++ x :: s) i = Ok x.
Proof.
  intros ->. unfold index, zlen. rewrite Nat2Z.id, nth_error_app2, Nat.sub_diag by lia. reflexivity.
Qed.

Lemma ip4_opts_walk l : forall fuel p rest optr,
  optr = zlen p -> (length l < fuel)%nat ->
  ip4_opt_check fuel (p ++ ip4_raw_options l ++ rest) (optr + zlen l) optr = Ok None /\
  ip4_options fuel (p ++ ip4_raw_options l ++ rest) (optr + zlen l) optr = Ok (upto_eol l).
Proof.
  induction l as [|o l IH]; intros [|fuel] p rest optr Hp Hf; try (cbn in Hf; lia).
  - cbn [ip4_opt_check ip4_options]. rewrite zlen_nil, Z.add_0_r, Z.ltb_irrefl. auto.
  - cbn [ip4_opt_check ip4_options]. rewrite zlen_cons. pose proof (zlen_nonneg l).
    replace (optr <? optr + (1 + zlen l)) with true by lia.
    cbn [ip4_raw_options map app]. unfold u8. rewrite index_mid by auto. cbn [rbind].
    destruct o; cbn [ip4_topt_byte].
    + auto.
    + unfold check. replace (optr + (1 + zlen l) <? optr + 1) with false by lia.
      cbn [Z.eqb Pos.eqb].
      change (p ++ 1 :: map ip4_topt_byte l ++ rest) with (p ++ [1] ++ ip4_raw_options l ++ rest).
      rewrite app_assoc. replace (optr + (1 + zlen l)) with (optr + 1 + zlen l) by lia.
      destruct (IH fuel (p ++ [1]) rest (optr + 1)) as [-> ->]; auto.
      * rewrite zlen_app, zlen_cons, zlen_nil. lia.
      * cbn in Hf. lia.
Qed.

Lemma hdr_of_wf t plen ck : ip4_tx_wf t -> wf_bytes (hdr_of t plen ck).
Proof.
  intros (Hok & Hs & Hd & Ho & Hn). apply ip4_tx_ok_inv in Hok as (H1 & H2 & H3 & H4 & H5).
  assert (Lr : zlen (ip4_raw_options (t4_opts t)) = zlen (t4_opts t))
    by (unfold ip4_raw_options, zlen; rewrite map_length; auto).
  pose proof (zlen_nonneg (t4_opts t)).
  unfold hdr_of, ip4_hdr_wire. rewrite Lr.
  rewrite !wf_app. repeat match goal with |- _ /\ _ => split end; try apply be_enc_wf;
    try (apply wf_cons; [unfold is_byte; cbn [In] in H5; lia|apply wf_nil]).
  clear. induction (t4_opts t) as [|o l IH]; [apply wf_nil|].
  apply wf_cons; [destruct o; unfold is_byte; cbn; lia|exact IH].
Qed.

Lemma ip4_parse_wire t plen ck pl pad :
  ip4_tx_wf t -> wf_bytes pl -> wf_bytes pad ->
  zlen (t4_opts t) mod 4 = 0 -> t4_offset t mod 8 = 0 -> 0 <= ck < 65536 ->
  plen = t4_hlen t + zlen pl -> plen < 65536 ->
  rfc1071_verifies (hdr_of t plen ck) 0 ->
  ip4_is_multicast (t4_src t) = false -> ip4_is_reserved (t4_src t) = false ->
  ip4_is_limited_broadcast (t4_src t) = false ->
  t4_df t && t4_mf t = false -> z2b (t4_offset t) && t4_df t = false ->
  ip4_parse (hdr_of t plen ck ++ pl ++ pad)
  = Ok (inr {| i4_ver := 4; i4_hlen := t4_hlen t; i4_dscp := t4_dscp t; i4_ecn := t4_ecn t;
       i4_plen := plen; i4_id := t4_id t; i4_df := t4_df t; i4_mf := t4_mf t;
       i4_offset := t4_offset t; i4_ttl := t4_ttl t; i4_proto := t4_proto t; i4_cksum := ck;
       i4_src := t4_src t; i4_dst := t4_dst t; i4_opts := upto_eol (t4_opts t);
       i4_frame := hdr_of t plen ck ++ pl ++ pad |}).
Proof.
  intros Hw Wl Wd Hm Ho Hck Hpl Hp Hv S1 S2 S3 S4 S5.
  pose proof (hdr_of_len t plen ck) as Lh. pose proof (hdr_of_wf t plen ck Hw) as Wh.
  assert (Hh : t4_hlen t = 20 + zlen (t4_opts t)).
  { unfold t4_hlen, ip4_raw_options, zlen. rewrite map_length. auto. }
  assert (Wf : wf_bytes (hdr_of t plen ck ++ pl ++ pad)) by (rewrite !wf_app; auto).
  pose proof (zlen_nonneg (t4_opts t)). pose proof (zlen_nonneg pl). pose proof (zlen_nonneg pad).
  assert (L20 : 20 <= zlen (hdr_of t plen ck ++ pl ++ pad)) by (rewrite !zlen_app, Lh; lia).
  (* the fields *)
  assert (F : forall opts, ip4_of (hdr_of t plen ck ++ pl ++ pad) opts
    = {| i4_ver := 4; i4_hlen := t4_hlen t; i4_dscp := t4_dscp t; i4_ecn := t4_ecn t;
       i4_plen := plen; i4_id := t4_id t; i4_df := t4_df t; i4_mf := t4_mf t;
       i4_offset := t4_offset t; i4_ttl := t4_ttl t; i4_proto := t4_proto t; i4_cksum := ck;
       i4_src := t4_src t; i4_dst := t4_dst t; i4_opts := opts;
       i4_frame := hdr_of t plen ck ++ pl ++ pad |}).
  { intros opts. destruct Hw as (Hok & Hs & Hd & Hof & Hn).
    apply ip4_tx_ok_inv in Hok as (H2 & H3 & H4 & H5 & H6).
    set (f := hdr_of t plen ck ++ pl ++ pad).
    assert (Lr : zlen (ip4_raw_options (t4_opts t)) = zlen (t4_opts t))
      by (unfold ip4_raw_options, zlen; rewrite map_length; auto).
    assert (Ef : exists r, f = [4 * 16 + (20 + zlen (t4_opts t)) / 4] ++ [t4_dscp t * 4 + t4_ecn t]
      ++ be_enc 2 plen ++ be_enc 2 (t4_id t)
      ++ be_enc 2 (b2z (t4_df t) * 16384 + b2z (t4_mf t) * 8192 + t4_offset t / 8)
      ++ [t4_ttl t] ++ [t4_proto t] ++ be_enc 2 ck ++ be_enc 4 (t4_src t) ++ be_enc 4 (t4_dst t) ++ r).
    { unfold f, hdr_of, ip4_hdr_wire. rewrite Lr. eexists. rewrite <- !app_assoc. reflexivity. }
    destruct Ef as [r Ef].
    set (fl := b2z (t4_df t) * 16384 + b2z (t4_mf t) * 8192 + t4_offset t / 8) in *.
    assert (Bf : 0 <= fl < 65536) by (subst fl; destruct (t4_df t), (t4_mf t); cbn [b2z]; lia).
    assert (Df : (fl / 256 / 64 mod 2 =? 1) = t4_df t /\ (fl / 256 / 32 mod 2 =? 1) = t4_mf t /\
                 fl mod 8192 * 8 = t4_offset t).
    { subst fl; destruct (t4_df t), (t4_mf t); cbn [b2z]; lia. }
    clearbody fl. destruct Df as (D1 & D2 & D3).
    unfold ip4_of. clearbody f. 
    explode 2%nat plen. explode 2%nat (t4_id t). explode 2%nat fl. explode 2%nat ck.
    explode 4%nat (t4_src t). explode 4%nat (t4_dst t).
    rewrite be2 in B, B0, B1, B2. cbn [app] in Ef.
    assert (Q0 : byte_at f 0 = 4 * 16 + (20 + zlen (t4_opts t)) / 4) by (rewrite Ef; reflexivity).
    assert (Q1 : byte_at f 1 = t4_dscp t * 4 + t4_ecn t) by (rewrite Ef; reflexivity).
    assert (Q2 : word_at f 2 = plen) by (rewrite Ef; exact B).
    assert (Q4 : word_at f 4 = t4_id t) by (rewrite Ef; exact B0).
    assert (Q6 : word_at f 6 = fl) by (rewrite Ef; exact B1).
    assert (Q6' : byte_at f 6 = fl / 256).
    { unfold word_at in Q6. replace (byte_at f 7) with b4 in Q6 by (rewrite Ef; reflexivity).
      wf_split W1. unfold is_byte in *. lia. }
    assert (Q10 : word_at f 10 = ck) by (rewrite Ef; exact B2).
    assert (Q12 : be (slice 12 16 f) = t4_src t) by (rewrite Ef; slices; exact B3).
    assert (Q16 : be (slice 16 20 f) = t4_dst t) by (rewrite Ef; slices; exact B4).
    assert (Q8 : byte_at f 8 = t4_ttl t) by (rewrite Ef; reflexivity).
    assert (Q9 : byte_at f 9 = t4_proto t) by (rewrite Ef; reflexivity).
    rewrite Q0, Q1, Q2, Q4, Q6, Q6', Q8, Q9, Q10, Q12, Q16, D1, D2, D3, Hh.
    f_equal; lia. }
  destruct (ip4_opts_walk (t4_opts t) ip4_fuel (firstn 20 (hdr_of t plen ck)) (pl ++ pad) 20)
    as [Oc Oo].
  { unfold zlen. rewrite firstn_length. unfold zlen in *. lia. }
  { unfold ip4_fuel. destruct Hw as (_ & _ & _ & _ & Hn). unfold zlen in Hn. lia. }
  assert (Es : firstn 20 (hdr_of t plen ck) ++ ip4_raw_options (t4_opts t) ++ pl ++ pad
               = hdr_of t plen ck ++ pl ++ pad).
  { rewrite app_assoc. f_equal. }
  rewrite Es in Oc, Oo. rewrite <- Hh in Oc, Oo.
  pose proof (F []) as F0.
  pose proof (f_equal i4_hlen F0) as Fh. pose proof (f_equal i4_ver F0) as Fv.
  pose proof (f_equal i4_plen F0) as Fp. pose proof (f_equal i4_src F0) as Fs.
  pose proof (f_equal i4_df F0) as Fd. pose proof (f_equal i4_mf F0) as Fm.
  pose proof (f_equal i4_offset F0) as Fo. clear F0.
  cbn [ip4_of i4_hlen i4_ver i4_plen i4_src i4_df i4_mf i4_offset] in *.
  destruct (ip4_parse_cases _ Wf) as [(rs & E)|[(E & G1 & G2 & G3 & G4 & G5)|(opts & E & G)]].
  - exfalso. revert E. unfold ip4_parse, run_parser, ip4_integrity, check.
    destruct (ip4_reads _ Wf L20) as (E1&E2&E3&E4&E5&E6&E7&E8&E9&E10&E11&E12&E13).
    replace (zlen (hdr_of t plen ck ++ pl ++ pad) <? 20) with false by lia.
    unfold ip4_sanity, check.
    rewrite E1, E2, E4, E6, E7, E8, E12, Fh, Fv, Fp, Fs, Fd, Fm, Fo. cbn [rbind].
    rewrite !zlen_app, Lh.
    replace ((20 <=? t4_hlen t) && (t4_hlen t <=? plen) && (plen <=? t4_hlen t + (zlen pl + zlen pad)))
      with true by lia.
    cbn [negb]. rewrite slice_0_exact by auto.
    rewrite (proj2 (cksum_verify (hdr_of t plen ck) 0 Wh ltac:(lia) ltac:(rewrite Lh; lia)) Hv).
    cbn [z2b Z.eqb negb]. rewrite Oc. cbn [rbind Z.eqb Pos.eqb negb].
    rewrite S1, S2, S3, S4, S5, Oo. cbn [rbind].
    destruct (ip4_fields _); discriminate.
  - exfalso. rewrite Fh in G2. rewrite zlen_app, Lh, zlen_app in G2.
    assert (ip4_parse (hdr_of t plen ck ++ pl ++ pad) <> Exn IndexError); [|contradiction].
    unfold ip4_parse, run_parser, ip4_integrity, check.
    destruct (ip4_reads _ Wf L20) as (E1&E2&E3&E4&E5&E6&E7&E8&E9&E10&E11&E12&E13).
    replace (zlen (hdr_of t plen ck ++ pl ++ pad) <? 20) with false by lia.
    unfold ip4_sanity, check.
    rewrite E1, E2, E4, E6, E7, E8, E12, Fh, Fv, Fp, Fs, Fd, Fm, Fo. cbn [rbind].
    rewrite !zlen_app, Lh.
    replace ((20 <=? t4_hlen t) && (t4_hlen t <=? plen) && (plen <=? t4_hlen t + (zlen pl + zlen pad)))
      with true by lia.
    cbn [negb]. rewrite slice_0_exact by auto.
    rewrite (proj2 (cksum_verify (hdr_of t plen ck) 0 Wh ltac:(lia) ltac:(rewrite Lh; lia)) Hv).
    cbn [z2b Z.eqb negb]. rewrite Oc. cbn [rbind Z.eqb Pos.eqb negb].
    rewrite S1, S2, S3, S4, S5, Oo. cbn [rbind].
    rewrite ip4_fields_ok by auto. rewrite Fh, Oo. discriminate.
  - destruct G as (_ & Go & _). rewrite Fh, Oo in Go. injection Go as <-. rewrite E, F. reflexivity.
Qed.

Lemma hdr_of_verifies t plen : ip4_tx_wf t ->
  t4_opts t = [] \/ rfc1071 (hdr_of t plen 0) 0 <> 65534 ->
  let ck := inet_cksum (hdr_of t plen 0) 0 in
  ck = rfc1071 (hdr_of t plen 0) 0 /\ rfc1071_verifies (hdr_of t plen ck) 0.
Proof.
  intros Hw Hc ck.
  pose proof (hdr_of_wf t plen 0 Hw) as W0. pose proof (hdr_of_len t plen 0) as L0.
  assert (Hh : t4_hlen t = 20 + zlen (t4_opts t)).
  { unfold t4_hlen, ip4_raw_options, zlen. rewrite map_length. auto. }
  pose proof Hw as Hw'. destruct Hw' as (_ & _ & _ & _ & Hn).
  assert (E : ck = rfc1071 (hdr_of t plen 0) 0).
  { unfold ck. destruct (Z.eq_dec (zlen (hdr_of t plen 0)) 20) as [E|N].
    - apply cksum_gen_20; auto; lia.
    - apply cksum_gen_not20; auto; try lia. destruct Hc as [Hc|Hc]; [|auto].
      rewrite Hc in Hh. change (zlen []) with 0 in Hh. lia. }
  split; [exact E|]. destruct (hdr_of_split t plen) as (a & b & La & Lb & Es).
  rewrite (Es 0) in W0. apply wf_app in W0 as [Wa W0]. apply wf_app in W0 as [_ Wb].
  rewrite (Es ck), E, (Es 0). change (be_enc 2 0) with [0; 0].
  apply (rfc_fill a b 0 5); auto; [lia|]. unfold zlen in La. lia.
Qed.

Definition ip4_rx_of (t : ip4_tx) (plen ck : Z) (f : bytes) : ip4 :=
  {| i4_ver := 4; i4_hlen := t4_hlen t; i4_dscp := t4_dscp t; i4_ecn := t4_ecn t;
     i4_plen := plen; i4_id := t4_id t; i4_df := t4_df t; i4_mf := t4_mf t;
     i4_offset := t4_offset t; i4_ttl := t4_ttl t; i4_proto := t4_proto t; i4_cksum := ck;
     i4_src := t4_src t; i4_dst := t4_dst t; i4_opts := upto_eol (t4_opts t); i4_frame := f |}.

(** the conditions a packet must meet to be accepted by the receiving parser *)
Definition ip4_tx_sane (t : ip4_tx) : Prop :=
  ip4_tx_wf t /\ zlen (t4_opts t) mod 4 = 0 /\ t4_offset t mod 8 = 0 /\
  ip4_is_multicast (t4_src t) = false /\ ip4_is_reserved (t4_src t) = false /\
  ip4_is_limited_broadcast (t4_src t) = false /\
  t4_df t && t4_mf t = false /\ z2b (t4_offset t) && t4_df t = false.

Lemma ip4_data_rest t plen ck pl pad : zlen (hdr_of t plen ck) = t4_hlen t ->
  plen = t4_hlen t + zlen pl ->
  i4_data (ip4_rx_of t plen ck (hdr_of t plen ck ++ pl ++ pad)) = pl /\
  i4_rest (ip4_rx_of t plen ck (hdr_of t plen ck ++ pl ++ pad)) = pl ++ pad.
Proof.
  intros L P. unfold i4_data, i4_rest; cbn [ip4_rx_of i4_hlen i4_plen i4_frame]. split.
  - rewrite slice_app_shift by (pose proof (zlen_nonneg (hdr_of t plen ck)); lia).
    replace (t4_hlen t - zlen (hdr_of t plen ck)) with 0 by lia.
    apply slice_0_exact. lia.
  - apply slice_from_exact. lia.
Qed.

Lemma ip4_frag_round_trip t pl pad buf ps : ip4_tx_sane t -> wf_bytes pl -> wf_bytes pad ->
  let plen := ip4_len t (zlen pl) in plen < 65536 ->
  t4_opts t = [] \/ rfc1071 (hdr_of t plen 0) 0 <> 65534 ->
  zlen buf = plen ->
  let ck := rfc1071 (hdr_of t plen 0) 0 in
  ip4_frag_asm t pl buf ps = Ok (hdr_of t plen ck ++ pl) /\
  ip4_parse ((hdr_of t plen ck ++ pl) ++ pad)
    = Ok (inr (ip4_rx_of t plen ck (hdr_of t plen ck ++ pl ++ pad))).
Proof.
  intros (Hw & Hm & Ho & S1 & S2 & S3 & S4 & S5) Wl Wd plen Hp Hc Lb ck.
  destruct (hdr_of_verifies t plen Hw Hc) as [E V]. fold ck in E. rewrite E in V.
  assert (Hh : plen = t4_hlen t + zlen pl).
  { unfold plen, ip4_len, t4_hlen, ip4_raw_options, zlen. rewrite map_length. auto. }
  split.
  - destruct (ip4_frag_asm_to t pl ps Hw Hp) as [_ A]. cbv beta in A. fold plen in A.
    rewrite E in A. apply A. exact Lb.
  - rewrite <- app_assoc. apply ip4_parse_wire; auto.
    unfold ck. pose proof (rfc1071_range (hdr_of t plen 0) 0 (hdr_of_wf t plen 0 Hw) ltac:(lia)). lia.
Qed.

Lemma ip4_round_trip t c pl pad buf ps : ip4_tx_sane t -> wf_bytes pl -> wf_bytes pad ->
  zlen pl = c_len c ->
  (forall b, zlen b = c_len c ->
     c_asm c b (word_sum 4 3 (ip4_pseudo (t4_src t) (t4_dst t) (t4_proto t) (c_len c))) = Ok pl) ->
  let plen := ip4_len t (zlen pl) in plen < 65536 ->
  t4_opts t = [] \/ rfc1071 (hdr_of t plen 0) 0 <> 65534 ->
  zlen buf = plen ->
  let ck := rfc1071 (hdr_of t plen 0) 0 in
  ip4_asm t c buf ps = Ok (hdr_of t plen ck ++ pl) /\
  ip4_parse ((hdr_of t plen ck ++ pl) ++ pad)
    = Ok (inr (ip4_rx_of t plen ck (hdr_of t plen ck ++ pl ++ pad))).
Proof.
  intros (Hw & Hm & Ho & S1 & S2 & S3 & S4 & S5) Wl Wd Lc Hasm plen Hp Hc Lb ck.
  destruct (hdr_of_verifies t plen Hw Hc) as [E V]. fold ck in E. rewrite E in V.
  assert (Hh : plen = t4_hlen t + zlen pl).
  { unfold plen, ip4_len, t4_hlen, ip4_raw_options, zlen. rewrite map_length. auto. }
  pose proof (zlen_nonneg pl).
  split.
  - assert (Ha : asm_to c (fun _ => pl) (word_sum 4 3 (ip4_pseudo (t4_src t) (t4_dst t) (t4_proto t) (c_len c))))
      by (split; auto).
    destruct (ip4_asm_to t c (fun _ => pl) ps Hw) as [_ A]; auto; try lia.
    { rewrite <- Lc. exact Hp. }
    cbv beta in A. rewrite <- Lc in A. fold plen in A. rewrite E in A. apply A.
    cbn [ip4_carried c_len]. rewrite <- Lc. exact Lb.
  - rewrite <- app_assoc. apply ip4_parse_wire; auto.
    unfold ck. pose proof (rfc1071_range (hdr_of t plen 0) 0 (hdr_of_wf t plen 0 Hw) ltac:(lia)). lia.
Qed.

(** ** acceptance *)
Definition ip4_verifiable (f : bytes) : Prop :=
  20 <= zlen f /\ 20 <= byte_at f 0 mod 16 * 4 <= word_at f 2 /\ word_at f 2 <= zlen f /\
  rfc1071_verifies (slice 0 (byte_at f 0 mod 16 * 4) f) 0 /\
  byte_at f 0 / 16 = 4 /\
  ip4_is_multicast (be (slice 12 16 f)) = false /\
  ip4_is_reserved (be (slice 12 16 f)) = false /\
  ip4_is_limited_broadcast (be (slice 12 16 f)) = false /\
  ~ (byte_at f 6 / 64 mod 2 = 1 /\ byte_at f 6 / 32 mod 2 = 1) /\
  ~ (byte_at f 6 / 64 mod 2 = 1 /\ word_at f 6 mod 8192 * 8 <> 0).

Lemma ip4_slice_cksum f n : wf_bytes f -> 0 <= n <= 60 -> n <= zlen f ->
  (inet_cksum (slice 0 n f) 0 = 0 <-> rfc1071_verifies (slice 0 n f) 0).
Proof.
  intros W H L. apply cksum_verify; try lia.
  - apply wf_slice. exact W.
  - rewrite zlen_slice by lia. lia.
Qed.

Lemma ip4_accept_sound f p : wf_bytes f -> ip4_parse f = Ok (inr p) ->
  ip4_verifiable f /\ p = ip4_of f (i4_opts p).
Proof.
  intros W H. destruct (ip4_parse_cases f W) as [[r E]|[(E & _)|(opts & E & A)]]; try congruence.
  assert (p = ip4_of f opts) as -> by congruence.
  destruct A as (_ & _ & L1 & L2 & K & V & S1 & S2 & S3 & S4 & S5). split; [|reflexivity].
  assert (Hh : byte_at f 0 mod 16 * 4 <= 60) by (pose proof (byte_at_range f 0 W); unfold is_byte in *; lia).
  unfold ip4_verifiable. repeat (split; [first [assumption | lia]|]).
  repeat match goal with |- _ /\ _ => split end; try lia; auto.
  - apply ip4_slice_cksum; auto; lia.
  - intros [A B]. rewrite A, andb_true_r in S5. apply z2b_false in S5. congruence.
Qed.

Lemma ip4_no_options_check f : ip4_opt_check ip4_fuel f 20 20 = Ok None.
Proof. reflexivity. Qed.
Lemma ip4_no_options f : ip4_options ip4_fuel f 20 20 = Ok [].
Proof. reflexivity. Qed.

(** a header without options is accepted exactly under those conditions *)
Lemma ip4_accept_plain f : wf_bytes f -> ip4_verifiable f -> byte_at f 0 mod 16 = 5 ->
  ip4_parse f = Ok (inr (ip4_of f [])).
Proof.
  intros W (L & L1 & L2 & K & V & S1 & S2 & S3 & S4 & S5) H5.
  unfold ip4_parse, run_parser, ip4_integrity, check.
  destruct (Z.ltb_spec (zlen f) 20); [lia|].
  rewrite (ip4_fields_ok f W L).
  destruct (ip4_reads f W L) as (E1&E2&E3&E4&E5&E6&E7&E8&E9&E10&E11&E12&E13).
  unfold ip4_sanity, check. rewrite E1, E2, E4, E6, E7, E8, E12. cbn [rbind].
  rewrite H5 in *. change (5 * 4) with 20 in *.
  destruct (Z.leb_spec 20 (word_at f 2)); [|lia].
  destruct (Z.leb_spec (word_at f 2) (zlen f)); [|lia]. cbn [Z.leb Z.compare Pos.compare Pos.compare_cont andb negb rbind].
  apply ip4_slice_cksum in K; auto; try lia. rewrite K. change (z2b 0) with false. cbv iota.
  rewrite ip4_no_options_check, ip4_no_options. cbn [rbind].
  rewrite V. cbn [Z.eqb Pos.eqb negb rbind]. rewrite S1, S2, S3. cbv iota.
  destruct (Z.eqb_spec (byte_at f 6 / 64 mod 2) 1) as [D|D].
  - destruct (Z.eqb_spec (byte_at f 6 / 32 mod 2) 1) as [M|M]; [tauto|].
    cbn [andb]. rewrite andb_true_r.
    destruct (z2b (word_at f 6 mod 8192 * 8)) eqn:Z; [|reflexivity].
    exfalso. apply S5. split; auto. intros Q. rewrite Q in Z. discriminate.
  - cbn [andb]. rewrite andb_false_r. reflexivity.
Qed.

Lemma ip4_raise_shape f e : wf_bytes f -> ip4_parse f = Exn e ->
  e = IndexError /\ 24 <= zlen f /\ zlen f = byte_at f 0 mod 16 * 4 /\ 2 <= byte_at f (length f - 1).
Proof.
  intros W H. destruct (ip4_parse_cases f W) as [[r E]|[(E & A & B & C & D & G)|(opts & E & A)]]; try congruence.
  repeat split; try congruence; lia.
Qed.

Lemma ip4_rx_fields t plen ck pl pad : plen = t4_hlen t + zlen pl ->
  let p := ip4_rx_of t plen ck (hdr_of t plen ck ++ pl ++ pad) in
    i4_ver p = 4 /\ i4_hlen p = 20 + zlen (t4_opts t) /\ i4_plen p = plen /\
    i4_dscp p = t4_dscp t /\ i4_ecn p = t4_ecn t /\ i4_id p = t4_id t /\
    i4_df p = t4_df t /\ i4_mf p = t4_mf t /\ i4_offset p = t4_offset t /\
    i4_ttl p = t4_ttl t /\ i4_proto p = t4_proto t /\ i4_src p = t4_src t /\ i4_dst p = t4_dst t /\
    i4_opts p = upto_eol (t4_opts t) /\ i4_data p = pl /\ i4_rest p = pl ++ pad.
Proof.
  intros H p. destruct (ip4_data_rest t plen ck pl pad) as [D R]; auto. { apply hdr_of_len. }
  repeat match goal with |- _ /\ _ => split end; auto.
  unfold p; cbn [ip4_rx_of i4_hlen]. unfold t4_hlen, ip4_raw_options, zlen. rewrite map_length. auto.
Qed.

Lemma ip4_round_trip_fields t c pl pad buf ps :
  ip4_tx_sane t -> wf_bytes pl -> wf_bytes pad ->
  zlen pl = c_len c ->
  (forall b, zlen b = c_len c ->
     c_asm c b (word_sum 4 3 (ip4_pseudo (t4_src t) (t4_dst t) (t4_proto t) (c_len c))) = Ok pl) ->
  let plen := 20 + zlen (t4_opts t) + zlen pl in plen < 65536 ->
  t4_opts t = [] \/ rfc1071 (hdr_of t plen 0) 0 <> 65534 ->
  zlen buf = plen ->
  let ck := rfc1071 (hdr_of t plen 0) 0 in
  ip4_asm t c buf ps = Ok (hdr_of t plen ck ++ pl) /\
  exists p, ip4_parse ((hdr_of t plen ck ++ pl) ++ pad) = Ok (inr p) /\
    i4_ver p = 4 /\ i4_hlen p = 20 + zlen (t4_opts t) /\ i4_plen p = plen /\
    i4_dscp p = t4_dscp t /\ i4_ecn p = t4_ecn t /\ i4_id p = t4_id t /\
    i4_df p = t4_df t /\ i4_mf p = t4_mf t /\ i4_offset p = t4_offset t /\
    i4_ttl p = t4_ttl t /\ i4_proto p = t4_proto t /\ i4_src p = t4_src t /\ i4_dst p = t4_dst t /\
    i4_opts p = upto_eol (t4_opts t) /\ i4_data p = pl /\ i4_rest p = pl ++ pad.
Proof.
  intros S Wl Wd Lc Ha plen Hp Hc Lb ck.
  destruct (ip4_round_trip t c pl pad buf ps S Wl Wd Lc Ha Hp Hc Lb) as [A P].
  split; [exact A|]. eexists. split; [exact P|]. apply ip4_rx_fields.
  unfold plen, t4_hlen, ip4_raw_options, zlen. rewrite map_length. auto.
Qed.

Lemma ip4_frag_round_trip_fields t pl pad buf ps :
  ip4_tx_sane t -> wf_bytes pl -> wf_bytes pad ->
  let plen := 20 + zlen (t4_opts t) + zlen pl in plen < 65536 ->
  t4_opts t = [] \/ rfc1071 (hdr_of t plen 0) 0 <> 65534 ->
  zlen buf = plen ->
  let ck := rfc1071 (hdr_of t plen 0) 0 in
  ip4_frag_asm t pl buf ps = Ok (hdr_of t plen ck ++ pl) /\
  exists p, ip4_parse ((hdr_of t plen ck ++ pl) ++ pad) = Ok (inr p) /\
    i4_ver p = 4 /\ i4_hlen p = 20 + zlen (t4_opts t) /\ i4_plen p = plen /\
    i4_dscp p = t4_dscp t /\ i4_ecn p = t4_ecn t /\ i4_id p = t4_id t /\
    i4_df p = t4_df t /\ i4_mf p = t4_mf t /\ i4_offset p = t4_offset t /\
    i4_ttl p = t4_ttl t /\ i4_proto p = t4_proto t /\ i4_src p = t4_src t /\ i4_dst p = t4_dst t /\
    i4_opts p = upto_eol (t4_opts t) /\ i4_data p = pl /\ i4_rest p = pl ++ pad.
Proof.
  intros S Wl Wd plen Hp Hc Lb ck.
  destruct (ip4_frag_round_trip t pl pad buf ps S Wl Wd Hp Hc Lb) as [A P].
  split; [exact A|]. eexists. split; [exact P|]. apply ip4_rx_fields.
  unfold plen, t4_hlen, ip4_raw_options, zlen. rewrite map_length. auto.
Qed.

Lemma ip4_raises_only f : wf_bytes f ->
  (exists r, ip4_parse f = Ok r) \/
  (ip4_parse f = Exn IndexError /\ 24 <= zlen f /\ zlen f = byte_at f 0 mod 16 * 4 /\
   2 <= byte_at f (length f - 1)).
Proof.
  intros W. destruct (ip4_parse f) as [r|e] eqn:E; [left; eauto|right].
  destruct (ip4_raise_shape f e W E) as (-> & H). auto.
Qed.

Lemma ip4_accept_fields f p : wf_bytes f -> ip4_parse f = Ok (inr p) ->
  20 <= i4_hlen p <= i4_plen p /\ i4_plen p <= zlen f /\
  rfc1071_verifies (slice 0 (i4_hlen p) f) 0 /\
  i4_ver p = 4 /\
  ip4_is_multicast (i4_src p) = false /\ ip4_is_reserved (i4_src p) = false /\
  ip4_is_limited_broadcast (i4_src p) = false /\
  ~ (i4_df p = true /\ i4_mf p = true) /\ ~ (i4_df p = true /\ i4_offset p <> 0) /\
  p = ip4_of f (i4_opts p).
Proof.
  intros W H. destruct (ip4_accept_sound f p W H) as [V E]. rewrite E. cbn [ip4_of i4_opts].
  destruct V as (L & L1 & L2 & K & V & S1 & S2 & S3 & S4 & S5).
  cbn [ip4_of i4_hlen i4_plen i4_ver i4_src i4_df i4_mf i4_offset].
  rewrite !Z.eqb_eq. repeat match goal with |- _ /\ _ => split end; auto; lia.
Qed.

Lemma ip4_accept_plain_iff f : wf_bytes f -> byte_at f 0 mod 16 = 5 ->
  (ip4_parse f = Ok (inr (ip4_of f [])) <-> ip4_verifiable f).
Proof.
  intros W H. split.
  - intros E. apply (ip4_accept_sound f _ W E).
  - intros V. apply ip4_accept_plain; auto.
Qed.
