(** Proofs about the IPv6 and IPv6 fragment header codecs. *)
From Verif Require Import BaseLemmas BitLemmas CodecModel CksumModel AddrModel AddrProofs
  SpecCksum CksumProofs SpecWire Ip4Model Ip4Proofs Ip6Model EtherProofs CodecLemmas PshdrLemmas.

Definition ip6_wf (p : ip6) : Prop :=
  i6_ver p = 6 /\ 0 <= i6_dscp p < 64 /\ 0 <= i6_ecn p < 4 /\ 0 <= i6_flow p < 2 ^ 20 /\
  0 <= i6_dlen p < 65536 /\ 0 <= i6_next p < 256 /\ 0 < i6_hop p < 256 /\
  0 <= i6_src p < 2 ^ 128 /\ 0 <= i6_dst p < 2 ^ 128 /\ ip6_is_multicast (i6_src p) = false.

(** the first four bytes *)
Lemma ip6_word_fields a b c d : is_byte a -> is_byte b -> is_byte c -> is_byte d ->
  let x := be [a; b; c; d] in
  Z.shiftr a 4 = x / 2 ^ 28 /\
  Z.lor (Z.shiftl (Z.land a 0x0F) 2) (Z.shiftr (Z.land b 0xC0) 6) = x / 2 ^ 22 mod 64 /\
  Z.shiftr (Z.land b 0x30) 4 = x / 2 ^ 20 mod 4 /\
  Z.lor (Z.lor (Z.shiftl (Z.land b 0x0F) 16) (Z.shiftl c 8)) d = x mod 2 ^ 20.
Proof.
  intros A B C D x. unfold is_byte in A, B, C, D.
  assert (E : x = a * 2 ^ 24 + b * 2 ^ 16 + c * 256 + d) by (unfold x, be; cbn [fold_left]; lia).
  rewrite E. rewrite (shr_land_field b 6 2 0xC0), (shr_land_field b 4 2 0x30), !land_15,
    Z.shiftr_div_pow2 by (lia || reflexivity).
  change (Z.shiftl (b mod 16) 16) with (Z.shiftl (b mod 16) (8 + 8)). rewrite <- (Z.shiftl_shiftl (b mod 16) 8 8) by lia.
  rewrite <- Z.shiftl_lor. rewrite !Z.shiftl_mul_pow2 by lia.
  rewrite (lor_shift (a mod 16) ((b / 2 ^ 6) mod 2 ^ 2) 2) by lia.
  rewrite (lor_shift (b mod 16) c 8), (lor_shift (b mod 16 * 2 ^ 8 + c) d 8) by lia.
  repeat split; lia.
Qed.

Lemma ip6_parse_wire dscp ecn flow dlen next hop src dst pl :
  0 <= dscp < 64 -> 0 <= ecn < 4 -> 0 <= flow < 2 ^ 20 -> 0 <= dlen < 65536 ->
  0 <= next < 256 -> 0 < hop < 256 -> 0 <= src < 2 ^ 128 -> 0 <= dst < 2 ^ 128 ->
  ip6_is_multicast src = false -> zlen pl = dlen ->
  ip6_parse (ip6_hdr_wire dscp ecn flow dlen next hop src dst ++ pl)
  = Ok (inr {| i6_ver := 6; i6_dscp := dscp; i6_ecn := ecn; i6_flow := flow; i6_dlen := dlen;
       i6_next := next; i6_hop := hop; i6_src := src; i6_dst := dst;
       i6_frame := ip6_hdr_wire dscp ecn flow dlen next hop src dst ++ pl |}).
Proof.
  intros H1 H2 H3 H4 H5 H6 H7 H8 H9 Hl. unfold ip6_hdr_wire.
  set (x := 6 * 2 ^ 28 + dscp * 2 ^ 22 + ecn * 2 ^ 20 + flow).
  explode 4%nat x.
  explode 2%nat dlen. explode 16%nat src. explode 16%nat dst.
  cbn [app]. unfold ip6_parse, run_parser, ip6_integrity, check.
  rewrite !zlen_cons. pose proof (zlen_nonneg pl).
  match goal with |- context [?y <? 40] => replace (y <? 40) with false by lia end.
  unfold ip6_sanity, ip6_fields, check. readf.
  rewrite !ip6_of_bytes_be by reflexivity. rewrite B0, B1, B2. cbn [rbind].
  match goal with |- context [negb (dlen =? ?y)] => replace (dlen =? y) with true by lia end.
  wf_split W.
  destruct (ip6_word_fields b b0 b1 b2) as (F1 & F2 & F3 & F4); auto.
  rewrite B in F1, F2, F3, F4. rewrite F1, F2, F3, F4, H9.
  replace (x / 2 ^ 28) with 6 by (unfold x; lia).
  replace (x / 2 ^ 22 mod 64) with dscp by (unfold x; lia).
  replace (x / 2 ^ 20 mod 4) with ecn by (unfold x; lia).
  replace (x mod 2 ^ 20) with flow by (unfold x; lia).
  cbn [negb Z.eqb Pos.eqb rbind]. replace (hop =? 0) with false by lia. reflexivity.
Qed.

Lemma ip6_parse_total f : wf_bytes f ->
  (exists r, ip6_parse f = Ok (inl r)) \/
  exists p, ip6_parse f = Ok (inr p) /\ ip6_wf p /\ i6_frame p = f /\ zlen (i6_rest p) = i6_dlen p /\
    f = ip6_hdr_wire (i6_dscp p) (i6_ecn p) (i6_flow p) (i6_dlen p) (i6_next p) (i6_hop p)
          (i6_src p) (i6_dst p) ++ i6_rest p.
Proof.
  intros W. unfold ip6_parse, run_parser, ip6_integrity, check.
  destruct (Z.ltb_spec (zlen f) 40) as [L|L]; [left; eexists; reflexivity|].
  assert (W4 : wf_bytes (slice 0 4 f)) by (apply wf_slice; auto).
  assert (W2 : wf_bytes (slice 4 6 f)) by (apply wf_slice; auto).
  assert (Ws : wf_bytes (slice 8 24 f)) by (apply wf_slice; auto).
  assert (Wd : wf_bytes (slice 24 40 f)) by (apply wf_slice; auto).
  pose proof L as L'. take_bytes L. unfold ip6_sanity, ip6_fields, check, i6_rest.
  assert (Ha : is_byte b /\ is_byte b0 /\ is_byte b1 /\ is_byte b2 /\ is_byte b5 /\ is_byte b6).
  { wf_split W. auto 10. }
  set (f := b :: _) in *.
  change (slice 0 4 f) with [b; b0; b1; b2] in W4. change (slice 4 6 f) with [b3; b4] in W2.
  set (ls := slice 8 24 f) in *. set (ld := slice 24 40 f) in *.
  assert (Ls : zlen ls = 16) by reflexivity. assert (Ld : zlen ld = 16) by reflexivity.
  assert (Ef : f = [b; b0; b1; b2] ++ [b3; b4] ++ [b5] ++ [b6] ++ ls ++ ld ++ (slice_from 40 f)) by reflexivity.
  rewrite !ip6_of_bytes_be by auto.
  assert (R : u8 f 0 = Ok b /\ u8 f 1 = Ok b0 /\ u8 f 2 = Ok b1 /\ u8 f 3 = Ok b2 /\
    u16 f 4 = Ok (be [b3; b4]) /\ u8 f 6 = Ok b5 /\ u8 f 7 = Ok b6).
  { unfold f. readf. auto 10. }
  destruct R as (R1 & R2 & R3 & R4 & R5 & R6 & R7).
  rewrite R1, R2, R3, R4, R5, R6, R7. clear R1 R2 R3 R4 R5 R6 R7. cbn [rbind].
  clearbody f.
  destruct (Z.eqb_spec (be [b3; b4]) (zlen f - 40)) as [El|El]; cbn [negb rbind]; [|left; eexists; reflexivity].
  destruct Ha as (A1 & A2 & A3 & A4 & A5 & A6).
  destruct (ip6_word_fields b b0 b1 b2) as (F1 & F2 & F3 & F4); auto.
  rewrite F1, F2, F3, F4.
  set (x := be [b; b0; b1; b2]) in *.
  destruct (Z.eqb_spec (x / 2 ^ 28) 6) as [V|V]; cbn [negb rbind]; [|left; eexists; reflexivity].
  destruct (Z.eqb_spec b6 0) as [Hh|Hh]; cbn [rbind]; [left; eexists; reflexivity|].
  destruct (ip6_is_multicast (be ls)) eqn:M; cbn [rbind]; [left; eexists; reflexivity|].
  right. eexists. split; [reflexivity|].
  unfold ip6_wf; cbn [i6_ver i6_dscp i6_ecn i6_flow i6_dlen i6_next i6_hop i6_src i6_dst i6_frame].
  pose proof (be_bound _ W4) as B4. fold x in B4. change (256 ^ zlen [b; b0; b1; b2]) with (2 ^ 32) in B4.
  pose proof (be_bound _ W2) as B2. change (256 ^ zlen [b3; b4]) with 65536 in B2.
  pose proof (be_bound _ Ws) as Bs. rewrite Ls in Bs. change (256 ^ 16) with (2 ^ 128) in Bs.
  pose proof (be_bound _ Wd) as Bd. rewrite Ld in Bd. change (256 ^ 16) with (2 ^ 128) in Bd.
  unfold is_byte in *. split; [repeat split; auto; lia|]. split; [reflexivity|].
  split.
  { rewrite El, zlen_slice_from; lia. }
  unfold ip6_hdr_wire.
  replace (6 * 2 ^ 28 + x / 2 ^ 22 mod 64 * 2 ^ 22 + x / 2 ^ 20 mod 4 * 2 ^ 20 + x mod 2 ^ 20) with x by lia.
  pose proof (be_enc_be _ W4) as E4. fold x in E4. cbn [length] in E4.
  pose proof (be_enc_be _ W2) as E2. cbn [length] in E2.
  pose proof (be_enc_be _ Ws) as Es. replace (length ls) with 16%nat in Es by (unfold zlen in Ls; lia).
  pose proof (be_enc_be _ Wd) as Ed. replace (length ld) with 16%nat in Ed by (unfold zlen in Ld; lia).
  rewrite E4, E2, Es, Ed. rewrite <- !app_assoc. exact Ef.
Qed.

Lemma ip6_parse_exact f p : wf_bytes f ->
  (ip6_parse f = Ok (inr p) <->
   i6_ver p = 6 /\ 0 <= i6_dscp p < 64 /\ 0 <= i6_ecn p < 4 /\ 0 <= i6_flow p < 2 ^ 20 /\
   0 <= i6_dlen p < 65536 /\ 0 <= i6_next p < 256 /\ 0 < i6_hop p < 256 /\
   0 <= i6_src p < 2 ^ 128 /\ 0 <= i6_dst p < 2 ^ 128 /\ ip6_is_multicast (i6_src p) = false /\
   i6_frame p = f /\ zlen (i6_rest p) = i6_dlen p /\
   f = ip6_hdr_wire (i6_dscp p) (i6_ecn p) (i6_flow p) (i6_dlen p) (i6_next p) (i6_hop p)
          (i6_src p) (i6_dst p) ++ i6_rest p).
Proof.
  intros W. split.
  - intros H. destruct (ip6_parse_total f W) as [[r E]|(q & E & P & F & L & Ef)]; [congruence|].
    assert (p = q) as -> by congruence. unfold ip6_wf in P. intuition.
  - intros (H0 & H1 & H2 & H3 & H4 & H5 & H6 & H7 & H8 & H9 & H10 & H11 & H12).
    rewrite H12. rewrite ip6_parse_wire; auto. rewrite <- H12, <- H10, <- H0. destruct p; reflexivity.
Qed.

Lemma ip6_parse_never_raises f : wf_bytes f -> exists r, ip6_parse f = Ok r.
Proof.
  intros W. destruct (ip6_parse_total f W) as [[r E]|(q & E & _)]; rewrite E; eauto.
Qed.

(** ** assembling *)
Lemma ip6_tx_ok_inv t : ip6_tx_ok t = true ->
  0 <= t6_hop t < 256 /\ 0 <= t6_dscp t < 64 /\ 0 <= t6_ecn t < 4 /\ 0 <= t6_flow t < 2 ^ 24 /\
  0 <= t6_next t < 256.
Proof.
  unfold ip6_tx_ok, IP6_NEXT_ICMP6, IP6_NEXT_UDP, IP6_NEXT_TCP, IP6_NEXT_EXT_FRAG, IP6_NEXT_RAW.
  intros H. rewrite !andb_true_iff, !orb_true_iff in H. lia.
Qed.

(** what is put on the wire: only the two top bits of the DSCP, shifted down,
    and the low 20 bits of the flow label *)
Definition hdr6_of (t : ip6_tx) (dlen : Z) : bytes :=
  ip6_hdr_wire (t6_dscp t / 16 * 4) (t6_ecn t) (t6_flow t mod 2 ^ 20) dlen (t6_next t) (t6_hop t)
    (t6_src t) (t6_dst t).

Definition ip6_tx_wf (t : ip6_tx) : Prop :=
  ip6_tx_ok t = true /\ 0 <= t6_src t < 2 ^ 128 /\ 0 <= t6_dst t < 2 ^ 128.

Lemma hdr6_of_len t dlen : zlen (hdr6_of t dlen) = 40.
Proof. unfold hdr6_of, ip6_hdr_wire. rewrite !zlen_app, !be_enc_zlen. reflexivity. Qed.

Lemma ip6_hdr_pack t dlen : ip6_tx_wf t -> 0 <= dlen < 65536 ->
  pack [FI 1 (Z.lor (Z.shiftl 6 4) (Z.shiftr (t6_dscp t) 4));
      FI 1 (Z.lor (Z.lor (Z.land (t6_dscp t) (Z.shiftl 0x03 6)) (Z.shiftl (t6_ecn t) 4))
                  (Z.shiftr (Z.land (t6_flow t) 0x0F0000) 16));
      FI 1 (Z.shiftr (Z.land (t6_flow t) 0xFF00) 8);
      FI 1 (Z.land (t6_flow t) 0xFF);
      FI 2 dlen; FI 1 (t6_next t); FI 1 (t6_hop t);
      FB (ip6_bytes (t6_src t)); FB (ip6_bytes (t6_dst t))]
  = Ok (hdr6_of t dlen).
Proof.
  intros (K & Hs & Hd) Hl. destruct (ip6_tx_ok_inv t K) as (H1 & H2 & H3 & H4 & H5).
  rewrite !ip6_bytes_enc by auto.
  rewrite (shr_land_field (t6_flow t) 16 4 0x0F0000), (shr_land_field (t6_flow t) 8 8 0xFF00), land_ff
    by (lia || reflexivity).
  change (Z.shiftl 3 6) with 0xC0. change (Z.shiftl 6 4) with (6 * 2 ^ 4).
  rewrite Z.shiftr_div_pow2, Z.shiftl_mul_pow2 by lia.
  assert (E : Z.land (t6_dscp t) 0xC0 = 0).
  { change 0xC0 with ((2 ^ 2 - 1) * 2 ^ 6). rewrite (land_field (t6_dscp t) 6 2) by lia. lia. }
  rewrite E, Z.lor_0_l. rewrite (lor_shift 6 (t6_dscp t / 2 ^ 4) 4), (lor_shift (t6_ecn t) _ 4) by lia.
  unfold hdr6_of, ip6_hdr_wire.
  set (x := 6 * 2 ^ 28 + t6_dscp t / 16 * 4 * 2 ^ 22 + t6_ecn t * 2 ^ 20 + t6_flow t mod 2 ^ 20).
  assert (Ex : be_enc 4 x = [6 * 2 ^ 4 + t6_dscp t / 2 ^ 4; t6_ecn t * 2 ^ 4 + (t6_flow t / 2 ^ 16) mod 2 ^ 4;
     t6_flow t / 2 ^ 8 mod 2 ^ 8; t6_flow t mod 256]).
  { rewrite <- (be_enc_be [_; _; _; _]).
    - cbn [length]. f_equal. unfold be, x; cbn [fold_left]. lia.
    - repeat (apply wf_cons; [unfold is_byte; lia|]). apply wf_nil. }
  rewrite Ex. cbn [app]. rewrite <- (app_nil_r (be_enc 16 (t6_dst t))). packs; lia.
Qed.

Lemma ip6_asm_to t c enc ps0 : ip6_tx_wf t -> 0 <= c_len c < 65536 ->
  asm_to c enc (word_sum 8 5 (ip6_pseudo (t6_src t) (t6_dst t) (c_len c) (t6_next t))) ->
  asm_to (ip6_carried t c)
    (fun _ => hdr6_of t (c_len c)
       ++ enc (word_sum 8 5 (ip6_pseudo (t6_src t) (t6_dst t) (c_len c) (t6_next t)))) ps0.
Proof.
  intros Hw Hl Ha. pose proof Hw as (K & Hs & Hd). destruct (ip6_tx_ok_inv t K) as (_ & _ & _ & _ & H5).
  split.
  - cbn [ip6_carried c_len]. rewrite zlen_app, hdr6_of_len, (proj1 Ha). reflexivity.
  - intros buf L. cbn [ip6_carried c_len c_asm] in *. unfold ip6_asm, assert_. rewrite K.
    rewrite (pack_into_0 _ _ _ (ip6_hdr_pack t (c_len c) Hw Hl)) by (rewrite hdr6_of_len; lia).
    cbn [rbind]. rewrite ip6_pshdr_ok by lia. cbn [rbind].
    apply (asm_tail_ok _ _ _ enc); auto; rewrite hdr6_of_len; auto.
    rewrite zlen_slice_from; lia.
Qed.

Lemma ip6_round_trip t c pl buf ps : ip6_tx_wf t -> wf_bytes pl ->
  zlen pl = c_len c -> c_len c < 65536 ->
  (forall b, zlen b = c_len c ->
     c_asm c b (word_sum 8 5 (ip6_pseudo (t6_src t) (t6_dst t) (c_len c) (t6_next t))) = Ok pl) ->
  t6_hop t <> 0 -> ip6_is_multicast (t6_src t) = false ->
  zlen buf = 40 + zlen pl ->
  exists w p, ip6_asm t c buf ps = Ok w /\ w = hdr6_of t (zlen pl) ++ pl /\
    ip6_parse w = Ok (inr p) /\ i6_ver p = 6 /\ i6_dscp p = t6_dscp t / 16 * 4 /\ i6_ecn p = t6_ecn t /\
    i6_flow p = t6_flow t mod 2 ^ 20 /\ i6_dlen p = zlen pl /\ i6_next p = t6_next t /\
    i6_hop p = t6_hop t /\ i6_src p = t6_src t /\ i6_dst p = t6_dst t /\
    i6_data p = pl /\ i6_rest p = pl.
Proof.
  intros Hw Wl Lc Hl Ha Hh Hm Lb. pose proof Hw as (K & Hs & Hd).
  destruct (ip6_tx_ok_inv t K) as (H1 & H2 & H3 & H4 & H5).
  pose proof (zlen_nonneg pl).
  destruct (ip6_asm_to t c (fun _ => pl) ps Hw) as [_ A]; [lia|split; auto|].
  cbv beta in A. rewrite <- Lc in A. eexists. eexists. split; [apply A; cbn [ip6_carried c_len]; lia|].
  split; [reflexivity|]. split.
  - unfold hdr6_of. apply ip6_parse_wire; auto; lia.
  - cbn [i6_ver i6_dscp i6_ecn i6_flow i6_dlen i6_next i6_hop i6_src i6_dst].
    repeat match goal with |- _ /\ _ => split end; auto.
    + unfold i6_data, i6_plen; cbn [i6_dlen i6_frame]. fold (hdr6_of t (zlen pl)).
      rewrite slice_app_shift by (rewrite hdr6_of_len; lia). rewrite hdr6_of_len.
      replace (40 - 40) with 0 by lia. apply slice_all. lia.
Qed.

(** ** fragment header *)
Lemma frag6_reads w3 : 0 <= w3 < 65536 ->
  Z.land w3 0xFFF8 = w3 / 8 * 8.
Proof. intros H. change 0xFFF8 with ((2 ^ 13 - 1) * 2 ^ 3). rewrite land_field by lia. lia. Qed.

Lemma frag6_parse_total f plen : wf_bytes f ->
  (exists r, frag6_parse f plen = Ok (inl r) /\ zlen f < 8) \/
  8 <= zlen f /\
  frag6_parse f plen = Ok (inr {| g_next := byte_at f 0; g_offset := word_at f 2 / 8 * 8;
     g_mf := word_at f 2 mod 2 =? 1; g_id := be (slice 4 8 f); g_plen := plen; g_frame := f |}).
Proof.
  intros W. unfold frag6_parse, run_parser, frag6_integrity, check.
  destruct (Z.ltb_spec (zlen f) 8) as [L|L]; [left; eexists; split; [reflexivity|auto]|].
  right. split; [auto|]. cbn [rbind].
  assert (Wh : 0 <= word_at f 2 < 65536).
  { unfold word_at. pose proof (byte_at_range f 2 W). pose proof (byte_at_range f 3 W). unfold is_byte in *. lia. }
  take_bytes L. unfold frag6_fields. readf.
  change (byte_at _ 0) with b. unfold word_at in *. change (byte_at _ 2) with b1 in *.
  change (byte_at _ 3) with b2 in *.
  rewrite (land_bit b2 0 0x01) by (lia || reflexivity). rewrite be2.
  rewrite frag6_reads by lia.
  change (slice 4 8 (b :: b0 :: b1 :: b2 :: b3 :: b4 :: b5 :: b6 :: r0)) with [b3; b4; b5; b6].
  change (2 ^ 0) with 1. rewrite Z.div_1_r.
  replace ((b1 * 256 + b2) mod 2) with (b2 mod 2) by lia. reflexivity.
Qed.

Lemma frag6_never_raises f plen : wf_bytes f -> exists r, frag6_parse f plen = Ok r.
Proof.
  intros W. destruct (frag6_parse_total f plen W) as [(r & E & _)|[_ E]]; rewrite E; eauto.
Qed.

Lemma frag6_accepts f plen : wf_bytes f ->
  ((exists p, frag6_parse f plen = Ok (inr p)) <-> 8 <= zlen f).
Proof.
  intros W. destruct (frag6_parse_total f plen W) as [(r & E & L)|[L E]]; rewrite E; split; intros.
  - destruct H; congruence.
  - lia.
  - auto.
  - eauto.
Qed.

Lemma frag6_parse_wire next reserved offset res2 mf id data plen :
  0 <= next < 256 -> 0 <= reserved < 256 -> 0 <= offset < 65536 -> offset mod 8 = 0 -> 0 <= res2 < 4 ->
  0 <= id < 2 ^ 32 -> wf_bytes data ->
  frag6_parse (frag6_wire next reserved offset res2 mf id data) plen
  = Ok (inr {| g_next := next; g_offset := offset; g_mf := mf; g_id := id; g_plen := plen;
       g_frame := frag6_wire next reserved offset res2 mf id data |}).
Proof.
  intros H1 H2 H3 H4 H5 H6 Wd.
  assert (W : wf_bytes (frag6_wire next reserved offset res2 mf id data)).
  { unfold frag6_wire. rewrite !wf_app. repeat match goal with |- _ /\ _ => split end;
    try apply be_enc_wf; auto; repeat constructor; unfold is_byte; lia. }
  assert (L : 8 <= zlen (frag6_wire next reserved offset res2 mf id data)).
  { unfold frag6_wire. rewrite !zlen_app, !be_enc_zlen. pose proof (zlen_nonneg data).
    change (zlen [next]) with 1. change (zlen [reserved]) with 1. lia. }
  destruct (frag6_parse_total _ plen W) as [(r & E & L')|[_ E]]; [lia|].
  rewrite E. set (f := frag6_wire _ _ _ _ _ _ _) in *.
  set (x := offset / 8 * 8 + res2 * 2 + b2z mf) in *.
  assert (Hx : 0 <= x < 65536) by (unfold x; destruct mf; cbn [b2z]; lia).
  assert (Ef : f = [next; reserved] ++ be_enc 2 x ++ be_enc 4 id ++ data) by reflexivity.
  assert (E0 : byte_at f 0 = next) by reflexivity.
  assert (E2 : word_at f 2 = x).
  { rewrite <- (be_be_enc_small 2 x) by exact Hx. rewrite Ef.
    pose proof (be_enc_length 2 x) as Lx. destruct (be_enc 2 x) as [|a [|b [|]]]; try discriminate.
    rewrite be2. reflexivity. }
  assert (E4 : be (slice 4 8 f) = id).
  { rewrite Ef. replace (slice 4 8 ([next; reserved] ++ be_enc 2 x ++ be_enc 4 id ++ data)) with (be_enc 4 id) by reflexivity.
    apply be_be_enc_small. exact H6. }
  rewrite E0, E2, E4.
  replace (x / 8 * 8) with offset by (unfold x; destruct mf; cbn [b2z]; lia).
  replace (x mod 2 =? 1) with mf by (unfold x; destruct mf; cbn [b2z]; lia). reflexivity.
Qed.

Lemma frag6_asm_to next offset mf id data ps :
  In next [58; 17; 6; 255] -> 0 <= offset < 65536 -> offset mod 8 = 0 -> 0 <= id < 2 ^ 32 ->
  asm_to (frag6_carried next offset mf id data) (fun _ => frag6_wire next 0 offset 0 mf id data) ps.
Proof.
  intros H1 H2 H3 H4. assert (Hn : 0 <= next < 256) by (cbn [In] in H1; lia).
  assert (L : zlen (frag6_wire next 0 offset 0 mf id data) = 8 + zlen data).
  { unfold frag6_wire. rewrite !zlen_app, !be_enc_zlen.
    change (zlen [next]) with 1. change (zlen [0]) with 1. lia. }
  split; [exact L|]. intros buf Lb. cbn [frag6_carried c_len c_asm] in *. unfold frag6_asm, assert_.
  assert (((next =? IP6_NEXT_ICMP6) || (next =? IP6_NEXT_UDP) || (next =? IP6_NEXT_TCP)
           || (next =? IP6_NEXT_RAW)) = true) as ->.
  { unfold IP6_NEXT_ICMP6, IP6_NEXT_UDP, IP6_NEXT_TCP, IP6_NEXT_RAW. cbn [In] in H1. lia. }
  assert (E : Z.lor offset (b2z mf) = offset / 8 * 8 + 0 * 2 + b2z mf).
  { replace offset with (offset / 8 * 2 ^ 3) at 1 by lia.
    rewrite lor_shift; destruct mf; cbn [b2z]; lia. }
  apply pack_into_full; [|rewrite L; lia].
  rewrite E. unfold frag6_wire. cbn [app]. packs.
  - destruct mf; cbn [b2z]; lia.
Qed.

Lemma frag6_round_trip next offset mf id data buf ps :
  In next [58; 17; 6; 255] -> 0 <= offset < 65536 -> offset mod 8 = 0 -> 0 <= id < 2 ^ 32 ->
  wf_bytes data -> zlen buf = 8 + zlen data ->
  exists w p, frag6_asm next offset mf id data buf ps = Ok w /\
    w = frag6_wire next 0 offset 0 mf id data /\
    frag6_parse w (zlen w) = Ok (inr p) /\
    g_next p = next /\ g_offset p = offset /\ g_mf p = mf /\ g_id p = id /\ g_data p = data /\
    g_dlen p = zlen data.
Proof.
  intros H1 H2 H3 H4 Wd Lb. assert (Hn : 0 <= next < 256) by (cbn [In] in H1; lia).
  destruct (frag6_asm_to next offset mf id data ps H1 H2 H3 H4) as [L A].
  cbn [frag6_carried c_len c_asm] in *.
  do 2 eexists. split; [apply A; auto|]. split; [reflexivity|].
  rewrite frag6_parse_wire; auto; try lia. split; [reflexivity|].
  cbn [g_next g_offset g_mf g_id]. repeat match goal with |- _ /\ _ => split end; auto.
  - unfold g_data; cbn [g_plen g_frame]. rewrite L.
    change (frag6_wire next 0 offset 0 mf id data)
      with ([next; 0] ++ be_enc 2 (offset / 8 * 8 + 0 * 2 + b2z mf) ++ be_enc 4 id ++ data).
    rewrite !app_assoc. rewrite slice_app_shift.
    + rewrite !zlen_app, !be_enc_zlen. change (zlen [next; 0] + Z.of_nat 2 + Z.of_nat 4) with 8.
      replace (8 - 8) with 0 by lia. apply slice_all. lia.
    + rewrite !zlen_app, !be_enc_zlen. change (zlen [next; 0] + Z.of_nat 2 + Z.of_nat 4) with 8. lia.
  - unfold g_dlen; cbn [g_plen]. rewrite L. lia.
Qed.
