(** Proofs about the UDP codec. *)
From Verif Require Import BaseLemmas BitLemmas CodecModel CksumModel AddrModel AddrProofs
  SpecCksum CksumProofs SpecWire Ip4Model Ip4Proofs Ip6Model EtherProofs CodecLemmas PshdrLemmas UdpModel.

Lemma udp_wire_len sport dport len ck data : zlen (udp_wire sport dport len ck data) = 8 + zlen data.
Proof. unfold udp_wire. rewrite !zlen_app, !be_enc_zlen. lia. Qed.
Lemma udp_wire_wf sport dport len ck data : wf_bytes data -> wf_bytes (udp_wire sport dport len ck data).
Proof.
  intros. unfold udp_wire. rewrite !wf_app. auto using be_enc_wf.
Qed.

Lemma udp_parse_total f plen ps pseudo : wf_bytes f -> pshdr_for pseudo ps -> 0 <= plen < 65536 ->
  (exists r, udp_parse f plen ps = Ok (inl r) /\
     ~ (rfc1071_verifies (pseudo ++ slice 0 plen f) 0 /\ 8 <= plen <= zlen f /\ word_at f 4 = plen /\
        word_at f 0 <> 0 /\ word_at f 2 <> 0)) \/
  (exists p, udp_parse f plen ps = Ok (inr p) /\
     rfc1071_verifies (pseudo ++ slice 0 plen f) 0 /\ 8 <= plen <= zlen f /\ word_at f 4 = plen /\
     word_at f 0 <> 0 /\ word_at f 2 <> 0 /\
     p = {| u_sport := word_at f 0; u_dport := word_at f 2; u_plen := plen; u_cksum := word_at f 6;
            u_data := slice 8 plen f |}).
Proof.
  intros W Hp Hl. unfold udp_parse, run_parser, udp_integrity, check.
  assert (Hs : wf_bytes (slice 0 plen f)) by (apply wf_slice; auto).
  assert (Hz : zlen (slice 0 plen f) < 2 ^ 32).
  { unfold slice, zlen. rewrite firstn_length. lia. }
  pose proof (pshdr_cksum_check pseudo ps _ Hp Hs Hz) as K.
  destruct (z2b (inet_cksum (slice 0 plen f) ps)) eqn:Z.
  { left. eexists. split; [reflexivity|]. intros (V & _). apply K in V. rewrite V in Z. discriminate. }
  apply z2b_false in Z. apply K in Z.
  destruct ((8 <=? plen) && (plen <=? zlen f)) eqn:L; cbn [negb];
    [|left; eexists; split; [reflexivity|]; lia].
  apply andb_true_iff in L as [L1 L2]. apply Z.leb_le in L1, L2.
  assert (L : 8 <= zlen f) by lia. unfold udp_sanity, udp_fields, check.
  assert (R : u16 f 0 = Ok (word_at f 0) /\ u16 f 2 = Ok (word_at f 2) /\ u16 f 4 = Ok (word_at f 4)
    /\ u16 f 6 = Ok (word_at f 6)).
  { clear - L. take_bytes L. readf. rewrite !be2. auto. }
  destruct R as (R1 & R2 & R3 & R4). rewrite R1, R2, R3, R4. cbn [rbind].
  destruct (Z.eqb_spec (word_at f 4) plen) as [E|E].
  2:{ rewrite andb_false_r, andb_false_l. cbn [negb rbind]. left. eexists; split; [reflexivity|]. tauto. }
  replace ((8 <=? word_at f 4) && true && (plen <=? zlen f)) with true by lia. cbn [negb rbind].
  destruct (Z.eqb_spec (word_at f 0) 0); cbn [rbind]; [left; eexists; split; [reflexivity|]; tauto|].
  destruct (Z.eqb_spec (word_at f 2) 0); cbn [rbind]; [left; eexists; split; [reflexivity|]; tauto|].
  right. eexists. split; [reflexivity|]. rewrite E. auto 10.
Qed.

Lemma udp_never_raises f plen ps pseudo : wf_bytes f -> pshdr_for pseudo ps -> 0 <= plen < 65536 ->
  exists r, udp_parse f plen ps = Ok r.
Proof.
  intros W H L. destruct (udp_parse_total f plen ps pseudo W H L) as [(r & E & _)|(p & E & _)]; rewrite E; eauto.
Qed.

Lemma udp_accepts f plen ps pseudo : wf_bytes f -> pshdr_for pseudo ps -> 0 <= plen < 65536 ->
  ((exists p, udp_parse f plen ps = Ok (inr p)) <->
   rfc1071_verifies (pseudo ++ slice 0 plen f) 0 /\ 8 <= plen <= zlen f /\ be (slice 4 6 f) = plen /\
   be (slice 0 2 f) <> 0 /\ be (slice 2 4 f) <> 0).
Proof.
  intros W H L.
  assert (R : 8 <= zlen f -> be (slice 0 2 f) = word_at f 0 /\ be (slice 2 4 f) = word_at f 2 /\ be (slice 4 6 f) = word_at f 4).
  { clear. intros L. take_bytes L. readf. rewrite !be2. auto. }
  destruct (udp_parse_total f plen ps pseudo W H L) as [(r & E & N)|(p & E & V & Lp & E4 & N0 & N2 & _)]; rewrite E.
  - split; [intros [q Q]; congruence|]. intros (V & Lp & E4 & N0 & N2). exfalso. apply N.
    destruct R as (R1 & R2 & R3); [lia|]. rewrite <- R1, <- R2, <- R3. auto.
  - split; [intros _|eauto]. destruct R as (R1 & R2 & R3); [lia|]. rewrite R1, R2, R3. auto.
Qed.

(** the wire image of a datagram, with padding *)
Lemma udp_reads sport dport len ck data pad :
  0 <= sport < 65536 -> 0 <= dport < 65536 -> 0 <= len < 65536 -> 0 <= ck < 65536 ->
  let f := udp_wire sport dport len ck data ++ pad in
  word_at f 0 = sport /\ word_at f 2 = dport /\ word_at f 4 = len /\ word_at f 6 = ck.
Proof.
  intros H1 H2 H3 H4 f. unfold f, udp_wire.
  explode 2%nat sport. explode 2%nat dport. explode 2%nat len. explode 2%nat ck.
  rewrite <- B, <- B0, <- B1, <- B2, !be2. repeat split; reflexivity.
Qed.

Lemma udp_parse_wire sport dport ck data pad ps pseudo :
  0 < sport < 65536 -> 0 < dport < 65536 -> 0 <= ck < 65536 ->
  wf_bytes data -> wf_bytes pad -> 8 + zlen data < 65536 -> pshdr_for pseudo ps ->
  rfc1071_verifies (pseudo ++ udp_wire sport dport (8 + zlen data) ck data) 0 ->
  udp_parse (udp_wire sport dport (8 + zlen data) ck data ++ pad) (8 + zlen data) ps
  = Ok (inr {| u_sport := sport; u_dport := dport; u_plen := 8 + zlen data; u_cksum := ck; u_data := data |}).
Proof.
  intros H1 H2 H3 Wd Wp L Hp V. pose proof (zlen_nonneg data).
  set (w := udp_wire sport dport (8 + zlen data) ck data) in *.
  assert (W : wf_bytes (w ++ pad)).
  { rewrite wf_app. split; auto. apply udp_wire_wf; auto. }
  pose proof (udp_wire_len sport dport (8 + zlen data) ck data) as Lw. fold w in Lw.
  assert (Es : slice 0 (8 + zlen data) (w ++ pad) = w) by (apply slice_0_exact; lia).
  destruct (udp_reads sport dport (8 + zlen data) ck data pad) as (R0 & R2 & R4 & R6); try lia.
  fold w in R0, R2, R4, R6.
  destruct (udp_parse_total (w ++ pad) (8 + zlen data) ps pseudo W Hp ltac:(lia))
    as [(r & E & N)|(p & E & _ & _ & _ & _ & _ & P)].
  - exfalso. apply N. rewrite Es, R0, R2, R4, zlen_app. pose proof (zlen_nonneg pad).
    repeat split; auto; lia.
  - rewrite E, P, R0, R2, R6. do 3 f_equal.
    rewrite <- app_assoc || idtac. unfold w, udp_wire. rewrite !app_assoc.
    rewrite <- (app_assoc _ data pad). rewrite slice_app_shift.
    + rewrite !zlen_app, !be_enc_zlen. change (Z.of_nat 2 + Z.of_nat 2 + Z.of_nat 2 + Z.of_nat 2) with 8.
      replace (8 - 8) with 0 by lia. apply slice_0_exact. lia.
    + rewrite !zlen_app, !be_enc_zlen. lia.
Qed.

(** ** assembling *)
Lemma udp_asm_to sport dport data ps :
  0 <= sport < 65536 -> 0 <= dport < 65536 -> 8 + zlen data < 65536 ->
  asm_to (udp_carried sport dport data)
    (fun ps => udp_wire sport dport (8 + zlen data)
                 (inet_cksum (udp_wire sport dport (8 + zlen data) 0 data) ps) data) ps.
Proof.
  intros H1 H2 H3. pose proof (zlen_nonneg data). split; [rewrite udp_wire_len; reflexivity|].
  intros buf L. cbn [udp_carried c_len c_asm] in *. unfold udp_asm, assert_.
  replace ((0 <=? sport) && (sport <=? 0xFFFF)) with true by lia.
  replace ((0 <=? dport) && (dport <=? 0xFFFF)) with true by lia.
  rewrite (pack_into_full buf _ (udp_wire sport dport (8 + zlen data) 0 data)).
  - cbn [rbind]. set (ck := inet_cksum _ ps).
    assert (Hc : 0 <= ck < 65536) by apply ip4_cksum_bound.
    replace (udp_wire sport dport (8 + zlen data) 0 data)
      with ((be_enc 2 sport ++ be_enc 2 dport ++ be_enc 2 (8 + zlen data)) ++ be_enc 2 0 ++ data)
      by (unfold udp_wire; rewrite !app_assoc; reflexivity).
    rewrite pack_into_mid; auto.
  - unfold udp_wire. packs.
  - rewrite udp_wire_len. lia.
Qed.

Lemma udp_round_trip sport dport data pad buf ps pseudo :
  0 < sport < 65536 -> 0 < dport < 65536 -> wf_bytes data -> wf_bytes pad -> 8 + zlen data < 65536 ->
  pshdr_for pseudo ps -> zlen buf = 8 + zlen data ->
  cksum_lucky pseudo (udp_wire sport dport (8 + zlen data) 0 data) ->
  exists w, udp_asm sport dport data buf ps = Ok w /\
    w = udp_wire sport dport (8 + zlen data)
          (rfc1071 (pseudo ++ udp_wire sport dport (8 + zlen data) 0 data) 0) data /\
    rfc1071_verifies (pseudo ++ w) 0 /\
    exists p, udp_parse (w ++ pad) (8 + zlen data) ps = Ok (inr p) /\
      u_sport p = sport /\ u_dport p = dport /\ u_plen p = 8 + zlen data /\ u_data p = data.
Proof.
  intros H1 H2 Wd Wp L Hp Lb K.
  destruct (udp_asm_to sport dport data ps ltac:(lia) ltac:(lia) L) as [_ A].
  cbn [udp_carried c_len c_asm] in A.
  set (w0 := udp_wire sport dport (8 + zlen data) 0 data) in *.
  assert (W0 : wf_bytes w0) by (apply udp_wire_wf; auto).
  assert (L0 : zlen w0 < 2 ^ 32) by (unfold w0; rewrite udp_wire_len; lia).
  pose proof (lucky_cksum pseudo ps w0 Hp W0 L0 K) as Ec. rewrite Ec in A.
  set (ck := rfc1071 (pseudo ++ w0) 0) in *.
  assert (Hc : 0 <= ck < 65536).
  { rewrite <- Ec. apply ip4_cksum_bound. }
  assert (V : rfc1071_verifies (pseudo ++ udp_wire sport dport (8 + zlen data) ck data) 0).
  { set (a := be_enc 2 sport ++ be_enc 2 dport ++ be_enc 2 (8 + zlen data)).
    assert (Ew : forall c, udp_wire sport dport (8 + zlen data) c data = a ++ be_enc 2 c ++ data).
    { intros c. unfold udp_wire, a. rewrite !app_assoc. reflexivity. }
    rewrite Ew. unfold ck, w0. rewrite Ew. change (be_enc 2 0) with [0; 0].
    apply (fill_verifies pseudo ps a data 3); auto.
    unfold a. rewrite !wf_app. auto using be_enc_wf. }
  eexists. split; [apply A; auto|]. split; [reflexivity|]. split; [exact V|].
  eexists. split; [apply (udp_parse_wire sport dport ck data pad ps pseudo); auto|]. auto.
Qed.

Lemma udp_oversize sport dport data buf ps : 0 <= sport < 65536 -> 0 <= dport < 65536 ->
  65536 <= 8 + zlen data -> udp_asm sport dport data buf ps = Exn StructError.
Proof.
  intros H1 H2 H3. unfold udp_asm, assert_.
  replace ((0 <=? sport) && (sport <=? 0xFFFF)) with true by lia.
  replace ((0 <=? dport) && (dport <=? 0xFFFF)) with true by lia.
  unfold pack_into.
  assert (P : forall r, pack (FI 2 (8 + zlen data) :: r) = Exn StructError).
  { intros r. apply pack_FI_exn. change (256 ^ Z.of_nat 2) with 65536. lia. }
  assert (pack [FI 2 sport; FI 2 dport; FI 2 (8 + zlen data); FI 2 0; FB data] = Exn StructError) as ->.
  2:{ reflexivity. }
  change (pack [FI 2 sport; FI 2 dport; FI 2 (8 + zlen data); FI 2 0; FB data])
    with (if (0 <=? sport) && (sport <? 256 ^ Z.of_nat 2)
          then t <- (if (0 <=? dport) && (dport <? 256 ^ Z.of_nat 2)
                     then t' <- pack [FI 2 (8 + zlen data); FI 2 0; FB data] ;; Ok (be_enc 2 dport ++ t')
                     else Exn StructError) ;; Ok (be_enc 2 sport ++ t)
          else Exn StructError).
  rewrite P. cbn [rbind]. repeat match goal with |- context [if ?b then _ else _] => destruct b end; reflexivity.
Qed.
