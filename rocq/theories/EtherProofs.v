(** Proofs about the Ethernet and ARP codecs. *)
From Verif Require Import BaseLemmas BitLemmas CodecModel CksumModel AddrModel AddrProofs
  EtherModel SpecWire CodecLemmas.

Definition ether_wf (p : ether) : Prop :=
  0 <= e_dst p < 2 ^ 48 /\ 0 <= e_src p < 2 ^ 48 /\ 0 <= e_type p < 2 ^ 16 /\ wf_bytes (e_rest p).

Lemma ether_parse_wire dst src type pl :
  0 <= dst < 2 ^ 48 -> 0 <= src < 2 ^ 48 -> 0x0600 <= type < 2 ^ 16 ->
  ether_parse (eth_wire dst src type pl)
  = Ok (inr {| e_dst := dst; e_src := src; e_type := type; e_rest := pl |}).
Proof.
  intros Hd Hs Ht. unfold eth_wire.
  explode 6%nat dst. explode 6%nat src. explode 2%nat type.
  pose proof (zlen_nonneg pl).
  unfold ether_parse, run_parser, ether_integrity, check. cbn [app].
  rewrite !zlen_cons.
  match goal with |- context [?x <? 14] => replace (x <? 14) with false by lia end.
  cbn [rbind]. unfold ether_sanity, ether_fields, check. readf.
  rewrite !mac_of_bytes_be by (auto; reflexivity). cbn [rbind].
  rewrite B, B0, B1. unfold ETHER_TYPE_MIN. replace (type <? 0x0600) with false by lia.
  reflexivity.
Qed.

Lemma ether_parse_total f : wf_bytes f ->
  (exists reason, ether_parse f = Ok (inl reason)) \/
  exists p, ether_parse f = Ok (inr p) /\ ether_wf p /\ 0x0600 <= e_type p /\
            f = eth_wire (e_dst p) (e_src p) (e_type p) (e_rest p).
Proof.
  intros W. unfold ether_parse, run_parser, ether_integrity, check.
  destruct (Z.ltb_spec (zlen f) 14) as [L|L]; [left; eexists; reflexivity|].
  cbn [rbind]. take_bytes L. unfold ether_sanity, ether_fields, check. readf.
  set (t := be [b11; b12]).
  destruct (Z.ltb_spec t ETHER_TYPE_MIN) as [Lt|Lt]; cbn [rbind]; [left; eexists; reflexivity|].
  right. cbn [app].
  assert (W6 : wf_bytes [b; b0; b1; b2; b3; b4]) by (clear -W; wf_split W; wf_solve).
  assert (W6' : wf_bytes [b5; b6; b7; b8; b9; b10]) by (clear -W; wf_split W; wf_solve).
  assert (W2 : wf_bytes [b11; b12]) by (clear -W; wf_split W; wf_solve).
  rewrite !mac_of_bytes_be by (auto; reflexivity). cbn [rbind].
  eexists; split; [reflexivity|]. unfold ether_wf; cbn [e_dst e_src e_type e_rest].
  pose proof (be_bound _ W6). pose proof (be_bound _ W6'). pose proof (be_bound _ W2).
  split; [|split; [exact Lt|]].
  - repeat split; try tauto. wf_split W. auto.
  - unfold eth_wire. pose proof (be_enc_be _ W6) as E1. pose proof (be_enc_be _ W6') as E2.
    pose proof (be_enc_be _ W2) as E3. cbn [length] in E1, E2, E3. subst t.
    rewrite E1, E2, E3. reflexivity.
Qed.

Lemma ether_asm_wire dst src type c enc buf :
  0 <= dst < 2 ^ 48 -> 0 <= src < 2 ^ 48 ->
  In type [ETHER_TYPE_ARP; ETHER_TYPE_IP4; ETHER_TYPE_IP6; ETHER_TYPE_RAW] ->
  asm_to c enc 0 -> zlen buf = ether_len c ->
  ether_asm dst src type c buf = Ok (eth_wire dst src type (enc 0)).
Proof.
  intros Hd Hs Ht Hc L. unfold ether_asm, ether_len in *.
  assert (Hr : 0x600 <= type < 2 ^ 16 /\
    ((type =? ETHER_TYPE_ARP) || (type =? ETHER_TYPE_IP4)
     || (type =? ETHER_TYPE_IP6) || (type =? ETHER_TYPE_RAW)) = true).
  { cbn [In] in Ht. unfold ETHER_TYPE_ARP, ETHER_TYPE_IP4, ETHER_TYPE_IP6, ETHER_TYPE_RAW in *. lia. }
  destruct Hr as [Hr ->]. unfold assert_. cbv iota.
  assert (Lh : zlen (be_enc 6 dst ++ be_enc 6 src ++ be_enc 2 type ++ []) = 14)
    by (rewrite !zlen_app, !be_enc_zlen; reflexivity).
  pose proof (proj1 Hc) as Lc. pose proof (zlen_nonneg (enc 0)).
  rewrite (pack_into_0 _ _ (be_enc 6 dst ++ be_enc 6 src ++ be_enc 2 type ++ [])).
  - cbn [rbind]. rewrite (asm_tail_ok _ _ _ enc); auto.
    rewrite zlen_slice_from; lia.
  - rewrite !mac_bytes_enc by auto. packs.
  - lia.
Qed.

(** ** ARP *)
Definition arp_wf (p : arp) : Prop :=
  (a_oper p = 1 \/ a_oper p = 2) /\ 0 <= a_sha p < 2 ^ 48 /\ 0 <= a_spa p < 2 ^ 32 /\
  0 <= a_tha p < 2 ^ 48 /\ 0 <= a_tpa p < 2 ^ 32.

Lemma ip4_of_bytes_be l : zlen l = 4 -> ip4_of_bytes l = Ok (be l).
Proof. unfold ip4_of_bytes. intros ->. reflexivity. Qed.

Lemma arp_parse_wire p pad : arp_wf p ->
  arp_parse (arp_wire (a_oper p) (a_sha p) (a_spa p) (a_tha p) (a_tpa p) ++ pad) = Ok (inr p).
Proof.
  destruct p as [op sha spa tha tpa]. unfold arp_wf; cbn [a_oper a_sha a_spa a_tha a_tpa].
  intros (Ho & H1 & H2 & H3 & H4). unfold arp_wire.
  change (be_enc 2 1) with [0; 1]. change (be_enc 2 2048) with [8; 0].
  explode 2%nat op. explode 6%nat sha. explode 4%nat spa. explode 6%nat tha. explode 4%nat tpa.
  pose proof (zlen_nonneg pad).
  unfold arp_parse, run_parser, arp_integrity, check. cbn [app].
  rewrite !zlen_cons.
  match goal with |- context [?x <? 28] => replace (x <? 28) with false by lia end.
  cbn [rbind]. unfold arp_sanity, arp_fields, check. readf.
  change (be [0; 1]) with 1. change (be [8; 0]) with 2048. rewrite B.
  replace ((op =? 1) || (op =? 2)) with true by lia. cbn [Z.eqb Pos.eqb negb rbind].
  rewrite !mac_of_bytes_be, !ip4_of_bytes_be by (auto; reflexivity). cbn [rbind].
  rewrite B0, B1, B2, B3. reflexivity.
Qed.

Lemma arp_parse_total f : wf_bytes f ->
  (exists reason, arp_parse f = Ok (inl reason)) \/
  exists p pad, arp_parse f = Ok (inr p) /\ arp_wf p /\
            f = arp_wire (a_oper p) (a_sha p) (a_spa p) (a_tha p) (a_tpa p) ++ pad.
Proof.
  intros W. unfold arp_parse, run_parser, arp_integrity, check.
  destruct (Z.ltb_spec (zlen f) 28) as [L|L]; [left; eexists; reflexivity|].
  cbn [rbind]. take_bytes L. unfold arp_sanity, arp_fields, check. readf.
  destruct (Z.eqb_spec (be [b; b0]) 1) as [E1|]; cbn [negb rbind]; [|left; eexists; reflexivity].
  destruct (Z.eqb_spec (be [b1; b2]) 0x800) as [E2|]; cbn [negb rbind]; [|left; eexists; reflexivity].
  destruct (Z.eqb_spec b3 6) as [E3|]; cbn [negb rbind]; [|left; eexists; reflexivity].
  destruct (Z.eqb_spec b4 4) as [E4|]; cbn [negb rbind]; [|left; eexists; reflexivity].
  destruct ((be [b5; b6] =? 1) || (be [b5; b6] =? 2)) eqn:Eo; cbn [negb rbind];
    [|left; eexists; reflexivity].
  right.
  assert (W0 : wf_bytes [b; b0]) by (clear -W; wf_split W; wf_solve).
  assert (W1 : wf_bytes [b1; b2]) by (clear -W; wf_split W; wf_solve).
  assert (W2 : wf_bytes [b5; b6]) by (clear -W; wf_split W; wf_solve).
  assert (W3 : wf_bytes [b7; b8; b9; b10; b11; b12]) by (clear -W; wf_split W; wf_solve).
  assert (W4 : wf_bytes [b13; b14; b15; b16]) by (clear -W; wf_split W; wf_solve).
  assert (W5 : wf_bytes [b17; b18; b19; b20; b21; b22]) by (clear -W; wf_split W; wf_solve).
  assert (W6 : wf_bytes [b23; b24; b25; b26]) by (clear -W; wf_split W; wf_solve).
  rewrite !mac_of_bytes_be, !ip4_of_bytes_be by (auto; reflexivity). cbn [rbind].
  eexists _, r0; split; [reflexivity|]. unfold arp_wf; cbn [a_oper a_sha a_spa a_tha a_tpa].
  pose proof (be_bound _ W3). pose proof (be_bound _ W4). pose proof (be_bound _ W5).
  pose proof (be_bound _ W6).
  split; [repeat split; try tauto; lia|].
  unfold arp_wire.
  pose proof (be_enc_be _ W0) as F0. pose proof (be_enc_be _ W1) as F1.
  pose proof (be_enc_be _ W2) as F2. pose proof (be_enc_be _ W3) as F3.
  pose proof (be_enc_be _ W4) as F4. pose proof (be_enc_be _ W5) as F5.
  pose proof (be_enc_be _ W6) as F6. cbn [length] in *.
  rewrite E1 in F0. rewrite E2 in F1. rewrite F0, F1, F2, F3, F4, F5, F6, E3, E4. reflexivity.
Qed.

Lemma arp_asm_to p ps : arp_wf p ->
  asm_to (arp_carried p) (fun _ => arp_wire (a_oper p) (a_sha p) (a_spa p) (a_tha p) (a_tpa p)) ps.
Proof.
  destruct p as [op sha spa tha tpa]. unfold arp_wf; cbn [a_oper a_sha a_spa a_tha a_tpa].
  intros (Ho & H1 & H2 & H3 & H4).
  assert (L : zlen (arp_wire op sha spa tha tpa) = 28)
    by (unfold arp_wire; rewrite !zlen_app, !be_enc_zlen; reflexivity).
  split; [exact L|]. intros buf Lb.
  cbn [arp_carried c_len c_asm] in *. unfold arp_asm, assert_. cbn [a_oper a_sha a_spa a_tha a_tpa].
  unfold ARP_OP_REQUEST, ARP_OP_REPLY.
  replace ((op =? 1) || (op =? 2)) with true by lia.
  apply pack_into_full; [|lia]. unfold arp_wire.
  rewrite !mac_bytes_enc by auto. unfold ip4_bytes.
  rewrite <- (app_nil_r (be_enc 4 tpa)) at 2.
  packs.
Qed.

Lemma ether_parse_never_raises f : wf_bytes f -> exists r, ether_parse f = Ok r.
Proof. intros W. destruct (ether_parse_total f W) as [(m & ->)|(p & -> & _)]; eauto. Qed.

Lemma ether_parse_exact f p : wf_bytes f ->
  (ether_parse f = Ok (inr p) <->
   0 <= e_dst p < 2 ^ 48 /\ 0 <= e_src p < 2 ^ 48 /\ 0x0600 <= e_type p < 2 ^ 16 /\
   f = eth_wire (e_dst p) (e_src p) (e_type p) (e_rest p)).
Proof.
  intros W. split.
  - intros E. destruct (ether_parse_total f W) as [(m & E')|(p' & E' & Hw & Ht & Ef)];
      rewrite E' in E; inversion E; subst. unfold ether_wf in Hw. tauto.
  - intros (H1 & H2 & H3 & ->). rewrite ether_parse_wire by auto. destruct p; reflexivity.
Qed.

Lemma ether_accepts f : wf_bytes f ->
  ((exists p, ether_parse f = Ok (inr p)) <-> 14 <= zlen f /\ 0x0600 <= be (slice 12 14 f)).
Proof.
  intros W. split.
  - intros (p & E). apply (ether_parse_exact f p W) in E. destruct E as (H1 & H2 & H3 & ->).
    unfold eth_wire. explode 6%nat (e_dst p). explode 6%nat (e_src p). explode 2%nat (e_type p).
    cbn [app]. rewrite !zlen_cons. pose proof (zlen_nonneg (e_rest p)). readf. rewrite B1. lia.
  - intros [L T]. destruct (ether_parse_total f W) as [(m & E')|(p & E & _)]; [|eauto].
    exfalso. revert E'. unfold ether_parse, run_parser, ether_integrity, check.
    replace (zlen f <? 14) with false by lia. cbn [rbind].
    unfold ether_sanity, u16, check. change (12 + 2) with 14.
    rewrite unpack_slice by (cbn; lia). cbn [rbind]. unfold ETHER_TYPE_MIN.
    replace (be (slice 12 14 f) <? 0x0600) with false by lia. cbn [rbind].
    destruct (ether_fields f); discriminate.
Qed.

Lemma ether_round_trip dst src type c pl buf :
  0 <= dst < 2 ^ 48 -> 0 <= src < 2 ^ 48 ->
  In type [0x0806; 0x0800; 0x86DD; 0xFFFF] ->
  zlen pl = c_len c -> (forall b, zlen b = c_len c -> c_asm c b 0 = Ok pl) ->
  zlen buf = ether_len c ->
  exists w, ether_asm dst src type c buf = Ok w /\ w = eth_wire dst src type pl /\
    ether_parse w = Ok (inr {| e_dst := dst; e_src := src; e_type := type; e_rest := pl |}).
Proof.
  intros H1 H2 H3 H4 H5 H6. eexists; split; [|split; [reflexivity|]].
  - apply (ether_asm_wire dst src type c (fun _ => pl)); auto. split; auto.
  - apply ether_parse_wire; auto. cbn [In] in H3. lia.
Qed.

Lemma arp_parse_never_raises f : wf_bytes f -> exists r, arp_parse f = Ok r.
Proof. intros W. destruct (arp_parse_total f W) as [(m & ->)|(p & pad & -> & _)]; eauto. Qed.

Lemma arp_parse_exact f p : wf_bytes f ->
  (arp_parse f = Ok (inr p) <->
   (a_oper p = 1 \/ a_oper p = 2) /\ 0 <= a_sha p < 2 ^ 48 /\ 0 <= a_spa p < 2 ^ 32 /\
   0 <= a_tha p < 2 ^ 48 /\ 0 <= a_tpa p < 2 ^ 32 /\
   exists pad, f = arp_wire (a_oper p) (a_sha p) (a_spa p) (a_tha p) (a_tpa p) ++ pad).
Proof.
  intros W. split.
  - intros E. destruct (arp_parse_total f W) as [(m & E')|(p' & pad & E' & Hw & Ef)];
      rewrite E' in E; inversion E; subst. unfold arp_wf in Hw.
    repeat split; try tauto. eauto.
  - intros (H1 & H2 & H3 & H4 & H5 & pad & ->). apply arp_parse_wire. unfold arp_wf; tauto.
Qed.

Lemma arp_round_trip p buf pad ps :
  (a_oper p = 1 \/ a_oper p = 2) -> 0 <= a_sha p < 2 ^ 48 -> 0 <= a_spa p < 2 ^ 32 ->
  0 <= a_tha p < 2 ^ 48 -> 0 <= a_tpa p < 2 ^ 32 -> zlen buf = 28 ->
  exists w, arp_asm p buf ps = Ok w /\
    w = arp_wire (a_oper p) (a_sha p) (a_spa p) (a_tha p) (a_tpa p) /\
    arp_parse (w ++ pad) = Ok (inr p).
Proof.
  intros H1 H2 H3 H4 H5 L. assert (Hw : arp_wf p) by (unfold arp_wf; tauto).
  eexists; split; [|split; [reflexivity|]].
  - apply (arp_asm_to p ps Hw). exact L.
  - apply arp_parse_wire; auto.
Qed.
