(** Reassembled headers, and reassembly at the level of parsed packets. *)
From Verif Require Import Base BaseLemmas BitLemmas CodecModel CodecLemmas CksumModel SpecCksum CksumProofs AddrModel AddrProofs
  SpecWire Ip4Model Ip4Proofs Ip6Model Ip6Proofs BufProofs FragModel FragProofs.

Lemma pack_at a m b off v : off = zlen a -> zlen m = 2 -> 0 <= v < 65536 ->
  pack_into (a ++ m ++ b) off [FI 2 v] = Ok (a ++ be_enc 2 v ++ b).
Proof. intros E L H. apply pack_into_mid; auto. Qed.

Lemma reheader_eval c0 c1 c2 c3 c4 c5 c6 c7 c8 c9 c10 c11 t n : zlen t = 8 -> 0 <= n <= 65515 ->
  let a := [0x45; c1] ++ be_enc 2 (20 + n) ++ [c4; c5; 0; 0; c8; c9] in
  ip4_reheader ([c0; c1; c2; c3; c4; c5; c6; c7; c8; c9; c10; c11] ++ t) n =
    Ok (a ++ be_enc 2 (inet_cksum (a ++ [0; 0] ++ t) 0) ++ t).
Proof.
  intros Lt Hn a. unfold ip4_reheader.
  change (set_byte ([c0; c1; c2; c3; c4; c5; c6; c7; c8; c9; c10; c11] ++ t) 0 69)
    with ([0x45; c1] ++ [c2; c3] ++ ([c4; c5; c6; c7; c8; c9; c10; c11] ++ t)).
  rewrite pack_at by (lia || reflexivity). cbn [rbind].
  destruct (be_enc_intro 2 (20 + n) ltac:(cbn; lia)) as (l & El & Ll & Wl & Bl). unfold a. rewrite El.
  change (Z.of_nat 2) with 2 in Ll. inv_len Ll.
  match goal with |- context [set_byte (set_byte (set_byte (set_byte ?h 6 0) 7 0) 10 0) 11 0] =>
    change (set_byte (set_byte (set_byte (set_byte h 6 0) 7 0) 10 0) 11 0)
      with ([69; c1; b; b0; c4; c5; 0; 0; c8; c9] ++ [0; 0] ++ t) end.
  apply pack_at; try reflexivity. apply ip4_cksum_bound.
Qed.

Lemma be_enc_2 v : 0 <= v < 65536 -> exists x y, be_enc 2 v = [x; y] /\ is_byte x /\ is_byte y /\ x * 256 + y = v.
Proof.
  intros H. exists (v / 256 mod 256), (v mod 256). split; [reflexivity|]. unfold is_byte.
  repeat split; try apply Z.mod_pos_bound; try lia.
Qed.

Lemma ip4_reheader_ok f p data : wf_bytes f -> ip4_parse f = Ok (inr p) -> wf_bytes data -> zlen data <= 65515 ->
  exists h q, ip4_reheader (slice 0 20 f) (zlen data) = Ok h /\ ip4_parse (h ++ data) = Ok (inr q) /\
    i4_src q = i4_src p /\ i4_dst q = i4_dst p /\ i4_id q = i4_id p /\ i4_proto q = i4_proto p /\
    i4_ttl q = i4_ttl p /\ i4_dscp q = i4_dscp p /\ i4_ecn q = i4_ecn p /\
    i4_df q = false /\ i4_mf q = false /\ i4_offset q = 0 /\ i4_hlen q = 20 /\ i4_opts q = [] /\
    i4_data q = data /\ i4_rest q = data.
Proof.
  intros W P Wd Ld. destruct (ip4_accept_sound f p W P) as (V & Ep). 
  destruct V as (L & _ & _ & _ & V & S1 & S2 & S3 & _ & _). pose proof (zlen_nonneg data) as Hd.
  revert Ep. generalize (i4_opts p) as os. intros os ->. clear P.
  take_bytes L. wf_split W.
  set (t := [b11; b12; b13; b14; b15; b16; b17; b18]).
  match goal with |- context [slice 0 20 ?l] =>
     change (slice 0 20 l) with ([b; b0; b1; b2; b3; b4; b5; b6; b7; b8; b9; b10] ++ t) end.
  rewrite reheader_eval by (reflexivity || lia).
  set (a := [69; b0] ++ be_enc 2 (20 + zlen data) ++ [b3; b4; 0; 0; b7; b8]).
  assert (Wa : wf_bytes a).
  { unfold a. rewrite !wf_app. repeat split; try apply be_enc_wf; repeat (apply wf_cons; [first [assumption|unfold is_byte; lia]|]); apply wf_nil. }
  assert (Wt : wf_bytes t) by (unfold t; wf_solve).
  assert (La : zlen a = 10) by reflexivity.
  destruct (ip4_header_cksum a t Wa Wt La eq_refl) as (_ & Vf & _).
  pose proof (ip4_cksum_bound (a ++ [0; 0] ++ t) 0) as Hc. cbn zeta in Vf.
  set (ck := inet_cksum (a ++ [0; 0] ++ t) 0) in *.
  assert (Wck : wf_bytes (be_enc 2 ck)) by apply be_enc_wf.
  destruct (be_enc_2 ck Hc) as (x & y & Exy & Bx & By & Vxy). rewrite Exy in *.
  destruct (be_enc_2 (20 + zlen data) ltac:(lia)) as (u & v & Euv & Bu & Bv & Vuv). unfold a in *. rewrite Euv in *.
  eexists. exists (ip4_of (([69; b0; u; v; b3; b4; 0; 0; b7; b8] ++ [x; y] ++ t) ++ data) []).
  split; [reflexivity|].
  assert (Wall : wf_bytes (([69; b0; u; v; b3; b4; 0; 0; b7; b8] ++ [x; y] ++ t) ++ data)).
  { apply wf_app. split; [|exact Wd]. unfold t. cbn [app].
    repeat (apply wf_cons; [first [assumption|unfold is_byte; lia]|]); apply wf_nil. }
  split; [apply ip4_accept_plain|].
  - exact Wall.
  - unfold ip4_verifiable, byte_at, word_at, byte_at.
    change (be (slice 12 16 (([69; b0; u; v; b3; b4; 0; 0; b7; b8] ++ [x; y] ++ t) ++ data)))
      with (be [b11; b12; b13; b14]).
    cbn [app nth]. rewrite Vuv. 
    change (slice 0 (69 mod 16 * 4) (69 :: b0 :: u :: v :: b3 :: b4 :: 0 :: 0 :: b7 :: b8 :: x :: y :: t ++ data))
      with ([69; b0; u; v; b3; b4; 0; 0; b7; b8] ++ [x; y] ++ t).
    change (69 mod 16 * 4) with 20. change (69 / 16) with 4.
    assert (Lz : zlen (69 :: b0 :: u :: v :: b3 :: b4 :: 0 :: 0 :: b7 :: b8 :: x :: y :: t ++ data) = 20 + zlen data).
    { unfold t. cbn [app]. rewrite !zlen_cons. lia. }
    rewrite Lz. repeat (split; [first [lia|assumption|exact Vf|reflexivity]|]).
    all: intros [Q _]; discriminate Q.
  - reflexivity.
  - split; [reflexivity|]. split; [reflexivity|]. split; [reflexivity|]. split; [reflexivity|].
    split; [reflexivity|]. split; [reflexivity|]. split; [reflexivity|]. split; [reflexivity|].
    split; [reflexivity|]. split; [reflexivity|]. split; [reflexivity|]. split; [reflexivity|].
    unfold i4_data, i4_rest, ip4_of. cbn [i4_hlen i4_plen i4_frame]. unfold byte_at, word_at, byte_at.
    cbn [app nth]. rewrite Vuv. change (69 mod 16 * 4) with 20.
    assert (R : slice_from 20 (69 :: b0 :: u :: v :: b3 :: b4 :: 0 :: 0 :: b7 :: b8 :: x :: y :: t ++ data) = data)
      by reflexivity.
    split; [|exact R]. unfold slice. change (skipn (Z.to_nat 20) ?l) with (slice_from 20 l).
    etransitivity; [apply f_equal, R|]. unfold zlen. apply firstn_all2. lia.
Qed.

Lemma ip4_reheader_big h n : 65515 < n -> ip4_reheader h n = Exn StructError.
Proof.
  intros H. unfold ip4_reheader, pack_into. rewrite pack_FI_exn; [reflexivity|]. cbn. lia.
Qed.

Lemma ip6_reheader_ok f p data nx : wf_bytes f -> ip6_parse f = Ok (inr p) -> 0 <= nx < 256 ->
  wf_bytes data -> zlen data <= 65535 ->
  exists h q, ip6_reheader (slice 0 40 f) (zlen data) nx = Ok h /\ ip6_parse (h ++ data) = Ok (inr q) /\
    i6_src q = i6_src p /\ i6_dst q = i6_dst p /\ i6_hop q = i6_hop p /\ i6_next q = nx /\
    i6_dscp q = i6_dscp p /\ i6_ecn q = i6_ecn p /\ i6_flow q = i6_flow p /\
    i6_dlen q = zlen data /\ i6_data q = data /\ i6_rest q = data.
Proof.
  intros W P Hn Wd Ld. apply (ip6_parse_exact f p W) in P as (V & D & E & F & L & N & H & S & T & M & Fr & _ & Ef).
  pose proof (zlen_nonneg data) as Hd.
  assert (Es : slice 0 40 f = ip6_hdr_wire (i6_dscp p) (i6_ecn p) (i6_flow p) (i6_dlen p) (i6_next p) (i6_hop p)
          (i6_src p) (i6_dst p)).
  { rewrite Ef. apply slice_0_exact. reflexivity. }
  exists (ip6_hdr_wire (i6_dscp p) (i6_ecn p) (i6_flow p) (zlen data) nx (i6_hop p) (i6_src p) (i6_dst p)).
  eexists. split; [|split; [apply ip6_parse_wire; auto; lia|]].
  - rewrite Es. unfold ip6_reheader, ip6_hdr_wire. rewrite pack_at by (reflexivity || lia). cbn [rbind]. unfold set_byte. f_equal.
  - cbn [i6_src i6_dst i6_hop i6_next i6_dscp i6_ecn i6_flow i6_dlen]. repeat (split; [reflexivity|]).
    unfold i6_data, i6_rest, i6_plen. cbn [i6_dlen i6_frame].
    split; [|apply slice_from_exact; reflexivity].
    rewrite slice_app_shift by (unfold ip6_hdr_wire; rewrite !zlen_app, !be_enc_zlen; cbn; lia).
    change (zlen (ip6_hdr_wire _ _ _ _ _ _ _ _)) with 40. rewrite Z.sub_diag, Z.add_simpl_l.
    unfold slice. cbn [Z.to_nat skipn]. rewrite Z.sub_0_r. unfold zlen. rewrite Nat2Z.id. apply firstn_all.
Qed.
Lemma ip6_reheader_big h n nx : 65535 < n -> ip6_reheader h n nx = Exn StructError.
Proof. intros H. unfold ip6_reheader, pack_into. rewrite pack_FI_exn; [reflexivity|]. cbn. lia. Qed.
