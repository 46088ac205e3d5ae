(** The ICMPv6 assembler against the wire formats, and the round trip. *)
From Verif Require Import BaseLemmas BitLemmas CodecModel CksumModel AddrModel SpecAddr AddrProofs
  SpecCksum CksumProofs SpecWire SpecNd Ip4Model Ip4Proofs Ip6Model Ip6Proofs EtherProofs CodecLemmas PshdrLemmas
  UdpIpProofs TcpProofs Icmp4Proofs Icmp6Model Icmp6Proofs.

(** a network made by Ip6Network *)
Definition net6_wf (w : net) : Prop := exists a k, 0 <= k <= 128 /\ 0 <= a < 2 ^ 128 /\
  w = {| n_addr := a - a mod 2 ^ (128 - k); n_mask := prefix_mask 128 k |}.

Definition nd_topt_wire (o : nd_topt) : bytes :=
  match o with
  | TSlla m => nd_slla_wire m
  | TTlla m => nd_tlla_wire m
  | TPi v p w l a r => nd_pi_wire (mask_len (n_mask w)) l a r v p (n_addr w)
  end.
Definition nd_topts_wire (l : list nd_topt) : bytes := concat (map nd_topt_wire l).
(** options with values in range; the R flag of prefix information is not set *)
Definition nd_topt_ok (o : nd_topt) : Prop :=
  match o with
  | TSlla m | TTlla m => 0 <= m < 2 ^ 48
  | TPi v p w _ _ r => 0 <= v < 2 ^ 32 /\ 0 <= p < 2 ^ 32 /\ net6_wf w /\ r = false
  end.
Definition nd_topt_seen (o : nd_topt) : nd_opt :=
  match o with
  | TSlla m => NSlla m | TTlla m => NTlla m | TPi v p w l a r => NPi l a r v p w
  end.

Lemma net6_range w : net6_wf w -> 0 <= n_addr w < 2 ^ 128 /\ 0 <= mask_len (n_mask w) <= 128.
Proof.
  intros (a & k & Hk & Ha & ->). cbn [n_addr n_mask]. rewrite mask_len_prefix by auto.
  assert (0 < 2 ^ (128 - k)) by (apply Z.pow_pos_nonneg; lia).
  pose proof (Z.mod_pos_bound a (2 ^ (128 - k))). pose proof (Z.mod_le a (2 ^ (128 - k))). lia.
Qed.
Lemma net6_again w : net6_wf w ->
  {| n_addr := n_addr w - n_addr w mod 2 ^ (128 - mask_len (n_mask w));
     n_mask := prefix_mask 128 (mask_len (n_mask w)) |} = w.
Proof.
  intros (a & k & Hk & Ha & ->). cbn [n_addr n_mask]. rewrite mask_len_prefix by auto.
  assert (0 < 2 ^ (128 - k)) by (apply Z.pow_pos_nonneg; lia).
  f_equal.
  replace ((a - a mod 2 ^ (128 - k)) mod 2 ^ (128 - k)) with 0; [lia|].
  symmetry. rewrite Zminus_mod, Z.mod_mod, Z.sub_diag by lia. apply Z.mod_0_l. lia.
Qed.

Lemma nd_topt_wire_len o : zlen (nd_topt_wire o) = nd_topt_len o.
Proof.
  destruct o; cbn [nd_topt_wire nd_topt_len]; unfold nd_slla_wire, nd_tlla_wire, nd_pi_wire;
  rewrite !zlen_app, !be_enc_zlen; reflexivity.
Qed.
Lemma nd_topts_wire_len l : zlen (nd_topts_wire l) = zsum (map nd_topt_len l).
Proof.
  induction l as [|o l IH]; [reflexivity|]. unfold nd_topts_wire in *. cbn [map concat zsum fold_right].
  rewrite zlen_app, IH, nd_topt_wire_len. reflexivity.
Qed.
Lemma b2z_cases b : b2z b = 0 \/ b2z b = 1. Proof. destruct b; auto. Qed.
Lemma nd_topt_wire_wf o : nd_topt_ok o -> wf_bytes (nd_topt_wire o).
Proof.
  destruct o as [m|m|v p w l a r]; cbn [nd_topt_wire nd_topt_ok]; intros H.
  1,2: unfold nd_slla_wire, nd_tlla_wire; rewrite !wf_app; split; [|apply be_enc_wf];
    repeat (apply wf_cons; [unfold is_byte; lia|]); apply wf_nil.
  destruct H as (_ & _ & Hw & _). apply net6_range in Hw. unfold nd_pi_wire. rewrite !wf_app.
  repeat match goal with |- _ /\ _ => split end; auto using be_enc_wf;
    repeat (apply wf_cons; [unfold is_byte; destruct l, a, r; cbn; lia|]); apply wf_nil.
Qed.
Lemma nd_topts_wire_wf l : Forall nd_topt_ok l -> wf_bytes (nd_topts_wire l).
Proof.
  induction 1; [apply wf_nil|]. unfold nd_topts_wire in *. cbn [map concat]. apply wf_app. split; auto.
  apply nd_topt_wire_wf; auto.
Qed.

Lemma nd_topt_bytes_ok o : nd_topt_ok o -> nd_topt_bytes o = Ok (nd_topt_wire o).
Proof.
  destruct o as [m|m|v p w l a r]; cbn [nd_topt_wire nd_topt_ok nd_topt_bytes]; intros H.
  1,2: rewrite mac_bytes_enc by auto; unfold nd_slla_wire, nd_tlla_wire; cbn [app]; packs.
  destruct H as (Hv & Hp & Hw & ->). apply net6_range in Hw as [H1 H2].
  rewrite ip6_bytes_enc by auto. unfold nd_pi_wire. change [0; 0; 0; 0] with (be_enc 4 0).
  replace (Z.lor (Z.lor (Z.shiftl (b2z l) 7) (Z.shiftl (b2z a) 6)) (Z.shiftl (b2z false) 6))
    with (b2z l * 128 + b2z a * 64 + b2z false * 32) by (destruct l, a; reflexivity).
  cbn [app]. assert (0 <= b2z l * 128 + b2z a * 64 + b2z false * 32 < 256) by (destruct l, a; cbn; lia).
  packs.
Qed.
Lemma nd_topts_bytes_ok l : Forall nd_topt_ok l -> nd_topts_bytes l = Ok (nd_topts_wire l).
Proof.
  unfold nd_topts_bytes, nd_topts_wire. induction 1 as [|o l Ho Hl IH]; [reflexivity|].
  cbn [map rconcat concat]. rewrite nd_topt_bytes_ok, IH by auto. reflexivity.
Qed.

Lemma nd_topt_area o rest : nd_topt_ok o -> nd_area rest -> nd_area (nd_topt_wire o ++ rest).
Proof.
  destruct o as [m|m|v p w l a r]; cbn [nd_topt_wire nd_topt_ok]; intros H A.
  - unfold nd_slla_wire. rewrite <- app_assoc. cbn [app].
    apply (nd_area_cons 1 1 (be_enc 6 m)); [lia|rewrite be_enc_zlen; lia|lia|exact A].
  - unfold nd_tlla_wire. rewrite <- app_assoc. cbn [app].
    apply (nd_area_cons 2 1 (be_enc 6 m)); [lia|rewrite be_enc_zlen; lia|lia|exact A].
  - destruct H as (_ & _ & Hw & _). apply net6_range in Hw as [_ Hw].
    unfold nd_pi_wire. cbn [app].
    set (fl := b2z l * 128 + b2z a * 64 + b2z r * 32).
    set (d := mask_len (n_mask w) :: fl :: be_enc 4 v ++ be_enc 4 p ++ 0 :: 0 :: 0 :: 0 :: be_enc 16 (n_addr w)).
    change (nd_area (3 :: 4 :: d ++ rest)).
    apply nd_area_cons; [lia| | |exact A].
    + unfold d. rewrite !zlen_cons, !zlen_app, !zlen_cons, !be_enc_zlen. lia.
    + intros _. split; [lia|]. unfold d. cbn [nth]. lia.
Qed.
Lemma nd_topts_area l : Forall nd_topt_ok l -> nd_area (nd_topts_wire l).
Proof.
  induction 1; [constructor|]. unfold nd_topts_wire in *. cbn [map concat]. apply nd_topt_area; auto.
Qed.

Lemma nd_pi_flags (l a r : bool) : let b := b2z l * 128 + b2z a * 64 + b2z r * 32 in
  (b / 2 ^ 7 mod 2 =? 1) = l /\ (b / 2 ^ 6 mod 2 =? 1) = a /\ (b / 2 ^ 5 mod 2 =? 1) = r.
Proof. destruct l, a, r; repeat split; reflexivity. Qed.

Lemma nd_opt_of_wire o rest : nd_topt_ok o -> nd_opt_of (nd_topt_wire o ++ rest) = nd_topt_seen o.
Proof.
  destruct o as [m|m|v p w l a r]; cbn [nd_topt_wire nd_topt_ok nd_topt_seen]; intros H.
  - unfold nd_slla_wire. explode 6%nat m. cbn [app]. unfold nd_opt_of. cbn [nth Z.eqb Pos.eqb]. readf. rewrite B. reflexivity.
  - unfold nd_tlla_wire. explode 6%nat m. cbn [app]. unfold nd_opt_of. cbn [nth Z.eqb Pos.eqb]. readf. rewrite B. reflexivity.
  - destruct H as (Hv & Hp & Hw & _). pose proof (net6_again w Hw) as Ea. apply net6_range in Hw as [H1 H2].
    unfold nd_pi_wire. explode 4%nat v. explode 4%nat p. explode 16%nat (n_addr w). rewrite <- !app_assoc.
    cbn [app]. unfold nd_opt_of. cbn [nth Z.eqb Pos.eqb]. unfold nd_pi_of, bit_at. cbn [nth]. readf.
    rewrite B, B0, B1, Ea. destruct (nd_pi_flags l a r) as (-> & -> & ->). reflexivity.
Qed.
Lemma nd_opts_of_wire l fuel : Forall nd_topt_ok l -> (length (nd_topts_wire l) < fuel)%nat ->
  nd_opts_of fuel (nd_topts_wire l) = map nd_topt_seen l.
Proof.
  intros H. revert fuel. induction H as [|o l Ho Hl IH]; intros fuel L.
  - destruct fuel; reflexivity.
  - destruct fuel as [|fuel]; [lia|]. unfold nd_topts_wire in *. cbn [map concat] in *.
    rewrite <- (nd_opt_of_wire o (concat (map nd_topt_wire l)) Ho).
    assert (Lo : exists k n d, nd_topt_wire o = k :: n :: d /\ 8 * n = zlen (nd_topt_wire o)).
    { rewrite nd_topt_wire_len. destruct o; cbn [nd_topt_wire nd_topt_len];
      unfold nd_slla_wire, nd_tlla_wire, nd_pi_wire; cbn [app]; do 3 eexists; split; reflexivity. }
    destruct Lo as (k & n & d & E & Ln). rewrite app_length in L.
    rewrite E at 1. cbn [app nd_opts_of]. f_equal; [rewrite E; reflexivity|].
    change (k :: n :: d ++ concat (map nd_topt_wire l)) with ((k :: n :: d) ++ concat (map nd_topt_wire l)).
    rewrite <- E. rewrite slice_from_exact by auto. apply IH. rewrite E in L. cbn [length] in L. lia.
Qed.

(** reading back the options of a message whose fixed part is [pre] *)
Lemma nd_topts_read pre l : Forall nd_topt_ok l ->
  nd_option_check (pre ++ nd_topts_wire l) (zlen pre) = Ok None /\
  nd_options (pre ++ nd_topts_wire l) (zlen pre) = Ok (map nd_topt_seen l).
Proof.
  intros H. destruct (nd_area_read _ (nd_topts_area l H) pre (S (length (pre ++ nd_topts_wire l)))
    (nd_topts_wire_wf l H)) as [A B].
  { rewrite app_length. lia. }
  unfold nd_option_check, nd_options. rewrite A, B. split; [reflexivity|]. f_equal. apply nd_opts_of_wire; auto.
  rewrite app_length. lia.
Qed.

(** ** MLDv2 records *)
Definition mld2_rec_ok (r : mld2_rec) : Prop :=
  0 <= mr_type r < 256 /\ zlen (mr_aux r) < 256 /\ wf_bytes (mr_aux r) /\ zlen (mr_srcs r) < 65536 /\
  0 <= mr_addr r < 2 ^ 128 /\ Forall (fun a => 0 <= a < 2 ^ 128) (mr_srcs r).
(** the record as this stack encodes it: the auxiliary data length in bytes *)
Definition mld2_tx_wire (r : mld2_rec) : bytes :=
  mld2_rec_wire (mr_type r) (zlen (mr_aux r)) (mr_addr r) (mr_srcs r) (mr_aux r).
Lemma concat_enc_len l : zlen (concat (map (be_enc 16) l)) = 16 * zlen l.
Proof.
  induction l as [|a l IH]; [reflexivity|]. cbn [map concat]. rewrite zlen_app, IH, be_enc_zlen, zlen_cons. lia.
Qed.
Lemma concat_enc_wf l : wf_bytes (concat (map (be_enc 16) l)).
Proof. induction l; [apply wf_nil|]. cbn [map concat]. apply wf_app. split; auto. apply be_enc_wf. Qed.
Lemma mld2_tx_wire_len r : zlen (mld2_tx_wire r) = mld2_rec_len r.
Proof.
  unfold mld2_tx_wire, mld2_rec_wire, mld2_rec_len. rewrite !zlen_app, !be_enc_zlen, concat_enc_len.
  rewrite !zlen_cons, zlen_nil. lia.
Qed.
Lemma mld2_tx_wire_wf r : mld2_rec_ok r -> wf_bytes (mld2_tx_wire r).
Proof.
  intros (H1 & H2 & H3 & H4 & H5 & H6). pose proof (zlen_nonneg (mr_aux r)).
  unfold mld2_tx_wire, mld2_rec_wire. rewrite !wf_app.
  repeat match goal with |- _ /\ _ => split end; auto using be_enc_wf, concat_enc_wf.
  repeat (apply wf_cons; [unfold is_byte; lia|]). apply wf_nil.
Qed.
Lemma mld2_rec_bytes_ok r : mld2_rec_ok r -> mld2_rec_bytes r = Ok (mld2_tx_wire r).
Proof.
  intros (H1 & H2 & H3 & H4 & H5 & H6). pose proof (zlen_nonneg (mr_aux r)). pose proof (zlen_nonneg (mr_srcs r)).
  unfold mld2_rec_bytes, mld2_tx_wire, mld2_rec_wire. rewrite ip6_bytes_enc by auto.
  rewrite (pack_FI1 (mr_type r) _ (zlen (mr_aux r) :: be_enc 2 (zlen (mr_srcs r)) ++ be_enc 16 (mr_addr r)));
    [|lia|packs].
  cbn [rbind]. cbn [app]. rewrite <- !app_assoc. do 6 f_equal.
  induction H6 as [|a l Ha Hl IH]; [reflexivity|]. cbn [map concat]. rewrite ip6_bytes_enc by auto. f_equal.
  apply IH; auto; rewrite zlen_cons in *; pose proof (zlen_nonneg l); lia.
Qed.
Definition mld2_txs_wire (l : list mld2_rec) : bytes := concat (map mld2_tx_wire l).
Lemma mld2_txs_wire_len l : zlen (mld2_txs_wire l) = zsum (map mld2_rec_len l).
Proof.
  induction l as [|r l IH]; [reflexivity|]. unfold mld2_txs_wire in *. cbn [map concat zsum fold_right].
  rewrite zlen_app, IH, mld2_tx_wire_len. reflexivity.
Qed.
Lemma mld2_txs_wire_wf l : Forall mld2_rec_ok l -> wf_bytes (mld2_txs_wire l).
Proof.
  induction 1; [apply wf_nil|]. unfold mld2_txs_wire in *. cbn [map concat]. apply wf_app. split; auto.
  apply mld2_tx_wire_wf; auto.
Qed.
Lemma mld2_recs_bytes_ok l : Forall mld2_rec_ok l -> rconcat (map mld2_rec_bytes l) = Ok (mld2_txs_wire l).
Proof.
  unfold mld2_txs_wire. induction 1 as [|o l Ho Hl IH]; [reflexivity|].
  cbn [map rconcat concat]. rewrite mld2_rec_bytes_ok, IH by auto. reflexivity.
Qed.

(** the integrity walk accepts assembled records *)
Lemma mld2_walk_wire l : Forall mld2_rec_ok l -> forall pre,
  mld2_walk (length l) (pre ++ mld2_txs_wire l) (zlen pre + zlen (mld2_txs_wire l)) (zlen pre) = Ok None.
Proof.
  induction 1 as [|r l Hr Hl IH]; intros pre.
  - cbn [length mld2_walk]. change (zlen (mld2_txs_wire [])) with 0. unfold check.
    replace (zlen pre =? zlen pre + 0) with true by lia. reflexivity.
  - cbn [length mld2_walk]. unfold mld2_txs_wire. cbn [map concat]. fold (mld2_txs_wire l).
    pose proof Hr as (H1 & H2 & H3 & H4 & H5 & H6).
    pose proof (mld2_tx_wire_len r) as Lr. unfold mld2_rec_len in Lr.
    pose proof (zlen_nonneg (mr_aux r)). pose proof (zlen_nonneg (mr_srcs r)). pose proof (zlen_nonneg (mld2_txs_wire l)).
    pose proof (zlen_nonneg pre).
    rewrite zlen_app. unfold check. 
    destruct (Z.ltb_spec (zlen pre + (zlen (mld2_tx_wire r) + zlen (mld2_txs_wire l))) (zlen pre + 20)); [lia|].
    assert (u8 (pre ++ mld2_tx_wire r ++ mld2_txs_wire l) (zlen pre + 1) = Ok (zlen (mr_aux r))) as ->.
    { unfold u8. rewrite index_app_shift by lia. replace (zlen pre + 1 - zlen pre) with 1 by lia. reflexivity. }
    rewrite unpack_from_ok by (rewrite !zlen_app; cbn; lia). cbn [rbind].
    assert (be (slice (zlen pre + 2) (zlen pre + 2 + Z.of_nat 2) (pre ++ mld2_tx_wire r ++ mld2_txs_wire l))
            = zlen (mr_srcs r)) as ->.
    { rewrite slice_app_shift by lia. replace (zlen pre + 2 - zlen pre) with 2 by lia.
      replace (zlen pre + 2 + Z.of_nat 2 - zlen pre) with 4 by lia.
      unfold mld2_tx_wire, mld2_rec_wire. explode 2%nat (zlen (mr_srcs r)). cbn [app]. readf. exact B. }
    specialize (IH (pre ++ mld2_tx_wire r)). rewrite <- app_assoc, zlen_app in IH.
    replace (zlen pre + (20 + zlen (mr_aux r) + zlen (mr_srcs r) * 16)) with (zlen pre + zlen (mld2_tx_wire r)) by lia.
    rewrite Z.add_assoc. exact IH.
Qed.

(** a single record is read back *)
Lemma mld2_sources_wire l : Forall (fun a => 0 <= a < 2 ^ 128) l -> forall pre i suf,
  zlen pre = 20 + 16 * i -> 0 <= i ->
  mld2_sources (length l) i (pre ++ concat (map (be_enc 16) l) ++ suf) = Ok l.
Proof.
  induction 1 as [|a l Ha Hl IH]; intros pre i suf Lp Hi; [reflexivity|].
  cbn [length mld2_sources map concat].
  rewrite slice_app_shift by lia.
  replace (20 + 16 * i - zlen pre) with 0 by lia. replace (20 + 16 * (i + 1) - zlen pre) with 16 by lia.
  rewrite <- app_assoc. rewrite slice_0_exact by (rewrite be_enc_zlen; reflexivity).
  rewrite ip6_of_bytes_be by (rewrite be_enc_zlen; reflexivity).
  rewrite be_be_enc_small by exact Ha. cbn [rbind].
  rewrite (app_assoc pre (be_enc 16 a)).
  rewrite (IH (pre ++ be_enc 16 a) (i + 1)); [reflexivity| |lia].
  rewrite zlen_app, be_enc_zlen. lia.
Qed.
Lemma mld2_record_wire r : mld2_rec_ok r -> mld2_record (mld2_tx_wire r) = Ok r.
Proof.
  intros (H1 & H2 & H3 & H4 & H5 & H6). pose proof (zlen_nonneg (mr_srcs r)).
  unfold mld2_record.
  assert (Ef : exists hdr, mld2_tx_wire r = hdr ++ concat (map (be_enc 16) (mr_srcs r)) ++ mr_aux r /\ zlen hdr = 20).
  { unfold mld2_tx_wire, mld2_rec_wire.
    exists ([mr_type r; zlen (mr_aux r)] ++ be_enc 2 (zlen (mr_srcs r)) ++ be_enc 16 (mr_addr r)).
    split; [rewrite <- !app_assoc; reflexivity|]. rewrite !zlen_app, !be_enc_zlen. reflexivity. }
  destruct Ef as (hdr & Ef & Lh).
  assert (Rs : u8 (mld2_tx_wire r) 0 = Ok (mr_type r) /\ u8 (mld2_tx_wire r) 1 = Ok (zlen (mr_aux r)) /\
          u16 (mld2_tx_wire r) 2 = Ok (zlen (mr_srcs r)) /\ ip6_of_bytes (slice 4 20 (mld2_tx_wire r)) = Ok (mr_addr r)).
  { unfold mld2_tx_wire, mld2_rec_wire. explode 2%nat (zlen (mr_srcs r)). explode 16%nat (mr_addr r). cbn [app]. readf.
    rewrite ip6_of_bytes_be by reflexivity. rewrite B, B0. auto. }
  destruct Rs as (-> & -> & -> & ->). cbn [rbind].
  rewrite Ef. replace (Z.to_nat (zlen (mr_srcs r))) with (length (mr_srcs r)) by (unfold zlen; lia).
  rewrite (mld2_sources_wire (mr_srcs r) H6 hdr 0 (mr_aux r)) by lia. cbn [rbind].
  rewrite app_assoc, slice_from_exact; [destruct r; reflexivity|].
  rewrite zlen_app, concat_enc_len. lia.
Qed.

(** ** messages *)
Definition icmp6_tx_wire (t : icmp6_tx) (ck : Z) : bytes :=
  match t with
  | T6UnreachPort d => icmp_wire 1 4 ck (icmp_unreach_body d)
  | T6EchoRequest id seq d => icmp_wire 128 0 ck (icmp_echo_body id seq d)
  | T6EchoReply id seq d => icmp_wire 129 0 ck (icmp_echo_body id seq d)
  | T6Rs l => icmp_wire 133 0 ck (nd_rs_body (nd_topts_wire l))
  | T6Ra hop m o li re rt l => icmp_wire 134 0 ck (nd_ra_body hop m o li re rt (nd_topts_wire l))
  | T6Ns tg l => icmp_wire 135 0 ck (nd_ns_body tg (nd_topts_wire l))
  | T6Na r s o tg l => icmp_wire 136 0 ck (nd_na_body r s o tg (nd_topts_wire l))
  | T6Mld2 l => icmp_wire 143 0 ck (mld2_report_body (zlen l) (mld2_txs_wire l))
  end.
Definition icmp6_tx_ok (t : icmp6_tx) : Prop :=
  match t with
  | T6UnreachPort d => wf_bytes d
  | T6EchoRequest id seq d | T6EchoReply id seq d => 0 <= id < 65536 /\ 0 <= seq < 65536 /\ wf_bytes d
  | T6Rs l => Forall nd_topt_ok l
  | T6Ra hop _ _ li re rt l =>
      0 <= hop < 256 /\ 0 <= li < 65536 /\ 0 <= re < 2 ^ 32 /\ 0 <= rt < 2 ^ 32 /\ Forall nd_topt_ok l
  | T6Ns tg l | T6Na _ _ _ tg l => 0 <= tg < 2 ^ 128 /\ Forall nd_topt_ok l
  | T6Mld2 l => zlen l < 65536 /\ Forall mld2_rec_ok l
  end.
Definition icmp6_tx_code (t : icmp6_tx) : Z * Z :=
  match t with
  | T6UnreachPort _ => (1, 4) | T6EchoRequest _ _ _ => (128, 0) | T6EchoReply _ _ _ => (129, 0)
  | T6Rs _ => (133, 0) | T6Ra _ _ _ _ _ _ _ => (134, 0) | T6Ns _ _ => (135, 0) | T6Na _ _ _ _ _ => (136, 0)
  | T6Mld2 _ => (143, 0)
  end.
Definition icmp6_seen_body (t : icmp6_tx) : icmp6_body :=
  match t with
  | T6UnreachPort d => B6Unreach d
  | T6EchoRequest id seq d | T6EchoReply id seq d => B6Echo id seq d
  | T6Rs l => B6Rs (map nd_topt_seen l)
  | T6Ra hop m o li re rt l => B6Ra hop m o li re rt (map nd_topt_seen l)
  | T6Ns tg l => B6Ns tg (map nd_topt_seen l)
  | T6Na r s o tg l => B6Na r s o tg (map nd_topt_seen l)
  | T6Mld2 l => B6Mld2 (zlen l)
  end.
Definition icmp6_seen (t : icmp6_tx) (ck : Z) : icmp6 :=
  {| q6_type := fst (icmp6_tx_code t); q6_code := snd (icmp6_tx_code t); q6_cksum := ck; q6_body := icmp6_seen_body t |}.
(** the addresses and hop limit the receiver insists on (RFC 4861, RFC 3810), and
    the messages that the parser reads back: no options in a router solicitation,
    at least four quoted bytes in a port unreachable *)
Definition icmp6_tx_sane (t : icmp6_tx) (src dst hop : Z) : Prop :=
  match t with
  | T6UnreachPort d => 4 <= zlen d
  | T6EchoRequest _ _ _ | T6EchoReply _ _ _ => True
  | T6Rs l => hop = 255 /\ (ip6_is_unicast src = true \/ src = 0) /\ dst = ip6_all_routers /\ l = []
  | T6Ra _ _ _ _ _ _ _ =>
      hop = 255 /\ ip6_is_link_local src = true /\ (ip6_is_unicast dst = true \/ dst = ip6_all_nodes)
  | T6Ns tg l =>
      hop = 255 /\ (ip6_is_unicast src = true \/ src = 0) /\ ip6_is_unicast tg = true /\
      (dst = tg \/ ip6_solicited_node_multicast tg = Ok dst) /\ (src = 0 -> forall m, ~ In (TSlla m) l)
  | T6Na _ s _ _ _ =>
      hop = 255 /\ ip6_is_unicast src = true /\ (dst = ip6_all_nodes \/ s = true /\ ip6_is_unicast dst = true)
  | T6Mld2 _ => hop = 1
  end.

Lemma icmp6_tx_wire_len t ck : zlen (icmp6_tx_wire t ck) = icmp6_tx_len t.
Proof.
  destruct t; cbn [icmp6_tx_wire icmp6_tx_len]; rewrite icmp_wire_len;
  unfold icmp_echo_body, icmp_unreach_body, nd_rs_body, nd_ra_body, nd_ns_body, nd_na_body, mld2_report_body;
  rewrite ?zlen_app, ?be_enc_zlen, ?nd_topts_wire_len, ?mld2_txs_wire_len, ?zlen_cons, ?zlen_nil; lia.
Qed.
Lemma icmp6_body_of t ck : icmp6_tx_ok t -> exists body, 
  icmp6_tx_wire t ck = icmp_wire (fst (icmp6_tx_code t)) (snd (icmp6_tx_code t)) ck body /\ wf_bytes body /\
  forall ck', icmp6_tx_wire t ck' = icmp_wire (fst (icmp6_tx_code t)) (snd (icmp6_tx_code t)) ck' body.
Proof.
  intros H.
  destruct t; cbn [icmp6_tx_wire icmp6_tx_code fst snd icmp6_tx_ok] in *; eexists; (split; [reflexivity|]);
  (split; [|reflexivity]);
  unfold icmp_echo_body, icmp_unreach_body, nd_rs_body, nd_ra_body, nd_ns_body, nd_na_body, mld2_report_body;
  rewrite ?wf_app; repeat match goal with |- _ /\ _ => split end; try tauto; auto using be_enc_wf;
  try (apply nd_topts_wire_wf; tauto); try (apply mld2_txs_wire_wf; tauto);
  try (repeat (apply wf_cons; [unfold is_byte; lia|]); apply wf_nil).
  - apply wf_cons; [unfold is_byte; lia|]. apply wf_cons; [destruct m, o; unfold is_byte; cbn; lia|apply wf_nil].
  - apply wf_cons; [destruct r, s, o; unfold is_byte; cbn; lia|].
    repeat (apply wf_cons; [unfold is_byte; lia|]); apply wf_nil.
Qed.
Lemma icmp6_code_bytes t : is_byte (fst (icmp6_tx_code t)) /\ is_byte (snd (icmp6_tx_code t)).
Proof. destruct t; split; unfold is_byte; cbn; lia. Qed.
Lemma icmp6_tx_wire_wf t ck : icmp6_tx_ok t -> wf_bytes (icmp6_tx_wire t ck).
Proof.
  intros H. destruct (icmp6_body_of t ck H) as (b & E & W & _). rewrite E. destruct (icmp6_code_bytes t).
  apply icmp_wire_wf; auto.
Qed.

Lemma icmp6_asm_to t ps : icmp6_tx_ok t ->
  asm_to (icmp6_carried t) (fun ps => icmp6_tx_wire t (inet_cksum (icmp6_tx_wire t 0) ps)) ps.
Proof.
  intros H. split; [apply icmp6_tx_wire_len|]. intros buf L. cbn [icmp6_carried c_len c_asm] in *.
  unfold icmp6_asm.
  assert (P : exists flds, pack flds = Ok (icmp6_tx_wire t 0) /\ 
    forall k, (flds' <- match t with
    | T6UnreachPort d => Ok [FI 1 1; FI 1 4; FI 2 0; FI 4 0; FB d]
    | T6EchoRequest id seq d => Ok [FI 1 128; FI 1 0; FI 2 0; FI 2 id; FI 2 seq; FB d]
    | T6EchoReply id seq d => Ok [FI 1 129; FI 1 0; FI 2 0; FI 2 id; FI 2 seq; FB d]
    | T6Rs l => o <- nd_topts_bytes l ;; Ok [FI 1 133; FI 1 0; FI 2 0; FI 4 0; FB o]
    | T6Ra hop m ot li re rt l =>
        o <- nd_topts_bytes l ;;
        Ok [FI 1 134; FI 1 0; FI 2 0; FI 1 hop; FI 1 (Z.lor (Z.shiftl (b2z m) 7) (Z.shiftl (b2z ot) 6));
            FI 2 li; FI 4 re; FI 4 rt; FB o]
    | T6Ns tg l => o <- nd_topts_bytes l ;; Ok [FI 1 135; FI 1 0; FI 2 0; FI 4 0; FB (ip6_bytes tg); FB o]
    | T6Na r s ov tg l =>
        o <- nd_topts_bytes l ;;
        Ok [FI 1 136; FI 1 0; FI 2 0;
            FI 4 (Z.lor (Z.lor (Z.lor (Z.shiftl (b2z r) 31) (Z.shiftl (b2z s) 30)) (Z.shiftl (b2z ov) 29)) 0);
            FB (ip6_bytes tg); FB o]
    | T6Mld2 l =>
        o <- rconcat (map mld2_rec_bytes l) ;;
        Ok [FI 1 143; FI 1 0; FI 2 0; FI 2 0; FI 2 (zlen l); FB o]
    end ;; k flds') = (k flds : res bytes)).
  { destruct t; cbn [icmp6_tx_ok] in H.
    - eexists; split; [|reflexivity]. cbn [icmp6_tx_wire]. unfold icmp_wire, icmp_unreach_body.
      change [0; 0; 0; 0] with (be_enc 4 0). cbn [app]. packs.
    - eexists; split; [|reflexivity]. cbn [icmp6_tx_wire]. unfold icmp_wire, icmp_echo_body. cbn [app]. packs.
    - eexists; split; [|reflexivity]. cbn [icmp6_tx_wire]. unfold icmp_wire, icmp_echo_body. cbn [app]. packs.
    - rewrite nd_topts_bytes_ok by tauto. eexists; split; [|reflexivity]. cbn [icmp6_tx_wire].
      unfold icmp_wire, nd_rs_body. change [0; 0; 0; 0] with (be_enc 4 0). cbn [app]. packs.
    - rewrite nd_topts_bytes_ok by tauto. eexists; split; [|reflexivity]. cbn [icmp6_tx_wire].
      unfold icmp_wire, nd_ra_body.
      replace (Z.lor (Z.shiftl (b2z m) 7) (Z.shiftl (b2z o) 6)) with (b2z m * 128 + b2z o * 64) by (destruct m, o; reflexivity).
      assert (0 <= b2z m * 128 + b2z o * 64 < 256) by (destruct m, o; cbn; lia).
      cbn [app]. packs.
    - rewrite nd_topts_bytes_ok by tauto. rewrite ip6_bytes_enc by tauto.
      eexists; split; [|reflexivity]. cbn [icmp6_tx_wire].
      unfold icmp_wire, nd_ns_body. change [0; 0; 0; 0] with (be_enc 4 0). cbn [app]. packs.
    - rewrite nd_topts_bytes_ok by tauto. rewrite ip6_bytes_enc by tauto.
      eexists; split; [|reflexivity]. cbn [icmp6_tx_wire]. unfold icmp_wire, nd_na_body.
      replace [b2z r * 128 + b2z s * 64 + b2z o * 32; 0; 0; 0] with
        (be_enc 4 (Z.lor (Z.lor (Z.lor (Z.shiftl (b2z r) 31) (Z.shiftl (b2z s) 30)) (Z.shiftl (b2z o) 29)) 0))
        by (destruct r, s, o; reflexivity).
      assert (0 <= Z.lor (Z.lor (Z.lor (Z.shiftl (b2z r) 31) (Z.shiftl (b2z s) 30)) (Z.shiftl (b2z o) 29)) 0 < 2 ^ 32)
        by (destruct r, s, o; split; vm_compute; congruence).
      set (w := Z.lor _ 0) in *. clearbody w. cbn [app]. packs.
    - rewrite mld2_recs_bytes_ok by tauto. eexists; split; [|reflexivity]. cbn [icmp6_tx_wire].
      unfold icmp_wire, mld2_report_body. change [0; 0] with (be_enc 2 0). cbn [app].
      pose proof (zlen_nonneg recs). packs. }
  destruct P as (flds & P & E). rewrite E.
  rewrite (pack_into_full buf _ (icmp6_tx_wire t 0)); [|auto|rewrite icmp6_tx_wire_len; auto].
  cbn [rbind]. set (ck := inet_cksum _ ps). assert (Hc : 0 <= ck < 65536) by apply ip4_cksum_bound.
  clearbody ck. destruct (icmp6_body_of t 0 H) as (b & -> & _ & ->). unfold icmp_wire. apply pack_into_mid; auto.
Qed.

Lemma icmp6_of_wire t ck opts : icmp6_tx_ok t -> 0 <= ck < 65536 ->
  (forall l, (t = T6Rs l \/ (exists a b c d e g, t = T6Ra a b c d e g l) \/ (exists a, t = T6Ns a l) \/
     (exists a b c d, t = T6Na a b c d l)) -> opts = map nd_topt_seen l) ->
  icmp6_of (icmp6_tx_wire t ck) (icmp6_tx_len t) opts = icmp6_seen t ck /\
  (forall tg l, t = T6Ns tg l -> be (slice 8 24 (icmp6_tx_wire t ck)) = tg) /\
  (forall r s o tg l, t = T6Na r s o tg l -> bit_at (icmp6_tx_wire t ck) 4 6 = s) /\
  (forall l, t = T6Mld2 l -> be (slice 6 8 (icmp6_tx_wire t ck)) = zlen l).
Proof.
  intros H Hc Ho.
  assert (Hs : forall (a b c d e g h i : Z) (data : bytes), slice 8 (8 + zlen data) (a :: b :: c :: d :: e :: g :: h :: i :: data) = data).
  { intros. change (a :: b :: c :: d :: e :: g :: h :: i :: data) with ([a;b;c;d;e;g;h;i] ++ data).
    rewrite slice_app_shift by (vm_compute; congruence).
    change (zlen [a;b;c;d;e;g;h;i]) with 8. replace (8 - 8) with 0 by lia. apply slice_all. lia. }
  destruct t as [d|id seq d|id seq d|l|hop m o li re rt l|tg l|r s o tg l|l]; cbn [icmp6_tx_ok] in H;
    cbn [icmp6_tx_wire icmp6_tx_len]; unfold icmp_wire;
    repeat match goal with |- _ /\ _ => split end;
    try (intros; discriminate); explode 2%nat ck;
    unfold icmp6_seen; cbn [icmp6_tx_code fst snd icmp6_seen_body].
  - unfold icmp_unreach_body. cbn [app]. unfold icmp6_of. cbn [nth]. cbn [Z.eqb Pos.eqb orb]. rewrite Hs. readf.
    rewrite B. reflexivity.
  - unfold icmp_echo_body. explode 2%nat id. explode 2%nat seq. cbn [app]. unfold icmp6_of. cbn [nth].
    cbn [Z.eqb Pos.eqb orb]. rewrite Hs. readf. rewrite B, B0, B1. reflexivity.
  - unfold icmp_echo_body. explode 2%nat id. explode 2%nat seq. cbn [app]. unfold icmp6_of. cbn [nth].
    cbn [Z.eqb Pos.eqb orb]. rewrite Hs. readf. rewrite B, B0, B1. reflexivity.
  - rewrite (Ho l) by auto. cbn [app]. unfold icmp6_of. cbn [nth]. cbn [Z.eqb Pos.eqb orb]. readf. rewrite B. reflexivity.
  - rewrite (Ho l) by eauto 10. unfold nd_ra_body. explode 2%nat li. explode 4%nat re. explode 4%nat rt. cbn [app].
    unfold icmp6_of, bit_at. cbn [nth]. cbn [Z.eqb Pos.eqb orb]. readf. rewrite B, B0, B1, B2.
    destruct m, o; reflexivity.
  - rewrite (Ho l) by eauto 10. unfold nd_ns_body. explode 16%nat tg. cbn [app].
    unfold icmp6_of. cbn [nth]. cbn [Z.eqb Pos.eqb orb]. readf. rewrite B, B0. reflexivity.
  - intros tg' l' E. injection E as <- <-. unfold nd_ns_body. explode 16%nat tg. cbn [app]. readf. exact B0.
  - rewrite (Ho l) by eauto 10. unfold nd_na_body. explode 16%nat tg. cbn [app].
    unfold icmp6_of, bit_at. cbn [nth]. cbn [Z.eqb Pos.eqb orb]. readf. rewrite B, B0. destruct r, s, o; reflexivity.
  - intros r' s' o' tg' l' E. injection E as <- <- <- <- <-. unfold nd_na_body, bit_at. cbn [app nth].
    destruct r, s, o; reflexivity.
  - unfold mld2_report_body. pose proof (zlen_nonneg l). explode 2%nat (zlen l). cbn [app]. unfold icmp6_of. cbn [nth].
    cbn [Z.eqb Pos.eqb orb]. readf. rewrite B, B0. reflexivity.
  - intros l' E. injection E as <-. unfold mld2_report_body. pose proof (zlen_nonneg l).
    explode 2%nat (zlen l). cbn [app]. readf. exact B0.
Qed.

Lemma nd_slla_none l : (forall m, ~ In (TSlla m) l) -> nd_slla (map nd_topt_seen l) = None.
Proof.
  induction l as [|o l IH]; intros H; [reflexivity|].
  destruct o; cbn [map nd_topt_seen nd_slla];
    [exfalso; apply (H mac); left; reflexivity| |]; apply IH; intros m K; apply (H m); right; exact K.
Qed.

Lemma icmp6_parse_wire t ck ps pseudo src dst hop : icmp6_tx_ok t -> icmp6_tx_len t < 65536 ->
  0 <= ck < 65536 -> pshdr_for pseudo ps -> icmp6_tx_sane t src dst hop ->
  rfc1071_verifies (pseudo ++ icmp6_tx_wire t ck) 0 ->
  icmp6_parse (icmp6_tx_wire t ck) (icmp6_tx_len t) ps src dst hop = Ok (inr (icmp6_seen t ck)).
Proof.
  intros H L Hc Hp S V.
  pose proof (icmp6_tx_wire_wf t ck H) as W. pose proof (icmp6_tx_wire_len t ck) as Lw.
  set (opts := match t with T6Rs l | T6Ra _ _ _ _ _ _ l | T6Ns _ l | T6Na _ _ _ _ l => map nd_topt_seen l | _ => [] end).
  assert (Ho : forall l, (t = T6Rs l \/ (exists a b c d e g, t = T6Ra a b c d e g l) \/ (exists a, t = T6Ns a l) \/
     (exists a b c d, t = T6Na a b c d l)) -> opts = map nd_topt_seen l).
  { intros l [->|[(a & b & c & d & e & g & ->)|[(a & ->)|(a & b & c & d & ->)]]]; reflexivity. }
  destruct (icmp6_of_wire t ck opts H Hc Ho) as (F & Ftg & Fs & Fn).
  assert (Ft : nth 0 (icmp6_tx_wire t ck) 0 = fst (icmp6_tx_code t)).
  { pose proof (f_equal q6_type F) as E. exact E. }
  assert (Fc : nth 1 (icmp6_tx_wire t ck) 0 = snd (icmp6_tx_code t)).
  { pose proof (f_equal q6_code F) as E. exact E. }
  assert (Ll : 8 <= icmp6_tx_len t).
  { destruct t as [d|id seq d|id seq d|l|hp m o li re rt l|tg l|r s o tg l|l]; cbn [icmp6_tx_len];
      try (pose proof (zlen_nonneg d); lia);
      try (rewrite <- nd_topts_wire_len; pose proof (zlen_nonneg (nd_topts_wire l)); lia).
    rewrite <- mld2_txs_wire_len; pose proof (zlen_nonneg (mld2_txs_wire l)); lia. }
  assert (Pre : forall l p b, p ++ b = icmp6_tx_wire t ck -> b = nd_topts_wire l -> Forall nd_topt_ok l ->
     nd_option_check (icmp6_tx_wire t ck) (zlen p) = Ok None /\
     nd_options (icmp6_tx_wire t ck) (zlen p) = Ok (map nd_topt_seen l)).
  { intros l p b E Eb Hl. rewrite <- E, Eb. apply nd_topts_read. exact Hl. }
  rewrite <- F. apply (icmp6_accept _ _ _ pseudo); auto; rewrite ?Ft; try lia.
  - rewrite slice_all by lia. exact V.
  - destruct t; cbn [icmp6_tx_code fst]; try lia. intros _. cbn [icmp6_tx_sane icmp6_tx_len] in *. lia.
  - destruct t; cbn [icmp6_tx_code fst]; lia.
  - unfold nd_type, nd_start, nd_read_start.
    destruct t as [d|id seq d|id seq d|l|hp m o li re rt l|tg l|r s o tg l|l]; cbn [icmp6_tx_code fst]; try lia;
    intros _; cbn [Z.eqb Pos.eqb]; cbn [icmp6_tx_ok] in H; cbn [icmp6_tx_sane] in S.
    + split; [exact Ll|]. destruct S as (_ & _ & _ & ->). subst opts. cbn [map].
      cbn [icmp6_tx_wire]. unfold icmp_wire, nd_rs_body. explode 2%nat ck. split; reflexivity.
    + split; [cbn [icmp6_tx_len]; rewrite <- nd_topts_wire_len; pose proof (zlen_nonneg (nd_topts_wire l)); lia|].
      assert (exists p, p ++ nd_topts_wire l = icmp6_tx_wire (T6Ra hp m o li re rt l) ck /\ zlen p = 16) as (p & E & Lp).
      { cbn [icmp6_tx_wire]. unfold icmp_wire, nd_ra_body.
        exists ([134] ++ [0] ++ be_enc 2 ck ++ [hp; b2z m * 128 + b2z o * 64] ++ be_enc 2 li ++ be_enc 4 re ++ be_enc 4 rt).
        split; [rewrite <- !app_assoc; reflexivity|]. rewrite !zlen_app, !be_enc_zlen. reflexivity. }
      specialize (Pre l p _ E eq_refl ltac:(tauto)). rewrite Lp in Pre. exact Pre.
    + split; [cbn [icmp6_tx_len]; rewrite <- nd_topts_wire_len; pose proof (zlen_nonneg (nd_topts_wire l)); lia|].
      assert (exists p, p ++ nd_topts_wire l = icmp6_tx_wire (T6Ns tg l) ck /\ zlen p = 24) as (p & E & Lp).
      { cbn [icmp6_tx_wire]. unfold icmp_wire, nd_ns_body.
        exists ([135] ++ [0] ++ be_enc 2 ck ++ [0; 0; 0; 0] ++ be_enc 16 tg).
        split; [rewrite <- !app_assoc; reflexivity|]. rewrite !zlen_app, !be_enc_zlen. reflexivity. }
      specialize (Pre l p _ E eq_refl ltac:(tauto)). rewrite Lp in Pre. exact Pre.
    + split; [cbn [icmp6_tx_len]; rewrite <- nd_topts_wire_len; pose proof (zlen_nonneg (nd_topts_wire l)); lia|].
      assert (exists p, p ++ nd_topts_wire l = icmp6_tx_wire (T6Na r s o tg l) ck /\ zlen p = 24) as (p & E & Lp).
      { cbn [icmp6_tx_wire]. unfold icmp_wire, nd_na_body.
        exists ([136] ++ [0] ++ be_enc 2 ck ++ [b2z r * 128 + b2z s * 64 + b2z o * 32; 0; 0; 0] ++ be_enc 16 tg).
        split; [rewrite <- !app_assoc; reflexivity|]. rewrite !zlen_app, !be_enc_zlen. reflexivity. }
      specialize (Pre l p _ E eq_refl ltac:(tauto)). rewrite Lp in Pre. exact Pre.
  - destruct t as [d|id seq d|id seq d|l|hp m o li re rt l|tg l|r s o tg l|l]; cbn [icmp6_tx_code fst]; try lia.
    intros _. split; [exact Ll|]. rewrite (Fn l eq_refl). cbn [icmp6_tx_ok] in H.
    replace (Z.to_nat (zlen l)) with (length l) by (unfold zlen; lia).
    assert (exists p, p ++ mld2_txs_wire l = icmp6_tx_wire (T6Mld2 l) ck /\ zlen p = 8) as (p & E & Lp).
    { cbn [icmp6_tx_wire]. unfold icmp_wire, mld2_report_body.
      exists ([143] ++ [0] ++ be_enc 2 ck ++ [0; 0] ++ be_enc 2 (zlen l)).
      split; [rewrite <- !app_assoc; reflexivity|]. rewrite !zlen_app, !be_enc_zlen. reflexivity. }
    cbn [icmp6_tx_len]. rewrite <- mld2_txs_wire_len. rewrite <- E.
    replace 8 with (zlen p) by exact Lp. apply mld2_walk_wire. tauto.
  - unfold icmp6_sane. rewrite Ft, Fc. unfold nd_type.
    destruct t as [d|id seq d|id seq d|l|hp m o li re rt l|tg l|r s o tg l|l]; cbn [icmp6_tx_code fst snd];
      cbn [icmp6_tx_sane] in S; repeat match goal with |- _ /\ _ => split end; try lia; intros _;
      repeat match goal with |- _ /\ _ => split end; try tauto; try lia.
    + destruct S as (_ & _ & _ & ->). reflexivity.
    + rewrite (Ftg tg l eq_refl). tauto.
    + rewrite (Ftg tg l eq_refl). tauto.
    + intros E0. subst opts. apply nd_slla_none. apply S. exact E0.
    + rewrite (Fs r s o tg l eq_refl). tauto.
Qed.

Lemma icmp6_round_trip t buf ps pseudo src dst hop : icmp6_tx_ok t -> icmp6_tx_len t < 65536 ->
  pshdr_for pseudo ps -> icmp6_tx_sane t src dst hop -> zlen buf = icmp6_tx_len t ->
  cksum_lucky pseudo (icmp6_tx_wire t 0) ->
  let ck := rfc1071 (pseudo ++ icmp6_tx_wire t 0) 0 in
  icmp6_asm t buf ps = Ok (icmp6_tx_wire t ck) /\ rfc1071_verifies (pseudo ++ icmp6_tx_wire t ck) 0 /\
  icmp6_parse (icmp6_tx_wire t ck) (icmp6_tx_len t) ps src dst hop = Ok (inr (icmp6_seen t ck)).
Proof.
  intros H L Hp S Lb Hk ck.
  destruct (icmp6_asm_to t ps H) as [_ A]. cbn [icmp6_carried c_len c_asm] in A.
  assert (W0 : wf_bytes (icmp6_tx_wire t 0)) by (apply icmp6_tx_wire_wf; auto).
  rewrite (lucky_cksum _ _ _ Hp W0) in A by (auto; rewrite icmp6_tx_wire_len; lia). fold ck in A.
  assert (Wp : wf_bytes pseudo) by (destruct (pshdr_facts _ _ Hp) as (W & _); exact W).
  assert (Hc : 0 <= ck < 65536).
  { pose proof (rfc1071_range (pseudo ++ icmp6_tx_wire t 0) 0 ltac:(apply wf_app; auto) ltac:(lia)). unfold ck; lia. }
  assert (V : rfc1071_verifies (pseudo ++ icmp6_tx_wire t ck) 0).
  { destruct (icmp6_body_of t 0 H) as (b & E0 & Wb & E). rewrite (E ck). unfold ck. rewrite E0. unfold icmp_wire.
    change (be_enc 2 0) with [0; 0]. destruct (icmp6_code_bytes t) as [Q1 Q2].
    pose proof (fill_verifies pseudo ps [fst (icmp6_tx_code t); snd (icmp6_tx_code t)] b 1 Hp) as Q.
    cbn [app] in Q |- *. apply Q; auto. repeat (apply wf_cons; auto). apply wf_nil. }
  split; [apply A; auto|]. split; [exact V|]. apply (icmp6_parse_wire t ck ps pseudo); auto.
Qed.

Lemma over_ip6_hop h c pl buf ps0 w p :
  ip6_tx_wf h -> wf_bytes pl -> zlen pl = c_len c -> zlen pl < 65536 ->
  (forall b, zlen b = c_len c ->
    c_asm c b (word_sum 8 5 (ip6_pseudo (t6_src h) (t6_dst h) (zlen pl) (t6_next h))) = Ok pl) ->
  t6_hop h <> 0 -> ip6_is_multicast (t6_src h) = false -> zlen buf = 40 + zlen pl ->
  ip6_asm h c buf ps0 = Ok w -> ip6_parse w = Ok (inr p) -> i6_hop p = t6_hop h.
Proof.
  intros S Wl Lc Hl Ha Hh Hm Lb A P. rewrite Lc in Hl, Ha.
  destruct (ip6_round_trip h c pl buf ps0 S Wl Lc Hl Ha Hh Hm Lb) as (fr' & p' & A' & _ & P' & F).
  assert (fr' = w) as -> by congruence. assert (p' = p) as -> by congruence. apply F.
Qed.
Lemma icmp6_over_ip6 h t buf ps0 :
  ip6_tx_wf h -> t6_next h = 58 -> icmp6_tx_ok t -> icmp6_tx_len t < 65536 -> t6_hop h <> 0 ->
  ip6_is_multicast (t6_src h) = false -> icmp6_tx_sane t (t6_src h) (t6_dst h) (t6_hop h) ->
  cksum_lucky (ip6_pseudo (t6_src h) (t6_dst h) (icmp6_tx_len t) 58) (icmp6_tx_wire t 0) ->
  zlen buf = 40 + icmp6_tx_len t ->
  exists w p ps ck, ip6_asm h (icmp6_carried t) buf ps0 = Ok w /\
    ip6_parse w = Ok (inr p) /\ i6_src p = t6_src h /\ i6_dst p = t6_dst h /\ i6_next p = 58 /\ i6_hop p = t6_hop h /\
    i6_pshdr_sum p = Ok ps /\
    icmp6_parse (i6_rest p) (i6_dlen p) ps (i6_src p) (i6_dst p) (i6_hop p) = Ok (inr (icmp6_seen t ck)).
Proof.
  intros S Hpr St Ll Hh Hm Hsa Hk Lb.
  pose proof S as (_ & As & Ad). pose proof (icmp6_tx_wire_len t 0) as L0. pose proof (zlen_nonneg (icmp6_tx_wire t 0)).
  pose proof (pshdr6_for (t6_src h) (t6_dst h) (icmp6_tx_len t) 58 As Ad ltac:(lia) ltac:(lia)) as Hps.
  set (ps := word_sum 8 5 _) in Hps.
  set (ck := rfc1071 (ip6_pseudo (t6_src h) (t6_dst h) (icmp6_tx_len t) 58 ++ icmp6_tx_wire t 0) 0).
  set (pl := icmp6_tx_wire t ck).
  assert (Lpl : zlen pl = icmp6_tx_len t) by (unfold pl; apply icmp6_tx_wire_len).
  assert (Wl : wf_bytes pl) by (unfold pl; apply icmp6_tx_wire_wf; auto).
  assert (Ha : forall b, zlen b = icmp6_tx_len t -> icmp6_asm t b ps = Ok pl).
  { intros b Lbb. destruct (icmp6_round_trip t b ps _ _ _ _ St Ll Hps Hsa Lbb Hk) as (E & _). exact E. }
  destruct (icmp6_round_trip t (repeat 0 (Z.to_nat (icmp6_tx_len t))) ps _ _ _ _ St Ll Hps Hsa
    ltac:(rewrite zlen_zeros; lia) Hk) as (_ & _ & E).
  fold ck in E. fold pl in E. clearbody pl. subst ps.
  destruct (over_ip6 h (icmp6_carried t) pl buf ps0 S Wl Lpl) as (fr & p & A & P & B1 & B2 & B3 & B4 & B5 & B6);
    [rewrite Lpl; exact Ll|rewrite Lpl, Hpr; exact Ha|exact Hh|exact Hm|rewrite Lpl; exact Lb|].
  assert (B7 : i6_hop p = t6_hop h).
  { apply (over_ip6_hop h (icmp6_carried t) pl buf ps0 fr p S Wl Lpl);
      [rewrite Lpl; exact Ll|rewrite Lpl, Hpr; exact Ha|exact Hh|exact Hm|rewrite Lpl; exact Lb|exact A|exact P]. }
  rewrite Lpl, Hpr in *. exists fr, p. do 2 eexists. rewrite B4, B5, B7, B1, B2.
  split; [exact A|]. split; [exact P|]. split; [reflexivity|]. split; [reflexivity|]. split; [exact B3|].
  split; [reflexivity|]. split; [exact B6|]. exact E.
Qed.
