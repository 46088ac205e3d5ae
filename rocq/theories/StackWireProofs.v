(** Where a queued frame's addresses are found on the wire. *)
From Verif Require Import Base BaseLemmas CodecModel CodecLemmas CksumModel AddrModel EtherModel
  Ip4Model Ip6Model UdpModel TcpModel Icmp4Model Icmp6Model FragModel BufProofs RingModel RingProofs StackModel.

Lemma Ok_inj {A} (a b : A) : Ok a = Ok b -> a = b. Proof. congruence. Qed.
Lemma pack_app a b : pack (a ++ b) = (x <- pack a ;; y <- pack b ;; Ok (x ++ y)).
Proof.
  induction a as [|f a IH]; cbn [app pack].
  - cbn [rbind]. destruct (pack b); reflexivity.
  - rewrite IH. destruct f as [n v|l].
    + destruct (_ && _); [|reflexivity]. destruct (pack a); [|reflexivity]. cbn [rbind].
      destruct (pack b); [|reflexivity]. cbn [rbind]. rewrite app_assoc. reflexivity.
    + destruct (pack a); [|reflexivity]. cbn [rbind]. destruct (pack b); [|reflexivity]. cbn [rbind].
      rewrite app_assoc. reflexivity.
Qed.
(** a field lands at its offset *)
Lemma pack_into_field b fs1 f fs2 w : pack_into b 0 (fs1 ++ f :: fs2) = Ok w ->
  exists x, pack [f] = Ok x /\ slice (flds_len fs1) (flds_len fs1 + fld_len f) w = x.
Proof.
  intros E. unfold pack_into in E. change (f :: fs2) with ([f] ++ fs2) in E. rewrite !pack_app in E.
  destruct (pack fs1) as [p1|] eqn:P1; [|discriminate]. destruct (pack [f]) as [p|] eqn:P; [|discriminate].
  destruct (pack fs2) as [p2|] eqn:P2; [|discriminate]. cbn [rbind] in E.
  destruct (_ <=? _) eqn:L; [|discriminate]. injection E as <-. exists p. split; [reflexivity|].
  apply pack_len in P1, P. unfold flds_len in P at 1. cbn [map fold_right] in P.
  unfold overwrite. cbn [Z.to_nat firstn app]. rewrite <- !app_assoc.
  rewrite slice_app_shift by lia. replace (flds_len fs1 - zlen p1) with 0 by lia. rewrite slice_app_left by lia. reflexivity.
Qed.
Lemma skipn_add {A} a b (l : list A) : skipn a (skipn b l) = skipn (b + a) l.
Proof. revert l; induction b as [|b IH]; intros l; [reflexivity|]. destruct l; [rewrite !skipn_nil; reflexivity|]. apply IH. Qed.
(** and stays when something else is overwritten *)
Lemma pack_into_keep b off fs w i j : 0 <= off -> 0 <= i -> pack_into b off fs = Ok w ->
  j <= off \/ off + flds_len fs <= i -> slice i j w = slice i j b.
Proof.
  intros Ho Hi E H. unfold pack_into in E. destruct (pack fs) as [p|] eqn:P; [|discriminate]. cbn [rbind] in E.
  destruct (off + zlen p <=? zlen b) eqn:L; [|discriminate]. injection E as <-. apply pack_len in P. rewrite <- P in H. clear P.
  apply Z.leb_le in L.
  assert (B : b = slice 0 off b ++ slice off (off + zlen p) b ++ slice_from (off + zlen p) b).
  { rewrite (slice_split b off Ho) at 1. f_equal. unfold slice, slice_from, zlen in *.
    replace (Z.to_nat (off + Z.of_nat (length p) - off)) with (length p) by lia.
    rewrite <- (firstn_skipn (length p) (skipn (Z.to_nat off) b)) at 1. f_equal.
    rewrite skipn_add. f_equal. lia. }
  pose proof (zlen_nonneg p).
  assert (L1 : zlen (slice 0 off b) = off) by (rewrite zlen_slice; lia).
  assert (L2 : zlen (slice off (off + zlen p) b) = zlen p) by (rewrite zlen_slice; lia).
  remember (slice 0 off b) as x. remember (slice off (off + zlen p) b) as y. remember (slice_from (off + zlen p) b) as z.
  rewrite B. rewrite overwrite_mid by (unfold zlen in *; lia).
  destruct H.
  - rewrite !slice_app_in by lia. reflexivity.
  - rewrite !(slice_app_shift x) by lia. rewrite !slice_app_shift by lia. f_equal; lia.
Qed.
Lemma asm_tail_Ok b h c ps w : 0 <= h -> asm_tail b h c ps = Ok w ->
  exists t, c_asm c (slice_from h b) ps = Ok t /\ w = slice 0 h b ++ t.
Proof.
  unfold asm_tail. intros Hh E. destruct (c_asm c (slice_from h b) ps) as [t|]; [|discriminate]. injection E as <-. eauto.
Qed.

(** the Ethernet header *)
Lemma frame_wire f buf w : zlen buf = frame_len f -> indep (e_car f) -> frame_asm f buf = Ok w ->
  exists b t, zlen b = c_len (e_car f) /\ c_asm (e_car f) b 0 = Ok t /\
    w = mac_bytes (RingModel.e_dst f) ++ mac_bytes (RingModel.e_src f) ++ be_enc 2 (RingModel.e_type f) ++ t.
Proof.
  intros L (Hc & _) E. unfold frame_asm, ether_asm in E. apply assert_Ok in E as [Hty E].
  unfold frame_len, ether_len in L.
  assert (P : pack [FB (mac_bytes (RingModel.e_dst f)); FB (mac_bytes (RingModel.e_src f)); FI 2 (RingModel.e_type f)] =
    Ok (mac_bytes (RingModel.e_dst f) ++ mac_bytes (RingModel.e_src f) ++ be_enc 2 (RingModel.e_type f) ++ [])).
  { cbn [pack]. replace ((0 <=? _) && _) with true; [reflexivity|].
    unfold ETHER_TYPE_ARP, ETHER_TYPE_IP4, ETHER_TYPE_IP6, ETHER_TYPE_RAW in Hty. change (256 ^ Z.of_nat 2) with 65536. lia. }
  assert (L14 : forall x y z, zlen (mac_bytes x ++ mac_bytes y ++ be_enc 2 z ++ []) = 14).
  { intros. rewrite !zlen_app, !mac_bytes_zlen, be_enc_zlen. reflexivity. }
  rewrite (pack_into_0 _ _ _ P) in E by (rewrite L14; lia). cbn [rbind] in E.
  rewrite asm_tail_ok' in E by (rewrite L14; reflexivity). rewrite L14 in E.
  destruct (c_asm (e_car f) (slice_from 14 buf) 0) as [t|] eqn:A; [|discriminate]. cbn [rbind] in E. apply Ok_inj in E. subst w.
  exists (slice_from 14 buf), t. split; [rewrite zlen_slice_from; lia|]. split; [exact A|].
  rewrite app_nil_r, <- !app_assoc. reflexivity.
Qed.

(** the source of an IPv4 packet is at offset 12 *)
Lemma ip4_wire_src t c b ps w : 20 <= zlen b -> c_asm (ip4_carried t c) b ps = Ok w -> slice 12 16 w = ip4_bytes (t4_src t).
Proof.
  intros Lb E. cbn [c_asm ip4_carried] in E. unfold ip4_asm in E. apply assert_Ok in E as [_ E].
  destruct (pack_into b 0 _) as [b1|] eqn:E1; [|discriminate]. cbn [rbind] in E.
  destruct (pack_into b1 10 _) as [b2|] eqn:E2; [|discriminate]. cbn [rbind] in E.
  destruct (ip4_pshdr_sum _ _ _ _) as [q|]; [|discriminate]. cbn [rbind] in E.
  apply asm_tail_Ok in E as (tl & _ & ->); [|unfold t4_hlen; pose proof (zlen_nonneg (ip4_raw_options (t4_opts t))); lia].
  pose proof (zlen_nonneg (ip4_raw_options (t4_opts t))) as Ho.
  unfold ip4_hdr_flds in E1.
  match type of E1 with pack_into _ _ [?a1; ?a2; ?a3; ?a4; ?a5; ?a6; ?a7; ?a8; ?x; ?y; ?z] = _ =>
    change [a1; a2; a3; a4; a5; a6; a7; a8; x; y; z] with ([a1; a2; a3; a4; a5; a6; a7; a8] ++ x :: [y; z]) in E1 end.
  pose proof E1 as E1'.
  apply pack_into_field in E1 as (x & Px & Sx). cbn [pack rbind] in Px. rewrite app_nil_r in Px. injection Px as <-.
  change (flds_len _) with 12 in Sx. change (12 + _) with 16 in Sx.
  apply pack_into_len in E1' as L1; [|lia]. apply pack_into_len in E2 as L2; [|lia].
  rewrite <- Sx. rewrite <- (pack_into_keep b1 10 _ b2 12 16 ltac:(lia) ltac:(lia) E2) by (right; cbv; discriminate).
  assert (Lh : 20 <= zlen (slice 0 (t4_hlen t) b2)).
  { unfold slice, t4_hlen, zlen in *. change (Z.to_nat 0) with 0%nat. cbn [skipn]. rewrite firstn_length.
    clear - L1 L2 Lb Ho. lia. }
  rewrite slice_app_in by lia.
  rewrite (slice_split b2 (t4_hlen t)) at 2 by (unfold t4_hlen; lia). rewrite slice_app_in by lia. reflexivity.
Qed.
Lemma ip4_frag_wire_src t d b ps w : c_asm (ip4_frag_carried t d) b ps = Ok w -> slice 12 16 w = ip4_bytes (t4_src t).
Proof.
  intros E. cbn [c_asm ip4_frag_carried] in E. unfold ip4_frag_asm in E. apply assert_Ok in E as [_ E].
  destruct (pack_into b 0 _) as [b1|] eqn:E1; [|discriminate]. cbn [rbind] in E.
  unfold ip4_hdr_flds in E1. cbn [app] in E1.
  match type of E1 with pack_into _ _ [?a1; ?a2; ?a3; ?a4; ?a5; ?a6; ?a7; ?a8; ?x; ?y; ?z; ?u] = _ =>
    change [a1; a2; a3; a4; a5; a6; a7; a8; x; y; z; u] with ([a1; a2; a3; a4; a5; a6; a7; a8] ++ x :: [y; z; u]) in E1 end.
  apply pack_into_field in E1 as (x & Px & Sx). cbn [pack rbind] in Px. rewrite app_nil_r in Px. injection Px as <-.
  change (flds_len _) with 12 in Sx. change (12 + _) with 16 in Sx.
  rewrite <- Sx. apply (pack_into_keep b1 10 _ w 12 16 ltac:(lia) ltac:(lia) E). right; cbv; discriminate.
Qed.
(** IPv6: source at offset 8, next header at 6 *)
Lemma ip6_wire_src t c b ps w : indep c -> zlen b = 40 + c_len c -> c_asm (ip6_carried t c) b ps = Ok w ->
  slice 8 24 w = ip6_bytes (t6_src t) /\ slice 6 7 w = be_enc 1 (t6_next t) /\ exists bc q x, zlen bc = c_len c /\ c_asm c bc q = Ok x /\ slice_from 40 w = x.
Proof.
  intros (Hc & _) Lb E. cbn [c_asm ip6_carried] in E. unfold ip6_asm in E. apply assert_Ok in E as [_ E].
  destruct (pack_into b 0 _) as [b1|] eqn:E1; [|discriminate]. cbn [rbind] in E.
  destruct (ip6_pshdr_sum _ _ _ _) as [q|]; [|discriminate]. cbn [rbind] in E.
  apply asm_tail_Ok in E as (tl & A & ->); [|lia].
  apply pack_into_len in E1 as L1; [|lia].
  assert (L40 : zlen (slice 0 40 b1) = 40) by (rewrite zlen_slice; lia).
  assert (K : forall i j, 0 <= i -> j <= 40 -> slice i j (slice 0 40 b1 ++ tl) = slice i j b1).
  { intros i j Hi Hj. rewrite slice_app_in by lia.
    rewrite (slice_split b1 40) at 2 by lia. rewrite slice_app_in by lia. reflexivity. }
  rewrite !K by lia.
  match type of E1 with pack_into _ _ [?a1; ?a2; ?a3; ?a4; ?a5; ?a6; ?a7; ?a8; ?a9] = _ =>
    pose proof (pack_into_field b [a1; a2; a3; a4; a5; a6; a7] a8 [a9] b1 E1) as (x & Px & Sx);
    pose proof (pack_into_field b [a1; a2; a3; a4; a5] a6 [a7; a8; a9] b1 E1) as (y & Py & Sy) end.
  change (flds_len _) with 8 in Sx. change (8 + _) with 24 in Sx. change (flds_len _) with 6 in Sy. change (6 + _) with 7 in Sy.
  cbn [pack rbind] in Px, Py. rewrite app_nil_r in Px. injection Px as <-.
  destruct (_ && _); [|discriminate]. rewrite app_nil_r in Py. injection Py as <-.
  split; [exact Sx|]. split; [exact Sy|]. exists (slice_from 40 b1), q, tl.
  split; [rewrite zlen_slice_from; lia|]. split; [exact A|]. apply slice_from_exact. lia.
Qed.
(** ICMPv6: the type is the first byte *)
Definition icmp6_tx_type (t : icmp6_tx) : Z :=
  match t with
  | T6UnreachPort _ => 1 | T6EchoRequest _ _ _ => 128 | T6EchoReply _ _ _ => 129 | T6Rs _ => 133
  | T6Ra _ _ _ _ _ _ _ => 134 | T6Ns _ _ => 135 | T6Na _ _ _ _ _ => 136 | T6Mld2 _ => 143
  end.
Lemma icmp6_wire_type t b ps w : c_asm (icmp6_carried t) b ps = Ok w -> slice 0 1 w = [icmp6_tx_type t].
Proof.
  intros E. cbn [c_asm icmp6_carried] in E. unfold icmp6_asm in E.
  match type of E with rbind ?x _ = _ => destruct x as [fs|] eqn:F; [|discriminate] end. cbn [rbind] in E.
  destruct (pack_into b 0 fs) as [b1|] eqn:E1; [|discriminate]. cbn [rbind] in E.
  rewrite (pack_into_keep b1 2 _ w 0 1 ltac:(lia) ltac:(lia) E) by (left; lia).
  assert (X : exists r, fs = FI 1 (icmp6_tx_type t) :: r).
  { destruct t; cbn [icmp6_tx_type] in *;
      try (destruct (nd_topts_bytes _); [|discriminate]); try (destruct (rconcat _); [|discriminate]); cbn [rbind] in F;
      injection F as <-; eexists; reflexivity. }
  destruct X as (r & ->). apply (pack_into_field b [] _ r) in E1 as (x & Px & Sx).
  change (flds_len []) with 0 in Sx. change (0 + _) with 1 in Sx. rewrite Sx.
  destruct t; injection Px as <-; reflexivity.
Qed.
