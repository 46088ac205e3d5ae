(** Proofs about the TCP codec. *)
From Verif Require Import BaseLemmas BitLemmas CodecModel CksumModel AddrModel AddrProofs
  SpecCksum CksumProofs SpecWire Ip4Model Ip4Proofs Ip6Model EtherProofs CodecLemmas PshdrLemmas TcpModel.

Definition tcp_of (f : bytes) (plen : Z) (opts : list tcp_opt) : tcp :=
  {| s_sport := word_at f 0; s_dport := word_at f 2; s_seq := be (slice 4 8 f); s_ack := be (slice 8 12 f);
     s_hlen := byte_at f 12 / 16 * 4;
     s_fns := bit_at f 12 0; s_fcrw := bit_at f 13 7; s_fece := bit_at f 13 6; s_furg := bit_at f 13 5;
     s_fack := bit_at f 13 4; s_fpsh := bit_at f 13 3; s_frst := bit_at f 13 2; s_fsyn := bit_at f 13 1;
     s_ffin := bit_at f 13 0;
     s_win := word_at f 14; s_cksum := word_at f 16; s_urg := word_at f 18; s_opts := opts;
     s_data := slice (byte_at f 12 / 16 * 4) plen f |}.

Lemma tcp_hlen_val b : is_byte b -> Z.shiftr (Z.land b 0xF0) 2 = b / 16 * 4.
Proof.
  intros H. unfold is_byte in H. change 0xF0 with ((2 ^ 4 - 1) * 2 ^ 4). rewrite land_field by lia.
  rewrite Z.shiftr_div_pow2 by lia. lia.
Qed.

Lemma tcp_reads f : wf_bytes f -> 20 <= zlen f ->
  u16 f 0 = Ok (word_at f 0) /\ u16 f 2 = Ok (word_at f 2) /\ u32 f 4 = Ok (be (slice 4 8 f)) /\
  u32 f 8 = Ok (be (slice 8 12 f)) /\ tcp_hlen f = Ok (byte_at f 12 / 16 * 4) /\
  u8 f 12 = Ok (byte_at f 12) /\ u8 f 13 = Ok (byte_at f 13) /\
  u16 f 14 = Ok (word_at f 14) /\ u16 f 16 = Ok (word_at f 16) /\ u16 f 18 = Ok (word_at f 18).
Proof.
  intros W L. assert (H12 : is_byte (byte_at f 12)) by (apply byte_at_range; auto).
  take_bytes L. unfold tcp_hlen.
  change (byte_at _ 12) with b11 in *.
  readf. rewrite !be2. rewrite tcp_hlen_val by auto. repeat split; reflexivity.
Qed.

Lemma tcp_flag_at f i k m b : u8 f (Z.of_nat i) = Ok (byte_at f i) -> 0 <= k -> m = 2 ^ k ->
  b = bit_at f i k -> tcp_flag f (Z.of_nat i) m = Ok b.
Proof. intros E Hk Hm ->. unfold tcp_flag. rewrite E. cbn [rbind]. rewrite (land_bit _ k) by auto. reflexivity. Qed.

Lemma tcp_flags f : wf_bytes f -> 20 <= zlen f ->
  tcp_flag f 12 0x01 = Ok (bit_at f 12 0) /\ tcp_flag f 13 0x80 = Ok (bit_at f 13 7) /\
  tcp_flag f 13 0x40 = Ok (bit_at f 13 6) /\ tcp_flag f 13 0x20 = Ok (bit_at f 13 5) /\
  tcp_flag f 13 0x10 = Ok (bit_at f 13 4) /\ tcp_flag f 13 0x08 = Ok (bit_at f 13 3) /\
  tcp_flag f 13 0x04 = Ok (bit_at f 13 2) /\ tcp_flag f 13 0x02 = Ok (bit_at f 13 1) /\
  tcp_flag f 13 0x01 = Ok (bit_at f 13 0).
Proof.
  intros W L. destruct (tcp_reads f W L) as (_ & _ & _ & _ & _ & E12 & E13 & _).
  repeat split;
  match goal with
  | |- tcp_flag _ 12 _ = Ok (bit_at _ _ ?k) => apply (tcp_flag_at f 12 k); auto; lia
  | |- tcp_flag _ 13 _ = Ok (bit_at _ _ ?k) => apply (tcp_flag_at f 13 k); auto; lia
  end.
Qed.

Lemma tcp_fields_ok f plen : wf_bytes f -> 20 <= zlen f ->
  tcp_fields f plen = (opts <- tcp_options tcp_fuel f (byte_at f 12 / 16 * 4) 20 ;; Ok (tcp_of f plen opts)).
Proof.
  intros W L. unfold tcp_fields.
  destruct (tcp_reads f W L) as (E1&E2&E3&E4&E5&_&_&E6&E7&E8).
  destruct (tcp_flags f W L) as (F1&F2&F3&F4&F5&F6&F7&F8&F9).
  rewrite E1, E2, E3, E4, E5, E6, E7, E8, F1, F2, F3, F4, F5, F6, F7, F8, F9. reflexivity.
Qed.

(** ** the option area *)
Lemma tcp_opt_check_total fuel : forall f hlen optr,
  wf_bytes f -> 0 <= optr -> hlen <= zlen f -> (Z.to_nat (hlen - optr) < fuel)%nat ->
  (exists v, tcp_opt_check fuel f hlen optr = Ok v) \/
  (tcp_opt_check fuel f hlen optr = Exn IndexError /\ zlen f = hlen /\ optr < hlen /\
   exists k, index f (hlen - 1) = Ok k /\ 2 <= k).
Proof.
  induction fuel as [|fuel IH]; intros f hlen optr W Ho Hl Hf; [lia|].
  cbn [tcp_opt_check]. destruct (Z.ltb_spec optr hlen) as [Lt|Lt]; [|left; eexists; reflexivity].
  destruct (index_ok f optr ltac:(lia)) as [k Ek]. unfold u8. rewrite Ek. cbn [rbind].
  pose proof (wf_index _ _ _ W Ek) as Bk. unfold is_byte in Bk.
  destruct (Z.eqb_spec k 0) as [K0|K0]; [left; eexists; reflexivity|].
  unfold check. replace (hlen <? optr + 1) with false by lia.
  destruct (Z.eqb_spec k 1) as [K1|K1].
  - destruct (IH f hlen (optr + 1) W ltac:(lia) Hl ltac:(lia)) as [Hok|(H1&H2&H3&H4)]; [left; auto|].
    right; repeat split; auto; lia.
  - destruct (Z.ltb_spec (optr + 1) (zlen f)) as [L1|L1].
    + destruct (index_ok f (optr + 1) ltac:(lia)) as [l El]. rewrite El. cbn [rbind].
      pose proof (wf_index _ _ _ W El) as Bl. unfold is_byte in Bl.
      destruct (Z.eqb_spec l 0); [left; eexists; reflexivity|].
      destruct (Z.ltb_spec hlen (optr + l)); [left; eexists; reflexivity|].
      destruct (IH f hlen (optr + l) W ltac:(lia) Hl ltac:(lia)) as [Hok|(H1&H2&H3&H4)]; [left; auto|].
      right; repeat split; auto; lia.
    + right. rewrite index_exn by lia. cbn [rbind]. repeat split; auto; try lia.
      exists k. replace (hlen - 1) with optr by lia. split; [auto|lia].
Qed.

Lemma unpack_from_ok n l off : off + Z.of_nat n <= zlen l ->
  unpack_from n l off = Ok (be (slice off (off + Z.of_nat n) l)).
Proof. intros H. unfold unpack_from. destruct (Z.leb_spec (off + Z.of_nat n) (zlen l)); [reflexivity|lia]. Qed.

(** with nine bytes after the header no known option can run out of the frame *)
Lemma tcp_opt_read_ok f optr : wf_bytes f -> 0 <= optr -> optr + 10 <= zlen f ->
  exists o, tcp_opt_read (slice_from optr f) = Ok o.
Proof.
  intros W Ho L. assert (L10 : 10 <= zlen (slice_from optr f)) by (rewrite zlen_slice_from; lia).
  generalize dependent (slice_from optr f). intros g L10. unfold tcp_opt_read.
  rewrite !unpack_from_ok by lia. take_bytes L10. readf.
  repeat match goal with |- context [if ?c then _ else _] => destruct c end;
  try (eexists; reflexivity).
Qed.

Lemma tcp_options_after_check fuel : forall f hlen optr,
  wf_bytes f -> 0 <= optr -> hlen + 9 <= zlen f -> tcp_opt_check fuel f hlen optr = Ok None ->
  exists l, tcp_options fuel f hlen optr = Ok l.
Proof.
  induction fuel as [|fuel IH]; intros f hlen optr W Ho Hz E; [discriminate|].
  cbn [tcp_opt_check] in E. cbn [tcp_options].
  destruct (Z.ltb_spec optr hlen) as [Lt|Lt]; [|eauto]. destruct (u8 f optr) as [k|] eqn:Ek; [|discriminate].
  cbn [rbind] in *. destruct (k =? 0); [eauto|]. unfold check in E.
  destruct (k =? 1).
  - destruct (hlen <? optr + 1); [discriminate|]. apply IH in E as [l ->]; auto; [|lia]. cbn; eauto.
  - destruct (hlen <? optr + 1); [discriminate|].
    destruct (u8 f (optr + 1)) as [l|] eqn:El; [|discriminate]. cbn [rbind] in E.
    destruct (l =? 0); [discriminate|]. destruct (hlen <? optr + l); [discriminate|].
    destruct (tcp_opt_read_ok f optr W Ho ltac:(lia)) as [o ->]. cbn [rbind].
    unfold u8 in *. pose proof (wf_index _ _ _ W El) as Bl. unfold is_byte in Bl.
    apply IH in E as [r ->]; auto; [|lia]. cbn; eauto.
Qed.

Lemma tcp_opt_read_exn g e : tcp_opt_read g = Exn e -> e = IndexError \/ e = StructError.
Proof.
  unfold tcp_opt_read, u8, unpack_from, unpack, index.
  repeat (match goal with |- context [match nth_error ?l ?n with _ => _ end] => destruct (nth_error l n)
          | |- context [if ?c then _ else _] => destruct c end; cbn [rbind]; try (intros H; injection H as <-; auto; fail);
          try discriminate).
Qed.
Lemma tcp_options_exn fuel : forall f hlen optr e,
  wf_bytes f -> 0 <= optr -> tcp_opt_check fuel f hlen optr = Ok None ->
  tcp_options fuel f hlen optr = Exn e -> (e = IndexError \/ e = StructError) /\ optr < hlen.
Proof.
  induction fuel as [|fuel IH]; intros f hlen optr e W Ho E X; [discriminate|].
  cbn [tcp_opt_check] in E. cbn [tcp_options] in X.
  destruct (Z.ltb_spec optr hlen) as [Lt|Lt]; [|discriminate]. split; [|exact Lt].
  destruct (u8 f optr) as [k|] eqn:Ek; [|discriminate].
  cbn [rbind] in *. destruct (k =? 0); [discriminate|]. unfold check in E.
  destruct (k =? 1).
  - destruct (hlen <? optr + 1); [discriminate|].
    destruct (tcp_options fuel f hlen (optr + 1)) as [l|e'] eqn:Eo; [discriminate|].
    cbn [rbind] in X. injection X as <-. destruct (IH f hlen (optr + 1) e' W ltac:(lia) E Eo) as [H _]; exact H.
  - destruct (hlen <? optr + 1); [discriminate|].
    destruct (u8 f (optr + 1)) as [l|] eqn:El; [|discriminate]. cbn [rbind] in *.
    destruct (l =? 0); [discriminate|]. destruct (hlen <? optr + l); [discriminate|].
    destruct (tcp_opt_read (slice_from optr f)) as [o|e'] eqn:Er.
    + cbn [rbind] in X. unfold u8 in *. pose proof (wf_index _ _ _ W El) as Bl. unfold is_byte in Bl.
      destruct (tcp_options fuel f hlen (optr + l)) as [r|e'] eqn:Eo; [discriminate|].
      cbn [rbind] in X. injection X as <-. destruct (IH f hlen (optr + l) e' W ltac:(lia) E Eo) as [H _]; exact H.
    + cbn [rbind] in X. injection X as <-. eapply tcp_opt_read_exn; eauto.
Qed.

(** ** totality and soundness *)
Definition tcp_ok (f : bytes) (plen : Z) (pseudo : bytes) : Prop :=
  rfc1071_verifies (pseudo ++ slice 0 plen f) 0 /\
  20 <= byte_at f 12 / 16 * 4 <= plen /\ plen <= zlen f /\
  word_at f 0 <> 0 /\ word_at f 2 <> 0 /\
  ~ (bit_at f 13 1 = true /\ bit_at f 13 0 = true) /\
  ~ (bit_at f 13 1 = true /\ bit_at f 13 2 = true) /\
  ~ (bit_at f 13 0 = true /\ bit_at f 13 2 = true) /\
  ~ (bit_at f 13 0 = true /\ bit_at f 13 4 = false) /\
  ~ (be (slice 8 12 f) <> 0 /\ bit_at f 13 4 = false) /\
  ~ (word_at f 18 <> 0 /\ bit_at f 13 5 = false).

Lemma tcp_sanity_ok f : wf_bytes f -> 20 <= zlen f ->
  (exists r, tcp_sanity f = Ok (Some r)) \/
  tcp_sanity f = Ok None /\
  word_at f 0 <> 0 /\ word_at f 2 <> 0 /\
  ~ (bit_at f 13 1 = true /\ bit_at f 13 0 = true) /\
  ~ (bit_at f 13 1 = true /\ bit_at f 13 2 = true) /\
  ~ (bit_at f 13 0 = true /\ bit_at f 13 2 = true) /\
  ~ (bit_at f 13 0 = true /\ bit_at f 13 4 = false) /\
  ~ (be (slice 8 12 f) <> 0 /\ bit_at f 13 4 = false) /\
  ~ (word_at f 18 <> 0 /\ bit_at f 13 5 = false).
Proof.
  intros W L. unfold tcp_sanity, check.
  destruct (tcp_reads f W L) as (E1&E2&E3&E4&E5&_&_&E6&E7&E8).
  destruct (tcp_flags f W L) as (F1&F2&F3&F4&F5&F6&F7&F8&F9).
  rewrite E1, E2, E4, E8, F4, F5, F7, F8, F9. cbn [rbind].
  destruct (Z.eqb_spec (word_at f 0) 0); [left; eexists; reflexivity|].
  destruct (Z.eqb_spec (word_at f 2) 0); [left; eexists; reflexivity|].
  generalize (bit_at f 13 1) (bit_at f 13 0) (bit_at f 13 2) (bit_at f 13 4) (bit_at f 13 5).
  intros syn fin rst ack urg.
  destruct (z2b (be (slice 8 12 f))) eqn:Za; [|apply z2b_false in Za];
  (destruct (z2b (word_at f 18)) eqn:Zu; [|apply z2b_false in Zu]);
  destruct syn, fin, rst, ack, urg; cbn [andb negb rbind];
    first [left; eexists; reflexivity | right; repeat split; intuition congruence].
Qed.

(** the parser's outcome on every input *)
Lemma tcp_parse_cases f plen ps pseudo : wf_bytes f -> pshdr_for pseudo ps -> 0 <= plen < 65536 ->
  (exists r, tcp_parse f plen ps = Ok (inl r) /\ 13 <= zlen f) \/
  (tcp_parse f plen ps = Exn IndexError /\ zlen f < 13) \/
  (exists e, tcp_parse f plen ps = Exn e /\ (e = IndexError \/ e = StructError) /\
     20 < byte_at f 12 / 16 * 4 <= plen /\ plen <= zlen f /\ zlen f < byte_at f 12 / 16 * 4 + 9) \/
  (exists opts, tcp_parse f plen ps = Ok (inr (tcp_of f plen opts)) /\
     tcp_options tcp_fuel f (byte_at f 12 / 16 * 4) 20 = Ok opts /\ tcp_ok f plen pseudo).
Proof.
  intros W Hp Hl. unfold tcp_parse, run_parser, tcp_integrity, check.
  assert (Hs : wf_bytes (slice 0 plen f)) by (apply wf_slice; auto).
  assert (Hz : zlen (slice 0 plen f) < 2 ^ 32).
  { unfold slice, zlen. rewrite firstn_length. lia. }
  pose proof (pshdr_cksum_check pseudo ps _ Hp Hs Hz) as K.
  assert (Hshort : forall r : string, (exists r', ((_ <- tcp_hlen f ;; Ok (@inl string tcp r)) = Ok (inl r') /\ 13 <= zlen f)) \/
      (_ <- tcp_hlen f ;; Ok (@inl string tcp r)) = Exn IndexError /\ zlen f < 13).
  { intros r. unfold tcp_hlen, u8. destruct (Z.ltb_spec (zlen f) 13) as [L|L].
    - right. rewrite index_exn by lia. auto.
    - left. destruct (index_ok f 12 ltac:(lia)) as [b ->]. cbn [rbind]. eauto. }
  destruct (z2b (inet_cksum (slice 0 plen f) ps)) eqn:Z.
  { cbn [rbind]. destruct (Hshort "TCP integrity - wrong packet checksum"%string) as [H|H]; auto. }
  apply z2b_false in Z. apply K in Z.
  destruct ((20 <=? plen) && (plen <=? zlen f)) eqn:L; cbn [negb rbind].
  2:{ destruct (Hshort "TCP integrity - wrong packet length (I)"%string) as [H|H]; auto. }
  apply andb_true_iff in L as [L1 L2]. apply Z.leb_le in L1, L2.
  assert (L : 20 <= zlen f) by lia.
  destruct (tcp_reads f W L) as (_&_&_&_&E5&_).
  pose proof (byte_at_range f 12 W) as B12. unfold is_byte in B12.
  rewrite E5. cbn [rbind]. set (hlen := byte_at f 12 / 16 * 4) in *.
  assert (Hdrop : forall r : string, exists r', Ok (@inl string tcp r) = Ok (inl r') /\ 13 <= zlen f).
  { intros r. exists r. split; [reflexivity|lia]. }
  destruct ((20 <=? hlen) && (hlen <=? plen) && (plen <=? zlen f)) eqn:C; cbn [negb rbind];
    [|left; apply Hdrop].
  apply andb_true_iff in C as [C _]. apply andb_true_iff in C as [C1 C2]. apply Z.leb_le in C1, C2.
  destruct (tcp_opt_check_total tcp_fuel f hlen 20 W ltac:(lia) ltac:(lia)) as [[v Ev]|(Ev & Hz' & Hl' & _)].
  { unfold tcp_fuel. lia. }
  2:{ right; right; left. exists IndexError. rewrite Ev. cbn [rbind]. repeat split; auto; lia. }
  rewrite Ev. cbn [rbind]. destruct v as [m|]; [left; apply Hdrop|].
  destruct (tcp_sanity_ok f W L) as [[r Es]|[Es Hs']]; rewrite Es; cbn [rbind]; [left; apply Hdrop|].
  rewrite (tcp_fields_ok f plen W L). fold hlen.
  destruct (tcp_options tcp_fuel f hlen 20) as [opts|e] eqn:Eo; cbn [rbind].
  - right; right; right. exists opts. split; [reflexivity|]. split; [reflexivity|].
    unfold tcp_ok. fold hlen. split; [exact Z|]. split; [lia|]. split; [lia|]. exact Hs'.
  - right; right; left. exists e. split; [reflexivity|].
    destruct (tcp_options_exn _ _ hlen 20 _ W ltac:(lia) Ev Eo) as [He Hh]. split; [exact He|].
    split; [lia|]. split; [lia|].
    destruct (Z.ltb_spec (zlen f) (hlen + 9)) as [X|X]; [exact X|].
    destruct (tcp_options_after_check _ f hlen 20 W ltac:(lia) X Ev) as [l E]. congruence.
Qed.

Lemma tcp_no_options_check f : tcp_opt_check tcp_fuel f 20 20 = Ok None.
Proof. reflexivity. Qed.
Lemma tcp_no_options f : tcp_options tcp_fuel f 20 20 = Ok [].
Proof. reflexivity. Qed.

(** an acceptable segment is accepted whenever its options can be read *)
Lemma tcp_accept f plen ps pseudo opts : wf_bytes f -> pshdr_for pseudo ps -> 0 <= plen < 65536 ->
  tcp_ok f plen pseudo ->
  tcp_opt_check tcp_fuel f (byte_at f 12 / 16 * 4) 20 = Ok None ->
  tcp_options tcp_fuel f (byte_at f 12 / 16 * 4) 20 = Ok opts ->
  tcp_parse f plen ps = Ok (inr (tcp_of f plen opts)).
Proof.
  intros W Hp Hl (V & C1 & C2 & Hs) Ec Eo. unfold tcp_parse, run_parser, tcp_integrity, check.
  assert (Ws : wf_bytes (slice 0 plen f)) by (apply wf_slice; auto).
  assert (Hz : zlen (slice 0 plen f) < 2 ^ 32).
  { unfold slice, zlen. rewrite firstn_length. lia. }
  apply (pshdr_cksum_check pseudo ps _ Hp Ws Hz) in V. rewrite V. change (z2b 0) with false. cbv iota.
  assert (L : 20 <= zlen f) by lia.
  destruct (tcp_reads f W L) as (_&_&_&_&E5&_). rewrite E5.
  replace ((20 <=? plen) && (plen <=? zlen f)) with true by lia. cbn [negb rbind].
  replace ((20 <=? byte_at f 12 / 16 * 4) && (byte_at f 12 / 16 * 4 <=? plen) && (plen <=? zlen f)) with true by lia.
  cbn [negb]. rewrite Ec. cbn [rbind].
  destruct (tcp_sanity_ok f W L) as [[r Es]|[Es _]].
  - exfalso. revert Es. unfold tcp_sanity, check.
    destruct (tcp_reads f W L) as (E1&E2&E3&E4&_&_&_&E6&E7&E8).
    destruct (tcp_flags f W L) as (F1&F2&F3&F4&F5&F6&F7&F8&F9).
    rewrite E1, E2, E4, E8, F4, F5, F7, F8, F9. cbn [rbind].
    destruct Hs as (N0 & N2 & Hs).
    destruct (Z.eqb_spec (word_at f 0) 0); [tauto|]. destruct (Z.eqb_spec (word_at f 2) 0); [tauto|].
    revert Hs.
    generalize (bit_at f 13 1) (bit_at f 13 0) (bit_at f 13 2) (bit_at f 13 4) (bit_at f 13 5).
    intros syn fin rst ack urg.
    unfold z2b. destruct (Z.eqb_spec (be (slice 8 12 f)) 0), (Z.eqb_spec (word_at f 18) 0);
      destruct syn, fin, rst, ack, urg; cbn [andb negb rbind]; intuition congruence.
  - rewrite Es. cbn [rbind]. rewrite (tcp_fields_ok f plen W L), Eo. reflexivity.
Qed.

(** ** the same in the words of the specification *)
Lemma word_slices f : 20 <= zlen f ->
  be (slice 0 2 f) = word_at f 0 /\ be (slice 2 4 f) = word_at f 2 /\
  be (slice 14 16 f) = word_at f 14 /\ be (slice 16 18 f) = word_at f 16 /\ be (slice 18 20 f) = word_at f 18.
Proof. intros L. take_bytes L. readf. rewrite !be2. repeat split; reflexivity. Qed.

Lemma tcp_ok_spec f plen pseudo : tcp_ok f plen pseudo <-> tcp_acceptable f plen pseudo.
Proof.
  unfold tcp_ok, tcp_acceptable, byte_at. split.
  - intros (V & C1 & C2 & H). destruct (word_slices f ltac:(lia)) as (R1 & R2 & _ & _ & R3). rewrite R1, R2, R3. auto.
  - intros (V & C1 & C2 & H). destruct (word_slices f ltac:(lia)) as (R1 & R2 & _ & _ & R3). rewrite R1, R2, R3 in H. auto.
Qed.

Lemma tcp_short_raises f plen ps : zlen f < 13 -> tcp_parse f plen ps = Exn IndexError.
Proof.
  intros L. unfold tcp_parse, run_parser, tcp_integrity, check.
  assert (H : tcp_hlen f = Exn IndexError) by (unfold tcp_hlen, u8; rewrite index_exn by lia; reflexivity).
  destruct (z2b _); cbn [rbind]; [rewrite H; reflexivity|].
  replace ((20 <=? plen) && (plen <=? zlen f)) with false by lia. cbn [negb rbind]. rewrite H. reflexivity.
Qed.

Lemma tcp_no_raise f plen ps pseudo : wf_bytes f -> pshdr_for pseudo ps -> 0 <= plen < 65536 ->
  13 <= zlen f ->
  nth 12 f 0 / 16 * 4 <= 20 \/ nth 12 f 0 / 16 * 4 + 9 <= zlen f ->
  exists r, tcp_parse f plen ps = Ok r.
Proof.
  intros W Hp Hl L H.
  destruct (tcp_parse_cases f plen ps pseudo W Hp Hl)
    as [(r & E & _)|[(E & G)|[(e & E & _ & G1 & G2 & G3)|(o & E & _)]]]; eauto; unfold byte_at in *; lia.
Qed.

Lemma tcp_exn_kind f plen ps pseudo e : wf_bytes f -> pshdr_for pseudo ps -> 0 <= plen < 65536 ->
  tcp_parse f plen ps = Exn e -> e = IndexError \/ e = StructError.
Proof.
  intros W Hp Hl X.
  destruct (tcp_parse_cases f plen ps pseudo W Hp Hl)
    as [(r & E & _)|[(E & G)|[(e' & E & K & _)|(o & E & _)]]]; rewrite E in X; try discriminate.
  - left. congruence.
  - assert (e' = e) as <- by congruence. exact K.
Qed.

Lemma tcp_accept_sound f plen ps pseudo p : wf_bytes f -> pshdr_for pseudo ps -> 0 <= plen < 65536 ->
  tcp_parse f plen ps = Ok (inr p) ->
  tcp_acceptable f plen pseudo /\
  s_sport p = be (slice 0 2 f) /\ s_dport p = be (slice 2 4 f) /\ s_seq p = be (slice 4 8 f) /\
  s_ack p = be (slice 8 12 f) /\ s_hlen p = nth 12 f 0 / 16 * 4 /\
  s_fns p = bit_at f 12 0 /\ s_fcrw p = bit_at f 13 7 /\ s_fece p = bit_at f 13 6 /\
  s_furg p = bit_at f 13 5 /\ s_fack p = bit_at f 13 4 /\ s_fpsh p = bit_at f 13 3 /\
  s_frst p = bit_at f 13 2 /\ s_fsyn p = bit_at f 13 1 /\ s_ffin p = bit_at f 13 0 /\
  s_win p = be (slice 14 16 f) /\ s_cksum p = be (slice 16 18 f) /\ s_urg p = be (slice 18 20 f) /\
  s_data p = slice (nth 12 f 0 / 16 * 4) plen f.
Proof.
  intros W Hp Hl X.
  destruct (tcp_parse_cases f plen ps pseudo W Hp Hl)
    as [(r & E & _)|[(E & G)|[(e' & E & K & _)|(o & E & _ & G)]]]; rewrite E in X; try discriminate.
  assert (p = tcp_of f plen o) as -> by congruence.
  assert (L : 20 <= zlen f) by (destruct G as (_ & G1 & G2 & _); lia).
  destruct (word_slices f L) as (R1 & R2 & R3 & R4 & R5).
  split; [apply tcp_ok_spec; auto|]. rewrite R1, R2, R3, R4, R5. repeat split; reflexivity.
Qed.

Lemma tcp_accept_iff f plen ps pseudo : wf_bytes f -> pshdr_for pseudo ps -> 0 <= plen < 65536 ->
  nth 12 f 0 / 16 = 5 ->
  ((exists p, tcp_parse f plen ps = Ok (inr p)) <-> tcp_acceptable f plen pseudo).
Proof.
  intros W Hp Hl H5. split.
  - intros [p E]. eapply tcp_accept_sound; eauto.
  - intros G. apply tcp_ok_spec in G. exists (tcp_of f plen []).
    apply (tcp_accept f plen ps pseudo []); auto; unfold byte_at; rewrite H5; [apply tcp_no_options_check|apply tcp_no_options].
Qed.
