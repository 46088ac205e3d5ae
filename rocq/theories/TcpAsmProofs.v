(** Proofs about the TCP assembler and its agreement with the parser. *)
From Verif Require Import BaseLemmas BitLemmas CodecModel CksumModel AddrModel AddrProofs
  SpecCksum CksumProofs SpecWire Ip4Model Ip4Proofs Ip6Model Ip6Proofs EtherProofs CodecLemmas PshdrLemmas
  UdpIpProofs TcpModel TcpProofs.

(** the bytes of an option, and what its receiver should see *)
Definition topt_wire (o : tcp_topt) : bytes :=
  match o with
  | TOEol => tcp_eol_wire | TONop => tcp_nop_wire | TOMss m => tcp_mss_wire m | TOWscale w => tcp_wscale_wire w
  | TOSackPerm => tcp_sackperm_wire | TOTimestamp a b => tcp_timestamp_wire a b
  end.
Definition topts_wire (l : list tcp_topt) : bytes := concat (map topt_wire l).
Definition topt_seen (o : tcp_topt) : tcp_opt :=
  match o with
  | TOEol => OEol | TONop => ONop | TOMss m => OMss m | TOWscale w => OWscale w
  | TOSackPerm => OSackPerm | TOTimestamp a b => OTimestamp a b
  end.
(** a receiver stops at the first end-of-list option *)
Fixpoint topts_seen (l : list tcp_topt) : list tcp_opt :=
  match l with
  | [] => []
  | TOEol :: _ => [OEol]
  | o :: r => topt_seen o :: topts_seen r
  end.

Lemma topt_wire_len o : zlen (topt_wire o) = tcp_topt_len o.
Proof. destruct o; reflexivity. Qed.
Lemma topts_wire_len l : zlen (topts_wire l) = fold_right Z.add 0 (map tcp_topt_len l).
Proof.
  induction l as [|o l IH]; [reflexivity|]. unfold topts_wire in *. cbn [map concat fold_right].
  rewrite zlen_app, IH, topt_wire_len. reflexivity.
Qed.
Lemma topts_wire_count l : Z.of_nat (length l) <= zlen (topts_wire l).
Proof.
  rewrite topts_wire_len. induction l as [|o l IH]; [reflexivity|]. cbn [length map fold_right].
  assert (1 <= tcp_topt_len o) by (destruct o; cbn; lia). lia.
Qed.
Lemma topt_wire_wf o : tcp_topt_ok o = true -> wf_bytes (topt_wire o).
Proof.
  destruct o; cbn [topt_wire tcp_topt_ok]; intros H;
  unfold tcp_eol_wire, tcp_nop_wire, tcp_mss_wire, tcp_wscale_wire, tcp_sackperm_wire, tcp_timestamp_wire;
  rewrite ?wf_app; repeat match goal with |- _ /\ _ => split end; try apply be_enc_wf;
  repeat (apply wf_cons; [unfold is_byte; lia|]); apply wf_nil.
Qed.
Lemma topts_wire_wf l : forallb tcp_topt_ok l = true -> wf_bytes (topts_wire l).
Proof.
  induction l as [|o l IH]; cbn [forallb]; intros H; [apply wf_nil|].
  apply andb_true_iff in H as [H1 H2]. unfold topts_wire in *. cbn [map concat].
  apply wf_app; split; [apply topt_wire_wf|]; auto.
Qed.

Lemma tcp_topt_bytes_ok o : tcp_topt_ok o = true -> tcp_topt_bytes o = Ok (topt_wire o).
Proof.
  destruct o; cbn [tcp_topt_ok tcp_topt_bytes topt_wire]; intros H; try reflexivity;
  unfold tcp_mss_wire, tcp_wscale_wire, tcp_timestamp_wire; cbn [app].
  - packs. rewrite <- (app_nil_r (be_enc 2 mss)). packs.
  - packs.
  - packs. rewrite <- (app_nil_r (be_enc 4 tsecr)). packs.
Qed.
Lemma tcp_raw_options_ok l : forallb tcp_topt_ok l = true -> tcp_raw_options l = Ok (topts_wire l).
Proof.
  induction l as [|o l IH]; cbn [forallb tcp_raw_options]; intros H; [reflexivity|].
  apply andb_true_iff in H as [H1 H2]. rewrite tcp_topt_bytes_ok, IH by auto. reflexivity.
Qed.

(** ** what the parser makes of an option area *)
Lemma tcp_opt_read_wire o rest : tcp_topt_ok o = true -> o <> TOEol -> o <> TONop ->
  tcp_opt_read (topt_wire o ++ rest) = Ok (topt_seen o).
Proof.
  destruct o; intros H N1 N2; try congruence; cbn [topt_wire topt_seen tcp_topt_ok] in *;
  unfold tcp_mss_wire, tcp_wscale_wire, tcp_sackperm_wire, tcp_timestamp_wire, tcp_opt_read;
  pose proof (zlen_nonneg rest).
  - explode 2%nat mss. cbn [app]. rewrite unpack_from_ok by (rewrite !zlen_cons; lia). readf. rewrite B. reflexivity.
  - cbn [app]. readf. reflexivity.
  - cbn [app]. readf. reflexivity.
  - explode 4%nat tsval. explode 4%nat tsecr. cbn [app].
    rewrite !unpack_from_ok by (rewrite !zlen_cons; lia). readf. rewrite B, B0. reflexivity.
Qed.

Lemma topt_head o : exists k t, topt_wire o = k :: t /\
  (o = TOEol /\ k = 0 \/ o = TONop /\ k = 1 /\ t = [] \/
   o <> TOEol /\ o <> TONop /\ 2 <= k /\ exists t', t = tcp_topt_len o :: t').
Proof.
  destruct o; cbn; do 2 eexists; split; try reflexivity; auto; right; right; repeat split; try congruence; try lia;
  eexists; reflexivity.
Qed.

Lemma app_cons_assoc {A} (p : list A) k x : p ++ k :: x = (p ++ [k]) ++ x.
Proof. rewrite <- app_assoc. reflexivity. Qed.

Lemma tcp_opts_walk l : forall fuel p rest optr,
  forallb tcp_topt_ok l = true -> optr = zlen p -> (length l < fuel)%nat ->
  tcp_opt_check fuel (p ++ topts_wire l ++ rest) (optr + zlen (topts_wire l)) optr = Ok None /\
  tcp_options fuel (p ++ topts_wire l ++ rest) (optr + zlen (topts_wire l)) optr = Ok (topts_seen l).
Proof.
  induction l as [|o l IH]; intros [|fuel] p rest optr Hok Hp Hf; try (cbn in Hf; lia).
  - cbn [tcp_opt_check tcp_options topts_wire map concat]. rewrite zlen_nil, Z.add_0_r, Z.ltb_irrefl. auto.
  - cbn [forallb] in Hok. apply andb_true_iff in Hok as [Ho Hok].
    cbn [tcp_opt_check tcp_options]. unfold topts_wire. cbn [map concat]. fold (topts_wire l).
    rewrite zlen_app, topt_wire_len. pose proof (zlen_nonneg (topts_wire l)).
    assert (Hpos : 1 <= tcp_topt_len o) by (destruct o; cbn; lia).
    replace (optr <? optr + (tcp_topt_len o + zlen (topts_wire l))) with true by lia.
    rewrite <- (app_assoc (topt_wire o)).
    destruct (IH fuel (p ++ topt_wire o) rest (optr + tcp_topt_len o) Hok) as [I1 I2].
    { rewrite zlen_app, topt_wire_len. lia. }
    { cbn in Hf. lia. }
    rewrite <- !app_assoc, <- !Z.add_assoc in I1, I2.
    pose proof (tcp_opt_read_wire o (topts_wire l ++ rest) Ho) as Er.
    assert (Es : slice_from optr (p ++ topt_wire o ++ topts_wire l ++ rest) = topt_wire o ++ topts_wire l ++ rest)
      by (apply slice_from_exact; auto).
    rewrite Es. clear Es.
    destruct (topt_head o) as (k & t & Ek & C). unfold u8.
    rewrite Ek in *. cbn [app] in *. rewrite index_mid by auto. cbn [rbind].
    destruct C as [[-> ->]|[(-> & -> & ->)|(N1 & N2 & Hk & t' & ->)]].
    + auto.
    + cbn [Z.eqb Pos.eqb]. unfold check. cbn [tcp_topt_len] in *.
      replace (optr + (1 + zlen (topts_wire l)) <? optr + 1) with false by lia.
      rewrite I1, I2. auto.
    + replace (k =? 0) with false by lia. replace (k =? 1) with false by lia. unfold check.
      replace (optr + (tcp_topt_len o + zlen (topts_wire l)) <? optr + 1) with false by lia.
      cbn [app] in *. rewrite (app_cons_assoc p k).
      rewrite index_mid by (rewrite zlen_app, zlen_cons, zlen_nil; lia). rewrite <- app_cons_assoc. cbn [rbind].
      replace (tcp_topt_len o =? 0) with false by lia.
      replace (optr + (tcp_topt_len o + zlen (topts_wire l)) <? optr + tcp_topt_len o) with false by lia.
      rewrite Er, I1, I2 by auto. cbn [rbind topts_seen]. destruct o; try congruence; auto.
Qed.

(** ** the segment *)
Definition tcp_tx_flags (t : tcp_tx) : Z :=
  tcp_flags_word (x_fns t) (x_fcrw t) (x_fece t) (x_furg t) (x_fack t) (x_fpsh t) (x_frst t) (x_fsyn t) (x_ffin t).
Definition tcp_tx_wire (t : tcp_tx) (ck : Z) : bytes :=
  tcp_wire (x_sport t) (x_dport t) (x_seq t) (x_ack t) (tcp_tx_flags t) (x_win t) ck (x_urp t)
    (topts_wire (x_opts t)) (x_data t).

Lemma tcp_tx_ok_inv t : tcp_tx_ok t = true ->
  0 <= x_sport t < 65536 /\ 0 <= x_dport t < 65536 /\ 0 <= x_seq t < 2 ^ 32 /\ 0 <= x_ack t < 2 ^ 32 /\
  0 <= x_win t < 65536 /\ 0 <= x_urp t < 65536 /\ forallb tcp_topt_ok (x_opts t) = true /\ x_hlen t mod 4 = 0.
Proof. unfold tcp_tx_ok. rewrite !andb_true_iff. intros. repeat split; try tauto; lia. Qed.

Lemma x_hlen_eq t : x_hlen t = 20 + zlen (topts_wire (x_opts t)).
Proof. unfold x_hlen. rewrite topts_wire_len. reflexivity. Qed.

Lemma tcp_tx_wire_len t ck : zlen (tcp_tx_wire t ck) = x_len t.
Proof.
  unfold tcp_tx_wire, tcp_wire, x_len. rewrite !zlen_app, !be_enc_zlen, x_hlen_eq. lia.
Qed.
Lemma tcp_tx_wire_wf t ck : tcp_tx_ok t = true -> wf_bytes (x_data t) -> wf_bytes (tcp_tx_wire t ck).
Proof.
  intros H W. apply tcp_tx_ok_inv in H. unfold tcp_tx_wire, tcp_wire.
  rewrite !wf_app. repeat match goal with |- _ /\ _ => split end; try apply be_enc_wf; auto.
  apply topts_wire_wf. tauto.
Qed.

Lemma be_enc2 v : be_enc 2 v = [v / 256 mod 256; v mod 256].
Proof. reflexivity. Qed.

Lemma tcp_off_byte t : tcp_tx_ok t = true -> x_hlen t <= 60 ->
  Z.lor (Z.shiftl (x_hlen t) 2) (b2z (x_fns t)) = x_hlen t / 4 * 16 + b2z (x_fns t) /\ 20 <= x_hlen t.
Proof.
  intros H L. apply tcp_tx_ok_inv in H as (_&_&_&_&_&_&_&H).
  assert (20 <= x_hlen t) by (rewrite x_hlen_eq; pose proof (zlen_nonneg (topts_wire (x_opts t))); lia).
  split; [|auto]. rewrite Z.shiftl_mul_pow2 by lia.
  replace (x_hlen t * 2 ^ 2) with (x_hlen t / 4 * 2 ^ 4) by lia.
  rewrite lor_shift by (destruct (x_fns t); cbn; lia). lia.
Qed.
Lemma tcp_flag_byte (a b c d e f g h : bool) :
  Z.lor (Z.lor (Z.lor (Z.lor (Z.lor (Z.lor (Z.lor (Z.shiftl (b2z a) 7)
              (Z.shiftl (b2z b) 6)) (Z.shiftl (b2z c) 5))
              (Z.shiftl (b2z d) 4)) (Z.shiftl (b2z e) 3))
              (Z.shiftl (b2z f) 2)) (Z.shiftl (b2z g) 1)) (b2z h)
  = b2z a * 128 + b2z b * 64 + b2z c * 32 + b2z d * 16 + b2z e * 8 + b2z f * 4 + b2z g * 2 + b2z h.
Proof. destruct a, b, c, d, e, f, g, h; reflexivity. Qed.

Lemma b2z_range b : 0 <= b2z b <= 1. Proof. destruct b; cbn; lia. Qed.

Lemma tcp_asm_to t ps : tcp_tx_ok t = true -> x_hlen t <= 60 ->
  asm_to (tcp_carried t) (fun ps => tcp_tx_wire t (inet_cksum (tcp_tx_wire t 0) ps)) ps.
Proof.
  intros K L. split; [apply tcp_tx_wire_len|]. intros buf Lb. cbn [tcp_carried c_len c_asm] in *.
  unfold tcp_asm, assert_. rewrite K. pose proof (tcp_tx_ok_inv t K) as (H1&H2&H3&H4&H5&H6&H7&H8).
  rewrite tcp_raw_options_ok by auto. cbn [rbind].
  destruct (tcp_off_byte t K L) as [Ho L20]. rewrite Ho, tcp_flag_byte.
  pose proof (b2z_range (x_fns t)). pose proof (b2z_range (x_fcrw t)). pose proof (b2z_range (x_fece t)).
  pose proof (b2z_range (x_furg t)). pose proof (b2z_range (x_fack t)). pose proof (b2z_range (x_fpsh t)).
  pose proof (b2z_range (x_frst t)). pose proof (b2z_range (x_fsyn t)). pose proof (b2z_range (x_ffin t)).
  set (lo := b2z (x_fcrw t) * 128 + _ + _ + _ + _ + _ + _ + _).
  assert (Hlo : 0 <= lo < 256) by lia.
  assert (Ew : forall c, tcp_tx_wire t c =
    (be_enc 2 (x_sport t) ++ be_enc 2 (x_dport t) ++ be_enc 4 (x_seq t) ++ be_enc 4 (x_ack t)
     ++ [x_hlen t / 4 * 16 + b2z (x_fns t); lo] ++ be_enc 2 (x_win t)) ++ be_enc 2 c ++
     (be_enc 2 (x_urp t) ++ topts_wire (x_opts t) ++ x_data t)).
  { intros c. unfold tcp_tx_wire, tcp_wire. rewrite <- x_hlen_eq.
    assert (be_enc 2 (x_hlen t / 4 * 4096 + tcp_tx_flags t) = [x_hlen t / 4 * 16 + b2z (x_fns t); lo]) as ->.
    { rewrite be_enc2. unfold tcp_tx_flags, tcp_flags_word.
      replace (x_hlen t / 4 * 4096 + _) with ((x_hlen t / 4 * 16 + b2z (x_fns t)) * 256 + lo) by (unfold lo; lia).
      clearbody lo. f_equal; [|f_equal]; lia. }
    rewrite <- !app_assoc. reflexivity. }
  rewrite (pack_into_full buf _ (tcp_tx_wire t 0)).
  - cbn [rbind]. set (ck := inet_cksum _ ps). assert (Hc : 0 <= ck < 65536) by apply ip4_cksum_bound.
    rewrite !Ew. rewrite pack_into_mid; auto.
  - rewrite Ew. rewrite <- !app_assoc. clearbody lo. cbn [app]. packs.
  - rewrite tcp_tx_wire_len. lia.
Qed.

(** what the parser reads off the wire image *)
Definition tcp_seen (t : tcp_tx) (ck : Z) : tcp :=
  {| s_sport := x_sport t; s_dport := x_dport t; s_seq := x_seq t; s_ack := x_ack t; s_hlen := x_hlen t;
     s_fns := x_fns t; s_fcrw := x_fcrw t; s_fece := x_fece t; s_furg := x_furg t; s_fack := x_fack t;
     s_fpsh := x_fpsh t; s_frst := x_frst t; s_fsyn := x_fsyn t; s_ffin := x_ffin t;
     s_win := x_win t; s_cksum := ck; s_urg := x_urp t; s_opts := topts_seen (x_opts t); s_data := x_data t |}.

Lemma tcp_of_wire t ck pad : tcp_tx_ok t = true -> x_hlen t <= 60 -> 0 <= ck < 65536 ->
  tcp_of (tcp_tx_wire t ck ++ pad) (x_len t) (topts_seen (x_opts t)) = tcp_seen t ck /\
  byte_at (tcp_tx_wire t ck ++ pad) 12 / 16 * 4 = x_hlen t.
Proof.
  intros K L Hc. pose proof (tcp_tx_ok_inv t K) as (H1&H2&H3&H4&H5&H6&H7&H8).
  destruct (tcp_off_byte t K L) as [_ L20].
  assert (Hx : x_hlen t = 20 + zlen (topts_wire (x_opts t))) by apply x_hlen_eq.
  unfold tcp_tx_wire, tcp_wire. rewrite <- Hx.
  set (hi := x_hlen t / 4 * 4096 + tcp_tx_flags t).
  assert (Hf : 0 <= tcp_tx_flags t < 512).
  { unfold tcp_tx_flags, tcp_flags_word.
    destruct (x_fns t), (x_fcrw t), (x_fece t), (x_furg t), (x_fack t), (x_fpsh t), (x_frst t), (x_fsyn t), (x_ffin t);
    vm_compute; split; congruence. }
  assert (Hhi : 0 <= hi < 65536) by lia.
  assert (Hhi' : hi / 4096 = x_hlen t / 4) by lia.
  assert (Hh4 : x_hlen t / 4 * 4 = x_hlen t) by lia.
  assert (Hbits : forall k, 0 <= k < 9 -> hi / 2 ^ k mod 2 = tcp_tx_flags t / 2 ^ k mod 2).
  { intros k Hk. unfold hi. replace (x_hlen t / 4 * 4096) with (x_hlen t / 4 * 2 ^ (11 - k) * 2 * 2 ^ k).
    - rewrite Z.add_comm, Z.div_add by lia. rewrite Z.mod_add by lia. reflexivity.
    - rewrite <- !Z.mul_assoc. f_equal. change 4096 with (2 ^ 12). rewrite <- Z.pow_succ_r by lia.
      rewrite <- Z.pow_add_r by lia. f_equal. lia. }
  assert (Hfl : forall g, (g = x_fns t /\ (tcp_tx_flags t / 2 ^ 8 mod 2 =? 1) = g) \/ g <> x_fns t).
  { intros g. destruct (bool_dec g (x_fns t)) as [->|]; [left; split; [reflexivity|]|right; auto].
    unfold tcp_tx_flags, tcp_flags_word.
    destruct (x_fns t), (x_fcrw t), (x_fece t), (x_furg t), (x_fack t), (x_fpsh t), (x_frst t), (x_fsyn t), (x_ffin t);
    vm_compute; reflexivity. }
  assert (Hall : (tcp_tx_flags t / 2 ^ 8 mod 2 =? 1) = x_fns t /\ (tcp_tx_flags t / 2 ^ 7 mod 2 =? 1) = x_fcrw t /\
     (tcp_tx_flags t / 2 ^ 6 mod 2 =? 1) = x_fece t /\ (tcp_tx_flags t / 2 ^ 5 mod 2 =? 1) = x_furg t /\
     (tcp_tx_flags t / 2 ^ 4 mod 2 =? 1) = x_fack t /\ (tcp_tx_flags t / 2 ^ 3 mod 2 =? 1) = x_fpsh t /\
     (tcp_tx_flags t / 2 ^ 2 mod 2 =? 1) = x_frst t /\ (tcp_tx_flags t / 2 ^ 1 mod 2 =? 1) = x_fsyn t /\
     (tcp_tx_flags t / 2 ^ 0 mod 2 =? 1) = x_ffin t).
  { unfold tcp_tx_flags, tcp_flags_word.
    destruct (x_fns t), (x_fcrw t), (x_fece t), (x_furg t), (x_fack t), (x_fpsh t), (x_frst t), (x_fsyn t), (x_ffin t);
    vm_compute; repeat split; reflexivity. }
  clear Hfl. rewrite <- !Hbits in Hall by lia. destruct Hall as (A8&A7&A6&A5&A4&A3&A2&A1&A0).
  clearbody hi.
  set (rest := topts_wire (x_opts t) ++ x_data t).
  explode 2%nat (x_sport t). explode 2%nat (x_dport t). explode 4%nat (x_seq t). explode 4%nat (x_ack t).
  explode 2%nat hi. explode 2%nat (x_win t). explode 2%nat ck. explode 2%nat (x_urp t).
  rewrite be2 in B3. wf_split W3.
  match type of B3 with ?a * 256 + ?b = _ => assert (Hq1 : is_byte a) by auto; assert (Hq0 : is_byte b) by auto;
    set (h1 := a) in *; set (h0 := b) in * end.
  unfold is_byte in Hq1, Hq0.
  assert (E12 : h1 / 16 = x_hlen t / 4) by (rewrite <- Hhi', <- B3; clear - Hq0 Hq1; lia).
  assert (EB : forall k, 0 <= k < 8 -> h0 / 2 ^ k mod 2 = hi / 2 ^ k mod 2).
  { intros k Hk. rewrite <- B3. replace (h1 * 256) with (h1 * 2 ^ (7 - k) * 2 * 2 ^ k).
    - rewrite (Z.add_comm _ h0), Z.div_add by lia. rewrite Z.mod_add by lia. reflexivity.
    - rewrite <- !Z.mul_assoc. f_equal. change 256 with (2 ^ 8). rewrite <- Z.pow_succ_r by lia.
      rewrite <- Z.pow_add_r by lia. f_equal. lia. }
  assert (EB8 : h1 / 2 ^ 0 mod 2 = hi / 2 ^ 8 mod 2).
  { rewrite <- B3. change (2 ^ 0) with 1. change (2 ^ 8) with 256. f_equal.
    rewrite Z.div_1_r, Z.div_add_l, (Z.div_small h0) by (clear - Hq0; lia). ring. }
  cbn [app]. unfold tcp_of, tcp_seen, bit_at.
  match goal with |- context [byte_at ?l 12] =>
    change (byte_at l 12) with h1; change (nth 12 l 0) with h1; change (nth 13 l 0) with h0 end.
  rewrite E12, Hh4. split; [|reflexivity].
  rewrite !EB, !EB8 by lia.
  match goal with |- context [slice (x_hlen t) (x_len t) ?l] =>
    assert (Ed : slice (x_hlen t) (x_len t) l = x_data t) end.
  { unfold rest, x_len. rewrite Hx.
    match goal with |- slice _ _ ?l = _ =>
      match l with context c [rest] => idtac | _ => idtac end end.
    match goal with |- slice ?a ?b (?x0::?x1::?x2::?x3::?x4::?x5::?x6::?x7::?x8::?x9::?x10::?x11::?x12::?x13::?x14::?x15::?x16::?x17::?x18::?x19::?r) = _ =>
      change (x0::x1::x2::x3::x4::x5::x6::x7::x8::x9::x10::x11::x12::x13::x14::x15::x16::x17::x18::x19::r)
        with ([x0;x1;x2;x3;x4;x5;x6;x7;x8;x9;x10;x11;x12;x13;x14;x15;x16;x17;x18;x19] ++ r) end.
    rewrite <- (app_assoc (topts_wire (x_opts t))).
    rewrite (app_assoc _ (topts_wire (x_opts t))).
    rewrite slice_app_shift.
    - rewrite zlen_app. match goal with |- context [zlen [?a;?b;?c;?d;?e;?f;?g;?h;?i;?j;?k;?l;?m;?n;?o;?p;?q;?r;?s;?u]] =>
        change (zlen [a;b;c;d;e;f;g;h;i;j;k;l;m;n;o;p;q;r;s;u]) with 20 end.
      rewrite Z.sub_diag. replace (20 + _ + _ - _) with (zlen (x_data t)) by lia. apply slice_0_exact. reflexivity.
    - rewrite zlen_app. reflexivity. }
  rewrite Ed. clear Ed. readf. unfold word_at, byte_at. cbn [nth].
  rewrite !be2 in *. rewrite B1, B2. rewrite A8, A7, A6, A5, A4, A3, A2, A1, A0.
  rewrite B, B0, B4, B5, B6. reflexivity.
Qed.

(** segments a correct sender builds: what the parser's sanity checks require *)
Definition tcp_tx_sane (t : tcp_tx) : Prop :=
  tcp_tx_ok t = true /\ wf_bytes (x_data t) /\ x_hlen t <= 60 /\ x_len t < 65536 /\
  x_sport t <> 0 /\ x_dport t <> 0 /\
  ~ (x_fsyn t = true /\ x_ffin t = true) /\ ~ (x_fsyn t = true /\ x_frst t = true) /\
  ~ (x_ffin t = true /\ x_frst t = true) /\ ~ (x_ffin t = true /\ x_fack t = false) /\
  ~ (x_ack t <> 0 /\ x_fack t = false) /\ ~ (x_urp t <> 0 /\ x_furg t = false).

Lemma tcp_parse_wire t ck pad ps pseudo :
  tcp_tx_sane t -> wf_bytes pad -> 0 <= ck < 65536 -> pshdr_for pseudo ps ->
  rfc1071_verifies (pseudo ++ tcp_tx_wire t ck) 0 ->
  tcp_parse (tcp_tx_wire t ck ++ pad) (x_len t) ps = Ok (inr (tcp_seen t ck)).
Proof.
  intros (K & Wd & L & Ll & S) Wp Hc Hp V.
  destruct (tcp_of_wire t ck pad K L Hc) as [F Fh].
  pose proof (tcp_tx_ok_inv t K) as (H1&H2&H3&H4&H5&H6&H7&H8).
  destruct (tcp_off_byte t K L) as [_ L20].
  pose proof (tcp_tx_wire_len t ck) as Lw. pose proof (zlen_nonneg (x_data t)). pose proof (zlen_nonneg pad).
  assert (Hx : x_hlen t = 20 + zlen (topts_wire (x_opts t))) by apply x_hlen_eq.
  destruct (tcp_opts_walk (x_opts t) tcp_fuel (firstn 20 (tcp_tx_wire t ck)) (x_data t ++ pad) 20 H7) as [Oc Oo].
  { assert (20 <= zlen (tcp_tx_wire t ck)) by (rewrite Lw; unfold x_len; lia).
    unfold zlen in *. rewrite firstn_length. lia. }
  { pose proof (topts_wire_count (x_opts t)). unfold tcp_fuel. lia. }
  assert (Es : firstn 20 (tcp_tx_wire t ck) ++ topts_wire (x_opts t) ++ x_data t ++ pad = tcp_tx_wire t ck ++ pad).
  { rewrite !app_assoc. reflexivity. }
  rewrite Es, <- Hx in Oc, Oo. rewrite <- F.
  rewrite <- Fh in Oc, Oo.
  apply (tcp_accept _ _ ps pseudo); auto.
  - apply wf_app; split; [apply tcp_tx_wire_wf|]; auto.
  - unfold x_len in *. lia.
  - unfold tcp_ok. rewrite (slice_0_exact (tcp_tx_wire t ck)) by auto. split; [exact V|].
    rewrite Fh, zlen_app, Lw. split; [unfold x_len in *; lia|]. split; [lia|].
    pose proof (f_equal s_sport F) as G1. pose proof (f_equal s_dport F) as G2. pose proof (f_equal s_fsyn F) as G3.
    pose proof (f_equal s_ffin F) as G4. pose proof (f_equal s_frst F) as G5. pose proof (f_equal s_fack F) as G6.
    pose proof (f_equal s_ack F) as G7. pose proof (f_equal s_urg F) as G8. pose proof (f_equal s_furg F) as G9.
    cbn [tcp_of tcp_seen s_sport s_dport s_fsyn s_ffin s_frst s_fack s_ack s_urg s_furg] in *.
    rewrite G1, G2, G3, G4, G5, G6, G7, G8, G9. exact S.
Qed.

Lemma tcp_round_trip t pad buf ps pseudo :
  tcp_tx_sane t -> wf_bytes pad -> pshdr_for pseudo ps -> zlen buf = x_len t ->
  cksum_lucky pseudo (tcp_tx_wire t 0) ->
  let ck := rfc1071 (pseudo ++ tcp_tx_wire t 0) 0 in
  tcp_asm t buf ps = Ok (tcp_tx_wire t ck) /\
  rfc1071_verifies (pseudo ++ tcp_tx_wire t ck) 0 /\
  tcp_parse (tcp_tx_wire t ck ++ pad) (x_len t) ps = Ok (inr (tcp_seen t ck)).
Proof.
  intros S Wp Hp Lb Hk ck. pose proof S as (K & Wd & L & Ll & _).
  destruct (tcp_asm_to t ps K L) as [_ A]. cbn [tcp_carried c_len c_asm] in A.
  assert (W0 : wf_bytes (tcp_tx_wire t 0)) by (apply tcp_tx_wire_wf; auto).
  assert (L0 : zlen (tcp_tx_wire t 0) < 2 ^ 32) by (rewrite tcp_tx_wire_len; lia).
  pose proof (lucky_cksum pseudo ps _ Hp W0 L0 Hk) as Ec. fold ck in Ec. rewrite Ec in A.
  assert (Hc : 0 <= ck < 65536) by (rewrite <- Ec; apply ip4_cksum_bound).
  assert (V : rfc1071_verifies (pseudo ++ tcp_tx_wire t ck) 0).
  { set (a := be_enc 2 (x_sport t) ++ be_enc 2 (x_dport t) ++ be_enc 4 (x_seq t) ++ be_enc 4 (x_ack t)
      ++ be_enc 2 ((20 + zlen (topts_wire (x_opts t))) / 4 * 4096 + tcp_tx_flags t) ++ be_enc 2 (x_win t)).
    set (b := be_enc 2 (x_urp t) ++ topts_wire (x_opts t) ++ x_data t).
    assert (Ew : forall c, tcp_tx_wire t c = a ++ be_enc 2 c ++ b).
    { intros c. unfold tcp_tx_wire, tcp_wire, a, b. rewrite <- !app_assoc. reflexivity. }
    rewrite Ew. unfold ck. rewrite Ew. change (be_enc 2 0) with [0; 0].
    apply (fill_verifies pseudo ps a b 8); auto.
    - unfold a. rewrite !wf_app. auto 10 using be_enc_wf.
    - unfold b. rewrite !wf_app. pose proof (tcp_tx_ok_inv t K) as (H1&H2&H3&H4&H5&H6&H7&H8).
      repeat split; auto using be_enc_wf, topts_wire_wf. }
  split; [apply A; auto|]. split; [exact V|]. apply (tcp_parse_wire t ck pad ps pseudo); auto.
Qed.

Lemma tcp_over_ip4 h t pad buf ps0 :
  ip4_tx_sane h -> t4_proto h = 6 -> tcp_tx_sane t -> wf_bytes pad ->
  let plen := 20 + zlen (t4_opts h) + x_len t in plen < 65536 ->
  t4_opts h = [] \/ rfc1071 (hdr_of h plen 0) 0 <> 65534 ->
  cksum_lucky (ip4_pseudo (t4_src h) (t4_dst h) 6 (x_len t)) (tcp_tx_wire t 0) ->
  zlen buf = plen ->
  exists w p ps ck, ip4_asm h (tcp_carried t) buf ps0 = Ok w /\
    ip4_parse (w ++ pad) = Ok (inr p) /\ i4_src p = t4_src h /\ i4_dst p = t4_dst h /\ i4_proto p = 6 /\
    i4_pshdr_sum p = Ok ps /\ tcp_parse (i4_rest p) (i4_dlen p) ps = Ok (inr (tcp_seen t ck)).
Proof.
  intros S Hpr St Wp plen Hp Hc Hk Lb.
  pose proof S as ((_ & As & Ad & _) & _). pose proof St as (K & Wd & L & Ll & _).
  destruct (tcp_off_byte t K L) as [_ L20]. pose proof (zlen_nonneg (x_data t)).
  pose proof (pshdr4_for (t4_src h) (t4_dst h) 6 (x_len t) As Ad ltac:(lia) ltac:(unfold x_len in *; lia)) as Hps.
  set (ps := word_sum 4 3 _) in Hps.
  set (ck := rfc1071 (ip4_pseudo (t4_src h) (t4_dst h) 6 (x_len t) ++ tcp_tx_wire t 0) 0).
  set (pl := tcp_tx_wire t ck).
  assert (Lpl : zlen pl = x_len t) by (unfold pl; apply tcp_tx_wire_len).
  assert (Wl : wf_bytes pl) by (unfold pl; apply tcp_tx_wire_wf; auto).
  assert (Ha : forall b, zlen b = x_len t -> tcp_asm t b ps = Ok pl).
  { intros b Lbb. destruct (tcp_round_trip t pad b ps _ St Wp Hps Lbb Hk) as (E & _). exact E. }
  destruct (tcp_round_trip t pad (repeat 0 (Z.to_nat (x_len t))) ps _ St Wp Hps
    ltac:(rewrite zlen_zeros; unfold x_len in *; lia) Hk) as (_ & _ & E).
  fold ck in E. fold pl in E. clearbody pl. subst ps. unfold plen in *.
  destruct (over_ip4 h (tcp_carried t) pl pad buf ps0 S Wl Wp Lpl) as (fr & p & A & P & B1 & B2 & B3 & B4 & B5 & B6);
    [rewrite Lpl, Hpr; exact Ha|rewrite Lpl; exact Hp|rewrite Lpl; exact Hc|rewrite Lpl; exact Lb|].
  rewrite Lpl, Hpr in *. exists fr, p. do 2 eexists. rewrite B4, B5.
  split; [exact A|]. split; [exact P|]. split; [exact B1|]. split; [exact B2|]. split; [exact B3|].
  split; [exact B6|]. exact E.
Qed.

Lemma tcp_over_ip6 h t buf ps0 :
  ip6_tx_wf h -> t6_next h = 6 -> tcp_tx_sane t -> t6_hop h <> 0 -> ip6_is_multicast (t6_src h) = false ->
  cksum_lucky (ip6_pseudo (t6_src h) (t6_dst h) (x_len t) 6) (tcp_tx_wire t 0) ->
  zlen buf = 40 + x_len t ->
  exists w p ps ck, ip6_asm h (tcp_carried t) buf ps0 = Ok w /\
    ip6_parse w = Ok (inr p) /\ i6_src p = t6_src h /\ i6_dst p = t6_dst h /\ i6_next p = 6 /\
    i6_pshdr_sum p = Ok ps /\ tcp_parse (i6_rest p) (i6_dlen p) ps = Ok (inr (tcp_seen t ck)).
Proof.
  intros S Hpr St Hh Hm Hk Lb.
  pose proof S as (_ & As & Ad). pose proof St as (K & Wd & L & Ll & _).
  destruct (tcp_off_byte t K L) as [_ L20]. pose proof (zlen_nonneg (x_data t)).
  pose proof (pshdr6_for (t6_src h) (t6_dst h) (x_len t) 6 As Ad ltac:(lia) ltac:(unfold x_len in *; lia)) as Hps.
  set (ps := word_sum 8 5 _) in Hps.
  set (ck := rfc1071 (ip6_pseudo (t6_src h) (t6_dst h) (x_len t) 6 ++ tcp_tx_wire t 0) 0).
  set (pl := tcp_tx_wire t ck).
  assert (Wp : wf_bytes []) by constructor.
  assert (Lpl : zlen pl = x_len t) by (unfold pl; apply tcp_tx_wire_len).
  assert (Wl : wf_bytes pl) by (unfold pl; apply tcp_tx_wire_wf; auto).
  assert (Ha : forall b, zlen b = x_len t -> tcp_asm t b ps = Ok pl).
  { intros b Lbb. destruct (tcp_round_trip t [] b ps _ St Wp Hps Lbb Hk) as (E & _). exact E. }
  destruct (tcp_round_trip t [] (repeat 0 (Z.to_nat (x_len t))) ps _ St Wp Hps
    ltac:(rewrite zlen_zeros; unfold x_len in *; lia) Hk) as (_ & _ & E).
  fold ck in E. fold pl in E. rewrite app_nil_r in E. clearbody pl. subst ps.
  destruct (over_ip6 h (tcp_carried t) pl buf ps0 S Wl Lpl) as (fr & p & A & P & B1 & B2 & B3 & B4 & B5 & B6);
    [rewrite Lpl; exact Ll|rewrite Lpl, Hpr; exact Ha|exact Hh|exact Hm|rewrite Lpl; exact Lb|].
  rewrite Lpl, Hpr in *. exists fr, p. do 2 eexists. rewrite B4, B5.
  split; [exact A|]. split; [exact P|]. split; [exact B1|]. split; [exact B2|]. split; [exact B3|].
  split; [exact B6|]. exact E.
Qed.
