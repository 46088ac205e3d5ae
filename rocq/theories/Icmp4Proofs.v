(** Proofs about the ICMPv4 codec. *)
From Verif Require Import BaseLemmas BitLemmas CodecModel CksumModel AddrModel AddrProofs
  SpecCksum CksumProofs SpecWire Ip4Model Ip4Proofs Ip6Model EtherProofs CodecLemmas PshdrLemmas UdpIpProofs
  Icmp4Model.

(** what the parser may accept: RFC 792 plus the code's minimum lengths *)
Definition icmp4_acceptable (f : bytes) (plen : Z) : Prop :=
  rfc1071_verifies (slice 0 plen f) 0 /\ 4 <= plen <= zlen f /\
  (nth 0 f 0 = 0 \/ nth 0 f 0 = 8 -> 8 <= plen /\ nth 1 f 0 = 0) /\
  (nth 0 f 0 = 3 -> 12 <= plen /\ nth 1 f 0 <= 15).

(** the fields at their RFC positions *)
Definition icmp4_of (f : bytes) (plen : Z) : icmp4 :=
  {| q4_type := nth 0 f 0; q4_code := nth 1 f 0; q4_cksum := be (slice 2 4 f);
     q4_body := if (nth 0 f 0 =? 8) || (nth 0 f 0 =? 0)
                then B4Echo (be (slice 4 6 f)) (be (slice 6 8 f)) (slice 8 plen f)
                else if nth 0 f 0 =? 3 then B4Unreach (slice 8 plen f) else B4Other |}.

Lemma icmp4_parse_total f plen : wf_bytes f -> 0 <= plen < 65536 ->
  (exists r, icmp4_parse f plen = Ok (inl r) /\ ~ icmp4_acceptable f plen) \/
  (icmp4_parse f plen = Ok (inr (icmp4_of f plen)) /\ icmp4_acceptable f plen).
Proof.
  intros W Hl. unfold icmp4_parse, run_parser, icmp4_integrity, check.
  assert (Hs : wf_bytes (slice 0 plen f)) by (apply wf_slice; auto).
  assert (Hz : zlen (slice 0 plen f) < 2 ^ 32) by (unfold slice, zlen; rewrite firstn_length; lia).
  pose proof (cksum_verify _ 0 Hs ltac:(lia) Hz) as K.
  destruct (z2b (inet_cksum (slice 0 plen f) 0)) eqn:Z.
  { left. eexists. split; [reflexivity|]. intros (V & _). apply K in V. rewrite V in Z. discriminate. }
  apply z2b_false in Z. apply K in Z. unfold icmp4_acceptable.
  destruct ((4 <=? plen) && (plen <=? zlen f)) eqn:L; cbn [negb];
    [|left; eexists; split; [reflexivity|]; lia].
  apply andb_true_iff in L as [L1 L2]. apply Z.leb_le in L1, L2.
  assert (L : 4 <= zlen f) by lia. unfold icmp4_sanity, icmp4_fields, icmp4_of, check.
  assert (R : u8 f 0 = Ok (nth 0 f 0) /\ u8 f 1 = Ok (nth 1 f 0) /\ u16 f 2 = Ok (be (slice 2 4 f))).
  { clear - L. take_bytes L. readf. auto. }
  destruct R as (R1 & R2 & R3). rewrite R1, R2, R3. cbn [rbind].
  pose proof (byte_at_range f 1 W) as B1. unfold byte_at, is_byte in B1.
  set (t := nth 0 f 0) in *. set (c := nth 1 f 0) in *.
  destruct ((t =? 8) || (t =? 0)) eqn:Et.
  - assert (T : t = 0 \/ t = 8) by lia. replace (t =? 3) with false by lia.
    destruct (Z.leb_spec 8 plen) as [L8|L8].
    2:{ cbn [andb negb rbind]. left; eexists; split; [reflexivity|]. lia. }
    replace (plen <=? zlen f) with true by lia. cbn [andb negb rbind].
    destruct (Z.eqb_spec c 0) as [C|C]; cbn [negb andb rbind].
    2:{ left; eexists; split; [reflexivity|]. lia. }
    assert (R' : u16 f 4 = Ok (be (slice 4 6 f)) /\ u16 f 6 = Ok (be (slice 6 8 f))).
    { assert (L8' : 8 <= zlen f) by lia. clear - L8'. take_bytes L8'. readf. auto. }
    destruct R' as (R4 & R5). rewrite R4, R5. cbn [rbind]. right. split; [reflexivity|].
    repeat split; auto; lia.
  - destruct (Z.eqb_spec t 3) as [T|T].
    + destruct (Z.leb_spec 12 plen) as [L8|L8].
      2:{ cbn [andb negb rbind]. left; eexists; split; [reflexivity|]. lia. }
      replace (plen <=? zlen f) with true by lia. cbn [andb negb rbind].
      replace (0 <=? c) with true by lia. cbn [andb].
      destruct (Z.leb_spec c 15) as [C|C]; cbn [negb andb rbind].
      2:{ left; eexists; split; [reflexivity|]. lia. }
      right. split; [reflexivity|]. repeat split; auto; lia.
    + cbn [andb rbind]. right. split; [reflexivity|]. repeat split; auto; lia.
Qed.

Lemma icmp4_never_raises f plen : wf_bytes f -> 0 <= plen < 65536 -> exists r, icmp4_parse f plen = Ok r.
Proof. intros W L. destruct (icmp4_parse_total f plen W L) as [(r & E & _)|(E & _)]; rewrite E; eauto. Qed.

Lemma icmp4_accepts f plen : wf_bytes f -> 0 <= plen < 65536 ->
  (forall p, icmp4_parse f plen = Ok (inr p) <-> icmp4_acceptable f plen /\ p = icmp4_of f plen).
Proof.
  intros W L p. destruct (icmp4_parse_total f plen W L) as [(r & E & N)|(E & A)]; rewrite E.
  - split; [discriminate|]. intros [A _]; contradiction.
  - split; [intros H; split; [auto|congruence]|]. intros [_ ->]. reflexivity.
Qed.

(** ** messages on the wire *)
Definition icmp4_tx_wire (t : icmp4_tx) (ck : Z) : bytes :=
  match t with
  | T4EchoReply id seq d => icmp_wire 0 0 ck (icmp_echo_body id seq d)
  | T4EchoRequest id seq d => icmp_wire 8 0 ck (icmp_echo_body id seq d)
  | T4UnreachPort d => icmp_wire 3 3 ck (icmp_unreach_body d)
  end.
Definition icmp4_tx_ok (t : icmp4_tx) : Prop :=
  match t with
  | T4EchoReply id seq d | T4EchoRequest id seq d => 0 <= id < 65536 /\ 0 <= seq < 65536 /\ wf_bytes d
  | T4UnreachPort d => wf_bytes d
  end.
Definition icmp4_seen (t : icmp4_tx) (ck : Z) : icmp4 :=
  match t with
  | T4EchoReply id seq d => {| q4_type := 0; q4_code := 0; q4_cksum := ck; q4_body := B4Echo id seq d |}
  | T4EchoRequest id seq d => {| q4_type := 8; q4_code := 0; q4_cksum := ck; q4_body := B4Echo id seq d |}
  | T4UnreachPort d => {| q4_type := 3; q4_code := 3; q4_cksum := ck; q4_body := B4Unreach d |}
  end.

Lemma icmp_wire_len t c ck b : zlen (icmp_wire t c ck b) = 4 + zlen b.
Proof. unfold icmp_wire. rewrite !zlen_app, be_enc_zlen, !zlen_cons, zlen_nil. lia. Qed.
Lemma icmp_wire_wf t c ck b : is_byte t -> is_byte c -> wf_bytes b -> wf_bytes (icmp_wire t c ck b).
Proof.
  intros. unfold icmp_wire. rewrite !wf_app. repeat split; auto using be_enc_wf.
  repeat (apply wf_cons; auto). apply wf_nil.
Qed.
Lemma icmp4_tx_wire_len t ck : zlen (icmp4_tx_wire t ck) = icmp4_tx_len t.
Proof.
  destruct t; cbn [icmp4_tx_wire icmp4_tx_len]; rewrite icmp_wire_len; unfold icmp_echo_body, icmp_unreach_body;
  rewrite ?zlen_app, ?be_enc_zlen, ?zlen_cons, ?zlen_nil; lia.
Qed.
Lemma icmp4_tx_wire_wf t ck : icmp4_tx_ok t -> wf_bytes (icmp4_tx_wire t ck).
Proof.
  destruct t; cbn [icmp4_tx_wire icmp4_tx_ok]; intros H; apply icmp_wire_wf; try (unfold is_byte; lia);
  unfold icmp_echo_body, icmp_unreach_body; rewrite !wf_app; repeat split; try tauto; auto using be_enc_wf;
  repeat (apply wf_cons; [unfold is_byte; lia|]); apply wf_nil.
Qed.

Lemma icmp4_asm_to t ps : icmp4_tx_ok t ->
  asm_to (icmp4_carried t) (fun _ => icmp4_tx_wire t (inet_cksum (icmp4_tx_wire t 0) 0)) ps.
Proof.
  intros H. split; [apply icmp4_tx_wire_len|]. intros buf L. cbn [icmp4_carried c_len c_asm] in *.
  unfold icmp4_asm.
  rewrite (pack_into_full buf _ (icmp4_tx_wire t 0)); [|destruct t|rewrite icmp4_tx_wire_len; auto].
  - cbn [rbind]. set (ck := inet_cksum _ 0). assert (Hc : 0 <= ck < 65536) by apply ip4_cksum_bound.
    clearbody ck. destruct t; cbn [icmp4_tx_wire]; unfold icmp_wire; rewrite pack_into_mid; auto.
  - cbn [icmp4_tx_wire icmp4_tx_ok] in *. unfold icmp_wire, icmp_echo_body. cbn [app]. packs.
  - cbn [icmp4_tx_wire icmp4_tx_ok] in *. unfold icmp_wire, icmp_unreach_body.
    change [0; 0; 0; 0] with (be_enc 4 0). cbn [app]. packs.
  - cbn [icmp4_tx_wire icmp4_tx_ok] in *. unfold icmp_wire, icmp_echo_body. cbn [app]. packs.
Qed.

(** the checksum is computed right *)
Definition cksum_lucky0 (seg0 : bytes) : Prop := zlen seg0 = 20 \/ rfc1071 seg0 0 <> 0xFFFE.
Lemma lucky0_cksum seg0 : wf_bytes seg0 -> zlen seg0 < 2 ^ 32 -> cksum_lucky0 seg0 ->
  inet_cksum seg0 0 = rfc1071 seg0 0.
Proof.
  intros W L K. destruct (Z.eq_dec (zlen seg0) 20) as [E|E].
  - apply cksum_gen_20; auto; lia.
  - destruct K as [K|K]; [contradiction|]. apply cksum_gen_not20; auto; lia.
Qed.

Lemma icmp4_parse_wire t ck pad : icmp4_tx_ok t -> wf_bytes pad -> icmp4_tx_len t < 65536 ->
  0 <= ck < 65536 -> rfc1071_verifies (icmp4_tx_wire t ck) 0 ->
  (forall d, t = T4UnreachPort d -> 4 <= zlen d) ->
  icmp4_parse (icmp4_tx_wire t ck ++ pad) (icmp4_tx_len t) = Ok (inr (icmp4_seen t ck)).
Proof.
  intros Ht Wp L Hc V Hd.
  assert (Hl : 8 <= icmp4_tx_len t).
  { destruct t as [? ? d|d|? ? d]; cbn; pose proof (zlen_nonneg d); lia. }
  assert (W : wf_bytes (icmp4_tx_wire t ck ++ pad)) by (apply wf_app; split; [apply icmp4_tx_wire_wf|]; auto).
  assert (F : icmp4_of (icmp4_tx_wire t ck ++ pad) (icmp4_tx_len t) = icmp4_seen t ck).
  { assert (Hs : forall (a b c d e g h i : Z) (data : bytes), slice 8 (8 + zlen data) (a :: b :: c :: d :: e :: g :: h :: i :: data ++ pad) = data).
    { intros. change (a :: b :: c :: d :: e :: g :: h :: i :: data ++ pad) with ([a;b;c;d;e;g;h;i] ++ data ++ pad).
      rewrite slice_app_shift by (vm_compute; congruence).
      change (zlen [a;b;c;d;e;g;h;i]) with 8. replace (8 - 8) with 0 by lia. apply slice_0_exact. lia. }
    destruct t as [id seq d|d|id seq d]; cbn [icmp4_tx_wire icmp4_tx_ok icmp4_tx_len icmp4_seen] in *;
    unfold icmp_wire, icmp_echo_body, icmp_unreach_body.
    - explode 2%nat ck. explode 2%nat id. explode 2%nat seq. rewrite <- !app_assoc. cbn [app]. unfold icmp4_of. cbn [nth].
      cbn [Z.eqb Pos.eqb orb]. rewrite (Hs 0 0). readf. rewrite B, B0, B1. reflexivity.
    - explode 2%nat ck. rewrite <- !app_assoc. cbn [app]. unfold icmp4_of. cbn [nth].
      cbn [Z.eqb Pos.eqb orb]. rewrite (Hs 3 3). readf. rewrite B. reflexivity.
    - explode 2%nat ck. explode 2%nat id. explode 2%nat seq. rewrite <- !app_assoc. cbn [app]. unfold icmp4_of. cbn [nth].
      cbn [Z.eqb Pos.eqb orb]. rewrite (Hs 8 0). readf. rewrite B, B0, B1. reflexivity. }
  apply icmp4_accepts; [exact W|lia|]. split; [|symmetry; exact F].
  unfold icmp4_acceptable. rewrite slice_0_exact by (symmetry; apply icmp4_tx_wire_len). split; [exact V|].
  rewrite zlen_app, icmp4_tx_wire_len. pose proof (zlen_nonneg pad). split; [lia|].
  pose proof (f_equal q4_type F) as Ft. pose proof (f_equal q4_code F) as Fc.
  cbn [icmp4_of q4_type q4_code] in Ft, Fc. rewrite Ft, Fc.
  destruct t as [id seq d|d|id seq d]; cbn [icmp4_seen q4_type q4_code icmp4_tx_len] in *; split; intros; try lia.
  specialize (Hd d eq_refl). lia.
Qed.

Lemma icmp4_round_trip t pad buf ps : icmp4_tx_ok t -> wf_bytes pad -> icmp4_tx_len t < 65536 ->
  (forall d, t = T4UnreachPort d -> 4 <= zlen d) ->
  zlen buf = icmp4_tx_len t -> cksum_lucky0 (icmp4_tx_wire t 0) ->
  let ck := rfc1071 (icmp4_tx_wire t 0) 0 in
  icmp4_asm t buf ps = Ok (icmp4_tx_wire t ck) /\ rfc1071_verifies (icmp4_tx_wire t ck) 0 /\
  icmp4_parse (icmp4_tx_wire t ck ++ pad) (icmp4_tx_len t) = Ok (inr (icmp4_seen t ck)).
Proof.
  intros Ht Wp L Hd Lb Hk ck.
  destruct (icmp4_asm_to t ps Ht) as [_ A]. cbn [icmp4_carried c_len c_asm] in A.
  assert (W0 : wf_bytes (icmp4_tx_wire t 0)) by (apply icmp4_tx_wire_wf; auto).
  rewrite (lucky0_cksum _ W0) in A by (auto; rewrite icmp4_tx_wire_len; lia). fold ck in A.
  assert (Hc : 0 <= ck < 65536) by (pose proof (rfc1071_range (icmp4_tx_wire t 0) 0 W0 ltac:(lia)); unfold ck; lia).
  assert (V : rfc1071_verifies (icmp4_tx_wire t ck) 0).
  { unfold ck. destruct t as [id seq d|d|id seq d]; cbn [icmp4_tx_wire icmp4_tx_ok] in *; unfold icmp_wire;
    change (be_enc 2 0) with [0; 0]; apply (rfc_fill _ _ 0 1); try reflexivity; try lia;
    unfold icmp_echo_body, icmp_unreach_body; rewrite ?wf_app; repeat split; try tauto; auto using be_enc_wf;
    repeat (apply wf_cons; [unfold is_byte; lia|]); apply wf_nil. }
  split; [apply A; auto|]. split; [exact V|]. apply icmp4_parse_wire; auto.
Qed.

Lemma icmp4_over_ip4 h t pad buf ps0 :
  ip4_tx_sane h -> t4_proto h = 1 -> icmp4_tx_ok t -> wf_bytes pad ->
  (forall d, t = T4UnreachPort d -> 4 <= zlen d) ->
  let plen := 20 + zlen (t4_opts h) + icmp4_tx_len t in plen < 65536 ->
  t4_opts h = [] \/ rfc1071 (hdr_of h plen 0) 0 <> 65534 ->
  cksum_lucky0 (icmp4_tx_wire t 0) -> zlen buf = plen ->
  exists w p ck, ip4_asm h (icmp4_carried t) buf ps0 = Ok w /\
    ip4_parse (w ++ pad) = Ok (inr p) /\ i4_src p = t4_src h /\ i4_dst p = t4_dst h /\ i4_proto p = 1 /\
    icmp4_parse (i4_rest p) (i4_dlen p) = Ok (inr (icmp4_seen t ck)).
Proof.
  intros S Hpr St Wp Hd plen Hp Hc Hk Lb.
  set (ck := rfc1071 (icmp4_tx_wire t 0) 0). set (pl := icmp4_tx_wire t ck).
  assert (Hl : 8 <= icmp4_tx_len t).
  { destruct t as [? ? d|d|? ? d]; cbn; pose proof (zlen_nonneg d); lia. }
  pose proof (zlen_nonneg (t4_opts h)).
  assert (Lpl : zlen pl = icmp4_tx_len t) by (unfold pl; apply icmp4_tx_wire_len).
  assert (Wl : wf_bytes pl) by (unfold pl; apply icmp4_tx_wire_wf; auto).
  assert (Ha : forall ps b, zlen b = icmp4_tx_len t -> icmp4_asm t b ps = Ok pl).
  { intros ps b Lbb. destruct (icmp4_round_trip t pad b ps St Wp ltac:(lia) Hd Lbb Hk) as (E & _). exact E. }
  destruct (icmp4_round_trip t pad (repeat 0 (Z.to_nat (icmp4_tx_len t))) 0 St Wp ltac:(lia) Hd
    ltac:(rewrite zlen_zeros; lia) Hk) as (_ & _ & E).
  fold ck in E. fold pl in E. clearbody pl. unfold plen in *.
  destruct (over_ip4 h (icmp4_carried t) pl pad buf ps0 S Wl Wp Lpl) as (fr & p & A & P & B1 & B2 & B3 & B4 & B5 & B6);
    [intros b Lbb; apply Ha; exact Lbb|rewrite Lpl; exact Hp|rewrite Lpl; exact Hc|rewrite Lpl; exact Lb|].
  rewrite Lpl, Hpr in *. exists fr, p. eexists. rewrite B4, B5.
  split; [exact A|]. split; [exact P|]. split; [exact B1|]. split; [exact B2|]. split; [exact B3|]. exact E.
Qed.
