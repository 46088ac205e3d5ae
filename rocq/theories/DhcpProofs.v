(** DHCP messages: UTF-8, options, messages, termination. *)
From Verif Require Import BaseLemmas BitLemmas CodecModel CodecLemmas AddrModel SpecAddr AddrProofs SpecDhcp DhcpModel.

(** ** UTF-8 *)
Definition cp_ok (c : Z) : Prop := 0 <= c < 0x110000 /\ is_surrogate c = false.

Ltac dm := Z.div_mod_to_equations.
Lemma cp_ok_range c : cp_ok c -> 0 <= c < 0xD800 \/ 0xE000 <= c < 0x110000.
Proof. intros [H S]. unfold is_surrogate in S. lia. Qed.

Lemma utf8_dec_enc1 c r b : cp_ok c -> utf8_enc1 c = Ok b ->
  utf8_dec (b ++ r) = (t <- utf8_dec r ;; Ok (c :: t)).
Proof.
  intros H E. pose proof (cp_ok_range c H) as R. destruct H as [H S]. unfold utf8_enc1 in E.
  destruct (Z.ltb_spec c 0x80). { injection E as <-. cbn [app utf8_dec]. destruct (Z.ltb_spec c 128); [reflexivity|lia]. }
  destruct (Z.ltb_spec c 0x800).
  { injection E as <-. cbn [app utf8_dec].
    assert (2 <= c / 64 < 32) by (dm; lia). assert (0 <= c mod 64 < 64) by (dm; lia).
    destruct (Z.ltb_spec (0xC0 + c / 64) 128); [lia|].
    replace ((0xC2 <=? 0xC0 + c / 64) && (0xC0 + c / 64 <? 0xE0)) with true by lia.
    unfold is_cont. replace ((128 <=? 128 + c mod 64) && (128 + c mod 64 <? 192)) with true by lia.
    replace ((192 + c / 64 - 192) * 64 + (128 + c mod 64 - 128)) with c by (dm; lia). reflexivity. }
  rewrite S in E.
  destruct (Z.ltb_spec c 0x10000).
  { injection E as <-. cbn [app utf8_dec].
    set (x := c / 4096). set (y := c / 64 mod 64). set (z := c mod 64).
    assert (F : 0 <= x < 16 /\ 0 <= y < 64 /\ 0 <= z < 64 /\ c = x * 4096 + y * 64 + z) by (unfold x, y, z; dm; lia).
    clearbody x y z. destruct F as (F1 & F2 & F3 & F4).
    destruct (Z.ltb_spec (0xE0 + x) 128); [lia|].
    replace ((0xC2 <=? 0xE0 + x) && (0xE0 + x <? 0xE0)) with false by lia.
    replace ((0xE0 <=? 0xE0 + x) && (0xE0 + x <? 0xF0)) with true by lia.
    replace ((0xE0 + x - 0xE0) * 4096 + (128 + y - 128) * 64 + (128 + z - 128)) with c by lia.
    cbn zeta. rewrite S. unfold is_cont.
    replace ((128 <=? 128 + y) && (128 + y <? 192) && ((128 <=? 128 + z) && (128 + z <? 192)) && (2048 <=? c)) with true by lia.
    reflexivity. }
  injection E as <-. cbn [app utf8_dec].
  set (w := c / 262144). set (x := c / 4096 mod 64). set (y := c / 64 mod 64). set (z := c mod 64).
  assert (F : 0 <= w < 5 /\ 0 <= x < 64 /\ 0 <= y < 64 /\ 0 <= z < 64 /\ c = w * 262144 + x * 4096 + y * 64 + z)
    by (unfold w, x, y, z; dm; lia).
  clearbody w x y z. destruct F as (F0 & F1 & F2 & F3 & F4).
  destruct (Z.ltb_spec (0xF0 + w) 128); [lia|].
  replace ((0xC2 <=? 0xF0 + w) && (0xF0 + w <? 0xE0)) with false by lia.
  replace ((0xE0 <=? 0xF0 + w) && (0xF0 + w <? 0xF0)) with false by lia.
  replace ((0xF0 <=? 0xF0 + w) && (0xF0 + w <? 0xF5)) with true by lia.
  replace ((0xF0 + w - 0xF0) * 262144 + (128 + x - 128) * 4096 + (128 + y - 128) * 64 + (128 + z - 128)) with c by lia.
  cbn zeta. unfold is_cont.
  replace ((128 <=? 128 + x) && (128 + x <? 192) && ((128 <=? 128 + y) && (128 + y <? 192))
    && ((128 <=? 128 + z) && (128 + z <? 192)) && (0x10000 <=? c) && (c <? 0x110000)) with true by lia.
  reflexivity.
Qed.

Lemma utf8_dec_enc s b : Forall cp_ok s -> utf8_enc s = Ok b -> utf8_dec b = Ok s.
Proof.
  intros H. revert b. induction H as [|c s Hc Hs IH]; cbn [utf8_enc]; intros b E; [injection E as <-; reflexivity|].
  destruct (utf8_enc1 c) as [x|] eqn:E1; [|discriminate]. cbn [rbind] in E.
  destruct (utf8_enc s) as [y|] eqn:E2; [|discriminate]. cbn [rbind] in E.
  assert (b = x ++ y) as -> by congruence. rewrite (utf8_dec_enc1 _ _ _ Hc E1), (IH _ eq_refl). reflexivity.
Qed.

Lemma utf8_enc_total s : Forall cp_ok s -> exists b, utf8_enc s = Ok b /\ wf_bytes b.
Proof.
  induction 1 as [|c s Hc Hs IH]; cbn [utf8_enc]; [eexists; split; [reflexivity|apply wf_nil]|].
  destruct IH as (y & -> & Wy). pose proof (cp_ok_range c Hc) as R. destruct Hc as [H S].
  assert (exists x, utf8_enc1 c = Ok x /\ wf_bytes x) as (x & -> & Wx).
  { unfold utf8_enc1. rewrite S.
    destruct (Z.ltb_spec c 0x80); [|destruct (Z.ltb_spec c 0x800); [|destruct (Z.ltb_spec c 0x10000)]];
      (eexists; split; [reflexivity|]; repeat (apply wf_cons; [unfold is_byte; dm; lia|]); apply wf_nil). }
  cbn [rbind]. eexists. split; [reflexivity|]. apply wf_app; auto.
Qed.

(** whatever decodes re-encodes to the same bytes *)
Lemma utf8_enc_dec n l s : (length l <= n)%nat -> wf_bytes l -> utf8_dec l = Ok s -> Forall cp_ok s /\ utf8_enc s = Ok l.
Proof.
  revert l s. induction n as [|n IH]; intros l s L W E.
  { destruct l; [|cbn in L; lia]. cbn in E. injection E as <-. split; [constructor|reflexivity]. }
  destruct l as [|a l]; [cbn in E; injection E as <-; split; [constructor|reflexivity]|].
  cbn [length] in L. apply wf_cons_inv in W as [Wa W]. unfold is_byte in Wa. cbn [utf8_dec] in E.
  destruct (Z.ltb_spec a 0x80).
  { destruct (utf8_dec l) as [t|] eqn:Et; [|discriminate]. cbn [rbind] in E. assert (s = a :: t) as -> by congruence.
    destruct (IH l t ltac:(lia) W Et) as [Hf He]. split.
    - constructor; [|exact Hf]. split; [lia|]. unfold is_surrogate; lia.
    - cbn [utf8_enc]. unfold utf8_enc1. destruct (Z.ltb_spec a 128); [|lia]. rewrite He. reflexivity. }
  destruct ((0xC2 <=? a) && (a <? 0xE0)) eqn:K1.
  { destruct l as [|b l]; [discriminate|]. destruct (is_cont b) eqn:Cb; [|discriminate]. unfold is_cont in Cb.
    apply wf_cons_inv in W as [_ W]. cbn [length] in L.
    destruct (utf8_dec l) as [t|] eqn:Et; [|discriminate]. cbn [rbind] in E.
    set (v := (a - 0xC0) * 64 + (b - 0x80)) in E. assert (s = v :: t) as -> by congruence.
    destruct (IH l t ltac:(lia) W Et) as [Hf He].
    assert (Hv : 128 <= v < 2048) by (unfold v; lia).
    assert (D : v / 64 = a - 0xC0 /\ v mod 64 = b - 0x80) by (unfold v; dm; lia). clearbody v.
    split.
    - constructor; [|exact Hf]. split; [lia|]. unfold is_surrogate; lia.
    - cbn [utf8_enc]. unfold utf8_enc1. destruct (Z.ltb_spec v 0x80); [lia|]. destruct (Z.ltb_spec v 0x800); [|lia].
      rewrite He. destruct D as [-> ->]. cbn [rbind app]. do 2 f_equal; [lia|f_equal; lia]. }
  destruct ((0xE0 <=? a) && (a <? 0xF0)) eqn:K2.
  { destruct l as [|b [|c l]]; [discriminate..|]. 
    set (v := (a - 0xE0) * 4096 + (b - 0x80) * 64 + (c - 0x80)) in E. cbn zeta in E.
    destruct (is_cont b && is_cont c && (0x800 <=? v) && negb (is_surrogate v)) eqn:C; [|discriminate].
    apply andb_prop in C as [C Sv]. apply negb_true_iff in Sv. unfold is_cont in C.
    apply wf_cons_inv in W as [_ W]. apply wf_cons_inv in W as [_ W]. cbn [length] in L.
    destruct (utf8_dec l) as [t|] eqn:Et; [|discriminate]. cbn [rbind] in E.
    assert (s = v :: t) as -> by congruence.
    destruct (IH l t ltac:(lia) W Et) as [Hf He].
    assert (Hv : 2048 <= v < 0x10000) by (unfold v; lia).
    assert (D : v / 4096 = a - 0xE0 /\ v / 64 mod 64 = b - 0x80 /\ v mod 64 = c - 0x80)
      by (clear Sv Hv E; unfold v in *; dm; lia).
    clearbody v. split.
    - constructor; [|exact Hf]. split; [lia|exact Sv].
    - cbn [utf8_enc]. unfold utf8_enc1. destruct (Z.ltb_spec v 0x80); [lia|]. destruct (Z.ltb_spec v 0x800); [lia|].
      rewrite Sv. destruct (Z.ltb_spec v 0x10000); [|lia].
      rewrite He. destruct D as (-> & -> & ->). cbn [rbind app]. do 2 f_equal; [lia|do 2 f_equal; [lia|f_equal; lia]]. }
  destruct ((0xF0 <=? a) && (a <? 0xF5)) eqn:K3; [|discriminate].
  destruct l as [|b [|c [|d l]]]; [discriminate..|]. 
  set (v := (a - 0xF0) * 262144 + (b - 0x80) * 4096 + (c - 0x80) * 64 + (d - 0x80)) in E. cbn zeta in E.
  destruct (is_cont b && is_cont c && is_cont d && (0x10000 <=? v) && (v <? 0x110000)) eqn:C; [|discriminate].
  unfold is_cont in C.
  apply wf_cons_inv in W as [_ W]. apply wf_cons_inv in W as [_ W]. apply wf_cons_inv in W as [_ W]. cbn [length] in L.
  destruct (utf8_dec l) as [t|] eqn:Et; [|discriminate]. cbn [rbind] in E.
  assert (s = v :: t) as -> by congruence.
  destruct (IH l t ltac:(lia) W Et) as [Hf He].
  assert (Hv : 0x10000 <= v < 0x110000) by lia.
  assert (D : v / 262144 = a - 0xF0 /\ v / 4096 mod 64 = b - 0x80 /\ v / 64 mod 64 = c - 0x80 /\ v mod 64 = d - 0x80)
    by (clear Hv E; unfold v in *; dm; lia).
  clearbody v. split.
  - constructor; [|exact Hf]. split; [lia|unfold is_surrogate; lia].
  - cbn [utf8_enc]. unfold utf8_enc1. destruct (Z.ltb_spec v 0x80); [lia|]. destruct (Z.ltb_spec v 0x800); [lia|].
    replace (is_surrogate v) with false by (unfold is_surrogate; lia). destruct (Z.ltb_spec v 0x10000); [lia|].
    rewrite He. destruct D as (-> & -> & -> & ->). cbn [rbind app]. rewrite !Zplus_minus. reflexivity.
Qed.

(** ** options *)
Definition utf8 (s : list Z) : bytes := match utf8_enc s with Ok b => b | Exn _ => [] end.
Lemma utf8_facts s : Forall cp_ok s -> utf8_enc s = Ok (utf8 s) /\ wf_bytes (utf8 s) /\ utf8_dec (utf8 s) = Ok s.
Proof.
  intros H. destruct (utf8_enc_total s H) as (b & E & W). unfold utf8. rewrite E. repeat split; auto.
  eapply utf8_dec_enc; eauto.
Qed.

(** the option on the wire *)
Definition dopt_wire (o : dopt) : bytes :=
  match o with
  | DMask _ m => dhcp_tlv 1 (be_enc 4 m)
  | DRouter _ l => dhcp_tlv 3 (concat (map (be_enc 4) l))
  | DDns _ l => dhcp_tlv 6 (concat (map (be_enc 4) l))
  | DHost _ s => dhcp_tlv 12 (utf8 s)
  | DDomain _ s => dhcp_tlv 15 (utf8 s)
  | DReqIp _ a => dhcp_tlv 50 (be_enc 4 a)
  | DLease _ v => dhcp_tlv 51 (be_enc 4 v)
  | DMsg _ v => dhcp_tlv 53 [v]
  | DSrv _ a => dhcp_tlv 54 (be_enc 4 a)
  | DParam _ l => dhcp_tlv 55 l
  | DUnk c _ d => dhcp_tlv c d
  | DPad => [0]
  | DEnd => [255]
  end.
(** an option of RFC 2132 with data of the right length; not pad or end *)
Definition dopt_ok (o : dopt) : Prop :=
  match o with
  | DMask n m => n = 4 /\ exists k, 0 <= k <= 32 /\ m = prefix_mask 32 k
  | DRouter n l | DDns n l => n = 4 * zlen l /\ n < 256 /\ Forall (fun a => 0 <= a < 2 ^ 32) l
  | DHost n s | DDomain n s => Forall cp_ok s /\ n = zlen (utf8 s) /\ n < 256
  | DReqIp n a | DSrv n a => n = 4 /\ 0 <= a < 2 ^ 32
  | DLease n v => n = 4 /\ 0 <= v < 2 ^ 32
  | DMsg n v => n = 1 /\ 0 <= v < 256
  | DParam n l => n = zlen l /\ n < 256 /\ wf_bytes l
  | DUnk c n d => 0 < c < 255 /\ ~ In c [1; 3; 6; 12; 15; 50; 51; 53; 54; 55] /\ n = zlen d /\ n < 256 /\ wf_bytes d
  | DPad | DEnd => False
  end.
Definition dopts_wire (l : list dopt) : bytes := concat (map dopt_wire l).

Lemma fit_exact n b : zlen b = n -> fit n b = b.
Proof.
  intros <-. unfold fit, zlen. rewrite Nat2Z.id, firstn_app, Nat.sub_diag, firstn_O, app_nil_r. apply firstn_all.
Qed.
Lemma addrs_len l : zlen (concat (map (be_enc 4) l)) = 4 * zlen l.
Proof.
  induction l as [|a l IH]; [reflexivity|]. cbn [map concat]. rewrite zlen_app, IH, zlen_cons.
  rewrite be_enc_zlen. lia.
Qed.

Lemma dopt_raw_ok o : dopt_ok o -> dopt_raw o = Ok (dopt_wire o).
Proof.
  destruct o; cbn [dopt_ok dopt_raw dopt_wire]; intros H; unfold dhcp_tlv, ip4_bytes.
  - destruct H as [-> (k & Hk & ->)]. rewrite be_enc_zlen. packs.
  - destruct H as (-> & L & H). rewrite fit_exact by (rewrite addrs_len; lia). rewrite addrs_len. pose proof (zlen_nonneg l).
    packs.
  - destruct H as (-> & L & H). rewrite fit_exact by (rewrite addrs_len; lia). rewrite addrs_len. pose proof (zlen_nonneg l).
    packs.
  - destruct H as (Hs & -> & L). destruct (utf8_facts s Hs) as (-> & _ & _). cbn [rbind]. pose proof (zlen_nonneg (utf8 s)).
    rewrite fit_exact by auto. packs.
  - destruct H as (Hs & -> & L). destruct (utf8_facts s Hs) as (-> & _ & _). cbn [rbind]. pose proof (zlen_nonneg (utf8 s)).
    rewrite fit_exact by auto. packs.
  - destruct H as [-> H]. rewrite be_enc_zlen. packs.
  - destruct H as [-> H]. rewrite be_enc_zlen. rewrite <- (app_nil_r (be_enc 4 v)). packs.
  - destruct H as [-> H]. change (zlen [v]) with 1. packs.
  - destruct H as [-> H]. rewrite be_enc_zlen. packs.
  - destruct H as (-> & L & H). unfold bytes_of_ints. rewrite (proj2 (wf_bytesb_ok l) H). cbn [rbind].
    pose proof (zlen_nonneg l). rewrite fit_exact by auto. packs.
  - destruct H as (Hc & _ & -> & L & H). pose proof (zlen_nonneg d). rewrite fit_exact by auto. packs.
  - contradiction.
  - contradiction.
Qed.
Lemma dopts_raw_app a b x y : dopts_raw a = Ok x -> dopts_raw b = Ok y -> dopts_raw (a ++ b) = Ok (x ++ y).
Proof.
  revert x. induction a as [|o a IH]; cbn [dopts_raw app]; intros x Ea Eb; [injection Ea as <-; exact Eb|].
  destruct (dopt_raw o); [|discriminate]. cbn [rbind] in *. destruct (dopts_raw a) as [z|]; [|discriminate].
  cbn [rbind] in Ea. rewrite (IH z eq_refl Eb). cbn [rbind]. assert (x = a0 ++ z) as -> by congruence.
  rewrite app_assoc. reflexivity.
Qed.
Lemma dopts_raw_ok l : Forall dopt_ok l -> dopts_raw l = Ok (dopts_wire l).
Proof.
  unfold dopts_wire. induction 1 as [|o l Ho Hl IH]; [reflexivity|]. cbn [dopts_raw map concat].
  rewrite dopt_raw_ok, IH by auto. reflexivity.
Qed.

Lemma dopt_addrs_read l pre : Forall (fun a => 0 <= a < 2 ^ 32) l ->
  dopt_addrs (length l) (zlen pre) (pre ++ concat (map (be_enc 4) l)) = Ok l.
Proof.
  intros H. revert pre. induction H as [|a l Ha Hl IH]; intros pre; [reflexivity|]. cbn [length dopt_addrs map concat].
  rewrite slice_app_shift by lia. rewrite Z.sub_diag, Z.add_simpl_l.
  rewrite slice_0_exact by (rewrite be_enc_zlen; reflexivity).
  change (be_enc 4 a) with (ip4_bytes a) at 1. rewrite ip4_bytes_round by auto. cbn [rbind].
  specialize (IH (pre ++ be_enc 4 a)). rewrite zlen_app, be_enc_zlen, <- app_assoc in IH.
  change (Z.of_nat 4) with 4 in IH. rewrite IH. reflexivity.
Qed.

Lemma slice_2 (b c : Z) d n : n = 2 + zlen d -> slice 2 n (b :: c :: d) = d.
Proof.
  intros ->. unfold slice. replace (2 + zlen d - 2) with (zlen d) by lia. unfold zlen. rewrite Nat2Z.id.
  change (Z.to_nat 2) with 2%nat. cbn [skipn]. apply firstn_all.
Qed.

Lemma dopt_read_wire o : dopt_ok o -> dopt_read (dopt_wire o) = Ok o.
Proof.
  destruct o; cbn [dopt_ok dopt_wire]; intros H; try contradiction; unfold dopt_read, dhcp_tlv;
    cbn [index nth_error rbind Z.to_nat]; change (index (?a :: ?b) 0) with (Ok a);
    change (index (?a :: ?b :: ?c) 1) with (Ok b); cbn [rbind].
  - destruct H as [-> (k & Hk & ->)]. cbn [Z.eqb Pos.eqb]. rewrite slice_2 by (rewrite be_enc_zlen; reflexivity).
    assert (R : 0 <= prefix_mask 32 k < 2 ^ 32).
    { unfold prefix_mask. assert (2 ^ (32 - k) <= 2 ^ 32) by (apply Z.pow_le_mono_r; lia).
      assert (0 < 2 ^ (32 - k)) by (apply Z.pow_pos_nonneg; lia). lia. }
    destruct (mask_of_bytes_spec 32 (be_enc 4 (prefix_mask 32 k)) (be_enc_wf _ _)) as [[_ S] _].
    rewrite be_be_enc_small in S by (exact R). rewrite S. { rewrite be_enc_zlen. reflexivity. }
    split; [rewrite be_enc_zlen; reflexivity|]. exists k. split; [exact Hk|reflexivity].
  - destruct H as (-> & L & H). cbn [Z.eqb Pos.eqb]. rewrite addrs_len.
    replace (Z.to_nat ((4 * zlen l + 3) / 4)) with (length l) by (unfold zlen; dm; lia).
    change (3 :: 4 * zlen l :: concat (map (be_enc 4) l)) with ([3; 4 * zlen l] ++ concat (map (be_enc 4) l)).
    pose proof (dopt_addrs_read l [3; 4 * zlen l] H) as R. change (zlen [3; 4 * zlen l]) with 2 in R. rewrite R. reflexivity.
  - destruct H as (-> & L & H). cbn [Z.eqb Pos.eqb]. rewrite addrs_len.
    replace (Z.to_nat ((4 * zlen l + 3) / 4)) with (length l) by (unfold zlen; dm; lia).
    change (6 :: 4 * zlen l :: concat (map (be_enc 4) l)) with ([6; 4 * zlen l] ++ concat (map (be_enc 4) l)).
    pose proof (dopt_addrs_read l [6; 4 * zlen l] H) as R. change (zlen [6; 4 * zlen l]) with 2 in R. rewrite R. reflexivity.
  - destruct H as (Hs & -> & L). cbn [Z.eqb Pos.eqb]. rewrite slice_2 by reflexivity.
    destruct (utf8_facts s Hs) as (_ & _ & ->). reflexivity.
  - destruct H as (Hs & -> & L). cbn [Z.eqb Pos.eqb]. rewrite slice_2 by reflexivity.
    destruct (utf8_facts s Hs) as (_ & _ & ->). reflexivity.
  - destruct H as [-> H]. cbn [Z.eqb Pos.eqb]. rewrite slice_2 by (rewrite be_enc_zlen; reflexivity).
    change (be_enc 4 a) with (ip4_bytes a) at 2. rewrite ip4_bytes_round by auto. reflexivity.
  - destruct H as [-> H]. cbn [Z.eqb Pos.eqb]. rewrite slice_2 by (rewrite be_enc_zlen; reflexivity).
    rewrite unpack_ok, be_be_enc_small, be_enc_zlen; [reflexivity|cbn; lia|apply be_enc_zlen].
  - destruct H as [-> H]. cbn [Z.eqb Pos.eqb]. reflexivity.
  - destruct H as [-> H]. cbn [Z.eqb Pos.eqb]. rewrite slice_2 by (rewrite be_enc_zlen; reflexivity).
    change (be_enc 4 a) with (ip4_bytes a) at 2. rewrite ip4_bytes_round by auto. reflexivity.
  - destruct H as (-> & L & H). cbn [Z.eqb Pos.eqb]. rewrite slice_2 by reflexivity. reflexivity.
  - destruct H as (Hc & N & -> & L & H). cbn [In] in N.
    destruct (Z.eqb_spec code 1); [lia|]. destruct (Z.eqb_spec code 3); [lia|]. destruct (Z.eqb_spec code 6); [lia|].
    destruct (Z.eqb_spec code 12); [lia|]. destruct (Z.eqb_spec code 15); [lia|]. destruct (Z.eqb_spec code 50); [lia|].
    destruct (Z.eqb_spec code 51); [lia|]. destruct (Z.eqb_spec code 53); [lia|]. destruct (Z.eqb_spec code 54); [lia|].
    destruct (Z.eqb_spec code 55); [lia|]. rewrite slice_2 by reflexivity. reflexivity.
Qed.

(** ** the option loop *)
Lemma dopt_wire_tlv o : dopt_ok o -> exists c d, dopt_wire o = c :: zlen d :: d /\ 0 < c < 255.
Proof.
  destruct o; cbn [dopt_ok dopt_wire]; intros H; try contradiction; do 2 eexists;
    (split; [reflexivity|]); try (cbn; lia).
Qed.

Lemma index_at {A} (p : list A) x r i : i = zlen p -> index (p ++ x :: r) i = Ok x.
Proof. intros ->. rewrite index_app_shift by lia. rewrite Z.sub_diag. reflexivity. Qed.
Lemma index_at1 {A} (p : list A) x y r i : i = zlen p -> index (p ++ x :: y :: r) (i + 1) = Ok y.
Proof. intros ->. rewrite index_app_shift by lia. rewrite Z.add_simpl_l. reflexivity. Qed.

Lemma dhcp_loop_opt fuel pre o rest acc : dopt_ok o -> dopts_raw acc = Ok pre ->
  dhcp_loop (S fuel) (pre ++ dopt_wire o ++ rest) (zlen pre) acc =
  dhcp_loop fuel (pre ++ dopt_wire o ++ rest) (zlen (pre ++ dopt_wire o)) (acc ++ [o]).
Proof.
  intros Ho Ea. destruct (dopt_wire_tlv o Ho) as (c & d & E & Hc).
  pose proof (dopt_read_wire o Ho) as Hr. pose proof (dopt_raw_ok o Ho) as Hw.
  pose proof (zlen_nonneg rest). pose proof (zlen_nonneg d).
  assert (Ew : dopts_raw (acc ++ [o]) = Ok (pre ++ dopt_wire o)).
  { apply dopts_raw_app; [exact Ea|]. cbn [dopts_raw]. rewrite Hw. cbn [rbind]. rewrite app_nil_r. reflexivity. }
  assert (Lw : zlen (dopt_wire o) = zlen d + 2) by (rewrite E, !zlen_cons; lia).
  cbn [dhcp_loop]. replace (zlen pre <? zlen (pre ++ dopt_wire o ++ rest)) with true by (rewrite !zlen_app; lia).
  rewrite E at 1. cbn [app]. rewrite index_at by reflexivity. cbn [rbind].
  destruct (Z.eqb_spec c 255); [lia|]. destruct (Z.eqb_spec c 0); [lia|].
  rewrite E at 1. cbn [app]. rewrite index_at1 by reflexivity. cbn [rbind].
  rewrite slice_app_shift by lia. rewrite Z.sub_diag.
  replace (zlen pre + zlen d + 2 - zlen pre) with (zlen (dopt_wire o)) by lia.
  rewrite slice_0_exact by reflexivity. rewrite Hr. cbn [rbind]. rewrite Ew. cbn [rbind].
  rewrite E at 1. rewrite index_at1 by reflexivity. cbn [rbind].
  f_equal. rewrite zlen_app. lia.
Qed.

Lemma dhcp_loop_opts l : Forall dopt_ok l -> forall fuel pre rest acc, dopts_raw acc = Ok pre ->
  (length l <= fuel)%nat ->
  dhcp_loop fuel (pre ++ dopts_wire l ++ rest) (zlen pre) acc =
  dhcp_loop (fuel - length l) (pre ++ dopts_wire l ++ rest) (zlen (pre ++ dopts_wire l)) (acc ++ l).
Proof.
  unfold dopts_wire. induction 1 as [|o l Ho Hl IH]; intros fuel pre rest acc Ea L.
  - cbn [map concat length]. rewrite !app_nil_r, Nat.sub_0_r. reflexivity.
  - destruct fuel as [|fuel]; [cbn in L; lia|]. cbn [length] in L. cbn [map concat length Nat.sub].
    rewrite <- app_assoc. rewrite dhcp_loop_opt by auto.
    specialize (IH fuel (pre ++ dopt_wire o) rest (acc ++ [o])). rewrite <- !app_assoc in *. apply IH; [|lia].
    apply dopts_raw_app; [exact Ea|]. cbn [dopts_raw]. rewrite dopt_raw_ok by auto. cbn [rbind]. rewrite app_nil_r. reflexivity.
Qed.

Lemma dopts_wire_len l : Forall dopt_ok l -> (2 * length l <= length (dopts_wire l))%nat.
Proof.
  unfold dopts_wire. induction 1 as [|o l Ho Hl IH]; [cbn; lia|]. cbn [map concat length]. rewrite app_length.
  destruct (dopt_wire_tlv o Ho) as (c & d & -> & _). cbn [length]. lia.
Qed.

(** options, the end option, and anything after it *)
Lemma dhcp_loop_end l rest fuel : Forall dopt_ok l -> (length l < fuel)%nat ->
  dhcp_loop fuel (dopts_wire l ++ 255 :: rest) 0 [] = Ok (l ++ [DEnd]).
Proof.
  intros H L. pose proof (dhcp_loop_opts l H fuel [] (255 :: rest) [] eq_refl ltac:(lia)) as E.
  change (zlen []) with 0 in E. cbn [app] in E. rewrite E.
  destruct (fuel - length l)%nat as [|k] eqn:K; [lia|]. cbn [dhcp_loop].
  replace (zlen (dopts_wire l) <? zlen (dopts_wire l ++ 255 :: rest)) with true
    by (rewrite zlen_app, zlen_cons; pose proof (zlen_nonneg rest); lia).
  rewrite index_at by reflexivity. reflexivity.
Qed.
(** options up to the end of the datagram *)
Lemma dhcp_loop_nil l fuel : Forall dopt_ok l -> (length l <= fuel)%nat ->
  dhcp_loop fuel (dopts_wire l) 0 [] = Ok l.
Proof.
  intros H L. pose proof (dhcp_loop_opts l H fuel [] [] [] eq_refl ltac:(lia)) as E.
  change (zlen []) with 0 in E. cbn [app] in E. rewrite !app_nil_r in E. rewrite E.
  destruct (fuel - length l)%nat as [|k]; cbn [dhcp_loop]; rewrite Z.ltb_irrefl; reflexivity.
Qed.

(** *** termination *)
Lemma dhcp_loop_pad fuel raw i acc : 0 <= i -> index raw i = Ok 0 -> dhcp_loop fuel raw i acc = Exn OutOfFuel.
Proof.
  intros Hi H. revert acc. induction fuel as [|k IH]; intros acc; cbn [dhcp_loop].
  all: destruct (Z.ltb_spec i (zlen raw)) as [L|L]; [|rewrite index_exn in H by lia; discriminate].
  - reflexivity.
  - rewrite H. cbn [rbind Z.eqb Pos.eqb]. rewrite Z.add_0_r. apply IH.
Qed.

(** what the constructors can store when reading bytes *)
Definition dopt_src (o : dopt) : Prop :=
  match o with DHost _ s | DDomain _ s => Forall cp_ok s | DUnk _ _ d => wf_bytes d | _ => True end.

Lemma pack_wf fs w : (forall l, In (FB l) fs -> wf_bytes l) -> pack fs = Ok w -> wf_bytes w.
Proof.
  revert w. induction fs as [|[n v|l] fs IH]; cbn [pack]; intros w F E.
  - injection E as <-. apply wf_nil.
  - destruct ((0 <=? v) && _); [|discriminate]. destruct (pack fs) as [t|] eqn:Et; [|discriminate].
    cbn [rbind] in E. assert (w = be_enc n v ++ t) as -> by congruence.
    apply wf_app. split; [apply be_enc_wf|]. apply IH; [|reflexivity]. intros l Hl. apply F. right. exact Hl.
  - destruct (pack fs) as [t|] eqn:Et; [|discriminate].
    cbn [rbind] in E. assert (w = l ++ t) as -> by congruence.
    apply wf_app. split; [apply F; left; reflexivity|]. apply IH; [|reflexivity]. intros k Hk. apply F. right. exact Hk.
Qed.
Lemma fit_wf n b : wf_bytes b -> wf_bytes (fit n b).
Proof.
  intros H. unfold fit. apply wf_firstn, wf_app. split; [exact H|]. apply Forall_forall.
  intros x Hx. apply repeat_spec in Hx. subst. unfold is_byte; lia.
Qed.
Lemma addrs_wf l : wf_bytes (concat (map (be_enc 4) l)).
Proof. induction l; [apply wf_nil|]. cbn [map concat]. apply wf_app. split; [apply be_enc_wf|auto]. Qed.
Lemma dopt_raw_wf o b : dopt_src o -> dopt_raw o = Ok b -> wf_bytes b.
Proof.
  assert (P1 : forall c n l w, wf_bytes l -> pack [FI 1 c; FI 1 n; FB l] = Ok w -> wf_bytes w).
  { intros c n l w H. apply pack_wf. cbn [In]. intros k [K|[K|[K|[]]]]; congruence. }
  assert (P2 : forall fs w, (forall l, ~ In (FB l) fs) -> pack fs = Ok w -> wf_bytes w).
  { intros fs w H. apply pack_wf. intros l Hl. destruct (H l Hl). }
  destruct o; cbn [dopt_src dopt_raw]; intros S E.
  1: eapply P1; [|exact E]; apply be_enc_wf.
  1,2: eapply P1; [|exact E]; apply fit_wf, addrs_wf.
  1,2: destruct (utf8_facts s S) as (Eu & W & _); rewrite Eu in E; eapply P1; [|exact E]; apply fit_wf, W.
  1: eapply P1; [|exact E]; apply be_enc_wf.
  1,2: eapply P2; [|exact E]; cbn [In]; intros k [K|[K|[K|[]]]]; discriminate.
  1: eapply P1; [|exact E]; apply be_enc_wf.
  1: unfold bytes_of_ints in E; destruct (wf_bytesb l) eqn:W; [|discriminate]; apply wf_bytesb_ok in W;
     eapply P1; [|exact E]; apply fit_wf, W.
  1: eapply P1; [|exact E]; apply fit_wf, S.
  1,2: eapply P2; [|exact E]; cbn [In]; intros k [K|[]]; discriminate.
Qed.
Lemma dopts_raw_wf l b : Forall dopt_src l -> dopts_raw l = Ok b -> wf_bytes b.
Proof.
  intros H. revert b. induction H as [|o l Ho Hl IH]; cbn [dopts_raw]; intros b E; [injection E as <-; apply wf_nil|].
  destruct (dopt_raw o) as [x|] eqn:Eo; [|discriminate]. cbn [rbind] in E.
  destruct (dopts_raw l) as [y|] eqn:El; [|discriminate]. cbn [rbind] in E.
  assert (b = x ++ y) as -> by congruence. apply wf_app. split; [eapply dopt_raw_wf; eauto|auto].
Qed.
Lemma dopt_read_src raw o : wf_bytes raw -> dopt_read raw = Ok o -> dopt_src o.
Proof.
  intros W. unfold dopt_read. destruct (index raw 0) as [c|]; [|discriminate]. cbn [rbind].
  destruct (index raw 1) as [n|]; [|discriminate]. cbn [rbind].
  assert (U : forall (x : dopt) (f : list Z -> dopt), (s <- utf8_dec (slice 2 (2 + n) raw) ;; Ok (f s)) = Ok x -> exists s, x = f s /\ Forall cp_ok s).
  { intros x f. destruct (utf8_dec _) as [s|] eqn:E; [|discriminate]. cbn [rbind]. intros K. exists s.
    split; [congruence|]. eapply utf8_enc_dec; [reflexivity| |exact E]. apply wf_slice, W. }
  assert (N : forall A (m : res A) (f : A -> dopt), (forall a, dopt_src (f a)) ->
            (x <- m ;; Ok (f x)) = Ok o -> dopt_src o).
  { intros A m f Hf. destruct m; [|discriminate]. cbn [rbind]. intros K. injection K as <-. apply Hf. }
  destruct (c =? 1). { apply N. intros; exact I. }
  destruct (c =? 3). { apply N. intros; exact I. }
  destruct (c =? 6). { apply N. intros; exact I. }
  destruct (c =? 12). { intros K. destruct (U o (DHost n) K) as (s & -> & H). exact H. }
  destruct (c =? 15). { intros K. destruct (U o (DDomain n) K) as (s & -> & H). exact H. }
  destruct (c =? 50). { apply N. intros; exact I. }
  destruct (c =? 51). { apply N. intros; exact I. }
  destruct (c =? 53). { apply N. intros; exact I. }
  destruct (c =? 54). { apply N. intros; exact I. }
  destruct (c =? 55). { intros K. injection K as <-. exact I. }
  intros K. injection K as <-. cbn [dopt_src]. apply wf_slice, W.
Qed.

(** The loop ends, or it has met a pad option and runs for ever. *)
Lemma dopt_raw_nofuel o : dopt_raw o <> Exn OutOfFuel.
Proof.
  assert (P : forall fs, pack fs <> Exn OutOfFuel).
  { induction fs as [|[n v|l] fs IH]; cbn [pack]; [discriminate| |];
      [destruct ((0 <=? v) && _); [|discriminate]|]; destruct (pack fs); try discriminate; intros K; apply IH; exact K. }
  assert (U : forall s, utf8_enc s <> Exn OutOfFuel).
  { induction s as [|c s IH]; cbn [utf8_enc]; [discriminate|]. unfold utf8_enc1.
    repeat match goal with |- context [if ?b then _ else _] => destruct b end; cbn [rbind]; try discriminate;
      destruct (utf8_enc s); try discriminate; intros K; apply IH; exact K. }
  destruct o; cbn [dopt_raw]; try apply P.
  1,2: destruct (utf8_enc s) eqn:E; cbn [rbind]; [apply P|]; intros K; apply (U s); rewrite E; exact K.
  unfold bytes_of_ints. destruct (wf_bytesb l); [apply P|discriminate].
Qed.
Lemma dopts_raw_nofuel l : dopts_raw l <> Exn OutOfFuel.
Proof.
  induction l as [|o l IH]; cbn [dopts_raw]; [discriminate|].
  destruct (dopt_raw o) eqn:E; cbn [rbind].
  - destruct (dopts_raw l); [discriminate|]. intros K; apply IH; exact K.
  - intros K. apply (dopt_raw_nofuel o). rewrite E. exact K.
Qed.
Lemma utf8_dec_nofuel n l : (length l <= n)%nat -> utf8_dec l <> Exn OutOfFuel.
Proof.
  revert l. induction n as [|n IH]; intros l L; [destruct l; [discriminate|cbn in L; lia]|].
  assert (R : forall r (v : Z), (length r <= n)%nat -> (t <- utf8_dec r ;; Ok (v :: t)) <> Exn OutOfFuel).
  { intros r v Lr. specialize (IH r Lr). destruct (utf8_dec r); cbn [rbind]; [discriminate|].
    intros K. apply IH. congruence. }
  destruct l as [|a l]; cbn [utf8_dec]; [discriminate|]. cbn [length] in L.
  destruct (a <? 128); [apply R; lia|].
  destruct (_ && _); [destruct l as [|b l]; [discriminate|]; destruct (is_cont b); [apply R; cbn in L; lia|discriminate]|].
  destruct (_ && _).
  { destruct l as [|b [|c l]]; try discriminate. cbn zeta. destruct (_ && _); [apply R; cbn in L; lia|discriminate]. }
  destruct (_ && _); [|discriminate].
  destruct l as [|b [|c [|d l]]]; try discriminate. cbn zeta. destruct (_ && _); [apply R; cbn in L; lia|discriminate].
Qed.
Lemma dopt_read_nofuel raw : dopt_read raw <> Exn OutOfFuel.
Proof.
  unfold dopt_read. 
  assert (I : forall (i : Z), index raw i <> Exn OutOfFuel).
  { intros i. unfold index. destruct (nth_error _ _); discriminate. }
  assert (A4 : forall b, ip4_of_bytes b <> Exn OutOfFuel).
  { intros b. unfold ip4_of_bytes. destruct (_ =? _); discriminate. }
  assert (AL : forall k p, dopt_addrs k p raw <> Exn OutOfFuel).
  { induction k as [|k IH]; intros p; cbn [dopt_addrs]; [discriminate|].
    pose proof (A4 (slice p (p + 4) raw)). destruct (ip4_of_bytes _); cbn [rbind]; [|congruence].
    pose proof (IH (p + 4)). destruct (dopt_addrs _ _ _); cbn [rbind]; congruence. }
  assert (B : forall X (m : res X) (f : X -> dopt), m <> Exn OutOfFuel -> (x <- m ;; Ok (f x)) <> Exn OutOfFuel).
  { intros X m f H. destruct m; cbn [rbind]; congruence. }
  pose proof (I 0). destruct (index raw 0) as [c|]; cbn [rbind]; [|congruence].
  pose proof (I 1). destruct (index raw 1) as [n|]; cbn [rbind]; [|congruence].
  destruct (c =? 1). { apply B. unfold mask_of_bytes. destruct (_ =? _); [destruct (validate_bits _)|]; discriminate. }
  destruct (c =? 3). { apply B, AL. }
  destruct (c =? 6). { apply B, AL. }
  destruct (c =? 12). { apply B. eapply utf8_dec_nofuel; reflexivity. }
  destruct (c =? 15). { apply B. eapply utf8_dec_nofuel; reflexivity. }
  destruct (c =? 50). { apply B, A4. }
  destruct (c =? 51). { apply B. unfold unpack. destruct (Nat.eqb _ _); discriminate. }
  destruct (c =? 53). { apply B, I. }
  destruct (c =? 54). { apply B, A4. }
  destruct (c =? 55); discriminate.
Qed.

Lemma dhcp_loop_dichotomy fuel : forall raw i acc, wf_bytes raw -> Forall dopt_src acc -> 0 <= i ->
  zlen raw - i < Z.of_nat fuel ->
  (dhcp_loop fuel raw i acc <> Exn OutOfFuel /\
   forall k, (fuel <= k)%nat -> dhcp_loop k raw i acc = dhcp_loop fuel raw i acc) \/
  (In 0 raw /\ forall k, dhcp_loop k raw i acc = Exn OutOfFuel).
Proof.
  induction fuel as [|fuel IH]; intros raw i acc W Ha Hi L.
  - left. cbn [dhcp_loop]. destruct (Z.ltb_spec i (zlen raw)); [lia|]. split; [discriminate|].
    intros [|k] _; cbn [dhcp_loop]; destruct (Z.ltb_spec i (zlen raw)); auto; lia.
  - destruct (Z.ltb_spec i (zlen raw)) as [Li|Li].
    2:{ left. cbn [dhcp_loop]. destruct (Z.ltb_spec i (zlen raw)); [lia|]. split; [discriminate|].
        intros [|k] _; cbn [dhcp_loop]; destruct (Z.ltb_spec i (zlen raw)); auto; lia. }
    destruct (index_ok raw i ltac:(lia)) as [c Ec].
    destruct (Z.eq_dec c 0) as [->|Nc]. { right. split; [apply index_In in Ec; exact Ec|]. intros k. apply dhcp_loop_pad; auto. }
    set (body := fun k => if c =? 255 then Ok (acc ++ [DEnd]) else
          n <- index raw (i + 1) ;; o <- dopt_read (slice i (i + n + 2) raw) ;;
          again <- dopts_raw (acc ++ [o]) ;; n' <- index again (i + 1) ;;
          dhcp_loop k raw (i + (n' + 2)) (acc ++ [o])).
    assert (St : forall k, dhcp_loop (S k) raw i acc = body k).
    { intros k. cbn [dhcp_loop]. destruct (Z.ltb_spec i (zlen raw)); [|lia]. rewrite Ec. cbn [rbind].
      unfold body. destruct (c =? 255); [reflexivity|]. destruct (Z.eqb_spec c 0); [lia|]. reflexivity. }
    assert (Z0 : dhcp_loop 0 raw i acc = Exn OutOfFuel).
    { cbn [dhcp_loop]. destruct (Z.ltb_spec i (zlen raw)); [reflexivity|lia]. }
    assert (C : (exists r, r <> Exn OutOfFuel /\ forall k, body k = r) \/
                exists n' acc', 0 <= n' /\ Forall dopt_src acc' /\ forall k, body k = dhcp_loop k raw (i + (n' + 2)) acc').
    { unfold body. destruct (c =? 255). { left. eexists. split; [|reflexivity]. discriminate. }
      destruct (index raw (i + 1)) as [n|e] eqn:En; cbn [rbind].
      2:{ left. eexists. split; [|reflexivity]. unfold index in En. destruct (nth_error _ _); congruence. }
      pose proof (dopt_read_nofuel (slice i (i + n + 2) raw)) as Nf.
      destruct (dopt_read (slice i (i + n + 2) raw)) as [o|e] eqn:Eo; cbn [rbind].
      2:{ left. eexists. split; [|reflexivity]. congruence. }
      assert (Fo : Forall dopt_src (acc ++ [o])).
      { apply Forall_app. split; [exact Ha|]. constructor; [|constructor]. eapply dopt_read_src; [|exact Eo].
        apply wf_slice, W. }
      pose proof (dopts_raw_nofuel (acc ++ [o])) as Nf2.
      destruct (dopts_raw (acc ++ [o])) as [ag|e] eqn:Eg; cbn [rbind].
      2:{ left. eexists. split; [|reflexivity]. congruence. }
      destruct (index ag (i + 1)) as [n'|e] eqn:En'; cbn [rbind].
      2:{ left. eexists. split; [|reflexivity]. unfold index in En'. destruct (nth_error _ _); congruence. }
      right. exists n', (acc ++ [o]). split; [|split; [exact Fo|reflexivity]].
      pose proof (wf_index _ _ _ (dopts_raw_wf _ _ Fo Eg) En') as B. unfold is_byte in B. lia. }
    destruct C as [(r & Nr & Er)|(n' & acc' & Hn & Fa & Er)].
    + left. rewrite St, Er. split; [exact Nr|]. intros [|k] Hk; [lia|]. rewrite St, Er. reflexivity.
    + destruct (IH raw (i + (n' + 2)) acc' W Fa ltac:(lia) ltac:(lia)) as [[A B]|[A B]].
      * left. rewrite St, Er. split; [exact A|]. intros [|k] Hk; [lia|]. rewrite St, Er. apply B. lia.
      * right. split; [exact A|]. intros [|k]; [exact Z0|]. rewrite St, Er. apply B.
Qed.

(** ** messages *)
Lemma slice_0_exact' {A} (p l : list A) a b : a = 0 -> b = zlen p -> slice a b (p ++ l) = p.
Proof. intros ->. apply slice_0_exact. Qed.
Lemma dhcp_wire_opts op ht hl hops xid secs flags ci yi si gi cha sname file opts :
  dhcp_wire op ht hl hops xid secs flags ci yi si gi cha sname file opts =
  dhcp_wire op ht hl hops xid secs flags ci yi si gi cha sname file [] ++ opts.
Proof. unfold dhcp_wire. rewrite <- !app_assoc. reflexivity. Qed.
Lemma dhcp_parse_wire op ht hl hops xid secs flags ci yi si gi cha sname file l rest :
  0 <= op < 256 -> 0 <= ht < 256 -> 0 <= hl <= 16 -> 0 <= hops < 256 ->
  0 <= xid < 2 ^ 32 -> 0 <= secs < 65536 -> 0 <= flags < 65536 ->
  0 <= ci < 2 ^ 32 -> 0 <= yi < 2 ^ 32 -> 0 <= si < 2 ^ 32 -> 0 <= gi < 2 ^ 32 ->
  zlen cha = 16 -> zlen sname = 64 -> zlen file = 128 -> Forall dopt_ok l ->
  dhcp_parse (dhcp_wire op ht hl hops xid secs flags ci yi si gi cha sname file (dopts_wire l ++ 255 :: rest)) =
  Ok {| d_op := op; d_hwtype := ht; d_hwlen := hl; d_hops := hops; d_xid := xid; d_secs := secs;
        d_flag_b := 32768 <=? flags; d_ciaddr := ci; d_yiaddr := yi; d_siaddr := si; d_giaddr := gi;
        d_chaddr := slice 0 hl cha; d_sname := sname; d_file := file; d_opts := l ++ [DEnd] |}.
Proof.
  intros Hop Hht Hhl Hhops Hxid Hsecs Hfl Hci Hyi Hsi Hgi Lc Ls Lf Ho.
  unfold dhcp_parse, dhcp_parse_fuel, dhcp_wire.
  set (o := dopts_wire l ++ 255 :: rest).
  set (T := cha ++ sname ++ file ++ [99; 130; 83; 99]).
  set (H := [op; ht; hl; hops] ++ be_enc 4 xid ++ be_enc 2 secs ++ be_enc 2 flags ++ be_enc 4 ci ++ be_enc 4 yi
    ++ be_enc 4 si ++ be_enc 4 gi ++ T).
  match goal with |- context [zlen ?f =? 0] => replace f with (H ++ o) by (unfold H, T; rewrite <- !app_assoc; reflexivity) end.
  assert (LT : zlen T = 212) by (unfold T; rewrite !zlen_app, Lc, Ls, Lf; reflexivity).
  assert (LH : zlen H = 240) by (unfold H; rewrite !zlen_app, !be_enc_zlen, LT; reflexivity).
  assert (Eo : dhcp_loop (S (length (H ++ o))) o 0 [] = Ok (l ++ [DEnd])).
  { apply dhcp_loop_end; [exact Ho|]. rewrite app_length. unfold o. rewrite app_length.
    pose proof (dopts_wire_len l Ho). lia. }
  set (fuel := S (length (H ++ o))) in *. clearbody fuel.
  assert (zlen (H ++ o) =? 0 = false) as -> by (rewrite zlen_app; pose proof (zlen_nonneg o); lia).
  cbn zeta. rewrite slice_0_exact by auto. rewrite slice_from_exact by auto. rewrite Eo. clear Eo. clearbody o.
  assert (TA : slice 28 (28 + hl) H = slice 0 hl cha /\ slice 44 108 H = sname /\ slice 108 236 H = file).
  { set (P := [op; ht; hl; hops] ++ be_enc 4 xid ++ be_enc 2 secs ++ be_enc 2 flags ++ be_enc 4 ci ++ be_enc 4 yi
      ++ be_enc 4 si ++ be_enc 4 gi).
    assert (LP : zlen P = 28) by (unfold P; rewrite !zlen_app, !be_enc_zlen; reflexivity).
    replace H with (P ++ T) by (unfold H, P; rewrite <- !app_assoc; reflexivity).
    rewrite !(slice_app_shift P T) by lia. rewrite LP. unfold T.
    replace (28 - 28) with 0 by lia. replace (28 + hl - 28) with hl by lia. repeat split.
    - apply slice_app_in; lia.
    - rewrite slice_app_shift by lia. apply slice_0_exact' ; lia.
    - rewrite slice_app_shift by lia. rewrite slice_app_shift by lia. apply slice_0_exact'; lia. }
  destruct TA as (T1 & T2 & T3).
  assert (HA : index H 0 = Ok op /\ index H 1 = Ok ht /\ index H 2 = Ok hl /\ index H 3 = Ok hops /\
    unpack 4 (slice 4 8 H) = Ok xid /\ unpack 2 (slice 8 10 H) = Ok secs /\ unpack 2 (slice 10 12 H) = Ok flags /\
    ip4_of_bytes (slice 12 16 H) = Ok ci /\ ip4_of_bytes (slice 16 20 H) = Ok yi /\
    ip4_of_bytes (slice 20 24 H) = Ok si /\ ip4_of_bytes (slice 24 28 H) = Ok gi).
  { unfold H. clear LH H T1 T2 T3 LT. clearbody T. explode 4%nat xid. explode 2%nat secs. explode 2%nat flags.
    explode 4%nat ci. explode 4%nat yi. explode 4%nat si. explode 4%nat gi. cbn [app]. unfold ip4_of_bytes. readf.
    rewrite B, B0, B1, B2, B3, B4, B5. repeat split. }
  clearbody H. destruct HA as (-> & -> & -> & -> & -> & -> & -> & -> & -> & -> & ->). cbn [rbind].
  rewrite T1, T2, T3. do 2 f_equal. rewrite (land_bit flags 15 0x8000) by (try lia; reflexivity).
  change (2 ^ 15) with 32768; clear - Hfl; dm; lia.
Qed.

Definition is_text (s : list Z) : Prop := Forall (fun c => 0 <= c < 128) s /\ zlen s < 256.
Lemma utf8_ascii s : Forall (fun c => 0 <= c < 128) s -> utf8 s = s /\ Forall cp_ok s.
Proof.
  intros H. assert (E : utf8_enc s = Ok s /\ Forall cp_ok s).
  { induction H as [|c s Hc Hs [IH IF]]; [split; [reflexivity|constructor]|]. cbn [utf8_enc]. unfold utf8_enc1.
    destruct (Z.ltb_spec c 128); [|lia]. rewrite IH. split; [reflexivity|]. constructor; [|exact IF].
    split; [lia|unfold is_surrogate; lia]. }
  unfold utf8. destruct E as [-> E]. auto.
Qed.
Definition opt_all {A} (P : A -> Prop) (o : option A) : Prop := forall x, o = Some x -> P x.
(** what the caller may ask for: values in range, lists and ASCII names that fit
    into an option *)
Definition dhcp_tx_ok (t : dhcp_tx) : Prop :=
  0 <= dt_op t < 256 /\ 0 <= dt_xid t < 2 ^ 32 /\ 0 <= dt_ciaddr t < 2 ^ 32 /\ 0 <= dt_yiaddr t < 2 ^ 32 /\
  0 <= dt_siaddr t < 2 ^ 32 /\ 0 <= dt_giaddr t < 2 ^ 32 /\ zlen (dt_chaddr t) = 6 /\
  opt_all (fun m => exists k, 0 <= k <= 32 /\ m = prefix_mask 32 k) (dt_mask t) /\
  opt_all (fun l => zlen l < 64 /\ Forall (fun a => 0 <= a < 2 ^ 32) l) (dt_router t) /\
  opt_all (fun l => zlen l < 64 /\ Forall (fun a => 0 <= a < 2 ^ 32) l) (dt_dns t) /\
  opt_all is_text (dt_host t) /\ opt_all is_text (dt_domain t) /\
  opt_all (fun a => 0 <= a < 2 ^ 32) (dt_req_ip t) /\ opt_all (fun v => 0 <= v < 2 ^ 32) (dt_lease t) /\
  opt_all (fun a => 0 <= a < 2 ^ 32) (dt_srv t) /\
  opt_all (fun l => zlen l < 256 /\ wf_bytes l) (dt_params t) /\ opt_all (fun v => 0 <= v < 256) (dt_msg t).

Lemma opt_if_ok {A} (P : A -> Prop) tr f (o : option A) : opt_all P o -> (forall x, P x -> dopt_ok (f x)) ->
  Forall dopt_ok (opt_if tr f o).
Proof.
  intros H K. destruct o as [x|]; cbn [opt_if]; [|constructor]. destruct (tr x); [|constructor].
  constructor; [|constructor]. apply K, H. reflexivity.
Qed.
Lemma dhcp_build_opts t : dhcp_tx_ok t -> exists l, Forall dopt_ok l /\ d_opts (dhcp_build t) = l ++ [DEnd].
Proof.
  intros (_ & _ & _ & _ & _ & _ & _ & H1 & H2 & H3 & H4 & H5 & H6 & H7 & H8 & H9 & H10).
  eexists. split; [|cbn [dhcp_build d_opts]; rewrite !app_assoc; reflexivity].
  repeat (apply Forall_app; split).
  - eapply opt_if_ok; [exact H1|]. intros m Hm. split; auto.
  - eapply opt_if_ok; [exact H2|]. intros m [L F]. split; [lia|]. split; [lia|exact F].
  - eapply opt_if_ok; [exact H3|]. intros m [L F]. split; [lia|]. split; [lia|exact F].
  - eapply opt_if_ok; [exact H4|]. intros m [F L]. destruct (utf8_ascii m F) as [E C]. cbn [dopt_ok]. rewrite E. auto.
  - eapply opt_if_ok; [exact H5|]. intros m [F L]. destruct (utf8_ascii m F) as [E C]. cbn [dopt_ok]. rewrite E. auto.
  - eapply opt_if_ok; [exact H6|]. intros m Hm. split; auto.
  - eapply opt_if_ok; [exact H7|]. intros m Hm. split; auto.
  - eapply opt_if_ok; [exact H8|]. intros m Hm. split; auto.
  - eapply opt_if_ok; [exact H9|]. intros m [L F]. split; auto.
  - eapply opt_if_ok; [exact H10|]. intros m Hm. split; auto.
Qed.

Lemma dhcp_round_trip t : dhcp_tx_ok t ->
  exists l w, Forall dopt_ok l /\ d_opts (dhcp_build t) = l ++ [DEnd] /\
    w = dhcp_wire (dt_op t) 1 6 0 (dt_xid t) 0 (if dt_flag_b t then 32768 else 0)
          (dt_ciaddr t) (dt_yiaddr t) (dt_siaddr t) (dt_giaddr t) (dt_chaddr t ++ repeat 0 10)
          (repeat 0 64) (repeat 0 128) (dopts_wire l ++ [255]) /\
    dhcp_raw_packet (dhcp_build t) = Ok w /\
    forall pad, dhcp_parse (w ++ pad) = Ok (dhcp_build t).
Proof.
  intros H. destruct (dhcp_build_opts t H) as (l & Hl & El). exists l. eexists.
  split; [exact Hl|]. split; [exact El|]. split; [reflexivity|].
  destruct H as (Hop & Hx & Hc & Hy & Hs & Hg & Lc & _).
  assert (L16 : zlen (dt_chaddr t ++ repeat 0 10) = 16) by (rewrite zlen_app, Lc; reflexivity).
  split.
  - unfold dhcp_raw_packet. rewrite El.
    rewrite (dopts_raw_app l [DEnd] (dopts_wire l) [255]); [|apply dopts_raw_ok, Hl|reflexivity].
    unfold dhcp_raw_header, ip4_bytes. cbn [dhcp_build d_op d_hwtype d_hwlen d_hops d_xid d_secs d_flag_b d_ciaddr d_yiaddr
      d_siaddr d_giaddr d_chaddr d_sname d_file].
    rewrite (fit_exact 16) by exact L16. rewrite (fit_exact 64), (fit_exact 128) by reflexivity.
    replace (Z.shiftl (b2z (dt_flag_b t)) 15) with (if dt_flag_b t then 32768 else 0) by (destruct (dt_flag_b t); reflexivity).
    assert (0 <= (if dt_flag_b t then 32768 else 0) < 65536) by (destruct (dt_flag_b t); lia).
    rewrite dhcp_wire_opts.
    match goal with |- (h <- ?p ;; _) = Ok (?w ++ _) => assert (p = Ok w) as -> end.
    { unfold dhcp_wire. cbn [app]. packs. }
    reflexivity.
  - intros pad.
    match goal with |- dhcp_parse (dhcp_wire ?a ?b ?c ?d ?e ?f ?g ?h ?i ?j ?k ?m ?n ?o _ ++ _) = _ =>
      replace (dhcp_wire a b c d e f g h i j k m n o (dopts_wire l ++ [255]) ++ pad)
      with (dhcp_wire a b c d e f g h i j k m n o (dopts_wire l ++ 255 :: pad))
      by (unfold dhcp_wire; rewrite <- !app_assoc; reflexivity) end.
    rewrite dhcp_parse_wire; auto; try lia; try (destruct (dt_flag_b t); lia); try reflexivity.
    rewrite <- El. unfold dhcp_build. cbn [d_opts]. do 2 f_equal.
    + destruct (dt_flag_b t); reflexivity.
    + apply slice_0_exact. auto.
Qed.
