(** Lemmas and tactics shared by the codec proofs. *)
From Verif Require Import BaseLemmas BitLemmas CodecModel CksumModel AddrModel AddrProofs.

(** ** explicit byte lists *)
(** replace be_enc n v by n fresh bytes, remembering their value, range *)
Lemma be_enc_intro n v : 0 <= v < 256 ^ Z.of_nat n ->
  exists l, be_enc n v = l /\ zlen l = Z.of_nat n /\ wf_bytes l /\ be l = v.
Proof.
  intros H. exists (be_enc n v). split; [auto|]. split; [apply be_enc_zlen|].
  split; [apply be_enc_wf|]. apply be_be_enc_small; auto.
Qed.

Ltac explode n v :=
  let l := fresh "w" in let E := fresh "E" in let L := fresh "L" in
  let W := fresh "W" in let B := fresh "B" in
  destruct (be_enc_intro n v) as (l & E & L & W & B);
  [try (cbn; lia)|rewrite E in *; clear E;
   match type of L with _ = ?c => let d := eval vm_compute in c in change c with d in L end;
   inv_len L].

(** the first n bytes of a long enough list: H : n <= zlen l *)
Ltac take_bytes H :=
  match type of H with
  | 0 <= zlen ?l => clear H
  | Zpos _ <= zlen ?l =>
      let x := fresh "b" in let r := fresh "r" in let E := fresh "E" in
      destruct l as [|x r]; [exfalso; unfold zlen in H; cbn in H; lia|];
      rewrite zlen_cons in H;
      match type of H with ?c <= 1 + zlen ?r' =>
        let d := eval vm_compute in (c - 1) in
        assert (E : d <= zlen r') by lia; clear H; take_bytes E
      end
  end.

(** byte ranges out of wf_bytes of an explicit list *)
Lemma wf_cons_inv b l : wf_bytes (b :: l) -> is_byte b /\ wf_bytes l.
Proof. intros H; inversion H; auto. Qed.
Ltac wf_split H :=
  repeat match type of H with
  | wf_bytes (_ :: _) =>
      let H1 := fresh "Hb" in let H2 := fresh "Ht" in
      destruct (wf_cons_inv _ _ H) as [H1 H2]; clear H; rename H2 into H
  end.
Ltac wf_solve :=
  repeat (apply wf_cons; [assumption|]); first [assumption | apply wf_nil].

(** evaluation of field readers on explicit lists *)
Ltac readf :=
  unfold u8, u16, u32, index, unpack;
  repeat match goal with
  | |- context [slice ?a ?b ?l] =>
      let n := eval vm_compute in (Z.to_nat (b - a)) in
      let m := eval vm_compute in (Z.to_nat a) in
      change (slice a b l) with (firstn n (skipn m l)); cbn [firstn skipn]
  | |- context [slice_from (Zpos ?a) ?l] =>
      let m := eval vm_compute in (Z.to_nat (Zpos a)) in
      change (slice_from (Zpos a) l) with (skipn m l); cbn [skipn]
  | |- context [nth_error ?l (Z.to_nat ?i)] =>
      let m := eval vm_compute in (Z.to_nat i) in
      change (Z.to_nat i) with m; cbn [nth_error]
  end;
  cbn [length Nat.eqb rbind].

Lemma unpack_exact n l : length l = n -> unpack n l = Ok (be l).
Proof. intros <-. unfold unpack. rewrite Nat.eqb_refl. reflexivity. Qed.

(** ** bit masks *)
Lemma land_15 x : Z.land x 0x0F = x mod 16.
Proof. change 0x0F with (2 ^ 4 - 1). apply land_ones'. lia. Qed.
Lemma land_3 x : Z.land x 0x03 = x mod 4.
Proof. change 0x03 with (2 ^ 2 - 1). apply land_ones'. lia. Qed.
Lemma land_1 x : Z.land x 0x01 = x mod 2.
Proof. change 0x01 with (2 ^ 1 - 1). apply land_ones'. lia. Qed.
Lemma land_ff x : Z.land x 0xFF = x mod 256.
Proof. change 0xFF with (2 ^ 8 - 1). apply land_ones'. lia. Qed.
Lemma land_1fff x : Z.land x 0x1FFF = x mod 8192.
Proof. change 0x1FFF with (2 ^ 13 - 1). apply land_ones'. lia. Qed.
(** keeping the bits k..k+n-1 *)
Lemma land_field x k n : 0 <= k -> 0 <= n ->
  Z.land x ((2 ^ n - 1) * 2 ^ k) = x / 2 ^ k mod 2 ^ n * 2 ^ k.
Proof.
  intros Hk Hn. apply Z.bits_inj'. intros i Hi.
  rewrite Z.land_spec, !Z.mul_pow2_bits by auto.
  destruct (Z.ltb_spec i k) as [L|L].
  - rewrite !(Z.testbit_neg_r _ (i - k)) by lia. apply andb_false_r.
  - rewrite <- Z.shiftr_div_pow2 by auto.
    replace (2 ^ n - 1) with (Z.ones n) by (rewrite Z.ones_equiv; lia).
    destruct (Z.ltb_spec (i - k) n) as [L'|L'].
    + rewrite Z.ones_spec_low by lia. rewrite Z.mod_pow2_bits_low by lia.
      rewrite Z.shiftr_spec by lia. replace (i - k + k) with i by lia. apply andb_true_r.
    + rewrite Z.ones_spec_high by lia. rewrite Z.mod_pow2_bits_high by lia. apply andb_false_r.
Qed.
Lemma shr_land_field x k n m : 0 <= k -> 0 <= n -> m = (2 ^ n - 1) * 2 ^ k ->
  Z.shiftr (Z.land x m) k = x / 2 ^ k mod 2 ^ n.
Proof.
  intros Hk Hn ->. rewrite land_field, Z.shiftr_div_pow2 by auto.
  apply Z.div_mul. apply Z.pow_nonzero; lia.
Qed.
(** a single flag bit *)
Lemma land_bit x k m : 0 <= k -> m = 2 ^ k -> z2b (Z.land x m) = (x / 2 ^ k mod 2 =? 1).
Proof.
  intros Hk ->. assert (0 < 2 ^ k) by (apply Z.pow_pos_nonneg; lia).
  pose proof (land_field x k 1 Hk ltac:(lia)) as E. change (2 ^ 1 - 1) with 1 in E.
  change (2 ^ 1) with 2 in E. rewrite Z.mul_1_l in E. rewrite E. unfold z2b.
  pose proof (Z.mod_pos_bound (x / 2 ^ k) 2 ltac:(lia)).
  destruct (Z.eqb_spec (x / 2 ^ k mod 2) 1) as [->|N]; [|replace (x / 2 ^ k mod 2) with 0 by lia];
    destruct (Z.eqb_spec (1 * 2 ^ k) 0), (Z.eqb_spec (0 * 2 ^ k) 0); cbn; lia || reflexivity.
Qed.

(** ** packing *)
Lemma pack_FI n v r w : 0 <= v < 256 ^ Z.of_nat n -> pack r = Ok w ->
  pack (FI n v :: r) = Ok (be_enc n v ++ w).
Proof.
  intros H E. cbn [pack]. rewrite E. replace (0 <=? v) with true by lia.
  replace (v <? 256 ^ Z.of_nat n) with true by lia. reflexivity.
Qed.
Lemma pack_FB l r w : pack r = Ok w -> pack (FB l :: r) = Ok (l ++ w).
Proof. intros E. cbn [pack]. rewrite E. reflexivity. Qed.
Lemma pack_FI_exn n v r : ~ 0 <= v < 256 ^ Z.of_nat n -> pack (FI n v :: r) = Exn StructError.
Proof.
  intros H. cbn [pack]. destruct ((0 <=? v) && (v <? 256 ^ Z.of_nat n)) eqn:E; [|auto].
  exfalso; apply H. lia.
Qed.
Lemma pack_nil : pack [] = Ok []. Proof. reflexivity. Qed.
Lemma pack_FI1 v r w : 0 <= v < 256 -> pack r = Ok w -> pack (FI 1 v :: r) = Ok (v :: w).
Proof.
  intros H E. rewrite (pack_FI 1 v r w H E). cbn [be_enc app]. rewrite Z.mod_small by lia. reflexivity.
Qed.
Lemma pack_FB_last l : pack [FB l] = Ok l.
Proof. cbn [pack rbind]. rewrite app_nil_r. reflexivity. Qed.
Ltac packs := repeat first [apply pack_FB_last | apply pack_FI1; [try lia|] | apply pack_FI; [try (cbn; lia)|] | apply pack_FB | apply pack_nil].

(** writing at the start of a buffer: the buffer's first bytes are replaced *)
Lemma pack_into_0 buf fs w : pack fs = Ok w -> zlen w <= zlen buf ->
  pack_into buf 0 fs = Ok (w ++ slice_from (zlen w) buf).
Proof.
  intros E L. unfold pack_into. rewrite E. cbn [rbind]. rewrite Z.add_0_l.
  replace (zlen w <=? zlen buf) with true by lia. f_equal.
  unfold overwrite, slice_from. cbn [firstn app]. change (Z.to_nat 0) with 0%nat.
  rewrite Nat.add_0_l. unfold zlen. rewrite Nat2Z.id. reflexivity.
Qed.
Lemma pack_into_full buf fs w : pack fs = Ok w -> zlen w = zlen buf ->
  pack_into buf 0 fs = Ok w.
Proof.
  intros E L. rewrite (pack_into_0 _ _ _ E) by lia. f_equal. rewrite L.
  unfold slice_from, zlen. rewrite Nat2Z.id, skipn_all. apply app_nil_r.
Qed.
(** filling a two-byte field in the middle *)
Lemma pack_into_mid p m s off n v : off = zlen p -> zlen m = Z.of_nat n ->
  0 <= v < 256 ^ Z.of_nat n ->
  pack_into (p ++ m ++ s) off [FI n v] = Ok (p ++ be_enc n v ++ s).
Proof.
  intros -> Lm H. unfold pack_into. rewrite (pack_FI n v [] [] H pack_nil). cbn [rbind].
  rewrite app_nil_r. rewrite !zlen_app, be_enc_zlen. pose proof (zlen_nonneg s).
  replace (zlen p + Z.of_nat n <=? zlen p + (zlen m + zlen s)) with true by lia.
  f_equal. apply overwrite_mid.
  - unfold zlen. rewrite Nat2Z.id. reflexivity.
  - rewrite be_enc_length. unfold zlen in Lm. lia.
Qed.

Lemma slice_0_exact {A} (p l : list A) a : a = zlen p -> slice 0 a (p ++ l) = p.
Proof.
  intros ->. unfold slice, zlen. rewrite Z.sub_0_r, Nat2Z.id. cbn [Z.to_nat skipn].
  rewrite firstn_app, Nat.sub_diag, firstn_all. cbn. apply app_nil_r.
Qed.
Lemma slice_from_all {A} (l : list A) a : zlen l <= a -> slice_from a l = [].
Proof. intros. unfold slice_from. apply skipn_all2. unfold zlen in H. lia. Qed.
Lemma pack_one v : 0 <= v < 256 -> be_enc 1 v = [v].
Proof. intros. cbn [be_enc app]. rewrite Z.mod_small by lia. reflexivity. Qed.

(** "c assembles to enc": whatever the buffer held, the carried packet fills it
    with enc (which may depend on the pseudo header sum only) *)
Definition asm_to (c : carried) (enc : Z -> bytes) (ps : Z) : Prop :=
  zlen (enc ps) = c_len c /\ forall buf, zlen buf = c_len c -> c_asm c buf ps = Ok (enc ps).

Lemma asm_tail_ok hdr tl c enc ps hlen :
  hlen = zlen hdr -> zlen tl = c_len c -> asm_to c enc ps ->
  asm_tail (hdr ++ tl) hlen c ps = Ok (hdr ++ enc ps).
Proof.
  intros -> L [_ H]. unfold asm_tail. rewrite slice_from_exact by auto. rewrite H by auto.
  cbn [rbind]. rewrite slice_0_exact by auto. reflexivity.
Qed.

Lemma raw_asm_to data ps : asm_to (raw_carried data) (fun _ => data) ps.
Proof.
  split; [reflexivity|]. intros buf L. cbn [raw_carried c_len c_asm] in *. unfold raw_asm.
  apply pack_into_full; [|lia]. rewrite (pack_FB data [] []) by reflexivity.
  rewrite app_nil_r. reflexivity.
Qed.
