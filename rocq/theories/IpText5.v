(** Lemmas: equality of addresses, socket identifiers, masks, networks, hosts. *)
From Verif Require Import Base BaseLemmas AddrModel AddrProofs SpecAddr IpTextModel.
From Verif Require Import SpecIpText IpText1 IpText2 IpText3 IpText4.
From Coq Require Import Lia.

(** * Round trip and equality *)
Lemma bytes_words_back n b : length b = (2 * n)%nat -> wf_bytes b ->
  words_bytes (bytes_words b) = b /\ length (bytes_words b) = n
  /\ Forall (fun w => 0 <= w < 65536) (bytes_words b).
Proof.
  revert b. induction n as [|n IH]; intros b L W.
  - destruct b; [|discriminate]. split; [reflexivity|]. split; [reflexivity|constructor].
  - destruct b as [|x [|y b]]; [cbn in L; lia|cbn in L; lia|].
    inversion W as [|? ? X W']; subst. inversion W' as [|? ? Y W'']; subst.
    destruct (IH b) as (E & N & F); [cbn in L; lia|auto|].
    cbn. rewrite N. unfold is_byte in *. split; [|split; [auto|constructor; [lia|auto]]].
    fold (words_bytes (bytes_words b)). rewrite E. f_equal; [|f_equal].
    + symmetry. apply Z.div_unique with y; lia.
    + symmetry. apply Z.mod_unique with x; lia.
Qed.
Theorem ip6_round a : 0 <= a < 2 ^ 128 -> ip6_of_text (ip6_str a) = TOk a.
Proof.
  intros A. unfold ip6_str.
  destruct (bytes_words_back 8 (ip6_bytes a)) as (E & L & F).
  - reflexivity.
  - rewrite ip6_bytes_enc by auto. apply be_enc_wf.
  - assert (Z8 : zlen (bytes_words (ip6_bytes a)) = 8) by (unfold zlen; rewrite L; reflexivity).
    rewrite (ntop6_read _ Z8 F). pose proof (ip6_words _ Z8 F) as X.
    rewrite E, (ip6_bytes_round a A) in X. congruence.
Qed.

Definition ip_of_text (v6 : bool) (t : text) : tres Z := if v6 then ip6_of_text t else ip4_of_text t.
Lemma ip_round v6 a : ip_range v6 a -> ip_of_text v6 (ip_str v6 a) = TOk a.
Proof. destruct v6; [apply ip6_round|apply ip4_round]. Qed.
Lemma ip_str_inj v6 a b : ip_range v6 a -> ip_range v6 b -> ip_str v6 a = ip_str v6 b -> a = b.
Proof.
  intros A B E. apply ip_round in A. apply ip_round in B. rewrite E, B in A. congruence.
Qed.
Lemma text_eqb_spec a : forall b, text_eqb a b = true <-> a = b.
Proof.
  induction a as [|x a IH]; intros [|y b]; cbn; try (split; congruence).
  rewrite andb_true_iff, IH. split; [intros [X ->]; f_equal; lia|intros X; injection X as -> ->; split; [lia|auto]].
Qed.
Theorem ip_eq_iff v6 a w6 b : ip_range v6 a -> ip_range w6 b ->
  (ip_eq v6 a w6 b = true <-> v6 = w6 /\ a = b).
Proof.
  intros A B. unfold ip_eq. rewrite text_eqb_spec. split; [|intros [-> ->]; reflexivity].
  unfold ip_repr. intros E. apply app_inv_head in E.
  assert (V : v6 = w6) by (destruct v6, w6; auto; discriminate E). subst w6.
  apply app_inv_head in E. apply app_inv_head in E. apply app_inv_tail in E.
  split; auto. eapply ip_str_inj; eauto.
Qed.

(** * Decimal numbers *)
Lemma dec_fuel_ok f : forall n acc, 0 <= n < 2 ^ (Z.of_nat f + 1) ->
  exists t, dec_fuel f n acc = t ++ acc /\ dec_num t n /\ t <> [].
Proof.
  induction f as [|f IH]; intros n acc N.
  - change (2 ^ (Z.of_nat 0 + 1)) with 2 in N. cbn. replace (n <? 10) with true by lia.
    exists [48 + n]. split; [reflexivity|]. split; [|discriminate].
    replace n with (0 * 10 + (48 + n - 48)) at 2 by lia. change [48 + n] with ([] ++ [48 + n]).
    constructor; [constructor|]. unfold dec_char. lia.
  - cbn [dec_fuel]. destruct (n <? 10) eqn:T.
    + exists [48 + n]. split; [reflexivity|]. split; [|discriminate].
      replace n with (0 * 10 + (48 + n - 48)) at 2 by lia. change [48 + n] with ([] ++ [48 + n]).
      constructor; [constructor|]. unfold dec_char. lia.
    + pose proof (Z.div_mod n 10 ltac:(lia)). pose proof (Z.mod_pos_bound n 10 ltac:(lia)).
      destruct (IH (n / 10) (48 + n mod 10 :: acc)) as (t & E & D & NE).
      { replace (Z.of_nat (S f) + 1) with (Z.succ (Z.of_nat f + 1)) in N by lia.
        rewrite Z.pow_succ_r in N by lia. lia. }
      exists (t ++ [48 + n mod 10]). rewrite E, <- app_assoc. split; [reflexivity|].
      split; [|now destruct t].
      replace n with (n / 10 * 10 + (48 + n mod 10 - 48)) at 2 by lia.
      constructor; auto. unfold dec_char. lia.
Qed.
Lemma dec_str_num n : 0 <= n -> dec_num (dec_str n) n /\ dec_str n <> [].
Proof.
  intros N. unfold dec_str. destruct (dec_fuel_ok (Z.to_nat (Z.log2 n)) n []) as (t & E & D).
  - pose proof (Z.log2_nonneg n). rewrite Z2Nat.id by auto.
    destruct (Z.eq_dec n 0) as [->|]; [cbn; lia|].
    pose proof (Z.log2_spec n ltac:(lia)) as [_ L]. unfold Z.succ in L. lia.
  - rewrite E, app_nil_r. exact D.
Qed.
Lemma dec_str_inj n m : 0 <= n -> 0 <= m -> dec_str n = dec_str m -> n = m.
Proof.
  intros N M E. apply dec_str_num in N as [N _]. apply dec_str_num in M as [M _].
  rewrite E in N. eapply dec_fun; eauto.
Qed.

(** * Socket identifiers *)
Lemma slash_inj a a' b b' : no_slash a -> no_slash a' -> a ++ 47 :: b = a' ++ 47 :: b' -> a = a' /\ b = b'.
Proof.
  intros A. revert a'. induction A as [|c a C A IH]; intros [|c' a'] A' E; inversion A'; subst.
  - injection E as ->. auto.
  - injection E as <- _. congruence.
  - injection E as -> _. congruence.
  - cbn in E. injection E as -> E. destruct (IH a' H2 E) as [-> ->]. auto.
Qed.
Lemma ip_str_no_slash v6 a : ip_range v6 a -> no_slash (ip_str v6 a).
Proof.
  intros A. destruct v6.
  - apply ip6_round in A. apply ip6_text_iff in A as [D _]. apply denotes_chars in D.
    eapply Forall_impl; [|exact D]. unfold text_char, addr_char. intros; lia.
  - apply ip4_str_quad in A. apply quad_chars in A.
    eapply Forall_impl; [|exact A]. unfold dec_char. intros; lia.
Qed.
Lemma dec_no_slash t v : dec_num t v -> no_slash t.
Proof. intros D. apply dec_chars in D. eapply Forall_impl; [|exact D]. unfold dec_char. intros; lia. Qed.

Theorem socket_str_inj v6 st lip lp rip rp v6' st' lip' lp' rip' rp' :
  ip_range v6 lip -> ip_range v6 rip -> ip_range v6' lip' -> ip_range v6' rip' ->
  0 <= lp -> 0 <= rp -> 0 <= lp' -> 0 <= rp' ->
  socket_str v6 st lip lp rip rp = socket_str v6' st' lip' lp' rip' rp' ->
  (v6, st, lip, lp, rip, rp) = (v6', st', lip', lp', rip', rp').
Proof.
  intros A B A' B' P Q P' Q' E. unfold socket_str in E. apply app_inv_head in E.
  assert (V : v6 = v6') by (destruct v6, v6'; auto; discriminate E). subst v6'.
  apply app_inv_head in E. apply app_inv_head in E.
  assert (S : st = st') by (destruct st, st'; auto; discriminate E). subst st'.
  apply app_inv_head in E. apply app_inv_head in E.
  change (lit "/") with [47] in E. cbn [app] in E.
  pose proof (dec_str_num _ P) as [DP _]. pose proof (dec_str_num _ P') as [DP' _].
  apply slash_inj in E as [E1 E]; auto using ip_str_no_slash.
  apply slash_inj in E as [E2 E]; [|eapply dec_no_slash; eauto|eapply dec_no_slash; eauto].
  apply slash_inj in E as [E3 E4]; auto using ip_str_no_slash.
  apply ip_str_inj in E1; auto. apply ip_str_inj in E3; auto.
  apply dec_str_inj in E2; auto. apply dec_str_inj in E4; auto. congruence.
Qed.

(** * int() *)
Lemma uint_dec t v : dec_num t v -> t <> [] -> forall acc saw,
  uint saw acc t = Some (acc * 10 ^ zlen t + v).
Proof.
  revert v. induction t as [|c t IH]; intros v D N acc saw; [congruence|].
  apply dec_uncons in D as (C & w & W & ->). cbn [uint].
  replace (is_digit c) with true by (unfold dec_char, is_digit in *; lia).
  rewrite zlen_cons, Z.pow_add_r by (unfold zlen; lia). change (10 ^ 1) with 10.
  destruct t as [|e t].
  - apply dec_nil in W. subst w. cbn [uint]. change (zlen (@nil Z)) with 0. f_equal. lia.
  - rewrite (IH w W) by discriminate. f_equal. ring.
Qed.
Lemma cstrip_dec t v : dec_num t v -> cstrip t = t.
Proof.
  intros D. apply dec_chars in D. destruct D as [|c t C D]; auto. cbn. unfold dec_char in C.
  unfold c_space. now replace ((9 <=? c) && (c <=? 13) || (c =? 32)) with false by lia.
Qed.
Lemma dec_rev t v : dec_num t v -> exists w, dec_num (rev t) w.
Proof. intros D. apply dec_all. apply Forall_rev. eapply dec_chars; eauto. Qed.
Lemma py_int_dec t v : dec_num t v -> t <> [] -> py_int t = Some v.
Proof.
  intros D N. unfold py_int. rewrite (cstrip_dec _ _ D).
  destruct (dec_rev _ _ D) as (w & W). rewrite (cstrip_dec _ _ W), rev_involutive.
  pose proof (uint_dec _ _ D N 0 false) as U. replace (0 * 10 ^ zlen t + v) with v in U by lia.
  destruct t as [|c t]; [congruence|]. apply dec_uncons in D as (C & _). unfold dec_char in C.
  assert (c = 48 \/ c = 49 \/ c = 50 \/ c = 51 \/ c = 52 \/ c = 53 \/ c = 54 \/ c = 55 \/ c = 56 \/ c = 57) by lia.
  destruct H as [->|[->|[->|[->|[->|[->|[->|[->|[->| ->]]]]]]]]]; exact U.
Qed.

(** * Masks *)
Lemma ones_zeros_prefix n k : 0 <= k <= n -> ones_zeros n k = prefix_mask n k.
Proof.
  intros K. unfold ones_zeros. rewrite bits_val_prefix, !Z2Nat.id by lia.
  unfold prefix_mask. f_equal; f_equal; lia.
Qed.
Lemma ones_zeros_big n k : 0 <= n -> n < k -> ones_zeros n k = 2 ^ k - 1.
Proof.
  intros N K. unfold ones_zeros. rewrite bits_val_prefix, (Z2Nat.id k) by lia.
  replace (Z.to_nat (n - k)) with O by lia. cbn. f_equal. f_equal. lia.
Qed.

Lemma digits_lang n t : Forall dec_char t -> (1 <= length t <= n)%nat -> lang (rep 1 n digit_re) t.
Proof.
  intros F L. replace t with (concat (map (fun c => [c]) t)).
  - apply lang_rep; [unfold text; rewrite map_length; lia|].
    apply Forall_forall. intros x X. apply in_map_iff in X as (c & <- & I).
    rewrite Forall_forall in F. specialize (F c I). constructor. unfold dec_char in F. unfold in_set. cbn. lia.
  - clear. induction t as [|c t IH]; cbn; congruence.
Qed.
Lemma lang_cat a b t : lang (Cat a b) t -> exists u w, t = u ++ w /\ lang a u /\ lang b w.
Proof. intros L. inversion L; subst. eauto. Qed.
Lemma lang_alt a b t : lang (Alt a b) t -> lang a t \/ lang b t.
Proof. intros L. inversion L; subst; auto. Qed.
Lemma lang_eps t : lang Eps t -> t = [].
Proof. intros L. inversion L; auto. Qed.
Lemma lang_chr c t : lang (chr c) t -> t = [c].
Proof. intros L. inversion L; subst. f_equal. unfold in_set in *. cbn in *. lia. Qed.
Lemma digits_lang_inv n t : lang (rep 1 n digit_re) t -> Forall dec_char t /\ (1 <= length t <= Nat.max 1 n)%nat.
Proof.
  assert (D : forall t, lang digit_re t -> exists c, t = [c] /\ dec_char c).
  { intros u L. inversion L; subst. exists c. split; auto. unfold in_set in *. cbn in *. unfold dec_char. lia. }
  assert (U : forall m u, lang (upto m digit_re) u -> Forall dec_char u /\ (length u <= m)%nat).
  { induction m as [|m IH]; intros u L; cbn in L.
    - apply lang_eps in L as ->. auto.
    - apply lang_alt in L as [L|L].
      + apply lang_cat in L as (x & y & -> & X & Y). apply D in X as (c & -> & C).
        apply IH in Y as [F Y]. cbn. split; auto. lia.
      + apply lang_eps in L as ->. cbn. split; auto. lia. }
  intros L. change (rep 1 n digit_re) with (Cat digit_re (upto (n - 1) digit_re)) in L.
  apply lang_cat in L as (x & y & -> & Lx & Ly).
  apply D in Lx as (c & -> & C). apply U in Ly as [F X].
  cbn [app length]. split; [constructor; auto|]. unfold text in *. lia.
Qed.

(** a mask text made of a slash and decimal digits *)
Lemma prefix_full n m k : dec_num m k -> m <> [] ->
  (rfull (prefix_re n) (47 :: m) = true <-> (length m <= Nat.max 1 n)%nat).
Proof.
  intros D N. rewrite rfull_spec. unfold prefix_re. split.
  - intros L. apply lang_cat in L as (x & y & E & X & Y). apply lang_chr in X as ->.
    injection E as ->. apply lang_cat in Y as (u & w & -> & U & W).
    apply digits_lang_inv in U as [F X]. rewrite app_length. apply lang_alt in W as [W|W].
    + apply lang_chr in W as ->.
      apply dec_chars in D. apply Forall_app in D as [_ D]. inversion D; subst. unfold dec_char in *. lia.
    + apply lang_eps in W as ->. cbn [length]. unfold text in *. lia.
  - intros L. change (47 :: m) with ([47] ++ m). constructor; [constructor; reflexivity|].
    rewrite <- (app_nil_r m). constructor; [|apply L_right; constructor].
    destruct n as [|n].
    + apply dec_chars in D. destruct m as [|c [|]]; [congruence| |cbn in L; lia].
      inversion D as [|? ? C F]; subst. cbn. change [c] with ([c] ++ []).
      constructor; [|constructor]. constructor. unfold dec_char in C. unfold in_set. cbn. lia.
    + apply digits_lang; [eapply dec_chars; eauto|]. destruct m; [congruence|]. cbn in *. lia.
Qed.

Lemma mask6_digits m k : dec_num m k -> m <> [] -> zlen m <= 3 ->
  mask6_of_text (47 :: m) = if k <=? 128 then TOk (prefix_mask 128 k) else TErr MaskErr.
Proof.
  intros D N L. unfold mask6_of_text.
  rewrite (proj2 (prefix_full 3 m k D N)) by (unfold zlen in L; cbn; lia).
  cbn [tl]. rewrite (py_int_dec _ _ D N). pose proof (dec_bound _ _ D) as B.
  replace ((0 <=? k) && (k <? 129)) with (k <=? 128) by lia.
  destruct (k <=? 128) eqn:K; auto. rewrite ones_zeros_prefix by lia. reflexivity.
Qed.
Lemma mask6_long m k : dec_num m k -> 3 < zlen m -> mask6_of_text (47 :: m) = TErr MaskErr.
Proof.
  intros D L. unfold mask6_of_text.
  assert (N : m <> []) by (intros ->; cbn in L; lia).
  destruct (rfull (prefix_re 3) (47 :: m)) eqn:E; auto.
  apply (prefix_full 3 m k D N) in E. unfold zlen in L. cbn in E. lia.
Qed.
Lemma mask4_digits m k : dec_num m k -> m <> [] -> zlen m <= 2 -> k <= 32 ->
  mask4_of_text (47 :: m) = TOk (prefix_mask 32 k).
Proof.
  intros D N L K. unfold mask4_of_text.
  rewrite (proj2 (prefix_full 2 m k D N)) by (unfold zlen in L; cbn; lia).
  cbn [tl]. rewrite (py_int_dec _ _ D N). pose proof (dec_bound _ _ D) as B.
  replace ((0 <=? k) && (k <? 33)) with true by lia.
  rewrite ones_zeros_prefix by lia. reflexivity.
Qed.

(** * Networks *)
Lemma split_none t : no_slash t -> split_slash t = [t].
Proof.
  induction 1 as [|c t C F IH]; auto. cbn. replace (c =? 47) with false by lia. now rewrite IH.
Qed.
Lemma split_one a m : no_slash a -> no_slash m -> split_slash (a ++ 47 :: m) = [a; m].
Proof.
  intros A M. induction A as [|c a C F IH]; cbn [app split_slash].
  - rewrite Z.eqb_refl. now rewrite split_none.
  - replace (c =? 47) with false by lia. now rewrite IH.
Qed.
Lemma split_two t a m : split_slash t = [a; m] -> t = a ++ 47 :: m /\ no_slash a /\ no_slash m.
Proof.
  assert (ONE : forall t a, split_slash t = [a] -> t = a /\ no_slash a).
  { induction t0 as [|c t0 IH]; intros b E; cbn in E.
    - injection E as <-. split; auto. constructor.
    - destruct (c =? 47) eqn:C.
      + injection E as <- E. destruct t0 as [|d t0]; cbn in E; [discriminate|].
        destruct (d =? 47); [discriminate|]. destruct (split_slash t0); discriminate.
      + destruct (split_slash t0) as [|p q] eqn:S.
        * injection E as <-. destruct t0 as [|d t0]; cbn in S; [discriminate|].
          destruct (d =? 47); [discriminate|]. destruct (split_slash t0); discriminate.
        * injection E as <- ->. destruct (IH p eq_refl) as [-> F]. split; auto.
          constructor; auto. lia. }
  revert a. induction t as [|c t IH]; intros a E; cbn in E; [discriminate|].
  destruct (c =? 47) eqn:C.
  - injection E as <- E. apply ONE in E as [-> F]. assert (c = 47) by lia. subst c.
    split; [reflexivity|]. split; [constructor|auto].
  - destruct (split_slash t) as [|p q] eqn:S; [discriminate|]. injection E as <- ->.
    destruct (IH p eq_refl) as (-> & P & M). split; [reflexivity|]. split; auto. constructor; auto. lia.
Qed.

Definition net_of_text (v6 : bool) (t : text) : tres net := if v6 then net6_of_text t else net4_of_text t.
Definition network_at (v6 : bool) (x k : Z) : net :=
  {| n_addr := x - x mod 2 ^ (Z.of_nat (width v6) - k); n_mask := prefix_mask (Z.of_nat (width v6)) k |}.

Lemma ip4_of_text_range t x : ip4_of_text t = TOk x -> 0 <= x < 2 ^ 32.
Proof.
  unfold ip4_of_text. destruct (rsearch IP4_REGEX t); [|discriminate].
  destruct (has_nul t); [discriminate|]. destruct (aton 3 0 t) as [v|] eqn:A; [|discriminate].
  intros X. injection X as <-.
  assert (K : forall n word u y, 0 <= word -> aton n word u = Some y ->
    0 <= y < word + 256 ^ (Z.of_nat n + 1)).
  { assert (DI : forall b u acc y r, 0 < b -> 0 <= acc -> digits_in b acc u = (y, r) -> 0 <= y).
    { intros b. induction u as [|c u IH]; intros acc y r B P E; cbn in E.
      - injection E as <- <-. auto.
      - destruct (hex_val c) as [d|] eqn:H; [|injection E as <- <-; auto].
        destruct (d <? b); [|injection E as <- <-; auto].
        apply IH in E; auto. apply hex_val_char in H. unfold hex_char in H. nia. }
    assert (ST : forall u y r, strtoul u = (y, r) -> 0 <= y).
    { intros u y r E. unfold strtoul in E.
      repeat match type of E with
             | context [match ?x with _ => _ end] => destruct x; try (eapply DI; [| |exact E]; lia)
             end. }
    induction n as [|n IH]; intros word u y W E.
    - destruct u as [|c u]; [discriminate|]. cbn [aton] in E.
      destruct (is_digit c); [|discriminate]. destruct (strtoul (c :: u)) as [z r] eqn:SS.
      apply ST in SS. destruct (0xFFFFFFFF <? z); [discriminate|].
      change (256 ^ (Z.of_nat 0 + 1)) with 256 in *.
      destruct r as [|e r].
      + destruct (z <? 256) eqn:Z1; [|discriminate]. injection E as <-. lia.
      + assert (X : (if c_space e && (z <? 256) then Some (word + z) else None) = Some y \/ False).
        { destruct e as [|p|p]; auto. repeat (destruct p as [p|p|]; auto). }
        destruct X as [X|[]]. destruct (c_space e && (z <? 256)) eqn:Z1; [|discriminate].
        injection X as <-. lia.
    - destruct u as [|c u]; [discriminate|]. cbn [aton] in E.
      destruct (is_digit c); [|discriminate]. destruct (strtoul (c :: u)) as [z r] eqn:SS.
      apply ST in SS. destruct (0xFFFFFFFF <? z); [discriminate|].
      set (B := 256 ^ (Z.of_nat (S n) + 1)) in *.
      assert (BB : B = 256 * 256 ^ Z.of_nat (S n)).
      { unfold B. rewrite Z.pow_add_r by lia. change (256 ^ 1) with 256. lia. }
      assert (P : 0 < 256 ^ Z.of_nat (S n)) by (apply Z.pow_pos_nonneg; lia).
      destruct r as [|e r].
      + destruct (z <? B) eqn:Z1; [|discriminate]. injection E as <-. lia.
      + destruct (Z.eq_dec e 46) as [->|NE].
        * destruct (255 <? z) eqn:Z1; [discriminate|].
          apply IH in E; [|nia].
          replace (Z.of_nat n + 1) with (Z.of_nat (S n)) in E by lia.
          set (Q := 256 ^ Z.of_nat (S n)) in *. nia.
        * assert (X : (if c_space e && (z <? B) then Some (word + z) else None) = Some y).
          { destruct e as [|p|p]; auto. repeat (destruct p as [p|p|]; auto). congruence. }
          destruct (c_space e && (z <? B)) eqn:Z1; [|discriminate]. injection X as <-. lia. }
  apply (K 3%nat 0 t v ltac:(lia)) in A. exact A.
Qed.
Lemma words_val_range ws : Forall (fun w => 0 <= w < 65536) ws ->
  0 <= words_val ws < 65536 ^ zlen ws.
Proof.
  induction ws as [|w ws IH] using rev_ind; intros F; [cbn; lia|].
  apply Forall_app in F as [F1 F2]. inversion F2; subst. specialize (IH F1).
  unfold words_val in *. rewrite fold_left_app. cbn [fold_left].
  rewrite zlen_snoc, Z.pow_add_r by (unfold zlen; lia). change (65536 ^ 1) with 65536. lia.
Qed.
Lemma ip6_of_text_range t x : ip6_of_text t = TOk x -> 0 <= x < 2 ^ 128.
Proof.
  intros E. apply ip6_text_iff in E as [[(ws & T & L & ->)|(l & r & lw & rw & _ & HL & HR & L & ->)] _].
  - pose proof (words_val_range ws (tail_range _ _ T)) as B. rewrite L in B. exact B.
  - destruct (colon_words lw rw l r HL HR L) as [WL WF].
    pose proof (words_val_range _ WF) as B. rewrite WL in B. exact B.
Qed.
Lemma ip_of_text_range v6 t x : ip_of_text v6 t = TOk x -> ip_range v6 x.
Proof. destruct v6; [apply ip6_of_text_range|apply ip4_of_text_range]. Qed.

Lemma net_prefix v6 a m k x : no_slash a -> dec_num m k -> m <> [] -> k <= Z.of_nat (width v6) ->
  zlen m <= 3 -> ip_of_text v6 a = TOk x ->
  net_of_text v6 (a ++ 47 :: m) = TOk (network_at v6 x k).
Proof.
  intros A D N K L X. pose proof (dec_bound _ _ D) as B. pose proof (ip_of_text_range _ _ _ X) as XR.
  destruct v6; cbn [net_of_text ip_of_text width] in *.
  - unfold net6_of_text. rewrite (split_one _ _ A (dec_no_slash _ _ D)), (mask6_digits m k D N L), X.
    replace (k <=? 128) with true by lia. change 128 with (Z.of_nat 128) at 1.
    rewrite mk_net_spec; [reflexivity|lia|exact XR].
  - unfold net4_of_text. rewrite (split_one _ _ A (dec_no_slash _ _ D)), (py_int_dec _ _ D N), X.
    replace (fits_index k && fits_index (32 - k)) with true by (unfold fits_index; lia). cbn [negb].
    rewrite (ones_zeros_prefix 32 k) by lia.
    destruct (mask_of_int_spec 32 (prefix_mask 32 k)) as [[_ M] _].
    rewrite M by (exists k; split; [lia|reflexivity]).
    change 32 with (Z.of_nat 32) at 1. rewrite mk_net_spec; [reflexivity|lia|exact XR].
Qed.

(** what is accepted when the prefix length is written in digits *)
Lemma net_digits v6 a m k w : no_slash a -> dec_num m k -> m <> [] -> zlen m <= 3 ->
  (net_of_text v6 (a ++ 47 :: m) = TOk w <->
   k <= Z.of_nat (width v6) /\ exists x, ip_of_text v6 a = TOk x /\ w = network_at v6 x k).
Proof.
  intros A D N L. pose proof (dec_bound _ _ D) as B. split.
  - intros E. destruct (Z.le_gt_cases k (Z.of_nat (width v6))) as [K|K].
    + split; auto. destruct (ip_of_text v6 a) as [x|e] eqn:X.
      * rewrite (net_prefix v6 a m k x) in E by auto. exists x. split; auto. congruence.
      * exfalso. destruct v6; cbn [net_of_text ip_of_text] in *.
        -- unfold net6_of_text in E. rewrite (split_one _ _ A (dec_no_slash _ _ D)), X in E.
           destruct (mask6_of_text (47 :: m)); discriminate.
        -- unfold net4_of_text in E. rewrite (split_one _ _ A (dec_no_slash _ _ D)), X in E.
           destruct (py_int m); [|discriminate]. destruct (negb _); [discriminate|].
           destruct (mask_of_int _ _); discriminate.
    + exfalso. destruct v6; cbn [net_of_text width] in *.
      * unfold net6_of_text in E. rewrite (split_one _ _ A (dec_no_slash _ _ D)), (mask6_digits m k D N L) in E.
        replace (k <=? 128) with false in E by lia. discriminate.
      * unfold net4_of_text in E. rewrite (split_one _ _ A (dec_no_slash _ _ D)), (py_int_dec _ _ D N) in E.
        destruct (negb _); [discriminate|]. rewrite ones_zeros_big in E by lia.
        destruct (mask_of_int_spec 32 (2 ^ k - 1)) as [[M _] [O|O]]; rewrite O in E; [|discriminate].
        apply M in O as (k' & K' & O). unfold prefix_mask in O. change (Z.of_nat 32) with 32 in *.
        assert (2 ^ 33 <= 2 ^ k) by (apply Z.pow_le_mono_r; lia).
        assert (0 < 2 ^ (32 - k')) by (apply Z.pow_pos_nonneg; lia).
        change (2 ^ 33) with 8589934592 in *. change (2 ^ 32) with 4294967296 in *. lia.
  - intros (K & x & X & ->). now apply net_prefix.
Qed.

(** * Round trips *)
Definition is_net (v6 : bool) (w : net) : Prop :=
  exists x k, ip_range v6 x /\ 0 <= k <= Z.of_nat (width v6) /\ w = network_at v6 x k.
Lemma dec_small k : 0 <= k <= 128 -> zlen (dec_str k) <= 3.
Proof.
  intros K.
  assert (C : forallb (fun n => zlen (dec_str (Z.of_nat n)) <=? 3) (seq 0 129) = true)
    by (vm_compute; reflexivity).
  rewrite forallb_forall in C. specialize (C (Z.to_nat k)). rewrite Z2Nat.id in C by lia.
  apply Z.leb_le. apply C. apply in_seq. lia.
Qed.
Lemma width_le v6 : Z.of_nat (width v6) <= 128.
Proof. destruct v6; cbn; lia. Qed.
Lemma net_text v6 x k : ip_range v6 x -> 0 <= k <= Z.of_nat (width v6) ->
  net_of_text v6 (ip_str v6 x ++ lit "/" ++ dec_str k) = TOk (network_at v6 x k).
Proof.
  intros X K. pose proof (width_le v6). destruct (dec_str_num k ltac:(lia)) as [D N].
  change (lit "/") with [47]. cbn [app].
  apply net_prefix; auto using ip_str_no_slash, ip_round; [lia|]. apply dec_small. lia.
Qed.
Theorem net_round v6 w : is_net v6 w -> net_of_text v6 (net_str v6 w) = TOk w.
Proof.
  intros (x & k & X & K & ->). unfold net_str, network_at. cbn [n_addr n_mask].
  rewrite mask_len_prefix by exact K.
  set (p := 2 ^ (Z.of_nat (width v6) - k)).
  assert (P : 0 < p) by (apply Z.pow_pos_nonneg; lia).
  pose proof (Z.mod_pos_bound x p P). pose proof (Z.div_mod x p ltac:(lia)).
  assert (Y : ip_range v6 (x - x mod p)).
  { unfold ip_range in *. split; [|lia]. assert (0 <= x / p) by (apply Z.div_pos; lia). nia. }
  rewrite net_text by auto. unfold network_at. fold p. f_equal. f_equal.
  replace (x - x mod p) with (x / p * p) by lia. rewrite Z.mod_mul by lia. lia.
Qed.
Theorem host_round v6 x k : ip_range v6 x -> 0 <= k <= Z.of_nat (width v6) ->
  let h := {| h_addr := x; h_net := network_at v6 x k; h_gw := None |} in
  host_of_text v6 (host_str v6 h) = TOk h.
Proof.
  intros X K h. unfold host_str, h. cbn [h_addr h_net network_at n_mask].
  rewrite mask_len_prefix by exact K.
  pose proof (width_le v6). destruct (dec_str_num k ltac:(lia)) as [D N].
  unfold host_of_text. pose proof (net_text v6 x k X K) as NT.
  change (lit "/") with [47] in *. cbn [app] in *.
  rewrite (split_one _ _ (ip_str_no_slash v6 x X) (dec_no_slash _ _ D)).
  pose proof (ip_round v6 x X) as R. unfold ip_of_text in R. rewrite R.
  unfold net_of_text in NT. rewrite NT. reflexivity.
Qed.
Lemma net_host_round v6 x k : ip_range v6 x -> 0 <= k <= Z.of_nat (width v6) ->
  let w := network_at v6 x k in
  let h := {| h_addr := x; h_net := w; h_gw := None |} in
  net_of_text v6 (net_str v6 w) = TOk w
  /\ host_of_text v6 (host_str v6 h) = TOk h
  /\ net_str v6 w = ip_str v6 (n_addr w) ++ lit "/" ++ dec_str k
  /\ host_str v6 h = ip_str v6 x ++ lit "/" ++ dec_str k.
Proof.
  intros X K w h. split; [apply net_round; exists x, k; auto|]. split; [now apply host_round|].
  unfold net_str, host_str, h, w. cbn [h_addr h_net network_at n_mask n_addr].
  rewrite mask_len_prefix by exact K. auto.
Qed.
(** and hosts in general *)
Lemma host_digits v6 a m k h : no_slash a -> dec_num m k -> m <> [] -> zlen m <= 3 ->
  (host_of_text v6 (a ++ 47 :: m) = TOk h <->
   k <= Z.of_nat (width v6) /\ exists x, ip_of_text v6 a = TOk x
   /\ h = {| h_addr := x; h_net := network_at v6 x k; h_gw := None |}).
Proof.
  intros A D N L. pose proof (fun w => net_digits v6 a m k w A D N L) as ND.
  unfold host_of_text. rewrite (split_one _ _ A (dec_no_slash _ _ D)).
  change (if v6 then ip6_of_text a else ip4_of_text a) with (ip_of_text v6 a).
  change (if v6 then net6_of_text (a ++ 47 :: m) else net4_of_text (a ++ 47 :: m))
    with (net_of_text v6 (a ++ 47 :: m)).
  destruct (ip_of_text v6 a) as [x|e] eqn:X.
  - destruct (net_of_text v6 (a ++ 47 :: m)) as [w|e] eqn:W.
    + destruct (proj1 (ND w) eq_refl) as (K & y & Y & ->). injection Y as <-. split.
      * intros E. injection E as <-. split; auto. exists x. auto.
      * intros (_ & y & Y & ->). injection Y as <-. reflexivity.
    + split; [discriminate|]. intros (K & y & Y & ->). injection Y as <-.
      assert (TErr e = TOk (network_at v6 x k)) by (apply ND; split; auto; exists x; auto). discriminate.
  - split; [discriminate|]. intros (K & y & Y & _). discriminate.
Qed.

(** * Exceptions *)
Lemma ip_errors v6 t e : ip_of_text v6 t = TErr e -> e = AddrErr \/ e = ValErr /\ has_nul t = true.
Proof.
  destruct v6; cbn [ip_of_text]; unfold ip6_of_text, ip4_of_text.
  - destruct (rsearch IP6_REGEX t); [|intros X; injection X as <-; auto].
    destruct (has_nul t); [intros X; injection X as <-; auto|].
    destruct (pton6 t); [|intros X; injection X as <-; auto].
    destruct (ip6_of_bytes _); [discriminate|intros X; injection X as <-; auto].
  - destruct (rsearch IP4_REGEX t); [|intros X; injection X as <-; auto].
    destruct (has_nul t); [intros X; injection X as <-; auto|].
    destruct (aton 3 0 t); [discriminate|intros X; injection X as <-; auto].
Qed.
Lemma net_errors v6 t e : net_of_text v6 t = TErr e -> e = NetErr \/ e = OverErr /\ v6 = false.
Proof.
  destruct v6; cbn [net_of_text]; unfold net6_of_text, net4_of_text;
    (destruct (split_slash t) as [|a [|m [|]]]; try (intros X; injection X as <-; now auto)).
  - destruct (mask6_of_text (47 :: m)); [|intros X; injection X as <-; now auto].
    destruct (ip6_of_text a); [|intros X; injection X as <-; now auto].
    destruct (mk_net _ _ _); [discriminate|intros X; injection X as <-; now auto].
  - destruct (py_int m); [|intros X; injection X as <-; now auto].
    destruct (negb _); [intros X; injection X as <-; now auto|].
    destruct (mask_of_int _ _); [|intros X; injection X as <-; now auto].
    destruct (ip4_of_text a); [|intros X; injection X as <-; now auto].
    destruct (mk_net _ _ _); [discriminate|intros X; injection X as <-; now auto].
Qed.
Lemma host_errors v6 t e : host_of_text v6 t = TErr e ->
  e = HostErr \/ e = NetErr \/ e = OverErr /\ v6 = false.
Proof.
  unfold host_of_text. destruct (split_slash t) as [|a [|m [|]]]; try (intros X; injection X as <-; now auto).
  destruct (if v6 then ip6_of_text a else ip4_of_text a); [|intros X; injection X as <-; now auto].
  destruct (if v6 then net6_of_text t else net4_of_text t) eqn:N; [discriminate|].
  intros X. injection X as <-. apply (net_errors v6 t) in N. tauto.
Qed.
Lemma host_errors_addr v6 a m e : no_slash a -> no_slash m -> ip_of_text v6 a = TErr e ->
  host_of_text v6 (a ++ 47 :: m) = TErr HostErr.
Proof.
  intros A M E. unfold host_of_text. rewrite split_one by auto. unfold ip_of_text in E. now rewrite E.
Qed.
