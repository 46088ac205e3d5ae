(** Lemmas: IPv4 addresses as text. *)
From Verif Require Import Base BaseLemmas AddrModel IpTextModel SpecIpText IpText1.
From Coq Require Import Lia.

(** * Decimal numbers *)
Lemma dec_cons c t : dec_char c -> forall v, dec_num t v ->
  dec_num (c :: t) ((c - 48) * 10 ^ zlen t + v).
Proof.
  intros C v D. induction D as [|t v e D IH E].
  - replace ((c - 48) * 10 ^ zlen (@nil Z) + 0) with (0 * 10 + (c - 48)) by (cbn; lia).
    change [c] with ([] ++ [c]). constructor; [constructor|exact C].
  - replace ((c - 48) * 10 ^ zlen (t ++ [e]) + (v * 10 + (e - 48)))
      with (((c - 48) * 10 ^ zlen t + v) * 10 + (e - 48)).
    + change (c :: t ++ [e]) with ((c :: t) ++ [e]). constructor; auto.
    + unfold zlen. rewrite app_length, Nat2Z.inj_add, Z.pow_add_r by lia.
      change (10 ^ Z.of_nat (length [e])) with 10. ring.
Qed.
Lemma dec_uncons c t v : dec_num (c :: t) v ->
  dec_char c /\ exists w, dec_num t w /\ v = (c - 48) * 10 ^ zlen t + w.
Proof.
  revert c v. induction t as [|e t IH] using rev_ind; intros c v D.
  - inversion D as [|t' v' c' D' C' Eq].
    apply (app_inj_tail t' []) in Eq as [-> ->].
    inversion D' as [|? ? ? ? ? X]; [|now apply app_cons_not_nil in X || destruct t].
    split; auto. exists 0. split; [constructor|]. cbn. lia.
  - inversion D as [|t' v' c' D' C' Eq].
    apply (app_inj_tail t' (c :: t)) in Eq as [-> ->].
    apply IH in D' as (C & w & W & ->). split; auto.
    exists (w * 10 + (e - 48)). split; [now constructor|].
    unfold zlen. rewrite app_length, Nat2Z.inj_add, Z.pow_add_r by lia.
    change (10 ^ Z.of_nat (length [e])) with 10. ring.
Qed.
Lemma dec_nil v : dec_num [] v -> v = 0.
Proof. inversion 1 as [|t ? c ? ? X]; auto. now destruct t. Qed.
Lemma dec_chars t v : dec_num t v -> Forall dec_char t.
Proof.
  induction 1; [constructor|]. apply Forall_app. split; auto.
Qed.
Lemma dec_fun t : forall v w, dec_num t v -> dec_num t w -> v = w.
Proof.
  induction t as [|c t IH]; intros v w A B.
  - apply dec_nil in A, B. congruence.
  - apply dec_uncons in A as (_ & x & X & ->), B as (_ & y & Y & ->).
    now rewrite (IH _ _ X Y).
Qed.
Lemma dec_bound t : forall v, dec_num t v -> 0 <= v < 10 ^ zlen t.
Proof.
  induction t as [|c t IH]; intros v D.
  - apply dec_nil in D. subst. cbn. lia.
  - apply dec_uncons in D as (C & w & W & ->). apply IH in W.
    rewrite zlen_cons, Z.pow_add_r by (unfold zlen; lia). unfold dec_char in C.
    change (10 ^ 1) with 10. nia.
Qed.
Lemma dec_all t : Forall dec_char t -> exists v, dec_num t v.
Proof.
  induction 1 as [|c t C F (v & IH)].
  - exists 0. constructor.
  - eexists. apply dec_cons; [exact C|exact IH].
Qed.

Lemma dec_hex c : dec_char c -> hex_val c = Some (c - 48).
Proof. unfold dec_char, hex_val. intros H. replace ((48 <=? c) && (c <=? 57)) with true by lia. auto. Qed.

(** what may follow a number *)
Definition dot_end (t : text) : Prop := t = [] \/ exists r, t = 46 :: r.

Lemma digits_dec t : forall acc v r, dec_num t v -> dot_end r ->
  digits_in 10 acc (t ++ r) = (acc * 10 ^ zlen t + v, r).
Proof.
  induction t as [|c t IH]; intros acc v r D E.
  - apply dec_nil in D. subst. cbn [app]. change (zlen (@nil Z)) with 0.
    replace (acc * 10 ^ 0 + 0) with acc by lia.
    destruct E as [->|(r' & ->)]; reflexivity.
  - apply dec_uncons in D as (C & w & W & ->). cbn [app digits_in].
    rewrite (dec_hex c C). unfold dec_char in C.
    replace (c - 48 <? 10) with true by lia.
    rewrite (IH _ w r W E). f_equal.
    rewrite zlen_cons, Z.pow_add_r by (unfold zlen; lia). change (10 ^ 1) with 10. ring.
Qed.

Lemma strtoul_octet t v r : dec_num t v -> t <> [] -> (forall u, t = 48 :: u -> u = []) ->
  dot_end r -> strtoul (t ++ r) = (v, r).
Proof.
  intros D N Z0 E. destruct t as [|c t]; [congruence|].
  destruct (Z.eq_dec c 48) as [->|C].
  - specialize (Z0 t eq_refl). subst t.
    apply dec_uncons in D as (_ & w & W & ->). apply dec_nil in W. subst w.
    destruct E as [->|(r' & ->)]; [reflexivity|]. cbn [app].
    destruct r' as [|h r']; reflexivity.
  - assert (S : strtoul ((c :: t) ++ r) = digits_in 10 0 ((c :: t) ++ r)).
    { cbn [app]. apply dec_uncons in D as (X & _). unfold dec_char in X.
      assert (c = 49 \/ c = 50 \/ c = 51 \/ c = 52 \/ c = 53 \/ c = 54 \/ c = 55 \/ c = 56 \/ c = 57) by lia.
      destruct H as [->|[->|[->|[->|[->|[->|[->|[->| ->]]]]]]]]; reflexivity. }
    rewrite S, (digits_dec _ 0 v r D E). reflexivity.
Qed.

Lemma octet_head t v : octet t v -> exists c u, t = c :: u /\ is_digit c = true.
Proof.
  intros (D & N & _). destruct t as [|c u]; [congruence|]. exists c, u. split; auto.
  apply dec_uncons in D as (C & _). unfold dec_char in C. unfold is_digit. lia.
Qed.

(** one part of inet_aton *)
Lemma aton_dot n word t v r : octet t v ->
  aton (S n) word (t ++ 46 :: r) = aton n (word + v * 256 ^ Z.of_nat (S n)) r.
Proof.
  intros O. pose proof O as (D & N & B & Z0).
  destruct (octet_head t v O) as (c & u & E & C).
  assert (S : strtoul (t ++ 46 :: r) = (v, 46 :: r)) by (apply strtoul_octet; auto; right; eauto).
  rewrite E in *. cbn [app aton]. rewrite C. cbn [app] in S. rewrite S.
  replace (0xFFFFFFFF <? v) with false by lia. replace (255 <? v) with false by lia. reflexivity.
Qed.
Lemma aton_end word t v : octet t v -> aton 0 word t = Some (word + v).
Proof.
  intros O. pose proof O as (D & N & B & Z0).
  destruct (octet_head t v O) as (c & u & E & C).
  assert (S : strtoul (t ++ []) = (v, [])) by (apply strtoul_octet; auto; now left).
  rewrite app_nil_r in S. rewrite E in *. cbn [aton]. rewrite C, S.
  replace (0xFFFFFFFF <? v) with false by lia.
  change (256 ^ (Z.of_nat 0 + 1)) with 256. replace (v <? 256) with true by lia. reflexivity.
Qed.
Lemma aton_quad t v : quad t v -> aton 3 0 t = Some v.
Proof.
  intros (t1 & t2 & t3 & t4 & a & b & c & d & A & B & C & D & -> & ->).
  rewrite (aton_dot 2 _ _ a _ A), (aton_dot 1 _ _ b _ B), (aton_dot 0 _ _ c _ C), (aton_end _ _ d D).
  reflexivity.
Qed.

(** * The pattern finds every dotted quad *)
Lemma octet_text t v : octet t v -> t = dec_byte v.
Proof.
  intros (D & N & B & Z0). unfold dec_byte.
  destruct t as [|c t]; [congruence|].
  pose proof (dec_uncons _ _ _ D) as (C & w & W & E). pose proof (dec_bound _ _ W) as WB.
  assert (L : (length t <= 2)%nat).
  { destruct (Nat.le_gt_cases (length t) 2) as [|G]; auto. exfalso.
    assert (1 <= c - 48).
    { destruct (Z.eq_dec c 48) as [->|]; [|unfold dec_char in C; lia].
      specialize (Z0 t eq_refl). subst t. cbn in G. lia. }
    assert (10 ^ 3 <= 10 ^ zlen t) by (apply Z.pow_le_mono_r; unfold zlen; lia).
    change (10 ^ 3) with 1000 in *. nia. }
  assert (NZ : t <> [] -> 49 <= c).
  { intros T. destruct (Z.eq_dec c 48) as [->|]; [|unfold dec_char in C; lia].
    now specialize (Z0 t eq_refl). }
  unfold dec_char in C.
  destruct t as [|e t].
  - apply dec_nil in W. subst w. change (zlen (@nil Z)) with 0 in E.
    replace (v <? 10) with true by lia. f_equal. lia.
  - specialize (NZ ltac:(discriminate)).
    pose proof (dec_uncons _ _ _ W) as (C2 & w2 & W2 & E2). unfold dec_char in C2.
    destruct t as [|f t].
    + apply dec_nil in W2. subst w2. change (zlen (@nil Z)) with 0 in E2.
      change (zlen [e]) with 1 in E. subst w.
      replace (v <? 10) with false by lia. replace (v <? 100) with true by lia.
      assert (v = (c - 48) * 10 + (e - 48)) by lia. subst v.
      replace (((c - 48) * 10 + (e - 48)) / 10) with (c - 48)
        by (apply Z.div_unique with (e - 48); lia).
      replace (((c - 48) * 10 + (e - 48)) mod 10) with (e - 48)
        by (apply Z.mod_unique with (c - 48); lia).
      f_equal; [lia|]. f_equal. lia.
    + pose proof (dec_uncons _ _ _ W2) as (C3 & w3 & W3 & E3). unfold dec_char in C3.
      destruct t as [|g t]; [|cbn in L; lia].
      apply dec_nil in W3. subst w3. change (zlen (@nil Z)) with 0 in E3.
      change (zlen [f]) with 1 in E2. change (zlen [e; f]) with 2 in E. subst w w2.
      assert (v = (c - 48) * 100 + (e - 48) * 10 + (f - 48)) by lia. clear E D W W2 WB. subst v.
      set (x := c - 48) in *. set (y := e - 48) in *. set (z := f - 48) in *.
      replace (x * 100 + y * 10 + z <? 10) with false by lia.
      replace (x * 100 + y * 10 + z <? 100) with false by lia.
      assert (D1 : (x * 100 + y * 10 + z) / 100 = x)
        by (symmetry; apply Z.div_unique with (y * 10 + z); lia).
      assert (D2 : (x * 100 + y * 10 + z) / 10 = x * 10 + y)
        by (symmetry; apply Z.div_unique with z; lia).
      assert (D3 : (x * 100 + y * 10 + z) mod 10 = z)
        by (symmetry; apply Z.mod_unique with (x * 10 + y); lia).
      assert (D4 : (x * 10 + y) mod 10 = y)
        by (symmetry; apply Z.mod_unique with x; lia).
      rewrite D1, D2, D3, D4. subst x y z. f_equal; [lia|]. f_equal; [lia|]. f_equal. lia.
Qed.

Lemma dec_byte_match : forallb (fun n => rfull octet_re (dec_byte (Z.of_nat n))) (seq 0 256) = true.
Proof. vm_compute. reflexivity. Qed.
Lemma octet_lang t v : octet t v -> lang octet_re t.
Proof.
  intros O. rewrite (octet_text t v O). destruct O as (_ & _ & B & _).
  apply rfull_spec. pose proof dec_byte_match as M. rewrite forallb_forall in M.
  specialize (M (Z.to_nat v)). rewrite Z2Nat.id in M by lia. apply M. apply in_seq. lia.
Qed.
Lemma quad_search t v : quad t v -> rsearch IP4_REGEX t = true.
Proof.
  intros (t1 & t2 & t3 & t4 & a & b & c & d & A & B & C & D & -> & _).
  apply rsearch_spec. exists [], (t1 ++ 46 :: t2 ++ 46 :: t3 ++ 46 :: t4), [].
  rewrite app_nil_r. split; [reflexivity|].
  replace (t1 ++ 46 :: t2 ++ 46 :: t3 ++ 46 :: t4)
    with (concat [t1 ++ [46]; t2 ++ [46]; t3 ++ [46]] ++ t4)
    by (cbn [concat]; rewrite app_nil_r; repeat (rewrite <- app_assoc; cbn [app]); reflexivity).
  constructor; [|eapply octet_lang; eauto].
  apply lang_rep; [cbn; lia|].
  assert (K : forall t v, octet t v -> lang (Cat octet_re (chr 46)) (t ++ [46])).
  { intros t' v' O. constructor; [eapply octet_lang; eauto|]. now constructor. }
  constructor; [eapply K; eauto|]. constructor; [eapply K; eauto|]. constructor; [eapply K; eauto|constructor].
Qed.
Lemma quad_chars t v : quad t v -> Forall (fun c => dec_char c \/ c = 46) t.
Proof.
  intros (t1 & t2 & t3 & t4 & a & b & c & d & (A & _) & (B & _) & (C & _) & (D & _) & -> & _).
  assert (K : forall t v, dec_num t v -> Forall (fun c => dec_char c \/ c = 46) t).
  { intros t' v' H. apply dec_chars in H. eapply Forall_impl; [|exact H]. auto. }
  repeat (apply Forall_app; split; [now eauto|]; constructor; [now right|]). eauto.
Qed.
Lemma no_nul t : Forall (fun c => c <> 0) t -> has_nul t = false.
Proof.
  unfold has_nul. induction 1 as [|c t C F IH]; auto. cbn. rewrite IH.
  now replace (c =? 0) with false by lia.
Qed.
Lemma quad_nul t v : quad t v -> has_nul t = false.
Proof.
  intros Q. apply no_nul. eapply Forall_impl; [|exact (quad_chars _ _ Q)].
  intros c [H|H]; unfold dec_char in *; lia.
Qed.

Theorem ip4_text_complete t v : quad t v -> ip4_of_text t = TOk v.
Proof.
  intros Q. unfold ip4_of_text. now rewrite (quad_search _ _ Q), (quad_nul _ _ Q), (aton_quad _ _ Q).
Qed.

(** * Plain texts *)
Lemma span_dec t : exists o r, t = o ++ r /\ Forall dec_char o /\
  (r = [] \/ exists c r', r = c :: r' /\ ~ dec_char c).
Proof.
  induction t as [|c t (o & r & -> & F & R)].
  - exists [], []. auto.
  - assert (X : dec_char c \/ ~ dec_char c) by (unfold dec_char; lia). destruct X as [X|X].
    + exists (c :: o), r. auto.
    + exists [], (c :: o ++ r). repeat split; auto. right. eauto.
Qed.

Lemma plain_tail a t : plain4 (a ++ 46 :: t) -> plain4 t.
Proof.
  intros [F Z0]. split.
  - apply Forall_app in F as [_ F]. now inversion F.
  - intros x b c -> C. destruct (Z0 (a ++ 46 :: x) b c) as (a' & e & E & D); auto.
    { now rewrite <- app_assoc. }
    destruct x as [|y x] using rev_ind.
    + change (a ++ [46] = a' ++ [e]) in E. apply app_inj_tail in E as [_ <-].
      unfold dec_char in D. lia.
    + replace (a ++ 46 :: x ++ [y]) with ((a ++ 46 :: x) ++ [y]) in E by now rewrite <- app_assoc.
      apply app_inj_tail in E as [_ <-]. eauto.
Qed.

(** the first number of a plain text *)
Lemma plain_part c t : plain4 (c :: t) -> is_digit c = true ->
  exists o v r, c :: t = o ++ r /\ dec_num o v /\ o <> []
    /\ (forall u, o = 48 :: u -> u = []) /\ dot_end r /\ strtoul (c :: t) = (v, r).
Proof.
  intros [F Z0] C. destruct (span_dec (c :: t)) as (o & r & E & O & R).
  assert (DC : dec_char c) by (unfold is_digit, dec_char in *; lia).
  destruct o as [|c' o].
  { cbn in E. destruct R as [->|(d & r' & -> & ND)]; [discriminate|]. injection E as -> ->. contradiction. }
  destruct (dec_all _ O) as (v & D).
  assert (ZZ : forall u, c' :: o = 48 :: u -> u = []).
  { intros u X. injection X as -> ->. destruct u as [|d u]; auto.
    destruct (Z0 [] (u ++ r) d) as (a' & e & Y & _); [exact E|now inversion O; inversion H2|].
    now destruct a'. }
  assert (DE : dot_end r).
  { destruct R as [->|(d & r' & -> & ND)]; [now left|]. right. exists r'. f_equal.
    rewrite E in F. apply Forall_app in F as [_ F]. inversion F; subst. tauto. }
  exists (c' :: o), v, r. repeat split; auto; [discriminate|].
  rewrite E. apply strtoul_octet; auto. discriminate.
Qed.

Lemma plain_step n word t x : plain4 t -> aton (S n) word t = Some x -> (1 <= cnt 46 t)%nat ->
  exists o v r, octet o v /\ t = o ++ 46 :: r /\ plain4 r /\ cnt 46 t = S (cnt 46 r)
    /\ aton n (word + v * 256 ^ Z.of_nat (S n)) r = Some x.
Proof.
  intros P A N. destruct t as [|c t]; [discriminate|].
  cbn [aton] in A. destruct (is_digit c) eqn:C; [|discriminate].
  destruct (plain_part c t P C) as (o & v & r & E & D & NE & ZZ & DE & S). rewrite S in A.
  destruct (0xFFFFFFFF <? v) eqn:V; [discriminate|].
  assert (O0 : cnt 46 o = O).
  { apply dec_chars in D. clear -D. induction D as [|e o E F IH]; auto. cbn.
    unfold dec_char in E. replace (e =? 46) with false by lia. auto. }
  destruct DE as [->|(r' & ->)].
  - rewrite E, app_nil_r in N. lia.
  - destruct (255 <? v) eqn:V2; [discriminate|].
    exists o, v, r'. rewrite E in *. rewrite cnt_app, O0.
    split; [|split; [reflexivity|split; [eapply plain_tail; eauto|split; [reflexivity|exact A]]]].
    pose proof (dec_bound _ _ D). repeat split; auto; lia.
Qed.
Lemma plain_last word t x : plain4 t -> aton 0 word t = Some x ->
  exists v, octet t v /\ x = word + v.
Proof.
  intros P A. destruct t as [|c t]; [discriminate|].
  cbn [aton] in A. destruct (is_digit c) eqn:C; [|discriminate].
  destruct (plain_part c t P C) as (o & v & r & E & D & NE & ZZ & DE & S). rewrite S in A.
  destruct (0xFFFFFFFF <? v) eqn:V; [discriminate|].
  destruct DE as [->|(r' & ->)]; [|discriminate].
  change (256 ^ (Z.of_nat 0 + 1)) with 256 in A.
  destruct (v <? 256) eqn:V2; [|discriminate]. injection A as <-.
  rewrite app_nil_r in E. rewrite E. exists v. split; auto.
  pose proof (dec_bound _ _ D). repeat split; auto; lia.
Qed.

Theorem ip4_text_sound_plain t v : plain4 t -> ip4_of_text t = TOk v -> quad t v.
Proof.
  intros P. unfold ip4_of_text. destruct (rsearch IP4_REGEX t) eqn:S; [|discriminate].
  destruct (has_nul t); [discriminate|]. destruct (aton 3 0 t) as [x|] eqn:A; [|discriminate].
  intros X. injection X as ->.
  apply rsearch_spec in S as (p & u & q & E & L).
  assert (N : (3 <= cnt 46 t)%nat).
  { rewrite E, !cnt_app. pose proof (minc_ok 46 _ _ L) as M.
    change (minc 46 IP4_REGEX) with 3%nat in M. lia. }
  clear E L p u q.
  apply plain_step in A as (t1 & a & r1 & O1 & E1 & P1 & N1 & A); auto; [|lia].
  apply plain_step in A as (t2 & b & r2 & O2 & E2 & P2 & N2 & A); auto; [|lia].
  apply plain_step in A as (t3 & c & r3 & O3 & E3 & P3 & N3 & A); auto; [|lia].
  apply plain_last in A as (d & O4 & ->); auto.
  exists t1, t2, t3, r3, a, b, c, d. rewrite E1, E2, E3.
  repeat (split; [assumption|]). split; [reflexivity|].
  change (256 ^ Z.of_nat 3) with 16777216. change (256 ^ Z.of_nat 2) with 65536.
  change (256 ^ Z.of_nat 1) with 256. lia.
Qed.
