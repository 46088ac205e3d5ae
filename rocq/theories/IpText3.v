(** Lemmas: IPv6 addresses as text. *)
From Verif Require Import Base BaseLemmas AddrModel IpTextModel SpecIpText IpText1 IpText2.
From Coq Require Import Lia.

Lemma hex_val_char c d : hex_val c = Some d <-> hex_char c d.
Proof.
  unfold hex_val, hex_char. split.
  - destruct ((48 <=? c) && (c <=? 57)) eqn:A; [intros X; injection X as <-; lia|].
    destruct ((97 <=? c) && (c <=? 102)) eqn:B; [intros X; injection X as <-; lia|].
    destruct ((65 <=? c) && (c <=? 70)) eqn:C; [intros X; injection X as <-; lia|discriminate].
  - intros [[A ->]|[[A ->]|[A ->]]].
    + now replace ((48 <=? c) && (c <=? 57)) with true by lia.
    + replace ((48 <=? c) && (c <=? 57)) with false by lia.
      now replace ((97 <=? c) && (c <=? 102)) with true by lia.
    + replace ((48 <=? c) && (c <=? 57)) with false by lia.
      replace ((97 <=? c) && (c <=? 102)) with false by lia.
      now replace ((65 <=? c) && (c <=? 70)) with true by lia.
Qed.

Lemma zlen_snoc {A} (t : list A) c : zlen (t ++ [c]) = zlen t + 1.
Proof. unfold zlen. rewrite app_length. cbn. lia. Qed.

Lemma hex_bound t v : hex_num t v -> 0 <= v < 16 ^ zlen t.
Proof.
  induction 1 as [|t v c d H IH C].
  - cbn. lia.
  - rewrite zlen_snoc, Z.pow_add_r by (unfold zlen; lia). change (16 ^ 1) with 16.
    assert (0 <= d < 16) by (unfold hex_char in C; lia). nia.
Qed.
Lemma group_range t v : group t v -> 0 <= v < 65536.
Proof.
  intros [H L]. apply hex_bound in H.
  assert (16 ^ zlen t <= 16 ^ 4) by (apply Z.pow_le_mono_r; lia).
  change (16 ^ 4) with 65536 in *. lia.
Qed.
Lemma groups_range t vs : groups t vs -> Forall (fun w => 0 <= w < 65536) vs.
Proof.
  induction 1; repeat constructor; auto; eapply group_range; eauto.
Qed.
Lemma quad_range t v : quad t v -> 0 <= v < 4294967296.
Proof.
  intros (t1 & t2 & t3 & t4 & a & b & c & d & (_ & _ & A & _) & (_ & _ & B & _) & (_ & _ & C & _)
    & (_ & _ & D & _) & _ & ->). lia.
Qed.
Lemma quad_words_range v : 0 <= v < 4294967296 ->
  Forall (fun w => 0 <= w < 65536) [v / 65536; v mod 65536].
Proof.
  intros H. repeat constructor.
  - apply Z.div_pos; lia.
  - apply Z.div_lt_upper_bound; lia.
  - apply Z.mod_pos_bound; lia.
  - apply Z.mod_pos_bound; lia.
Qed.
Lemma tail_range t vs : tail6 t vs -> Forall (fun w => 0 <= w < 65536) vs.
Proof.
  intros [t' vs' G|t' v Q|t' vs' u v G Q].
  - eapply groups_range; eauto.
  - apply quad_words_range. eapply quad_range; eauto.
  - apply Forall_app. split; [eapply groups_range; eauto|].
    apply quad_words_range. eapply quad_range; eauto.
Qed.
Lemma tail_cons t v u vs : group t v -> tail6 u vs -> tail6 (t ++ 58 :: u) (v :: vs).
Proof.
  intros G [t' vs' H|t' w Q|t' vs' q w H Q].
  - constructor. now constructor.
  - apply (tail_both t [v]); auto. now constructor.
  - replace (t ++ 58 :: t' ++ 58 :: q) with ((t ++ 58 :: t') ++ 58 :: q) by now rewrite <- app_assoc.
    apply (tail_both (t ++ 58 :: t') (v :: vs')); auto. now constructor.
Qed.

(** * From a meaning to a result *)
Lemma loop_hex tok ws colon t v : hex_num t v -> zlen t <= 4 -> forall s,
  pton6_loop tok ws colon 0 0 (t ++ s) = pton6_loop tok ws colon (zlen t) v s.
Proof.
  induction 1 as [|t v c d H IH C]; intros L s; [reflexivity|].
  rewrite zlen_snoc in *. rewrite <- app_assoc, IH by lia. cbn [app pton6_loop].
  apply hex_val_char in C. rewrite C. now replace (zlen t =? 4) with false by lia.
Qed.

Lemma end_group ws colon xd v : 0 < xd -> zlen ws < 8 ->
  pton6_end ws colon xd v = pton6_end (ws ++ [v]) colon 0 0.
Proof.
  intros X L. unfold pton6_end. replace (0 <? xd) with true by lia.
  replace (8 <=? zlen ws) with false by lia. reflexivity.
Qed.

Lemma loop_group_colon tok ws colon t v s : group t v -> zlen ws < 8 -> s <> [] ->
  pton6_loop tok ws colon 0 0 (t ++ 58 :: s) = pton6_loop s (ws ++ [v]) colon 0 0 s.
Proof.
  intros [H L] W N. rewrite (loop_hex _ _ _ _ _ H) by lia.
  cbn [pton6_loop]. change (hex_val 58) with (@None Z). cbn [Z.eqb Pos.eqb].
  replace (zlen t =? 0) with false by lia. destruct s; [congruence|].
  replace (8 <=? zlen ws) with false by lia. reflexivity.
Qed.
Lemma loop_groups_colon t vs : groups t vs -> forall tok ws colon s, zlen ws + zlen vs <= 8 -> s <> [] ->
  pton6_loop tok ws colon 0 0 (t ++ 58 :: s) = pton6_loop s (ws ++ vs) colon 0 0 s.
Proof.
  induction 1 as [t v G|t v u vs G H IH]; intros tok ws colon s L N.
  - change (zlen [v]) with 1 in L. apply loop_group_colon; auto. lia.
  - rewrite zlen_cons in L. pose proof (zlen_nonneg vs). rewrite <- app_assoc. cbn [app].
    rewrite (loop_group_colon _ _ _ _ v); [|auto|lia|now destruct u].
    rewrite IH; auto; [now rewrite <- app_assoc|]. rewrite zlen_snoc. lia.
Qed.
Lemma loop_group_end tok ws colon t v : group t v -> zlen ws < 8 ->
  pton6_loop tok ws colon 0 0 t = pton6_end (ws ++ [v]) colon 0 0.
Proof.
  intros [H L] W. rewrite <- (app_nil_r t), (loop_hex _ _ _ _ _ H) by lia.
  cbn [pton6_loop]. apply end_group; lia.
Qed.
Lemma loop_groups_end t vs : groups t vs -> forall tok ws colon, zlen ws + zlen vs <= 8 ->
  pton6_loop tok ws colon 0 0 t = pton6_end (ws ++ vs) colon 0 0.
Proof.
  induction 1 as [t v G|t v u vs G H IH]; intros tok ws colon L.
  - change (zlen [v]) with 1 in L. apply loop_group_end; auto. lia.
  - rewrite zlen_cons in L. pose proof (zlen_nonneg vs).
    assert (N : u <> []).
    { intros ->. inversion H as [? ? [_ X]|? ? ? ? ? ? X]; [cbn in X; lia|now destruct t0]. }
    rewrite (loop_group_colon _ _ _ _ v); [|auto|lia|auto].
    rewrite IH; [now rewrite <- app_assoc|]. rewrite zlen_snoc. lia.
Qed.

(** inet_pton4 *)
Lemma pton4_digits done t v : octet t v -> zlen done <= 3 -> forall s,
  pton4 done 0 false (t ++ s) = pton4 done v true s.
Proof.
  intros O L. destruct O as (D & N & B & Z0). revert N B Z0.
  induction D as [|t v c D IH C]; intros N B Z0 s; [congruence|].
  rewrite <- app_assoc. cbn [app]. pose proof (dec_bound _ _ D) as VB. unfold dec_char in C.
  destruct t as [|e t].
  - apply dec_nil in D. subst v. cbn [app pton4]. unfold is_digit.
    replace ((48 <=? c) && (c <=? 57)) with true by lia. cbn [andb negb].
    replace (255 <? 0 * 10 + (c - 48)) with false by lia.
    replace (zlen done =? 4) with false by lia. reflexivity.
  - rewrite IH; [|discriminate|lia|].
    + cbn [pton4]. unfold is_digit. replace ((48 <=? c) && (c <=? 57)) with true by lia.
      replace (255 <? v * 10 + (c - 48)) with false by lia. cbn [andb negb].
      assert (v <> 0).
      { intros ->. apply dec_uncons in D as (E & w & W & X). pose proof (dec_bound _ _ W).
        unfold dec_char in E.
        assert (P : 0 < 10 ^ zlen t) by (apply Z.pow_pos_nonneg; unfold zlen; lia).
        assert (e = 48) by nia. subst e.
        specialize (Z0 (t ++ [c]) eq_refl). now destruct t. }
      now replace (v =? 0) with false by lia.
    + intros u X. injection X as -> ->. specialize (Z0 (u ++ [c]) eq_refl). now destruct u.
Qed.
Lemma pton4_quad t v : quad t v -> exists a b c d, pton4 [] 0 false t = Some [a; b; c; d]
  /\ a * 256 + b = v / 65536 /\ c * 256 + d = v mod 65536.
Proof.
  intros (t1 & t2 & t3 & t4 & a & b & c & d & A & B & C & D & -> & ->).
  exists a, b, c, d. split.
  - rewrite (pton4_digits [] _ a A) by (cbn; lia). cbn [pton4 is_digit]. cbn.
    rewrite (pton4_digits [a] _ b B) by (cbn; lia). cbn.
    rewrite (pton4_digits [a; b] _ c C) by (cbn; lia). cbn.
    rewrite <- (app_nil_r t4), (pton4_digits [a; b; c] _ d D) by (cbn; lia). reflexivity.
  - destruct A as (_ & _ & A & _), B as (_ & _ & B & _), C as (_ & _ & C & _), D as (_ & _ & D & _).
    split.
    + apply Z.div_unique with (c * 256 + d); lia.
    + apply Z.mod_unique with (a * 256 + b); lia.
Qed.
Lemma dec_is_hex t : Forall dec_char t -> exists v, hex_num t v.
Proof.
  induction t as [|c t IH] using rev_ind; intros F.
  - exists 0. constructor.
  - apply Forall_app in F as [F1 F2]. destruct (IH F1) as (v & H).
    exists (v * 16 + (c - 48)). constructor; auto. inversion F2; subst.
    unfold hex_char, dec_char in *. lia.
Qed.
Lemma octet_len t v : octet t v -> 1 <= zlen t <= 3.
Proof.
  intros O. pose proof (octet_text t v O) as E. rewrite E. unfold dec_byte.
  destruct (v <? 10), (v <? 100); cbn; lia.
Qed.
Lemma loop_quad ws colon t v : quad t v -> zlen ws <= 6 ->
  pton6_loop t ws colon 0 0 t = pton6_end (ws ++ [v / 65536; v mod 65536]) colon 0 0.
Proof.
  intros Q L. destruct (pton4_quad t v Q) as (a & b & c & d & P & E1 & E2).
  destruct Q as (t1 & t2 & t3 & t4 & a' & b' & c' & d' & A & B & C & D & E & _).
  destruct (dec_is_hex t1) as (x & X). { destruct A as (A & _). eapply dec_chars; eauto. }
  pose proof (octet_len _ _ A) as AL.
  rewrite E at 2. rewrite (loop_hex _ _ _ _ _ X) by lia. cbn [pton6_loop].
  change (hex_val 46) with (@None Z). cbn [Z.eqb Pos.eqb andb].
  replace (zlen ws <=? 6) with true by lia. rewrite P, E1, E2. reflexivity.
Qed.

Lemma quad_nonnil t v : quad t v -> t <> [].
Proof.
  intros (t1 & t2 & t3 & t4 & a & b & c & d & (_ & N & _) & _ & _ & _ & -> & _). now destruct t1.
Qed.
Lemma group_nonnil t v : group t v -> t <> [].
Proof. intros [_ L] ->. cbn in L. lia. Qed.
Lemma groups_nonnil t vs : groups t vs -> t <> [].
Proof.
  induction 1 as [t v G|t v u vs G H IH]; [eapply group_nonnil; eauto|].
  apply group_nonnil in G. now destruct t.
Qed.
Lemma tail_nonnil t vs : tail6 t vs -> t <> [].
Proof.
  intros [t' vs' G|t' v Q|t' vs' u v G Q].
  - eapply groups_nonnil; eauto.
  - eapply quad_nonnil; eauto.
  - apply groups_nonnil in G. now destruct t'.
Qed.

Lemma loop_tail t vs ws colon : tail6 t vs -> zlen ws + zlen vs <= 8 ->
  pton6_loop t ws colon 0 0 t = pton6_end (ws ++ vs) colon 0 0.
Proof.
  intros [t' vs' G|t' v Q|t' vs' u v G Q] L.
  - now apply loop_groups_end.
  - change (zlen [v / 65536; v mod 65536]) with 2 in L. apply loop_quad; auto. lia.
  - rewrite zlen_app in L. change (zlen [v / 65536; v mod 65536]) with 2 in L.
    rewrite (loop_groups_colon _ _ G); [|lia|eapply quad_nonnil; eauto].
    rewrite (loop_quad _ _ _ _ Q); [now rewrite <- app_assoc|]. rewrite zlen_app. lia.
Qed.

(** no group, quad or tail begins with a colon *)
Lemma hex_head c t v : hex_num (c :: t) v -> exists d, hex_char c d.
Proof.
  revert v. induction t as [|e t IH] using rev_ind; intros v H.
  - inversion H as [|t' v' c' d' H' C' X]. apply (app_inj_tail t' []) in X as [_ ->]. eauto.
  - inversion H as [|t' v' c' d' H' C' X]. apply (app_inj_tail t' (c :: t)) in X as [-> _]. eauto.
Qed.
Lemma group_head t v : group t v -> exists c u, t = c :: u /\ c <> 58.
Proof.
  intros [H L]. destruct t as [|c u]; [cbn in L; lia|]. exists c, u. split; auto.
  destruct (hex_head _ _ _ H) as (d & C). unfold hex_char in C. lia.
Qed.
Lemma groups_head t vs : groups t vs -> exists c u, t = c :: u /\ c <> 58.
Proof.
  intros [t' v G|t' v u vs' G _]; apply group_head in G as (c & x & -> & C); cbn; eauto.
Qed.
Lemma tail_head t vs : tail6 t vs -> exists c u, t = c :: u /\ c <> 58.
Proof.
  intros [t' vs' G|t' v Q|t' vs' u v G Q].
  - eapply groups_head; eauto.
  - destruct Q as (t1 & t2 & t3 & t4 & a & b & c & d & A & _ & _ & _ & -> & _).
    destruct (octet_head _ _ A) as (e & x & -> & D). cbn. exists e. eexists. split; [reflexivity|].
    unfold is_digit in D. lia.
  - apply groups_head in G as (c & x & -> & C). cbn. eauto.
Qed.

Lemma pton6_tail t vs : tail6 t vs -> zlen vs = 8 -> pton6 t = Some vs.
Proof.
  intros T L. pose proof (loop_tail t vs [] None T) as E. change (zlen (@nil Z)) with 0 in E.
  destruct (tail_head _ _ T) as (c & u & -> & C).
  assert (P : pton6 (c :: u) = pton6_loop (c :: u) [] None 0 0 (c :: u)).
  { unfold pton6. destruct c as [|p|p]; auto.
    destruct (Pos.eq_dec p 58) as [->|NE]; [congruence|].
    repeat (destruct p as [p|p|]; try reflexivity; try congruence). }
  rewrite P, E by lia. cbn [app]. unfold pton6_end. cbn. now rewrite L.
Qed.
Lemma end_colon lw rw : zlen lw + zlen rw <= 7 ->
  pton6_end (lw ++ rw) (Some (length lw)) 0 0
  = Some (lw ++ repeat 0 (8 - length lw - length rw) ++ rw).
Proof.
  intros L. unfold pton6_end. cbn [Z.ltb Z.compare andb].
  rewrite zlen_app. replace (zlen lw + zlen rw =? 8) with false by lia.
  rewrite firstn_app, firstn_all, Nat.sub_diag, skipn_app, skipn_all, Nat.sub_diag, app_length.
  cbn [firstn skipn app]. rewrite app_nil_r, Nat.sub_add_distr. reflexivity.
Qed.
Lemma loop_right r rw lw : (r = [] /\ rw = [] \/ tail6 r rw) -> zlen lw + zlen rw <= 7 ->
  pton6_loop r lw (Some (length lw)) 0 0 r
  = Some (lw ++ repeat 0 (8 - length lw - length rw) ++ rw).
Proof.
  intros [[-> ->]|T] L.
  - cbn [pton6_loop]. rewrite <- end_colon by auto. now rewrite app_nil_r.
  - rewrite (loop_tail _ _ _ _ T) by lia. now apply end_colon.
Qed.
Lemma loop_colon tok lw r :
  pton6_loop tok lw None 0 0 (58 :: r) = pton6_loop r lw (Some (length lw)) 0 0 r.
Proof. reflexivity. Qed.
Lemma pton6_colon l r lw rw :
  (l = [] /\ lw = [] \/ groups l lw) -> (r = [] /\ rw = [] \/ tail6 r rw) ->
  zlen lw + zlen rw <= 7 ->
  pton6 (l ++ 58 :: 58 :: r) = Some (lw ++ repeat 0 (8 - length lw - length rw) ++ rw).
Proof.
  intros [[-> ->]|G] R L.
  - cbn [app pton6]. rewrite loop_colon. now apply (loop_right r rw []).
  - destruct (groups_head _ _ G) as (c & u & E & C).
    assert (P : pton6 (l ++ 58 :: 58 :: r) = pton6_loop (l ++ 58 :: 58 :: r) [] None 0 0 (l ++ 58 :: 58 :: r)).
    { rewrite E. cbn [app]. unfold pton6. destruct c as [|p|p]; auto.
      destruct (Pos.eq_dec p 58) as [->|NE]; [congruence|].
      repeat (destruct p as [p|p|]; try reflexivity; try congruence). }
    pose proof (zlen_nonneg rw).
    rewrite P, (loop_groups_colon _ _ G); [|change (zlen (@nil Z)) with 0; lia|discriminate].
    rewrite loop_colon. now apply (loop_right r rw lw).
Qed.

(** * The number *)
Lemma ip6_words ws : zlen ws = 8 -> Forall (fun w => 0 <= w < 65536) ws ->
  ip6_of_bytes (words_bytes ws) = Ok (words_val ws).
Proof.
  intros L F. unfold zlen in L.
  do 8 (destruct ws as [|? ws]; [cbn in L; lia|]). destruct ws; [|cbn in L; lia]. clear L.
  repeat match goal with H : Forall _ (_ :: _) |- _ => inversion H; clear H; subst end.
  unfold ip6_of_bytes, words_bytes. cbn [flat_map app].
  match goal with |- context [zlen ?l =? 16] => change (zlen l =? 16) with true end. cbv iota.
  unfold slice.
  change (Z.to_nat (4 - 0)) with 4%nat. change (Z.to_nat (8 - 4)) with 4%nat.
  change (Z.to_nat (12 - 8)) with 4%nat. change (Z.to_nat (16 - 12)) with 4%nat.
  change (Z.to_nat 0) with 0%nat. change (Z.to_nat 4) with 4%nat.
  change (Z.to_nat 8) with 8%nat. change (Z.to_nat 12) with 12%nat. cbn [firstn skipn].
  unfold be, words_val. cbn [fold_left]. f_equal.
  rewrite !Z.shiftl_mul_pow2 by lia.
  repeat match goal with H : 0 <= ?z < 65536 |- _ =>
    let q := fresh "q" in let m := fresh "m" in
    pose proof (Z.div_mod z 256 ltac:(lia));
    set (q := z / 256) in *; set (m := z mod 256) in *; clearbody q m; clear H end.
  change (2 ^ 96) with (65536 * 65536 * 65536 * 65536 * 65536 * 65536).
  change (2 ^ 64) with (65536 * 65536 * 65536 * 65536). change (2 ^ 32) with (65536 * 65536).
  subst. ring.
Qed.

(** * From a result to a meaning *)
Lemma octet_one c : dec_char c -> octet [c] (c - 48).
Proof.
  intros C. split; [|split; [discriminate|split]].
  - replace (c - 48) with (0 * 10 + (c - 48)) by lia. change [c] with ([] ++ [c]).
    constructor; auto. constructor.
  - unfold dec_char in C. lia.
  - intros u X. now injection X.
Qed.
Lemma octet_snoc t v c : octet t v -> dec_char c -> v <> 0 -> v * 10 + (c - 48) <= 255 ->
  octet (t ++ [c]) (v * 10 + (c - 48)).
Proof.
  intros (D & N & B & Z0) C V L. split; [|split; [now destruct t|split]].
  - now constructor.
  - unfold dec_char in C. lia.
  - intros u X. destruct t as [|e t]; [congruence|]. cbn in X. injection X as -> X.
    specialize (Z0 t eq_refl). subst t.
    apply dec_uncons in D as (_ & w & W & E). apply dec_nil in W. subst w. lia.
Qed.
Lemma pton4_more done t : forall o v l, octet o v -> pton4 done v true t = Some l ->
  exists o' v' r, octet o' v' /\ o ++ t = o' ++ r
    /\ ((r = [] /\ zlen done = 3 /\ l = done ++ [v'])
        \/ exists r', r = 46 :: r' /\ zlen done <> 3 /\ pton4 (done ++ [v']) 0 false r' = Some l).
Proof.
  induction t as [|c t IH]; intros o v l O P; cbn [pton4] in P.
  - destruct (true && (zlen done =? 3)) eqn:E; [|discriminate]. injection P as <-.
    exists o, v, []. split; [exact O|]. split; [reflexivity|]. left. cbn in E.
    split; [reflexivity|]. split; [lia|reflexivity].
  - destruct (is_digit c) eqn:D.
    + cbn [andb negb] in P. destruct (v =? 0) eqn:V; [discriminate|].
      destruct (255 <? v * 10 + (c - 48)) eqn:W; [discriminate|].
      assert (C : dec_char c) by (unfold is_digit, dec_char in *; lia).
      apply IH with (o := o ++ [c]) in P.
      * destruct P as (o' & v' & r & O' & E & R). exists o', v', r. rewrite <- E, <- app_assoc. auto.
      * apply octet_snoc; auto; lia.
    + destruct ((c =? 46) && true) eqn:F; [|discriminate].
      destruct (zlen done =? 3) eqn:G; [discriminate|].
      exists o, v, (c :: t). split; [exact O|]. split; [reflexivity|]. right. exists t.
      assert (c = 46) by lia. subst c. split; [reflexivity|]. split; [lia|exact P].
Qed.
Lemma pton4_start done t l : zlen done <= 3 -> pton4 done 0 false t = Some l ->
  exists o v r, octet o v /\ t = o ++ r
    /\ ((r = [] /\ zlen done = 3 /\ l = done ++ [v])
        \/ exists r', r = 46 :: r' /\ zlen done <> 3 /\ pton4 (done ++ [v]) 0 false r' = Some l).
Proof.
  intros L P. destruct t as [|c t]; cbn [pton4] in P; [discriminate|].
  destruct (is_digit c) eqn:D; [|now rewrite andb_false_r in P].
  cbn [andb negb] in P. destruct (255 <? 0 * 10 + (c - 48)) eqn:W; [discriminate|].
  destruct (zlen done =? 4) eqn:G; [discriminate|].
  assert (C : dec_char c) by (unfold is_digit, dec_char in *; lia).
  apply pton4_more with (o := [c]) in P; [exact P|].
  replace (0 * 10 + (c - 48)) with (c - 48) by lia. now apply octet_one.
Qed.
Lemma pton4_sound t l : pton4 [] 0 false t = Some l ->
  exists a b c d v, l = [a; b; c; d] /\ quad t v
    /\ a * 256 + b = v / 65536 /\ c * 256 + d = v mod 65536.
Proof.
  intros P.
  apply pton4_start in P as (t1 & a & r1 & A & E1 & [(_ & X & _)|(r1' & -> & _ & P)]);
    [discriminate X| |cbn; lia].
  apply pton4_start in P as (t2 & b & r2 & B & E2 & [(_ & X & _)|(r2' & -> & _ & P)]);
    [discriminate X| |cbn; lia].
  apply pton4_start in P as (t3 & c & r3 & C & E3 & [(_ & X & _)|(r3' & -> & _ & P)]);
    [discriminate X| |cbn; lia].
  apply pton4_start in P as (t4 & d & r4 & D & E4 & [(-> & _ & ->)|(r4' & -> & X & P)]);
    [|now contradict X|cbn; lia].
  rewrite app_nil_r in E4. subst.
  exists a, b, c, d, (a * 16777216 + b * 65536 + c * 256 + d). split; [reflexivity|]. split.
  - exists t1, t2, t3, t4, a, b, c, d. tauto.
  - destruct A as (_ & _ & A & _), B as (_ & _ & B & _), C as (_ & _ & C & _), D as (_ & _ & D & _).
    split.
    + apply Z.div_unique with (c * 256 + d); lia.
    + apply Z.mod_unique with (a * 256 + b); lia.
Qed.

(** the digits at the front of a text *)
Lemma span_hex t : exists g v r, t = g ++ r /\ hex_num g v
  /\ (r = [] \/ exists c r', r = c :: r' /\ hex_val c = None).
Proof.
  assert (K : forall t g v, hex_num g v -> exists g' v' r, g ++ t = g' ++ r /\ hex_num g' v'
    /\ (r = [] \/ exists c r', r = c :: r' /\ hex_val c = None)).
  { clear t. induction t as [|c t IH]; intros g v H.
    - exists g, v, []. auto.
    - destruct (hex_val c) as [d|] eqn:E.
      + destruct (IH (g ++ [c]) (v * 16 + d)) as (g' & v' & r & X & R).
        { constructor; auto. now apply hex_val_char. }
        exists g', v', r. rewrite <- app_assoc in X. auto.
      + exists g, v, (c :: t). repeat split; auto. right. eauto. }
  destruct (K t [] 0) as (g & v & r & E & R); [constructor|]. exists g, v, r. auto.
Qed.
Lemma loop_long tok ws colon g v : hex_num g v -> 4 < zlen g -> forall s,
  pton6_loop tok ws colon 0 0 (g ++ s) = None.
Proof.
  induction 1 as [|g v c d H IH C]; intros L s; [cbn in L; lia|].
  rewrite zlen_snoc in L. rewrite <- app_assoc.
  destruct (Z.eq_dec (zlen g) 4) as [E|E].
  - rewrite (loop_hex _ _ _ _ _ H) by lia. cbn [app pton6_loop]. apply hex_val_char in C. rewrite C.
    now replace (zlen g =? 4) with true by lia.
  - apply IH. lia.
Qed.

(** reading the rest of a text at the start of a group *)
Definition rest_is (t : text) (rw : list Z) : Prop := t = [] /\ rw = [] \/ tail6 t rw.

Lemma loop_sound n : forall t ws colon out, (length t <= n)%nat -> zlen ws <= 8 ->
  pton6_loop t ws colon 0 0 t = Some out ->
  (exists rw, rest_is t rw /\ zlen ws + zlen rw <= 8
      /\ pton6_end (ws ++ rw) colon 0 0 = Some out)
  \/ (colon = None /\ exists r rw, t = 58 :: r /\ rest_is r rw /\ zlen ws + zlen rw <= 8
       /\ pton6_end (ws ++ rw) (Some (length ws)) 0 0 = Some out)
  \/ (colon = None /\ exists l lw r rw, t = l ++ 58 :: 58 :: r /\ groups l lw /\ rest_is r rw
       /\ zlen (ws ++ lw) + zlen rw <= 8
       /\ pton6_end ((ws ++ lw) ++ rw) (Some (length (ws ++ lw))) 0 0 = Some out).
Proof.
  induction n as [|n IH]; intros t ws colon out L W8 P.
  - destruct t; [|cbn in L; lia]. left. exists []. rewrite app_nil_r.
    split; [left; auto|]. split; [change (zlen (@nil Z)) with 0; lia|exact P].
  - destruct (span_hex t) as (g & v & r & E & H & R).
    assert (G : zlen g <= 4).
    { destruct (Z.le_gt_cases (zlen g) 4) as [|X]; auto. exfalso.
      rewrite E in P at 2. rewrite (loop_long _ _ _ _ _ H X) in P. discriminate. }
    rewrite E in P at 2. rewrite (loop_hex _ _ _ _ _ H G) in P.
    destruct R as [->|(c & r' & -> & NH)].
    + rewrite app_nil_r in E. subst g. cbn [pton6_loop] in P. left.
      destruct t as [|x t].
      * exists []. split; [left; auto|]. split; [change (zlen (@nil Z)) with 0; lia|].
        rewrite app_nil_r. inversion H as [|? ? ? ? ? ? X]; [subst v; exact P|now destruct t].
      * exists [v]. rewrite zlen_cons in G. pose proof (zlen_nonneg t).
        assert (zlen ws < 8).
        { unfold pton6_end in P. destruct (8 <=? zlen ws) eqn:W; [|lia].
          rewrite zlen_cons in P. replace (0 <? 1 + zlen t) with true in P by lia. discriminate. }
        rewrite end_group in P; [|rewrite zlen_cons; lia|lia].
        split; [|split; [change (zlen [v]) with 1; lia|exact P]].
        right. constructor. constructor. split; auto. rewrite zlen_cons. lia.
    + cbn [pton6_loop] in P. rewrite NH in P.
      destruct (c =? 58) eqn:C.
      * assert (c = 58) by lia. subst c. destruct (zlen g =? 0) eqn:GZ.
        -- assert (g = []) by (destruct g; auto; rewrite zlen_cons in GZ; pose proof (zlen_nonneg g); lia).
           subst g. cbn [app] in E. destruct colon; [discriminate|].
           assert (v = 0) by (inversion H as [|? ? ? ? ? ? X]; auto; now destruct t0). subst v.
           change (zlen (@nil Z)) with 0 in P.
           apply IH in P; [|rewrite E in L; cbn in L; lia|exact W8].
           destruct P as [(rw & RW & RL & P)|[[X _]|[X _]]]; [|discriminate|discriminate].
           right. left. split; auto. exists r', rw. auto.
        -- pose proof (zlen_nonneg g).
           assert (GG : group g v) by (split; auto; lia).
           destruct r' as [|e r']; [discriminate|].
           destruct (8 <=? zlen ws) eqn:W; [discriminate|].
           apply IH in P.
           2:{ rewrite E in L. rewrite app_length in L. cbn in *. lia. }
           2:{ rewrite zlen_snoc. lia. }
           destruct P as [(rw & [[X _]|T] & RL & P)|[[-> (q & rw & X & RW & RL & P)]
             |[-> (l & lw & q & rw & X & GL & RW & RL & P)]]].
           ++ discriminate.
           ++ left. exists (v :: rw). rewrite <- app_assoc in P. rewrite zlen_snoc in RL.
              split; [|split; [rewrite zlen_cons; lia|exact P]].
              right. rewrite E. now apply tail_cons.
           ++ right. right. split; auto. exists g, [v], q, rw.
              rewrite E, X. split; [reflexivity|]. split; [now constructor|]. auto.
           ++ right. right. split; auto. exists (g ++ 58 :: l), (v :: lw), q, rw.
              rewrite <- (app_assoc ws [v] lw) in P, RL. cbn [app] in P, RL.
              rewrite E, X. split; [now rewrite <- app_assoc|]. split; [now constructor|]. auto.
      * destruct ((c =? 46) && (zlen ws <=? 6)) eqn:D; [|discriminate].
        destruct (pton4 [] 0 false t) as [l|] eqn:Q; [|discriminate].
        apply pton4_sound in Q as (a & b & e & f & q & -> & QQ & E1 & E2).
        rewrite E1, E2 in P. left. exists [q / 65536; q mod 65536].
        split; [right; now constructor|]. split; [|exact P].
        change (zlen [q / 65536; q mod 65536]) with 2. lia.
Qed.

Lemma end_none ws out : pton6_end ws None 0 0 = Some out -> zlen ws = 8 /\ out = ws.
Proof.
  unfold pton6_end. cbn [Z.ltb Z.compare andb]. destruct (zlen ws =? 8) eqn:E; [|discriminate].
  intros X. injection X as <-. split; auto. lia.
Qed.
Lemma end_some lw rw out : pton6_end (lw ++ rw) (Some (length lw)) 0 0 = Some out ->
  zlen lw + zlen rw <> 8 /\ (zlen lw + zlen rw <= 7 ->
  out = lw ++ repeat 0 (8 - length lw - length rw) ++ rw).
Proof.
  intros P. split.
  - intros E. unfold pton6_end in P. cbn [Z.ltb Z.compare andb] in P.
    rewrite zlen_app, E in P. discriminate.
  - intros L. rewrite end_colon in P by auto. congruence.
Qed.


Lemma pton6_sound t out : pton6 t = Some out ->
  (tail6 t out /\ zlen out = 8)
  \/ (exists l r lw rw, t = l ++ 58 :: 58 :: r
        /\ (l = [] /\ lw = [] \/ groups l lw) /\ (r = [] /\ rw = [] \/ tail6 r rw)
        /\ zlen lw + zlen rw <= 7 /\ out = lw ++ repeat 0 (8 - length lw - length rw) ++ rw).
Proof.
  intros P.
  assert (K : forall u, pton6_loop u [] None 0 0 u = Some out -> u <> [] ->
    (tail6 u out /\ zlen out = 8)
    \/ (exists r rw, u = 58 :: r /\ rest_is r rw /\ zlen rw <= 7
         /\ out = repeat 0 (8 - length rw) ++ rw)
    \/ (exists l r lw rw, u = l ++ 58 :: 58 :: r /\ groups l lw /\ rest_is r rw
        /\ zlen lw + zlen rw <= 7 /\ out = lw ++ repeat 0 (8 - length lw - length rw) ++ rw)).
  { intros u Q N. apply loop_sound with (n := length u) in Q; [|lia|cbn; lia].
    destruct Q as [(rw & RW & RL & Q)|[[_ (r & rw & E & RW & RL & Q)]|[_ (l & lw & r & rw & E & G & RW & RL & Q)]]].
    - apply end_none in Q as [L ->]. cbn [app] in *. destruct RW as [[-> _]|T]; [congruence|]. auto.
    - right. left. exists r, rw. change (zlen (@nil Z)) with 0 in RL.
      apply (end_some [] rw) in Q as [N8 Q]. change (zlen (@nil Z)) with 0 in *.
      repeat split; auto; [lia|]. apply Q. lia.
    - right. right. exists l, r, lw, rw. cbn [app] in *.
      apply end_some in Q as [N8 Q]. repeat split; auto; [lia|]. apply Q. lia. }
  destruct t as [|c u]; [discriminate|].
  destruct (Z.eq_dec c 58) as [->|C].
  - unfold pton6 in P. destruct u as [|c r]; [discriminate|].
    assert (C : c = 58).
    { destruct c as [|p|p]; try discriminate.
      repeat (destruct p as [p|p|]; try discriminate). reflexivity. }
    subst c. apply K in P; [|discriminate].
    destruct P as [[T L]|[(q & rw & X & RW & L & O)|(l & q & lw & rw & X & G & _)]].
    + apply tail_head in T as (c & u & X & C). congruence.
    + injection X as <-. right. exists [], r, [], rw. change (zlen (@nil Z)) with 0.
      split; [reflexivity|]. split; [auto|]. split; [exact RW|]. split; [lia|]. exact O.
    + apply groups_head in G as (c & u & -> & C). injection X as <- _. congruence.
  - assert (D : pton6 (c :: u) = pton6_loop (c :: u) [] None 0 0 (c :: u)).
    { unfold pton6. destruct c as [|p|p]; auto.
      repeat (destruct p as [p|p|]; try reflexivity; try congruence). }
    rewrite D in P. apply K in P; [|discriminate].
    destruct P as [TL|[(q & rw & X & _)|(l & q & lw & rw & X & G & R & L & O)]]; [auto|congruence|].
    right. exists l, q, lw, rw. auto 6.
Qed.

(** * The pattern and the address *)
Lemma group_lang t v : group t v -> lang h16_re t.
Proof.
  intros [H L].
  assert (F : Forall (lang (Set_ [(48, 57); (97, 102); (65, 70)])) (map (fun c => [c]) t)).
  { clear L. induction H as [|t v c d H IH C]; [constructor|].
    rewrite map_app. apply Forall_app. split; auto. constructor; [|constructor]. constructor.
    unfold hex_char in C. unfold in_set. cbn. lia. }
  replace t with (concat (map (fun c => [c]) t)).
  - apply lang_rep; auto. rewrite map_length. unfold zlen in L. lia.
  - clear. induction t as [|c t IH]; cbn; congruence.
Qed.
Lemma groups_list t vs : groups t vs -> exists us u, t = concat us ++ u
  /\ S (length us) = length vs /\ Forall (lang h16c) us /\ lang h16_re u.
Proof.
  induction 1 as [t v G|t v u vs G H (us & x & -> & L & F & X)].
  - exists [], t. repeat split; auto. eapply group_lang; eauto.
  - exists ((t ++ [58]) :: us), x. split; [cbn; now rewrite <- !app_assoc|].
    split; [cbn; lia|]. split; auto. constructor; auto. constructor; [eapply group_lang; eauto|].
    now constructor.
Qed.
Lemma eight_search t vs : groups t vs -> zlen vs = 8 -> rsearch IP6_REGEX t = true.
Proof.
  intros G L. apply groups_list in G as (us & u & -> & N & F & U). unfold zlen in L.
  apply rsearch_spec. exists [], (concat us ++ u), []. rewrite app_nil_r. split; auto.
  apply L_left. constructor; auto. apply lang_rep; auto.
  unfold text. lia.
Qed.

Lemma hex_num_ok t v (Q : Z -> Prop) : (forall c d, hex_char c d -> Q c) -> hex_num t v -> Forall Q t.
Proof. intros K. induction 1; [constructor|]. apply Forall_app. split; eauto. Qed.
Definition addr_char (c : Z) : Prop := (48 <= c <= 57) \/ (97 <= c <= 102) \/ (65 <= c <= 70) \/ c = 46.
Lemma group_chars t v : group t v -> Forall addr_char t.
Proof.
  intros [H _]. eapply hex_num_ok; [|exact H]. unfold hex_char, addr_char. intros; lia.
Qed.
Lemma cnt_none t : Forall addr_char t -> cnt 58 t = O.
Proof.
  induction 1 as [|c t C F IH]; auto. cbn. rewrite IH. unfold addr_char in C.
  now replace (c =? 58) with false by lia.
Qed.
Lemma quad_addr t v : quad t v -> Forall addr_char t.
Proof.
  intros Q. eapply Forall_impl; [|exact (quad_chars _ _ Q)].
  unfold dec_char, addr_char. intros; lia.
Qed.
Lemma groups_cnt t vs : groups t vs -> S (cnt 58 t) = length vs.
Proof.
  induction 1 as [t v G|t v u vs G H IH].
  - now rewrite (cnt_none t (group_chars _ _ G)).
  - rewrite cnt_app, (cnt_none t (group_chars _ _ G)). cbn. lia.
Qed.

(** "::" does not occur in a sequence of groups *)
Lemma dblc_split a b : Forall addr_char a -> a <> [] -> dblc (a ++ 58 :: b) -> dblc b \/ exists r, b = 58 :: r.
Proof.
  intros F N (x & y & E). revert x E.
  induction F as [|c a C F IH]; intros x E; [congruence|].
  unfold addr_char in C.
  destruct x as [|e x].
  - cbn in E. injection E as -> E. lia.
  - cbn in E. injection E as -> E. destruct a as [|c' a].
    + cbn in E. destruct x as [|f x].
      * injection E as ->. right. eauto.
      * injection E as _ E. left. exists x, y. exact E.
    + apply (IH ltac:(discriminate) x E).
Qed.
Lemma no_dblc a : Forall addr_char a -> ~ dblc a.
Proof.
  intros F (x & y & ->). apply Forall_app in F as [_ F]. inversion F as [|? ? C]; subst.
  unfold addr_char in C. lia.
Qed.
Lemma group_addr_nonnil t v : group t v -> Forall addr_char t /\ t <> [].
Proof. intros G. split; [eapply group_chars|eapply group_nonnil]; eauto. Qed.
Lemma groups_no_dblc t vs : groups t vs -> forall q, Forall addr_char q -> ~ dblc t /\ ~ dblc (t ++ 58 :: q) \/ q = [].
Proof.
  induction 1 as [t v G|t v u vs G H IH]; intros q FQ.
  - destruct q as [|c q]; [auto|left]. destruct (group_addr_nonnil _ _ G) as [F N]. split.
    + now apply no_dblc.
    + intros D. apply dblc_split in D as [D|(r & E)]; auto.
      * exact (no_dblc _ FQ D).
      * injection E as -> _. inversion FQ as [|? ? C]; subst. unfold addr_char in C. lia.
  - destruct (IH q FQ) as [[D1 D2]|]; [left|auto]. destruct (group_addr_nonnil _ _ G) as [F N].
    destruct (groups_head _ _ H) as (c & x & -> & C). split.
    + intros D. apply dblc_split in D as [D|(r & E)]; auto. congruence.
    + rewrite <- app_assoc. intros D. apply (dblc_split t ((c :: x) ++ 58 :: q)) in D as [D|(r & E)]; auto.
      cbn in E. congruence.
Qed.
Lemma six_search t : six_and_quad t -> rsearch IP6_REGEX t = false.
Proof.
  intros (l & lw & q & v & G & L & Q & ->).
  destruct (rsearch IP6_REGEX (l ++ 58 :: q)) eqn:E; auto. exfalso.
  apply rsearch_spec in E as (a & u & b & E & LU).
  apply ip6_re_kinds in LU as [C|D].
  - assert (X : cnt 58 (l ++ 58 :: q) = 6%nat).
    { rewrite cnt_app. cbn. rewrite (cnt_none q (quad_addr _ _ Q)).
      pose proof (groups_cnt _ _ G) as Y. unfold zlen in L. lia. }
    rewrite E, !cnt_app in X. lia.
  - destruct (groups_no_dblc _ _ G q (quad_addr _ _ Q)) as [[_ N]|N].
    + apply N. rewrite E. now apply dblc_app.
    + now apply quad_nonnil in Q.
Qed.
Lemma tail_eight t ws : tail6 t ws -> zlen ws = 8 -> groups t ws \/ six_and_quad t.
Proof.
  intros [t' vs' G|t' v Q|t' vs' u v G Q] L; [auto|discriminate L|right].
  rewrite zlen_app in L. change (zlen [v / 65536; v mod 65536]) with 2 in L.
  exists t', vs', u, v. repeat split; auto. lia.
Qed.

Definition text_char (c : Z) : Prop := addr_char c \/ c = 58.
Lemma groups_chars t vs : groups t vs -> Forall text_char t.
Proof.
  assert (K : forall t v, group t v -> Forall text_char t).
  { intros u v G. eapply Forall_impl; [|exact (group_chars _ _ G)]. unfold text_char. auto. }
  induction 1; [eauto|]. apply Forall_app. split; [eauto|]. constructor; auto. now right.
Qed.
Lemma quad_text_chars t v : quad t v -> Forall text_char t.
Proof. intros Q. eapply Forall_impl; [|exact (quad_addr _ _ Q)]. unfold text_char. auto. Qed.
Lemma tail_chars t vs : tail6 t vs -> Forall text_char t.
Proof.
  intros [t' vs' G|t' v Q|t' vs' u v G Q].
  - eapply groups_chars; eauto.
  - eapply quad_text_chars; eauto.
  - apply Forall_app. split; [eapply groups_chars; eauto|].
    constructor; [now right|]. eapply quad_text_chars; eauto.
Qed.
Lemma denotes_chars t v : denotes6 t v -> Forall text_char t.
Proof.
  intros [(ws & T & _)|(l & r & lw & rw & -> & HL & HR & _)].
  - eapply tail_chars; eauto.
  - apply Forall_app. split; [|constructor; [now right|]; constructor; [now right|]].
    + destruct HL as [[-> _]|G]; [constructor|eapply groups_chars; eauto].
    + destruct HR as [[-> _]|G]; [constructor|eapply tail_chars; eauto].
Qed.
Lemma denotes_nul t v : denotes6 t v -> has_nul t = false.
Proof.
  intros D. apply no_nul. eapply Forall_impl; [|exact (denotes_chars _ _ D)].
  unfold text_char, addr_char. intros; lia.
Qed.

Lemma zeros_range n : Forall (fun w => 0 <= w < 65536) (repeat 0 n).
Proof. induction n; constructor; auto; lia. Qed.
Lemma colon_words lw rw l r : (l = [] /\ lw = [] \/ groups l lw) -> (r = [] /\ rw = [] \/ tail6 r rw) ->
  zlen lw + zlen rw <= 7 ->
  zlen (lw ++ repeat 0 (8 - length lw - length rw) ++ rw) = 8
  /\ Forall (fun w => 0 <= w < 65536) (lw ++ repeat 0 (8 - length lw - length rw) ++ rw).
Proof.
  intros HL HR L. split.
  - unfold zlen in *. rewrite !app_length, repeat_length. lia.
  - apply Forall_app. split; [|apply Forall_app; split; [apply zeros_range|]].
    + destruct HL as [[_ ->]|G]; [constructor|eapply groups_range; eauto].
    + destruct HR as [[_ ->]|G]; [constructor|eapply tail_range; eauto].
Qed.

Theorem ip6_text_iff t v : ip6_of_text t = TOk v <-> denotes6 t v /\ ~ six_and_quad t.
Proof.
  split.
  - unfold ip6_of_text. destruct (rsearch IP6_REGEX t) eqn:S; [|discriminate].
    destruct (has_nul t); [discriminate|]. destruct (pton6 t) as [ws|] eqn:P; [|discriminate].
    intros X. split.
    + apply pton6_sound in P as [[T L]|(l & r & lw & rw & E & HL & HR & L & W)].
      * left. exists ws. rewrite (ip6_words ws L (tail_range _ _ T)) in X.
        injection X as <-. auto.
      * right. exists l, r, lw, rw. destruct (colon_words lw rw l r HL HR L) as [WL WF].
        rewrite <- W in WL, WF. rewrite (ip6_words ws WL WF) in X. injection X as <-.
        rewrite <- W. auto 6.
    + intros Q. rewrite (six_search _ Q) in S. discriminate.
  - intros [D N]. unfold ip6_of_text. rewrite (denotes_nul _ _ D).
    destruct D as [(ws & T & L & ->)|(l & r & lw & rw & E & HL & HR & L & ->)].
    + destruct (tail_eight _ _ T L) as [G|Q]; [|contradiction].
      rewrite (eight_search _ _ G L), (pton6_tail _ _ T L), (ip6_words ws L (tail_range _ _ T)).
      reflexivity.
    + rewrite ip6_search_dbl by (exists l, r; exact E).
      rewrite E, (pton6_colon l r lw rw HL HR L).
      destruct (colon_words lw rw l r HL HR L) as [WL WF]. now rewrite (ip6_words _ WL WF).
Qed.
