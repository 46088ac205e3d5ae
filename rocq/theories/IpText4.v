(** Lemmas: the text printed for an address, and reading it again. *)
From Verif Require Import Base BaseLemmas AddrModel AddrProofs IpTextModel.
From Verif Require Import SpecIpText IpText1 IpText2 IpText3.
From Coq Require Import Lia.

(** * IPv4 *)
Lemma dec_byte_octet b : 0 <= b <= 255 -> octet (dec_byte b) b.
Proof.
  intros B.
  assert (ONE : forall d, 0 <= d <= 9 -> dec_num [48 + d] d).
  { intros d D. replace d with (0 * 10 + (48 + d - 48)) at 2 by lia.
    change [48 + d] with ([] ++ [48 + d]). constructor; [constructor|]. unfold dec_char. lia. }
  assert (MORE : forall t v d, dec_num t v -> 0 <= d <= 9 -> dec_num (t ++ [48 + d]) (v * 10 + d)).
  { intros t v d T D. replace (v * 10 + d) with (v * 10 + (48 + d - 48)) by lia.
    constructor; auto. unfold dec_char. lia. }
  unfold dec_byte.
  destruct (b <? 10) eqn:B1; [|destruct (b <? 100) eqn:B2].
  - split; [apply ONE; lia|]. split; [discriminate|]. split; [lia|]. intros u X. now injection X.
  - pose proof (Z.div_mod b 10 ltac:(lia)) as D. pose proof (Z.mod_pos_bound b 10 ltac:(lia)).
    set (q := b / 10) in *. set (m := b mod 10) in *. clearbody q m.
    split; [|split; [discriminate|split; [lia|]]].
    + replace b with (q * 10 + m) by lia. apply (MORE [48 + q] q m); [|lia]. apply ONE. lia.
    + intros u X. injection X as E X. lia.
  - pose proof (Z.div_mod b 10 ltac:(lia)) as D. pose proof (Z.mod_pos_bound b 10 ltac:(lia)).
    assert (Q : b / 100 = b / 10 / 10) by (rewrite Z.div_div by lia; reflexivity).
    rewrite Q. set (q := b / 10) in *. set (m := b mod 10) in *. clearbody q m.
    pose proof (Z.div_mod q 10 ltac:(lia)) as D'. pose proof (Z.mod_pos_bound q 10 ltac:(lia)).
    set (r := q / 10) in *. set (n := q mod 10) in *. clearbody r n.
    split; [|split; [discriminate|split; [lia|]]].
    + replace b with ((r * 10 + n) * 10 + m) by lia.
      apply (MORE [48 + r; 48 + n] (r * 10 + n) m); [|lia].
      apply (MORE [48 + r] r n); [|lia]. apply ONE. lia.
    + intros u X. injection X as E X. lia.
Qed.
Lemma ip4_str_quad a : 0 <= a < 2 ^ 32 -> quad (ip4_str a) a.
Proof.
  intros A. change (2 ^ 32) with 4294967296 in A.
  unfold ip4_str, ip4_bytes. cbn [be_enc app].
  exists (dec_byte (a / 256 / 256 / 256 mod 256)), (dec_byte (a / 256 / 256 mod 256)),
    (dec_byte (a / 256 mod 256)), (dec_byte (a mod 256)),
    (a / 256 / 256 / 256 mod 256), (a / 256 / 256 mod 256), (a / 256 mod 256), (a mod 256).
  assert (M : forall x, octet (dec_byte (x mod 256)) (x mod 256)).
  { intros x. apply dec_byte_octet. pose proof (Z.mod_pos_bound x 256). lia. }
  repeat (split; [apply M|]). split; [reflexivity|].
  pose proof (Z.div_mod a 256 ltac:(lia)). pose proof (Z.div_mod (a / 256) 256 ltac:(lia)).
  pose proof (Z.div_mod (a / 256 / 256) 256 ltac:(lia)).
  rewrite (Z.mod_small (a / 256 / 256 / 256)); [lia|].
  pose proof (Z.mod_pos_bound a 256 ltac:(lia)). pose proof (Z.mod_pos_bound (a / 256) 256 ltac:(lia)).
  pose proof (Z.mod_pos_bound (a / 256 / 256) 256 ltac:(lia)). lia.
Qed.
Theorem ip4_round a : 0 <= a < 2 ^ 32 -> ip4_of_text (ip4_str a) = TOk a.
Proof. intros A. apply ip4_text_complete. now apply ip4_str_quad. Qed.

(** * The groups of an IPv6 address *)
Lemma hex_digit_char d : 0 <= d < 16 -> hex_char (hex_digit d) d.
Proof. intros D. unfold hex_digit, hex_char. destruct (d <? 10) eqn:E; lia. Qed.
Lemma hex_word_group w : 0 <= w < 65536 -> group (hex_word w) w.
Proof.
  intros W.
  assert (ONE : forall d, 0 <= d < 16 -> hex_num [hex_digit d] d).
  { intros d D. replace d with (0 * 16 + d) at 2 by lia.
    change [hex_digit d] with ([] ++ [hex_digit d]). constructor; [constructor|].
    now apply hex_digit_char. }
  assert (MORE : forall t v d, hex_num t v -> 0 <= d < 16 -> hex_num (t ++ [hex_digit d]) (v * 16 + d)).
  { intros t v d T D. constructor; auto. now apply hex_digit_char. }
  pose proof (Z.div_mod w 16 ltac:(lia)) as D. pose proof (Z.mod_pos_bound w 16 ltac:(lia)).
  assert (Q1 : w / 256 = w / 16 / 16) by (rewrite Z.div_div by lia; reflexivity).
  assert (Q2 : w / 4096 = w / 16 / 16 / 16) by (rewrite !Z.div_div by lia; reflexivity).
  unfold hex_word. rewrite Q1, Q2.
  set (q := w / 16) in *. set (m := w mod 16) in *. clearbody q m.
  pose proof (Z.div_mod q 16 ltac:(lia)) as D1. pose proof (Z.mod_pos_bound q 16 ltac:(lia)).
  set (q1 := q / 16) in *. set (m1 := q mod 16) in *. clearbody q1 m1.
  pose proof (Z.div_mod q1 16 ltac:(lia)) as D2. pose proof (Z.mod_pos_bound q1 16 ltac:(lia)).
  set (q2 := q1 / 16) in *. set (m2 := q1 mod 16) in *. clearbody q2 m2.
  destruct (w <? 16) eqn:B1; [|destruct (w <? 256) eqn:B2; [|destruct (w <? 4096) eqn:B3]].
  - split; [apply ONE; lia|cbn; lia].
  - split; [|cbn; lia]. replace w with (q * 16 + m) by lia.
    apply (MORE [hex_digit q] q m); [|lia]. apply ONE. lia.
  - split; [|cbn; lia]. replace w with ((q1 * 16 + m1) * 16 + m) by lia.
    apply (MORE [hex_digit q1; hex_digit m1] (q1 * 16 + m1) m); [|lia].
    apply (MORE [hex_digit q1] q1 m1); [|lia]. apply ONE. lia.
  - split; [|cbn; lia]. replace w with (((q2 * 16 + m2) * 16 + m1) * 16 + m) by lia.
    apply (MORE [hex_digit q2; hex_digit m2; hex_digit m1] ((q2 * 16 + m2) * 16 + m1) m); [|lia].
    apply (MORE [hex_digit q2; hex_digit m2] (q2 * 16 + m2) m1); [|lia].
    apply (MORE [hex_digit q2] q2 m2); [|lia]. apply ONE. lia.
Qed.

Definition gtext (ws : list Z) : text := join_colon (map hex_word ws).
Lemma gtext_groups ws : Forall (fun w => 0 <= w < 65536) ws -> ws <> [] -> groups (gtext ws) ws.
Proof.
  induction 1 as [|w ws W F IH]; intros N; [congruence|].
  destruct ws as [|w' ws].
  - constructor. now apply hex_word_group.
  - change (gtext (w :: w' :: ws)) with (hex_word w ++ 58 :: gtext (w' :: ws)).
    constructor; [now apply hex_word_group|]. apply IH. discriminate.
Qed.
Lemma gtext_left ws : Forall (fun w => 0 <= w < 65536) ws ->
  gtext ws = [] /\ ws = [] \/ groups (gtext ws) ws.
Proof.
  intros F. destruct ws as [|w ws]; [now left|right]. apply gtext_groups; auto. discriminate.
Qed.
Lemma gtext_right ws : Forall (fun w => 0 <= w < 65536) ws ->
  gtext ws = [] /\ ws = [] \/ tail6 (gtext ws) ws.
Proof. intros F. destruct (gtext_left ws F) as [H|H]; [auto|right; now constructor]. Qed.

(** * The run of zeros *)
Definition zeros_at (full : list Z) (p : nat * nat) : Prop :=
  (1 <= snd p)%nat /\ (fst p + snd p <= length full)%nat
  /\ forall j, (fst p <= j < fst p + snd p)%nat -> nth j full 1 = 0.
Lemma zero_run_ok full : forall ws i cur best,
  skipn i full = ws -> (i <= length full)%nat ->
  (forall p, cur = Some p -> zeros_at full p /\ (fst p + snd p = i)%nat) ->
  (forall p, best = Some p -> zeros_at full p) ->
  forall p, zero_run i cur best ws = Some p -> zeros_at full p.
Proof.
  assert (LG : forall cur best p, longer cur best = Some p -> cur = Some p \/ best = Some p).
  { intros [[b l]|] [[b' l']|] p; unfold longer; auto. destruct (Nat.ltb l' l); auto. }
  induction ws as [|w ws IH]; intros i cur best E I C B p R; cbn in R.
  - destruct (LG _ _ _ R) as [X|X]; [now apply C in X|auto].
  - assert (W : nth i full 1 = w /\ skipn (S i) full = ws /\ (S i <= length full)%nat).
    { assert (L : length (skipn i full) = length (w :: ws)) by now rewrite E.
      rewrite skipn_length in L. cbn in L.
      rewrite <- (firstn_skipn i full) at 1 2. rewrite E.
      assert (F : length (firstn i full) = i) by (rewrite firstn_length; lia).
      split; [|split; [|lia]].
      - rewrite app_nth2 by lia. rewrite F, Nat.sub_diag. reflexivity.
      - rewrite skipn_app, F, skipn_all2 by lia. replace (S i - i)%nat with 1%nat by lia. reflexivity. }
    destruct W as (W & E' & I').
    destruct (w =? 0) eqn:Z0.
    + apply IH in R; auto. intros q Q. destruct cur as [[b l]|].
      * injection Q as <-. destruct (C (b, l) eq_refl) as [(L1 & L2 & N) X]. cbn in *.
        split; [|lia]. split; [cbn; lia|]. split; [cbn; lia|]. cbn. intros j J.
        destruct (Nat.eq_dec j i) as [->|]; [lia|]. apply N. lia.
      * injection Q as <-. split; [|cbn; lia]. split; [cbn; lia|]. split; [cbn; lia|].
        cbn. intros j J. replace j with i by lia. lia.
    + apply IH in R; auto.
      * discriminate.
      * intros q Q. destruct (LG _ _ _ Q) as [X|X]; [now apply C in X|auto].
Qed.
Lemma best_run_ok ws b l : best_run ws = Some (b, l) -> (2 <= l)%nat /\ zeros_at ws (b, l).
Proof.
  unfold best_run. destruct (zero_run 0 None None ws) as [[b' l']|] eqn:E; [|discriminate].
  destruct (Nat.ltb l' 2) eqn:L; [discriminate|]. intros X. injection X as -> ->.
  apply Nat.ltb_ge in L. split; auto.
  apply (zero_run_ok ws ws 0 None None eq_refl) in E; auto; try discriminate. lia.
Qed.

Lemma Forall_firstn' {A} (P : A -> Prop) n l : Forall P l -> Forall P (firstn n l).
Proof. intros F. rewrite <- (firstn_skipn n l) in F. now apply Forall_app in F. Qed.
Lemma Forall_skipn' {A} (P : A -> Prop) n l : Forall P l -> Forall P (skipn n l).
Proof. intros F. rewrite <- (firstn_skipn n l) in F. now apply Forall_app in F. Qed.

(** * The text *)
Lemma words_none i ws : ntop6_words None (S i) ws = flat_map (fun w => 58 :: hex_word w) ws.
Proof. revert i. induction ws as [|w ws IH]; intros i; cbn; auto. rewrite IH. reflexivity. Qed.
Lemma gtext_flat w ws : gtext (w :: ws) = hex_word w ++ flat_map (fun w => 58 :: hex_word w) ws.
Proof.
  revert w. induction ws as [|w' ws IH]; intros w.
  - cbn. now rewrite app_nil_r.
  - change (gtext (w :: w' :: ws)) with (hex_word w ++ 58 :: gtext (w' :: ws)).
    rewrite IH. reflexivity.
Qed.

Definition word (w : Z) : Prop := 0 <= w < 65536.
Lemma ip6_of_groups t ws : groups t ws -> zlen ws = 8 -> ip6_of_text t = TOk (words_val ws).
Proof.
  intros G L. assert (T : tail6 t ws) by now constructor.
  assert (D : denotes6 t (words_val ws)) by (left; exists ws; auto).
  unfold ip6_of_text.
  now rewrite (eight_search _ _ G L), (denotes_nul _ _ D), (pton6_tail _ _ T L),
    (ip6_words ws L (tail_range _ _ T)).
Qed.
Lemma ip6_of_colon l r lw rw :
  (l = [] /\ lw = [] \/ groups l lw) -> (r = [] /\ rw = [] \/ tail6 r rw) ->
  zlen lw + zlen rw <= 7 ->
  ip6_of_text (l ++ 58 :: 58 :: r)
  = TOk (words_val (lw ++ repeat 0 (8 - length lw - length rw) ++ rw)).
Proof.
  intros HL HR L.
  assert (D : denotes6 (l ++ 58 :: 58 :: r)
                (words_val (lw ++ repeat 0 (8 - length lw - length rw) ++ rw))).
  { right. exists l, r, lw, rw. auto 6. }
  unfold ip6_of_text. rewrite ip6_search_dbl by (exists l, r; reflexivity).
  rewrite (denotes_nul _ _ D), (pton6_colon l r lw rw HL HR L).
  destruct (colon_words lw rw l r HL HR L) as [WL WF]. now rewrite (ip6_words _ WL WF).
Qed.

Lemma hex_ffff : hex_word 65535 = [102; 102; 102; 102].
Proof. reflexivity. Qed.

Lemma ntop6_read ws : zlen ws = 8 -> Forall word ws -> ip6_of_text (ntop6 ws) = TOk (words_val ws).
Proof.
  intros L F. unfold ntop6. destruct (best_run ws) as [[b l]|] eqn:B.
  - apply best_run_ok in B as (L2 & _ & BL & N). cbn [fst snd] in *.
    assert (L8 : length ws = 8%nat) by (unfold zlen in L; lia). clear L.
    do 8 (destruct ws as [|? ws]; [discriminate L8|]). destruct ws; [|discriminate L8]. clear L8.
    cbn [length] in BL.
    repeat match goal with H : Forall _ (_ :: _) |- _ => inversion H; clear H; subst end.
    unfold word in *.
    assert (GL : forall lw rw, Forall (fun w => 0 <= w < 65536) lw ->
      Forall (fun w => 0 <= w < 65536) rw -> zlen lw + zlen rw <= 7 ->
      ip6_of_text (gtext lw ++ 58 :: 58 :: gtext rw)
      = TOk (words_val (lw ++ repeat 0 (8 - length lw - length rw) ++ rw))).
    { intros lw rw FL FR S. apply ip6_of_colon; auto using gtext_left, gtext_right. }
    assert (N0 := N 0%nat). assert (N1 := N 1%nat). assert (N2 := N 2%nat). assert (N3 := N 3%nat).
    assert (N4 := N 4%nat). assert (N5 := N 5%nat). assert (N6 := N 6%nat). assert (N7 := N 7%nat).
    cbn [nth] in N0, N1, N2, N3, N4, N5, N6, N7. clear N.
    assert (CASES : (b = 0 \/ b = 1 \/ b = 2 \/ b = 3 \/ b = 4 \/ b = 5 \/ b = 6)%nat) by lia.
    assert (CASEL : (l = 2 \/ l = 3 \/ l = 4 \/ l = 5 \/ l = 6 \/ l = 7 \/ l = 8)%nat) by lia.
    cbn [nth].
    match goal with |- ip6_of_text (if embeds_ip4 ?q ?w then _ else _) = _ =>
      destruct (embeds_ip4 q w) eqn:EM end.
    + (* an embedded IPv4 address *)
      cbn [embeds_ip4] in EM. destruct b as [|b]; [|discriminate].
      match goal with |- context [ip4_str (?x * 65536 + ?y)] =>
        assert (Q : quad (ip4_str (x * 65536 + y)) (x * 65536 + y))
          by (apply ip4_str_quad; change (2 ^ 32) with (65536 * 65536); lia);
        assert (QD : (x * 65536 + y) / 65536 = x) by (symmetry; apply Z.div_unique with y; lia);
        assert (QM : (x * 65536 + y) mod 65536 = y) by (symmetry; apply Z.mod_unique with x; lia);
        set (q4 := ip4_str (x * 65536 + y)) in *; clearbody q4; set (v4 := x * 65536 + y) in *; clearbody v4
      end.
      apply orb_true_iff in EM as [EM|EM].
      * apply Nat.eqb_eq in EM. subst l.
        rewrite (N0 ltac:(lia)), (N1 ltac:(lia)), (N2 ltac:(lia)), (N3 ltac:(lia)), (N4 ltac:(lia)), (N5 ltac:(lia)).
        refine (eq_trans (ip6_of_colon [] q4 [] [v4 / 65536; v4 mod 65536] _ _ _) _).
        -- auto.
        -- right. now constructor.
        -- cbn. lia.
        -- rewrite QD, QM. reflexivity.
      * apply andb_true_iff in EM as [EM W5]. apply Nat.eqb_eq in EM. subst l.
        apply Z.eqb_eq in W5. rewrite W5.
        rewrite (N0 ltac:(lia)), (N1 ltac:(lia)), (N2 ltac:(lia)), (N3 ltac:(lia)), (N4 ltac:(lia)).
        assert (G : group (hex_word 65535) 65535) by (apply hex_word_group; lia).
        refine (eq_trans (ip6_of_colon [] (hex_word 65535 ++ 58 :: q4) []
                            [65535; v4 / 65536; v4 mod 65536] _ _ _) _).
        -- auto.
        -- right. apply (tail_both _ [65535]); auto. now constructor.
        -- cbn. lia.
        -- rewrite QD, QM. reflexivity.
    + clear EM.
      match goal with |- _ = TOk (words_val ?ws) =>
        assert (FF : Forall (fun w => 0 <= w < 65536) ws) by (repeat constructor; lia);
        assert (GG := fun b' l' (Eb : b' = b) (El : l' = l) =>
          GL (firstn b' ws) (skipn (b' + l') ws) (Forall_firstn' _ _ _ FF) (Forall_skipn' _ _ _ FF))
      end.
      destruct CASES as [->|[->|[->|[->|[->|[->| ->]]]]]];
        destruct CASEL as [->|[->|[->|[->|[->|[->| ->]]]]]]; try lia;
        specialize (GG _ _ eq_refl eq_refl);
        cbn [firstn skipn Nat.add length Nat.sub repeat app] in GG;
        specialize (GG ltac:(cbn; lia));
        repeat match goal with
               | H : (_ <= _ < _)%nat -> ?z = 0 |- _ =>
                   first [ specialize (H ltac:(cbn; lia)); rewrite H in *; clear H | clear H ]
               end;
        rewrite <- GG; f_equal; unfold gtext;
        cbn [ntop6_words ntop6_word Nat.leb Nat.ltb Nat.eqb Nat.add andb app map join_colon];
        repeat (rewrite <- app_assoc; cbn [app]); rewrite ?app_nil_r; reflexivity.
  - cbn [embeds_ip4]. rewrite app_nil_r. destruct ws as [|w ws]; [discriminate L|].
    cbn [ntop6_words ntop6_word Nat.eqb app]. rewrite words_none, <- gtext_flat.
    apply ip6_of_groups; auto. apply gtext_groups; auto. discriminate.
Qed.
