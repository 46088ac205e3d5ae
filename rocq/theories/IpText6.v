(** Lemmas: exactly which texts int() reads, and which texts name a network. *)
From Verif Require Import Base BaseLemmas AddrModel AddrProofs SpecAddr IpTextModel.
From Verif Require Import SpecIpText SpecIntText IpText1 IpText2 IpText3 IpText4 IpText5.
From Coq Require Import Lia.

Lemma groups_nil ds : ~ dig_groups [] ds.
Proof. inversion 1 as [|m ? ? N F D E]; [congruence|]. now destruct m. Qed.
Lemma groups_first c r ds : dig_groups (c :: r) ds -> dec_char c.
Proof.
  inversion 1 as [m N F|m x y N F D E]; subst.
  - now inversion F.
  - destruct m as [|d m]; [congruence|]. injection E as -> _. now inversion F.
Qed.
Definition follows (saw : bool) (t ds : list Z) : Prop :=
  if saw then t = [] /\ ds = [] \/ dig_groups t ds \/ exists r, t = 95 :: r /\ dig_groups r ds
  else dig_groups t ds.
Lemma groups_cons c r ds : dec_char c ->
  (dig_groups (c :: r) ds <-> exists es, ds = c :: es /\ follows true r es).
Proof.
  intros C. split.
  - inversion 1 as [m N F|m x y N F D E]; subst.
    + exists r. split; auto. inversion F; subst. destruct r as [|e r]; [left; auto|].
      right; left. constructor; auto; discriminate.
    + destruct m as [|d m]; [congruence|]. injection E as -> <-. exists (m ++ y). split; auto.
      inversion F; subst. destruct m as [|e m].
      * right; right. exists x. auto.
      * right; left. constructor; auto; discriminate.
  - intros (es & -> & [(-> & ->)|[D|(x & -> & D)]]).
    + constructor; [discriminate|auto].
    + inversion D as [m N F|m x y N F D' E]; subst.
      * constructor; [discriminate|auto].
      * change (c :: m ++ 95 :: x) with ((c :: m) ++ 95 :: x). change (c :: m ++ y) with ((c :: m) ++ y).
        constructor; auto; discriminate.
    + change (c :: 95 :: x) with ([c] ++ 95 :: x). change (c :: es) with ([c] ++ es).
      constructor; auto; discriminate.
Qed.
Lemma uint_spec t : forall saw acc n, uint saw acc t = Some n <->
  exists ds v, follows saw t ds /\ dec_num ds v /\ n = acc * 10 ^ zlen ds + v.
Proof.
  induction t as [|c r IH]; intros saw acc n; cbn [uint].
  - destruct saw; split.
    + intros E. exists [], 0. split; [left; auto|]. split; [constructor|].
      change (zlen (@nil Z)) with 0. injection E as <-. change (10 ^ 0) with 1. lia.
    + intros (ds & v & [(_ & ->)|[D|(x & X & _)]] & D' & ->).
      * apply dec_nil in D' as ->. change (zlen (@nil Z)) with 0. change (10 ^ 0) with 1. f_equal; lia.
      * now apply groups_nil in D.
      * discriminate.
    + discriminate.
    + intros (ds & v & D & _). now apply groups_nil in D.
  - destruct (is_digit c) eqn:G.
    + assert (C : dec_char c) by (unfold is_digit in G; unfold dec_char; lia).
      rewrite IH. split.
      * intros (ds & v & F & D & ->). exists (c :: ds), ((c - 48) * 10 ^ zlen ds + v).
        assert (X : dig_groups (c :: r) (c :: ds)) by (apply groups_cons; eauto).
        split; [destruct saw; cbn [follows]; auto|]. split; [now apply dec_cons|].
        rewrite zlen_cons, Z.pow_add_r by (unfold zlen; lia). change (10 ^ 1) with 10. ring.
      * intros (ds & v & F & D & ->).
        assert (X : dig_groups (c :: r) ds).
        { destruct saw; cbn [follows] in F; auto. destruct F as [(X & _)|[X|(x & X & _)]]; auto.
          - discriminate.
          - injection X as -> _. unfold dec_char in C. lia. }
        apply groups_cons in X as (es & -> & X); auto.
        apply dec_uncons in D as (_ & w & W & ->). exists es, w. split; auto. split; auto.
        rewrite zlen_cons, Z.pow_add_r by (unfold zlen; lia). change (10 ^ 1) with 10. ring.
    + assert (C : ~ dec_char c) by (unfold is_digit in G; unfold dec_char; lia).
      assert (NG : forall ds, ~ dig_groups (c :: r) ds) by (intros ds D; apply groups_first in D; auto).
      destruct (c =? 95) eqn:U; [apply Z.eqb_eq in U; subst c|apply Z.eqb_neq in U];
        destruct saw; cbn [andb].
      * rewrite IH. cbn [follows]. split; intros (ds & v & F & D & ->); exists ds, v; split; auto.
        -- right; right. eauto.
        -- destruct F as [(X & _)|[X|(x & X & F)]]; [discriminate|now apply NG in X|congruence].
      * split; [discriminate|]. intros (ds & v & F & _). now apply NG in F.
      * split; [discriminate|]. intros (ds & v & [(X & _)|[X|(x & X & F)]] & _);
          [discriminate|now apply NG in X|congruence].
      * split; [discriminate|]. intros (ds & v & F & _). now apply NG in F.
Qed.
Lemma uint_text t n : uint false 0 t = Some n <-> exists ds, dig_groups t ds /\ dec_num ds n.
Proof.
  rewrite uint_spec. cbn [follows]. split.
  - intros (ds & v & F & D & ->). exists ds. split; auto.
  - intros (ds & F & D). exists ds, n. split; auto.
Qed.

Lemma c_space_blank c : c_space c = true <-> blank c.
Proof. unfold c_space, blank. lia. Qed.
Lemma cstrip_spec t : exists a, t = a ++ cstrip t /\ Forall blank a.
Proof.
  induction t as [|c r (a & E & A)]; [now exists []|]. cbn [cstrip]. destruct (c_space c) eqn:G.
  - exists (c :: a). split; [cbn; congruence|]. constructor; auto. now apply c_space_blank.
  - now exists [].
Qed.
Lemma cstrip_app a t : Forall blank a -> cstrip (a ++ t) = cstrip t.
Proof. induction 1 as [|c a C A IH]; cbn; auto. apply c_space_blank in C. now rewrite C. Qed.
Lemma cstrip_stop c r : ~ blank c -> cstrip (c :: r) = c :: r.
Proof. intros C. cbn. destruct (c_space c) eqn:G; auto. now apply c_space_blank in G. Qed.
Definition both (t : list Z) : list Z := rev (cstrip (rev (cstrip t))).
Lemma both_spec t : exists a b, t = a ++ both t ++ b /\ Forall blank a /\ Forall blank b.
Proof.
  unfold both. destruct (cstrip_spec t) as (a & E & A).
  destruct (cstrip_spec (rev (cstrip t))) as (b & F & B). exists a, (rev b).
  split; [|split; auto; now apply Forall_rev].
  rewrite E at 1. f_equal. rewrite <- rev_app_distr, <- F. now rewrite rev_involutive.
Qed.
Lemma both_core a c u d b : Forall blank a -> Forall blank b -> ~ blank c ->
  ~ blank d -> (exists w, c :: u = w ++ [d]) -> both (a ++ (c :: u) ++ b) = c :: u.
Proof.
  intros A B C D (w & W). unfold both. rewrite cstrip_app by auto. cbn [app].
  rewrite cstrip_stop by auto. change (c :: u ++ b) with ((c :: u) ++ b).
  rewrite W, !rev_app_distr. rewrite cstrip_app by now apply Forall_rev.
  cbn [rev app]. rewrite cstrip_stop by auto. cbn [rev]. now rewrite rev_involutive.
Qed.
Lemma groups_last t ds : dig_groups t ds -> exists w d, t = w ++ [d] /\ dec_char d.
Proof.
  induction 1 as [m N F|m r ds N F D (w & d & -> & C)].
  - destruct (exists_last N) as (w & d & ->). exists w, d. split; auto.
    apply Forall_app in F as [_ F]. now inversion F.
  - exists (m ++ 95 :: w), d. split; auto. now rewrite <- app_assoc.
Qed.
Lemma py_int_eq t : py_int t =
  match both t with
  | [] => None
  | c :: r => if c =? 45 then option_map Z.opp (uint false 0 r)
              else if c =? 43 then uint false 0 r else uint false 0 (c :: r)
  end.
Proof.
  unfold py_int. fold (both t). destruct (both t) as [|c r]; auto.
  destruct (c =? 45) eqn:E; [apply Z.eqb_eq in E; subst c; now destruct (uint false 0 r)|].
  destruct (c =? 43) eqn:F; [apply Z.eqb_eq in F; subst c; auto|].
  apply Z.eqb_neq in E, F. destruct c as [|p|p]; auto.
  do 7 (try (destruct p as [p|p|]; auto)); congruence.
Qed.
Lemma py_int_spec t n : py_int t = Some n <-> int_text t n.
Proof.
  rewrite py_int_eq. split.
  - destruct (both_spec t) as (a & b & E & A & B). destruct (both t) as [|c r]; [discriminate|].
    destruct (c =? 45) eqn:M; [apply Z.eqb_eq in M; subst c|].
    + destruct (uint false 0 r) as [v|] eqn:U; [|discriminate]. intros X. injection X as <-.
      apply uint_text in U as (ds & G & D). exists a, [45], r, b, ds, v.
      repeat (split; auto).
    + destruct (c =? 43) eqn:P; [apply Z.eqb_eq in P; subst c|]; intros U;
        apply uint_text in U as (ds & G & D).
      * exists a, [43], r, b, ds, n. repeat (split; auto).
      * exists a, [], (c :: r), b, ds, n. repeat (split; auto).
  - intros (a & s & u & b & ds & v & -> & A & B & G & D & S).
    destruct (groups_last _ _ G) as (w & d & W & Dd).
    assert (ND : forall e, dec_char e -> ~ blank e) by (unfold dec_char, blank; intros; lia).
    assert (U : uint false 0 u = Some v) by (apply uint_text; eauto).
    destruct S as [([-> | ->] & ->)|(-> & ->)].
    + destruct u as [|c u]; [now apply groups_nil in G|]. pose proof (groups_first _ _ _ G) as C.
      change ([] ++ (c :: u) ++ b) with ((c :: u) ++ b).
      rewrite (both_core a c u d b) by eauto.
      assert (c <> 45 /\ c <> 43) as [N1 N2] by (unfold dec_char in C; lia).
      apply Z.eqb_neq in N1, N2. now rewrite N1, N2.
    + change ([43] ++ u ++ b) with ((43 :: u) ++ b).
      rewrite (both_core a 43 u d b); auto; [unfold blank; lia|]. exists (43 :: w). cbn. now rewrite <- W.
    + change ([45] ++ u ++ b) with ((45 :: u) ++ b).
      rewrite (both_core a 45 u d b); auto; [|unfold blank; lia|exists (45 :: w); cbn; now rewrite <- W].
      change (45 =? 45) with true. cbv iota. now rewrite U.
Qed.

(** * Which texts name a network *)
Lemma ones_zeros_neg k : k < 0 -> ones_zeros 32 k = 0.
Proof.
  intros K. unfold ones_zeros. rewrite bits_val_prefix. replace (Z.to_nat k) with O by lia.
  change (Z.of_nat 0) with 0. rewrite Z.add_0_l, Z.sub_diag. reflexivity.
Qed.
Lemma net4_iff t w : net4_of_text t = TOk w <->
  exists a m k x, t = a ++ 47 :: m /\ no_slash a /\ no_slash m /\ int_text m k
    /\ 32 - 2 ^ 63 < k <= 32 /\ ip4_of_text a = TOk x /\ w = network_at false x (Z.max 0 k).
Proof.
  split.
  - unfold net4_of_text. destruct (split_slash t) as [|a [|m [|]]] eqn:S; try discriminate.
    apply split_two in S as (-> & A & M).
    destruct (py_int m) as [k|] eqn:P; [|discriminate]. apply py_int_spec in P.
    destruct (fits_index k && fits_index (32 - k)) eqn:F; cbn [negb]; [|discriminate].
    assert (FK : 32 - 2 ^ 63 < k) by (unfold fits_index in F; lia).
    destruct (Z.le_gt_cases k 32) as [K|K].
    + intros E. exists a, m, k. destruct (ip4_of_text a) as [x|e] eqn:X.
      2:{ destruct (mask_of_int 32 (ones_zeros 32 k)); discriminate. }
      exists x. do 6 (split; auto). pose proof (ip4_of_text_range _ _ X) as XR.
      assert (O : ones_zeros 32 k = prefix_mask 32 (Z.max 0 k)).
      { destruct (Z.le_gt_cases 0 k) as [K0|K0].
        - rewrite Z.max_r by lia. now apply ones_zeros_prefix.
        - rewrite Z.max_l by lia. now rewrite ones_zeros_neg. }
      rewrite O in E. destruct (mask_of_int_spec 32 (prefix_mask 32 (Z.max 0 k))) as [[_ Y] _].
      rewrite Y in E by (exists (Z.max 0 k); split; [lia|reflexivity]).
      change 32 with (Z.of_nat 32) in E at 1. rewrite mk_net_spec in E; [|lia|exact XR].
      injection E as <-. reflexivity.
    + intros E. exfalso. rewrite ones_zeros_big in E by lia.
      destruct (mask_of_int_spec 32 (2 ^ k - 1)) as [[Y _] [O|O]]; rewrite O in E; [|discriminate].
      apply Y in O as (k' & K' & O). unfold prefix_mask in O. change (Z.of_nat 32) with 32 in *.
      assert (2 ^ 33 <= 2 ^ k) by (apply Z.pow_le_mono_r; lia).
      assert (0 < 2 ^ (32 - k')) by (apply Z.pow_pos_nonneg; lia).
      change (2 ^ 33) with 8589934592 in *. change (2 ^ 32) with 4294967296 in *. lia.
  - intros (a & m & k & x & -> & A & M & P & K & X & ->). unfold net4_of_text.
    rewrite split_one by auto. rewrite (proj2 (py_int_spec _ _) P), X.
    replace (fits_index k && fits_index (32 - k)) with true by (unfold fits_index; lia). cbn [negb].
    assert (O : ones_zeros 32 k = prefix_mask 32 (Z.max 0 k)).
    { destruct (Z.le_gt_cases 0 k) as [K0|K0].
      - rewrite Z.max_r by lia. now apply ones_zeros_prefix.
      - rewrite Z.max_l by lia. now rewrite ones_zeros_neg. }
    rewrite O. destruct (mask_of_int_spec 32 (prefix_mask 32 (Z.max 0 k))) as [[_ Y] _].
    rewrite Y by (exists (Z.max 0 k); split; [lia|reflexivity]).
    pose proof (ip4_of_text_range _ _ X) as XR.
    change 32 with (Z.of_nat 32) at 1. rewrite mk_net_spec; [reflexivity|lia|exact XR].
Qed.

(** "/" digits, perhaps with a line feed (10) behind *)
Lemma prefix_lang m : rfull (prefix_re 3) (47 :: m) = true <->
  exists d, (m = d \/ m = d ++ [10]) /\ Forall dec_char d /\ 1 <= zlen d <= 3.
Proof.
  rewrite rfull_spec. unfold prefix_re. split.
  - intros L. apply lang_cat in L as (x & y & E & X & Y). apply lang_chr in X as ->.
    injection E as ->. apply lang_cat in Y as (u & w & -> & U & W).
    apply digits_lang_inv in U as [F X]. exists u. split.
    + apply lang_alt in W as [W|W]; [apply lang_chr in W as ->; auto|apply lang_eps in W as ->].
      left. now rewrite app_nil_r.
    + split; auto. unfold zlen. unfold text in X. cbn in X. lia.
  - intros (d & M & F & L). change (47 :: m) with ([47] ++ m). constructor; [constructor; reflexivity|].
    assert (D : lang (rep 1 3 digit_re) d) by (apply digits_lang; auto; unfold zlen in L; lia).
    destruct M as [-> | ->].
    + rewrite <- (app_nil_r d). constructor; auto. unfold opt. now apply L_right, L_eps.
    + constructor; auto. unfold opt. apply L_left. now constructor.
Qed.
Lemma py_int_lf d k : dec_num d k -> d <> [] -> py_int (d ++ [10]) = Some k.
Proof.
  intros D N. apply py_int_spec. exists [], [], d, [10], d, k. cbn [app].
  split; [reflexivity|]. split; [constructor|]. split; [constructor; [left; lia|constructor]|].
  split; [constructor; auto; now apply dec_chars in D|]. split; auto.
Qed.
Lemma net6_iff t w : net6_of_text t = TOk w <->
  exists a d m k x, t = a ++ 47 :: m /\ (m = d \/ m = d ++ [10]) /\ no_slash a
    /\ dec_num d k /\ 1 <= zlen d <= 3 /\ k <= 128
    /\ ip6_of_text a = TOk x /\ w = network_at true x k.
Proof.
  split.
  - unfold net6_of_text. destruct (split_slash t) as [|a [|m [|]]] eqn:S; try discriminate.
    apply split_two in S as (-> & A & M). unfold mask6_of_text.
    destruct (rfull (prefix_re 3) (47 :: m)) eqn:R; [|discriminate]. cbn [tl].
    apply prefix_lang in R as (d & E & F & L). destruct (dec_all d F) as (k & D).
    assert (N : d <> []) by (intros ->; cbn in L; lia). pose proof (dec_bound _ _ D) as B.
    replace (py_int m) with (Some k)
      by (symmetry; destruct E as [-> | ->]; [now apply py_int_dec|now apply py_int_lf]).
    destruct ((0 <=? k) && (k <? 129)) eqn:K; [|discriminate].
    destruct (ip6_of_text a) as [x|] eqn:X; [|discriminate]. rewrite ones_zeros_prefix by lia.
    change 128 with (Z.of_nat 128) at 1.
    rewrite mk_net_spec; [|lia|exact (ip6_of_text_range _ _ X)]. intros Y. injection Y as <-.
    exists a, d, m, k, x. do 5 (split; auto). split; [lia|]. auto.
  - intros (a & d & m & k & x & -> & E & A & D & L & K & X & ->).
    assert (N : d <> []) by (intros ->; cbn in L; lia). pose proof (dec_bound _ _ D) as B.
    assert (M : no_slash m).
    { destruct E as [-> | ->]; [now apply dec_no_slash in D|].
      apply Forall_app. split; [now apply dec_no_slash in D|]. constructor; auto. lia. }
    unfold net6_of_text, mask6_of_text. rewrite split_one by auto.
    rewrite (proj2 (prefix_lang m)) by (exists d; split; auto; split; auto; now apply dec_chars in D).
    cbn [tl].
    replace (py_int m) with (Some k)
      by (symmetry; destruct E as [-> | ->]; [now apply py_int_dec|now apply py_int_lf]).
    replace ((0 <=? k) && (k <? 129)) with true by lia. rewrite X, ones_zeros_prefix by lia.
    change 128 with (Z.of_nat 128) at 1.
    rewrite mk_net_spec; [reflexivity|lia|exact (ip6_of_text_range _ _ X)].
Qed.
