(** Lemmas: the language of a regular expression. *)
From Verif Require Import Base BaseLemmas AddrModel IpTextModel SpecIpText.
From Coq Require Import Lia.

Inductive lang : re -> text -> Prop :=
| L_eps : lang Eps []
| L_set l c : in_set l c = true -> lang (Set_ l) [c]
| L_cat a b u w : lang a u -> lang b w -> lang (Cat a b) (u ++ w)
| L_left a b u : lang a u -> lang (Alt a b) u
| L_right a b u : lang b u -> lang (Alt a b) u.

Lemma rmatch_spec r : forall s k,
  rmatch r s k = true <-> exists u w, s = u ++ w /\ lang r u /\ k w = true.
Proof.
  induction r as [|l|a IA b IB|a IA b IB]; intros s k; cbn.
  - split.
    + intros H. exists [], s. repeat split; auto. constructor.
    + intros (u & w & -> & L & K). inversion L; subst. exact K.
  - split.
    + destruct s as [|c s]; [discriminate|]. destruct (in_set l c) eqn:E; [|discriminate].
      intros H. exists [c], s. repeat split; auto. now constructor.
    + intros (u & w & -> & L & K). inversion L; subst. cbn. rewrite H0. exact K.
  - rewrite IA. split.
    + intros (u & w & -> & L & K). apply IB in K as (u' & w' & -> & L' & K').
      exists (u ++ u'), w'. rewrite app_assoc. repeat split; auto. now constructor.
    + intros (u & w & -> & L & K). inversion L; subst.
      exists u0, (w0 ++ w). rewrite app_assoc. repeat split; auto.
      apply IB. exists w0, w. auto.
  - destruct (rmatch a s k) eqn:E.
    + split; [intros _|auto]. apply IA in E as (u & w & -> & L & K).
      exists u, w. repeat split; auto. now constructor.
    + rewrite IB. split; intros (u & w & -> & L & K).
      * exists u, w. repeat split; auto. now constructor 5.
      * inversion L; subst.
        -- assert (rmatch a (u ++ w) k = true) by (apply IA; exists u, w; auto). congruence.
        -- exists u, w. auto.
Qed.

Lemma rsearch_spec r : forall s,
  rsearch r s = true <-> exists a u b, s = a ++ u ++ b /\ lang r u.
Proof.
  assert (B : forall s, rmatch r s (fun _ => true) = true -> exists a u b, s = a ++ u ++ b /\ lang r u).
  { intros s H. apply rmatch_spec in H as (u & w & -> & L & _). exists [], u, w. auto. }
  assert (F : forall u b, lang r u -> rmatch r (u ++ b) (fun _ => true) = true).
  { intros u b L. apply rmatch_spec. exists u, b. auto. }
  induction s as [|c s IH]; cbn.
  - destruct (rmatch r [] _) eqn:E.
    + split; auto.
    + split; [discriminate|]. intros (a & u & b & H & L).
      symmetry in H. apply app_eq_nil in H as [-> H].
      specialize (F u b L). rewrite H in F. congruence.
  - destruct (rmatch r (c :: s) _) eqn:E.
    + split; auto.
    + rewrite IH. split; intros (a & u & b & H & L).
      * exists (c :: a), u, b. rewrite H. auto.
      * destruct a as [|x a]; cbn in H.
        -- specialize (F u b L). rewrite <- H in F. congruence.
        -- injection H as -> ->. exists a, u, b. auto.
Qed.

Lemma rfull_spec r s : rfull r s = true <-> lang r s.
Proof.
  unfold rfull. rewrite rmatch_spec. split.
  - intros (u & w & -> & L & K). destruct w; [|discriminate]. now rewrite app_nil_r.
  - intros L. exists s, []. rewrite app_nil_r. auto.
Qed.

(** number of occurrences of a character *)
Fixpoint cnt (ch : Z) (t : text) : nat :=
  match t with [] => O | c :: r => ((if (c =? ch)%Z then 1 else 0) + cnt ch r)%nat end.
Lemma cnt_app ch a b : cnt ch (a ++ b) = (cnt ch a + cnt ch b)%nat.
Proof. induction a; cbn; lia. Qed.

Definition only (ch : Z) (l : list (Z * Z)) : bool :=
  forallb (fun p => (fst p =? ch) && (snd p =? ch)) l.
Lemma only_in ch l c : only ch l = true -> in_set l c = true -> c = ch.
Proof.
  unfold only, in_set. rewrite forallb_forall, existsb_exists. intros O (p & I & B).
  specialize (O p I). lia.
Qed.

Fixpoint minc (ch : Z) (r : re) : nat :=
  match r with
  | Eps => O
  | Set_ l => if only ch l then 1%nat else O
  | Cat a b => (minc ch a + minc ch b)%nat
  | Alt a b => Nat.min (minc ch a) (minc ch b)
  end.
Lemma minc_ok ch r u : lang r u -> (minc ch r <= cnt ch u)%nat.
Proof.
  induction 1; cbn; try lia.
  - destruct (only ch l) eqn:O; [|lia]. apply only_in with (c := c) in O; auto.
    subst. rewrite Z.eqb_refl. lia.
  - rewrite cnt_app. lia.
Qed.

Definition dblc (t : text) : Prop := exists a b, t = a ++ 58 :: 58 :: b.
Lemma dblc_app a t b : dblc t -> dblc (a ++ t ++ b).
Proof. intros (x & y & ->). exists (a ++ x), (y ++ b). now rewrite <- !app_assoc. Qed.

Fixpoint starts (r : re) : bool :=
  match r with
  | Eps => false
  | Set_ l => only 58 l
  | Cat a b => starts a
  | Alt a b => starts a && starts b
  end.
Lemma starts_ok r u : lang r u -> starts r = true -> exists w, u = 58 :: w.
Proof.
  induction 1; cbn; intros S.
  - discriminate.
  - apply only_in with (c := c) in S; auto. subst. now exists [].
  - destruct IHlang1 as (x & ->); auto. now exists (x ++ w).
  - apply andb_true_iff in S as []; auto.
  - apply andb_true_iff in S as []; auto.
Qed.
(** every word ends with a colon; every word is empty or ends with a colon *)
Fixpoint fin (r : re) : bool * bool :=
  match r with
  | Eps => (false, true)
  | Set_ l => (only 58 l, only 58 l)
  | Cat a b =>
      let (a1, a2) := fin a in
      let (b1, b2) := fin b in
      (b1 || (a1 && b2), b1 || (a1 && b2) || (a2 && b2))
  | Alt a b =>
      let (a1, a2) := fin a in let (b1, b2) := fin b in (a1 && b1, a2 && b2)
  end.
Lemma fin_ok r u : lang r u ->
  (fst (fin r) = true -> exists w, u = w ++ [58])
  /\ (snd (fin r) = true -> u = [] \/ exists w, u = w ++ [58]).
Proof.
  induction 1; cbn;
    try (destruct (fin a) as [a1 a2], (fin b) as [b1 b2]; cbn in *).
  - split; [discriminate|auto].
  - split; intros S; apply only_in with (c := c) in S; auto; subst.
    + now exists [].
    + right. now exists [].
  - destruct IHlang1 as [A1 A2], IHlang2 as [B1 B2].
    assert (B : b1 || a1 && b2 = true -> exists w0, u ++ w = w0 ++ [58]).
    { intros S. apply orb_true_iff in S as [S|S].
      - destruct (B1 S) as (x & ->). exists (u ++ x). now rewrite app_assoc.
      - apply andb_true_iff in S as [S1 S2]. destruct (B2 S2) as [->|(x & ->)].
        + rewrite app_nil_r. auto.
        + exists (u ++ x). now rewrite app_assoc. }
    split; [exact B|]. intros S. apply orb_true_iff in S as [S|S]; [right; auto|].
    apply andb_true_iff in S as [S1 S2]. destruct (B2 S2) as [->|(x & ->)].
    + rewrite app_nil_r. auto.
    + right. exists (u ++ x). now rewrite app_assoc.
  - destruct IHlang as [A1 A2].
    split; intros S; apply andb_true_iff in S as []; auto.
  - destruct IHlang as [A1 A2].
    split; intros S; apply andb_true_iff in S as []; auto.
Qed.
Lemma ends_ok r u : lang r u -> fst (fin r) = true -> exists w, u = w ++ [58].
Proof. intros L. apply (fin_ok _ _ L). Qed.
Fixpoint dbl (r : re) : bool :=
  match r with
  | Eps => false
  | Set_ _ => false
  | Cat a b => dbl a || dbl b || (fst (fin a) && starts b)
  | Alt a b => dbl a && dbl b
  end.
Lemma dbl_ok r u : lang r u -> dbl r = true -> dblc u.
Proof.
  induction 1; cbn; intros S; try discriminate.
  - apply orb_true_iff in S as [S|S]; [apply orb_true_iff in S as [S|S]|].
    + destruct (IHlang1 S) as (x & y & ->). exists x, (y ++ w). now rewrite <- app_assoc.
    + destruct (IHlang2 S) as (x & y & ->). exists (u ++ x), y. now rewrite app_assoc.
    + apply andb_true_iff in S as [S1 S2].
      destruct (ends_ok _ _ H S1) as (x & ->). destruct (starts_ok _ _ H0 S2) as (y & ->).
      exists x, y. now rewrite <- app_assoc.
  - apply andb_true_iff in S as []; auto.
  - apply andb_true_iff in S as []; auto.
Qed.

(** the two kinds of text that the pattern of IPv6 addresses finds *)
Lemma ip6_re_kinds u : lang IP6_REGEX u -> (7 <= cnt 58 u)%nat \/ dblc u.
Proof.
  unfold IP6_REGEX. intros L. inversion L; subst; clear L.
  - left. refine (Nat.le_trans _ _ _ _ (minc_ok 58 _ _ H2)). vm_compute. lia.
  - right. refine (dbl_ok _ _ H2 _). vm_compute. reflexivity.
Qed.

Lemma ip6_search_dbl t : dblc t -> rsearch IP6_REGEX t = true.
Proof.
  intros (a & b & ->). apply rsearch_spec. exists a, [58; 58], b. split; [reflexivity|].
  apply rfull_spec. vm_compute. reflexivity.
Qed.

(** repetitions *)
Lemma lang_upto r n : forall us, (length us <= n)%nat -> Forall (lang r) us -> lang (upto n r) (concat us).
Proof.
  induction n as [|n IH]; intros us H F; cbn.
  - destruct us; [constructor|cbn in H; lia].
  - destruct us as [|u us]; cbn.
    + apply L_right. constructor.
    + apply L_left. inversion F; subst. constructor; auto. apply IH; auto. cbn in H. lia.
Qed.
Lemma lang_rep r lo : forall hi us, (lo <= length us <= hi)%nat -> Forall (lang r) us ->
  lang (rep lo hi r) (concat us).
Proof.
  induction lo as [|lo IH]; intros hi us H F.
  - apply lang_upto; auto. lia.
  - destruct us as [|u us]; [cbn in H; lia|]. cbn. inversion F; subst. constructor; auto.
    apply IH; auto. cbn in H. lia.
Qed.
