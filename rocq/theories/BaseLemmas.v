(** Lemmas about Base: byte strings, slices, struct packing. *)
From Verif Require Export Base.
From Coq Require Export Lia ZifyBool ZifyNat.
Ltac Zify.zify_post_hook ::= Z.div_mod_to_equations.

Arguments Z.add : simpl never.
Arguments Z.sub : simpl never.
Arguments Z.mul : simpl never.
Arguments Z.pow : simpl never.
Arguments Z.div : simpl never.
Arguments Z.modulo : simpl never.

(** ** monad *)
Lemma rbind_ok {A B} (m : res A) (k : A -> res B) b :
  rbind m k = Ok b -> exists a, m = Ok a /\ k a = Ok b.
Proof. destruct m; cbn; intros H; [eauto|discriminate]. Qed.

(** ** lists *)
Lemma zlen_nonneg {A} (l : list A) : 0 <= zlen l.
Proof. unfold zlen; lia. Qed.
Lemma zlen_nil {A} : zlen (@nil A) = 0. Proof. reflexivity. Qed.
Lemma zlen_cons {A} (x : A) l : zlen (x :: l) = 1 + zlen l.
Proof. unfold zlen; cbn [length]; lia. Qed.
Lemma zlen_app {A} (a b : list A) : zlen (a ++ b) = zlen a + zlen b.
Proof. unfold zlen; rewrite app_length; lia. Qed.
Lemma zlen_zero_nil {A} (l : list A) : zlen l = 0 -> l = [].
Proof. destruct l; [auto|rewrite zlen_cons; pose proof (zlen_nonneg l); lia]. Qed.

Lemma slice_all {A} (l : list A) b : zlen l <= b -> slice 0 b l = l.
Proof. unfold slice, zlen; intros; cbn [skipn]. change (Z.to_nat 0) with 0%nat.
  cbn [skipn]. apply firstn_all2; lia. Qed.
Lemma slice_app_shift {A} (p l : list A) a b :
  zlen p <= a -> slice a b (p ++ l) = slice (a - zlen p) (b - zlen p) l.
Proof.
  unfold slice, zlen; intros H. rewrite skipn_app.
  rewrite skipn_all2 by lia. cbn [app]. f_equal; [lia|]. f_equal; lia.
Qed.
Lemma slice_app_left {A} (p l : list A) b :
  b = zlen p -> slice 0 b (p ++ l) = p.
Proof.
  unfold slice, zlen; intros ->. change (Z.to_nat 0) with 0%nat. cbn [skipn].
  rewrite firstn_app. rewrite Z.sub_0_r, Nat2Z.id, Nat.sub_diag.
  cbn [firstn]. rewrite app_nil_r. apply firstn_all.
Qed.
Lemma slice_app_in {A} (p l : list A) a b :
  0 <= a -> b <= zlen p -> slice a b (p ++ l) = slice a b p.
Proof.
  unfold slice, zlen; intros Ha Hb. rewrite skipn_app, firstn_app, skipn_length.
  replace (Z.to_nat (b - a) - (length p - Z.to_nat a))%nat with 0%nat by lia.
  cbn [firstn]. apply app_nil_r.
Qed.
Lemma slice_from_app_shift {A} (p l : list A) a :
  zlen p <= a -> slice_from a (p ++ l) = slice_from (a - zlen p) l.
Proof.
  unfold slice_from, zlen; intros H. rewrite skipn_app, skipn_all2 by lia.
  cbn [app]. f_equal; lia.
Qed.
Lemma slice_from_0 {A} (l : list A) : slice_from 0 l = l.
Proof. reflexivity. Qed.
Lemma slice_from_exact {A} (p l : list A) a : a = zlen p -> slice_from a (p ++ l) = l.
Proof. intros ->. rewrite slice_from_app_shift by lia. rewrite Z.sub_diag. reflexivity. Qed.
Lemma zlen_slice {A} (l : list A) a b :
  0 <= a <= b -> b <= zlen l -> zlen (slice a b l) = b - a.
Proof. unfold slice, zlen; intros. rewrite firstn_length, skipn_length; lia. Qed.
Lemma zlen_slice_le {A} (l : list A) a b : zlen (slice a b l) <= Z.max 0 (b - a).
Proof. unfold slice, zlen; intros. rewrite firstn_length; lia. Qed.
Lemma zlen_slice_from {A} (l : list A) a :
  0 <= a <= zlen l -> zlen (slice_from a l) = zlen l - a.
Proof. unfold slice_from, zlen; intros. rewrite skipn_length; lia. Qed.
Lemma slice_split {A} (l : list A) a : 0 <= a -> l = slice 0 a l ++ slice_from a l.
Proof. unfold slice, slice_from; intros. change (Z.to_nat 0) with 0%nat. cbn [skipn].
  rewrite Z.sub_0_r. symmetry; apply firstn_skipn. Qed.
Lemma index_ok {A} (l : list A) i : 0 <= i < zlen l -> exists x, index l i = Ok x.
Proof.
  unfold index, zlen; intros H. destruct (nth_error l (Z.to_nat i)) eqn:E; [eauto|].
  apply nth_error_None in E; lia.
Qed.
Lemma index_exn {A} (l : list A) i : 0 <= i -> zlen l <= i -> index l i = Exn IndexError.
Proof.
  unfold index, zlen; intros H0 H. destruct (nth_error l (Z.to_nat i)) eqn:E; [|auto].
  assert (nth_error l (Z.to_nat i) <> None) as Hn by congruence.
  apply nth_error_Some in Hn; lia.
Qed.
Lemma index_app_shift {A} (p l : list A) i :
  zlen p <= i -> index (p ++ l) i = index l (i - zlen p).
Proof.
  unfold index, zlen; intros H. rewrite nth_error_app2 by lia.
  replace (Z.to_nat i - length p)%nat with (Z.to_nat (i - Z.of_nat (length p))) by lia.
  reflexivity.
Qed.
Lemma index_app_left {A} (p l : list A) i :
  0 <= i < zlen p -> index (p ++ l) i = index p i.
Proof. unfold index, zlen; intros H. rewrite nth_error_app1 by lia. reflexivity. Qed.
Lemma index_In {A} (l : list A) i x : index l i = Ok x -> In x l.
Proof.
  unfold index. destruct (nth_error l (Z.to_nat i)) eqn:E; intros H; inversion H; subst.
  eapply nth_error_In; eauto.
Qed.

(** ** byte strings *)
Lemma wf_nil : wf_bytes []. Proof. constructor. Qed.
Lemma wf_cons b l : is_byte b -> wf_bytes l -> wf_bytes (b :: l).
Proof. intros; constructor; auto. Qed.
Lemma wf_app a b : wf_bytes (a ++ b) <-> wf_bytes a /\ wf_bytes b.
Proof. unfold wf_bytes; rewrite Forall_app; tauto. Qed.
Lemma wf_firstn n l : wf_bytes l -> wf_bytes (firstn n l).
Proof. intros H. rewrite <- (firstn_skipn n l) in H. apply wf_app in H; tauto. Qed.
Lemma wf_skipn n l : wf_bytes l -> wf_bytes (skipn n l).
Proof. intros H. rewrite <- (firstn_skipn n l) in H. apply wf_app in H; tauto. Qed.
Lemma wf_slice a b l : wf_bytes l -> wf_bytes (slice a b l).
Proof. intros; apply wf_firstn, wf_skipn; auto. Qed.
Lemma wf_slice_from a l : wf_bytes l -> wf_bytes (slice_from a l).
Proof. intros; apply wf_skipn; auto. Qed.
Lemma wf_index l i b : wf_bytes l -> index l i = Ok b -> is_byte b.
Proof. intros H E. apply index_In in E. unfold wf_bytes in H; rewrite Forall_forall in H; auto. Qed.
Lemma wf_bytesb_ok l : wf_bytesb l = true <-> wf_bytes l.
Proof.
  unfold wf_bytesb, wf_bytes. rewrite forallb_forall, Forall_forall.
  split; intros H x Hx; specialize (H x Hx); unfold is_byteb, is_byte in *; lia.
Qed.

(** ** big-endian numbers *)
Lemma be_acc l a : fold_left (fun acc b => acc * 256 + b) l a
                   = a * 256 ^ zlen l + be l.
Proof.
  revert a. induction l as [|b l IH]; intros a.
  - cbn. unfold be, zlen; cbn. lia.
  - unfold be. cbn [fold_left]. rewrite !IH. rewrite zlen_cons.
    rewrite Z.pow_add_r by (try lia; apply zlen_nonneg). unfold be. lia.
Qed.
Lemma be_nil : be [] = 0. Proof. reflexivity. Qed.
Lemma be_cons b l : be (b :: l) = b * 256 ^ zlen l + be l.
Proof. unfold be at 1. cbn [fold_left]. rewrite be_acc. lia. Qed.
Lemma be_app a b : be (a ++ b) = be a * 256 ^ zlen b + be b.
Proof. unfold be at 1. rewrite fold_left_app. fold (be a). apply be_acc. Qed.
Lemma pow256_pos n : 0 < 256 ^ Z.of_nat n.
Proof. apply Z.pow_pos_nonneg; lia. Qed.
Lemma pow256_S n : 256 ^ Z.of_nat (S n) = 256 * 256 ^ Z.of_nat n.
Proof. rewrite Nat2Z.inj_succ, Z.pow_succ_r; lia. Qed.
Lemma be_bound l : wf_bytes l -> 0 <= be l < 256 ^ zlen l.
Proof.
  induction l as [|b l IH]; intros H.
  - unfold zlen; cbn. lia.
  - inversion H as [|? ? Hb Hl]; subst. rewrite be_cons. specialize (IH Hl).
    unfold zlen in *; cbn [length]. rewrite pow256_S. unfold is_byte in Hb.
    pose proof (pow256_pos (length l)). nia.
Qed.
Lemma be_enc_length n v : length (be_enc n v) = n.
Proof. revert v; induction n; intros; cbn [be_enc]; [auto|]. rewrite app_length, IHn; cbn; lia. Qed.
Lemma be_enc_zlen n v : zlen (be_enc n v) = Z.of_nat n.
Proof. unfold zlen; rewrite be_enc_length; auto. Qed.
Lemma be_enc_wf n v : wf_bytes (be_enc n v).
Proof.
  revert v; induction n; intros; cbn [be_enc]; [constructor|].
  apply wf_app; split; auto. constructor; [|constructor]. unfold is_byte. lia.
Qed.
Lemma be_be_enc n v : be (be_enc n v) = v mod 256 ^ Z.of_nat n.
Proof.
  revert v; induction n; intros.
  - cbn. rewrite Z.mod_1_r. reflexivity.
  - cbn [be_enc]. rewrite be_app, IHn. unfold zlen; cbn [length].
    change (256 ^ Z.of_nat 1) with 256. unfold be at 1; cbn [fold_left].
    rewrite pow256_S. pose proof (pow256_pos n) as Hp.
    rewrite Z.rem_mul_r by lia. lia.
Qed.
Lemma be_be_enc_small n v : 0 <= v < 256 ^ Z.of_nat n -> be (be_enc n v) = v.
Proof. intros; rewrite be_be_enc; apply Z.mod_small; auto. Qed.
Lemma be_enc_be l : wf_bytes l -> be_enc (length l) (be l) = l.
Proof.
  induction l as [|b l IH] using rev_ind; intros H; [reflexivity|].
  apply wf_app in H as [Hl Hb]. inversion Hb as [|? ? Hb' _]; subst. unfold is_byte in Hb'.
  rewrite app_length; cbn [length]. rewrite Nat.add_1_r. cbn [be_enc].
  rewrite be_app. unfold zlen; cbn [length]. change (256 ^ Z.of_nat 1) with 256.
  unfold be at 2 4; cbn [fold_left].
  replace ((be l * 256 + (0 * 256 + b)) / 256) with (be l) by lia.
  replace ((be l * 256 + (0 * 256 + b)) mod 256) with b by lia.
  rewrite IH; auto.
Qed.
Lemma be_enc_inj n v w :
  0 <= v < 256 ^ Z.of_nat n -> 0 <= w < 256 ^ Z.of_nat n -> be_enc n v = be_enc n w -> v = w.
Proof. intros Hv Hw E. rewrite <- (be_be_enc_small n v), <- (be_be_enc_small n w) by auto. congruence. Qed.
Lemma be_inj a b : wf_bytes a -> wf_bytes b -> length a = length b -> be a = be b -> a = b.
Proof. intros Ha Hb L E. rewrite <- (be_enc_be a), <- (be_enc_be b) by auto. congruence. Qed.

Lemma unpack_ok n l : zlen l = Z.of_nat n -> unpack n l = Ok (be l).
Proof. unfold unpack, zlen; intros. rewrite (proj2 (Nat.eqb_eq _ _)) by lia. reflexivity. Qed.
Lemma unpack_slice n (l : bytes) a b :
  0 <= a -> b - a = Z.of_nat n -> b <= zlen l -> unpack n (slice a b l) = Ok (be (slice a b l)).
Proof. intros. apply unpack_ok. rewrite zlen_slice; lia. Qed.

(** ** packing *)
Lemma overwrite_length buf off w :
  (off + length w <= length buf)%nat -> length (overwrite buf off w) = length buf.
Proof. intros. unfold overwrite. rewrite !app_length, firstn_length, skipn_length. lia. Qed.
Lemma overwrite_all buf w : length buf = length w -> overwrite buf 0 w = w.
Proof. intros H. unfold overwrite. cbn [firstn app]. rewrite skipn_all2 by lia. apply app_nil_r. Qed.
Lemma overwrite_mid p m s w off :
  off = length p -> length w = length m -> overwrite (p ++ m ++ s) off w = p ++ w ++ s.
Proof.
  intros -> Hw. unfold overwrite. rewrite firstn_app, Nat.sub_diag, firstn_all.
  cbn [firstn]. rewrite app_nil_r. f_equal. f_equal.
  rewrite app_assoc, skipn_app, skipn_all2 by (rewrite app_length; lia).
  rewrite app_length, Hw, Nat.sub_diag. reflexivity.
Qed.

(** ** bit operations on non-negative numbers *)
Lemma land_ones' a n : 0 <= n -> Z.land a (2 ^ n - 1) = a mod 2 ^ n.
Proof. intros. rewrite <- Z.land_ones by auto. rewrite Z.ones_equiv. f_equal; lia. Qed.

Lemma be_enc_mod n v : be_enc n (v mod 256 ^ Z.of_nat n) = be_enc n v.
Proof.
  assert (L : length (be_enc n (v mod 256 ^ Z.of_nat n)) = length (be_enc n v))
    by (rewrite !be_enc_length; auto).
  apply be_inj; auto using be_enc_wf. rewrite !be_be_enc.
  apply Z.mod_mod. pose proof (pow256_pos n). lia.
Qed.
Lemma be_enc_split m n v : be_enc (m + n) v = be_enc m (v / 256 ^ Z.of_nat n) ++ be_enc n v.
Proof.
  revert v; induction n as [|n IH]; intros v.
  - cbn [be_enc]. rewrite app_nil_r, Nat.add_0_r. f_equal. change (256 ^ Z.of_nat 0) with 1.
    symmetry; apply Z.div_1_r.
  - rewrite Nat.add_succ_r. cbn [be_enc]. rewrite IH, <- app_assoc. f_equal.
    rewrite pow256_S. f_equal. rewrite Z.div_div; [auto|lia|apply pow256_pos].
Qed.
Lemma be_app_enc a n v : be (a ++ be_enc n v) = be a * 256 ^ Z.of_nat n + v mod 256 ^ Z.of_nat n.
Proof. rewrite be_app, be_enc_zlen, be_be_enc. reflexivity. Qed.

(** lists of known length *)
Lemma zlen_inv {A} n (l : list A) : zlen l = Z.of_nat (S n) -> exists x r, l = x :: r /\ zlen r = Z.of_nat n.
Proof. destruct l as [|x r]; [unfold zlen; cbn [length]; lia|]. rewrite zlen_cons. intros. exists x, r; split; auto; lia. Qed.
Ltac inv_len H :=
  match type of H with
  | zlen ?l = 0 => apply zlen_zero_nil in H; subst l
  | zlen ?l = Zpos _ =>
      let x := fresh "b" in let r := fresh "r" in let E := fresh "E" in
      destruct l as [|x r]; [exfalso; unfold zlen in H; cbn in H; lia|];
      rewrite zlen_cons in H;
      match type of H with 1 + zlen ?r' = ?c =>
        let d := eval vm_compute in (c - 1) in
        assert (E : zlen r' = d) by lia; clear H; inv_len E
      end
  end.
Lemma length_zlen {A} (l : list A) n : length l = n -> zlen l = Z.of_nat n.
Proof. unfold zlen; intros ->; auto. Qed.
Global Arguments Z.mul : simpl never.
Global Arguments Z.add : simpl never.
Global Arguments Z.sub : simpl never.
Global Arguments Z.pow : simpl never.
Global Arguments Z.div : simpl never.
Global Arguments Z.modulo : simpl never.
(** evaluate slices with literal bounds of explicit lists *)
Ltac slices :=
  repeat match goal with
  | |- context [slice ?a ?b ?l] =>
      let n := eval vm_compute in (Z.to_nat (b - a)) in
      let m := eval vm_compute in (Z.to_nat a) in
      change (slice a b l) with (firstn n (skipn m l)); cbn [firstn skipn]
  | |- context [slice_from ?a ?l] =>
      let m := eval vm_compute in (Z.to_nat a) in
      change (slice_from a l) with (skipn m l); cbn [skipn]
  end.
