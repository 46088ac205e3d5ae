(** Fragmentation and reassembly: the generic part. *)
From Coq Require Import Permutation.
From Verif Require Import Base BaseLemmas BitLemmas CodecModel CodecLemmas CksumModel AddrModel Ip4Model Ip6Model
  BufProofs FragModel.

(** ** cutting *)
Lemma chunks_spec n : 0 < n -> forall fuel data, (length data <= fuel)%nat ->
  concat (chunks_fuel fuel n data) = data /\
  Forall (fun c => 0 < zlen c <= n) (chunks_fuel fuel n data) /\
  (forall i c, nth_error (chunks_fuel fuel n data) i = Some c ->
     (S i < length (chunks_fuel fuel n data))%nat -> zlen c = n) /\
  (data <> [] -> chunks_fuel fuel n data <> []).
Proof.
  intros Hn. induction fuel as [|fuel IH]; intros data L.
  - destruct data; [|cbn in L; lia]. cbn. repeat split; auto. intros [|]; discriminate.
  - destruct data as [|x data]; [cbn; repeat split; auto; intros [|]; discriminate|].
    cbn [chunks_fuel]. set (d := x :: data) in *.
    assert (Lr : (length (slice_from n d) <= fuel)%nat).
    { unfold slice_from. rewrite skipn_length. unfold d in *. cbn [length] in *. lia. }
    destruct (IH (slice_from n d) Lr) as (H1 & H2 & H3 & H4).
    assert (Ld : 0 < zlen d) by (unfold d, zlen; cbn [length]; lia).
    assert (Ls : zlen (slice 0 n d) = Z.min n (zlen d)).
    { unfold slice, zlen. cbn [Z.to_nat skipn]. rewrite firstn_length. lia. }
    assert (Hs : slice 0 n d ++ slice_from n d = d).
    { unfold slice, slice_from. cbn [Z.to_nat skipn]. rewrite Z.sub_0_r. apply firstn_skipn. }
    repeat split.
    + cbn [concat]. rewrite H1. exact Hs.
    + constructor; [lia|exact H2].
    + intros i c Hi Hl. destruct i as [|i]; cbn [nth_error length] in *.
      * injection Hi as <-. rewrite Ls. destruct (Z.le_gt_cases n (zlen d)) as [G|G]; [lia|].
        assert (E : slice_from n d = []).
        { unfold slice_from. apply skipn_all2. unfold zlen in G. lia. }
        rewrite E in Hl. destruct fuel; cbn in Hl; lia.
      * apply (H3 i c Hi). lia.
    + discriminate.
Qed.

(** [frag_list] element by element *)
Lemma frag_list_nth l : forall off i x, nth_error (frag_list off l) i = Some x ->
  exists d, nth_error l i = Some d /\ x = (off + zlen (concat (firstn i l)), (S i <? length l)%nat, d).
Proof.
  induction l as [|d l IH]; intros off i x H; [destruct i; discriminate|].
  destruct i as [|i]; cbn [frag_list nth_error] in H.
  - injection H as <-. exists d. split; [reflexivity|]. cbn [firstn concat]. rewrite zlen_nil, Z.add_0_r.
    destruct l; reflexivity.
  - destruct (IH _ _ _ H) as (c & E & ->). exists c. split; [exact E|]. cbn [firstn concat].
    rewrite zlen_app. do 2 f_equal. lia.
Qed.
Lemma frag_list_length off l : length (frag_list off l) = length l.
Proof. revert off; induction l as [|d l IH]; intros; [reflexivity|]. cbn [frag_list length]. f_equal. apply IH. Qed.
Lemma frag_list_data off l : map snd (frag_list off l) = l.
Proof. revert off; induction l as [|d l IH]; intros; [reflexivity|]. cbn [frag_list map snd]. f_equal. apply IH. Qed.

Lemma data_mtu_spec mtu hlen : 8 <= mtu - hlen < 65536 ->
  data_mtu mtu hlen = (mtu - hlen) / 8 * 8.
Proof.
  intros H. unfold data_mtu. set (x := mtu - hlen) in *.
  assert (E : 0xFFF8 = 0xFFFF - 7) by reflexivity.
  apply Z.bits_inj'. intros k Hk. rewrite Z.land_spec.
  change ((x / 8) * 8) with (x / 2 ^ 3 * 2 ^ 3). rewrite <- Z.shiftr_div_pow2, <- Z.shiftl_mul_pow2 by lia.
  destruct (Z.lt_ge_cases k 3) as [L|L].
  - rewrite Z.shiftl_spec_low by lia.
    assert (k = 0 \/ k = 1 \/ k = 2) as [->|[->| ->]] by lia; apply andb_false_r.
  - rewrite Z.shiftl_spec by lia. rewrite Z.shiftr_spec by lia. replace (k - 3 + 3) with k by lia.
    destruct (Z.lt_ge_cases k 16) as [L'|L'].
    + assert (T : Z.testbit 0xFFF8 k = true).
      { assert (k = 3 \/ k = 4 \/ k = 5 \/ k = 6 \/ k = 7 \/ k = 8 \/ k = 9 \/ k = 10 \/ k = 11 \/ k = 12 \/ k = 13 \/ k = 14 \/ k = 15)
          as C by lia.
        repeat destruct C as [->|C]; try reflexivity. subst; reflexivity. }
      rewrite T. apply andb_true_r.
    + assert (T : Z.testbit x k = false).
      { apply Z.testbit_false; [lia|]. rewrite Z.div_small; [reflexivity|].
        split; [lia|]. apply Z.lt_le_trans with (2 ^ 16); [lia|]. apply Z.pow_le_mono_r; lia. }
      rewrite T. reflexivity.
Qed.

(** ** the flow table *)
Lemma key_eqb_spec a b : reflect (a = b) (key_eqb a b).
Proof.
  destruct a as [[a1 a2] a3], b as [[b1 b2] b3]. cbn [key_eqb].
  destruct (Z.eqb_spec a1 b1), (Z.eqb_spec a2 b2), (Z.eqb_spec a3 b3); constructor; congruence.
Qed.
Lemma key_eqb_refl k : key_eqb k k = true.
Proof. destruct (key_eqb_spec k k); congruence. Qed.
Lemma find_filter {A} (p q : A -> bool) l : (forall x, In x l -> p x = true -> q x = true) ->
  find p (filter q l) = find p l.
Proof.
  induction l as [|a l IH]; intros H; [reflexivity|]. cbn [filter find].
  assert (IH' := IH (fun x i => H x (or_intror i))).
  destruct (p a) eqn:P.
  - rewrite (H a (or_introl eq_refl) P). cbn [find]. rewrite P. reflexivity.
  - destruct (q a); cbn [find]; [rewrite P|]; exact IH'.
Qed.
Lemma flow_get_del_other k k' fs : k <> k' -> flow_get k (flow_del k' fs) = flow_get k fs.
Proof.
  intros N. unfold flow_get, flow_del. rewrite find_filter; [reflexivity|].
  intros x _ E. destruct (key_eqb_spec k (fst x)); [|discriminate]. subst k.
  destruct (key_eqb_spec k' (fst x)); [congruence|reflexivity].
Qed.
Lemma flow_get_del k fs : flow_get k (flow_del k fs) = None.
Proof.
  unfold flow_get, flow_del. induction fs as [|a fs IH]; [reflexivity|]. cbn [filter].
  destruct (key_eqb k (fst a)) eqn:E; cbn [negb]; [exact IH|]. cbn [find]. rewrite E. exact IH.
Qed.
Lemma flow_get_set k v fs : flow_get k (flow_set k v fs) = Some v.
Proof. unfold flow_get, flow_set. cbn [find fst]. rewrite key_eqb_refl. reflexivity. Qed.
Lemma flow_get_set_other k k' v fs : k <> k' -> flow_get k (flow_set k' v fs) = flow_get k fs.
Proof.
  intros N. unfold flow_set. unfold flow_get at 1. cbn [find fst]. destruct (key_eqb_spec k k'); [congruence|].
  fold (flow_get k (flow_del k' fs)). apply flow_get_del_other. exact N.
Qed.
(** an entry that is not older (in the code's sense) survives the cleanup *)
Lemma flow_get_cleanup k now fs :
  (forall kv, In kv fs -> fst kv = k -> fl_time (snd kv) <= now) -> flow_get k (flows_cleanup now fs) = flow_get k fs.
Proof.
  intros H. unfold flow_get, flows_cleanup. rewrite find_filter; [reflexivity|].
  intros x I E. destruct (key_eqb_spec k (fst x)); [|discriminate].
  specialize (H x I (eq_sym e)). unfold FRAG_FLOW_TIMEOUT. lia.
Qed.

(** ** the fragments of one datagram *)
Definition dlen (cs : list (list Z)) (i : nat) : Z := zlen (concat (firstn i cs)).
Definition chunk (cs : list (list Z)) (i : nat) : bytes := nth i cs [].
(** only the last fragment may be empty *)
Definition nonempty (cs : list (list Z)) : Prop := forall i, (S i < length cs)%nat -> 0 < zlen (chunk cs i).

Lemma firstn_S_nth {A} (d : A) l : forall i, (i < length l)%nat -> firstn (S i) l = firstn i l ++ [nth i l d].
Proof.
  induction l as [|c l IH]; intros i H; [cbn in H; lia|].
  destruct i as [|i]; [reflexivity|]. cbn [firstn nth app]. f_equal. apply IH. cbn in H; lia.
Qed.
Lemma concat_S (cs : list (list Z)) i : (i < length cs)%nat -> concat (firstn (S i) cs) = concat (firstn i cs) ++ chunk cs i.
Proof.
  intros H. rewrite (firstn_S_nth [] cs i H), concat_app. cbn [concat]. rewrite app_nil_r. reflexivity.
Qed.
Lemma dlen_S (cs : list (list Z)) i : (i < length cs)%nat -> dlen cs (S i) = dlen cs i + zlen (chunk cs i).
Proof. intros H. unfold dlen. rewrite concat_S by auto. apply zlen_app. Qed.
Lemma dlen_lt (cs : list (list Z)) i j : nonempty cs -> (i < j)%nat -> (j < length cs)%nat -> dlen cs i < dlen cs j.
Proof.
  intros Hne. induction 1 as [|j H IH]; intros L.
  - rewrite dlen_S by lia. specialize (Hne i L). lia.
  - rewrite dlen_S by lia. pose proof (zlen_nonneg (chunk cs j)). specialize (IH ltac:(lia)). lia.
Qed.
Lemma dlen_all (cs : list (list Z)) : dlen cs (length cs) = zlen (concat cs).
Proof. unfold dlen. rewrite firstn_all. reflexivity. Qed.

Definition seen_in (seen : list nat) (i : nat) : bool := existsb (Nat.eqb i) seen.
Definition sel (cs : list (list Z)) (seen : list nat) (a m : nat) : list (Z * bytes) :=
  map (fun i => (dlen cs i, chunk cs i)) (filter (seen_in seen) (seq a m)).

Lemma seen_cons k seen i : seen_in (k :: seen) i = (i =? k)%nat || seen_in seen i.
Proof. reflexivity. Qed.
Lemma sel_S (cs : list (list Z)) seen a m : sel cs seen a (S m) =
  if seen_in seen a then (dlen cs a, chunk cs a) :: sel cs seen (S a) m else sel cs seen (S a) m.
Proof. unfold sel. cbn [seq filter]. destruct (seen_in seen a); reflexivity. Qed.
Lemma sel_cons_above (cs : list (list Z)) k seen m : forall a, (k < a)%nat -> sel cs (k :: seen) a m = sel cs seen a m.
Proof.
  induction m as [|m IH]; intros a H; [reflexivity|]. rewrite !sel_S, seen_cons, IH by lia.
  replace (a =? k)%nat with false by (symmetry; apply Nat.eqb_neq; lia). reflexivity.
Qed.
Lemma sel_head (cs : list (list Z)) seen m : forall a, (a + m <= length cs)%nat ->
  sel cs seen a m = [] \/ exists j r, (a <= j < a + m)%nat /\ sel cs seen a m = (dlen cs j, chunk cs j) :: r.
Proof.
  induction m as [|m IH]; intros a H; [left; reflexivity|]. rewrite sel_S.
  destruct (seen_in seen a); [right; exists a; eexists; split; [lia|reflexivity]|].
  destruct (IH (S a) ltac:(lia)) as [->|(j & r & Hj & ->)]; [left; reflexivity|].
  right. exists j, r. split; [lia|reflexivity].
Qed.

Lemma sel_put (cs : list (list Z)) k seen m : nonempty cs -> forall a, (a + m <= length cs)%nat -> (a <= k < a + m)%nat ->
  frag_put (dlen cs k) (chunk cs k) (sel cs seen a m) = sel cs (k :: seen) a m.
Proof.
  intros Hne. induction m as [|m IH]; intros a L H; [lia|]. rewrite !sel_S, seen_cons.
  destruct (Nat.eqb_spec a k) as [<-|N]; cbn [orb].
  - rewrite sel_cons_above by lia. destruct (seen_in seen a).
    + cbn [frag_put]. rewrite Z.ltb_irrefl, Z.eqb_refl. reflexivity.
    + destruct (sel_head cs seen m (S a) ltac:(lia)) as [->|(j & r & Hj & ->)]; [reflexivity|].
      cbn [frag_put]. pose proof (dlen_lt cs a j Hne ltac:(lia) ltac:(lia)).
      replace (dlen cs a <? dlen cs j) with true by lia. reflexivity.
  - rewrite <- (IH (S a)) by lia. destruct (seen_in seen a); [|reflexivity].
    cbn [frag_put]. pose proof (dlen_lt cs a k Hne ltac:(lia) ltac:(lia)).
    replace (dlen cs k <? dlen cs a) with false by lia. replace (dlen cs k =? dlen cs a) with false by lia. reflexivity.
Qed.
Lemma sel_one (cs : list (list Z)) k : nonempty cs -> (k < length cs)%nat -> [(dlen cs k, chunk cs k)] = sel cs [k] 0 (length cs).
Proof.
  intros Hne H. rewrite <- (sel_put cs k [] (length cs) Hne 0) by lia.
  assert (E : forall m a, sel cs [] a m = []) by (induction m as [|m IH]; intros a; [reflexivity|]; rewrite sel_S; apply IH).
  rewrite E. reflexivity.
Qed.

Lemma walk (cs : list (list Z)) seen m : nonempty cs -> forall a, (a + m)%nat = length cs -> seen_in seen (length cs - 1) = true -> (0 < m)%nat ->
  frags_len (sel cs seen a m) (dlen cs a) =
  if forallb (seen_in seen) (seq a m) then Some (zlen (concat cs)) else None.
Proof.
  intros Hne. induction m as [|m IH]; intros a L Hl Hm; [lia|]. rewrite sel_S. cbn [seq forallb].
  destruct (seen_in seen a) eqn:E; cbn [andb].
  - cbn [frags_len]. replace (dlen cs a >? dlen cs a) with false by lia. rewrite <- dlen_S by lia.
    destruct m as [|m]; [|apply IH; [lia|exact Hl|lia]]. cbn [seq forallb]. unfold sel. cbn [seq filter map frags_len].
    replace (S a) with (length cs) by lia. rewrite dlen_all. reflexivity.
  - destruct m as [|m]; [exfalso; replace (length cs - 1)%nat with a in Hl by lia; congruence|].
    destruct (sel_head cs seen (S m) (S a) ltac:(lia)) as [N|(j & r & Hj & ->)].
    + exfalso. assert (I : In (dlen cs (length cs - 1), chunk cs (length cs - 1)) (sel cs seen (S a) (S m))).
      { unfold sel. apply in_map_iff. exists (length cs - 1)%nat. split; [reflexivity|].
        apply filter_In. split; [apply in_seq; lia|exact Hl]. }
      rewrite N in I. exact I.
    + cbn [frags_len]. pose proof (dlen_lt cs a j Hne ltac:(lia) ltac:(lia)).
      replace (dlen cs j >? dlen cs a) with true by lia. reflexivity.
Qed.

Lemma concat_split (cs : list (list Z)) : forall i, (i < length cs)%nat ->
  concat (skipn i cs) = chunk cs i ++ concat (skipn (S i) cs).
Proof.
  induction cs as [|c l IH]; intros i H; [cbn in H; lia|].
  destruct i as [|i]; [reflexivity|]. change (chunk (c :: l) (S i)) with (chunk l i). cbn [skipn]. rewrite IH by (cbn in H; lia). reflexivity.
Qed.
Lemma fill_all (cs : list (list Z)) m : forall a, (a + m)%nat = length cs ->
  frags_fill (map (fun i => (dlen cs i, chunk cs i)) (seq a m))
    (concat (firstn a cs) ++ repeat 0 (length (concat (skipn a cs)))) = Ok (concat cs).
Proof.
  induction m as [|m IH]; intros a L; cbn [seq map frags_fill].
  - replace a with (length cs) by lia. rewrite firstn_all, skipn_all. cbn [concat length repeat].
    rewrite app_nil_r. reflexivity.
  - unfold pack_into. rewrite pack_FB_last. cbn [rbind].
    rewrite (concat_split cs a) by lia. rewrite app_length, repeat_app.
    match goal with |- context [if ?b then _ else _] => replace b with true end.
    2:{ symmetry. apply Z.leb_le. unfold dlen, zlen. rewrite !app_length, !repeat_length. lia. }
    cbn [rbind]. rewrite overwrite_mid; [|unfold dlen, zlen; lia|rewrite repeat_length; reflexivity].
    etransitivity; [|exact (IH (S a) ltac:(lia))]. f_equal. rewrite app_assoc. f_equal.
    symmetry. apply concat_S. lia.
Qed.

(** ** the reassembly of one datagram, described independently of the code *)

(** [p] (offset, more-flag, data) is fragment number i of the datagram cut as [cs] *)
Definition is_frag (cs : list (list Z)) (i : nat) (off : Z) (mf : bool) (d : bytes) : Prop :=
  nth_error cs i = Some d /\ off = zlen (concat (firstn i cs)) /\ mf = (S i <? length cs)%nat.

(** What the receiver should do with fragment k, given the first one ([A] is
    what is kept of it) and the
    numbers received since the last delivery: deliver exactly when it now has all. *)
Definition expect {A} (n : nat) (st : option (A * list nat)) (k : nat) (hdr : A)
    : option (A * list nat) * option A :=
  let '(h, seen) := match st with None => (hdr, [k]) | Some (h, s) => (h, k :: s) end in
  if forallb (fun i => existsb (Nat.eqb i) seen) (seq 0 n) then (None, Some h) else (Some (h, seen), None).

(** the table holds, under key K, exactly the fragments received since the last delivery *)
Definition flow_inv (cs : list (list Z)) (K : flow_key) (now : Z) (st : option (bytes * list nat)) (fs : flows) : Prop :=
  (forall kv, In kv fs -> fst kv = K -> fl_time (snd kv) <= now) /\
  match st with
  | None => flow_get K fs = None
  | Some (h, seen) =>
      exists v, flow_get K fs = Some v /\ fl_hdr v = h /\
        fl_last v = seen_in seen (length cs - 1) /\ fl_data v = sel cs seen 0 (length cs)
  end.

Lemma In_del kv k fs : In kv (flow_del k fs) -> In kv fs.
Proof. intros H. apply filter_In in H. tauto. Qed.
Lemma In_set kv k v fs : In kv (flow_set k v fs) -> kv = (k, v) \/ In kv fs.
Proof. intros [H|H]; [left; congruence|right; eapply In_del; eauto]. Qed.
Lemma In_cleanup kv now fs : In kv (flows_cleanup now fs) -> In kv fs.
Proof. intros H. apply filter_In in H. tauto. Qed.

(** fragments of other flows leave the flow alone *)
Lemma inv_other (cs : list (list Z)) K now0 now st fs k hdr off mf d re : k <> K -> now0 <= now ->
  flow_inv cs K now0 st fs -> flow_inv cs K now st (fst (defrag now k hdr off mf d re fs)).
Proof.
  intros N Hn (T & I).
  assert (T' : forall kv, In kv (flows_cleanup now fs) -> fst kv = K -> fl_time (snd kv) <= now)
    by (intros kv H E; apply In_cleanup in H; specialize (T kv H E); lia).
  assert (G : flow_get K (flows_cleanup now fs) = flow_get K fs)
    by (apply flow_get_cleanup; intros kv H E; specialize (T kv H E); lia).
  assert (P : forall v, flow_inv cs K now st (flow_set k v (flows_cleanup now fs))).
  { intros v. split.
    - intros kv H E. apply In_set in H as [->|H]; [cbn [fst] in E; congruence|auto].
    - destruct st as [[h seen]|]; rewrite flow_get_set_other, G by congruence; exact I. }
  assert (Q : forall v, flow_inv cs K now st (flow_del k (flow_set k v (flows_cleanup now fs)))).
  { intros v. destruct (P v) as (P1 & P2). split; [intros kv H; apply In_del in H; auto|].
    destruct st as [[h seen]|]; rewrite flow_get_del_other by congruence; exact P2. }
  unfold defrag. destruct (negb _); [apply P|]. destruct (frags_len _ _) as [n|]; [|apply P].
  destruct (frags_fill _ _); [apply Q|apply P].
Qed.

Lemma last_k (cs : list (list Z)) k : (k < length cs)%nat -> negb (S k <? length cs)%nat = (length cs - 1 =? k)%nat.
Proof. intros H. destruct (Nat.ltb_spec (S k) (length cs)), (Nat.eqb_spec (length cs - 1) k); try reflexivity; lia. Qed.

(** a fragment of the datagram *)
Lemma step_own (cs : list (list Z)) K now0 now st fs k hdr off mf d re : nonempty cs -> now0 <= now ->
  is_frag cs k off mf d -> flow_inv cs K now0 st fs ->
  let (st', o) := expect (length cs) st k hdr in
  flow_inv cs K now st' (fst (defrag now K hdr off mf d re fs)) /\
  snd (defrag now K hdr off mf d re fs) =
    match o with
    | None => Ok None
    | Some h => x <- re h (zlen (concat cs)) ;; Ok (Some (x ++ concat cs))
    end.
Proof.
  intros Hne Hn (Hd & Ho & Hm) (T & I).
  assert (Lk : (k < length cs)%nat) by (apply nth_error_Some; congruence).
  assert (Ed : d = chunk cs k) by (unfold chunk; symmetry; apply nth_error_nth; exact Hd).
  assert (T' : forall kv, In kv (flows_cleanup now fs) -> fst kv = K -> fl_time (snd kv) <= now)
    by (intros kv H E; apply In_cleanup in H; specialize (T kv H E); lia).
  assert (G : flow_get K (flows_cleanup now fs) = flow_get K fs)
    by (apply flow_get_cleanup; intros kv H E; specialize (T kv H E); lia).
  unfold expect, defrag. set (v := flow_add now K hdr off mf d (flows_cleanup now fs)).
  set (hs := match st with None => (hdr, [k]) | Some (h, s) => (h, k :: s) end).
  assert (V : fl_hdr v = fst hs /\ fl_last v = seen_in (snd hs) (length cs - 1) /\
              fl_data v = sel cs (snd hs) 0 (length cs) /\ fl_time v <= now).
  { unfold v, flow_add, hs. rewrite G. destruct st as [[h seen]|].
    - destruct I as (v0 & E & Eh & El & Edat). rewrite E. cbn [fl_hdr fl_time fl_last fl_data fst snd].
      split; [exact Eh|]. split; [rewrite El, seen_cons, Hm, last_k by exact Lk; apply orb_comm|].
      split.
      + rewrite Edat, Ho, Ed. apply sel_put; [exact Hne|lia|lia].
      + unfold flow_get in E. destruct (find _ fs) as [kv|] eqn:F; [|discriminate]. injection E as <-.
        apply find_some in F as [F1 F2]. destruct (key_eqb_spec K (fst kv)); [|discriminate].
        specialize (T kv F1 (eq_sym e)). lia.
    - rewrite I. cbn [fl_hdr fl_time fl_last fl_data fst snd]. split; [reflexivity|].
      split; [rewrite seen_cons, Hm, last_k by exact Lk; cbn; rewrite orb_false_r; reflexivity|].
      split; [rewrite Ho, Ed; apply sel_one; auto|lia]. }
  destruct hs as [h seen]. cbn [fst snd] in V. destruct V as (V1 & V2 & V3 & V4).
  assert (P : flow_inv cs K now (Some (h, seen)) (flow_set K v (flows_cleanup now fs))).
  { split; [intros kv H E; apply In_set in H as [->|H]; [exact V4|auto]|].
    exists v. rewrite flow_get_set. auto. }
  assert (Q : flow_inv cs K now None (flow_del K (flow_set K v (flows_cleanup now fs)))).
  { split; [intros kv H E; apply In_del in H; apply In_set in H as [->|H]; [exact V4|auto]|]. apply flow_get_del. }
  assert (Hl : forallb (fun i => existsb (Nat.eqb i) seen) (seq 0 (length cs)) = true -> fl_last v = true).
  { intros H. rewrite forallb_forall in H. rewrite V2. apply H. apply in_seq. lia. }
  change (fun i => existsb (Nat.eqb i) seen) with (seen_in seen) in *.
  destruct (fl_last v) eqn:El; cbn [negb].
  2:{ destruct (forallb (seen_in seen) (seq 0 (length cs))); [specialize (Hl eq_refl); discriminate|].
      cbn [fst snd]. auto. }
  pose proof (walk cs seen (length cs) Hne 0 eq_refl (eq_sym V2) ltac:(lia)) as Wk.
  change (dlen cs 0) with 0 in Wk. rewrite V3, Wk. change (fun i => existsb (Nat.eqb i) seen) with (seen_in seen).
  destruct (forallb (seen_in seen) (seq 0 (length cs))) eqn:C; [|cbn [fst snd]; auto].
  assert (Es : sel cs seen 0 (length cs) = map (fun i => (dlen cs i, chunk cs i)) (seq 0 (length cs))).
  { unfold sel. f_equal. clear -C. rewrite forallb_forall in C. revert C. generalize (seq 0 (length cs)) as l.
    induction l as [|a l IH]; intros C; [reflexivity|]. cbn [filter]. rewrite (C a (or_introl eq_refl)).
    f_equal. apply IH. intros x H. apply C. right; exact H. }
  rewrite Es. pose proof (fill_all cs (length cs) 0 eq_refl) as F. cbn [firstn skipn concat app] in F.
  replace (Z.to_nat (zlen (concat cs))) with (length (concat cs)) by (unfold zlen; lia).
  rewrite F. cbn [fst snd]. rewrite V1. auto.
Qed.

Lemma expect_map {A B} (g : A -> B) n st k a :
  expect n (option_map (fun x => (g (fst x), snd x)) st) k (g a) =
  (option_map (fun x => (g (fst x), snd x)) (fst (expect n st k a)), option_map g (snd (expect n st k a))).
Proof.
  unfold expect. destruct st as [[h s]|]; cbn [option_map fst snd]; destruct (forallb _ _); reflexivity.
Qed.

(** each fragment once, in any order: only the last one completes the datagram *)
Fixpoint deliveries {A} (n : nat) (st : option (A * list nat)) (l : list (nat * A)) : list bool :=
  match l with
  | [] => []
  | (k, a) :: r => let (st', o) := expect n st k a in
      (match o with Some _ => true | None => false end) :: deliveries n st' r
  end.
Lemma not_complete n seen j : (j < n)%nat -> ~ In j seen ->
  forallb (fun i => existsb (Nat.eqb i) seen) (seq 0 n) = false.
Proof.
  intros L N. apply not_true_iff_false. intros H. rewrite forallb_forall in H.
  specialize (H j ltac:(apply in_seq; lia)). apply existsb_exists in H as (x & I & E).
  apply Nat.eqb_eq in E. subst. contradiction.
Qed.
Lemma is_complete n seen : (forall j, (j < n)%nat -> In j seen) ->
  forallb (fun i => existsb (Nat.eqb i) seen) (seq 0 n) = true.
Proof.
  intros H. apply forallb_forall. intros x I. apply in_seq in I. apply existsb_exists. exists x.
  split; [apply H; lia|apply Nat.eqb_refl].
Qed.
Lemma deliveries_some {A} n : forall (l : list (nat * A)) h seen, l <> [] -> NoDup (map fst l ++ seen) ->
  (forall j, (j < n)%nat <-> In j (map fst l ++ seen)) ->
  deliveries n (Some (h, seen)) l = repeat false (length l - 1) ++ [true].
Proof.
  induction l as [|[k a] l IH]; intros h seen Hl ND Hj; [congruence|]. cbn [deliveries expect].
  destruct l as [|[k' a'] l].
  - unfold expect. rewrite is_complete; [reflexivity|]. intros j L. apply Hj in L. exact L.
  - unfold expect. rewrite (not_complete n (k :: seen) k').
    + cbn [length]. replace (S (S (length l)) - 1)%nat with (S (length l)) by lia. cbn [repeat app]. f_equal.
      rewrite IH; [cbn [length]; do 2 f_equal; lia|discriminate|..].
      * apply (Permutation_NoDup (l := map fst ((k, a) :: (k', a') :: l) ++ seen)); [|exact ND].
        cbn [map fst app]. rewrite (Permutation_middle (k' :: map fst l) seen k). reflexivity.
      * intros j. rewrite Hj. cbn [map fst app In]. rewrite !in_app_iff. cbn [In]. tauto.
    + apply Hj. cbn. auto.
    + cbn [map fst app] in ND. inversion ND as [|? ? N1 ND']; subst. inversion ND' as [|? ? N2 _]; subst.
      intros [->|I]; [apply N1; left; reflexivity|]. apply N2. apply in_app_iff. auto.
Qed.
Lemma deliveries_perm {A} n (l : list (nat * A)) : (0 < n)%nat -> Permutation (map fst l) (seq 0 n) ->
  deliveries n None l = repeat false (n - 1) ++ [true].
Proof.
  intros Hn P. assert (ND : NoDup (map fst l)) by (eapply Permutation_NoDup; [symmetry; exact P|apply seq_NoDup]).
  assert (Hj : forall j, (j < n)%nat <-> In j (map fst l)).
  { intros j. rewrite (Permutation_in' eq_refl P), in_seq. lia. }
  assert (Len : length l = n) by (rewrite <- (map_length fst l), (Permutation_length P); apply seq_length).
  destruct l as [|[k a] l]; [cbn in Len; lia|]. cbn [deliveries]. unfold expect at 1. cbn [length] in Len.
  destruct l as [|[k' a'] l].
  - rewrite is_complete; [|intros j L; apply Hj in L; exact L]. cbn [length] in Len. subst n. reflexivity.
  - rewrite (not_complete n [k] k'); [|apply Hj; cbn; auto|].
    + rewrite deliveries_some; [|discriminate|..].
      * cbn [length] in *. rewrite <- Len.
        replace (S (S (length l)) - 1)%nat with (S (length l)) by lia. cbn [repeat app].
        replace (S (length l) - 1)%nat with (length l) by lia. reflexivity.
      * apply (Permutation_NoDup (l := map fst ((k, a) :: (k', a') :: l))); [|exact ND].
        cbn [map fst]. rewrite (Permutation_cons_append (k' :: map fst l) k). reflexivity.
      * intros j. rewrite Hj. cbn [map fst app In]. rewrite !in_app_iff. cbn [In]. tauto.
    + cbn [map fst] in ND. inversion ND as [|? ? N1 _]; subst. intros [->|[]]. apply N1. left; reflexivity.
Qed.
