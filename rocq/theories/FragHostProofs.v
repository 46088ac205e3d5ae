(** Reassembly under arbitrary fragments. *)
From Coq Require Import Permutation.
From Verif Require Import Base BaseLemmas CodecModel CodecLemmas CksumModel AddrModel SpecWire Ip4Model Ip4Proofs
  Ip6Model BufProofs Ip6Proofs FragModel FragProofs FragIpProofs FragRunProofs.

Lemma fill_errors l : forall buf e, frags_fill l buf = Exn e -> e = StructError.
Proof.
  induction l as [|[o d] l IH]; intros buf e H; cbn [frags_fill] in H; [discriminate|].
  unfold pack_into in H. cbn [pack rbind app] in H. destruct (_ <=? _); cbn [rbind] in H; [eauto|congruence].
Qed.
(** the loop of struct.pack_into succeeds exactly when every fragment ends inside *)
Lemma fill_ok_iff l : forall buf, Forall (fun x => 0 <= fst x) l ->
  ((exists b, frags_fill l buf = Ok b) <-> Forall (fun x => fst x + zlen (snd x) <= zlen buf) l).
Proof.
  induction l as [|[o d] l IH]; intros buf Hp; cbn [frags_fill].
  - split; [constructor|eauto].
  - inversion Hp as [|? ? Ho Hp']; subst. cbn [fst] in Ho.
    destruct (pack_into buf o [FB d]) as [b|e] eqn:E; cbn [rbind].
    + assert (Lb := pack_into_len _ _ _ _ Ho E). rewrite (IH b Hp'). rewrite Lb.
      assert (Hd : o + zlen d <= zlen buf).
      { unfold pack_into in E. cbn [pack rbind app] in E. rewrite app_nil_r in E. destruct (_ <=? _) eqn:L; [lia|discriminate]. }
      split; [constructor; auto|inversion 1; auto].
    + split; [intros (b & X); discriminate|]. intros F. inversion F as [|? ? Hd _]; subst. cbn [fst snd] in Hd.
      unfold pack_into in E. cbn [pack rbind app] in E. rewrite app_nil_r in E.
      destruct (_ <=? _) eqn:L; [discriminate|lia].
Qed.
Lemma fill_len l : forall buf b, Forall (fun x => 0 <= fst x) l -> frags_fill l buf = Ok b -> zlen b = zlen buf.
Proof.
  induction l as [|[o d] l IH]; intros buf b Hp H; cbn [frags_fill] in H; [congruence|].
  inversion Hp as [|? ? Ho Hp']; subst. destruct (pack_into _ _ _) as [b'|] eqn:E; [|discriminate]. cbn [rbind] in H.
  rewrite (IH _ _ Hp' H). eapply pack_into_len; [|exact E]. exact Ho.
Qed.
Lemma put_nonneg off d l : 0 <= off -> Forall (fun x => 0 <= fst x) l -> Forall (fun x : Z * bytes => 0 <= fst x) (frag_put off d l).
Proof.
  intros Ho. induction l as [|[o x] l IH]; intros H; cbn [frag_put]; [repeat constructor; auto|].
  destruct (off <? o); [constructor; auto|]. inversion H; subst. destruct (off =? o); constructor; auto.
Qed.

(** what holds of every table built by the handlers: headers of [hl] bytes, offsets not
    negative *)
Definition flows_ok (hl : Z) (fs : flows) : Prop := forall kv, In kv fs ->
  zlen (fl_hdr (snd kv)) = hl /\ Forall (fun x => 0 <= fst x) (fl_data (snd kv)).

Lemma flow_get_In k fs v : flow_get k fs = Some v -> exists kv, In kv fs /\ snd kv = v.
Proof.
  unfold flow_get. destruct (find _ fs) as [kv|] eqn:F; [|discriminate]. intros [= <-].
  apply find_some in F. exists kv. tauto.
Qed.
Lemma add_ok hl now k hdr off mf d fs : 0 <= off -> zlen hdr = hl -> flows_ok hl fs ->
  zlen (fl_hdr (flow_add now k hdr off mf d (flows_cleanup now fs))) = hl /\
  Forall (fun x => 0 <= fst x) (fl_data (flow_add now k hdr off mf d (flows_cleanup now fs))).
Proof.
  intros Ho Hh H. unfold flow_add. destruct (flow_get _ _) as [v|] eqn:G; cbn [fl_data fl_hdr].
  - apply flow_get_In in G as (kv & I & <-). apply In_cleanup in I. apply H in I as (A & B).
    split; [exact A|]. apply put_nonneg; auto.
  - split; [exact Hh|]. repeat constructor. exact Ho.
Qed.

(** end of the stored fragment with the highest offset: what the code takes for the
    length of the datagram *)
Definition last_end (l : list (Z * bytes)) : Z :=
  match rev l with [] => 0 | (o, d) :: _ => o + zlen d end.
Lemma frags_len_last l : forall a n, frags_len l a = Some n -> l <> [] -> n = last_end l.
Proof.
  induction l as [|[o d] l IH]; intros a n H N; [congruence|]. cbn [frags_len] in H.
  destruct (o >? a); [discriminate|]. destruct l as [|y l].
  - cbn in *. congruence.
  - rewrite (IH _ _ H ltac:(discriminate)). unfold last_end. cbn [rev].
    destruct (rev l ++ [y]) as [|z r] eqn:E; [destruct (rev l); discriminate|]. cbn [app]. reflexivity.
Qed.

(** everything that can go wrong in one step *)
Lemma defrag_errors now k hdr off mf d re big hl fs e : 0 <= off -> zlen hdr = hl -> flows_ok hl fs ->
  (forall h n x, zlen h = hl -> 0 <= n -> re h n = Exn x -> x = StructError /\ big n) ->
  snd (defrag now k hdr off mf d re fs) = Exn e ->
  e = StructError /\
  let l := fl_data (flow_add now k hdr off mf d (flows_cleanup now fs)) in
  (Exists (fun x => last_end l < fst x + zlen (snd x)) l \/ big (last_end l)).
Proof.
  intros Ho Hh Hk Hre H. destruct (add_ok hl now k hdr off mf d fs Ho Hh Hk) as (Hv & Hl). unfold defrag in H.
  set (v := flow_add _ _ _ _ _ _ _) in *. destruct (negb (fl_last v)); [discriminate|].
  destruct (frags_len (fl_data v) 0) as [n|] eqn:En; [|discriminate].
  assert (Nl : fl_data v <> []).
  { unfold v, flow_add. destruct (flow_get _ _) as [w|]; cbn [fl_data]; [|discriminate].
    destruct (fl_data w) as [|[a b] r]; cbn [frag_put]; [discriminate|].
    destruct (off <? a); [discriminate|]. destruct (off =? a); discriminate. }
  pose proof (frags_len_last _ _ _ En Nl) as Hn. cbv zeta.
  assert (Pn : 0 <= n).
  { rewrite Hn. unfold last_end. destruct (rev (fl_data v)) as [|[a b] r] eqn:R; [lia|].
    assert (I : In (a, b) (fl_data v)) by (apply in_rev; rewrite R; left; reflexivity).
    rewrite Forall_forall in Hl. specialize (Hl _ I). cbn [fst] in Hl. pose proof (zlen_nonneg b). lia. }
  assert (Lr : zlen (repeat 0 (Z.to_nat n)) = n) by (unfold zlen; rewrite repeat_length; lia).
  destruct (frags_fill _ _) as [b|x] eqn:F; cbn [snd] in H.
  - assert (Lb := fill_len _ _ _ Hl F). rewrite Lr in Lb.
    destruct (re (fl_hdr v) (zlen b)) as [h|y] eqn:R; cbn [rbind] in H; [discriminate|].
    destruct (Hre _ _ _ Hv (zlen_nonneg _) R) as (-> & B). split; [congruence|]. right. rewrite <- Hn, <- Lb. exact B.
  - assert (x = e) as -> by congruence. split; [eapply fill_errors; exact F|]. left. rewrite <- Hn, <- Lr.
    assert (Dec : forall x : Z * bytes, {zlen (repeat 0 (Z.to_nat n)) < fst x + zlen (snd x)} + {~ zlen (repeat 0 (Z.to_nat n)) < fst x + zlen (snd x)})
      by (intros; apply Z_lt_dec).
    destruct (Exists_dec _ (fl_data v) Dec) as [X|X]; [exact X|]. exfalso.
    assert (Y : Forall (fun x => fst x + zlen (snd x) <= zlen (repeat 0 (Z.to_nat n))) (fl_data v)).
    { apply Forall_forall. intros y Iy. apply Z.le_ngt. intros Z1. apply X. apply Exists_exists. eauto. }
    apply (fill_ok_iff _ _ Hl) in Y as (b & Y). congruence.
Qed.
(** and conversely *)
Lemma defrag_raises now k hdr off mf d re hl fs : 0 <= off -> zlen hdr = hl -> flows_ok hl fs ->
  let v := flow_add now k hdr off mf d (flows_cleanup now fs) in
  fl_last v = true -> frags_len (fl_data v) 0 <> None ->
  Exists (fun x => last_end (fl_data v) < fst x + zlen (snd x)) (fl_data v) ->
  snd (defrag now k hdr off mf d re fs) = Exn StructError.
Proof.
  intros Ho Hh Hk v Hv Hn X. destruct (add_ok hl now k hdr off mf d fs Ho Hh Hk) as (_ & Hl). fold v in Hl.
  unfold defrag. fold v. rewrite Hv. cbn [negb]. destruct (frags_len (fl_data v) 0) as [n|] eqn:En; [|congruence].
  assert (Nl : fl_data v <> []) by (intros E; rewrite E in X; inversion X).
  pose proof (frags_len_last _ _ _ En Nl) as Hn'. rewrite <- Hn' in X.
  assert (Pn : 0 <= n).
  { rewrite Hn'. unfold last_end. destruct (rev (fl_data v)) as [|[a b] r] eqn:R; [lia|].
    assert (I : In (a, b) (fl_data v)) by (apply in_rev; rewrite R; left; reflexivity).
    rewrite Forall_forall in Hl. specialize (Hl _ I). cbn [fst] in Hl. pose proof (zlen_nonneg b). lia. }
  assert (Lr : zlen (repeat 0 (Z.to_nat n)) = n) by (unfold zlen; rewrite repeat_length; lia).
  destruct (frags_fill _ _) as [b|x] eqn:F; cbn [snd].
  - exfalso. assert (Y : exists b, frags_fill (fl_data v) (repeat 0 (Z.to_nat n)) = Ok b) by eauto.
    apply (fill_ok_iff _ _ Hl) in Y. rewrite Lr in Y. apply Exists_exists in X as (y & Iy & Ly).
    rewrite Forall_forall in Y. specialize (Y _ Iy). cbv beta in Y. lia.
  - f_equal. eapply fill_errors; exact F.
Qed.

(** flows stay well formed *)
Lemma defrag_flows_ok now k hdr off mf d re hl fs : 0 <= off -> zlen hdr = hl -> flows_ok hl fs ->
  flows_ok hl (fst (defrag now k hdr off mf d re fs)).
Proof.
  intros Ho Hh Hk. pose proof (add_ok hl now k hdr off mf d fs Ho Hh Hk) as Hl. unfold defrag.
  set (v := flow_add _ _ _ _ _ _ _) in *.
  assert (A : flows_ok hl (flow_set k v (flows_cleanup now fs))).
  { intros kv I. apply In_set in I as [->|I]; [exact Hl|]. apply In_cleanup in I. auto. }
  assert (B : flows_ok hl (flow_del k (flow_set k v (flows_cleanup now fs)))) by (intros kv I; apply In_del in I; auto).
  destruct (negb _); [exact A|]. destruct (frags_len _ _); [|exact A]. destruct (frags_fill _ _); [exact B|exact A].
Qed.

(** ** staleness *)
(** a flow survives any other flow's fragment, whenever it comes *)
Lemma flow_stays now p fs K v : flow_get K fs = Some v -> (i4_src p, i4_dst p, i4_id p) <> K ->
  (forall kv, In kv fs -> fst kv = K -> fl_time (snd kv) <= now) ->
  flow_get K (fst (defrag4 now p fs)) = Some v.
Proof.
  intros G N T.
  assert (G' : flow_get K (flows_cleanup now fs) = Some v).
  { rewrite flow_get_cleanup; [exact G|]. intros kv I E. specialize (T kv I E). lia. }
  unfold defrag4, defrag. set (w := flow_add _ _ _ _ _ _ _).
  destruct (negb _); cbn [fst]; [rewrite flow_get_set_other by congruence; exact G'|].
  destruct (frags_len _ _); cbn [fst]; [|rewrite flow_get_set_other by congruence; exact G'].
  destruct (frags_fill _ _); cbn [fst]; [|rewrite flow_get_set_other by congruence; exact G'].
  rewrite flow_get_del_other, flow_get_set_other by congruence. exact G'.
Qed.
Lemma completed_forgotten now p fs fs' w : defrag4 now p fs = (fs', Ok (Some w)) ->
  flow_get (i4_src p, i4_dst p, i4_id p) fs' = None.
Proof.
  unfold defrag4, defrag. set (v := flow_add _ _ _ _ _ _ _). destruct (negb _); [congruence|].
  destruct (frags_len _ _); [|congruence]. destruct (frags_fill _ _); [|congruence].
  intros E. assert (fs' = flow_del (i4_src p, i4_dst p, i4_id p) (flow_set (i4_src p, i4_dst p, i4_id p) v (flows_cleanup now fs))) as ->
    by congruence. apply flow_get_del.
Qed.

Lemma ip4_reheader_errors h n e : zlen h = 20 -> 0 <= n -> ip4_reheader h n = Exn e -> e = StructError /\ 65515 < n.
Proof.
  intros Lh Hn E. destruct (Z.le_gt_cases n 65515) as [L|L].
  - exfalso. inv_len Lh.
    match type of E with ip4_reheader ?l _ = _ =>
      change l with ([b; b0; b1; b2; b3; b4; b5; b6; b7; b8; b9; b10] ++ [b11; b12; b13; b14; b15; b16; b17; b18]) in E end.
    rewrite reheader_eval in E by (reflexivity || lia). discriminate.
  - rewrite ip4_reheader_big in E by lia. split; [congruence|lia].
Qed.
Lemma ip6_reheader_errors h n nx e : zlen h = 40 -> 0 <= n -> ip6_reheader h n nx = Exn e -> e = StructError /\ 65535 < n.
Proof.
  intros Lh Hn E. destruct (Z.le_gt_cases n 65535) as [L|L].
  - exfalso. inv_len Lh. unfold ip6_reheader in E.
    match type of E with context [pack_into ?l 4 _] =>
      change l with ([b; b0; b1; b2] ++ [b3; b4] ++ skipn 6 l) in E end.
    rewrite pack_at in E by (reflexivity || lia). discriminate.
  - rewrite ip6_reheader_big in E by lia. split; [congruence|lia].
Qed.
Lemma flows_ok_nil hl : flows_ok hl [].
Proof. intros kv []. Qed.

(** the offset of an accepted fragment *)
Lemma accepted4 f p : wf_bytes f -> ip4_parse f = Ok (inr p) -> 0 <= i4_offset p /\ zlen (slice 0 20 (i4_frame p)) = 20 /\ i4_frame p = f.
Proof.
  intros W P. destruct (ip4_accept_sound f p W P) as (V & Ep). destruct V as (L & _).
  revert Ep. generalize (i4_opts p) as os. intros os ->. unfold ip4_of. cbn [i4_offset i4_frame].
  repeat split; [|rewrite zlen_slice; lia].
  assert (0 <= word_at f 6).
  { unfold word_at. pose proof (byte_at_range f 6 W). pose proof (byte_at_range f 7 W). unfold is_byte in *. lia. }
  lia.
Qed.
Lemma accepted6 f p g : wf_bytes f -> ip6_parse f = Ok (inr p) -> frag6_parse (i6_rest p) (i6_dlen p) = Ok (inr g) ->
  0 <= g_offset g /\ zlen (slice 0 40 (i6_frame p)) = 40 /\ i6_frame p = f.
Proof.
  intros W P G. pose proof P as X. apply (ip6_parse_exact f p W) in X as (V & D & E & F & L & N & H & S & T & M & Fr & Lr & Ef).
  assert (Wr : wf_bytes (i6_rest p)) by (rewrite Ef in W; apply wf_app in W; tauto).
  destruct (frag6_parse_total (i6_rest p) (i6_dlen p) Wr) as [(r & Er & _)|[_ Er]]; rewrite Er in G; [discriminate|].
  injection G as <-. cbn [g_offset].
  assert (0 <= word_at (i6_rest p) 2).
  { unfold word_at. pose proof (byte_at_range (i6_rest p) 2 Wr). pose proof (byte_at_range (i6_rest p) 3 Wr). unfold is_byte in *. lia. }
  repeat split; auto; [lia|]. rewrite Fr. 
  assert (40 <= zlen f).
  { rewrite Ef, zlen_app. pose proof (zlen_nonneg (i6_rest p)). unfold ip6_hdr_wire. rewrite !zlen_app, !be_enc_zlen.
    change (zlen [i6_next p]) with 1. change (zlen [i6_hop p]) with 1. lia. }
  rewrite zlen_slice; lia.
Qed.

Definition parsed4 (x : Z * ip4) : Prop :=
  wf_bytes (i4_frame (snd x)) /\ ip4_parse (i4_frame (snd x)) = Ok (inr (snd x)).
Definition parsed6 (x : Z * (ip6 * frag6)) : Prop :=
  let (p, g) := snd x in
  wf_bytes (i6_frame p) /\ ip6_parse (i6_frame p) = Ok (inr p) /\ frag6_parse (i6_rest p) (i6_dlen p) = Ok (inr g).

Lemma run4_errors l : forall fs, flows_ok 20 fs -> Forall parsed4 l ->
  Forall (fun o => (exists r, o = Ok r) \/ o = Exn StructError) (run defrag4 fs l).
Proof.
  induction l as [|[now p] l IH]; intros fs Hk F; cbn [run]; [constructor|].
  inversion F as [|? ? (W & P) F']; subst. cbn [snd] in *. destruct (accepted4 _ _ W P) as (Ho & Lh & _).
  destruct (defrag4 now p fs) as [fs' o] eqn:E. constructor.
  - destruct o as [r|e]; [eauto|right]. f_equal.
    apply (defrag_errors now (i4_src p, i4_dst p, i4_id p) (slice 0 20 (i4_frame p)) (i4_offset p) (i4_mf p) (i4_data p)
      ip4_reheader (fun n => 65515 < n) 20 fs); auto.
    + intros h n x. apply ip4_reheader_errors.
    + change (snd (defrag4 now p fs) = Exn e). rewrite E. reflexivity.
  - apply IH; auto. assert (fs' = fst (defrag4 now p fs)) as -> by (rewrite E; reflexivity).
    apply defrag_flows_ok; auto.
Qed.
Lemma run6_errors l : forall fs, flows_ok 40 fs -> Forall parsed6 l ->
  Forall (fun o => (exists r, o = Ok r) \/ o = Exn StructError) (run (fun now pg => defrag6 now (fst pg) (snd pg)) fs l).
Proof.
  induction l as [|[now [p g]] l IH]; intros fs Hk F; cbn [run]; [constructor|].
  inversion F as [|? ? Hx F']; subst. cbn [parsed6 fst snd] in *. destruct Hx as (W & P & G). destruct (accepted6 _ _ _ W P G) as (Ho & Lh & _).
  destruct (defrag6 now p g fs) as [fs' o] eqn:E. constructor.
  - destruct o as [r|e]; [eauto|right]. f_equal.
    apply (defrag_errors now (i6_src p, i6_dst p, g_id g) (slice 0 40 (i6_frame p)) (g_offset g) (g_mf g) (g_data g)
      (fun h n => ip6_reheader h n (g_next g)) (fun n => 65535 < n) 40 fs); auto.
    + intros h n x. apply ip6_reheader_errors.
    + change (snd (defrag6 now p g fs) = Exn e). rewrite E. reflexivity.
  - apply IH; auto. assert (fs' = fst (defrag6 now p g fs)) as -> by (rewrite E; reflexivity).
    apply defrag_flows_ok; auto.
Qed.

(** fragments cut consistently never raise *)
Definition key4 (p : ip4) : flow_key := (i4_src p, i4_dst p, i4_id p).
Definition mark (idx : ip4 -> nat) (K : flow_key) (x : Z * ip4) : Z * ip4 * option nat :=
  (x, if key_eqb (key4 (snd x)) K then Some (idx (snd x)) else None).
Lemma plain_mark idx K l : plain (map (mark idx K) l) = l.
Proof. unfold plain. rewrite map_map. cbn [mark fst]. apply map_id. Qed.
Fixpoint ordered (now0 : Z) (l : list (Z * ip4)) : Prop :=
  match l with [] => True | (now, _) :: r => now0 <= now /\ ordered now r end.
Lemma history_mark cut_of pr_of idx K : forall l now0, ordered now0 l ->
  Forall (fun x => own4 (cut_of (key4 (snd x))) (key4 (snd x)) (pr_of (key4 (snd x))) (idx (snd x)) (snd x)) l ->
  history (own4 (cut_of K) K (pr_of K)) (other4 K) now0 (map (mark idx K) l).
Proof.
  induction l as [|[now p] l IH]; intros now0 O F; [exact I|]. destruct O as (O1 & O2). inversion F; subst.
  cbn [map mark history fst snd]. split; [exact O1|]. split; [|auto].
  destruct (key_eqb_spec (key4 p) K) as [E|E]; [subst K; auto|exact E].
Qed.
Lemma expected_ok {P} (good : P -> res (option bytes) -> Prop) (Hg : forall p o, good p o -> exists r, o = Ok r) n : forall l st outs,
  @as_expected P good n st l outs -> forall i x o, nth_error l i = Some x -> nth_error outs i = Some o ->
  snd x <> None -> exists r, o = Ok r.
Proof.
  induction l as [|[[now p] [k|]] l IH]; intros st [|o' outs] H i x o Nx No Sx; try contradiction; try (destruct i; discriminate).
  - cbn [as_expected] in H. destruct (expect n st k p) as [st' d]. destruct H as (H1 & H2).
    destruct i as [|i]; cbn [nth_error] in *; [|eapply IH; eauto].
    injection No as <-. destruct d; [eauto|]. subst; eauto.
  - cbn [as_expected] in H. destruct i as [|i]; cbn [nth_error] in *; [|eapply IH; eauto].
    injection Nx as <-. cbn [snd] in Sx. congruence.
Qed.
Lemma run_length {P} step : forall (l : list (Z * P)) fs, length (run step fs l) = length l.
Proof. induction l as [|[now p] l IH]; intros fs; cbn [run]; [reflexivity|]. destruct (step now p fs). cbn [length]. f_equal. apply IH. Qed.
Lemma consistent_ok cut_of pr_of idx l now0 : ordered now0 l ->
  (forall K, nonempty (cut_of K) /\ zlen (concat (cut_of K)) <= 65515 /\ wf_bytes (concat (cut_of K))) ->
  Forall (fun x => own4 (cut_of (key4 (snd x))) (key4 (snd x)) (pr_of (key4 (snd x))) (idx (snd x)) (snd x)) l ->
  Forall (fun o => exists r, o = Ok r) (run defrag4 [] l).
Proof.
  intros O C F. apply Forall_forall. intros o I. apply In_nth_error in I as (i & Ni).
  assert (Li : (i < length l)%nat) by (rewrite <- (run_length defrag4 l []); apply nth_error_Some; congruence).
  destruct (nth_error l i) as [x|] eqn:Nx; [|apply nth_error_None in Nx; lia].
  set (K := key4 (snd x)). destruct (C K) as (C1 & C2 & C3).
  pose proof (run4_expected (cut_of K) K (pr_of K) (map (mark idx K) l) now0 [] C1 C2 C3 eq_refl
     (history_mark cut_of pr_of idx K l now0 O F)) as E.
  rewrite plain_mark in E.
  assert (Hg : forall p o, whole4 K (pr_of K) (concat (cut_of K)) p o -> exists r, o = Ok r).
  { intros p r G. destruct G as (w & q & -> & _). eauto. }
  eapply (expected_ok _ Hg _ _ _ _ E i (mark idx K x) o).
  - rewrite nth_error_map, Nx. reflexivity.
  - exact Ni.
  - cbn [mark snd]. unfold K. rewrite key_eqb_refl. discriminate.
Qed.

(** a datagram of more than 65515 bytes *)
Lemma long_raises (cs : list (list Z)) K pr l now0 fs :
  nonempty cs -> 65515 < zlen (concat cs) -> flow_get K fs = None -> history (own4 cs K pr) (other4 K) now0 l ->
  Permutation (map fst (own_of l)) (seq 0 (length cs)) ->
  outs_of l (run defrag4 fs (plain l)) = repeat (Ok None) (length cs - 1) ++ [Exn StructError].
Proof.
  intros Hne Hl Hf H Pm.
  pose proof (run_expected (fun p => (i4_src p, i4_dst p, i4_id p)) (fun p => slice 0 20 (i4_frame p)) i4_offset i4_mf i4_data
     (fun _ => ip4_reheader) cs K (fun _ => True) (fun _ o => o = Exn StructError) Hne) as E.
  specialize (E ltac:(intros; rewrite ip4_reheader_big by lia; reflexivity) l now0 None fs).
  assert (H' : history (fun k p => True /\ (i4_src p, i4_dst p, i4_id p) = K /\ is_frag cs k (i4_offset p) (i4_mf p) (i4_data p))
     (fun p => (i4_src p, i4_dst p, i4_id p) <> K) now0 l).
  { clear - H. revert now0 H. induction l as [|[[now p] [k|]] l IH]; intros now0 H; cbn [history] in *; auto.
    - destruct H as (A & (B & C & D) & E). auto.
    - destruct H as (A & B & C). auto. }
  specialize (E H' I (inv_start _ _ _ _ Hf)).
  apply once_outs in E as (o & p & Eo & _ & ->); [exact Eo| |exact Pm].
  destruct cs; [cbn in Hl; lia|cbn; lia].
Qed.
