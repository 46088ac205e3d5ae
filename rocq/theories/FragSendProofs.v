(** Fragments as sent, and sender and receiver together. *)
From Coq Require Import Permutation.
From Verif Require Import Base BaseLemmas BitLemmas CodecModel CodecLemmas CksumModel AddrModel SpecWire SpecCksum Ip4Model Ip4Proofs
  Ip6Model PshdrLemmas Ip6Proofs BufProofs FragModel FragProofs FragIpProofs FragRunProofs.

(** one cut of [data] into pieces of at most [n] bytes, all but the last of length n *)
Definition cut (n : Z) (data : bytes) (cs : list (list Z)) : Prop :=
  concat cs = data /\ Forall (fun c => 0 < zlen c <= n) cs /\
  (forall i c, nth_error cs i = Some c -> (S i < length cs)%nat -> zlen c = n).

Lemma chunks_cut n data l : 0 < n -> chunks n data = Ok l -> cut n data l.
Proof.
  intros Hn H. unfold chunks in H. destruct (n =? 0) eqn:E; [lia|]. injection H as <-.
  destruct (chunks_spec n Hn (length data) data (Nat.le_refl _)) as (A & B & C & _). split; auto.
Qed.
Lemma cut_prefix n data cs : cut n data cs -> forall i, (i < length cs)%nat -> zlen (concat (firstn i cs)) = n * Z.of_nat i.
Proof.
  intros (_ & _ & C). induction i as [|i IH]; intros L; [cbn; lia|].
  rewrite concat_S by lia. rewrite zlen_app, IH by lia.
  rewrite (C i (chunk cs i)); [lia|apply nth_error_nth'; lia|lia].
Qed.
Lemma cut_nonempty n data cs : cut n data cs -> nonempty cs.
Proof.
  intros (_ & B & _) i L. rewrite Forall_forall in B. apply (B (chunk cs i)). apply nth_In. lia.
Qed.
Lemma nth_prefix_bound (cs : list (list Z)) i d : nth_error cs i = Some d ->
  zlen (concat (firstn i cs)) + zlen d <= zlen (concat cs).
Proof.
  intros H. assert (L : (i < length cs)%nat) by (apply nth_error_Some; congruence).
  rewrite <- (firstn_skipn (S i) cs) at 2. rewrite concat_app, zlen_app, concat_S, zlen_app by lia.
  unfold chunk. rewrite (nth_error_nth _ _ _ H). pose proof (zlen_nonneg (concat (skipn (S i) cs))). lia.
Qed.
Lemma wf_nth_concat (cs : list (list Z)) i d : wf_bytes (concat cs) -> nth_error cs i = Some d -> wf_bytes d.
Proof.
  intros W H. apply nth_error_split in H as (l1 & l2 & -> & _). rewrite concat_app in W. cbn [concat] in W.
  apply wf_app in W as (_ & W). apply wf_app in W. tauto.
Qed.

(** ** IPv4 *)
Lemma ip4_fragment_ok mtu src dst ttl proto id0 c fs id : 28 <= mtu < 65556 ->
  ip4_fragment mtu src dst ttl proto id0 c = Ok (fs, id) ->
  exists ps data, ip4_pshdr_sum src dst proto (c_len c) = Ok ps /\
    c_asm c (repeat 0 (Z.to_nat (c_len c))) ps = Ok data /\ id = id0 + 1 /\
    cut ((mtu - 20) / 8 * 8) data (map snd fs) /\
    forall i t d, nth_error fs i = Some (t, d) ->
      t4_src t = src /\ t4_dst t = dst /\ t4_ttl t = ttl /\ t4_proto t = proto /\ t4_id t = id /\
      t4_opts t = [] /\ t4_df t = false /\ t4_dscp t = 0 /\ t4_ecn t = 0 /\ ip4_tx_ok t = true /\
      is_frag (map snd fs) i (t4_offset t) (t4_mf t) d.
Proof.
  intros Hm H. unfold ip4_fragment in H. destruct (ip4_pshdr_sum _ _ _ _) as [ps|] eqn:Ep; [|discriminate].
  cbn [rbind] in H. destruct (c_asm _ _ _) as [data|] eqn:Ed; [|discriminate]. cbn [rbind] in H.
  destruct (chunks _ _) as [l|] eqn:El; [|discriminate]. cbn [rbind] in H.
  rewrite data_mtu_spec in El by lia.
  set (fl := map (fun x => (ip4_frag_tx src dst ttl proto (id0 + 1) x, snd x)) (frag_list 0 l)) in H.
  assert (Efl : map snd fl = l).
  { unfold fl. rewrite map_map. cbn [snd]. apply frag_list_data. }
  assert (Hx : fs = fl /\ id = id0 + 1 /\ match fl with (t, _) :: _ => ip4_tx_ok t = true | [] => True end).
  { clearbody fl. destruct fl as [|[t d] fl]; [split; [congruence|split; [congruence|auto]]|].
    unfold assert_ in H. destruct (ip4_tx_ok t); [|discriminate].
    split; [congruence|split; [congruence|auto]]. }
  destruct Hx as (-> & -> & K). exists ps, data. split; [reflexivity|]. split; [exact Ed|]. split; [reflexivity|].
  split; [rewrite Efl; apply chunks_cut; [lia|exact El]|].
  intros i t d N. rewrite Efl. unfold fl in N.
  rewrite nth_error_map in N. destruct (nth_error (frag_list 0 l) i) as [x|] eqn:Nx; [|discriminate].
  cbn [option_map] in N. injection N as <- <-. destruct (frag_list_nth _ _ _ _ Nx) as (d & Nd & ->).
  unfold ip4_frag_tx. cbn [t4_src t4_dst t4_ttl t4_proto t4_id t4_opts t4_df t4_dscp t4_ecn t4_offset t4_mf fst snd].
  repeat (split; [reflexivity|]). split; [|split; auto].
  unfold fl in K. destruct l as [|d0 l]; [destruct i; discriminate|].
  cbn [frag_list map] in K. unfold ip4_tx_ok in *. cbn [t4_src t4_dst t4_ttl t4_proto t4_id t4_opts t4_df t4_dscp t4_ecn ip4_frag_tx fst snd] in *.
  exact K.
Qed.

(** a received packet that is the k-th of the fragments sent, possibly padded *)
Definition sent4 (fs : list (ip4_tx * bytes)) (k : nat) (p : ip4) : Prop :=
  exists t d pad buf ps w, nth_error fs k = Some (t, d) /\ wf_bytes pad /\ zlen buf = ip4_len t (zlen d) /\
    ip4_frag_asm t d buf ps = Ok w /\ i4_frame p = w ++ pad /\ ip4_parse (i4_frame p) = Ok (inr p).

Lemma sent4_own mtu src dst ttl proto id0 c fs id data : 28 <= mtu < 65556 ->
  ip4_fragment mtu src dst ttl proto id0 c = Ok (fs, id) ->
  data = concat (map snd fs) -> wf_bytes data -> zlen data <= 65515 ->
  0 <= src < 2 ^ 32 -> 0 <= dst < 2 ^ 32 -> ip4_is_multicast src = false -> ip4_is_reserved src = false ->
  ip4_is_limited_broadcast src = false ->
  forall k p, sent4 fs k p ->
    own4 (map snd fs) (src, dst, id) proto k p /\ i4_ttl p = ttl.
Proof.
  intros Hm H Edata Wd Ld Hs Hd M1 M2 M3 k p (t & d & pad & buf & ps & w & N & Wp & Lb & A & Ef & Pp).
  destruct (ip4_fragment_ok _ _ _ _ _ _ _ _ _ Hm H) as (ps0 & data' & _ & _ & _ & C & F).
  destruct (F _ _ _ N) as (F1 & F2 & F3 & F4 & F5 & F6 & F7 & F8 & F9 & F10 & F11).
  pose proof F11 as (Nd & Eo & Em). 
  assert (Wdd : wf_bytes d) by (eapply wf_nth_concat; [|exact Nd]; rewrite <- Edata; exact Wd).
  assert (Lo : t4_offset t + zlen d <= zlen data) by (rewrite Edata, Eo; apply nth_prefix_bound; exact Nd).
  assert (Lk : (k < length (map snd fs))%nat) by (apply nth_error_Some; intros X; pose proof (eq_trans (eq_sym Nd) X); discriminate).
  pose proof (cut_prefix _ _ _ C k Lk) as Op. rewrite <- Eo in Op. pose proof (zlen_nonneg d).
  assert (O8 : t4_offset t mod 8 = 0).
  { rewrite Op, <- Z.mul_assoc, (Z.mul_comm 8), Z.mul_assoc. apply Z.mod_mul. lia. }
  assert (O0 : 0 <= t4_offset t) by (rewrite Eo; apply zlen_nonneg).
  assert (S : ip4_tx_sane t).
  { unfold ip4_tx_sane, ip4_tx_wf. rewrite F1, F2, F6, F7. change (zlen []) with 0.
    repeat split; auto; try lia; try (apply andb_false_r). }
  unfold ip4_len in Lb. rewrite F6 in Lb. change (zlen []) with 0 in Lb.
  pose proof (ip4_frag_round_trip_fields t d pad buf ps S Wdd Wp) as R. cbv zeta in R.
  rewrite F6 in R. change (zlen []) with 0 in R. destruct R as (A' & q & Pq & R); [lia|auto|lia|].
  assert (w = hdr_of t (20 + 0 + zlen d) (rfc1071 (hdr_of t (20 + 0 + zlen d) 0) 0) ++ d) as Ew by congruence.
  assert (q = p) as -> by (rewrite Ew in Ef; rewrite Ef, Pq in Pp; congruence).
  destruct R as (R1 & R2 & R3 & R4 & R5 & R6 & R7 & R8 & R9 & R10 & R11 & R12 & R13 & R14 & R15 & R16).
  unfold own4. rewrite R11, R12, R13, R6, R8, R9, R15, F1, F2, F4, F5, R10, F3. repeat split; auto.
  rewrite Ef, Ew. apply wf_app. split; [|exact Wp]. apply wf_app. split; [|exact Wdd].
  apply hdr_of_wf. apply S.
Qed.

(** the same history seen as one of [own] fragments *)
Lemma history_impl {P} (own own' : nat -> P -> Prop) other : forall l now0,
  (forall k p, own k p -> own' k p) -> history own other now0 l -> history own' other now0 l.
Proof.
  induction l as [|[[now p] [k|]] l IH]; intros now0 H; cbn [history]; auto; intros (A & B & C); auto.
Qed.
Lemma history_own {P} (own : nat -> P -> Prop) other : forall l now0 p,
  history own other now0 l -> In p (map snd (own_of l)) -> exists k, own k p.
Proof.
  induction l as [|[[now p] [k|]] l IH]; intros now0 q H I; cbn [history own_of map snd In] in *; [contradiction| |].
  - destruct H as (A & B & C). destruct I as [<-|I]; eauto.
  - destruct H as (A & B & C). eauto.
Qed.

Lemma end_to_end4 mtu src dst ttl proto id0 c fs id l now0 fl : 28 <= mtu < 65556 ->
  ip4_fragment mtu src dst ttl proto id0 c = Ok (fs, id) ->
  wf_bytes (concat (map snd fs)) -> 0 < zlen (concat (map snd fs)) <= 65515 ->
  0 <= src < 2 ^ 32 -> 0 <= dst < 2 ^ 32 -> ip4_is_multicast src = false -> ip4_is_reserved src = false ->
  ip4_is_limited_broadcast src = false ->
  flow_get (src, dst, id) fl = None ->
  history (sent4 fs) (other4 (src, dst, id)) now0 l ->
  Permutation (map fst (own_of l)) (seq 0 (length fs)) ->
  exists w q, outs_of l (run defrag4 fl (plain l)) = repeat (Ok None) (length fs - 1) ++ [Ok (Some w)] /\
    ip4_parse w = Ok (inr q) /\ i4_data q = concat (map snd fs) /\ i4_src q = src /\ i4_dst q = dst /\
    i4_proto q = proto /\ i4_ttl q = ttl /\ i4_mf q = false /\ i4_offset q = 0.
Proof.
  intros Hm H W L Hs Hd M1 M2 M3 Hf Hh Pm.
  pose proof (sent4_own _ _ _ _ _ _ _ _ _ _ Hm H eq_refl W ltac:(lia) Hs Hd M1 M2 M3) as Own.
  destruct (ip4_fragment_ok _ _ _ _ _ _ _ _ _ Hm H) as (ps0 & data' & _ & _ & _ & C & _).
  assert (L0 : (0 < length fs)%nat).
  { destruct fs; [cbn in L; lia|cbn; lia]. }
  pose proof (run4_expected (map snd fs) (src, dst, id) proto l now0 fl (cut_nonempty _ _ _ C) ltac:(lia) W Hf
     (history_impl _ _ _ l now0 (fun k p X => proj1 (Own k p X)) Hh)) as E.
  match type of E with as_expected _ ?n _ _ _ => replace n with (length fs) in E by (symmetry; apply map_length) end.
  apply once_outs in E as (o & p & Eo & Ip & G); auto.
  destruct (history_own _ _ _ _ _ Hh Ip) as (k & Sk). destruct (Own _ _ Sk) as (_ & Tt).
  destruct G as (w & q & -> & Pq & G1 & G2 & G3 & G4 & G5 & G6 & G7 & G8 & G9 & G10).
  exists w, q. rewrite Eo. injection G3 as G31 G32 G33. repeat split; auto. congruence.
Qed.

(** ** IPv6 *)
Lemma ip6_fragment_ok mtu src dst next id0 c fs id : 56 <= mtu < 65584 ->
  ip6_fragment mtu src dst next id0 c = Ok (fs, id) ->
  exists ps data, ip6_pshdr_sum src dst (c_len c) next = Ok ps /\
    c_asm c (repeat 0 (Z.to_nat (c_len c))) ps = Ok data /\ id = id0 + 1 /\
    cut ((mtu - 48) / 8 * 8) data (map snd fs) /\
    forall i off mf d, nth_error fs i = Some (off, mf, d) -> is_frag (map snd fs) i off mf d.
Proof.
  intros Hm H. unfold ip6_fragment in H. destruct (ip6_pshdr_sum _ _ _ _) as [ps|] eqn:Ep; [|discriminate].
  cbn [rbind] in H. destruct (c_asm _ _ _) as [data|] eqn:Ed; [|discriminate]. cbn [rbind] in H.
  destruct (chunks _ _) as [l|] eqn:El; [|discriminate]. cbn [rbind] in H.
  rewrite data_mtu_spec in El by lia. injection H as <- <-.
  exists ps, data. rewrite frag_list_data. repeat (split; [auto; fail|]).
  split; [apply chunks_cut; [lia|exact El]|].
  intros i off mf d N. destruct (frag_list_nth _ _ _ _ N) as (x & Nd & E). injection E as -> -> ->.
  split; auto.
Qed.

Definition sent6 (src dst next id : Z) (fs : list (Z * bool * bytes)) (k : nat) (pg : ip6 * frag6) : Prop :=
  let (p, g) := pg in
  exists x buf ps w, nth_error fs k = Some x /\ zlen buf = 48 + zlen (snd x) /\
    ip6_asm (ip6_frag_tx src dst) (ip6_frag_carried next id x) buf ps = Ok w /\
    ip6_parse w = Ok (inr p) /\ frag6_parse (i6_rest p) (i6_dlen p) = Ok (inr g).

Lemma sent6_own mtu src dst next id0 c fs id data : 56 <= mtu < 65584 ->
  ip6_fragment mtu src dst next id0 c = Ok (fs, id) ->
  data = concat (map snd fs) -> wf_bytes data -> zlen data <= 65527 ->
  0 <= src < 2 ^ 128 -> 0 <= dst < 2 ^ 128 -> ip6_is_multicast src = false -> In next [58; 17; 6; 255] ->
  0 <= id < 2 ^ 32 ->
  forall k pg, sent6 src dst next id fs k pg ->
    own6 (map snd fs) (src, dst, id) next k pg /\ i6_hop (fst pg) = 64.
Proof.
  intros Hm H Edata Wd Ld Hs Hd M1 Hn Hid k [p g] ([[off mf] d] & buf & ps & w & N & Lb & A & Pp & Pg).
  destruct (ip6_fragment_ok _ _ _ _ _ _ _ _ Hm H) as (ps0 & data' & _ & _ & _ & C & F).
  pose proof (F _ _ _ _ N) as F11. pose proof F11 as (Nd & Eo & Em). cbn [snd] in Lb.
  assert (Wdd : wf_bytes d) by (eapply wf_nth_concat; [|exact Nd]; rewrite <- Edata; exact Wd).
  assert (Lo : off + zlen d <= zlen data) by (rewrite Edata, Eo; apply nth_prefix_bound; exact Nd).
  assert (Lk : (k < length (map snd fs))%nat) by (apply nth_error_Some; intros X; pose proof (eq_trans (eq_sym Nd) X); discriminate).
  pose proof (cut_prefix _ _ _ C k Lk) as Op. rewrite <- Eo in Op. pose proof (zlen_nonneg d).
  assert (O8 : off mod 8 = 0).
  { rewrite Op, <- Z.mul_assoc, (Z.mul_comm 8), Z.mul_assoc. apply Z.mod_mul. lia. }
  assert (O0 : 0 <= off) by (rewrite Eo; apply zlen_nonneg).
  assert (Hnx : 0 <= next < 256) by (cbn [In] in Hn; lia).
  assert (T : ip6_tx_wf (ip6_frag_tx src dst)) by (split; [reflexivity|split; auto]).
  assert (Lw : zlen (frag6_wire next 0 off 0 mf id d) = 8 + zlen d).
  { unfold frag6_wire. rewrite !zlen_app, !be_enc_zlen. change (zlen [next]) with 1. change (zlen [0]) with 1. lia. }
  assert (Ww : wf_bytes (frag6_wire next 0 off 0 mf id d)).
  { unfold frag6_wire. rewrite !wf_app. repeat match goal with |- _ /\ _ => split end;
    try apply be_enc_wf; auto; repeat constructor; unfold is_byte; lia. }
  destruct (ip6_round_trip (ip6_frag_tx src dst) (ip6_frag_carried next id (off, mf, d)) (frag6_wire next 0 off 0 mf id d) buf ps T Ww)
    as (w' & p' & A' & Ew & Pp' & R); auto.
  - cbn [ip6_frag_carried frag6_carried c_len fst snd]. lia.
  - intros b Hb. destruct (frag6_asm_to next off mf id d (word_sum 8 5
      (ip6_pseudo (t6_src (ip6_frag_tx src dst)) (t6_dst (ip6_frag_tx src dst))
         (c_len (ip6_frag_carried next id (off, mf, d))) (t6_next (ip6_frag_tx src dst)))) Hn ltac:(lia) O8 Hid) as (_ & X).
    apply X. exact Hb.
  - discriminate.
  - lia.
  - assert (w' = w) as -> by congruence. assert (p' = p) as -> by congruence. clear A' Pp'.
    destruct R as (R1 & R2 & R3 & R4 & R5 & R6 & R7 & R8 & R9 & R10 & R11).
    rewrite R11, frag6_parse_wire in Pg; auto; try lia. injection Pg as <-.
    assert (Wf : wf_bytes w).
    { rewrite Ew. apply wf_app. split; [|exact Ww]. unfold hdr6_of, ip6_hdr_wire.
      rewrite !wf_app. repeat match goal with |- _ /\ _ => split end;
        first [apply be_enc_wf|apply wf_bytesb_ok; reflexivity]. }
    pose proof Pp as Fr. apply (ip6_parse_exact w p Wf) in Fr as (V & Vd & Ve & Vf & Vl & Vn & Vh & Vs & Vt & Vm & Fr & _).
    unfold own6. cbn [g_next g_offset g_mf g_id fst snd]. rewrite R6, R8, R9, R7, Fr. cbn [ip6_frag_tx ip6_plain_tx t6_next t6_src t6_dst t6_hop].
    split; [|reflexivity]. split; [|split; [reflexivity|]].
    + repeat split; auto. rewrite R11. rewrite frag6_parse_wire; auto; lia.
    + unfold g_data. cbn [g_plen g_frame]. rewrite R5, Lw.
      assert (E : slice 8 (8 + zlen d) (frag6_wire next 0 off 0 mf id d) = d).
      { change (frag6_wire next 0 off 0 mf id d) with ([next; 0] ++ be_enc 2 (off / 8 * 8 + 0 * 2 + b2z mf) ++ be_enc 4 id ++ d).
        rewrite !app_assoc. rewrite slice_app_shift; rewrite !zlen_app, !be_enc_zlen; change (zlen [next; 0] + Z.of_nat 2 + Z.of_nat 4) with 8; [|lia].
        replace (8 - 8) with 0 by lia. apply slice_all. lia. }
      rewrite E. exact F11.
Qed.

Lemma end_to_end6 mtu src dst next id0 c fs id l now0 fl : 56 <= mtu < 65584 ->
  ip6_fragment mtu src dst next id0 c = Ok (fs, id) ->
  wf_bytes (concat (map snd fs)) -> 0 < zlen (concat (map snd fs)) <= 65527 ->
  0 <= src < 2 ^ 128 -> 0 <= dst < 2 ^ 128 -> ip6_is_multicast src = false -> In next [58; 17; 6; 255] ->
  0 <= id < 2 ^ 32 ->
  flow_get (src, dst, id) fl = None ->
  history (sent6 src dst next id fs) (other6 (src, dst, id)) now0 l ->
  Permutation (map fst (own_of l)) (seq 0 (length fs)) ->
  exists w q, outs_of l (run (fun now pg => defrag6 now (fst pg) (snd pg)) fl (plain l))
      = repeat (Ok None) (length fs - 1) ++ [Ok (Some w)] /\
    ip6_parse w = Ok (inr q) /\ i6_data q = concat (map snd fs) /\ i6_src q = src /\ i6_dst q = dst /\
    i6_next q = next /\ i6_hop q = 64.
Proof.
  intros Hm H W L Hs Hd M1 Hn Hid Hf Hh Pm.
  pose proof (sent6_own _ _ _ _ _ _ _ _ _ Hm H eq_refl W ltac:(lia) Hs Hd M1 Hn Hid) as Own.
  destruct (ip6_fragment_ok _ _ _ _ _ _ _ _ Hm H) as (ps0 & data' & _ & _ & _ & C & _).
  assert (L0 : (0 < length fs)%nat).
  { destruct fs; [cbn in L; lia|cbn; lia]. }
  pose proof (run6_expected (map snd fs) (src, dst, id) next l now0 fl (cut_nonempty _ _ _ C) ltac:(lia) W Hf
     (history_impl _ _ _ l now0 (fun k p X => proj1 (Own k p X)) Hh)) as E.
  match type of E with as_expected _ ?n _ _ _ => replace n with (length fs) in E by (symmetry; apply map_length) end.
  apply once_outs in E as (o & p & Eo & Ip & G); auto.
  destruct (history_own _ _ _ _ _ Hh Ip) as (k & Sk). destruct (Own _ _ Sk) as (_ & Tt).
  destruct G as (w & q & -> & Pq & G1 & G2 & G3 & G4 & G5 & G6 & G7).
  exists w, q. rewrite Eo. cbn [fst snd] in *. repeat split; auto. congruence.
Qed.

(** every fragment can be assembled, fits the MTU and is accepted by the parser *)
Lemma frag4_wire mtu src dst ttl proto id0 c fs id data : 28 <= mtu < 65556 ->
  ip4_fragment mtu src dst ttl proto id0 c = Ok (fs, id) ->
  data = concat (map snd fs) -> wf_bytes data -> zlen data <= 65515 ->
  0 <= src < 2 ^ 32 -> 0 <= dst < 2 ^ 32 -> ip4_is_multicast src = false -> ip4_is_reserved src = false ->
  ip4_is_limited_broadcast src = false ->
  forall k t d buf ps pad, nth_error fs k = Some (t, d) -> zlen buf = ip4_len t (zlen d) -> wf_bytes pad ->
  exists w p, ip4_frag_asm t d buf ps = Ok w /\ zlen w <= mtu /\
    ip4_parse (w ++ pad) = Ok (inr p) /\ i4_frame p = w ++ pad.
Proof.
  intros Hm H Edata Wd Ld Hs Hd M1 M2 M3 k t d buf ps pad N Lb Wp.
  destruct (ip4_fragment_ok _ _ _ _ _ _ _ _ _ Hm H) as (ps0 & data' & _ & _ & _ & C & F).
  destruct (F _ _ _ N) as (F1 & F2 & F3 & F4 & F5 & F6 & F7 & F8 & F9 & F10 & F11).
  pose proof F11 as (Nd & Eo & Em).
  assert (Wdd : wf_bytes d) by (eapply wf_nth_concat; [|exact Nd]; rewrite <- Edata; exact Wd).
  assert (Lo : t4_offset t + zlen d <= zlen data) by (rewrite Edata, Eo; apply nth_prefix_bound; exact Nd).
  assert (Lk : (k < length (map snd fs))%nat) by (apply nth_error_Some; intros X; pose proof (eq_trans (eq_sym Nd) X); discriminate).
  pose proof (cut_prefix _ _ _ C k Lk) as Op. rewrite <- Eo in Op. pose proof (zlen_nonneg d).
  assert (O8 : t4_offset t mod 8 = 0).
  { rewrite Op, <- Z.mul_assoc, (Z.mul_comm 8), Z.mul_assoc. apply Z.mod_mul. lia. }
  assert (O0 : 0 <= t4_offset t) by (rewrite Eo; apply zlen_nonneg).
  assert (S : ip4_tx_sane t).
  { unfold ip4_tx_sane, ip4_tx_wf. rewrite F1, F2, F6, F7. change (zlen []) with 0.
    repeat split; auto; try lia; try (apply andb_false_r). }
  assert (Lt : ip4_len t (zlen d) = 20 + zlen d) by (unfold ip4_len; rewrite F6; change (zlen []) with 0; lia).
  destruct (ip4_frag_round_trip t d pad buf ps S Wdd Wp) as (A & P); [lia|auto|exact Lb|].
  do 2 eexists. split; [exact A|]. split; [|split; [exact P|]].
  - rewrite zlen_app, hdr_of_len by apply S. unfold t4_hlen. rewrite F6. change (zlen (ip4_raw_options [])) with 0.
    destruct C as (_ & C & _). rewrite Forall_forall in C. specialize (C d (nth_error_In _ _ Nd)). cbv beta in C. lia.
  - cbn [ip4_rx_of i4_frame]. rewrite app_assoc. reflexivity.
Qed.

(** sending succeeds for every datagram the upper layers hand over *)
Lemma ip4_fragment_sends mtu src dst ttl proto id0 c ps data : 28 <= mtu < 65556 ->
  ip4_pshdr_sum src dst proto (c_len c) = Ok ps -> c_asm c (repeat 0 (Z.to_nat (c_len c))) ps = Ok data ->
  0 <= ttl <= 255 -> In proto [1; 17; 6; 255] -> 0 <= id0 < 65535 ->
  exists fs, ip4_fragment mtu src dst ttl proto id0 c = Ok (fs, id0 + 1).
Proof.
  intros Hm Ep Ed Ht Hp Hi. unfold ip4_fragment. rewrite Ep. cbn [rbind]. rewrite Ed. cbn [rbind].
  unfold chunks. rewrite data_mtu_spec by lia. replace ((mtu - 20) / 8 * 8 =? 0) with false by lia. cbn [rbind].
  destruct (map _ _) as [|[t d] fs] eqn:E; [eauto|].
  destruct (frag_list _ _) as [|x xs]; [discriminate|]. cbn [map] in E. injection E as <- _ _.
  assert (K : ip4_tx_ok (ip4_frag_tx src dst ttl proto (id0 + 1) x) = true).
  { unfold ip4_tx_ok. cbn [ip4_frag_tx t4_ttl t4_dscp t4_ecn t4_id t4_proto].
    unfold IP4_PROTO_ICMP4, IP4_PROTO_UDP, IP4_PROTO_TCP, IP4_PROTO_RAW. cbn [In] in Hp. lia. }
  unfold assert_. rewrite K. eauto.
Qed.
(** and fails for every one once the counter has reached 65535 *)
Lemma ip4_fragment_stuck mtu src dst ttl proto id0 c ps data : 28 <= mtu < 65556 ->
  ip4_pshdr_sum src dst proto (c_len c) = Ok ps -> c_asm c (repeat 0 (Z.to_nat (c_len c))) ps = Ok data ->
  data <> [] -> 65535 <= id0 ->
  ip4_fragment mtu src dst ttl proto id0 c = Exn AssertionError.
Proof.
  intros Hm Ep Ed Hd Hi. unfold ip4_fragment. rewrite Ep. cbn [rbind]. rewrite Ed. cbn [rbind].
  unfold chunks. rewrite data_mtu_spec by lia. replace ((mtu - 20) / 8 * 8 =? 0) with false by lia. cbn [rbind].
  destruct data as [|y data]; [congruence|]. cbn [length chunks_fuel frag_list map].
  assert (K : forall x, ip4_tx_ok (ip4_frag_tx src dst ttl proto (id0 + 1) x) = false).
  { intros x. unfold ip4_tx_ok. cbn [ip4_frag_tx t4_ttl t4_dscp t4_ecn t4_id t4_proto].
    replace (id0 + 1 <=? 65535) with false by lia. rewrite !andb_false_r. reflexivity. }
  rewrite K. reflexivity.
Qed.
Lemma frag6_asm_id next off mf id d buf ps : In next [58; 17; 6; 255] -> 2 ^ 32 <= id ->
  0 <= off < 65536 -> off mod 8 = 0 ->
  frag6_asm next off mf id d buf ps = Exn StructError.
Proof.
  intros Hn Hi Ho H8. unfold frag6_asm, assert_.
  assert (((next =? IP6_NEXT_ICMP6) || (next =? IP6_NEXT_UDP) || (next =? IP6_NEXT_TCP)
           || (next =? IP6_NEXT_RAW)) = true) as ->.
  { unfold IP6_NEXT_ICMP6, IP6_NEXT_UDP, IP6_NEXT_TCP, IP6_NEXT_RAW. cbn [In] in Hn. lia. }
  unfold pack_into. cbn [pack].
  change (256 ^ Z.of_nat 4) with (2 ^ 32). replace (id <? 2 ^ 32) with false by lia. rewrite andb_false_r.
  repeat (destruct (_ && _); cbn [rbind]; [|reflexivity]). reflexivity.
Qed.
