(** From a frame to the packet handed to a protocol handler. *)
From Verif Require Import Base BaseLemmas BitLemmas CodecModel CodecLemmas CksumModel AddrModel AddrProofs SpecWire EtherModel EtherProofs
  Ip4Model Ip4Proofs Ip6Model Ip6Proofs UdpModel TcpModel Icmp4Model Icmp6Model BufProofs FragModel FragProofs FragIpProofs FragRunProofs
  FragHostProofs StackModel SpecStack StackTxProofs StackWireProofs StackRxModel SpecRx.

(** ** the flow tables *)
(** each flow's header is that of an accepted packet with the flow's addresses; pieces are
    bytes at non-negative offsets *)
Definition pieces_ok (l : list (Z * bytes)) : Prop := Forall (fun x => 0 <= fst x /\ wf_bytes (snd x)) l.
Definition flow4_ok (kv : flow_key * flow) : Prop :=
  pieces_ok (fl_data (snd kv)) /\
  exists f p, wf_bytes f /\ ip4_parse f = Ok (inr p) /\ fl_hdr (snd kv) = slice 0 20 f /\
    i4_src p = fst (fst (fst kv)) /\ i4_dst p = snd (fst (fst kv)).
Definition flow6_ok (kv : flow_key * flow) : Prop :=
  pieces_ok (fl_data (snd kv)) /\
  exists f p, wf_bytes f /\ ip6_parse f = Ok (inr p) /\ fl_hdr (snd kv) = slice 0 40 f /\
    i6_src p = fst (fst (fst kv)) /\ i6_dst p = snd (fst (fst kv)).
Definition node_ok (n : node) : Prop := Forall flow4_ok (n_flows4 n) /\ Forall flow6_ok (n_flows6 n).

Lemma put_pieces off d l : 0 <= off -> wf_bytes d -> pieces_ok l -> pieces_ok (frag_put off d l).
Proof.
  intros Ho Wd. unfold pieces_ok. induction l as [|[o x] l IH]; cbn [frag_put]; intros H; [repeat constructor; auto|].
  inversion H as [|? ? A B]; subst. destruct (off <? o); [constructor; [split; auto|exact H]|].
  destruct (off =? o); constructor; auto.
Qed.
Lemma fill_wf l : forall buf b, pieces_ok l -> wf_bytes buf -> frags_fill l buf = Ok b -> wf_bytes b.
Proof.
  induction l as [|[o d] l IH]; intros buf b H Wb E; cbn [frags_fill] in E; [congruence|].
  inversion H as [|? ? (Ho & Wd) H']; subst. cbn [fst snd] in *. unfold pack_into in E. cbn [pack rbind app] in E.
  destruct (_ <=? _) eqn:G; cbn [rbind] in E; [|discriminate]. eapply IH; [exact H'| |exact E].
  rewrite app_nil_r. unfold overwrite. rewrite !wf_app. repeat split; auto using wf_firstn, wf_skipn.
Qed.
Lemma zeros_wf n : wf_bytes (repeat 0 n).
Proof. apply Forall_forall. intros x I. apply repeat_spec in I. subst. unfold is_byte. lia. Qed.

(** the bytes a table holds *)
Definition pieces_bytes (l : list (Z * bytes)) : nat := fold_right (fun x acc => (length (snd x) + acc)%nat) O l.
Lemma put_bytes off d l : (pieces_bytes (frag_put off d l) <= length d + pieces_bytes l)%nat.
Proof.
  induction l as [|[o x] l IH]; cbn [frag_put pieces_bytes fold_right snd]; [lia|].
  destruct (off <? o); cbn [pieces_bytes fold_right snd]; [lia|].
  destruct (off =? o); cbn [pieces_bytes fold_right snd] in *; [lia|]. unfold pieces_bytes in IH. lia.
Qed.
Lemma len_bytes l : forall acc n, frags_len l acc = Some n -> n <= acc + Z.of_nat (pieces_bytes l).
Proof.
  induction l as [|[o d] l IH]; intros acc n E; cbn [frags_len] in E; [injection E; cbn; lia|].
  destruct (o >? acc) eqn:G; [discriminate|]. apply IH in E. cbn [pieces_bytes fold_right snd]. fold (pieces_bytes l).
  unfold zlen in E. lia.
Qed.
Lemma filter_bytes p fs : (flows_bytes (filter p fs) <= flows_bytes fs)%nat.
Proof. unfold flows_bytes. induction fs as [|kv fs IH]; cbn [filter fold_right]; [lia|]. destruct (p kv); cbn [fold_right]; lia. Qed.
Lemma key_eqb_refl k : key_eqb k k = true.
Proof. destruct k as [[a b] c]. cbn. rewrite !Z.eqb_refl. reflexivity. Qed.
Lemma del_bytes k fs v : flow_get k fs = Some v -> (flow_bytes v + flows_bytes (flow_del k fs) <= flows_bytes fs)%nat.
Proof.
  unfold flow_get, flow_del. induction fs as [|kv fs IH]; cbn [find filter]; [discriminate|].
  destruct (key_eqb k (fst kv)) eqn:E; cbn [negb].
  - intros [= <-]. cbn [flows_bytes fold_right]. pose proof (filter_bytes (fun kv => negb (key_eqb k (fst kv))) fs).
    unfold flows_bytes in *. lia.
  - intros G. specialize (IH G). cbn [flows_bytes fold_right] in *. unfold flows_bytes in *. lia.
Qed.
Lemma fill_length l : forall buf b, pieces_ok l -> frags_fill l buf = Ok b -> length b = length buf.
Proof.
  induction l as [|[o d] l IH]; intros buf b H E; cbn [frags_fill] in E; [congruence|].
  inversion H as [|? ? (Ho & Wd) H']; subst. cbn [fst snd] in *.
  destruct (pack_into buf o [FB d]) as [b'|] eqn:G; cbn [rbind] in E; [|discriminate].
  apply (pack_into_len _ _ _ _ Ho) in G. rewrite (IH _ _ H' E). unfold zlen in G. lia.
Qed.

(** one step of reassembly keeps what is known of the headers, and gives back at most the
    bytes it was given *)
Lemma defrag_step (H : flow_key -> bytes -> Prop) now k hdr off mf d re fs :
  0 <= off -> wf_bytes d -> H k hdr ->
  Forall (fun kv => pieces_ok (fl_data (snd kv)) /\ H (fst kv) (fl_hdr (snd kv))) fs ->
  Forall (fun kv => pieces_ok (fl_data (snd kv)) /\ H (fst kv) (fl_hdr (snd kv))) (fst (defrag now k hdr off mf d re fs)) /\
  forall w, snd (defrag now k hdr off mf d re fs) = Ok (Some w) ->
    exists h0 h data, H k h0 /\ wf_bytes data /\ re h0 (zlen data) = Ok h /\ w = h ++ data /\
      (length data + flows_bytes (fst (defrag now k hdr off mf d re fs)) <= length d + flows_bytes fs)%nat.
Proof.
  intros Ho Wd Hk F. unfold defrag. set (fs0 := flows_cleanup now fs).
  assert (F0 : Forall (fun kv => pieces_ok (fl_data (snd kv)) /\ H (fst kv) (fl_hdr (snd kv))) fs0).
  { apply Forall_forall. intros kv I. unfold fs0, flows_cleanup in I. apply filter_In in I as [I _]. rewrite Forall_forall in F. auto. }
  assert (L0 : (flows_bytes fs0 <= flows_bytes fs)%nat) by apply filter_bytes.
  set (v := flow_add now k hdr off mf d fs0).
  assert (V : pieces_ok (fl_data v) /\ H k (fl_hdr v) /\ (flow_bytes v + flows_bytes (flow_del k fs0) <= length d + flows_bytes fs0)%nat).
  { unfold v, flow_add. destruct (flow_get k fs0) as [u|] eqn:G; cbn [fl_data fl_hdr flow_bytes].
    - pose proof (del_bytes _ _ _ G) as B. unfold flow_get in G. destruct (find _ fs0) as [kv|] eqn:Ef; [|discriminate]. injection G as <-.
      apply find_some in Ef as [I Ek]. rewrite Forall_forall in F0. destruct (F0 kv I) as [A C].
      destruct (key_eqb_spec k (fst kv)) as [Ek'|]; [|discriminate]. clear Ek. rename Ek' into Ek. rewrite <- Ek in C. split; [apply put_pieces; auto|]. split; [exact C|].
      pose proof (put_bytes off d (fl_data (snd kv))) as P. unfold pieces_bytes in P. unfold flow_bytes in *. cbn [fl_data] in *. lia.
    - split; [repeat constructor; auto|]. split; [exact Hk|]. unfold flow_bytes. cbn [fold_right snd fl_data].
      pose proof (filter_bytes (fun kv => negb (key_eqb k (fst kv))) fs0). unfold flow_del. lia. }
  destruct V as (V1 & V2 & V3). clearbody v.
  assert (Fd : Forall (fun kv => pieces_ok (fl_data (snd kv)) /\ H (fst kv) (fl_hdr (snd kv))) (flow_del k fs0)).
  { apply Forall_forall. intros kv I. apply filter_In in I as [I _]. rewrite Forall_forall in F0. auto. }
  assert (Fs : Forall (fun kv => pieces_ok (fl_data (snd kv)) /\ H (fst kv) (fl_hdr (snd kv))) (flow_set k v fs0)).
  { constructor; [cbn; auto|exact Fd]. }
  destruct (negb (fl_last v)); [split; [exact Fs|discriminate]|].
  destruct (frags_len (fl_data v) 0) as [m|] eqn:El; [|split; [exact Fs|discriminate]].
  destruct (frags_fill (fl_data v) (repeat 0 (Z.to_nat m))) as [data|e] eqn:Ef; [|split; [exact Fs|discriminate]].
  cbn [fst snd].
  assert (Ed : flow_del k (flow_set k v fs0) = flow_del k fs0).
  { unfold flow_set, flow_del. cbn [filter fst]. rewrite key_eqb_refl. cbn [negb]. clear.
    induction fs0 as [|kv l IH]; cbn [filter]; [reflexivity|]. destruct (negb (key_eqb k (fst kv))) eqn:E; cbn [filter]; rewrite ?E, ?IH; auto. }
  rewrite Ed. split; [exact Fd|]. intros w Ew.
  destruct (re (fl_hdr v) (zlen data)) as [h|] eqn:Er; cbn [rbind] in Ew; [|discriminate]. injection Ew as <-.
  exists (fl_hdr v), h, data. split; [exact V2|]. split; [apply (fill_wf _ _ _ V1 (zeros_wf _) Ef)|]. split; [exact Er|].
  split; [reflexivity|]. pose proof (fill_length _ _ _ V1 Ef) as Lf. rewrite repeat_length in Lf.
  apply len_bytes in El. unfold flow_bytes in V3. unfold pieces_bytes in El. lia.
Qed.

Definition hdr4 (k : flow_key) (h : bytes) : Prop :=
  exists f p, wf_bytes f /\ ip4_parse f = Ok (inr p) /\ h = slice 0 20 f /\ i4_src p = fst (fst k) /\ i4_dst p = snd (fst k).
Definition hdr6 (k : flow_key) (h : bytes) : Prop :=
  exists f p, wf_bytes f /\ ip6_parse f = Ok (inr p) /\ h = slice 0 40 f /\ i6_src p = fst (fst k) /\ i6_dst p = snd (fst k).

Lemma reassemble4 now f p fs fs' r : wf_bytes f -> ip4_parse f = Ok (inr p) -> Forall flow4_ok fs ->
  defrag4 now p fs = (fs', r) ->
  Forall flow4_ok fs' /\
  match r with
  | Ok (Some w) => exists q, wf_bytes w /\ ip4_parse w = Ok (inr q) /\ i4_src q = i4_src p /\ i4_dst q = i4_dst p /\
      i4_mf q = false /\ i4_offset q = 0 /\ i4_rest q = i4_data q
  | Ok None => True
  | Exn e => e = StructError
  end.
Proof.
  intros W P F E. destruct (accepted4 f p W P) as (Ho & Lh & Ef).
  assert (Wd : wf_bytes (i4_data p)) by (unfold i4_data; apply wf_slice; rewrite Ef; exact W).
  unfold defrag4 in E.
  destruct (defrag_step hdr4 now (i4_src p, i4_dst p, i4_id p) (slice 0 20 (i4_frame p)) (i4_offset p) (i4_mf p) (i4_data p)
    ip4_reheader fs Ho Wd) as (A & B).
  { exists f, p. rewrite Ef. auto. }
  { exact F. }
  rewrite E in A, B. cbn [fst snd] in A, B. split; [exact A|].
  destruct r as [[w|]|e]; [|exact I|].
  - destruct (B w eq_refl) as (h0 & h & data & (f0 & p0 & W0 & P0 & -> & Hs & Hd) & Wdata & Er & -> & _). cbn [fst snd] in Hs, Hd.
    assert (L : zlen data <= 65515).
    { destruct (Z.le_gt_cases (zlen data) 65515) as [|L]; [assumption|]. rewrite ip4_reheader_big in Er by lia. discriminate. }
    destruct (ip4_reheader_ok f0 p0 data W0 P0 Wdata L) as (h' & q & Eh & Pq & Q1 & Q2 & _ & _ & _ & _ & _ & _ & Q3 & Q4 & _ & _ & Q5 & Q6).
    rewrite Eh in Er. injection Er as <-. exists q.
    assert (Wh : wf_bytes h').
    { assert (L0 : zlen (slice 0 20 f0) = 20) by (destruct (accepted4 f0 p0 W0 P0) as (_ & X & <-); exact X).
      apply (wf_slice 0 20) in W0. inv_len L0. clear -Eh W0 L.
      match type of Eh with ip4_reheader ?l _ = _ =>
        change l with ([b; b0; b1; b2; b3; b4; b5; b6; b7; b8; b9; b10] ++ [b11; b12; b13; b14; b15; b16; b17; b18]) in Eh end.
      pose proof (zlen_nonneg data). rewrite reheader_eval in Eh by (reflexivity || lia). apply Ok_inj in Eh. subst h'.
      wf_split W0. rewrite !wf_app. repeat match goal with |- _ /\ _ => split end; try apply be_enc_wf;
      repeat (apply wf_cons; [first [assumption|unfold is_byte; lia]|]); apply wf_nil. }
    split; [apply wf_app; auto|]. split; [exact Pq|]. repeat split; try congruence.
  - assert (X : snd (defrag4 now p fs) = Exn e) by (unfold defrag4; rewrite E; reflexivity).
    apply (defrag_errors now (i4_src p, i4_dst p, i4_id p) (slice 0 20 (i4_frame p)) (i4_offset p) (i4_mf p) (i4_data p)
      ip4_reheader (fun n => 65515 < n) 20 fs) in X; [tauto|auto|auto| |].
    + intros kv I. rewrite Forall_forall in F. destruct (F kv I) as (F1 & f0 & p0 & W0 & P0 & -> & _).
      split; [destruct (accepted4 f0 p0 W0 P0) as (_ & X0 & <-); exact X0|]. eapply Forall_impl; [|exact F1]. cbn; tauto.
    + intros h n x. apply ip4_reheader_errors.
Qed.

Lemma reassemble6 now f p g fs fs' r : wf_bytes f -> ip6_parse f = Ok (inr p) -> frag6_parse (i6_rest p) (i6_dlen p) = Ok (inr g) ->
  Forall flow6_ok fs -> defrag6 now p g fs = (fs', r) ->
  Forall flow6_ok fs' /\
  match r with
  | Ok (Some w) => (exists q, wf_bytes w /\ ip6_parse w = Ok (inr q) /\ i6_src q = i6_src p /\ i6_dst q = i6_dst p /\ i6_next q = g_next g) /\
      (length w + flows_bytes fs' < length f + flows_bytes fs)%nat
  | Ok None => True
  | Exn e => e = StructError
  end.
Proof.
  intros W P G F E. destruct (accepted6 f p g W P G) as (Ho & Lh & Ef).
  pose proof P as X. apply (ip6_parse_exact f p W) in X as (_ & _ & _ & _ & _ & _ & _ & _ & _ & _ & _ & Lr & Efr).
  assert (Wr : wf_bytes (i6_rest p)) by (rewrite Efr in W; apply wf_app in W; tauto).
  assert (Lf : length f = (40 + length (i6_rest p))%nat).
  { rewrite Efr at 1. rewrite app_length. f_equal. }
  assert (Gd : (length (g_data g) + 8 <= length (i6_rest p))%nat /\ wf_bytes (g_data g) /\ 0 <= g_next g < 256).
  { destruct (frag6_parse_total (i6_rest p) (i6_dlen p) Wr) as [(r0 & Er & _)|[L8 Er]]; rewrite Er in G; [discriminate|].
    injection G as <-. unfold g_data. cbn [g_plen g_frame g_next]. split; [|split; [apply wf_slice; exact Wr|]].
    - unfold slice. rewrite firstn_length, skipn_length. unfold zlen in L8. change (Z.to_nat 8) with 8%nat. lia.
    - pose proof (byte_at_range (i6_rest p) 0 Wr) as X. unfold is_byte in X. lia. }
  destruct Gd as (Lg & Wd & Hn).
  unfold defrag6 in E.
  destruct (defrag_step hdr6 now (i6_src p, i6_dst p, g_id g) (slice 0 40 (i6_frame p)) (g_offset g) (g_mf g) (g_data g)
    (fun h n => ip6_reheader h n (g_next g)) fs Ho Wd) as (A & B).
  { exists f, p. rewrite Ef. auto. }
  { exact F. }
  rewrite E in A, B. cbn [fst snd] in A, B. split; [exact A|].
  destruct r as [[w|]|e]; [|exact I|].
  - destruct (B w eq_refl) as (h0 & h & data & (f0 & p0 & W0 & P0 & -> & Hs & Hd) & Wdata & Er & -> & Lb). cbn [fst snd] in Hs, Hd.
    assert (L : zlen data <= 65535).
    { destruct (Z.le_gt_cases (zlen data) 65535) as [|L]; [assumption|]. rewrite ip6_reheader_big in Er by lia. discriminate. }
    destruct (ip6_reheader_ok f0 p0 data (g_next g) W0 P0 Hn Wdata L) as (h' & q & Eh & Pq & Q1 & Q2 & _ & Q3 & _).
    rewrite Eh in Er. injection Er as <-.
    assert (Wh : wf_bytes h' /\ length h' = 40%nat).
    { assert (L0 : zlen (slice 0 40 f0) = 40).
      { pose proof P0 as X. apply (ip6_parse_exact f0 p0 W0) in X as (_ & _ & _ & _ & _ & _ & _ & _ & _ & _ & _ & _ & Ex).
        rewrite Ex. rewrite slice_0_exact by reflexivity. reflexivity. }
      apply (wf_slice 0 40) in W0. pose proof (zlen_nonneg data). clear -Eh W0 L L0 Hn H. revert W0 L0 Eh. generalize (slice 0 40 f0). intros h0 W0 L0 Eh.
      unfold ip6_reheader in Eh. destruct (pack_into h0 4 [FI 2 (zlen data)]) as [h1|] eqn:E1; cbn [rbind] in Eh; [|discriminate].
      apply Ok_inj in Eh. subst h'. assert (H4 : 0 <= 4) by lia. pose proof (pack_into_len _ _ _ _ H4 E1) as L1.
      assert (W1 : wf_bytes h1).
      { unfold pack_into in E1. cbn [pack rbind] in E1.
        destruct ((0 <=? zlen data) && (zlen data <? 256 ^ Z.of_nat 2)); cbn [rbind app] in E1; [|discriminate]. destruct (_ <=? _); [|discriminate]. apply Ok_inj in E1. subst h1.
        unfold overwrite. rewrite !wf_app. repeat match goal with |- _ /\ _ => split end; auto using wf_firstn, wf_skipn, be_enc_wf, wf_nil. }
      unfold set_byte, overwrite. split.
      - rewrite !wf_app. repeat split; auto using wf_firstn, wf_skipn. apply wf_cons; [unfold is_byte; lia|apply wf_nil].
      - rewrite !app_length, firstn_length, skipn_length. unfold zlen in *. cbn [length]. change (Z.to_nat 6) with 6%nat. lia. }
    destruct Wh as (Wh & Lh').
    split; [exists q; split; [apply wf_app; auto|]; split; [exact Pq|]; repeat split; congruence|].
    rewrite app_length. lia.
  - assert (X : snd (defrag6 now p g fs) = Exn e) by (unfold defrag6; rewrite E; reflexivity).
    apply (defrag_errors now (i6_src p, i6_dst p, g_id g) (slice 0 40 (i6_frame p)) (g_offset g) (g_mf g) (g_data g)
      (fun h n => ip6_reheader h n (g_next g)) (fun n => 65535 < n) 40 fs) in X; [tauto|auto|auto| |].
    + intros kv I. rewrite Forall_forall in F. destruct (F kv I) as (F1 & f0 & p0 & W0 & P0 & -> & _).
      split; [|eapply Forall_impl; [|exact F1]; cbn; tauto].
      apply (ip6_parse_exact f0 p0 W0) in P0 as (_ & _ & _ & _ & _ & _ & _ & _ & _ & _ & _ & _ & Ex).
      rewrite Ex. rewrite slice_0_exact by reflexivity. reflexivity.
    + intros h n x. apply ip6_reheader_errors.
Qed.

(** ** membership tests *)
Lemma our_mac_mem a m : mem m (a_mac a :: a_mac_mcast a ++ [mac_broadcast]) = true <-> our_mac a m.
Proof.
  rewrite mem_In. cbn [In]. rewrite in_app_iff. cbn [In]. unfold our_mac. change mac_broadcast with (2 ^ 48 - 1).
  intuition congruence.
Qed.
Lemma last_of_eq h : ip4_broadcast (h_net h) = last_of h.
Proof.
  unfold ip4_broadcast, net_last, last_of. rewrite land_ones' by lia. f_equal. f_equal. unfold Z.lnot. lia.
Qed.
Lemma our_ip4_mem a x : mem x (ip4_unicast a ++ a_mcast4 a ++ ip4_broadcasts a) = true <-> our_ip4 a x.
Proof.
  rewrite mem_In. unfold ip4_unicast, ip4_broadcasts, our_ip4. rewrite !in_app_iff, !in_map_iff. cbn [In].
  change 0xFFFFFFFF with (2 ^ 32 - 1). split.
  - intros [(h & <- & I)|[I|[(h & <- & I)|[E|[]]]]]; [left; eauto|auto| |auto].
    left. exists h. rewrite last_of_eq. auto.
  - intros [(h & I & [->| ->])|[I|E]]; [left; eauto| |auto|].
    + right; right; left. exists h. rewrite last_of_eq. auto.
    + right; right; right; left; auto.
Qed.
Lemma our_ip6_mem a x : mem x (ip6_unicast a ++ a_mcast6 a) = true <-> our_ip6 a x.
Proof.
  rewrite mem_In. unfold ip6_unicast, our_ip6. rewrite in_app_iff, in_map_iff. split.
  - intros [(h & <- & I)|I]; eauto.
  - intros [(h & I & ->)|I]; eauto.
Qed.
Lemma takes4_mem a x :
  match ip4_unicast a with [] => false | _ => true end && negb (mem x (ip4_unicast a ++ a_mcast4 a ++ ip4_broadcasts a)) = false
  <-> takes4 a x.
Proof.
  pose proof (our_ip4_mem a x) as O. unfold takes4.
  assert (N : ip4_unicast a = [] <-> a_host4 a = []) by (unfold ip4_unicast; destruct (a_host4 a); cbn; split; congruence).
  destruct (mem x (ip4_unicast a ++ a_mcast4 a ++ ip4_broadcasts a)) eqn:M; cbn [negb].
  - rewrite andb_false_r. tauto.
  - rewrite andb_true_r. destruct (ip4_unicast a); split; intros H; try tauto; try congruence.
    destruct H as [H|H]; [apply O in H; discriminate|]. apply N in H. discriminate.
Qed.

(** ** dispatch *)
(** the end of _phrx_ip6, ip6/phrx.py:91-105 *)
Definition ip6_dispatch (p : ip6) : R unit :=
  if i6_next p =? IP6_NEXT_ICMP6 then
    phrx_icmp6 (i6_src p) (i6_dst p) (i6_hop p) (i6_rest p) (i6_dlen p) (i6_pshdr_sum p)
  else if i6_next p =? IP6_NEXT_UDP then
    phrx_udp (A6 (i6_src p)) (A6 (i6_dst p)) (i6_rest p) (i6_dlen p) (i6_pshdr_sum p) (slice 0 (i6_plen p) (i6_frame p))
  else if i6_next p =? IP6_NEXT_TCP then
    phrx_tcp (A6 (i6_src p)) (A6 (i6_dst p)) (i6_rest p) (i6_dlen p) (i6_pshdr_sum p)
  else rret tt.

Lemma same_refl n : same_but_flows n n. Proof. unfold same_but_flows; auto 10. Qed.
Lemma same_flows4 n fs : same_but_flows n (set_flows4 fs n). Proof. unfold same_but_flows; auto 10. Qed.
Lemma same_flows6 n fs : same_but_flows n (set_flows6 fs n). Proof. unfold same_but_flows; auto 10. Qed.
Lemma same_trans a b c : same_but_flows a b -> same_but_flows b c -> same_but_flows a c.
Proof. unfold same_but_flows. intuition congruence. Qed.

Lemma ip6_cases : forall fuel f n n' r, wf_bytes f -> Forall flow6_ok (n_flows6 n) ->
  (length f + flows_bytes (n_flows6 n) < fuel)%nat -> phrx_ip6_fuel fuel f n = (n', r) ->
  (same_but_flows n n' /\ n_flows4 n' = n_flows4 n /\ Forall flow6_ok (n_flows6 n') /\ (r = Ok tt \/ r = Exn StructError) /\
     ~ exists n1 p, rx6_net n f n1 p) \/
  (exists n1 p, rx6_net n f n1 p /\ ip6_dispatch p n1 = (n', r)).
Proof.
  induction fuel as [|fuel IH]; intros f n n' r W F L E; [lia|].
  cbn [phrx_ip6_fuel] in E. unfold on_parsed at 1, rbind' at 1, rlift at 1 in E.
  assert (D : forall n' r, (n, Ok tt) = (n', r) -> (~ exists n1 p, rx6_net n f n1 p) ->
    (same_but_flows n n' /\ n_flows4 n' = n_flows4 n /\ Forall flow6_ok (n_flows6 n') /\ (r = Ok tt \/ r = Exn StructError) /\
     ~ exists n1 p, rx6_net n f n1 p) \/ (exists n1 p, rx6_net n f n1 p /\ ip6_dispatch p n1 = (n', r))).
  { intros n0 r0 [= <- <-] N. left. auto 10 using same_refl. }
  destruct (ip6_parse_total f W) as [(x & Ep)|(p & Ep & _)]; rewrite Ep in E.
  { apply D; [exact E|]. intros (n1 & q & H). inversion H; subst; congruence. }
  unfold rbind' at 1, rgets at 1 in E.
  destruct (mem (i6_dst p) (ip6_unicast (my_addrs n) ++ a_mcast6 (my_addrs n))) eqn:M; cbn [negb] in E.
  2:{ apply D; [exact E|]. intros (n1 & q & H).
      assert (X : our_ip6 (my_addrs n) (i6_dst p)) by (inversion H; subst; congruence). apply our_ip6_mem in X. congruence. }
  apply our_ip6_mem in M.
  destruct (Z.eqb_spec (i6_next p) IP6_NEXT_EXT_FRAG) as [Nx|Nx].
  2:{ right. exists n, p. split; [apply rx6_whole; auto|]. exact E. }
  change IP6_NEXT_EXT_FRAG with 44 in Nx.
  unfold on_parsed, rbind' at 1, rlift at 1 in E.
  assert (Wr : wf_bytes (i6_rest p)).
  { pose proof Ep as X. apply (ip6_parse_exact f p W) in X as (_ & _ & _ & _ & _ & _ & _ & _ & _ & _ & _ & _ & Efr).
    rewrite Efr in W. apply wf_app in W. tauto. }
  destruct (frag6_parse (i6_rest p) (i6_dlen p)) as [[x|g]|e] eqn:G.
  { apply D; [exact E|]. intros (n1 & q & H). inversion H; subst; congruence. }
  2:{ destruct (frag6_parse_total (i6_rest p) (i6_dlen p) Wr) as [(r0 & Er & _)|[_ Er]]; congruence. }
  unfold rbind' at 1, rgets at 1 in E.
  destruct (defrag6 (s_now (n_tx n)) p g (n_flows6 n)) as [fs' r'] eqn:Ed.
  destruct (reassemble6 _ _ _ _ _ _ _ W Ep G F Ed) as (F' & Hr).
  unfold rbind' at 1, rupd at 1, rbind' at 1, rlift at 1 in E.
  assert (D' : forall n' r, (set_flows6 fs' n, r) = (n', r) -> (r = Ok tt \/ r = Exn StructError) -> (~ exists n1 p, rx6_net n f n1 p) ->
    (same_but_flows n n' /\ n_flows4 n' = n_flows4 n /\ Forall flow6_ok (n_flows6 n') /\ (r = Ok tt \/ r = Exn StructError) /\
     ~ exists n1 p, rx6_net n f n1 p) \/ (exists n1 p, rx6_net n f n1 p /\ ip6_dispatch p n1 = (n', r))).
  { intros n0 r0 [= <-] N. left. auto 10 using same_flows6. }
  destruct r' as [[w|]|e].
  - destruct Hr as ((q & Ww & Pq & _) & Lw).
    destruct (IH w (set_flows6 fs' n) n' r Ww F' ltac:(cbn [n_flows6 set_flows6]; lia) E) as [(S1 & S2 & S3 & S4 & S5)|(n1 & q' & H & Eq)].
    + left. split; [eapply same_trans; [apply same_flows6|exact S1]|]. split; [exact S2|]. split; [exact S3|]. split; [exact S4|].
      intros (n1 & q' & H). apply S5. exists n1, q'. inversion H; subst; [congruence|]. congruence.
    + right. exists n1, q'. split; [|exact Eq]. eapply rx6_last; eauto.
  - apply (D' n' r); [unfold rret in E; congruence|left; unfold rret in E; congruence|].
    intros (n1 & q & H). inversion H; subst; [congruence|]. congruence.
  - apply (D' n' r); [congruence|right; congruence|].
    intros (n1 & q & H). inversion H; subst; [congruence|]. congruence.
Qed.

Lemma rx6_net_det n f n1 p : rx6_net n f n1 p -> forall n2 q, rx6_net n f n2 q -> n2 = n1 /\ q = p.
Proof.
  induction 1 as [n f p P1 O1 N1|n f p g fs w n1 q P1 O1 N1 G1 D1 _ IH]; intros n2 q' H; inversion H; subst; try congruence.
  - split; congruence.
  - apply IH. congruence.
Qed.
(** what arrives is an accepted packet for one of the stack's addresses *)
Lemma rx6_net_facts n f n1 p : rx6_net n f n1 p -> wf_bytes f -> Forall flow6_ok (n_flows6 n) ->
  same_but_flows n n1 /\ n_flows4 n1 = n_flows4 n /\ Forall flow6_ok (n_flows6 n1) /\
  i6_next p <> 44 /\ our_ip6 (my_addrs n) (i6_dst p) /\ wf_bytes (i6_frame p) /\ ip6_parse (i6_frame p) = Ok (inr p).
Proof.
  induction 1 as [n f p P1 O1 N1|n f p g fs w n1 q P1 O1 N1 G1 D1 _ IH]; intros W F.
  - pose proof P1 as X. apply (ip6_parse_exact f p W) in X as (_ & _ & _ & _ & _ & _ & _ & _ & _ & _ & Fr & _).
    rewrite Fr. auto 10 using same_refl.
  - destruct (reassemble6 _ _ _ _ _ _ _ W P1 G1 F D1) as (F' & (q' & Ww & _) & _).
    destruct (IH Ww F') as (S1 & S2 & S3 & S4 & S5 & S6 & S7).
    split; [eapply same_trans; [apply same_flows6|exact S1]|]. auto 10.
Qed.

Definition quiet (n n' : node) (r : res unit) : Prop :=
  same_but_flows n n' /\ node_ok n' /\ (r = Ok tt \/ r = Exn StructError).

(** Everything that can happen to a frame. *)
Lemma ether_cases f n n' r : wf_bytes f -> node_ok n -> phrx_ether f n = (n', r) ->
  (* nothing *)
  (n' = n /\ r = Ok tt /\ ~ (exists n1 p, rx4 n f n1 p) /\ ~ (exists n1 p, rx6 n f n1 p)) \/
  (* ARP *)
  (exists e, for_us n f e /\ EtherModel.e_type e = 0x0806 /\ a_sup4 (my_addrs n) = true /\ phrx_arp e n = (n', r)) \/
  (* an IPv4 packet on which the parser raises *)
  (exists e, for_us n f e /\ EtherModel.e_type e = 0x0800 /\ ip4_parse (EtherModel.e_rest e) = Exn IndexError /\ n' = n /\ r = Exn IndexError) \/
  (* a fragment that completes nothing *)
  (exists e p fs o, for_us n f e /\ EtherModel.e_type e = 0x0800 /\ ip4_parse (EtherModel.e_rest e) = Ok (inr p) /\
     (i4_offset p <> 0 \/ i4_mf p = true) /\ defrag4 (s_now (n_tx n)) p (n_flows4 n) = (fs, o) /\ n' = set_flows4 fs n /\ node_ok n' /\
     ((o = Ok None /\ r = Ok tt) \/ (o = Exn StructError /\ r = Exn StructError))) \/
  (exists e, for_us n f e /\ EtherModel.e_type e = 0x86DD /\ n_flows4 n' = n_flows4 n /\ quiet n n' r /\
     ~ exists n1 p, rx6_net n (EtherModel.e_rest e) n1 p) \/
  (* a packet *)
  (exists n1 p, rx4 n f n1 p /\ ip4_dispatch p (i4_rest p) n1 = (n', r)) \/
  (exists n1 p, rx6 n f n1 p /\ ip6_dispatch p n1 = (n', r)).
Proof.
  intros W (K4 & K6) E. unfold phrx_ether in E. unfold on_parsed at 1, rbind' at 1, rlift at 1 in E.
  assert (D : forall n' r, (n, Ok tt) = (n', r) -> ~ (exists n1 p, rx4 n f n1 p) -> ~ (exists n1 p, rx6 n f n1 p) ->
     n' = n /\ r = Ok tt /\ ~ (exists n1 p, rx4 n f n1 p) /\ ~ (exists n1 p, rx6 n f n1 p)) by (intros ? ? [= <- <-]; auto).
  destruct (ether_parse_total f W) as [(x & Ep)|(e & Ep & We & Hty & Ef)]; rewrite Ep in E.
  { left. apply D; [exact E| |].
    - intros (n1 & p & H). inversion H; subst; match goal with U : for_us _ _ _ |- _ => destruct U end; congruence.
    - intros (n1 & p & e & (X & _) & _). congruence. }
  unfold rbind' at 1, rgets at 1 in E.
  assert (Wr : wf_bytes (EtherModel.e_rest e)).
  { rewrite Ef in W. unfold eth_wire in W. rewrite !wf_app in W. tauto. }
  destruct (mem (EtherModel.e_dst e) (a_mac (my_addrs n) :: a_mac_mcast (my_addrs n) ++ [mac_broadcast])) eqn:M; cbn [negb] in E.
  2:{ assert (N : forall e', ~ for_us n f e').
      { intros e' (X & Y). assert (e' = e) by congruence. subst e'. apply our_mac_mem in Y. congruence. }
      left. apply D; [exact E| |].
      - intros (n1 & p & H). inversion H; subst; eapply N; eauto.
      - intros (n1 & p & e' & H & _). eapply N; eauto. }
  apply our_mac_mem in M. assert (U : for_us n f e) by (split; auto).
  assert (Ue : forall e', for_us n f e' -> e' = e) by (intros e' (X & _); congruence).
  destruct ((EtherModel.e_type e =? ETHER_TYPE_ARP) && a_sup4 (my_addrs n)) eqn:T1.
  { right; left. apply andb_true_iff in T1 as [T1 T1']. apply Z.eqb_eq in T1. exists e. auto. }
  destruct ((EtherModel.e_type e =? ETHER_TYPE_IP4) && a_sup4 (my_addrs n)) eqn:T2.
  { apply andb_true_iff in T2 as [T2 T2']. apply Z.eqb_eq in T2. change ETHER_TYPE_IP4 with 0x0800 in T2.
    unfold phrx_ip4, on_parsed, rbind' at 1, rlift at 1 in E.
    assert (N6 : ~ (exists n1 p, rx6 n f n1 p)).
    { intros (n1 & p & e' & Ue' & Ty & _). apply Ue in Ue'. subst e'. congruence. }
    destruct (ip4_parse_cases _ Wr) as [[x P]|[(P & _)|(os & P & _)]].
    - rewrite P in E. left. apply D; [exact E| |exact N6].
      intros (n1 & p & H). inversion H; subst; match goal with U : for_us _ _ ?e' |- _ => apply Ue in U; subst e' end; congruence.
    - rewrite P in E. right; right; left. exists e. injection E as <- <-. auto.
    - revert P. generalize (ip4_of (EtherModel.e_rest e) os). clear os. intros p P. rewrite P in E.
      unfold rbind' at 1, rgets at 1 in E.
      destruct (match ip4_unicast (my_addrs n) with [] => false | _ => true end && negb (mem (i4_dst p)
         (ip4_unicast (my_addrs n) ++ a_mcast4 (my_addrs n) ++ ip4_broadcasts (my_addrs n)))) eqn:Tk.
      { left. apply D; [exact E| |exact N6].
        intros (n1 & q & H).
        assert (X : takes4 (my_addrs n) (i4_dst p)).
        { inversion H; subst; match goal with U : for_us _ _ ?e' |- _ => apply Ue in U; subst e' end; congruence. }
        apply takes4_mem in X. congruence. }
      apply takes4_mem in Tk.
      destruct (negb (i4_offset p =? 0) || i4_mf p) eqn:Fr.
      + assert (Fr' : i4_offset p <> 0 \/ i4_mf p = true) by (destruct (i4_mf p); [auto|left; lia]).
        unfold rbind' at 1, rgets at 1 in E.
        destruct (defrag4 (s_now (n_tx n)) p (n_flows4 n)) as [fs o] eqn:Ed.
        destruct (reassemble4 _ _ _ _ _ _ Wr P K4 Ed) as (K4' & Ho).
        unfold rbind' at 1, rupd at 1, rbind' at 1, rlift at 1 in E.
        destruct o as [[w|]|x].
        * destruct Ho as (q & Ww & Pq & _). unfold rbind' at 1, rlift at 1 in E. rewrite Pq in E.
          right; right; right; right; right; left. exists (set_flows4 fs n), q. split; [|exact E].
          eapply rx4_last; eauto.
        * right; right; right; left. exists e, p, fs, (Ok None). injection E as <- <-.
          split; [exact U|]. split; [exact T2|]. split; [exact P|]. split; [exact Fr'|]. split; [exact Ed|]. split; [reflexivity|].
          split; [split; [exact K4'|exact K6]|]. auto.
        * subst x. right; right; right; left. exists e, p, fs, (Exn StructError). injection E as <- <-.
          split; [exact U|]. split; [exact T2|]. split; [exact P|]. split; [exact Fr'|]. split; [exact Ed|]. split; [reflexivity|].
          split; [split; [exact K4'|exact K6]|]. auto.
      + right; right; right; right; right; left. exists n, p. split; [|exact E].
        apply orb_false_iff in Fr as [Fr1 Fr2]. eapply rx4_whole; eauto. lia. }
  assert (N4 : ~ (exists n1 p, rx4 n f n1 p)).
  { intros (n1 & p & H). rewrite andb_false_iff in T2. inversion H; subst;
      match goal with U : for_us _ _ ?e' |- _ => apply Ue in U; subst e' end; destruct T2 as [T2|T2]; try congruence;
      apply Z.eqb_neq in T2; auto. }
  destruct ((EtherModel.e_type e =? ETHER_TYPE_IP6) && a_sup6 (my_addrs n)) eqn:T3.
  { apply andb_true_iff in T3 as [T3 T3']. apply Z.eqb_eq in T3. change ETHER_TYPE_IP6 with 0x86DD in T3.
    unfold phrx_ip6 in E. apply ip6_cases in E; [|auto|auto|lia].
    destruct E as [(S1 & S2 & S3 & S4 & S5)|(n1 & p & H & Eq)].
    - right; right; right; right; left. exists e. split; [exact U|]. split; [exact T3|]. split; [exact S2|].
      split; [|exact S5]. split; [exact S1|]. split; [|exact S4]. split; [rewrite S2; exact K4|exact S3].
    - right; right; right; right; right; right. exists n1, p. split; [|exact Eq]. exists e. auto. }
  left. apply D; [exact E|exact N4|].
  intros (n1 & p & e' & Ue' & Ty & Su & _). apply Ue in Ue'. subst e'.
  rewrite andb_false_iff in T3. destruct T3 as [T3|T3]; [|congruence]. apply Z.eqb_neq in T3. auto.
Qed.

Lemma rx4_facts n f n1 p : rx4 n f n1 p -> wf_bytes f -> node_ok n ->
  same_but_flows n n1 /\ node_ok n1 /\ a_sup4 (my_addrs n) = true /\ takes4 (my_addrs n) (i4_dst p) /\
  i4_offset p = 0 /\ i4_mf p = false /\ wf_bytes (i4_frame p) /\ ip4_parse (i4_frame p) = Ok (inr p).
Proof.
  intros H W (K4 & K6).
  assert (X : forall e, for_us n f e -> wf_bytes (EtherModel.e_rest e)).
  { intros e (Ep & _). apply (ether_parse_exact f e W) in Ep as (_ & _ & _ & Ef). rewrite Ef in W.
    unfold eth_wire in W. rewrite !wf_app in W. tauto. }
  inversion H as [e p0 U T S P Tk O M|e p0 fs w q U T S P Tk O Ed Pq]; subst.
  - pose proof (X e U) as We. destruct (accepted4 _ _ We P) as (_ & _ & Fr). rewrite Fr.
    split; [apply same_refl|]. split; [split; auto|]. auto 10.
  - pose proof (X e U) as We. destruct (reassemble4 _ _ _ _ _ _ We P K4 Ed) as (K4' & (q' & Ww & Pq' & Es & Edst & Emf & Eo & _)).
    assert (q' = p) by congruence. subst q'. destruct (accepted4 _ _ Ww Pq) as (_ & _ & Fr). rewrite Fr.
    split; [apply same_flows4|]. split; [split; auto|]. split; [exact S|]. split; [congruence|]. auto 10.
Qed.
Lemma rx6_facts n f n1 p : rx6 n f n1 p -> wf_bytes f -> node_ok n ->
  same_but_flows n n1 /\ node_ok n1 /\ a_sup6 (my_addrs n) = true /\ our_ip6 (my_addrs n) (i6_dst p) /\ i6_next p <> 44 /\
  wf_bytes (i6_frame p) /\ ip6_parse (i6_frame p) = Ok (inr p).
Proof.
  intros (e & (Ep & _) & _ & S & H) W (K4 & K6).
  assert (We : wf_bytes (EtherModel.e_rest e)).
  { apply (ether_parse_exact f e W) in Ep as (_ & _ & _ & Ef). rewrite Ef in W. unfold eth_wire in W. rewrite !wf_app in W. tauto. }
  destruct (rx6_net_facts _ _ _ _ H We K6) as (S1 & S2 & S3 & S4 & S5 & S6 & S7).
  split; [exact S1|]. split; [split; [rewrite S2; exact K4|exact S3]|]. auto 10.
Qed.

Lemma for_us_det n f e e' : for_us n f e -> for_us n f e' -> e' = e.
Proof. intros (A & _) (B & _). congruence. Qed.
Lemma rx4_det n f n1 p n2 q : rx4 n f n1 p -> rx4 n f n2 q -> n2 = n1 /\ q = p.
Proof.
  intros H H'. inversion H as [e p0 U T S P Tk O M|e p0 fs w q0 U T S P Tk O Ed Pq];
    inversion H' as [e' p0' U' T' S' P' Tk' O' M'|e' p0' fs' w' q0' U' T' S' P' Tk' O' Ed' Pq']; 
    subst; pose proof (for_us_det _ _ _ _ U U') as X; subst e'; rewrite P in P'; injection P' as <-.
  - auto.
  - exfalso. destruct O' as [O'|O']; congruence.
  - exfalso. destruct O as [O|O]; congruence.
  - rewrite Ed in Ed'. injection Ed' as <- <-. split; congruence.
Qed.
(** the handler runs on the packet that has arrived, in the state without its fragments *)
Lemma rx4_run n f n1 p : rx4 n f n1 p -> wf_bytes f -> node_ok n -> phrx_ether f n = ip4_dispatch p (i4_rest p) n1.
Proof.
  intros H W K. destruct (phrx_ether f n) as [n' r] eqn:E.
  assert (U : exists e, for_us n f e /\ EtherModel.e_type e = 0x0800 /\ exists p0, ip4_parse (EtherModel.e_rest e) = Ok (inr p0))
    by (inversion H; eauto 6).
  destruct U as (e & U & T & p0 & P0).
  destruct (ether_cases f n n' r W K E)
    as [(_ & _ & N & _)|[(e' & U' & T' & _)|[(e' & U' & _ & P & _)|[(e' & q & fs & o & U' & _ & P & Fr & Ed & _ & _ & Ho)|[(e' & U' & T' & _)|
       [(n2 & q & H' & Eq)|(n2 & q & (e' & U' & T' & _) & _)]]]]]];
    try (pose proof (for_us_det _ _ _ _ U U'); subst e'); try congruence.
  - exfalso. eauto.
  - exfalso. inversion H as [e' p0' U'' T'' S'' P'' Tk O M|e' p0' fs' w' q0' U'' T'' S'' P'' Tk O Ed' Pq']; subst;
      pose proof (for_us_det _ _ _ _ U U''); subst e'.
    + assert (q = p) by congruence. subst q. destruct Fr; congruence.
    + assert (p0' = q) by congruence. subst p0'. rewrite Ed in Ed'. injection Ed' as <- ->. destruct Ho as [[? _]|[? _]]; discriminate.
  - destruct (rx4_det _ _ _ _ _ _ H H') as (-> & ->). congruence.
Qed.

Lemma rx6_run n f n1 p : rx6 n f n1 p -> wf_bytes f -> node_ok n -> phrx_ether f n = ip6_dispatch p n1.
Proof.
  intros H W K. destruct (phrx_ether f n) as [n' r] eqn:E. pose proof H as (e & U & T & _ & Hn).
  destruct (ether_cases f n n' r W K E)
    as [(_ & _ & _ & N)|[(e' & U' & T' & _)|[(e' & U' & T' & _)|[(e' & q & fs & o & U' & T' & _)|[(e' & U' & T' & _ & _ & N)|
       [(n2 & q & H' & Eq)|(n2 & q & (e' & U' & T' & _ & Hn') & Eq)]]]]]];
    try (pose proof (for_us_det _ _ _ _ U U'); subst e'); try congruence.
  - exfalso. eauto.
  - exfalso. eauto.
  - exfalso. inversion H' as [e' p0' U' T'|e' p0' fs' w' q0' U' T']; subst; pose proof (for_us_det _ _ _ _ U U'); subst e'; congruence.
  - destruct (rx6_net_det _ _ _ _ Hn _ _ Hn') as (-> & ->). congruence.
Qed.
