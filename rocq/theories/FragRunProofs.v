(** Reassembly over whole arrival histories. *)
From Coq Require Import Permutation.
From Verif Require Import Base BaseLemmas BitLemmas CodecModel CodecLemmas CksumModel AddrModel SpecWire Ip4Model Ip4Proofs
  Ip6Model Ip6Proofs BufProofs FragModel FragProofs FragIpProofs.

(** a receiver fed with a history of (time, fragment): the result for each *)
Fixpoint run {P} (step : Z -> P -> flows -> flows * res (option bytes)) (fs : flows) (l : list (Z * P))
    : list (res (option bytes)) :=
  match l with
  | [] => []
  | (now, p) :: r => let (fs', o) := step now p fs in o :: run step fs' r
  end.

(** A history with the fragments of one datagram marked by their number: the times do
    not decrease, a marked fragment satisfies [own], the others [other]. *)
Fixpoint history {P} (own : nat -> P -> Prop) (other : P -> Prop) (now0 : Z) (l : list (Z * P * option nat)) : Prop :=
  match l with
  | [] => True
  | (now, p, k) :: r =>
      now0 <= now /\ match k with Some k => own k p | None => other p end /\ history own other now r
  end.

(** the results wanted: for each fragment of the datagram what [expect] says, a
    delivery being described by [good] (a relation of the first fragment received and
    the result); nothing is said of the results for other fragments *)
Fixpoint as_expected {P} (good : P -> res (option bytes) -> Prop) (n : nat) (st : option (P * list nat))
    (l : list (Z * P * option nat)) (outs : list (res (option bytes))) : Prop :=
  match l, outs with
  | [], [] => True
  | (_, _, None) :: r, _ :: outs => as_expected good n st r outs
  | (_, p, Some k) :: r, o :: outs =>
      let (st', d) := expect n st k p in
      match d with None => o = Ok None | Some p1 => good p1 o end /\ as_expected good n st' r outs
  | _, _ => False
  end.

Definition plain {P} (l : list (Z * P * option nat)) : list (Z * P) := map fst l.
(** the fragments of the datagram, and the results for them *)
Fixpoint own_of {P} (l : list (Z * P * option nat)) : list (nat * P) :=
  match l with
  | [] => []
  | (_, p, Some k) :: r => (k, p) :: own_of r
  | (_, _, None) :: r => own_of r
  end.
Fixpoint outs_of {P} (l : list (Z * P * option nat)) (outs : list (res (option bytes))) : list (res (option bytes)) :=
  match l, outs with
  | (_, _, Some _) :: r, o :: outs => o :: outs_of r outs
  | (_, _, None) :: r, _ :: outs => outs_of r outs
  | _, _ => []
  end.

Lemma run_expected {P} (key : P -> flow_key) (hdr : P -> bytes) (off : P -> Z) (mf : P -> bool) (dat : P -> bytes)
    (re : P -> bytes -> Z -> res bytes) (cs : list (list Z)) K (Q : P -> Prop) (good : P -> res (option bytes) -> Prop) :
  nonempty cs ->
  (forall p1 p, Q p1 -> Q p -> good p1 (x <- re p (hdr p1) (zlen (concat cs)) ;; Ok (Some (x ++ concat cs)))) ->
  forall l now0 st fs,
  history (fun k p => Q p /\ key p = K /\ is_frag cs k (off p) (mf p) (dat p)) (fun p => key p <> K) now0 l ->
  match st with Some (p1, _) => Q p1 | None => True end ->
  flow_inv cs K now0 (option_map (fun x => (hdr (fst x), snd x)) st) fs ->
  as_expected good (length cs) st l
    (run (fun now p => defrag now (key p) (hdr p) (off p) (mf p) (dat p) (re p)) fs (plain l)).
Proof.
  intros Hne Hg. induction l as [|[[now p] k] l IH]; intros now0 st fs H Hst I; [exact Logic.I|].
  cbn [history] in H. destruct H as (Hn & Hp & Hl). cbn [plain map fst run].
  destruct (defrag now (key p) (hdr p) (off p) (mf p) (dat p) (re p) fs) as [fs' o] eqn:E.
  destruct k as [k|]; cbn [as_expected].
  - destruct Hp as (Qp & Kp & Fp).
    pose proof (step_own cs K now0 now _ fs k (hdr p) _ _ _ (re p) Hne Hn Fp I) as S.
    rewrite expect_map, <- Kp, E in S. cbn [fst snd] in S. rewrite Kp in S. destruct S as (I' & Eo).
    assert (Hst' : match fst (expect (length cs) st k p) with Some (p1, _) => Q p1 | None => True end /\
                   match snd (expect (length cs) st k p) with Some p1 => Q p1 | None => True end).
    { unfold expect. destruct st as [[p1 s]|]; destruct (forallb _ _); cbn [fst snd]; auto. }
    destruct (expect (length cs) st k p) as [st' d]. cbn [fst snd] in *. destruct Hst' as (Hs' & Hd).
    split; [|eapply IH; eauto].
    destruct d as [p1|]; cbn [option_map] in Eo; subst o; [apply Hg; auto|reflexivity].
  - apply (IH now); auto.
    pose proof (inv_other cs K now0 now _ fs (key p) (hdr p) (off p) (mf p) (dat p) (re p) Hp Hn I) as I'.
    rewrite E in I'. exact I'.
Qed.

Lemma inv_start cs K now fs : flow_get K fs = None -> flow_inv cs K now None fs.
Proof.
  intros H. split; [|exact H]. intros kv I E. exfalso. unfold flow_get in H.
  destruct (find _ fs) eqn:F; [discriminate|]. apply (find_none _ _ F) in I. subst K.
  rewrite key_eqb_refl in I. discriminate.
Qed.

Lemma Forall2_weak {A B} (R S : A -> B -> Prop) l m : (forall a b, R a b -> S a b) -> Forall2 R l m -> Forall2 S l m.
Proof. intros H. induction 1; constructor; auto. Qed.
(** each fragment exactly once *)
Lemma expected_outs {P} good n : forall l st outs, @as_expected P good n st l outs ->
  Forall2 (fun b o => if b : bool then exists p, In p (match st with Some (p, _) => [p] | None => [] end ++ map snd (own_of l)) /\ good p o
                      else o = Ok None) (deliveries n st (own_of l)) (outs_of l outs).
Proof.
  induction l as [|[[now p] [k|]] l IH]; intros st [|o outs] H; try (constructor || contradiction).
  - cbn [as_expected own_of outs_of deliveries] in *. unfold expect in *.
    set (hs := match st with None => (p, [k]) | Some (h, s) => (h, k :: s) end) in *.
    assert (Hin : In (fst hs) (match st with Some (p, _) => [p] | None => [] end ++ [p])).
    { unfold hs. destruct st as [[q s]|]; cbn; auto. }
    destruct hs as [h s]. cbn [fst] in Hin. destruct (forallb _ _); destruct H as (Ho & H); apply IH in H.
    + constructor.
      * exists h. split; [|exact Ho]. cbn [map snd]. apply in_app_iff. apply in_app_iff in Hin as [Hin|[->|[]]]; cbn [In]; auto.
      * eapply Forall2_weak; [|exact H]. intros [|] x; [|auto]. intros (q & Hq & G). exists q. split; [|exact G].
        cbn [app map snd] in *. apply in_app_iff. right. right. exact Hq.
    + constructor; [exact Ho|]. eapply Forall2_weak; [|exact H]. intros [|] x; [|auto].
      intros (q & Hq & G). exists q. split; [|exact G]. cbn [app map snd] in *.
      destruct Hq as [<-|Hq]; apply in_app_iff; [|right; right; exact Hq].
      apply in_app_iff in Hin as [Hin|[->|[]]]; cbn [In]; auto.
  - cbn [as_expected own_of outs_of deliveries] in *. apply IH. exact H.
Qed.
Lemma once_outs {P} good n (l : list (Z * P * option nat)) outs : (0 < n)%nat ->
  Permutation (map fst (own_of l)) (seq 0 n) -> as_expected good n None l outs ->
  exists o p, outs_of l outs = repeat (Ok None) (n - 1) ++ [o] /\ In p (map snd (own_of l)) /\ good p o.
Proof.
  intros Hn Pm H. apply expected_outs in H. rewrite deliveries_perm in H by auto. cbn [app] in H.
  apply Forall2_app_inv_l in H as (l1 & l2 & H1 & H2 & E).
  inversion H2 as [|b o ? ? Hb H3]; subst. cbv beta iota in Hb. destruct Hb as (p & Ip & G). inversion H3; subst. exists o, p. rewrite E. split; [|auto].
  f_equal. clear - H1. revert l1 H1. generalize (n - 1)%nat as m. induction m; intros l1 H1; inversion H1; subst; [reflexivity|].
  cbn [repeat]. f_equal; auto.
Qed.

(** ** IPv4 *)
Definition own4 (cs : list (list Z)) (K : flow_key) (pr : Z) (k : nat) (p : ip4) : Prop :=
  (wf_bytes (i4_frame p) /\ ip4_parse (i4_frame p) = Ok (inr p) /\ i4_proto p = pr) /\
  (i4_src p, i4_dst p, i4_id p) = K /\ is_frag cs k (i4_offset p) (i4_mf p) (i4_data p).
Definition other4 (K : flow_key) (p : ip4) : Prop := (i4_src p, i4_dst p, i4_id p) <> K.
(** the delivered packet: accepted by the IPv4 parser, not a fragment, no options, the
    payload, and the remaining fields of the first fragment received *)
Definition whole4 (K : flow_key) (pr : Z) (payload : bytes) (p : ip4) (o : res (option bytes)) : Prop :=
  exists w q, o = Ok (Some w) /\ ip4_parse w = Ok (inr q) /\ i4_data q = payload /\ i4_rest q = payload /\
    (i4_src q, i4_dst q, i4_id q) = K /\ i4_proto q = pr /\ i4_mf q = false /\ i4_offset q = 0 /\ i4_opts q = [] /\
    i4_ttl q = i4_ttl p /\ i4_dscp q = i4_dscp p /\ i4_ecn q = i4_ecn p.

Lemma run4_expected (cs : list (list Z)) K pr l now0 fs : nonempty cs -> zlen (concat cs) <= 65515 -> wf_bytes (concat cs) ->
  flow_get K fs = None -> history (own4 cs K pr) (other4 K) now0 l ->
  as_expected (whole4 K pr (concat cs)) (length cs) None l (run defrag4 fs (plain l)).
Proof.
  intros Hne Hl Wc Hf H.
  apply (run_expected (fun p => (i4_src p, i4_dst p, i4_id p)) (fun p => slice 0 20 (i4_frame p)) i4_offset i4_mf i4_data
     (fun _ => ip4_reheader) cs K
     (fun p => wf_bytes (i4_frame p) /\ ip4_parse (i4_frame p) = Ok (inr p) /\ i4_proto p = pr /\
        (i4_src p, i4_dst p, i4_id p) = K)) with (now0 := now0); auto.
  - intros p1 p (W & Pa & Pr & Kp) _. destruct (ip4_reheader_ok _ _ _ W Pa Wc Hl) as (h & q & E & Pq & F).
    destruct F as (F1 & F2 & F3 & F4 & F5 & F6 & F7 & F8 & F9 & F10 & F11 & F12 & F13 & F14).
    exists (h ++ concat cs), q. rewrite E. cbn [rbind]. rewrite F1, F2, F3. repeat split; auto. congruence.
  - revert now0 H. induction l as [|[[now p] [k|]] l IH]; intros now0 H; cbn [history] in *; auto.
    + destruct H as (A & ((B1 & B2 & B3) & C & D) & E). repeat split; auto; apply D.
    + destruct H as (A & B & C). auto.
  - apply inv_start; exact Hf.
Qed.

(** ** IPv6 *)
Definition own6 (cs : list (list Z)) (K : flow_key) (next : Z) (k : nat) (pg : ip6 * frag6) : Prop :=
  let (p, g) := pg in
  (wf_bytes (i6_frame p) /\ ip6_parse (i6_frame p) = Ok (inr p) /\ i6_next p = IP6_NEXT_EXT_FRAG /\
   frag6_parse (i6_rest p) (i6_dlen p) = Ok (inr g) /\ g_next g = next) /\
  (i6_src p, i6_dst p, g_id g) = K /\ is_frag cs k (g_offset g) (g_mf g) (g_data g).
Definition other6 (K : flow_key) (pg : ip6 * frag6) : Prop := (i6_src (fst pg), i6_dst (fst pg), g_id (snd pg)) <> K.
Definition whole6 (K : flow_key) (next : Z) (payload : bytes) (pg : ip6 * frag6) (o : res (option bytes)) : Prop :=
  exists w q, o = Ok (Some w) /\ ip6_parse w = Ok (inr q) /\ i6_data q = payload /\ i6_rest q = payload /\
    i6_src q = fst (fst K) /\ i6_dst q = snd (fst K) /\ i6_next q = next /\ i6_hop q = i6_hop (fst pg) /\
    i6_dscp q = i6_dscp (fst pg) /\ i6_ecn q = i6_ecn (fst pg) /\ i6_flow q = i6_flow (fst pg).

Lemma run6_expected (cs : list (list Z)) K next l now0 fs : nonempty cs -> zlen (concat cs) <= 65535 -> wf_bytes (concat cs) ->
  flow_get K fs = None -> history (own6 cs K next) (other6 K) now0 l ->
  as_expected (whole6 K next (concat cs)) (length cs) None l (run (fun now pg => defrag6 now (fst pg) (snd pg)) fs (plain l)).
Proof.
  intros Hne Hl Wc Hf H.
  apply (run_expected (fun pg => (i6_src (fst pg), i6_dst (fst pg), g_id (snd pg)))
     (fun pg => slice 0 40 (i6_frame (fst pg))) (fun pg => g_offset (snd pg)) (fun pg => g_mf (snd pg)) (fun pg => g_data (snd pg))
     (fun pg h n => ip6_reheader h n (g_next (snd pg))) cs K
     (fun pg => wf_bytes (i6_frame (fst pg)) /\ ip6_parse (i6_frame (fst pg)) = Ok (inr (fst pg)) /\
        g_next (snd pg) = next /\ 0 <= next < 256 /\ i6_src (fst pg) = fst (fst K) /\ i6_dst (fst pg) = snd (fst K)))
    with (now0 := now0); auto.
  - intros [p1 g1] [p g] (W & Pa & Pr & Rn & K1 & K2) (_ & _ & Pr2 & _). cbn [fst snd] in *.
    destruct (ip6_reheader_ok _ _ _ next W Pa Rn Wc Hl) as (h & q & E & Pq & F).
    destruct F as (F1 & F2 & F3 & F4 & F5 & F6 & F7 & F8 & F9 & F10).
    exists (h ++ concat cs), q. rewrite Pr2, E. cbn [rbind fst]. repeat split; auto; congruence.
  - revert now0 H. induction l as [|[[now [p g]] [k|]] l IH]; intros now0 H; cbn [history] in *; auto.
    + destruct H as (A & ((B1 & B2 & B3 & B4 & B5) & C & D) & E). cbn [fst snd].
      assert (R : 0 <= next < 256).
      { subst next. assert (Wr : wf_bytes (i6_rest p)).
        { unfold i6_rest. apply wf_slice_from. exact B1. }
        destruct (frag6_parse_total (i6_rest p) (i6_dlen p) Wr) as [(r & Er & _)|[_ Er]]; rewrite Er in B4; [discriminate|].
        injection B4 as <-. cbn [g_next]. apply byte_at_range. exact Wr. }
      split; [exact A|]. split; [|auto]. split; [|auto]. repeat split; auto; try lia; rewrite <- C; reflexivity.
    + destruct H as (A & B & C). auto.
  - apply inv_start; exact Hf.
Qed.
