(** Lemmas: IPv6 address acquisition as a whole. *)
From Verif Require Import Base BaseLemmas AddrModel SpecAddr AddrProofs CodecModel EtherModel Icmp6Model StackModel StackTxProofs SpecStack StackRxModel SpecRx RxProofs SpecReact ReactProofs AcquireModel SpecAcquire AcquireProofs SpecStart.

(** ** the prefixes heard *)
Definition keeps_ra {A} (m : R A) : Prop := forall n n' r, m n = (n', r) ->
  n_ra n' = n_ra n /\ n_flows4 n' = n_flows4 n /\ n_flows6 n' = n_flows6 n /\ n_socks n' = n_socks n.
Lemma kr_ret {A} (a : A) : keeps_ra (rret a).
Proof. intros n n' r E. injection E as <- _. auto. Qed.
Lemma kr_lift {A} (a : res A) : keeps_ra (rlift a).
Proof. intros n n' r E. injection E as <- _. auto. Qed.
Lemma kr_gets {A} (f : node -> A) : keeps_ra (rgets f).
Proof. intros n n' r E. injection E as <- _. auto. Qed.
Lemma kr_set g : keeps_ra (rupd (set_my g)).
Proof. intros n n' r E. injection E as <- _. auto. Qed.
Lemma kr_tx {A} (m : M A) : keeps_ra (tx_ m).
Proof.
  intros n n' r E. unfold tx_, rbind', tx in E. destruct (m (n_tx n)) as [t [x|x]]; injection E as <- _; auto.
Qed.
Lemma kr_bind {A B} (m : R A) (k : A -> R B) : keeps_ra m -> (forall a, keeps_ra (k a)) -> keeps_ra (rbind' m k).
Proof.
  intros H K n n' r E. unfold rbind' in E. destruct (m n) as [n1 [a|e]] eqn:E1.
  - destruct (H _ _ _ E1) as (A1 & A2 & A3 & A4). destruct (K a _ _ _ E) as (B1 & B2 & B3 & B4). repeat split; congruence.
  - injection E as <- _. exact (H _ _ _ E1).
Qed.
Ltac kr := repeat match goal with
  | |- keeps_ra (rret _) => apply kr_ret
  | |- keeps_ra (rlift _) => apply kr_lift
  | |- keeps_ra (rgets _) => apply kr_gets
  | |- keeps_ra (rupd (set_my _)) => apply kr_set
  | |- keeps_ra (tx_ _) => apply kr_tx
  | |- keeps_ra (rbind' _ _) => apply kr_bind; [|intros]
  end.
Lemma kr_mld : keeps_ra send_mld.
Proof. unfold send_mld. kr. destruct (mld_records _); kr. Qed.
Lemma kr_join g : keeps_ra (assign_mcast6 g).
Proof. unfold assign_mcast6. kr. apply kr_mld. Qed.
Lemma kr_leave g : keeps_ra (remove_mcast6 g).
Proof. unfold remove_mcast6. kr. Qed.
Lemma kr_assign h : keeps_ra (assign_host6 h).
Proof. unfold assign_host6. kr. apply kr_join. Qed.
Lemma kr_dad c : keeps_ra (send_dad c).
Proof. unfold send_dad. kr. Qed.
Lemma kr_rs : keeps_ra send_rs.
Proof. unfold send_rs. kr. Qed.

(** one frame *)
Definition keeps_ev {A} (m : R A) : Prop := forall n n' r, m n = (n', r) -> n_ra n' = n_ra n /\ n_ra_ev n' = n_ra_ev n.
Lemma ke_tx {A} (m : M A) : keeps_ev (tx_ m).
Proof.
  intros n n' r E. unfold tx_, rbind', tx in E. destruct (m (n_tx n)) as [t [x|x]]; injection E as <- _; auto.
Qed.
Lemma ke_ret {A} (a : A) : keeps_ev (rret a).
Proof. intros n n' r E. injection E as <- _. auto. Qed.
Lemma ke_gets {A} (f : node -> A) : keeps_ev (rgets f).
Proof. intros n n' r E. injection E as <- _. auto. Qed.
Lemma ke_upd f : (forall n, n_ra (f n) = n_ra n /\ n_ra_ev (f n) = n_ra_ev n) -> keeps_ev (rupd f).
Proof. intros H n n' r E. injection E as <- _. auto. Qed.
Lemma ke_bind {A B} (m : R A) (k : A -> R B) : keeps_ev m -> (forall a, keeps_ev (k a)) -> keeps_ev (rbind' m k).
Proof.
  intros H K n n' r E. unfold rbind' in E. destruct (m n) as [n1 [a|e]] eqn:E1.
  - destruct (H _ _ _ E1) as (A1 & A2). destruct (K a _ _ _ E) as (B1 & B2). split; congruence.
  - injection E as <- _. exact (H _ _ _ E1).
Qed.
Lemma effect_ra x : (forall l, x <> RPrefixes l) -> keeps_ev (effect x).
Proof.
  intros N. destruct x; cbn [effect].
  - apply ke_bind; [apply ke_gets|intros]. apply ke_bind; [apply ke_tx|intros; apply ke_tx].
  - apply ke_tx.
  - apply ke_tx.
  - apply ke_upd. auto.
  - apply ke_upd. auto.
  - apply ke_upd. auto.
  - apply ke_upd. auto.
  - apply ke_tx.
  - apply ke_bind; [destruct learn; [apply ke_tx|apply ke_ret]|intros; apply ke_tx].
  - apply ke_upd. auto.
  - exfalso. eapply N. reflexivity.
Qed.
Lemma offers_iff n f l : offers (n, f) l <-> exists n1, reacts n f n1 (RPrefixes l).
Proof.
  split.
  - intros (n1 & src & dst & q & h & m & o & rl & rt & rr & opts & I & B & ->). exists n1. eapply re_ra; eauto.
  - intros (n1 & H). inversion H; subst. unfold offers. cbn [fst snd]. eauto 20.
Qed.
Lemma offers_run n f l n' r : offers (n, f) l -> wf_bytes f -> node_fit n -> phrx_ether f n = (n', r) ->
  n_ra n' = l /\ n_ra_ev n' = n_ra_ev n + 1.
Proof.
  intros O W (K & S) E. apply offers_iff in O as (n1 & H). destruct (react_run n f n1 _ H W K S) as (Q & X).
  rewrite E in X. cbn [effect] in X. unfold rupd in X. injection X as -> _. cbn.
  destruct Q as (_ & _ & _ & _ & _ & _ & _ & Q & _). rewrite Q. auto.
Qed.
Lemma frame_heard n f n' r : wf_bytes f -> node_fit n -> phrx_ether f n = (n', r) -> heard [(n, f)] (n_ra n) (n_ra n').
Proof.
  intros W F E. pose proof F as (K & S). destruct (react_total n f n' r W K S E) as [(Q & _)|(n1 & x & H & Ex & Q & _)].
  - destruct Q as (_ & _ & _ & _ & _ & _ & Q1 & Q2 & _). rewrite Q1. apply hd_other; [|constructor].
    intros l O. destruct (offers_run _ _ _ _ _ O W F E) as (_ & X). lia.
  - destruct Q as (_ & _ & _ & _ & _ & _ & Q1 & Q2 & _).
    assert (D : (exists l, x = RPrefixes l) \/ forall l, x <> RPrefixes l)
      by (destruct x; [right; discriminate..|left; eauto]).
    destruct D as [(l & ->)|N].
    + assert (O : offers (n, f) l) by (apply offers_iff; eauto).
      eapply hd_ra; [exact O|]. destruct (offers_run _ _ _ _ _ O W F E) as (X & _). rewrite X. constructor.
    + destruct (effect_ra _ N _ _ _ Ex) as (X1 & X2). rewrite X1, Q1. apply hd_other; [|constructor].
      intros l O. destruct (offers_run _ _ _ _ _ O W F E) as (_ & X). lia.
Qed.
Lemma heard_app a b l l' l'' : heard a l l' -> heard b l' l'' -> heard (a ++ b) l l''.
Proof. induction 1; intros; cbn; auto; [apply hd_other; auto|eapply hd_ra; eauto]. Qed.

Definition goes (w w' : world) (seg : list (node * bytes)) : Prop :=
  fit w' /\ w_log w' = w_log w ++ seg /\ heard seg (n_ra (w_node w)) (n_ra (w_node w')).
Lemma goes_refl w : fit w -> goes w w [].
Proof. intros F. split; [auto|]. split; [symmetry; apply app_nil_r|constructor]. Qed.
Lemma goes_trans a b c s t : goes a b s -> goes b c t -> goes a c (s ++ t).
Proof.
  intros (_ & A1 & A2) (B0 & B1 & B2). split; [auto|]. split; [rewrite B1, A1, app_assoc; auto|]. eapply heard_app; eauto.
Qed.
Lemma goes_frame f w : wf_bytes f -> fit w -> goes w (rx_frame f w) [(w_node w, f)].
Proof.
  intros W F. destruct (frame_step f w W F) as (_ & A2 & _ & A4 & _). split; [auto|]. split; [exact A2|].
  unfold rx_frame. cbn [w_node]. destruct (phrx_ether f (w_node w)) as [n' r] eqn:E. cbn [fst].
  eapply frame_heard; eauto. apply F.
Qed.
Lemma goes_frames l : forall w, Forall wf_bytes l -> fit w -> exists seg, goes w (rx_frames l w) seg.
Proof.
  induction l as [|f l IH]; intros w Wl F; [exists []; apply goes_refl; auto|].
  inversion Wl as [|? ? W Wr]; subst. pose proof (goes_frame f w W F) as G.
  destruct (IH (rx_frame f w) Wr (proj1 G)) as (seg & H). exists ((w_node w, f) :: seg).
  change ((w_node w, f) :: seg) with ([(w_node w, f)] ++ seg). eapply goes_trans; eauto.
Qed.
Definition traced {A} (m : W A) : Prop := forall w w' r, fit w -> m w = (w', r) -> exists seg, goes w w' seg.
Lemma tr_ret {A} (a : A) : traced (wret a).
Proof. intros w w' r F E. injection E as <- _. exists []. apply goes_refl; auto. Qed.
Lemma tr_bind {A B} (m : W A) (k : A -> W B) : traced m -> (forall a, traced (k a)) -> traced (wbind m k).
Proof.
  intros H K w w' r F E. unfold wbind in E. destruct (m w) as [w1 [a|e]] eqn:E1.
  - destruct (H _ _ _ F E1) as (s & G). destruct (K a _ _ _ (proj1 G) E) as (t & G'). exists (s ++ t). eapply goes_trans; eauto.
  - injection E as <- _. eauto.
Qed.
Lemma tr_act {A} (m : R A) : keeps_ra m -> traced (act m).
Proof.
  intros H w w' r F E. apply act_inv in E as (E & S & L). destruct (H _ _ _ E) as (A1 & A2 & A3 & A4). exists [].
  split; [|split; [rewrite L, app_nil_r; auto|rewrite A1; constructor]].
  destruct F as ((K & N) & Fs). split; [|rewrite S; exact Fs]. unfold node_fit, node_ok in *. rewrite A2, A3, A4. auto.
Qed.
Lemma goes_advance w : fit w -> goes w (advance w) [].
Proof. intros F. split; [apply fit_advance; auto|]. split; [symmetry; apply app_nil_r|constructor]. Qed.
Lemma tr_yield : traced yield.
Proof.
  intros w w' r F E. unfold yield in E. injection E as <- _. destruct (fit_advance w F) as (F' & Wl).
  destruct (goes_frames _ _ Wl F') as (seg & G). exists ([] ++ seg). eapply goes_trans; [apply goes_advance; auto|exact G].
Qed.
Lemma tr_acquire count taken : (forall n, n_ra (taken n) = n_ra n) -> (forall n, node_fit n -> node_fit (taken n)) ->
  traced (acquire count taken).
Proof.
  intros R T w w' r F E. unfold acquire in E. destruct (wait_sem count taken (next_frames w) (advance w)) as [w1 b] eqn:E1.
  injection E as <- _. destruct (fit_advance w F) as (F' & Wl).
  cut (exists seg, goes (advance w) w1 seg).
  { intros (seg & G). exists ([] ++ seg). eapply goes_trans; [apply goes_advance; auto|exact G]. }
  clear F. revert E1 F' Wl. generalize (advance w) as v. generalize (next_frames w) as l. clear w r.
  induction l as [|f l IH]; intros v E F W; cbn [wait_sem] in E.
  - destruct (0 <? count (w_node v)).
    + injection E as <- _. exists []. split; [apply fit_on_node; auto; apply T; apply F|]. split; [cbn; rewrite app_nil_r; auto|]. cbn. rewrite R. constructor.
    + injection E as <- _. exists []. apply goes_refl; auto.
  - destruct (0 <? count (w_node v)).
    + injection E as <- _.
      assert (G : goes v (on_node taken v) []).
      { split; [apply fit_on_node; auto; apply T; apply F|]. split; [cbn; rewrite app_nil_r; auto|]. cbn. rewrite R. constructor. }
      destruct (goes_frames (f :: l) (on_node taken v) W (proj1 G)) as (seg & H). exists ([] ++ seg). eapply goes_trans; eauto.
    + inversion W as [|? ? Wf Wr]; subst. pose proof (goes_frame f v Wf F) as G.
      destruct (IH _ E (proj1 G) Wr) as (seg & H). exists ([(w_node v, f)] ++ seg). eapply goes_trans; eauto.
Qed.
Lemma tr_dad : traced (acquire n_dad dad_taken).
Proof. apply tr_acquire; [reflexivity|apply dad_taken_fit]. Qed.
Ltac tr := repeat match goal with
  | |- traced (wret _) => apply tr_ret
  | |- traced yield => apply tr_yield
  | |- traced (acquire n_dad dad_taken) => apply tr_dad
  | |- traced (act _) => apply tr_act; auto using @kr_lift, @kr_gets, kr_join, kr_set, kr_dad, kr_leave, kr_assign, kr_rs
  | |- traced (wbind _ _) => apply tr_bind; [|intros]
  | |- traced (if ?b then _ else _) => destruct b
  end.
Lemma tr_claim h : traced (claim6 h).
Proof. unfold claim6, nd_dad. tr. Qed.

(** ** claims *)
Definition entry := (host * bool * list (node * bytes))%type.
Inductive vlist : Z -> list entry -> Z -> Prop :=
| vl_nil d : vlist d [] d
| vl_cons d h ok seg k l d' : counted (answers_probe (h_addr h)) seg k -> ok = negb (0 <? d + k) ->
    vlist (d + k - (if ok : bool then 0 else 1)) l d' -> vlist d ((h, ok, seg) :: l) d'.
Lemma vlist_app l : forall m a b c, vlist a l b -> vlist b m c -> vlist a (l ++ m) c.
Proof. induction l as [|x l IH]; intros m a b c H; inversion H; subst; cbn [app]; [auto|]. intros K. econstructor; eauto. Qed.
Lemma vlist_nonneg l : forall a b, vlist a l b -> 0 <= a -> 0 <= b.
Proof.
  induction l as [|x l IH]; intros a b H N; inversion H as [|? ? ? ? ? ? ? K O V]; subst; [auto|].
  eapply IH; [exact V|]. pose proof (counted_nonneg _ _ _ K). destruct (0 <? a + k) eqn:X; cbn; lia.
Qed.
Lemma vlist_count p : forall d h ok seg r d', vlist d (p ++ (h, ok, seg) :: r) d' -> 0 <= d ->
  exists hits rej k, tally p hits rej /\ counted (answers_probe (h_addr h)) seg k /\ (ok = false <-> rej < d + hits + k).
Proof.
  induction p as [|[[h0 ok0] seg0] p IH]; intros d h ok seg r d' H N; cbn [app] in H; inversion H as [|? ? ? ? ? ? ? K O V]; subst.
  - exists 0, 0, k. split; [constructor|]. split; [exact K|]. destruct (0 <? d + k) eqn:X; cbn; split; intros; try lia; try discriminate; auto.
  - set (ok0 := negb (0 <? d + k)) in *. pose proof (counted_nonneg _ _ _ K).
    assert (N1 : 0 <= d + k - (if ok0 then 0 else 1)) by (unfold ok0; destruct (0 <? d + k) eqn:X; cbn; lia).
    destruct (IH _ _ _ _ _ _ V N1) as (hits & rej & k' & T & K' & Y). exists (k + hits), ((if ok0 then 0 else 1) + rej), k'.
    split; [constructor; auto|]. split; [auto|]. rewrite Y. lia.
Qed.
Lemma vlist_verdicts l d : vlist 0 l d -> verdicts l.
Proof.
  intros H p h ok seg r ->. destruct (vlist_count _ _ _ _ _ _ _ H ltac:(lia)) as (hits & rej & k & T & K & Y).
  exists hits, rej, k. split; [auto|]. split; [auto|]. rewrite Y. lia.
Qed.
Lemma claimed_app a b : claimed (a ++ b) = claimed a ++ claimed b.
Proof. unfold claimed. rewrite filter_app, map_app. reflexivity. Qed.
Lemma parts_r l a b : parts l a -> parts l (a ++ b).
Proof. apply Forall_impl. intros x (p & q & ->). exists p, (q ++ b). rewrite !app_assoc. reflexivity. Qed.
Lemma parts_l l a b : parts l b -> parts l (a ++ b).
Proof. apply Forall_impl. intros x (p & q & ->). exists (a ++ p), q. rewrite !app_assoc. reflexivity. Qed.
Lemma parts_app l m a b : parts l a -> parts m b -> parts (l ++ m) (a ++ b).
Proof. intros A B. apply Forall_app. split; [apply parts_r; auto|apply parts_l; auto]. Qed.
Lemma same4_trans a b c : same4 a b -> same4 b c -> same4 a c.
Proof. intros (A1 & A2 & A3 & A4 & A5) (B1 & B2 & B3 & B4 & B5). unfold same4. repeat split; congruence. Qed.
Lemma same4_refl a : same4 a a.
Proof. unfold same4. auto 10. Qed.
Definition at_rest (w : world) : Prop := fit w /\ a_cand6 (my_addrs (w_node w)) = None /\ 0 <= n_dad (w_node w).
(** what a number of claims does *)
Definition did (w w' : world) (l : list entry) (log : list (node * bytes)) : Prop :=
  let a := my_addrs (w_node w) in let b := my_addrs (w_node w') in
  goes w w' log /\ parts l log /\ vlist (n_dad (w_node w)) l (n_dad (w_node w')) /\
  a_host6 b = a_host6 a ++ claimed l /\ a_sup6 b = a_sup6 a /\ same4 a b /\ a_cand6 b = None.
Lemma did_rest w w' l s : at_rest w -> did w w' l s -> at_rest w'.
Proof. intros (F & C & N) (G & P & V & _ & _ & _ & C'). split; [apply G|]. split; [exact C'|]. eapply vlist_nonneg; eauto. Qed.
Lemma did_nil w : at_rest w -> did w w [] [].
Proof.
  intros (F & C & N). split; [apply goes_refl; auto|]. split; [constructor|]. split; [constructor|]. split; [cbn; rewrite app_nil_r; auto|].
  split; [auto|]. split; [apply same4_refl|auto].
Qed.
Lemma did_trans w1 w2 w3 l m s t : did w1 w2 l s -> did w2 w3 m t -> did w1 w3 (l ++ m) (s ++ t).
Proof.
  intros (G & P & V & H & S & Q & C) (G' & P' & V' & H' & S' & Q' & C'). split; [eapply goes_trans; eauto|].
  split; [apply parts_app; auto|]. split; [eapply vlist_app; eauto|]. split; [rewrite H', H, claimed_app, app_assoc; auto|].
  split; [congruence|]. split; [eapply same4_trans; eauto|auto].
Qed.
Lemma claim_did h w w' : 0 <= h_addr h < 2 ^ 128 -> at_rest w -> claim6 h w = (w', Ok tt) ->
  exists ok seg, did w w' [(h, ok, seg)] seg.
Proof.
  intros H (F & C & Nn) E. destruct (tr_claim h w w' _ F E) as (sg & G).
  destruct (claim_step _ _ _ H F C Nn E) as (seg & k & L & K & A & D & F' & C').
  assert (sg = seg) by (destruct G as (_ & G & _); rewrite L in G; apply app_inv_head in G; auto). subst sg.
  exists (negb (0 <? n_dad (w_node w) + k)), seg. split; [exact G|]. split; [repeat constructor; exists [], []; cbn; rewrite app_nil_r; auto|].
  split; [econstructor; [exact K|reflexivity|rewrite D; constructor]|].
  split; [rewrite A; unfold claimed; cbn; destruct (negb _); reflexivity|].
  cut (a_sup6 (my_addrs (w_node w')) = a_sup6 (my_addrs (w_node w)) /\ same4 (my_addrs (w_node w)) (my_addrs (w_node w'))); [tauto|].
  unfold claim6 in E. apply wbind_ok in E as (w1 & v & E1 & E).
  destruct (nd_dad_step _ _ _ _ H F C Nn E1) as (s1 & k1 & l & m & _ & _ & _ & _ & _ & F1 & _ & _ & A1 & _).
  apply wbind_ok in E as (w2 & u2 & E2 & E). destruct (yield_step _ _ _ F1 E2) as (_ & s2 & k2 & _ & _ & A2 & F2 & _).
  rewrite A1 in A2. destruct v.
  - pose proof (act_inv _ _ _ _ E) as (E' & _). apply assign_host_step in E'; auto.
    destruct (moved_act _ _ _ _ _ E E' F2) as (_ & A3 & _). rewrite A3, A2. split; [reflexivity|]. unfold same4. auto 10.
  - unfold wret in E. injection E as <-. rewrite A2. split; [reflexivity|]. unfold same4. auto 10.
Qed.
Lemma claim_all_did l : forall w w', Forall (fun h => 0 <= h_addr h < 2 ^ 128) l -> at_rest w -> claim_all6 l w = (w', Ok tt) ->
  exists m log, did w w' m log /\ hosts_of m = l.
Proof.
  induction l as [|h l IH]; intros w w' Hl R E; cbn [claim_all6] in E.
  - unfold wret in E. injection E as <-. exists [], []. split; [apply did_nil; auto|reflexivity].
  - inversion Hl as [|? ? Hh Hr]; subst. apply wbind_ok in E as (w1 & [] & E1 & E).
    destruct (claim_did _ _ _ Hh R E1) as (ok & seg & D). destruct (IH _ _ Hr (did_rest _ _ _ _ R D) E) as (m & log & D' & M).
    exists ([(h, ok, seg)] ++ m), (seg ++ log). split; [eapply did_trans; eauto|]. cbn. rewrite <- M. reflexivity.
Qed.

Lemma did_act {A} (m : R A) w w' r a : at_rest w -> act m w = (w', r) -> keeps_ra m -> rsteps a (w_node w) (w_node w') ->
  a_host6 a = a_host6 (my_addrs (w_node w)) -> a_sup6 a = a_sup6 (my_addrs (w_node w)) -> same4 (my_addrs (w_node w)) a ->
  a_cand6 a = None -> did w w' [] [].
Proof.
  intros (F & C & N) E K R H S Q C'. destruct (moved_act _ _ _ _ _ E R F) as (F1 & A1 & D1 & L1 & _).
  pose proof (act_inv _ _ _ _ E) as (E' & _). destruct (K _ _ _ E') as (X & _).
  split; [split; [auto|split; [rewrite L1, app_nil_r; auto|rewrite X; constructor]]|]. split; [constructor|].
  split; [rewrite D1; constructor|]. rewrite A1. split; [cbn; rewrite app_nil_r; auto|]. auto.
Qed.
Lemma did_pure {A} (x : res A) w w' r : at_rest w -> act (rlift x) w = (w', r) -> w' = w /\ r = x.
Proof. intros _ E. unfold act, rlift in E. injection E as <- <-. destruct w; auto. Qed.
Lemma act_gets {A} (f : node -> A) w w' r : act (rgets f) w = (w', r) -> w' = w /\ r = Ok (f (w_node w)).
Proof. intros E. unfold act, rgets in E. injection E as <- <-. destruct w; auto. Qed.
Lemma eui_range p mac h : ip6_eui64 p mac = Ok h -> 0 <= h_addr h < 2 ^ 128.
Proof.
  unfold ip6_eui64. destruct (mask_len (n_mask p) =? 64); [|discriminate]. cbn [assert_].
  unfold ip6_of_int. set (x := Z.lor (n_addr p) _). destruct (_ =? x) eqn:E; [|discriminate]. apply Z.eqb_eq in E.
  cbn [rbind]. destruct (mask_of_prefix 128 64); [|discriminate]. cbn [rbind]. unfold mk_host. destruct (mk_net 128 x a); [|discriminate].
  cbn [rbind]. intros H. injection H as <-. cbn [h_addr].
  change 0xFFFFFFFFFFFFFFFFFFFFFFFFFFFFFFFF with (Z.ones 128) in E. rewrite Z.land_ones in E by lia. rewrite <- E. apply Z.mod_pos_bound. lia.
Qed.
Lemma eui_nogw p mac h : ip6_eui64 p mac = Ok h -> h_gw h = None.
Proof.
  unfold ip6_eui64. destruct (mask_len (n_mask p) =? 64); [|discriminate]. cbn [assert_]. destruct (ip6_of_int _); [|discriminate].
  cbn [rbind]. destruct (mask_of_prefix 128 64); [|discriminate]. cbn [rbind]. unfold mk_host. destruct (mk_net 128 _ _); [|discriminate].
  cbn [rbind]. intros H. injection H as <-. reflexivity.
Qed.
Lemma gateway6 h g h' : with_gateway6 h g = Ok h' -> h' = {| h_addr := h_addr h; h_net := h_net h; h_gw := g |}.
Proof.
  unfold with_gateway6, ip6_set_gateway. destruct g as [x|]; [destruct (negb _); [discriminate|]|]; intros H; injection H as <-; reflexivity.
Qed.
Lemma prefixes_did mac l : forall w w', at_rest w -> a_mac (my_addrs (w_node w)) = mac -> claim_prefixes l w = (w', Ok tt) ->
  exists m log, did w w' m log /\ Forall2 (formed mac) l (hosts_of m).
Proof.
  induction l as [|[p g] l IH]; intros w w' R M E; cbn [claim_prefixes] in E.
  - unfold wret in E. injection E as <-. exists [], []. split; [apply did_nil; auto|constructor].
  - apply wbind_ok in E as (w1 & a & E1 & E). apply act_gets in E1 as (-> & E1). injection E1 as ->.
    apply wbind_ok in E as (w2 & h & E2 & E). apply did_pure in E2 as (-> & E2); [|auto]. symmetry in E2. rewrite M in E2.
    apply wbind_ok in E as (w3 & h' & E3 & E). apply did_pure in E3 as (-> & E3); [|auto]. symmetry in E3. apply gateway6 in E3.
    apply wbind_ok in E as (w4 & [] & E4 & E).
    assert (Rg : 0 <= h_addr h' < 2 ^ 128) by (subst h'; cbn; eapply eui_range; eauto).
    destruct (claim_did _ _ _ Rg R E4) as (ok & seg & D).
    assert (M4 : a_mac (my_addrs (w_node w4)) = mac) by (destruct D as (_ & _ & _ & _ & _ & (X & _) & _); congruence).
    destruct (IH _ _ (did_rest _ _ _ _ R D) M4 E) as (m & log & D' & F).
    exists ([(h', ok, seg)] ++ m), (seg ++ log). split; [eapply did_trans; eauto|]. cbn. constructor; [|exact F].
    exists h. auto.
Qed.
Lemma local_iff h : 0 <= h_addr h < 2 ^ 128 -> ip6_is_link_local (h_addr h) = local_host h.
Proof.
  intros H. destruct (ip6_prefixes _ H) as (_ & _ & P & _). unfold local_host, same_prefix in *.
  change (0xFE80 * 2 ^ 112 / 2 ^ (Z.of_nat 128 - 10)) with 0x3FA in P. change (Z.of_nat 128 - 10) with 118 in P.
  destruct (h_addr h / 2 ^ 118 =? 0x3FA) eqn:E.
  - apply P. lia.
  - apply Bool.not_true_iff_false. rewrite P. lia.
Qed.
Lemma filter_ext_F {A} (P : A -> Prop) f g (l : list A) : (forall x, P x -> f x = g x) -> Forall P l -> filter f l = filter g l.
Proof. intros H. induction 1 as [|x l Hx _ IH]; cbn; [auto|]. rewrite (H x Hx), IH. reflexivity. Qed.
Lemma filter_F {A} (P : A -> Prop) f (l : list A) : Forall P l -> Forall P (filter f l).
Proof. induction 1; cbn; [constructor|]. destruct (f x); auto. Qed.

Lemma wait_did w w1 b : at_rest w -> acquire n_ra_ev ra_taken w = (w1, b) -> exists log, did w w1 [] log.
Proof.
  intros (F & C & N) E.
  assert (T : traced (acquire n_ra_ev ra_taken)) by (apply tr_acquire; [reflexivity|intros n X; exact X]).
  destruct (T _ _ _ F E) as (log & G). exists log.
  cut (my_addrs (w_node w1) = my_addrs (w_node w) /\ n_dad (w_node w1) = n_dad (w_node w)).
  { intros (A & D). split; [exact G|]. split; [constructor|]. split; [rewrite D; constructor|]. rewrite A. cbn. rewrite app_nil_r.
    split; [auto|]. split; [auto|]. split; [apply same4_refl|auto]. }
  unfold acquire in E. destruct (wait_sem _ _ (next_frames w) (advance w)) as [w2 c] eqn:E2. injection E as <- _.
  destruct (fit_advance w F) as (F' & Wl). change (a_cand6 (my_addrs (w_node (advance w))) = None) in C.
  change (my_addrs (w_node w)) with (my_addrs (w_node (advance w))). change (n_dad (w_node w)) with (n_dad (w_node (advance w))).
  clear F N T G. revert E2 F' Wl C. generalize (advance w) as v. generalize (next_frames w) as l. clear w b log.
  assert (Fr : forall l v, Forall wf_bytes l -> fit v -> a_cand6 (my_addrs (w_node v)) = None ->
    my_addrs (w_node (rx_frames l v)) = my_addrs (w_node v) /\ n_dad (w_node (rx_frames l v)) = n_dad (w_node v)).
  { intros l v W F C. destruct (frames_step l v W F) as (s & k & A1 & A2 & A3 & A4 & A5 & A6 & A7 & A8).
    split; [auto|]. assert (k = 0) by (eapply counted_none; eauto). lia. }
  induction l as [|f l IH]; intros v E F W C; cbn [wait_sem] in E.
  - destruct (0 <? n_ra_ev (w_node v)); injection E as <- _; auto.
  - destruct (0 <? n_ra_ev (w_node v)).
    + injection E as <- _. apply (Fr (f :: l) (on_node ra_taken v)); auto.
    + inversion W as [|? ? Wf Wr]; subst. destruct (Fr [f] v ltac:(repeat constructor; auto) F C) as (A & D). change (rx_frames [f] v) with (rx_frame f v) in A, D.
      destruct (frame_step f v Wf F) as (_ & _ & _ & F1 & _).
      destruct (IH _ E F1 Wr ltac:(rewrite A; exact C)) as (A' & D'). split; congruence.
Qed.
Lemma did_goes w w' l s : did w w' l s -> goes w w' s.
Proof. intros H. apply H. Qed.
Lemma yield_did w w' r : at_rest w -> yield w = (w', r) -> exists log, did w w' [] log.
Proof.
  intros (F & C & N) E. destruct (tr_yield _ _ _ F E) as (log & G).
  destruct (yield_step _ _ _ F E) as (_ & s & k & L & Lg & A & F' & _ & K & D). exists log.
  assert (k = 0) by (eapply counted_none; eauto).
  split; [exact G|]. split; [constructor|]. split; [replace (n_dad (w_node w')) with (n_dad (w_node w)) by lia; constructor|].
  rewrite A. cbn. rewrite app_nil_r. split; [auto|]. split; [auto|]. split; [apply same4_refl|auto].
Qed.
Lemma send_rs_steps n n' r : send_rs n = (n', r) -> rsteps (my_addrs n) n n'.
Proof.
  unfold send_rs, rbind' at 1, rgets. unfold rbind' at 1, rlift. destruct (ip6_unicast (my_addrs n)) as [|x t].
  - intros E. injection E as <- _. apply rstep_rsteps, rstep_refl.
  - intros E. apply rstep_rsteps. eapply rstep_tx; [|exact E]. apply mg_icmp6.
Qed.
Lemma acquire6_did lla gua cands w w' : fit w -> quiet (w_node w) -> a_sup6 (my_addrs (w_node w)) = true ->
  Forall (fun h => 0 <= h_addr h < 2 ^ 128) cands -> acquire_ip6 lla gua cands w = (w', Ok tt) -> acquired6 lla gua cands w w'.
Proof.
  intros F (C & Dz) S6 Hc E. unfold acquire_ip6 in E. set (a := my_addrs (w_node w)) in *. set (mac := a_mac a).
  assert (R0 : at_rest w) by (split; [auto|split; [auto|lia]]).
  apply wbind_ok in E as (x & y & E1 & E). apply act_gets in E1 as (-> & E1). injection E1 as ->. fold a in E. rewrite S6 in E.
  apply wbind_ok in E as (w1 & u & E1 & E).
  assert (D1 : did w w1 [] []).
  { pose proof (act_inv _ _ _ _ E1) as (X & _). apply assign_mcast_step in X; [|apply all_nodes_ok..].
    eapply did_act; [exact R0|exact E1|apply kr_join|exact X|reflexivity|reflexivity|unfold same4; auto 10|exact C]. }
  pose proof (did_rest _ _ _ _ R0 D1) as R1. clear E1. unfold create_ip6 in E.
  apply wbind_ok in E as (w2 & [] & E2 & E).
  destruct (claim_all_did _ _ _ (filter_F _ _ _ Hc) R1 E2) as (m1 & s1 & D2 & M1). clear E2.
  pose proof (did_rest _ _ _ _ R1 D2) as R2. pose proof (did_trans _ _ _ _ _ _ _ D1 D2) as D02. clear D1 D2.
  apply wbind_ok in E as (x & y & E1 & E). apply act_gets in E1 as (-> & E1). injection E1 as ->.
  apply wbind_ok in E as (w3 & [] & E3 & E).
  assert (D3 : exists m2 s2, did w2 w3 m2 s2 /\ if lla then exists h, hosts_of m2 = [h] /\ formed_local mac h else hosts_of m2 = []).
  { destruct lla.
    - apply wbind_ok in E3 as (x & h & E4 & E3). apply did_pure in E4 as (-> & E4); [|auto].
      apply wbind_ok in E3 as (x & h' & E5 & E3). apply did_pure in E5 as (-> & E5); [|auto].
      symmetry in E4, E5. apply gateway6 in E5.
      assert (Eh : h' = h) by (rewrite E5; pose proof (eui_nogw _ _ _ E4) as G; destruct h; cbn in *; rewrite G; reflexivity). rewrite Eh in E3.
      destruct (claim_did _ _ _ (eui_range _ _ _ E4) R2 E3) as (ok & seg & D). exists [(h, ok, seg)], seg. split; [exact D|].
      exists h. split; [reflexivity|]. unfold formed_local, mac. destruct D02 as (_ & _ & _ & _ & _ & (Q & _) & _).
      fold a in Q. rewrite <- Q. exact E4.
    - unfold wret in E3. injection E3 as <-. exists [], []. split; [apply did_nil; auto|reflexivity]. }
  destruct D3 as (m2 & s2 & D3 & Own). pose proof (did_rest _ _ _ _ R2 D3) as R3. pose proof (did_trans _ _ _ _ _ _ _ D02 D3) as D03. clear E3 D02.
  cbn [app] in D03. apply wbind_ok in E as (x & y & E1 & E). apply act_gets in E1 as (-> & E1). injection E1 as ->.
  assert (H3 : a_host6 (my_addrs (w_node w3)) = a_host6 a ++ claimed (m1 ++ m2)) by apply D03. rewrite H3 in E.
  assert (HL : hosts_of (m1 ++ m2) = filter local_host cands ++ hosts_of m2).
  { transitivity (hosts_of m1 ++ hosts_of m2); [apply map_app|]. rewrite M1. f_equal. eapply filter_ext_F; [|exact Hc]. apply local_iff. }
  destruct (a_host6 a ++ claimed (m1 ++ m2)) as [|h0 t0] eqn:HE.
  - (* nothing claimed *)
    pose proof (act_inv _ _ _ _ E) as (E' & _ & Lg). unfold rupd in E'. injection E' as Ew.
    destruct D03 as (G3 & P3 & V3 & _ & S3 & Q3 & _). exists (m1 ++ m2), [], [], (s1 ++ s2), [], (n_ra (w_node w3)), (hosts_of m2).
    split; [rewrite Lg, app_nil_r; apply G3|]. split; [apply G3|]. rewrite !app_nil_r. split; [exact P3|]. split; [constructor|].
    split; [rewrite Dz in V3; eapply vlist_verdicts; exact V3|].
    assert (Ab : my_addrs (w_node w') = with_sup6 false (my_addrs (w_node w3))) by (rewrite <- Ew; reflexivity). rewrite Ab.
    split; [fold a; rewrite HE; exact H3|]. split; [exact Q3|]. split; [exact HL|].
    split; [destruct lla; [destruct Own as (h & -> & Y); eauto|auto]|]. fold a. split; [split; auto|]. split; [auto|]. intros X. rewrite HE in X. contradiction.
  - (* something *)
    assert (NE : a_host6 a ++ claimed (m1 ++ m2) <> []) by (rewrite HE; discriminate).
    apply wbind_ok in E as (w4 & [] & E4 & E).
    destruct (claim_all_did _ _ _ (filter_F _ _ _ Hc) R3 E4) as (m3 & s3 & D4 & M3). clear E4.
    pose proof (did_rest _ _ _ _ R3 D4) as R4. pose proof (did_trans _ _ _ _ _ _ _ D03 D4) as D04.
    assert (T : exists m4 s4 s5 w5, did w4 w5 [] s4 /\ did w5 w' m4 s5 /\
      if gua then Forall2 (formed mac) (n_ra (w_node w5)) (hosts_of m4) else m4 = []).
    { destruct gua.
      - apply wbind_ok in E as (w5 & u5 & E5 & E). destruct (yield_did _ _ _ R4 E5) as (s4 & D5). pose proof (did_rest _ _ _ _ R4 D5) as R5.
        apply wbind_ok in E as (w6 & u6 & E6 & E).
        assert (D6 : did w5 w6 [] []).
        { pose proof (act_inv _ _ _ _ E6) as (X & _). apply send_rs_steps in X.
          eapply did_act; [exact R5|exact E6|apply kr_rs|exact X|reflexivity|reflexivity|apply same4_refl|apply D5]. }
        pose proof (did_rest _ _ _ _ R5 D6) as R6.
        apply wbind_ok in E as (w7 & b & E7 & E). destruct (wait_did _ _ _ R6 E7) as (s6 & D7). pose proof (did_rest _ _ _ _ R6 D7) as R7.
        apply wbind_ok in E as (x & y & E1 & E). apply act_gets in E1 as (-> & E1). injection E1 as ->.
        pose proof (did_trans _ _ _ _ _ _ _ (did_trans _ _ _ _ _ _ _ D5 D6) D7) as D57.
        assert (M7 : a_mac (my_addrs (w_node w7)) = mac).
        { pose proof (did_trans _ _ _ _ _ _ _ D04 D57) as D07. destruct D07 as (_ & _ & _ & _ & _ & (Q & _) & _). exact Q. }
        destruct (prefixes_did mac _ _ _ R7 M7 E) as (m4 & s5 & D8 & Fo). eauto 10.
      - unfold wret in E. injection E as <-. exists [], [], [], w4. split; [apply did_nil; auto|]. split; [apply did_nil; auto|auto]. }
    destruct T as (m4 & s4 & s5 & w5 & D5 & D6 & Fo). pose proof (did_trans _ _ _ _ _ _ _ D04 D5) as D05.
    pose proof (did_trans _ _ _ _ _ _ _ D05 D6) as D06. rewrite app_nil_r in D05, D06.
    destruct D06 as (G6 & P6 & V6 & H6 & S6' & Q6 & _). destruct D05 as (G5 & P5 & _).
    exists (m1 ++ m2), m3, m4, ((s1 ++ s2) ++ s3 ++ s4), s5, (n_ra (w_node w5)), (hosts_of m2).
    rewrite <- !app_assoc in *.
    split; [apply G6|]. split; [apply G5|]. split; [exact P5|]. split; [apply D6|].
    split; [rewrite Dz in V6; eapply vlist_verdicts; exact V6|]. split; [exact H6|]. split; [exact Q6|]. split; [exact HL|].
    split; [destruct lla; [destruct Own as (h & -> & Y); eauto|auto]|]. fold a.
    split; [split; [intros X; fold a in S6'; congruence|intros X; contradiction]|].
    split; [intros X; contradiction|]. intros _.
    split; [rewrite M3; eapply filter_ext_F; [|exact Hc]; intros h Hh; cbv beta; rewrite (local_iff _ Hh); reflexivity|exact Fo].
Qed.
