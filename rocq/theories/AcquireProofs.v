(** Proofs about address acquisition. *)
From Coq Require Import Permutation.
From Verif Require Import Base BaseLemmas CodecModel AddrModel AddrProofs EtherModel Icmp6Model StackModel SpecStack StackTxProofs StackRxModel
  SpecRx RxProofs SpecReact ReactProofs AcquireModel SpecAcquire.

(** ** sending leaves the addresses alone *)
Definition mgrows {A} (m : M A) : Prop :=
  forall s s' r, m s = (s', r) -> s_addrs s' = s_addrs s /\ exists l, s_out s' = s_out s ++ l.
Lemma mg_ret {A} (a : A) : mgrows (ret a).
Proof. intros s s' r E. injection E as <- _. split; [auto|exists []; symmetry; apply app_nil_r]. Qed.
Lemma mg_raise {A} e : mgrows (@raise A e).
Proof. intros s s' r E. injection E as <- _. split; [auto|exists []; symmetry; apply app_nil_r]. Qed.
Lemma mg_lift {A} (a : res A) : mgrows (lift a).
Proof. intros s s' r E. injection E as <- _. split; [auto|exists []; symmetry; apply app_nil_r]. Qed.
Lemma mg_gets {A} (f : stack -> A) : mgrows (gets f).
Proof. intros s s' r E. injection E as <- _. split; [auto|exists []; symmetry; apply app_nil_r]. Qed.
Lemma mg_bind {A B} (m : M A) (k : A -> M B) : mgrows m -> (forall a, mgrows (k a)) -> mgrows (x <~ m ;; k x).
Proof.
  intros Hm Hk s s' r E. unfold mbind in E. destruct (m s) as [s1 [a|e]] eqn:E1.
  - destruct (Hm _ _ _ E1) as [S1 (l1 & O1)]. destruct (Hk a _ _ _ E) as [S2 (l2 & O2)]. split; [congruence|].
    exists (l1 ++ l2). rewrite O2, O1, app_assoc. reflexivity.
  - injection E as <- _. eauto.
Qed.
Lemma mg_upd f : (forall s, s_addrs (f s) = s_addrs s /\ exists l, s_out (f s) = s_out s ++ l) -> mgrows (upd f).
Proof. intros H s s' r E. injection E as <- _. auto. Qed.
Lemma mg_assert {A} b (m : M A) : mgrows m -> mgrows (massert b m).
Proof. unfold massert. destruct b; [auto|]. intros _. apply mg_raise. Qed.
Ltac mg := repeat (cbv zeta; match goal with
  | |- mgrows (mbind _ _) => apply mg_bind; [|intros]
  | |- mgrows (ret _) => apply mg_ret
  | |- mgrows (raise _) => apply mg_raise
  | |- mgrows (lift _) => apply mg_lift
  | |- mgrows (gets _) => apply mg_gets
  | |- mgrows (massert _ _) => apply mg_assert
  | |- mgrows (upd (put_out _)) => apply mg_upd; intros; split; [reflexivity|eexists; reflexivity]
  | |- mgrows (upd _) => apply mg_upd; intros; split; [reflexivity|exists []; symmetry; apply app_nil_r]
  | |- mgrows (if ?b then _ else _) => destruct b
  | |- mgrows (match ?x with _ => _ end) => destruct x
  end; auto).
Lemma mg_ether_send a b p : mgrows (ether_send a b p).
Proof. unfold ether_send. mg. Qed.
Lemma mg_phtx_arp a b p : mgrows (phtx_arp a b p).
Proof. unfold phtx_arp. mg. apply mg_ether_send. Qed.
Lemma mg_arp_add a b : mgrows (arp_add a b).
Proof. unfold arp_add. mg. Qed.
Lemma mg_nd_add a b : mgrows (nd_add a b).
Proof. unfold nd_add. mg. Qed.
Lemma mg_arp_find a : mgrows (arp_find a).
Proof. unfold arp_find, send_arp_request. mg. apply mg_phtx_arp. Qed.
Lemma mg_ether_ip4 a b p : mgrows (ether_ip4 a b p).
Proof. unfold ether_ip4. mg; auto using mg_ether_send, mg_arp_find. Qed.
Lemma mg_frags4 a b l : mgrows (send_frags4 a b l).
Proof. induction l as [|[t d] l IH]; cbn [send_frags4]; mg. apply mg_ether_ip4. Qed.
Lemma mg_ip4 a b t p : mgrows (phtx_ip4 a b t p).
Proof. unfold phtx_ip4. mg; auto using mg_ether_ip4, mg_frags4. Qed.
Lemma mg_ether_ip6 f a b p : (forall x, mgrows (f x)) -> mgrows (ether_ip6 f a b p).
Proof. intros H. unfold ether_ip6, nd_find. mg; auto using mg_ether_send. Qed.
Lemma mg_frags6 f n i l : (forall x, mgrows (f x)) -> mgrows (send_frags6 f n i l).
Proof. intros H. induction l; cbn [send_frags6]; mg. Qed.
Lemma mg_ip6_fuel fuel : forall a b h p, mgrows (phtx_ip6_fuel fuel a b h p).
Proof.
  induction fuel; intros; cbn [phtx_ip6_fuel]; [apply mg_raise|]. mg.
  - apply mg_ether_ip6. intros. mg.
  - apply mg_frags6. auto.
Qed.
Lemma mg_ip6 a b h p : mgrows (phtx_ip6 a b h p).
Proof. apply mg_ip6_fuel. Qed.
Lemma mg_icmp6 a b h t : mgrows (phtx_icmp6 a b h t).
Proof. unfold phtx_icmp6. mg. apply mg_ip6. Qed.
Lemma mg_request q : mgrows (send_request q).
Proof.
  destruct q; cbn [send_request]; auto using mg_phtx_arp, mg_ip4, mg_ip6, mg_icmp6.
  - unfold phtx_udp. mg; auto using mg_ip4, mg_ip6.
  - unfold phtx_tcp. mg; auto using mg_ip4, mg_ip6.
  - unfold phtx_icmp4. mg. apply mg_ip4.
Qed.

(** ** receiving leaves the addresses alone *)
(** what an action outside the address lists may do *)
Definition rstep (n n' : node) : Prop :=
  my_addrs n' = my_addrs n /\ n_flows4 n' = n_flows4 n /\ n_flows6 n' = n_flows6 n /\ n_socks n' = n_socks n /\
  n_dad n' = n_dad n /\ exists l, s_out (n_tx n') = s_out (n_tx n) ++ l.
Lemma rstep_refl n : rstep n n.
Proof. unfold rstep. repeat split; auto. exists []. symmetry; apply app_nil_r. Qed.
Lemma rstep_trans a b c : rstep a b -> rstep b c -> rstep a c.
Proof.
  intros (A1 & A2 & A3 & A4 & A5 & l1 & A6) (B1 & B2 & B3 & B4 & B5 & l2 & B6). unfold rstep.
  repeat split; try congruence. exists (l1 ++ l2). rewrite B6, A6, app_assoc. reflexivity.
Qed.
Lemma rstep_tx {A} (m : M A) n n' r : mgrows m -> tx_ m n = (n', r) -> rstep n n'.
Proof.
  intros G E. unfold tx_, rbind', tx in E. destruct (m (n_tx n)) as [t x] eqn:Em. destruct (G _ _ _ Em) as [S O].
  destruct x; injection E as <- _; unfold rstep, my_addrs; cbn; auto 10.
Qed.
(** what it is, when it is not the answer to a probe *)
Lemma effect_step x n n' r : effect x n = (n', r) -> (forall t, x <> RTaken t) -> rstep n n'.
Proof.
  intros E N. destruct x; cbn [effect] in E;
    try (unfold rupd in E; injection E as <- _; unfold rstep, my_addrs; cbn; repeat split; auto; exists []; symmetry; apply app_nil_r).
  - unfold rbind' at 1, rgets in E. unfold rbind' in E. destruct (tx_ (send_request _) n) as [n1 [u|e]] eqn:E1.
    + apply rstep_trans with n1; [eapply rstep_tx; [|exact E1]; apply mg_request|]. eapply rstep_tx; [|exact E]. apply mg_arp_add.
    + injection E as <- _. eapply rstep_tx; [|exact E1]. apply mg_request.
  - eapply rstep_tx; [|exact E]. apply mg_request.
  - unfold rbind' in E. destruct learn as [m|].
    + destruct (tx_ (nd_add src m) n) as [n1 [u|e]] eqn:E1.
      * apply rstep_trans with n1; [eapply rstep_tx; [|exact E1]; apply mg_nd_add|]. eapply rstep_tx; [|exact E]. apply mg_request.
      * injection E as <- _. eapply rstep_tx; [|exact E1]. apply mg_nd_add.
    + cbn [rret] in E. eapply rstep_tx; [|exact E]. apply mg_request.
  - exfalso. eapply N. reflexivity.
Qed.

Definition node_fit (n : node) : Prop := node_ok n /\ socks_ok (n_socks n).
Definition probe_hit (e : node * bytes) : Prop := exists c, answers_probe c e.

Lemma taken_iff n f : (exists n1 t, reacts n f n1 (RTaken t)) <-> probe_hit (n, f).
Proof.
  split.
  - intros (n1 & t & H). inversion H; subst. exists target. split; [assumption|]. unfold advert_for. cbn [fst snd]. eauto 12.
  - intros (c & C & n1 & src & dst & q & r & s & o & opts & I & B). cbn [fst snd] in *.
    exists n1, (nd_tlla opts). eapply re_na_taken; eauto.
Qed.
Lemma taken_dec n f : wf_bytes f -> node_fit n -> probe_hit (n, f) \/ ~ probe_hit (n, f).
Proof.
  intros W (K & N). destruct (phrx_ether f n) as [n' r] eqn:E.
  destruct (Z.eq_dec (n_dad n') (n_dad n + 1)) as [D|D].
  - left. apply taken_iff. destruct (react_total n f n' r W K N E) as [(S & _)|(n1 & x & H & Ex & S & _)].
    + exfalso. destruct S as (_ & _ & _ & _ & S & _). lia.
    + destruct x; eauto; exfalso; apply effect_step in Ex; try discriminate;
        destruct Ex as (_ & _ & _ & _ & X & _); destruct S as (_ & _ & _ & _ & S & _); lia.
  - right. intros H. apply taken_iff in H as (n1 & t & H). destruct (react_run n f n1 _ H W K N) as (S & X).
    rewrite E in X. cbn [effect] in X. unfold rupd in X. injection X as -> _. destruct S as (_ & _ & _ & _ & S & _).
    apply D. cbn. lia.
Qed.
(** one frame *)
Lemma rx_node_step n f : wf_bytes f -> node_fit n ->
  let n' := fst (phrx_ether f n) in
  my_addrs n' = my_addrs n /\ node_fit n' /\
  (exists l, s_out (n_tx n') = s_out (n_tx n) ++ l) /\
  (probe_hit (n, f) -> n_dad n' = n_dad n + 1) /\ (~ probe_hit (n, f) -> n_dad n' = n_dad n).
Proof.
  intros W (K & N) n'. subst n'. destruct (phrx_ether f n) as [n' r] eqn:E. cbn [fst].
  assert (Y : probe_hit (n, f) -> exists n1 t, same_but_flows n n1 /\ n' = set_dad t n1 /\ node_ok n1).
  { intros H. apply taken_iff in H as (n1 & t & H). destruct (react_run n f n1 _ H W K N) as (S & X).
    exists n1, t. split; [exact S|]. split; [rewrite E in X; unfold effect, rupd in X; injection X; auto|].
    inversion H as [| | | | | | | | | | | | | ? ? ? ? ? ? ? ? ? I ? ?| |]; subst. destruct I as (p & ps & R & _).
    destruct (rx6_facts _ _ _ _ R W K) as (_ & K1 & _). exact K1. }
  destruct (taken_dec n f W (conj K N)) as [H|H].
  - destruct (Y H) as (n1 & t & S & -> & K1). destruct S as (S1 & S2 & _ & _ & S3 & _). unfold my_addrs. cbn.
    split; [congruence|]. split; [split; [exact K1|cbn; rewrite S2; exact N]|]. split; [exists []; rewrite S1, app_nil_r; reflexivity|].
    split; intros; [lia|contradiction].
  - destruct (react_total n f n' r W K N E) as [(S & K1 & _)|(n1 & x & Hx & Ex & S & K1)].
    + destruct S as (S1 & S2 & _ & _ & S3 & _). unfold my_addrs.
      split; [congruence|]. split; [split; [exact K1|rewrite S2; exact N]|]. split; [exists []; rewrite S1, app_nil_r; reflexivity|].
      split; intros; [contradiction|lia].
    + apply effect_step in Ex.
      2:{ intros t ->. apply H. apply taken_iff. eauto. }
      destruct S as (S1 & S2 & _ & _ & S3 & _). destruct Ex as (X1 & X2 & X3 & X4 & X5 & l & X6). unfold my_addrs in *.
      split; [congruence|]. split; [split; [|congruence]|].
      { unfold node_ok in *. rewrite X2, X3. exact K1. }
      split; [exists l; congruence|]. split; intros; [contradiction|lia].
Qed.

(** many frames *)
Definition fit (w : world) : Prop := node_fit (w_node w) /\ frames_ok (w_sched w).
Definition logged (a : addrs) (seg : list (node * bytes)) : Prop := Forall (fun e => my_addrs (fst e) = a) seg.
Lemma frame_step f w : wf_bytes f -> fit w ->
  let w' := rx_frame f w in
  w_sched w' = w_sched w /\ w_log w' = w_log w ++ [(w_node w, f)] /\ my_addrs (w_node w') = my_addrs (w_node w) /\ fit w' /\
  (exists l, s_out (n_tx (w_node w')) = s_out (n_tx (w_node w)) ++ l) /\
  (probe_hit (w_node w, f) -> n_dad (w_node w') = n_dad (w_node w) + 1) /\
  (~ probe_hit (w_node w, f) -> n_dad (w_node w') = n_dad (w_node w)).
Proof.
  intros W (K & S). destruct (rx_node_step (w_node w) f W K) as (A & B & C & D & E).
  cbn. unfold fit. cbn. auto 10.
Qed.
Lemma counted_app {A} (P : A -> Prop) l1 k1 l2 k2 : counted P l1 k1 -> counted P l2 k2 -> counted P (l1 ++ l2) (k1 + k2).
Proof.
  induction 1; intros H2; cbn; [exact H2| |].
  - replace (k + 1 + k2) with (k + k2 + 1) by lia. constructor; auto.
  - constructor; auto.
Qed.
Lemma counted_nonneg {A} (P : A -> Prop) l k : counted P l k -> 0 <= k.
Proof. induction 1; lia. Qed.
Lemma counted_pos {A} (P : A -> Prop) l k : counted P l k -> (0 < k <-> exists x, In x l /\ P x).
Proof.
  induction 1 as [|x l k H C IH|x l k H C IH].
  - split; [lia|intros (? & [] & _)].
  - apply counted_nonneg in C. split; [intros _; exists x; cbn; auto|lia].
  - rewrite IH. split; [intros (y & I & Q); exists y; cbn; auto|]. intros (y & [->|I] & Q); [contradiction|eauto].
Qed.
Lemma counted_fun {A} (P : A -> Prop) l k k' : counted P l k -> counted P l k' -> k = k'.
Proof. intros H. revert k'. induction H; inversion 1; subst; try contradiction; auto. f_equal. auto. Qed.
Lemma frames_step l : forall w, Forall wf_bytes l -> fit w ->
  let w' := rx_frames l w in
  exists seg k, w_sched w' = w_sched w /\ w_log w' = w_log w ++ seg /\ logged (my_addrs (w_node w)) seg /\
  my_addrs (w_node w') = my_addrs (w_node w) /\ fit w' /\
  (exists o, s_out (n_tx (w_node w')) = s_out (n_tx (w_node w)) ++ o) /\
  counted probe_hit seg k /\ n_dad (w_node w') = n_dad (w_node w) + k.
Proof.
  induction l as [|f l IH]; intros w Wl Fw; cbn [rx_frames fold_left].
  - exists [], 0. rewrite app_nil_r. split; [auto|]. split; [auto|]. split; [constructor|]. split; [auto|]. split; [auto|].
    split; [exists []; symmetry; apply app_nil_r|]. split; [constructor|lia].
  - inversion Wl as [|? ? Wf Wr]; subst. destruct (frame_step f w Wf Fw) as (A1 & A2 & A3 & A4 & (o1 & A5) & A6 & A7).
    destruct (IH (rx_frame f w) Wr A4) as (seg & k & B1 & B2 & B3 & B4 & B5 & (o2 & B6) & B7 & B8).
    change (fold_left (fun w f => rx_frame f w) l (rx_frame f w)) with (rx_frames l (rx_frame f w)) in *.
    destruct (taken_dec (w_node w) f Wf (proj1 Fw)) as [H|H].
    + exists ((w_node w, f) :: seg), (k + 1). rewrite A1 in B1. rewrite A2, <- app_assoc in B2. rewrite A3 in B3, B4.
      split; [auto|]. split; [auto|]. split; [constructor; auto|]. split; [auto|]. split; [auto|].
      split; [exists (o1 ++ o2); rewrite B6, A5, app_assoc; reflexivity|]. split; [constructor; auto|]. rewrite B8, A6 by auto. lia.
    + exists ((w_node w, f) :: seg), k. rewrite A1 in B1. rewrite A2, <- app_assoc in B2. rewrite A3 in B3, B4.
      split; [auto|]. split; [auto|]. split; [constructor; auto|]. split; [auto|]. split; [auto|].
      split; [exists (o1 ++ o2); rewrite B6, A5, app_assoc; reflexivity|]. split; [constructor; auto|]. rewrite B8, A7 by auto. lia.
Qed.

(** the same without the schedule: what a piece of the run may do to the world *)
Definition moved (w w' : world) (seg : list (node * bytes)) (k : Z) : Prop :=
  w_log w' = w_log w ++ seg /\ logged (my_addrs (w_node w)) seg /\ my_addrs (w_node w') = my_addrs (w_node w) /\ fit w' /\
  (exists o, s_out (n_tx (w_node w')) = s_out (n_tx (w_node w)) ++ o) /\
  counted probe_hit seg k /\ n_dad (w_node w') = n_dad (w_node w) + k.
Lemma moved_trans a b c s1 k1 s2 k2 : moved a b s1 k1 -> moved b c s2 k2 -> moved a c (s1 ++ s2) (k1 + k2).
Proof.
  intros (A1 & A2 & A3 & A4 & (o1 & A5) & A6 & A7) (B1 & B2 & B3 & B4 & (o2 & B5) & B6 & B7).
  unfold moved. rewrite A3 in B2. split; [rewrite B1, A1, app_assoc; auto|]. split; [apply Forall_app; auto|].
  split; [congruence|]. split; [auto|]. split; [exists (o1 ++ o2); rewrite B5, A5, app_assoc; auto|].
  split; [apply counted_app; auto|lia].
Qed.
Lemma fit_advance w : fit w -> fit (advance w) /\ Forall wf_bytes (next_frames w).
Proof.
  intros (K & S). unfold fit, advance, next_frames, frames_ok in *. cbn. destruct (w_sched w); [auto|]. inversion S; subst. auto.
Qed.
Lemma yield_step w w' r : fit w -> yield w = (w', r) -> r = Ok tt /\ exists seg k, moved w w' seg k.
Proof.
  intros F E. unfold yield in E. injection E as <- <-. split; [reflexivity|].
  destruct (fit_advance w F) as (F' & Wl). destruct (frames_step _ _ Wl F') as (seg & k & _ & A). exists seg, k. exact A.
Qed.

(** ** waiting for the answer *)
Lemma fit_on_node g w : fit w -> node_fit (g (w_node w)) -> fit (on_node g w).
Proof. intros (_ & S) K. split; auto. Qed.
Lemma dad_taken_fit n : node_fit n -> node_fit (dad_taken n).
Proof. auto. Qed.
Lemma wait_step l : forall w w' b, Forall wf_bytes l -> fit w -> 0 <= n_dad (w_node w) ->
  wait_sem n_dad dad_taken l w = (w', b) ->
  exists seg k, w_log w' = w_log w ++ seg /\ logged (my_addrs (w_node w)) seg /\ my_addrs (w_node w') = my_addrs (w_node w) /\ fit w' /\
  (exists o, s_out (n_tx (w_node w')) = s_out (n_tx (w_node w)) ++ o) /\
  counted probe_hit seg k /\ b = (0 <? n_dad (w_node w) + k) /\ n_dad (w_node w') = n_dad (w_node w) + k - (if b then 1 else 0).
Proof.
  assert (Pos : forall l w w' b, Forall wf_bytes l -> fit w -> 0 < n_dad (w_node w) ->
    (rx_frames l (on_node dad_taken w), true) = (w', b) ->
    exists seg k, w_log w' = w_log w ++ seg /\ logged (my_addrs (w_node w)) seg /\ my_addrs (w_node w') = my_addrs (w_node w) /\ fit w' /\
    (exists o, s_out (n_tx (w_node w')) = s_out (n_tx (w_node w)) ++ o) /\
    counted probe_hit seg k /\ b = (0 <? n_dad (w_node w) + k) /\ n_dad (w_node w') = n_dad (w_node w) + k - (if b then 1 else 0)).
  { intros l0 w w' b Wl F D E. apply pair_equal_spec in E as [<- <-].
    destruct (frames_step l0 (on_node dad_taken w) Wl (fit_on_node _ _ F (dad_taken_fit _ (proj1 F))))
      as (seg & k & _ & B2 & B3 & B4 & B5 & B6 & B7 & B8).
    exists seg, k. pose proof (counted_nonneg _ _ _ B7). cbn [on_node w_node dad_taken n_dad] in *.
    split; [exact B2|]. split; [exact B3|]. split; [exact B4|]. split; [exact B5|]. split; [exact B6|]. split; [exact B7|]. split; [lia|].
    rewrite B8. lia. }
  induction l as [|f l IH]; intros w w' b Wl F Nn E; cbn [wait_sem] in E; destruct (0 <? n_dad (w_node w)) eqn:D.
  - apply (Pos [] w w' b); auto. lia.
  - injection E as <- <-. exists [], 0. rewrite app_nil_r. split; [auto|]. split; [constructor|]. split; [auto|]. split; [auto|].
    split; [exists []; symmetry; apply app_nil_r|]. split; [constructor|]. lia.
  - apply (Pos (f :: l) w w' b); auto. lia.
  - inversion Wl as [|? ? Wf Wr]; subst. destruct (frame_step f w Wf F) as (A1 & A2 & A3 & A4 & (o1 & A5) & A6 & A7).
    destruct (taken_dec (w_node w) f Wf (proj1 F)) as [H|H].
    + specialize (A6 H). destruct (IH _ _ _ Wr A4 ltac:(lia) E) as (seg & k & B2 & B3 & B4 & B5 & (o2 & B6) & B7 & B8 & B9).
      exists ((w_node w, f) :: seg), (k + 1). rewrite A2, <- app_assoc in B2. rewrite A3 in B3, B4.
      split; [auto|]. split; [constructor; auto|]. split; [auto|]. split; [auto|].
      split; [exists (o1 ++ o2); rewrite B6, A5, app_assoc; reflexivity|]. split; [constructor; auto|].
      rewrite A6 in B8, B9. split; [rewrite B8; f_equal; lia|]. lia.
    + specialize (A7 H). destruct (IH _ _ _ Wr A4 ltac:(lia) E) as (seg & k & B2 & B3 & B4 & B5 & (o2 & B6) & B7 & B8 & B9).
      exists ((w_node w, f) :: seg), k. rewrite A2, <- app_assoc in B2. rewrite A3 in B3, B4.
      split; [auto|]. split; [constructor; auto|]. split; [auto|]. split; [auto|].
      split; [exists (o1 ++ o2); rewrite B6, A5, app_assoc; reflexivity|]. split; [constructor; auto|].
      rewrite A7 in B8, B9. auto.
Qed.

(** ** statements of the acquisition thread *)
Lemma ok_inj {A} (x y : A) : Ok x = Ok y -> x = y.
Proof. congruence. Qed.
Lemma wbind_ok {A B} (m : W A) (k : A -> W B) w w' b : wbind m k w = (w', Ok b) ->
  exists w1 a, m w = (w1, Ok a) /\ k a w1 = (w', Ok b).
Proof. unfold wbind. destruct (m w) as [w1 [a|e]]; [eauto|discriminate]. Qed.
Lemma rbind_ok {A B} (m : R A) (k : A -> R B) n n' b : rbind' m k n = (n', Ok b) ->
  exists n1 a, m n = (n1, Ok a) /\ k a n1 = (n', Ok b).
Proof. unfold rbind'. destruct (m n) as [n1 [a|e]]; [eauto|discriminate]. Qed.
Lemma act_inv {A} (m : R A) w w' r : act m w = (w', r) ->
  m (w_node w) = (w_node w', r) /\ w_sched w' = w_sched w /\ w_log w' = w_log w.
Proof. unfold act. destruct (m (w_node w)) as [n x]. intros E. apply pair_equal_spec in E as [<- <-]. auto. Qed.

(** an action that leads to the addresses [a] *)
Definition rsteps (a : addrs) (n n' : node) : Prop :=
  my_addrs n' = a /\ n_flows4 n' = n_flows4 n /\ n_flows6 n' = n_flows6 n /\ n_socks n' = n_socks n /\
  n_dad n' = n_dad n /\ exists l, s_out (n_tx n') = s_out (n_tx n) ++ l.
Lemma rsteps_trans a b n1 n2 n3 : rsteps a n1 n2 -> rsteps b n2 n3 -> rsteps b n1 n3.
Proof.
  intros (A1 & A2 & A3 & A4 & A5 & l1 & A6) (B1 & B2 & B3 & B4 & B5 & l2 & B6). unfold rsteps.
  repeat split; try congruence. exists (l1 ++ l2). rewrite B6, A6, app_assoc. reflexivity.
Qed.
Lemma rstep_rsteps n n' : rstep n n' -> rsteps (my_addrs n) n n'.
Proof. auto. Qed.
Lemma rsteps_set g n : rsteps (g (my_addrs n)) n (set_my g n).
Proof. unfold rsteps, my_addrs. cbn. repeat split. exists []. symmetry. apply app_nil_r. Qed.
Lemma rsteps_fit a n n' : rsteps a n n' -> node_fit n -> node_fit n'.
Proof. intros (_ & A & B & C & _) (K & S). unfold node_fit, node_ok. rewrite A, B, C. auto. Qed.
Lemma act_fit {A} (m : R A) w w' r a : act m w = (w', r) -> rsteps a (w_node w) (w_node w') -> fit w -> fit w'.
Proof.
  intros E S (K & F). apply act_inv in E as (_ & E & _). split; [eapply rsteps_fit; eauto|]. rewrite E. exact F.
Qed.

Lemma group_ok c : 0 <= c < 2 ^ 128 ->
  ip6_solicited_node_multicast c = Ok (solicited_node c) /\ 0 <= solicited_node c < 2 ^ 128 /\
  ip6_is_multicast (solicited_node c) = true.
Proof.
  intros H. destruct (solicited_node_spec c H) as (g & E & G & R & _ & M).
  assert (g = solicited_node c) by (rewrite G; reflexivity). subst g. rewrite E, H0 in *. auto.
Qed.
Lemma send_mld_step n n' r : send_mld n = (n', r) -> rsteps (my_addrs n) n n'.
Proof.
  unfold send_mld, rbind' at 1, rgets. destruct (mld_records _).
  - unfold rret. intros E. injection E as <- _. apply rstep_rsteps, rstep_refl.
  - intros E. apply rstep_rsteps. eapply rstep_tx; [|exact E]. apply mg_icmp6.
Qed.
(** the address lists with one group more *)
Definition joined (g : Z) (a : addrs) : addrs :=
  with_mac_mcast (a_mac_mcast a ++ [group_mac g]) (with_mcast6 (a_mcast6 a ++ [g]) a).
Lemma assign_mcast_step g n n' r : 0 <= g < 2 ^ 128 -> ip6_is_multicast g = true -> assign_mcast6 g n = (n', r) ->
  rsteps (joined g (my_addrs n)) n n'.
Proof.
  intros H M. unfold assign_mcast6, rbind' at 1, rupd. unfold rbind' at 1, rlift. rewrite multicast_mac6_eq by auto.
  unfold rbind' at 1. intros E. apply send_mld_step in E.
  eapply rsteps_trans; [|].
  - apply rsteps_set.
  - eapply rsteps_trans; [apply rsteps_set|exact E].
Qed.
Lemma remove_mcast_step g n n' : 0 <= g < 2 ^ 128 -> ip6_is_multicast g = true -> remove_mcast6 g n = (n', Ok tt) ->
  exists l k, list_remove Z.eqb g (a_mcast6 (my_addrs n)) = Some l /\
    list_remove Z.eqb (group_mac g) (a_mac_mcast (my_addrs n)) = Some k /\
    rsteps (with_mac_mcast k (with_mcast6 l (my_addrs n))) n n'.
Proof.
  intros H M. unfold remove_mcast6, rbind' at 1, rgets. unfold rbind' at 1, rlift.
  destruct (list_remove Z.eqb g _) as [l|]; [|discriminate]. unfold rbind' at 1, rupd. unfold rbind' at 1.
  rewrite multicast_mac6_eq by auto. unfold rbind' at 1. fold (group_mac g).
  destruct (list_remove Z.eqb (group_mac g) _) as [k|] eqn:Ek; [|discriminate].
  intros E. injection E as <-. exists l, k. split; [reflexivity|]. split; [reflexivity|].
  eapply rsteps_trans; apply rsteps_set.
Qed.
Lemma remove_mcast_total g n n' r l k : 0 <= g < 2 ^ 128 -> ip6_is_multicast g = true ->
  list_remove Z.eqb g (a_mcast6 (my_addrs n)) = Some l -> list_remove Z.eqb (group_mac g) (a_mac_mcast (my_addrs n)) = Some k ->
  remove_mcast6 g n = (n', r) -> r = Ok tt.
Proof.
  intros H M El Ek. unfold remove_mcast6, rbind' at 1, rgets. unfold rbind' at 1, rlift. rewrite El. unfold rbind' at 1, rupd. unfold rbind' at 1.
  rewrite multicast_mac6_eq by auto. unfold rbind' at 1. fold (group_mac g). rewrite Ek. intros E. injection E as _ <-. reflexivity.
Qed.
Lemma remove_perm {A} (eqb : A -> A -> bool) x l r : list_remove eqb x l = Some r ->
  exists y, eqb x y = true /\ Permutation l (y :: r).
Proof.
  revert r. induction l as [|y l IH]; cbn; intros r E; [discriminate|]. destruct (eqb x y) eqn:X.
  - injection E as <-. exists y. split; [auto|reflexivity].
  - destruct (list_remove eqb x l) as [r'|]; [|discriminate]. injection E as <-. destruct (IH r' eq_refl) as (z & Z1 & Z2).
    exists z. split; [auto|]. rewrite Z2. apply perm_swap.
Qed.
Lemma remove_in {A} (eqb : A -> A -> bool) x l : (exists y, In y l /\ eqb x y = true) -> exists r, list_remove eqb x l = Some r.
Proof.
  induction l as [|y l IH]; cbn; intros (z & I & E); [destruct I|]. destruct (eqb x y) eqn:X; [eauto|].
  destruct I as [->|I]; [congruence|]. destruct IH as (r & ->); eauto.
Qed.

(** ** one probe *)
Lemma moved_act {A} (m : R A) w w' r a : act m w = (w', r) -> rsteps a (w_node w) (w_node w') -> fit w ->
  fit w' /\ my_addrs (w_node w') = a /\ n_dad (w_node w') = n_dad (w_node w) /\ w_log w' = w_log w /\
  exists o, s_out (n_tx (w_node w')) = s_out (n_tx (w_node w)) ++ o.
Proof.
  intros E S F. pose proof (act_fit _ _ _ _ _ E S F). apply act_inv in E as (_ & _ & E).
  destruct S as (A1 & _ & _ & _ & A5 & A6). auto.
Qed.
Lemma counted_none seg k a : counted probe_hit seg k -> logged a seg -> a_cand6 a = None -> k = 0.
Proof.
  induction 1 as [|x l k (c & C & _) H IH|x l k H C IH]; intros L N; inversion L; subst; auto.
  exfalso. destruct x as [m f]. cbn [fst] in *. congruence.
Qed.
Lemma counted_some c seg k : counted probe_hit seg k ->
  Forall (fun e => a_cand6 (my_addrs (fst e)) = None \/ a_cand6 (my_addrs (fst e)) = Some c) seg -> counted (answers_probe c) seg k.
Proof.
  induction 1 as [|x l k (c' & C & D) H IH|x l k H C IH]; intros L; inversion L as [|? ? La Lb]; subst; constructor; auto.
  - assert (c' = c) by (destruct La; congruence). subst. split; auto.
  - intros X. apply H. exists c. exact X.
Qed.
(** what a frame finds in the address lists while [c] is probed *)
Definition during (a : addrs) (c : Z) (e : node * bytes) : Prop :=
  let m := my_addrs (fst e) in
  m = a \/ m = joined (solicited_node c) a \/ m = with_cand6 (Some c) (joined (solicited_node c) a).
Lemma with_cand6_same a : a_cand6 a = None -> with_cand6 None a = a.
Proof. destruct a. unfold with_cand6. cbn. intros ->. reflexivity. Qed.
Lemma logged_impl (P : node * bytes -> Prop) a seg : (forall e, my_addrs (fst e) = a -> P e) -> logged a seg -> Forall P seg.
Proof. intros H L. eapply Forall_impl; [|exact L]. intros e X. apply H. exact X. Qed.
Lemma nd_dad_step c w w' v : 0 <= c < 2 ^ 128 -> fit w -> a_cand6 (my_addrs (w_node w)) = None -> 0 <= n_dad (w_node w) ->
  nd_dad c w = (w', Ok v) ->
  let a := my_addrs (w_node w) in
  exists seg k l m, w_log w' = w_log w ++ seg /\ Forall (during a c) seg /\ counted (answers_probe c) seg k /\
    v = negb (0 <? n_dad (w_node w) + k) /\
    n_dad (w_node w') = n_dad (w_node w) + k - (if v then 0 else 1) /\ fit w' /\
    list_remove Z.eqb (solicited_node c) (a_mcast6 a ++ [solicited_node c]) = Some l /\
    list_remove Z.eqb (group_mac (solicited_node c)) (a_mac_mcast a ++ [group_mac (solicited_node c)]) = Some m /\
    my_addrs (w_node w') = with_mac_mcast m (with_mcast6 l a) /\
    exists o, s_out (n_tx (w_node w')) = s_out (n_tx (w_node w)) ++ o.
Proof.
  intros Hc F C Nn E a. change (a_cand6 a = None) in C. destruct (group_ok c Hc) as (Eg & Hg & Mg). set (g := solicited_node c) in *.
  unfold nd_dad in E. rewrite Eg in E.
  apply wbind_ok in E as (w0 & g' & E0 & E). apply act_inv in E0 as (E0 & S0 & L0). cbn [rlift] in E0.
  apply pair_equal_spec in E0 as [N0 G0]. apply ok_inj in G0. subst g'.
  assert (W0 : w0 = w) by (destruct w, w0; cbn in *; congruence). clear N0 S0 L0. subst w0.
  apply wbind_ok in E as (w1 & u1 & E1 & E). destruct (yield_step _ _ _ F E1) as (_ & s1 & k1 & M1). clear E1.
  destruct M1 as (L1 & G1 & A1 & F1 & (o1 & O1) & K1 & D1).
  apply wbind_ok in E as (w2 & u2 & E2 & E). pose proof (act_inv _ _ _ _ E2) as (E2' & _).
  apply assign_mcast_step in E2'; auto. destruct (moved_act _ _ _ _ _ E2 E2' F1) as (F2 & A2 & D2 & L2 & o2 & O2). clear E2 E2'.
  rewrite A1 in A2. fold a in A1, A2, G1.
  apply wbind_ok in E as (w3 & u3 & E3 & E). destruct (yield_step _ _ _ F2 E3) as (_ & s3 & k3 & M3). clear E3.
  destruct M3 as (L3 & G3 & A3 & F3 & (o3 & O3) & K3 & D3). rewrite A2 in A3, G3.
  apply wbind_ok in E as (w4 & u4 & E4 & E). pose proof (act_inv _ _ _ _ E4) as (E4' & _). unfold rupd in E4'.
  apply pair_equal_spec in E4' as [E4' _].
  assert (R4 : rsteps (with_cand6 (Some c) (my_addrs (w_node w3))) (w_node w3) (w_node w4)) by (rewrite <- E4'; apply rsteps_set).
  destruct (moved_act _ _ _ _ _ E4 R4 F3) as (F4 & A4 & D4 & L4 & o4 & O4). clear E4 E4' R4. rewrite A3 in A4.
  apply wbind_ok in E as (w5 & u5 & E5 & E). destruct (yield_step _ _ _ F4 E5) as (_ & s5 & k5 & M5). clear E5.
  destruct M5 as (L5 & G5 & A5 & F5 & (o5 & O5) & K5 & D5). rewrite A4 in A5, G5.
  apply wbind_ok in E as (w6 & u6 & E6 & E). pose proof (act_inv _ _ _ _ E6) as (E6' & _).
  assert (R6 : rsteps (my_addrs (w_node w5)) (w_node w5) (w_node w6)).
  { unfold send_dad, rbind' at 1, rlift in E6'. rewrite Eg in E6'. apply rstep_rsteps. eapply rstep_tx; [|exact E6']. apply mg_icmp6. }
  destruct (moved_act _ _ _ _ _ E6 R6 F5) as (F6 & A6 & D6 & L6 & o6 & O6). clear E6 E6' R6. rewrite A5 in A6.
  apply wbind_ok in E as (w7 & b & E7 & E).
  unfold acquire in E7. destruct (wait_sem n_dad dad_taken (next_frames w6) (advance w6)) as [w7' b'] eqn:E7'.
  apply pair_equal_spec in E7 as [X7 Y7]. apply ok_inj in Y7. subst w7' b'.
  destruct (fit_advance w6 F6) as (F6' & W6).
  pose proof (counted_nonneg _ _ _ K1) as P1. pose proof (counted_nonneg _ _ _ K3) as P3. pose proof (counted_nonneg _ _ _ K5) as P5.
  apply (wait_step _ _ _ _ W6 F6') in E7'; [|cbn [advance w_node]; lia].
  destruct E7' as (s7 & k7 & L7 & G7 & A7 & F7 & (o7 & O7) & K7 & B7 & D7). cbn [advance w_node w_log] in *. rewrite A6 in A7, G7.
  apply wbind_ok in E as (w8 & u8 & E8 & E). pose proof (act_inv _ _ _ _ E8) as (E8' & _). unfold rupd in E8'.
  apply pair_equal_spec in E8' as [E8' _].
  assert (R8 : rsteps (with_cand6 None (my_addrs (w_node w7))) (w_node w7) (w_node w8)) by (rewrite <- E8'; apply rsteps_set).
  destruct (moved_act _ _ _ _ _ E8 R8 F7) as (F8 & A8 & D8 & L8 & o8 & O8). clear E8 E8' R8. rewrite A7 in A8.
  assert (A8' : my_addrs (w_node w8) = joined g a).
  { rewrite A8. unfold joined, with_cand6, with_mcast6, with_mac_mcast. cbn. rewrite C. reflexivity. }
  clear A8. rename A8' into A8.
  apply wbind_ok in E as (w9 & u9 & E9 & E). destruct (yield_step _ _ _ F8 E9) as (_ & s9 & k9 & M9). clear E9.
  destruct M9 as (L9 & G9 & A9 & F9 & (o9 & O9) & K9 & D9). rewrite A8 in A9, G9.
  apply wbind_ok in E as (w10 & u10 & E10 & E). pose proof (act_inv _ _ _ _ E10) as (E10' & _). destruct u10.
  apply remove_mcast_step in E10' as (l & m & El & Em & E10'); auto.
  destruct (moved_act _ _ _ _ _ E10 E10' F9) as (F10 & A10 & D10 & L10 & o10 & O10). clear E10 E10'.
  rewrite A9 in El, Em, A10. unfold wret in E. apply pair_equal_spec in E as [<- E]. apply ok_inj in E. subst v.
  assert (Z1 : k1 = 0) by (eapply counted_none; eauto).
  assert (Z3 : k3 = 0) by (eapply counted_none; [exact K3|exact G3|exact C]).
  assert (Z9 : k9 = 0) by (eapply counted_none; [exact K9|exact G9|exact C]).
  exists (s1 ++ s3 ++ s5 ++ s7 ++ s9), (k5 + k7), l, m.
  assert (Du : Forall (during a c) (s1 ++ s3 ++ s5 ++ s7 ++ s9)).
  { unfold during. fold g. apply Forall_app. split; [eapply logged_impl; [|exact G1]; cbv zeta; auto|].
    apply Forall_app. split; [eapply logged_impl; [|exact G3]; cbv zeta; auto|].
    apply Forall_app. split; [eapply logged_impl; [|exact G5]; cbv zeta; auto|].
    apply Forall_app. split; [eapply logged_impl; [|exact G7]; cbv zeta; auto|].
    eapply logged_impl; [|exact G9]; cbv zeta; auto. }
  split; [rewrite L10, L9, L8, L7, L6, L5, L4, L3, L2, L1, !app_assoc; reflexivity|].
  split; [exact Du|].
  split.
  { apply counted_some.
    - replace (k5 + k7) with (k1 + (k3 + (k5 + (k7 + k9)))) by lia. auto using counted_app.
    - eapply Forall_impl; [|exact Du]. intros e [X|[X|X]]; rewrite X; cbn; auto. }
  assert (Dn : n_dad (w_node w6) = n_dad (w_node w) + k5) by lia.
  split; [rewrite B7, Dn; f_equal; f_equal; lia|].
  split; [rewrite D10, D9, D8, D7, Dn, Z9; destruct b; cbn; lia|].
  split; [exact F10|]. split; [exact El|]. split; [exact Em|].
  split; [rewrite A10; reflexivity|].
  exists (o1 ++ o2 ++ o3 ++ o4 ++ o5 ++ o6 ++ o7 ++ o8 ++ o9 ++ o10). rewrite O10, O9, O8, O7, O6, O5, O4, O3, O2, O1, !app_assoc. reflexivity.
Qed.

(** ** claiming *)
Lemma assign_host_step h n n' r : 0 <= h_addr h < 2 ^ 128 -> assign_host6 h n = (n', r) ->
  rsteps (joined (solicited_node (h_addr h)) (with_host6 (a_host6 (my_addrs n) ++ [h]) (my_addrs n))) n n'.
Proof.
  intros H. destruct (group_ok _ H) as (Eg & Hg & Mg). unfold assign_host6, rbind' at 1, rupd. unfold rbind' at 1, rlift. rewrite Eg.
  intros E. apply assign_mcast_step in E; [|exact Hg|exact Mg]. eapply rsteps_trans; [apply rsteps_set|exact E].
Qed.
Lemma not_answered c seg a : logged a seg -> a_cand6 a = None -> counted (answers_probe c) seg 0.
Proof.
  induction seg as [|e seg IH]; intros L N; inversion L; subst; [constructor|]. apply cnt_no; [|auto].
  intros (X & _). congruence.
Qed.
Lemma claim_step h w w' : 0 <= h_addr h < 2 ^ 128 -> fit w -> a_cand6 (my_addrs (w_node w)) = None -> 0 <= n_dad (w_node w) ->
  claim6 h w = (w', Ok tt) ->
  exists seg k, w_log w' = w_log w ++ seg /\ counted (answers_probe (h_addr h)) seg k /\
    let ok := negb (0 <? n_dad (w_node w) + k) in
    a_host6 (my_addrs (w_node w')) = a_host6 (my_addrs (w_node w)) ++ (if ok then [h] else []) /\
    n_dad (w_node w') = n_dad (w_node w) + k - (if ok then 0 else 1) /\ fit w' /\ a_cand6 (my_addrs (w_node w')) = None.
Proof.
  intros H F C Nn E. unfold claim6 in E. apply wbind_ok in E as (w1 & v & E1 & E).
  destruct (nd_dad_step _ _ _ _ H F C Nn E1) as (s1 & k1 & l & m & L1 & _ & K1 & V1 & D1 & F1 & _ & _ & A1 & _). clear E1.
  apply wbind_ok in E as (w2 & u2 & E2 & E). destruct (yield_step _ _ _ F1 E2) as (_ & s2 & k2 & L2 & G2 & A2 & F2 & _ & K2 & D2). clear E2.
  assert (C1 : a_cand6 (my_addrs (w_node w1)) = None) by (rewrite A1; exact C).
  assert (k2 = 0) by (eapply counted_none; eauto).
  exists (s1 ++ s2), k1. rewrite <- V1. cbv zeta.
  assert (K : counted (answers_probe (h_addr h)) (s1 ++ s2) k1).
  { replace k1 with (k1 + 0) by lia. apply counted_app; [exact K1|]. eapply not_answered; eauto. }
  assert (A : my_addrs (w_node w2) = with_mac_mcast m (with_mcast6 l (my_addrs (w_node w)))) by congruence.
  destruct v.
  - pose proof (act_inv _ _ _ _ E) as (E' & _). apply assign_host_step in E'; auto.
    destruct (moved_act _ _ _ _ _ E E' F2) as (F3 & A3 & D3 & L3 & _).
    split; [rewrite L3, L2, L1, app_assoc; reflexivity|]. split; [exact K|]. split; [rewrite A3, A; reflexivity|].
    split; [lia|]. split; [exact F3|]. rewrite A3, A. exact C.
  - unfold wret in E. injection E as <-. split; [rewrite L2, L1, app_assoc; reflexivity|]. split; [exact K|].
    split; [rewrite A, app_nil_r; reflexivity|]. split; [lia|]. split; [exact F2|]. rewrite A. exact C.
Qed.
Definition cands_ok (l : list (host * bool * list (node * bytes))) : Prop := Forall (fun x => 0 <= h_addr (fst (fst x)) < 2 ^ 128) l.
Lemma claiming_step w h ok seg w1 : 0 <= h_addr h < 2 ^ 128 -> fit w -> a_cand6 (my_addrs (w_node w)) = None -> 0 <= n_dad (w_node w) ->
  claim6 h w = (w1, Ok tt) -> w_log w1 = w_log w ++ seg ->
  a_host6 (my_addrs (w_node w1)) = a_host6 (my_addrs (w_node w)) ++ (if ok : bool then [h] else []) ->
  exists k, counted (answers_probe (h_addr h)) seg k /\ ok = negb (0 <? n_dad (w_node w) + k) /\
    n_dad (w_node w1) = n_dad (w_node w) + k - (if ok then 0 else 1) /\ fit w1 /\ a_cand6 (my_addrs (w_node w1)) = None.
Proof.
  intros H F C Nn E L A. destruct (claim_step _ _ _ H F C Nn E) as (seg' & k & L' & K & A' & D & F' & C').
  rewrite L' in L. apply app_inv_head in L. subst seg'. rewrite A' in A. apply app_inv_head in A. exists k. split; [exact K|].
  assert (X : ok = negb (0 <? n_dad (w_node w) + k)) by (destruct ok, (negb _); auto; discriminate).
  split; [exact X|]. rewrite <- X in D. auto.
Qed.
Lemma claiming_count p : forall w h ok seg r w', cands_ok (p ++ (h, ok, seg) :: r) -> fit w -> a_cand6 (my_addrs (w_node w)) = None ->
  0 <= n_dad (w_node w) -> claiming w (p ++ (h, ok, seg) :: r) w' ->
  exists hits rej k, tally p hits rej /\ counted (answers_probe (h_addr h)) seg k /\ (ok = false <-> rej < n_dad (w_node w) + hits + k) /\
    (ok = false <-> 0 < n_dad (w_node w) + hits - rej + k) /\ 0 <= n_dad (w_node w) + hits - rej.
Proof.
  induction p as [|[[h0 ok0] seg0] p IH]; intros w h ok seg r w' Cs F C Nn H; inversion H as [|? ? ? ? w1 ? ? E L A H1]; subst;
    inversion Cs as [|? ? Ca Cb]; subst; cbn [fst] in Ca;
    destruct (claiming_step _ _ _ _ _ Ca F C Nn E L A) as (k & K & O & D & F' & C').
  - exists 0, 0, k. split; [constructor|]. split; [exact K|]. rewrite O. destruct (0 <? n_dad (w_node w) + k) eqn:X; cbn; repeat split; intros; try lia; try discriminate.
  - pose proof (counted_nonneg _ _ _ K). assert (N1 : 0 <= n_dad (w_node w1)).
    { rewrite D. destruct ok0; [lia|]. symmetry in O. apply negb_false_iff in O. lia. }
    destruct (IH w1 h ok seg r w' Cb F' C' N1 H1) as (hits & rej & k' & T & K' & X & Y & Z1).
    exists (k + hits), ((if ok0 then 0 else 1) + rej), k'. split; [constructor; auto|]. split; [exact K'|]. rewrite D in X, Y, Z1.
    split; [rewrite X; lia|]. split; [rewrite Y; lia|lia].
Qed.
Lemma claiming_single p : forall w h ok seg r w', cands_ok (p ++ (h, ok, seg) :: r) -> fit w -> quiet (w_node w) ->
  (forall h ok seg k, In (h, ok, seg) p -> counted (answers_probe (h_addr h)) seg k -> k <= 1) ->
  claiming w (p ++ (h, ok, seg) :: r) w' ->
  (ok = false <-> exists e, In e seg /\ answers_probe (h_addr h) e).
Proof.
  induction p as [|[[h0 ok0] seg0] p IH]; intros w h ok seg r w' Cs F (C & Q) S H; inversion H as [|? ? ? ? w1 ? ? E L A H1]; subst;
    inversion Cs as [|? ? Ca Cb]; subst; cbn [fst] in Ca;
    destruct (claiming_step _ _ _ _ _ Ca F C ltac:(lia) E L A) as (k & K & O & D & F' & C').
  - rewrite <- (counted_pos _ _ _ K), O, Q. destruct (0 <? 0 + k) eqn:X; cbn; split; intros; try lia; try discriminate; auto.
  - eapply (IH w1); eauto.
    + split; [exact C'|]. pose proof (S h0 ok0 seg0 k (or_introl eq_refl) K). pose proof (counted_nonneg _ _ _ K).
      rewrite Q in O, D. destruct ok0; symmetry in O; [apply negb_true_iff in O|apply negb_false_iff in O]; lia.
    + intros h1 ok1 seg1 k1 I. apply (S h1 ok1 seg1 k1). right. exact I.
Qed.
Lemma claiming_heard w l w' h ok seg : cands_ok l -> fit w -> quiet (w_node w) -> claiming w l w' -> In (h, ok, seg) l ->
  (exists e, In e seg /\ answers_probe (h_addr h) e) -> ok = false.
Proof.
  intros Cs F (C & Q) H I Hd. apply in_split in I as (p & r & ->).
  destruct (claiming_count p w h ok seg r w' Cs F C ltac:(lia) H) as (hits & rej & k & _ & K & _ & Y & Z1).
  apply Y. apply (counted_pos _ _ _ K) in Hd. lia.
Qed.

(** ** the multicast filters *)
Definition minv (k : nat) (a : addrs) : Prop :=
  Permutation (a_mcast6 a) (repeat all_nodes k ++ map (fun h => solicited_node (h_addr h)) (a_host6 a)) /\
  Permutation (a_mac_mcast a) (map group_mac (a_mcast6 a)) /\
  Forall (fun h => 0 <= h_addr h < 2 ^ 128) (a_host6 a).
Lemma minv_join_all k a : minv k a -> minv (S k) (joined all_nodes a).
Proof.
  intros (A & B & C). unfold minv. cbn. split; [|split; [|exact C]].
  - rewrite <- A. symmetry. apply Permutation_cons_append.
  - rewrite map_app. apply Permutation_app; auto.
Qed.
Lemma minv_assign k a h : 0 <= h_addr h < 2 ^ 128 -> minv k a ->
  minv k (joined (solicited_node (h_addr h)) (with_host6 (a_host6 a ++ [h]) a)).
Proof.
  intros H (A & B & C). unfold minv. cbn. split; [|split].
  - rewrite map_app, app_assoc. apply Permutation_app; auto.
  - rewrite map_app. apply Permutation_app; auto.
  - apply Forall_app. auto.
Qed.
Lemma host_eqb_addr x y : host_eqb x y = true -> h_addr x = h_addr y.
Proof. unfold host_eqb. lia. Qed.
Lemma zremove_perm x l r : list_remove Z.eqb x l = Some r -> Permutation l (x :: r).
Proof. intros E. apply remove_perm in E as (y & X & P). apply Z.eqb_eq in X. subst. exact P. Qed.
Lemma minv_remove k a h hs l m : minv k a -> list_remove host_eqb h (a_host6 a) = Some hs ->
  list_remove Z.eqb (solicited_node (h_addr h)) (a_mcast6 a) = Some l ->
  list_remove Z.eqb (group_mac (solicited_node (h_addr h))) (a_mac_mcast a) = Some m ->
  minv k (with_mac_mcast m (with_mcast6 l (with_host6 hs a))).
Proof.
  intros (A & B & C) Eh El Em. apply remove_perm in Eh as (h' & Eq & Ph). apply host_eqb_addr in Eq. apply zremove_perm in El, Em.
  unfold minv. cbn. split; [|split].
  - apply (Permutation_cons_inv (a := solicited_node (h_addr h))). rewrite <- El, A.
    rewrite (Permutation_map (fun h => solicited_node (h_addr h)) Ph). cbn. rewrite Eq.
    symmetry. apply Permutation_middle.
  - apply (Permutation_cons_inv (a := group_mac (solicited_node (h_addr h)))). rewrite <- Em, B, (Permutation_map group_mac El). reflexivity.
  - eapply Permutation_Forall in C; [|exact Ph]. inversion C; auto.
Qed.
Lemma minv_probe k a c l m : minv k a ->
  list_remove Z.eqb (solicited_node c) (a_mcast6 a ++ [solicited_node c]) = Some l ->
  list_remove Z.eqb (group_mac (solicited_node c)) (a_mac_mcast a ++ [group_mac (solicited_node c)]) = Some m ->
  Permutation l (a_mcast6 a) /\ Permutation m (a_mac_mcast a) /\ minv k (with_mac_mcast m (with_mcast6 l a)).
Proof.
  intros (A & B & C) El Em. apply zremove_perm in El, Em. rewrite Permutation_app_comm in El, Em. cbn in El, Em.
  apply Permutation_cons_inv in El, Em.
  split; [symmetry; exact El|]. split; [symmetry; exact Em|]. unfold minv. cbn.
  split; [rewrite <- El; exact A|]. split; [rewrite <- Em, <- El; exact B|exact C].
Qed.
(** and what is removed is there *)
Lemma remove_host_step h n n' r k : 0 <= h_addr h < 2 ^ 128 -> minv k (my_addrs n) -> remove_host6 h n = (n', r) ->
  match list_remove host_eqb h (a_host6 (my_addrs n)) with
  | None => n' = n /\ r = Exn ValueError
  | Some hs => r = Ok tt /\ exists l m, minv k (with_mac_mcast m (with_mcast6 l (with_host6 hs (my_addrs n)))) /\
      rsteps (with_mac_mcast m (with_mcast6 l (with_host6 hs (my_addrs n)))) n n'
  end.
Proof.
  intros H V. destruct (group_ok _ H) as (Eg & Hg & Mg). unfold remove_host6, rbind' at 1, rgets. unfold rbind' at 1, rlift.
  destruct (list_remove host_eqb h _) as [hs|] eqn:Eh; [|intros E; injection E as <- <-; auto].
  unfold rbind' at 1, rupd. unfold rbind' at 1. rewrite Eg. intros E.
  set (n1 := set_my (with_host6 hs) n) in *. set (a := my_addrs n) in *.
  assert (A1 : my_addrs n1 = with_host6 hs a) by reflexivity.
  destruct (remove_perm _ _ _ _ Eh) as (h' & Eq & Ph). apply host_eqb_addr in Eq.
  assert (I1 : In (solicited_node (h_addr h)) (a_mcast6 a)).
  { destruct V as (V & _). apply Permutation_sym in V. eapply Permutation_in; [exact V|]. apply in_or_app. right. rewrite Eq.
    apply in_map_iff. exists h'. split; [auto|]. eapply Permutation_in; [symmetry; exact Ph|]. cbn. auto. }
  assert (I2 : In (group_mac (solicited_node (h_addr h))) (a_mac_mcast a)).
  { destruct V as (_ & V & _). eapply Permutation_in; [symmetry; exact V|]. apply in_map. exact I1. }
  destruct (remove_in Z.eqb (solicited_node (h_addr h)) (a_mcast6 a)) as (l & El); [eexists; split; [exact I1|apply Z.eqb_refl]|].
  destruct (remove_in Z.eqb (group_mac (solicited_node (h_addr h))) (a_mac_mcast a)) as (m & Em); [eexists; split; [exact I2|apply Z.eqb_refl]|].
  assert (R : r = Ok tt) by (eapply (remove_mcast_total _ n1); eauto). subst r. split; [reflexivity|].
  apply remove_mcast_step in E as (l' & m' & El' & Em' & S); auto.
  change (a_mcast6 (my_addrs n1)) with (a_mcast6 a) in El'. change (a_mac_mcast (my_addrs n1)) with (a_mac_mcast a) in Em'.
  rewrite El in El'. rewrite Em in Em'. injection El' as <-. injection Em' as <-. exists l, m.
  split; [eapply minv_remove; eauto|]. eapply rsteps_trans; [|exact S]. apply rsteps_set.
Qed.

(** histories *)
Definition held (h : host) (l : list host) : nat := length (filter (host_eqb h) l).
Lemma held_perm h l l' : Permutation l l' -> held h l = held h l'.
Proof.
  unfold held. induction 1; cbn; auto.
  - destruct (host_eqb h x); cbn; auto.
  - destruct (host_eqb h x), (host_eqb h y); cbn; auto.
  - congruence.
Qed.
Lemma host_eqb_trans h x y : host_eqb x y = true -> host_eqb h y = host_eqb h x.
Proof. unfold host_eqb. intros E. apply andb_true_iff in E as [A B]. apply Z.eqb_eq in A, B. rewrite A, B. reflexivity. Qed.
Lemma held_remove x l h : held h (match list_remove host_eqb x l with Some r => r | None => l end) =
  if host_eqb h x then pred (held h l) else held h l.
Proof.
  destruct (list_remove host_eqb x l) as [r|] eqn:E.
  - apply remove_perm in E as (y & Y & P). rewrite (held_perm h _ _ P). unfold held. cbn. rewrite (host_eqb_trans h x y Y).
    destruct (host_eqb h x); reflexivity.
  - destruct (host_eqb h x) eqn:X; [|reflexivity]. enough (held h l = O) by lia. unfold held.
    revert E. induction l as [|y l IH]; cbn; [auto|]. destruct (host_eqb x y) eqn:Y; [discriminate|].
    destruct (list_remove host_eqb x l); [discriminate|]. intros _.
    replace (host_eqb h y) with false; [auto|]. symmetry. unfold host_eqb in *. lia.
Qed.
Lemma held_in h l : (0 < held h l)%nat <-> exists x, In x l /\ host_eqb h x = true.
Proof.
  unfold held. split.
  - intros H. destruct (filter (host_eqb h) l) as [|x r] eqn:E; [cbn in H; lia|]. exists x.
    apply filter_In. rewrite E. cbn. auto.
  - intros (x & I & X). assert (Hi : In x (filter (host_eqb h) l)) by (apply filter_In; auto). destruct (filter _ _); [destruct Hi|cbn; lia].
Qed.
Definition follows (mac : Z) (hist : list mop) (w : world) : Prop :=
  fit w /\ a_cand6 (my_addrs (w_node w)) = None /\ 0 <= n_dad (w_node w) /\ a_mac (my_addrs (w_node w)) = mac /\
  (exists k, minv k (my_addrs (w_node w)) /\ (k = O <-> ~ In MAllNodes hist)) /\
  forall h, held h (a_host6 (my_addrs (w_node w))) = times h hist.
Lemma all_nodes_ok : 0 <= all_nodes < 2 ^ 128 /\ ip6_is_multicast all_nodes = true.
Proof. split; [unfold all_nodes; lia|reflexivity]. Qed.
Lemma mop_step mac hist o w w' r : op_ok o -> follows mac hist w -> mop_do o w = (w', r) ->
  ((exists c, o = MProbe c) -> r = Ok tt) -> follows mac (o :: hist) w'.
Proof.
  intros Ho (F & C & Nn & Em & (k & V & K0) & T) E Pr. destruct o; cbn [mop_do] in E; cbn [op_ok] in Ho.
  - pose proof (act_inv _ _ _ _ E) as (E' & _). apply assign_mcast_step in E'; [|apply all_nodes_ok|apply all_nodes_ok].
    destruct (moved_act _ _ _ _ _ E E' F) as (F' & A & D & _). unfold follows. rewrite A, D.
    split; [exact F'|]. split; [exact C|]. split; [exact Nn|]. split; [exact Em|]. split; [|exact T].
    exists (S k). split; [apply minv_join_all; exact V|]. split; [discriminate|intros X; exfalso; apply X; left; reflexivity].
  - pose proof (act_inv _ _ _ _ E) as (E' & _). apply assign_host_step in E'; [|auto].
    destruct (moved_act _ _ _ _ _ E E' F) as (F' & A & D & _). unfold follows. rewrite A, D.
    split; [exact F'|]. split; [exact C|]. split; [exact Nn|]. split; [exact Em|]. split.
    + exists k. split; [apply minv_assign; auto|]. rewrite K0. cbn. split; [intros X [Y|Y]; [discriminate|auto]|auto].
    + intros x. cbn. unfold held. rewrite filter_app, app_length. fold (held x (a_host6 (my_addrs (w_node w)))). rewrite T. cbn.
      unfold same_host, host_eqb. destruct (_ && _); cbn; lia.
  - pose proof (act_inv _ _ _ _ E) as (E' & Es & El). apply (remove_host_step _ _ _ _ k) in E'; [|auto|auto].
    pose proof (held_remove h (a_host6 (my_addrs (w_node w)))) as HR.
    destruct (list_remove host_eqb h _) as [hs|] eqn:Eh.
    + destruct E' as (-> & l & m & V' & S). destruct (moved_act _ _ _ _ _ E S F) as (F' & A & D & _). unfold follows. rewrite A, D.
      split; [exact F'|]. split; [exact C|]. split; [exact Nn|]. split; [exact Em|]. split.
      * exists k. split; [exact V'|]. rewrite K0. cbn. split; [intros X [Y|Y]; [discriminate|auto]|auto].
      * intros x. cbn [with_mac_mcast with_mcast6 with_host6 a_host6 times]. rewrite HR, T. reflexivity.
    + destruct E' as (En & ->). unfold follows. rewrite En.
      split; [split; [rewrite En; apply F|rewrite Es; apply F]|]. split; [exact C|]. split; [exact Nn|]. split; [exact Em|]. split.
      * exists k. split; [exact V|]. rewrite K0. cbn. split; [intros X [Y|Y]; [discriminate|auto]|auto].
      * intros x. cbn [times]. rewrite HR, T. reflexivity.
  - rewrite Pr in E by eauto. apply wbind_ok in E as (w1 & v & E1 & E). unfold wret in E. injection E as <-.
    destruct (nd_dad_step _ _ _ _ Ho F C Nn E1) as (s1 & k1 & l & m & _ & _ & K1 & V1 & D1 & F1 & El & Ek & A1 & _).
    apply counted_nonneg in K1. destruct (minv_probe _ _ _ _ _ V El Ek) as (_ & _ & V').
    unfold follows. rewrite A1, D1. split; [exact F1|]. split; [exact C|].
    split; [destruct v; [lia|symmetry in V1; apply negb_false_iff in V1; lia]|]. split; [exact Em|]. split; [|exact T].
    exists k. split; [exact V'|]. rewrite K0. cbn. split; [intros X [Y|Y]; [discriminate|auto]|auto].
  - destruct (yield_step _ _ _ F E) as (_ & s2 & k2 & _ & _ & A2 & F2 & _ & K2 & D2). apply counted_nonneg in K2.
    unfold follows. rewrite A2, D2. split; [exact F2|]. split; [exact C|]. split; [lia|]. split; [exact Em|]. split; [|exact T].
    exists k. split; [exact V|]. rewrite K0. cbn. split; [intros X [Y|Y]; [discriminate|auto]|auto].
Qed.
Lemma mop_run_follows mac l : forall hist w w' rs, Forall op_ok l -> follows mac hist w -> mop_run l w = (w', rs) ->
  Forall2 (fun o r => (exists c, o = MProbe c) -> r = Ok tt) l rs -> follows mac (rev l ++ hist) w'.
Proof.
  induction l as [|o l IH]; intros hist w w' rs Ho H E P; cbn [mop_run] in E.
  - injection E as <- <-. exact H.
  - destruct (mop_do o w) as [w1 x] eqn:E1. destruct (mop_run l w1) as [w2 xs] eqn:E2. apply pair_equal_spec in E as [-> <-].
    inversion Ho; subst. inversion P; subst. cbn [rev]. rewrite <- app_assoc. cbn.
    eapply IH; [assumption| |exact E2|assumption]. eapply mop_step; eauto.
Qed.
Lemma follows_filters mac hist w : follows mac hist w ->
  let a := my_addrs (w_node w) in
  (forall x, our_ip6 a x <-> (x = all_nodes /\ In MAllNodes hist) \/
     exists y, assigned hist y /\ (x = y \/ x = solicited_node y)) /\
  (forall m, our_mac a m <-> m = mac \/ m = 2 ^ 48 - 1 \/ (m = 0x333300000001 /\ In MAllNodes hist) \/
     exists y, assigned hist y /\ m = 0x3333FF000000 + y mod 2 ^ 24).
Proof.
  intros (_ & _ & _ & Em & (k & (V1 & V2 & V3) & K0) & T) a. fold a in Em, V1, V2, V3, T.
  assert (As : forall y, assigned hist y <-> exists h, In h (a_host6 a) /\ h_addr h = y).
  { intros y. unfold assigned. split.
    - intros (h & <- & X). rewrite <- T in X. apply held_in in X as (x & I & E). exists x. split; [auto|]. apply host_eqb_addr in E. auto.
    - intros (h & I & <-). exists h. split; [auto|]. rewrite <- T. apply held_in. exists h. split; [auto|]. unfold host_eqb. lia. }
  assert (Rp : forall x, In x (repeat all_nodes k) <-> x = all_nodes /\ In MAllNodes hist).
  { intros x. split.
    - intros I. pose proof (repeat_spec _ _ _ I). subst. split; [auto|]. destruct (in_dec (fun a b : mop => ltac:(repeat decide equality)) MAllNodes hist); [auto|].
      apply K0 in n. subst k. destruct I.
    - intros (-> & I). destruct k; [exfalso; apply K0; auto|cbn; auto]. }
  assert (M6 : forall x, In x (a_mcast6 a) <-> (x = all_nodes /\ In MAllNodes hist) \/ exists y, assigned hist y /\ x = solicited_node y).
  { intros x. transitivity (In x (repeat all_nodes k ++ map (fun h => solicited_node (h_addr h)) (a_host6 a))).
    - split; apply Permutation_in; [exact V1|symmetry; exact V1].
    - rewrite in_app_iff, Rp, in_map_iff. apply or_iff_compat_l. split.
      + intros (h & <- & I). exists (h_addr h). split; [apply As; eauto|auto].
      + intros (y & A & ->). apply As in A as (h & I & <-). eauto. }
  split.
  - intros x. unfold our_ip6. rewrite M6. split.
    + intros [(h & I & ->)|[X|(y & A & ->)]]; [right; exists (h_addr h); split; [apply As; eauto|auto]|auto|right; eauto].
    + intros [X|(y & A & [->| ->])]; [auto| |right; right; eauto]. left. apply As in A as (h & I & <-). eauto.
  - intros m. unfold our_mac. rewrite Em. assert (Mm : In m (a_mac_mcast a) <-> exists x, In x (a_mcast6 a) /\ m = group_mac x).
    { transitivity (In m (map group_mac (a_mcast6 a))).
      - split; apply Permutation_in; [exact V2|symmetry; exact V2].
      - rewrite in_map_iff. split; intros (x & A & B); exists x; auto. }
    rewrite Mm. assert (G : forall y, group_mac (solicited_node y) = 0x3333FF000000 + y mod 2 ^ 24).
    { intros y. unfold group_mac, solicited_node. pose proof (Z.mod_pos_bound y (2 ^ 24) ltac:(lia)).
      replace (0xFF02 * 2 ^ 112 + 0x1FF000000 + y mod 2 ^ 24) with (0xFF000000 + y mod 2 ^ 24 + (0xFF02 * 2 ^ 80 + 1) * 2 ^ 32) by lia.
      rewrite Z.mod_add, Z.mod_small by lia. lia. }
    split.
    + intros [->|[(x & I & ->)| ->]]; auto. apply M6 in I as [(-> & I)|(y & A & ->)].
      * right. right. left. auto.
      * right. right. right. exists y. rewrite G. auto.
    + intros [->|[->|[[-> I]|[y [A ->]]]]]; auto; right; left.
      * exists all_nodes. split; [apply M6; auto|reflexivity].
      * exists (solicited_node y). split; [apply M6; eauto|symmetry; apply G].
Qed.
Lemma filters_history w l w' rs : fit w -> quiet (w_node w) ->
  a_host6 (my_addrs (w_node w)) = [] -> a_mcast6 (my_addrs (w_node w)) = [] -> a_mac_mcast (my_addrs (w_node w)) = [] ->
  Forall op_ok l -> mop_run l w = (w', rs) ->
  Forall2 (fun o r => (exists c, o = MProbe c) -> r = Ok tt) l rs ->
  let a := my_addrs (w_node w') in let hist := rev l in
  (forall x, our_ip6 a x <-> (x = all_nodes /\ In MAllNodes l) \/
     exists y, assigned hist y /\ (x = y \/ x = solicited_node y)) /\
  (forall m, our_mac a m <-> m = a_mac (my_addrs (w_node w)) \/ m = 2 ^ 48 - 1 \/ (m = 0x333300000001 /\ In MAllNodes l) \/
     exists y, assigned hist y /\ m = 0x3333FF000000 + y mod 2 ^ 24).
Proof.
  intros F (C & Q) H6 G6 M6 Ho E P a hist.
  assert (Fo : follows (a_mac (my_addrs (w_node w))) [] w).
  { split; [exact F|]. split; [exact C|]. split; [lia|]. split; [reflexivity|]. split.
    - exists O. unfold minv. rewrite H6, G6, M6. cbn. split; [auto|]. tauto.
    - intros h. rewrite H6. reflexivity. }
  pose proof (mop_run_follows _ _ _ _ _ _ Ho Fo E P) as X. rewrite app_nil_r in X.
  apply follows_filters in X as (X & Y). fold a hist in X, Y. split.
  - intros x. rewrite X. unfold hist. rewrite <- in_rev. reflexivity.
  - intros m. rewrite Y. unfold hist. rewrite <- in_rev. reflexivity.
Qed.
(** while [c] is probed its group is listened to, and no other is lost *)
Lemma filters_probe c w w' v : 0 <= c < 2 ^ 128 -> fit w -> quiet (w_node w) -> nd_dad c w = (w', Ok v) ->
  exists seg, w_log w' = w_log w ++ seg /\ forall m f, In (m, f) seg -> a_cand6 (my_addrs m) = Some c ->
    (forall x, our_ip6 (my_addrs m) x <-> our_ip6 (my_addrs (w_node w)) x \/ x = solicited_node c) /\
    (forall x, our_mac (my_addrs m) x <-> our_mac (my_addrs (w_node w)) x \/ x = group_mac (solicited_node c)).
Proof.
  intros H F (C & Q) E. destruct (nd_dad_step _ _ _ _ H F C ltac:(lia) E) as (seg & k & l & m & L & Du & _).
  exists seg. split; [exact L|]. intros m0 f I Cm. rewrite Forall_forall in Du. specialize (Du _ I). unfold during in Du. cbn [fst] in Du.
  destruct Du as [X|[X|X]]; rewrite X in *; [congruence|cbn in Cm; congruence|].
  unfold our_ip6, our_mac. cbn. split; intros x; rewrite in_app_iff; cbn; intuition.
Qed.

(** ** IPv4 *)
Lemma subseq_refl {A} (l : list A) : subseq l l.
Proof. induction l; constructor; auto. Qed.
Lemma subseq_skips {A} (o l l' : list A) : subseq l l' -> subseq l (o ++ l').
Proof. intros H. induction o; cbn; [auto|constructor; auto]. Qed.
Lemma subseq_app {A} (a b c d : list A) : subseq a b -> subseq c d -> subseq (a ++ c) (b ++ d).
Proof. induction 1; intros Hs; cbn; [apply subseq_skips; auto|constructor; auto|constructor; auto]. Qed.
(** a run that sends [fs] and whatever the receive thread sends *)
Definition sends (w w' : world) (a : addrs) (fs : list oframe) : Prop :=
  fit w' /\ my_addrs (w_node w') = a /\ (exists seg, w_log w' = w_log w ++ seg) /\
  exists o, s_out (n_tx (w_node w')) = s_out (n_tx (w_node w)) ++ o /\ subseq fs o.
Lemma sends_trans w1 w2 w3 a b f1 f2 : sends w1 w2 a f1 -> sends w2 w3 b f2 -> sends w1 w3 b (f1 ++ f2).
Proof.
  intros (_ & _ & (s1 & A2) & o1 & A3 & A4) (B0 & B1 & (s2 & B2) & o2 & B3 & B4). split; [auto|]. split; [auto|].
  split; [exists (s1 ++ s2); rewrite B2, A2, app_assoc; auto|]. exists (o1 ++ o2). split; [rewrite B3, A3, app_assoc; auto|].
  apply subseq_app; auto.
Qed.
Lemma sends_refl w : fit w -> sends w w (my_addrs (w_node w)) [].
Proof. intros F. split; [auto|]. split; [auto|]. split; [exists []; rewrite app_nil_r; auto|]. exists []. rewrite app_nil_r. split; [auto|constructor]. Qed.
Lemma sends_yield w w' r : fit w -> yield w = (w', r) -> r = Ok tt /\ sends w w' (my_addrs (w_node w)) [].
Proof.
  intros F E. destruct (yield_step _ _ _ F E) as (-> & s & k & A & _ & B & C & (o & D) & _). split; [auto|]. split; [auto|]. split; [auto|].
  split; [eauto|]. exists o. split; [auto|constructor].
Qed.
Lemma sends_act {A} (m : R A) w w' r a fs : fit w -> act m w = (w', r) -> rsteps a (w_node w) (w_node w') ->
  s_out (n_tx (w_node w')) = s_out (n_tx (w_node w)) ++ fs -> sends w w' a fs.
Proof.
  intros F E S O. destruct (moved_act _ _ _ _ _ E S F) as (F' & B & _ & L & _). split; [auto|]. split; [auto|].
  split; [exists []; rewrite app_nil_r; auto|]. exists fs. split; [auto|apply subseq_refl].
Qed.
Lemma arp_out mac spa tpa n : a_sup4 (my_addrs n) = true -> a_mac (my_addrs n) = mac ->
  exists n', tx_ (phtx_arp mac mac_broadcast {| a_oper := ARP_OP_REQUEST; a_sha := mac; a_spa := spa; a_tha := 0; a_tpa := tpa |}) n = (n', Ok tt) /\
    rsteps (my_addrs n) n n' /\
    s_out (n_tx n') = s_out (n_tx n) ++ [{| f_dst := 2 ^ 48 - 1; f_src := mac;
      f_pkt := NArp {| a_oper := 1; a_sha := mac; a_spa := spa; a_tha := 0; a_tpa := tpa |} |}].
Proof.
  intros S M. eexists. split; [|split].
  - unfold tx_, rbind', tx, phtx_arp, mbind at 1, gets. change (s_addrs (n_tx n)) with (my_addrs n). rewrite S. cbn [negb].
    unfold massert. cbn [a_oper]. change ((ARP_OP_REQUEST =? ARP_OP_REQUEST) || (ARP_OP_REQUEST =? ARP_OP_REPLY)) with true. cbv iota.
    change (mac_is_unspecified mac_broadcast) with false. cbn [negb]. unfold ether_send, mbind, gets, upd, ret, rret. reflexivity.
  - unfold rsteps, my_addrs. cbn. repeat split. eauto.
  - cbn. change (s_addrs (n_tx n)) with (my_addrs n). f_equal. f_equal. f_equal. rewrite M. destruct (mac_is_unspecified mac); reflexivity.
Qed.
Lemma wbind_run {A B} (m : W A) (k : A -> W B) w w1 a w2 r : m w = (w1, Ok a) -> k a w1 = (w2, r) -> wbind m k w = (w2, r).
Proof. unfold wbind. intros ->. auto. Qed.
Lemma probe_round_run l : forall w, fit w -> a_sup4 (my_addrs (w_node w)) = true ->
  exists w', probe_round l w = (w', Ok tt) /\
    sends w w' (my_addrs (w_node w)) (map (probe_frame (a_mac (my_addrs (w_node w)))) l).
Proof.
  induction l as [|ip l IH]; intros w F S.
  - exists w. split; [reflexivity|apply sends_refl; auto].
  - destruct (yield w) as [w1 r1] eqn:E1. destruct (sends_yield _ _ _ F E1) as (-> & S1).
    destruct S1 as (F1 & A1 & S1). assert (Sup1 : a_sup4 (my_addrs (w_node w1)) = true) by congruence.
    destruct (arp_out _ 0 ip (w_node w1) Sup1 eq_refl) as (n2 & E2 & R2 & O2).
    destruct (act (send_arp_probe ip) w1) as [w2 r2] eqn:E2'.
    assert (X : w_node w2 = n2 /\ r2 = Ok tt).
    { apply act_inv in E2' as (E2' & _). unfold send_arp_probe, rbind' at 1, rgets in E2'. rewrite E2 in E2'. injection E2' as <- <-. auto. }
    destruct X as (<- & ->). pose proof (sends_act _ _ _ _ _ _ F1 E2' R2 O2) as S2.
    destruct S2 as (F2 & A2 & S2).
    destruct (IH w2 F2 ltac:(congruence)) as (w3 & E3 & S3). exists w3. split.
    + cbn [probe_round]. eapply wbind_run; [exact E1|]. eapply wbind_run; [exact E2'|exact E3].
    + rewrite A2, A1 in S3. change (map (probe_frame (a_mac (my_addrs (w_node w)))) (ip :: l)) with
        ([] ++ [probe_frame (a_mac (my_addrs (w_node w))) ip] ++ map (probe_frame (a_mac (my_addrs (w_node w)))) l).
      eapply sends_trans; [exact (conj F1 (conj A1 S1))|]. eapply sends_trans; [|exact S3]. rewrite <- A1. exact (conj F2 (conj A2 S2)).
Qed.
Fixpoint copies {A} (k : nat) (l : list A) : list A := match k with O => [] | S k => l ++ copies k l end.
Lemma probe_rounds_run k : forall w, fit w -> a_sup4 (my_addrs (w_node w)) = true ->
  exists w', probe_rounds k w = (w', Ok tt) /\
    sends w w' (my_addrs (w_node w)) (copies k (map (probe_frame (a_mac (my_addrs (w_node w)))) (map h_addr (a_cand4 (my_addrs (w_node w)))))).
Proof.
  induction k as [|k IH]; intros w F S.
  - exists w. split; [reflexivity|apply sends_refl; auto].
  - destruct (probe_round_run (map h_addr (a_cand4 (my_addrs (w_node w)))) w F S) as (w1 & E1 & F1 & A1 & S1).
    destruct (yield w1) as [w2 r2] eqn:E2. destruct (sends_yield _ _ _ F1 E2) as (-> & F2 & A2 & S2).
    destruct (IH w2 F2 ltac:(congruence)) as (w3 & E3 & S3). exists w3. split.
    + cbn [probe_rounds]. eapply (wbind_run _ _ w w); [unfold act, rgets; destruct w; reflexivity|].
      eapply wbind_run; [exact E1|]. eapply wbind_run; [exact E2|exact E3].
    + rewrite A2, A1 in S3. cbn [copies]. eapply sends_trans; [exact (conj F1 (conj A1 S1))|].
      change (copies k (map (probe_frame (a_mac (my_addrs (w_node w)))) (map h_addr (a_cand4 (my_addrs (w_node w))))))
        with ([] ++ copies k (map (probe_frame (a_mac (my_addrs (w_node w)))) (map h_addr (a_cand4 (my_addrs (w_node w)))))).
      eapply sends_trans; [exact (conj F2 (conj A2 S2))|exact S3].
Qed.
Lemma host_eqb_refl h : host_eqb h h = true.
Proof. unfold host_eqb. lia. Qed.
Lemma claim_all4_run l : forall w, fit w -> a_sup4 (my_addrs (w_node w)) = true -> a_cand4 (my_addrs (w_node w)) = l ->
  exists w', claim_all4 l w = (w', Ok tt) /\
    sends w w' (with_cand4 [] (with_host4 (a_host4 (my_addrs (w_node w)) ++ l) (my_addrs (w_node w))))
      (map (announce_frame (a_mac (my_addrs (w_node w)))) (map h_addr l)).
Proof.
  induction l as [|h l IH]; intros w F S C.
  - exists w. split; [reflexivity|]. replace (with_cand4 _ _) with (my_addrs (w_node w)); [apply sends_refl; auto|].
    rewrite app_nil_r. destruct (my_addrs (w_node w)); cbn in *; subst; reflexivity.
  - destruct (yield w) as [w1 r1] eqn:E1. destruct (sends_yield _ _ _ F E1) as (-> & F1 & A1 & S1).
    set (a := my_addrs (w_node w)) in *.
    pose (n2 := set_my (with_cand4 l) (w_node w1)). pose (w2 := {| w_node := n2; w_sched := w_sched w1; w_log := w_log w1 |}).
    assert (E2 : act (rupd (set_my (with_cand4 l))) w1 = (w2, Ok tt)) by reflexivity.
    assert (A2' : rsteps (with_cand4 l a) (w_node w1) (w_node w2)) by (rewrite <- A1; apply rsteps_set).
    assert (O2 : s_out (n_tx (w_node w2)) = s_out (n_tx (w_node w1)) ++ []) by (rewrite app_nil_r; reflexivity).
    pose proof (sends_act _ _ _ _ _ _ F1 E2 A2' O2) as (F2 & A2 & S2).
    pose (n3 := set_my (fun a => with_host4 (a_host4 a ++ [h]) a) n2). pose (w3 := {| w_node := n3; w_sched := w_sched w2; w_log := w_log w2 |}).
    assert (E3 : act (rupd (set_my (fun a => with_host4 (a_host4 a ++ [h]) a))) w2 = (w3, Ok tt)) by reflexivity.
    assert (A3' : rsteps (with_host4 (a_host4 a ++ [h]) (with_cand4 l a)) (w_node w2) (w_node w3)).
    { pose proof (rsteps_set (fun a => with_host4 (a_host4 a ++ [h]) a) n2) as X. change (my_addrs n2) with (my_addrs (w_node w2)) in X. rewrite A2 in X. exact X. }
    assert (O3 : s_out (n_tx (w_node w3)) = s_out (n_tx (w_node w2)) ++ []) by (rewrite app_nil_r; reflexivity).
    pose proof (sends_act _ _ _ _ _ _ F2 E3 A3' O3) as (F3 & A3 & S3).
    destruct (arp_out (a_mac a) (h_addr h) (h_addr h) (w_node w3) ltac:(rewrite A3; exact S) ltac:(rewrite A3; reflexivity)) as (n4 & E4 & R4 & O4).
    destruct (act (send_arp_announcement (h_addr h)) w3) as [w4 r4] eqn:E4'.
    assert (X : w_node w4 = n4 /\ r4 = Ok tt).
    { apply act_inv in E4' as (E4' & _). unfold send_arp_announcement, rbind' at 1, rgets in E4'. rewrite A3 in E4'. cbn [a_mac with_host4 with_cand4] in E4'.
      rewrite E4 in E4'. injection E4' as <- <-. auto. }
    destruct X as (<- & ->). rewrite A3 in R4. pose proof (sends_act _ _ _ _ _ _ F3 E4' R4 O4) as (F4 & A4 & S4).
    destruct (IH w4 F4 ltac:(rewrite A4; exact S) ltac:(rewrite A4; reflexivity)) as (w5 & E5 & S5). exists w5. split.
    + cbn [claim_all4]. eapply wbind_run; [exact E1|]. eapply (wbind_run _ _ w1 w1); [unfold act, rgets; destruct w1; reflexivity|].
      eapply (wbind_run _ _ w1 w1 l).
      { unfold act, rlift. rewrite A1, C. cbn [list_remove]. rewrite host_eqb_refl. destruct w1; reflexivity. }
      eapply wbind_run; [exact E2|]. eapply wbind_run; [|exact E5].
      change (mem (h_addr h) self_conflict) with false. cbv iota. eapply wbind_run; [exact E3|exact E4'].
    + rewrite A4 in S5. cbn [a_mac with_host4 with_cand4 a_host4] in S5. rewrite <- app_assoc in S5. cbn [map].
      change (announce_frame (a_mac a) (h_addr h) :: map (announce_frame (a_mac a)) (map h_addr l))
        with ([] ++ [] ++ [] ++ [announce_frame (a_mac a) (h_addr h)] ++ map (announce_frame (a_mac a)) (map h_addr l)).
      eapply sends_trans; [exact (conj F1 (conj A1 S1))|]. eapply sends_trans; [exact (conj F2 (conj A2 S2))|].
      eapply sends_trans; [exact (conj F3 (conj A3 S3))|]. eapply sends_trans; [exact (conj F4 (conj A4 S4))|exact S5].
Qed.
Lemma create_ip4_run w : fit w -> a_sup4 (my_addrs (w_node w)) = true ->
  let a := my_addrs (w_node w) in
  exists w', create_ip4 w = (w', Ok tt) /\
    sends w w' (with_sup4 (match a_host4 a ++ a_cand4 a with [] => false | _ => true end)
                 (with_cand4 [] (with_host4 (a_host4 a ++ a_cand4 a) a)))
      (copies 3 (map (probe_frame (a_mac a)) (map h_addr (a_cand4 a))) ++ map (announce_frame (a_mac a)) (map h_addr (a_cand4 a))).
Proof.
  intros F S a. change (a_sup4 a = true) in S. destruct (probe_rounds_run 3 w F S) as (w1 & E1 & F1 & A1 & S1). fold a in A1, S1.
  destruct (claim_all4_run (a_cand4 a) w1 F1 ltac:(rewrite A1; exact S) ltac:(rewrite A1; reflexivity)) as (w2 & E2 & F2 & A2 & S2). rewrite A1 in A2, S2.
  destruct (yield w2) as [w3 r3] eqn:E3. destruct (sends_yield _ _ _ F2 E3) as (-> & F3 & A3 & S3). rewrite A2 in A3.
  set (b := with_cand4 [] (with_host4 (a_host4 a ++ a_cand4 a) a)) in *.
  assert (Run : forall w' r, match a_host4 b with [] => act (rupd (set_my (with_sup4 false))) | _ => wret tt end w3 = (w', r) -> create_ip4 w = (w', r)).
  { intros w' r E. unfold create_ip4. eapply wbind_run; [exact E1|]. eapply (wbind_run _ _ w1 w1 (a_cand4 a)).
    { unfold act, rgets. rewrite A1. destruct w1; reflexivity. }
    eapply wbind_run; [exact E2|]. eapply wbind_run; [exact E3|]. eapply (wbind_run _ _ w3 w3 b).
    { unfold act, rgets. rewrite A3. destruct w3; reflexivity. }
    exact E. }
  cbn [b with_cand4 with_host4 a_host4] in Run.
  assert (T3 : sends w w3 b (copies 3 (map (probe_frame (a_mac a)) (map h_addr (a_cand4 a))) ++ map (announce_frame (a_mac a)) (map h_addr (a_cand4 a)) ++ [])).
  { eapply sends_trans; [exact (conj F1 (conj A1 S1))|]. eapply sends_trans; [exact (conj F2 (conj A2 S2))|exact (conj F3 (conj A3 S3))]. }
  rewrite app_nil_r in T3.
  destruct (a_host4 a ++ a_cand4 a) eqn:Hn.
  - destruct (act (rupd (set_my (with_sup4 false))) w3) as [w4 r4] eqn:E4.
    assert (R4 : rsteps (with_sup4 false b) (w_node w3) (w_node w4) /\ r4 = Ok tt /\ s_out (n_tx (w_node w4)) = s_out (n_tx (w_node w3)) ++ []).
    { apply act_inv in E4 as (E4 & _). unfold rupd in E4. apply pair_equal_spec in E4 as [<- <-]. rewrite <- A3. split; [apply rsteps_set|].
      rewrite app_nil_r. auto. }
    destruct R4 as (R4 & -> & O4). exists w4. split; [apply Run; reflexivity|].
    pose proof (sends_act _ _ _ _ _ _ F3 E4 R4 O4) as S4. pose proof (sends_trans _ _ _ _ _ _ _ T3 S4) as S5. rewrite app_nil_r in S5. exact S5.
  - exists w3. split; [apply Run; reflexivity|]. replace (with_sup4 true _) with b; [exact T3|].
    unfold b. destruct a; cbn in *. rewrite S. reflexivity.
Qed.

Lemma create_ip4_outcome w : fit w -> a_sup4 (my_addrs (w_node w)) = true ->
  let a := my_addrs (w_node w) in let mac := a_mac a in let ips := map h_addr (a_cand4 a) in
  exists w' o, create_ip4 w = (w', Ok tt) /\
    let b := my_addrs (w_node w') in
    a_host4 b = a_host4 a ++ a_cand4 a /\ a_cand4 b = [] /\ (a_sup4 b = false <-> a_host4 b = []) /\
    a_host6 b = a_host6 a /\ a_sup6 b = a_sup6 a /\ a_mac b = mac /\
    s_out (n_tx (w_node w')) = s_out (n_tx (w_node w)) ++ o /\
    subseq (map (probe_frame mac) ips ++ map (probe_frame mac) ips ++ map (probe_frame mac) ips ++ map (announce_frame mac) ips) o.
Proof.
  intros F S a mac ips. destruct (create_ip4_run w F S) as (w' & E & _ & A & _ & o & O & Q). fold a in A, Q. fold mac ips in Q.
  exists w', o. split; [exact E|]. cbv zeta. rewrite A. cbn. split; [auto|]. split; [auto|]. split.
  { destruct (a_host4 a ++ a_cand4 a); split; intros; auto; discriminate. }
  repeat (split; [auto|]). cbn [copies] in Q. rewrite app_nil_r, <- !app_assoc in Q. exact Q.
Qed.
Lemma claiming_tally w p h ok seg r w' : cands_ok (p ++ (h, ok, seg) :: r) -> fit w -> quiet (w_node w) ->
  claiming w (p ++ (h, ok, seg) :: r) w' ->
  exists hits rej k, tally p hits rej /\ counted (answers_probe (h_addr h)) seg k /\ (ok = false <-> rej < hits + k).
Proof.
  intros Cs F (C & Q) H. destruct (claiming_count p w h ok seg r w' Cs F C ltac:(lia) H) as (hits & rej & k & T & K & X & _).
  exists hits, rej, k. split; [exact T|]. split; [exact K|]. rewrite X, Q. reflexivity.
Qed.
