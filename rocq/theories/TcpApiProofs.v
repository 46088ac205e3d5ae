(** The sockets and sessions of a stack, through all histories. *)
From Verif Require Import Base BaseLemmas AddrModel TcpModel StackModel StackRxModel UdpApiModel SessModel TcpApiModel SpecSess SpecTcpApi UdpApiProofs SessProofs SessTrace SessHand SessFork.

Lemma upd_same {A} i (v : A) f : upd i v f i = v.
Proof. unfold upd. rewrite Nat.eqb_refl. reflexivity. Qed.
Lemma upd_other {A} i j (v : A) f : j <> i -> upd i v f j = f j.
Proof. intros N. unfold upd. destruct (Nat.eqb_spec j i); congruence. Qed.
Lemma filter_one f n j : f j = true -> (j < n)%nat -> (forall i, (i < n)%nat -> f i = true -> i = j) -> filter f (seq 0 n) = [j].
Proof.
  intros J L U. replace n with (j + S (n - S j))%nat by lia. rewrite seq_app, filter_app. cbn [seq filter Nat.add]. rewrite J.
  assert (Z : forall a b, (a + b <= n)%nat -> ~ (a <= j < a + b)%nat -> filter f (seq a b) = []).
  { intros a b. revert a. induction b as [|b IH]; intros a L1 L2; [reflexivity|]. cbn [seq filter]. destruct (f a) eqn:F; [exfalso; apply U in F; lia|]. apply IH; lia. }
  rewrite (Z 0%nat j), (Z (S j)) by lia. reflexivity.
Qed.
Lemma filter_none {A} f (l : list A) : (forall x, In x l -> f x = false) -> filter f l = [].
Proof. induction l as [|x l IH]; intros H; [reflexivity|]. cbn. rewrite (H x) by (left; reflexivity). apply IH. intros y Y. apply H. right. exact Y. Qed.
Lemma fsm_eqb_iff a b : fsm_eqb a b = true <-> a = b.
Proof. split; [destruct a, b; try discriminate; reflexivity|intros ->; destruct b; reflexivity]. Qed.

Lemma comp_none q w w' : (forall j, (j < tw_nsess w)%nat -> st (tw_sess w j) = SYN_RCVD -> st (tw_sess w' j) = ESTABLISHED -> False) -> completions q w w' = [].
Proof.
  intros H. unfold completions. rewrite filter_none; [reflexivity|]. intros j J. apply in_seq in J. apply not_true_is_false. rewrite !andb_true_iff, !fsm_eqb_iff. intros ((A & B) & _). apply (H j); auto; lia.
Qed.
Lemma comp_one q j w w' : (j < tw_nsess w)%nat -> st (tw_sess w j) = SYN_RCVD -> st (tw_sess w' j) = ESTABLISHED ->
  (forall i, (i < tw_nsess w)%nat -> i <> j -> tw_sess w' i = tw_sess w i) ->
  completions q w w' = if comes_from q (tw_sock w' (tw_owner w' j)) then [tw_owner w' j] else [].
Proof.
  intros L A B O. unfold completions. destruct (comes_from q (tw_sock w' (tw_owner w' j))) eqn:C.
  - rewrite (filter_one _ _ j); [reflexivity| |exact L|].
    + rewrite A, B, C. reflexivity.
    + intros i I F. rewrite !andb_true_iff, !fsm_eqb_iff in F. destruct F as ((F1 & F2) & _). destruct (Nat.eq_dec i j) as [|N]; [assumption|]. rewrite (O i I N) in F2. congruence.
  - rewrite filter_none; [reflexivity|]. intros i I. apply in_seq in I. apply not_true_is_false. rewrite !andb_true_iff, !fsm_eqb_iff. intros ((F1 & F2) & F3).
    destruct (Nat.eq_dec i j) as [->|N]; [congruence|]. rewrite (O i) in F2 by (auto; lia). congruence.
Qed.

Lemma NoDup_app_iff_add {A} (l : list A) x : NoDup l -> ~ In x l -> NoDup (l ++ [x]).
Proof.
  intros N X. induction l as [|y l IH]; cbn; [constructor; [intros []|constructor]|]. inversion N as [|? ? N1 N2]; subst. constructor.
  - rewrite in_app_iff. intros [Z|[Z|[]]]; [auto|]. apply X. left. auto.
  - apply IH; [exact N2|]. intros Z. apply X. right. exact Z.
Qed.
(** [D]: connections completed so far *)
Record winv (D : list nat) (w : tworld) : Prop := {
  wi_owner : forall j, (j < tw_nsess w)%nat -> (tw_owner w j < tw_nsock w)%nat;
  wi_sess : forall k j, (k < tw_nsock w)%nat -> t_sess (tw_sock w k) = Some j -> (j < tw_nsess w)%nat /\ tw_owner w j = k;
  wi_parent : forall k q, (k < tw_nsock w)%nat -> t_parent (tw_sock w k) = Some q -> (q < tw_nsock w)%nat;
  wi_phase : forall j, (j < tw_nsess w)%nat -> phase (tw_sess w j);
  wi_half : forall j, (j < tw_nsess w)%nat -> st (tw_sess w j) = SYN_RCVD ->
    (exists q, t_parent (tw_sock w (tw_owner w j)) = Some q) /\ ~ In (tw_owner w j) D /\
    (forall i, (i < tw_nsess w)%nat -> st (tw_sess w i) = SYN_RCVD -> tw_owner w i = tw_owner w j -> i = j);
  wi_done : forall k, In k D -> (k < tw_nsock w)%nat;
  wi_close : forall c j, tw_close w c = Some j -> (j < tw_nsess w)%nat;
  wi_count : forall k, (k < tw_nsock w)%nat -> 0 <= t_ready (tw_sock w k) /\ 0 <= t_between (tw_sock w k) /\
    t_ready (tw_sock w k) + t_between (tw_sock w k) = zlen (t_queue (tw_sock w k));
  wi_table : forall k i, In (k, i) (tw_table w) -> k_type k = Stream -> (i < tw_nsock w)%nat }.
(** what a step does *)
Record wstep (q : nat) (D : list nat) (o : top) (w w' : tworld) : Prop := {
  ws_inv : winv (D ++ completions q w w') w';
  ws_nodup : NoDup D -> NoDup (D ++ completions q w w');
  ws_queue : handed q o w ++ waiting_at q w' = waiting_at q w ++ completions q w w' }.

(** a step that neither creates an object nor completes a handshake nor touches an accept queue *)
Definition same_sock (a b : tsock) : Prop := t_sess b = t_sess a /\ t_parent b = t_parent a /\ t_queue b = t_queue a /\ t_ready b = t_ready a /\ t_between b = t_between a.
Definition table_ok (w : tworld) : Prop := forall k i, In (k, i) (tw_table w) -> k_type k = Stream -> (i < tw_nsock w)%nat.
Lemma idle_step q D o w w' : winv D w -> handed q o w = [] ->
  tw_nsock w' = tw_nsock w -> tw_nsess w' = tw_nsess w -> tw_owner w' = tw_owner w ->
  (forall k, (k < tw_nsock w)%nat -> same_sock (tw_sock w k) (tw_sock w' k)) ->
  (forall j, (j < tw_nsess w)%nat -> phase (tw_sess w' j) /\ (st (tw_sess w' j) = SYN_RCVD -> st (tw_sess w j) = SYN_RCVD) /\
     (st (tw_sess w j) = SYN_RCVD -> st (tw_sess w' j) <> ESTABLISHED)) ->
  (forall c j, tw_close w' c = Some j -> (j < tw_nsess w)%nat) -> table_ok w' -> wstep q D o w w'.
Proof.
  intros [I1 I2 I3 I4 I5 I6 I7 I8 I9] H N1 N2 N3 SO SE CL TA.
  assert (C : completions q w w' = []). { apply comp_none. intros j J A B. destruct (SE j J) as (_ & _ & X). apply X; assumption. }
  split; rewrite C, ?app_nil_r; auto.
  - split; rewrite ?N1, ?N2, ?N3.
    + exact I1.
    + intros k j K E. destruct (SO k K) as (S1 & _). rewrite S1 in E. apply I2; assumption.
    + intros k r K E. destruct (SO k K) as (_ & S1 & _). rewrite S1 in E. eapply I3; eauto.
    + intros j J. apply SE. exact J.
    + intros j J E. pose proof (proj1 (proj2 (SE j J)) E) as E'. destruct (I5 j J E') as ((r & P) & Q & U). split; [|split; [exact Q|]].
      * exists r. destruct (SO (tw_owner w j) (I1 j J)) as (_ & -> & _). exact P.
      * intros i L F. apply U; [exact L|]. apply (SE i L). exact F.
    + exact I6.
    + exact CL.
    + intros k K. destruct (SO k K) as (_ & _ & -> & -> & ->). apply I8. exact K.
    + unfold table_ok in TA. rewrite N1 in TA. exact TA.
  - rewrite H. unfold waiting_at. rewrite N1. destruct (Nat.ltb_spec q (tw_nsock w)) as [L|L]; [|reflexivity]. destruct (SO q L) as (_ & _ & -> & _). reflexivity.
Qed.
Lemma same_refl t : same_sock t t. Proof. repeat split. Qed.

(** a new session for socket [i], which listens or has just begun to connect *)
Lemma add_step q D o w w' i s : winv D w -> handed q o w = [] -> (i < tw_nsock w)%nat ->
  tw_nsock w' = tw_nsock w -> tw_nsess w' = S (tw_nsess w) -> (forall j, (j < tw_nsess w)%nat -> tw_owner w' j = tw_owner w j) -> tw_owner w' (tw_nsess w) = i ->
  (forall k, (k < tw_nsock w)%nat -> k <> i -> tw_sock w' k = tw_sock w k) ->
  t_sess (tw_sock w' i) = Some (tw_nsess w) -> t_parent (tw_sock w' i) = t_parent (tw_sock w i) -> t_queue (tw_sock w' i) = t_queue (tw_sock w i) ->
  t_ready (tw_sock w' i) = t_ready (tw_sock w i) -> t_between (tw_sock w' i) = t_between (tw_sock w i) ->
  (forall j, (j < tw_nsess w)%nat -> tw_sess w' j = tw_sess w j) -> tw_sess w' (tw_nsess w) = s -> phase s -> st s <> SYN_RCVD ->
  (forall c, tw_close w' c = tw_close w c) -> table_ok w' -> wstep q D o w w'.
Proof.
  intros [I1 I2 I3 I4 I5 I6 I7 I8 I9] H L N1 N2 N3 N3' SO S1 S2 S3 S4 S5 SE SN PH NS CL TA.
  assert (C : completions q w w' = []). { apply comp_none. intros j J A B. rewrite SE in B by exact J. congruence. }
  split; rewrite C, ?app_nil_r; auto.
  - split; rewrite ?N1, ?N2.
    + intros j J. destruct (Nat.eq_dec j (tw_nsess w)) as [->|N]; [rewrite N3'; exact L|]. rewrite N3 by lia. apply I1. lia.
    + intros k j K E. destruct (Nat.eq_dec k i) as [->|N].
      * rewrite S1 in E. injection E as <-. split; [lia|exact N3'].
      * rewrite SO in E by auto. destruct (I2 k j K E) as [X Y]. split; [lia|]. rewrite N3 by exact X. exact Y.
    + intros k r K E. destruct (Nat.eq_dec k i) as [->|N]; [rewrite S2 in E|rewrite SO in E by auto]; eapply I3; eauto.
    + intros j J. destruct (Nat.eq_dec j (tw_nsess w)) as [->|N]; [rewrite SN; exact PH|]. rewrite SE by lia. apply I4. lia.
    + intros j J E. destruct (Nat.eq_dec j (tw_nsess w)) as [->|N]; [congruence|]. assert (J' : (j < tw_nsess w)%nat) by lia. rewrite SE in E by exact J'.
      rewrite N3 by exact J'. destruct (I5 j J' E) as ((r & P) & Q & U). split; [|split; [exact Q|]].
      * exists r. destruct (Nat.eq_dec (tw_owner w j) i) as [X|X]; [rewrite X in P |- *; congruence|]. rewrite SO by auto. exact P.
      * intros x X F G. destruct (Nat.eq_dec x (tw_nsess w)) as [->|N']; [congruence|]. rewrite SE in F by lia. rewrite N3 in G by lia. apply U; auto; lia.
    + exact I6.
    + intros c j E. rewrite CL in E. apply I7 in E. lia.
    + intros k K. destruct (Nat.eq_dec k i) as [->|N]; [rewrite S3, S4, S5|rewrite SO by auto]; apply I8; exact K.
    + unfold table_ok in TA. rewrite N1 in TA. exact TA.
  - rewrite H. unfold waiting_at. rewrite N1. destruct (Nat.ltb_spec q (tw_nsock w)) as [K|K]; [|reflexivity].
    destruct (Nat.eq_dec q i) as [->|N]; [rewrite S3|rewrite SO by auto]; reflexivity.
Qed.
(** a handshake completed *)
Lemma done_step q D o w w' j r : winv D w -> handed q o w = [] -> (j < tw_nsess w)%nat -> t_parent (tw_sock w (tw_owner w j)) = Some r ->
  tw_nsock w' = tw_nsock w -> tw_nsess w' = tw_nsess w -> tw_owner w' = tw_owner w ->
  (forall k, (k < tw_nsock w)%nat -> k <> r -> tw_sock w' k = tw_sock w k) ->
  tw_sock w' r = with_queue (t_queue (tw_sock w r) ++ [tw_owner w j]) (t_ready (tw_sock w r) + 1) (t_between (tw_sock w r)) (tw_sock w r) ->
  (forall i, (i < tw_nsess w)%nat -> i <> j -> tw_sess w' i = tw_sess w i) ->
  st (tw_sess w j) = SYN_RCVD -> st (tw_sess w' j) = ESTABLISHED ->
  (forall c, tw_close w' c = tw_close w c) -> table_ok w' -> wstep q D o w w'.
Proof.
  intros [I1 I2 I3 I4 I5 I6 I7 I8 I9] H J P N1 N2 N3 SO SR SE S1 S2 CL TA.
  assert (SP : forall k, (k < tw_nsock w)%nat -> t_parent (tw_sock w' k) = t_parent (tw_sock w k) /\ t_sess (tw_sock w' k) = t_sess (tw_sock w k)).
  { intros k K. destruct (Nat.eq_dec k r) as [->|N]; [rewrite SR; split; reflexivity|rewrite SO by auto; split; reflexivity]. }
  assert (C : completions q w w' = if Nat.eqb r q then [tw_owner w j] else []).
  { rewrite (comp_one q j) by auto. rewrite N3. unfold comes_from. destruct (SP (tw_owner w j) (I1 j J)) as [-> _]. rewrite P. reflexivity. }
  destruct (I5 j J S1) as (_ & ND & UN). assert (R : (r < tw_nsock w)%nat) by (eapply I3; [|exact P]; apply I1; exact J).
  split; rewrite C.
  - split; rewrite ?N1, ?N2, ?N3.
    + exact I1.
    + intros k i K E. rewrite (proj2 (SP k K)) in E. apply I2; assumption.
    + intros k x K E. rewrite (proj1 (SP k K)) in E. eapply I3; eauto.
    + intros i L. destruct (Nat.eq_dec i j) as [->|N]; [right; right; rewrite S2; split; discriminate|]. rewrite SE by auto. apply I4. exact L.
    + intros i L E. destruct (Nat.eq_dec i j) as [->|N]; [congruence|]. rewrite SE in E by auto. destruct (I5 i L E) as ((x & X) & Q & U). split; [|split].
      * exists x. rewrite (proj1 (SP _ (I1 i L))). exact X.
      * rewrite in_app_iff. intros [Z|Z]; [contradiction|]. destruct (Nat.eqb r q); [|destruct Z]. destruct Z as [Z|[]]. apply N. apply UN; auto.
      * intros y Y F G. destruct (Nat.eq_dec y j) as [->|N']; [congruence|]. rewrite SE in F by auto. apply U; auto.
    + intros k K. apply in_app_iff in K. destruct K as [K|K]; [apply I6; exact K|]. destruct (Nat.eqb r q); [|destruct K]. destruct K as [<-|[]]. apply I1. exact J.
    + intros c i E. rewrite CL in E. eapply I7; eauto.
    + intros k K. destruct (Nat.eq_dec k r) as [->|N]; [|rewrite SO by auto; apply I8; exact K].
      rewrite SR. cbn [t_ready t_between t_queue with_queue]. destruct (I8 r K) as (A & B & E). rewrite zlen_app. change (zlen [tw_owner w j]) with 1. lia.
    + unfold table_ok in TA. rewrite N1 in TA. exact TA.
  - intros NO. destruct (Nat.eqb r q); [|rewrite app_nil_r; exact NO]. apply NoDup_app_iff_add; auto.
  - rewrite H. unfold waiting_at. rewrite N1. cbn [app]. destruct (Nat.eqb_spec r q) as [->|N].
    + destruct (Nat.ltb_spec q (tw_nsock w)); [|lia]. rewrite SR. reflexivity.
    + rewrite app_nil_r. destruct (Nat.ltb_spec q (tw_nsock w)) as [K|K]; [|reflexivity]. rewrite SO by auto. reflexivity.
Qed.
(** a listening session forks *)
Lemma fork_step q D o w w' j p s : winv D w -> handed q o w = [] -> (j < tw_nsess w)%nat ->
  st (tw_sess w j) = LISTEN -> tw_nsock w' = S (tw_nsock w) -> tw_nsess w' = S (tw_nsess w) ->
  tw_owner w' = upd j (tw_nsock w) (upd (tw_nsess w) (tw_owner w j) (tw_owner w)) ->
  tw_sock w' = upd (tw_nsock w) (child_tcp j (tw_owner w j) p) (upd (tw_owner w j) (with_sess_of (tw_nsess w) (tw_sock w (tw_owner w j))) (tw_sock w)) ->
  tw_sess w' (tw_nsess w) = s -> phase s -> st s = LISTEN ->
  (forall i, (i < tw_nsess w)%nat -> i <> j -> tw_sess w' i = tw_sess w i) -> phase (tw_sess w' j) -> st (tw_sess w' j) = SYN_RCVD ->
  (forall c, tw_close w' c = tw_close w c) -> table_ok w' -> wstep q D o w w'.
Proof.
  intros [I1 I2 I3 I4 I5 I6 I7 I8 I9] H J SJ N1 N2 N3 SO SE PH SL SE' PJ SJ' CL TA.
  assert (C : completions q w w' = []). { apply comp_none. intros i L A B. destruct (Nat.eq_dec i j) as [->|N]; [congruence|]. rewrite SE' in B by auto. congruence. }
  assert (OJ : tw_owner w' j = tw_nsock w) by (rewrite N3; apply upd_same).
  assert (ON : tw_owner w' (tw_nsess w) = tw_owner w j) by (rewrite N3, upd_other by lia; apply upd_same).
  assert (OO : forall i, (i < tw_nsess w)%nat -> i <> j -> tw_owner w' i = tw_owner w i) by (intros i L N; rewrite N3, !upd_other by lia; reflexivity).
  pose proof SE as SN.
  assert (OL : (tw_owner w j < tw_nsock w)%nat) by (apply I1; exact J).
  assert (KM : tw_sock w' (tw_nsock w) = child_tcp j (tw_owner w j) p) by (rewrite SO; apply upd_same).
  assert (KO : tw_sock w' (tw_owner w j) = with_sess_of (tw_nsess w) (tw_sock w (tw_owner w j))) by (rewrite SO, upd_other by lia; apply upd_same).
  assert (KK : forall k, (k < tw_nsock w)%nat -> k <> tw_owner w j -> tw_sock w' k = tw_sock w k) by (intros k L N; rewrite SO, !upd_other by lia; reflexivity).
  assert (PA : forall k, (k < tw_nsock w)%nat -> t_parent (tw_sock w' k) = t_parent (tw_sock w k) /\ t_queue (tw_sock w' k) = t_queue (tw_sock w k) /\
    t_ready (tw_sock w' k) = t_ready (tw_sock w k) /\ t_between (tw_sock w' k) = t_between (tw_sock w k)).
  { intros k K. destruct (Nat.eq_dec k (tw_owner w j)) as [->|N]; [rewrite KO; repeat split|rewrite KK by auto; repeat split]. }
  clear SO SE N3. split; rewrite C, ?app_nil_r; auto.
  - split; rewrite ?N1, ?N2.
    + intros i L. destruct (Nat.eq_dec i j) as [->|N]; [lia|]. destruct (Nat.eq_dec i (tw_nsess w)) as [->|N']; [lia|]. rewrite OO by lia. specialize (I1 i). lia.
    + intros k i K E. destruct (Nat.eq_dec k (tw_nsock w)) as [->|N].
      * rewrite KM in E. injection E as <-. split; [lia|exact OJ].
      * assert (K' : (k < tw_nsock w)%nat) by lia. destruct (Nat.eq_dec k (tw_owner w j)) as [->|N'].
        -- rewrite KO in E. injection E as <-. split; [lia|exact ON].
        -- rewrite KK in E by auto. destruct (I2 k i K' E) as [X Y]. destruct (Nat.eq_dec i j) as [->|Z]; [congruence|]. split; [lia|]. rewrite OO by auto. exact Y.
    + intros k r K E. destruct (Nat.eq_dec k (tw_nsock w)) as [->|N].
      * rewrite KM in E. injection E as <-. lia.
      * rewrite (proj1 (PA k ltac:(lia))) in E. apply I3 in E; lia.
    + intros i L. destruct (Nat.eq_dec i j) as [->|N]; [exact PJ|]. destruct (Nat.eq_dec i (tw_nsess w)) as [->|N']; [rewrite SN; exact PH|]. rewrite SE' by lia. apply I4. lia.
    + intros i L E. destruct (Nat.eq_dec i j) as [->|N].
      * rewrite OJ, KM. split; [exists (tw_owner w j); reflexivity|]. split; [intros X; apply I6 in X; lia|].
        intros x X F G. destruct (Nat.eq_dec x j) as [|Y]; [assumption|]. exfalso. destruct (Nat.eq_dec x (tw_nsess w)) as [->|Y']; [lia|]. rewrite OO in G by lia. specialize (I1 x). lia.
      * destruct (Nat.eq_dec i (tw_nsess w)) as [->|N']; [congruence|]. assert (L' : (i < tw_nsess w)%nat) by lia. rewrite SE' in E by auto. rewrite OO by auto.
        destruct (I5 i L' E) as ((r & P) & Q & U). split; [exists r; rewrite (proj1 (PA _ (I1 i L'))); exact P|]. split; [exact Q|].
        intros x X F G. destruct (Nat.eq_dec x j) as [->|Y]; [rewrite OJ in G; specialize (I1 i L'); lia|]. destruct (Nat.eq_dec x (tw_nsess w)) as [->|Y']; [congruence|].
        rewrite SE' in F by lia. rewrite OO in G by lia. apply U; auto; lia.
    + intros k K. apply I6 in K. lia.
    + intros c i E. rewrite CL in E. apply I7 in E. lia.
    + intros k K. destruct (Nat.eq_dec k (tw_nsock w)) as [->|N]; [rewrite KM; cbn; unfold zlen; cbn; lia|].
      destruct (PA k ltac:(lia)) as (_ & -> & -> & ->). apply I8. lia.
    + unfold table_ok in TA. rewrite N1 in TA. exact TA.
  - rewrite H. unfold waiting_at. rewrite N1. destruct (Nat.ltb_spec q (tw_nsock w)) as [K|K], (Nat.ltb_spec q (S (tw_nsock w))) as [K'|K']; try lia; try reflexivity.
    + apply PA. exact K.
    + replace q with (tw_nsock w) by lia. rewrite KM. reflexivity.
Qed.

(** ** a call of a session *)
Lemma table_pop w k : table_ok w -> table_ok (put_table (sock_pop k (tw_table w)) w).
Proof. intros H x i I. cbn [tw_table put_table tw_nsock] in *. apply pop_in in I. apply H. apply I. Qed.
Lemma put_in_any k i t x j : In (x, j) (sock_put k i t) -> (x = k /\ j = i) \/ In (x, j) t.
Proof.
  induction t as [|[a b] r IH]; cbn [sock_put].
  - intros [E|[]]. injection E as <- <-. auto.
  - destruct (skey_eqb k a) eqn:E; cbn [In].
    + apply skey_eqb_eq in E. intros [X|X]; [injection X as <- <-; left; auto|auto].
    + intros [X|X]; [auto|]. apply IH in X. tauto.
Qed.
(** the world before the socket may be unregistered *)
Definition called (j : nat) (iss : Z) (m : P unit) (w : tworld) : tworld :=
  let old := tw_sess w j in
  let s := fst (m (set_reg (registered (tcp_key (tw_sock w (tw_owner w j))) (tw_table w)) old)) in
  fold_left (fun w e => effect old iss j e w) (skipn (length (effs old)) (effs s)) (put_sess j s w).
Lemma call_eq j iss m w : fst (session_call j iss m w) = called j iss m w \/
  fst (session_call j iss m w) = put_table (sock_pop (tcp_key (tw_sock (called j iss m w) (tw_owner (called j iss m w) j))) (tw_table (called j iss m w))) (called j iss m w).
Proof.
  unfold session_call, called. destruct (m _) as [s r]. cbn [fst]. destruct (reg s); cbn [fst]; [left|right]; reflexivity.
Qed.
Lemma step_table q D o w w' t : wstep q D o w w' -> table_ok (put_table t w') -> wstep q D o w (put_table t w').
Proof. intros [[I1 I2 I3 I4 I5 I6 I7 I8 I9] N Q] T. split; [split; assumption|exact N|exact Q]. Qed.
Lemma skipn_all_eq {A} (l m : list A) : m = l -> skipn (length l) m = [].
Proof. intros ->. apply skipn_all. Qed.
Lemma skipn_app_eq {A} (l m r : list A) : m = l ++ r -> skipn (length l) m = r.
Proof. intros ->. rewrite skipn_app, skipn_all, Nat.sub_diag. reflexivity. Qed.
Lemma listening_ok lip lport rip rport iss : let s := listening_session lip lport rip rport iss in phase s /\ st s = LISTEN.
Proof. split; [left|]; repeat split. Qed.
Lemma called_step q D o e w j iss m : winv D w -> handed q o w = [] -> (j < tw_nsess w)%nat ->
  (forall b, kind e (tw_sess w j) (fst (m (set_reg b (tw_sess w j))))) -> wstep q D o w (called j iss m w).
Proof.
  intros I H J K. unfold called. set (b := registered _ _). specialize (K b). clearbody b. generalize dependent (fst (m (set_reg b (tw_sess w j)))). intros s K.
  destruct K as [K1 K2 K3 K4|p _ K2 K3 K4 K5|p _ K2 K3 K4 K5 K6 K7 K8].
  - rewrite skipn_all_eq by exact K1. cbn [fold_left]. apply idle_step; auto; try reflexivity.
    + intros k _. apply same_refl.
    + intros i L. cbn [tw_sess put_sess]. destruct (Nat.eq_dec i j) as [->|N]; [rewrite upd_same|rewrite upd_other by exact N].
      * split; [exact K4|]. split; [|exact K3]. intros E. destruct K2 as [X|X]; [congruence|tauto].
      * split; [apply (wi_phase D w I); exact L|]. split; [auto|congruence].
    + intros c i. apply (wi_close D w I).
    + exact (wi_table D w I).
  - rewrite (skipn_app_eq (effs (tw_sess w j)) (effs s) [FFork p]) by (rewrite K4; reflexivity). cbn [fold_left].
    set (old := tw_sess w j) in *. destruct (listening_ok (s_lip old) (s_lport old) (s_rip old) (s_rport old) iss) as [L1 L2].
    assert (SJ : st s = SYN_RCVD) by (rewrite K4; reflexivity). clear K4. unfold effect. generalize dependent (listening_session (s_lip old) (s_lport old) (s_rip old) (s_rport old) iss). intros ls L1 L2.
    apply fork_step with (j := j) (p := p) (s := ls); auto; try reflexivity.
    + cbn [tw_sess put_owner put_table add_sock put_sock add_sess put_sess]. apply upd_same.
    + intros i L N. cbn [tw_sess put_owner put_table add_sock put_sock add_sess put_sess tw_nsess]. rewrite !upd_other by lia. reflexivity.
    + cbn [tw_sess put_owner put_table add_sock put_sock add_sess put_sess tw_nsess]. rewrite upd_other by lia. rewrite upd_same. exact K5.
    + cbn [tw_sess put_owner put_table add_sock put_sock add_sess put_sess tw_nsess]. rewrite upd_other by lia. rewrite upd_same. exact SJ.
    + intros k i. cbn [tw_table tw_nsock put_owner put_table add_sock put_sock add_sess put_sess]. intros X T. apply put_in_any in X. destruct X as [[_ ->]|X]; [lia|].
      pose proof (wi_table D w I k i X T). lia.
  - rewrite (skipn_app_eq (effs (tw_sess w j)) (effs s) [FAccept]) by exact K5. cbn [fold_left].
    cbn [effect]. change (tw_owner (put_sess j s w) j) with (tw_owner w j). change (tw_sock (put_sess j s w) (tw_owner w j)) with (tw_sock w (tw_owner w j)).
    destruct (wi_half D w I j J K2) as ((r & P) & _). rewrite P.
    apply done_step with (j := j) (r := r); auto; try reflexivity.
    + intros k L N. cbn [tw_sock put_sock put_sess]. apply upd_other. exact N.
    + cbn [tw_sock put_sock put_sess]. apply upd_same.
    + intros i L N. cbn [tw_sess put_sock put_sess]. apply upd_other. exact N.
    + cbn [tw_sess put_sock put_sess]. rewrite upd_same. exact K4.
    + exact (wi_table D w I).
Qed.
Lemma call_step q D o e w j iss m : winv D w -> handed q o w = [] -> (j < tw_nsess w)%nat ->
  (forall b, kind e (tw_sess w j) (fst (m (set_reg b (tw_sess w j))))) -> wstep q D o w (fst (session_call j iss m w)).
Proof.
  intros I H J K. pose proof (called_step q D o e w j iss m I H J K) as S. destruct (call_eq j iss m w) as [-> | ->]; [exact S|].
  apply step_table; [exact S|]. apply table_pop. destruct S as [S _ _]. exact (wi_table _ _ S).
Qed.

(** ** every operation *)
Lemma phase_reg b s : phase s -> phase (set_reg b s).
Proof. intros H. exact H. Qed.
Lemma kind_reg e b s s' : kind e (set_reg b s) s' -> kind e s s'.
Proof.
  intros [K1 K2 K3 K4|p K1 K2 K3 K4 K5|p K1 K2 K3 K4 K5 K6 K7 K8].
  - apply k_quiet; assumption.
  - apply k_fork with p; auto.
  - apply k_accept with p; auto.
Qed.
Lemma fsm_call q D o e w j iss : winv D w -> handed q o w = [] -> (j < tw_nsess w)%nat -> e <> ECall Listen -> wstep q D o w (fst (session_call j iss (tcp_fsm e) w)).
Proof. intros I H J E. apply call_step with e; auto. intros b. apply kind_reg with b. apply fsm_kind; [exact E|]. apply phase_reg. apply (wi_phase D w I). exact J. Qed.
Lemma tick_call q D o w j iss : winv D w -> handed q o w = [] -> (j < tw_nsess w)%nat -> wstep q D o w (fst (session_call j iss tick w)).
Proof. intros I H J. apply call_step with ETimer; auto. intros b. apply kind_reg with b. apply tick_kind. apply phase_reg. apply (wi_phase D w I). exact J. Qed.
Lemma stay_step q D o w : winv D w -> handed q o w = [] -> wstep q D o w w.
Proof.
  intros I H. apply idle_step; auto.
  - intros k _. apply same_refl.
  - intros j J. split; [apply (wi_phase D w I); exact J|]. split; [auto|congruence].
  - apply (wi_close D w I).
  - exact (wi_table D w I).
Qed.
(** the session keeps its state and effects *)
Definition alike (a b : sess) : Prop := st b = st a /\ effs b = effs a /\ ooo b = ooo a /\ snd_una b = snd_una a /\ snd_nxt b = snd_nxt a /\ snd_ini b = snd_ini a /\ rcv_nxt b = rcv_nxt a /\ sent b = sent a /\ tx_to b = tx_to a /\ snd_max b = snd_max a.
Lemma phase_alike a b : alike a b -> phase a -> phase b.
Proof.
  intros (A1 & A2 & A3 & A4 & A5 & A6 & A7 & A8 & A9 & A10) [P|[(p & P)|P]].
  - left. rewrite A1, A2, A3, A4, A5, A6, A8, A9, A10. exact P.
  - right. left. exists p. destruct P as ((P1 & P2 & P3 & P4 & P5) & P6). split; [|congruence]. unfold half, synack. rewrite A2, A3, A4, A5, A6, A7, A8. auto.
  - right. right. rewrite A1. exact P.
Qed.
Lemma sess_step q D o w j s : winv D w -> handed q o w = [] -> alike (tw_sess w j) s -> wstep q D o w (put_sess j s w).
Proof.
  intros I H A. apply idle_step; auto; try reflexivity.
  - intros k _. apply same_refl.
  - intros i L. cbn [tw_sess put_sess]. destruct (Nat.eq_dec i j) as [->|N]; [rewrite upd_same|rewrite upd_other by exact N].
    + split; [apply phase_alike with (tw_sess w j); [exact A|]; apply (wi_phase D w I); exact L|]. destruct A as (-> & _). split; [auto|congruence].
    + split; [apply (wi_phase D w I); exact L|]. split; [auto|congruence].
  - apply (wi_close D w I).
  - exact (wi_table D w I).
Qed.
Lemma send_alike d s : alike s (fst (session_send d s)).
Proof. unfold session_send. destruct (in_state _ _); repeat split. Qed.
Lemma read_alike n r s : alike s (fst (fst (read_step n r s))).
Proof. destruct r; cbn [read_step]; [destruct (_ <? _)| |destruct (ended s)|]; try (repeat split; fail). cbv zeta. destruct (_ || _); repeat split. Qed.
Lemma sock_step q D o w i t : winv D w -> handed q o w = [] -> same_sock (tw_sock w i) t -> wstep q D o w (put_sock i t w).
Proof.
  intros I H A. apply idle_step; auto; try reflexivity.
  - intros k L. cbn [tw_sock put_sock]. destruct (Nat.eq_dec k i) as [->|N]; [rewrite upd_same; exact A|rewrite upd_other by exact N; apply same_refl].
  - intros j J. cbn [tw_sess put_sock]. split; [apply (wi_phase D w I); exact J|]. split; [auto|congruence].
  - apply (wi_close D w I).
  - exact (wi_table D w I).
Qed.
Lemma register_ok i t w : (i < tw_nsock w)%nat -> table_ok w -> table_ok (tcp_register i t w).
Proof.
  intros L H k j. cbn [tw_table tcp_register put_table tw_nsock put_sock]. intros X T. apply put_in_any in X. destruct X as [[_ ->]|X]; [exact L|]. apply pop_in in X. apply (H k); tauto.
Qed.
Lemma bind_step q D o w c i t p : winv D w -> handed q o w = [] -> (i < tw_nsock w)%nat -> wstep q D o w (fst (tcp_bind c i t p w)).
Proof.
  intros I H L. pose proof (stay_step q D o w I H) as S. unfold tcp_bind. destruct (bound_port _); [exact S|]. destruct t as [a|]; [|exact S]. destruct (negb _); [exact S|]. destruct (negb _); [exact S|].
  destruct (if 0 <? p then _ else _) as [x|x]; [|exact S]. cbn [fst]. unfold tcp_register. apply step_table; [apply sock_step; auto; repeat split|].
  apply register_ok; [exact L|exact (wi_table D w I)].
Qed.
(** a new session of socket [i] in state SYN-SENT or LISTEN *)
Lemma open_step q D o w i t tab e lip lport rip rport iss : winv D w -> handed q o w = [] -> (i < tw_nsock w)%nat -> same_sock (tw_sock w i) t ->
  e = ECall Connect \/ e = ECall Listen -> (forall k j, In (k, j) tab -> k_type k = Stream -> (j < tw_nsock w)%nat) ->
  let w1 := put_table tab (put_sock i (with_sess_of (tw_nsess w) t) (add_sess (new_session lip lport rip rport iss true []) i w)) in
  wstep q D o w (fst (session_call (tw_nsess w) 0 (tcp_fsm e) w1)).
Proof.
  intros I H L (T1 & T2 & T3 & T4 & T5) E TA w1.
  assert (SN : tw_sess w1 (tw_nsess w) = new_session lip lport rip rport iss true []) by (unfold w1; cbn [tw_sess put_table put_sock add_sess]; apply upd_same).
  assert (C : wstep q D o w (called (tw_nsess w) 0 (tcp_fsm e) w1)).
  { unfold called. rewrite SN. set (b := registered _ _). clearbody b.
    assert (P : let s := fst (tcp_fsm e (set_reg b (new_session lip lport rip rport iss true []))) in phase s /\ st s <> SYN_RCVD /\ effs s = []).
    { destruct E as [-> | ->]; cbn; (split; [|split; [discriminate|reflexivity]]); [right; right; split; discriminate|left; repeat split]. }
    cbv zeta in P. destruct P as (P1 & P2 & P3). generalize dependent (fst (tcp_fsm e (set_reg b (new_session lip lport rip rport iss true [])))). intros s P1 P2 P3.
    rewrite P3. cbn [effs new_session length skipn fold_left]. unfold w1.
    apply add_step with (i := i) (s := s); auto; try reflexivity; cbn [tw_owner tw_sock tw_sess tw_table put_sess put_table put_sock add_sess]; rewrite ?upd_same; auto.
    - intros j J. apply upd_other. lia.
    - intros k K N. apply upd_other. exact N.
    - intros j J. rewrite !upd_other by lia. reflexivity. }
  destruct (call_eq (tw_nsess w) 0 (tcp_fsm e) w1) as [-> | ->]; [exact C|]. apply step_table; [exact C|]. apply table_pop. destruct C as [C _ _]. exact (wi_table _ _ C).
Qed.
Lemma wstep_from q D o w w1 w' : wstep q D o w1 w' -> tw_sess w1 = tw_sess w -> tw_nsess w1 = tw_nsess w -> handed q o w = handed q o w1 -> waiting_at q w = waiting_at q w1 -> wstep q D o w w'.
Proof.
  intros [S1 S2 S3] E1 E2 H Q. assert (C : completions q w w' = completions q w1 w') by (unfold completions; rewrite E1, E2; reflexivity).
  split; rewrite C; auto. rewrite H, Q. exact S3.
Qed.
Lemma table_same w : put_table (tw_table w) w = w.
Proof. destruct w. reflexivity. Qed.
Lemma connect_step q D c i t p iss w : winv D w -> (i < tw_nsock w)%nat -> wstep q D (TConnect c i t p iss) w (fst (tcp_connect c i t p iss w)).
Proof.
  intros I L. set (o := TConnect c i t p iss). pose proof (stay_step q D o w I eq_refl) as S. unfold tcp_connect. destruct (negb _); [exact S|].
  destruct (if bound_port _ then _ else _) as [x|x]; [|exact S]. destruct (tcp_set_ip _ _ _ _ _) as [[lip rip]|x']; [|exact S]. cbv zeta.
  set (nt := with_ends lip x rip p (tw_sock w i)).
  assert (S1 : wstep q D o w (tcp_register i nt w)).
  { unfold tcp_register. apply step_table; [apply sock_step; auto; repeat split|]. apply register_ok; [exact L|exact (wi_table D w I)]. }
  assert (I1 : winv D (tcp_register i nt w)).
  { destruct S1 as [S1 _ _]. rewrite comp_none, app_nil_r in S1; [exact S1|]. intros j J A B. cbn in B. congruence. }
  set (w1 := tcp_register i nt w) in *. change (tw_nsess (put_sock _ _ _)) with (tw_nsess w1).
  apply wstep_from with w1; try reflexivity.
  - pose proof (open_step q D o w1 i (tw_sock w1 i) (tw_table w1) (ECall Connect) lip x rip p iss I1 eq_refl L (same_refl _) (or_introl eq_refl) (wi_table D w1 I1)) as X. cbv zeta in X.
    change (tw_table w1) with (tw_table (put_sock i (with_sess_of (tw_nsess w1) (tw_sock w1 i)) (add_sess (new_session lip x rip p iss true []) i w1))) in X.
    rewrite table_same in X. exact X.
  - unfold waiting_at, w1, tcp_register. cbn [tw_nsock tw_sock put_table put_sock]. destruct (Nat.ltb _ _); [|reflexivity]. destruct (Nat.eq_dec q i) as [->|N]; [rewrite upd_same|rewrite upd_other by exact N]; reflexivity.
Qed.
Lemma listen_call q D i iss w : winv D w -> (i < tw_nsock w)%nat -> wstep q D (TListen i iss) w (fst (tcp_listen i iss w)).
Proof.
  intros I L. unfold tcp_listen. cbv zeta.
  apply (open_step q D (TListen i iss) w i (tw_sock w i) (sock_put (tcp_key (tw_sock w i)) i (tw_table w)) (ECall Listen)); auto; [apply same_refl|].
  intros k j X T. apply put_in_any in X. destruct X as [[_ ->]|X]; [exact L|]. exact (wi_table D w I k j X T).
Qed.
Lemma new_step q D f w : winv D w -> wstep q D (TSocket f) w (add_sock (new_tcp f) w).
Proof.
  intros [I1 I2 I3 I4 I5 I6 I7 I8 I9].
  assert (C : completions q w (add_sock (new_tcp f) w) = []). { apply comp_none. intros j J A B. cbn in B. congruence. }
  assert (O : forall k, (k < tw_nsock w)%nat -> tw_sock (add_sock (new_tcp f) w) k = tw_sock w k) by (intros k K; cbn [tw_sock add_sock]; apply upd_other; lia).
  assert (N : tw_sock (add_sock (new_tcp f) w) (tw_nsock w) = new_tcp f) by (cbn [tw_sock add_sock]; apply upd_same).
  split; rewrite C, ?app_nil_r; auto.
  - split; cbn [tw_owner tw_sess tw_nsess tw_close tw_table tw_nsock add_sock] in *.
    + intros j J. specialize (I1 j J). lia.
    + intros k j K E. destruct (Nat.eq_dec k (tw_nsock w)) as [->|X]; [rewrite N in E; discriminate E|]. rewrite O in E by lia. apply I2; [lia|exact E].
    + intros k j K E. destruct (Nat.eq_dec k (tw_nsock w)) as [->|X]; [rewrite N in E; discriminate E|]. rewrite O in E by lia. apply I3 in E; lia.
    + exact I4.
    + intros j J E. rewrite O by (apply I1; exact J). apply I5; assumption.
    + intros k K. apply I6 in K. lia.
    + exact I7.
    + intros k K. destruct (Nat.eq_dec k (tw_nsock w)) as [->|X]; [rewrite N; cbn; unfold zlen; cbn; lia|]. rewrite O by lia. apply I8. lia.
    + intros k i X T. specialize (I9 k i X T). lia.
  - unfold waiting_at. cbn [handed app]. change (tw_nsock (add_sock (new_tcp f) w)) with (S (tw_nsock w)).
    destruct (Nat.ltb_spec q (tw_nsock w)) as [K|K], (Nat.ltb_spec q (S (tw_nsock w))) as [K'|K']; try lia; try reflexivity.
    + rewrite O by exact K. reflexivity.
    + replace q with (tw_nsock w) by lia. rewrite N. reflexivity.
Qed.
(** accept changes the counters and takes the head of the queue *)
Lemma accept_step q D o w i t : winv D w -> (i < tw_nsock w)%nat -> t_sess t = t_sess (tw_sock w i) -> t_parent t = t_parent (tw_sock w i) ->
  0 <= t_ready t -> 0 <= t_between t -> t_ready t + t_between t = zlen (t_queue t) ->
  handed q o w ++ (if Nat.eqb q i then t_queue t else []) = (if Nat.eqb q i then t_queue (tw_sock w i) else []) -> wstep q D o w (put_sock i t w).
Proof.
  intros [I1 I2 I3 I4 I5 I6 I7 I8 I9] L T1 T2 T3 T4 T5 H.
  assert (C : completions q w (put_sock i t w) = []). { apply comp_none. intros j J A B. cbn in B. congruence. }
  assert (O : forall k, k <> i -> tw_sock (put_sock i t w) k = tw_sock w k) by (intros k K; cbn [tw_sock put_sock]; apply upd_other; exact K).
  assert (N : tw_sock (put_sock i t w) i = t) by (cbn [tw_sock put_sock]; apply upd_same).
  assert (P : forall k, t_parent (tw_sock (put_sock i t w) k) = t_parent (tw_sock w k)) by (intros k; destruct (Nat.eq_dec k i) as [->|X]; [rewrite N; exact T2|rewrite O by exact X; reflexivity]).
  assert (Q : forall k, t_sess (tw_sock (put_sock i t w) k) = t_sess (tw_sock w k)) by (intros k; destruct (Nat.eq_dec k i) as [->|X]; [rewrite N; exact T1|rewrite O by exact X; reflexivity]).
  split; rewrite C, ?app_nil_r; auto.
  - split; cbn [tw_owner tw_sess tw_nsess tw_close tw_table tw_nsock put_sock] in *; auto.
    + intros k j K E. apply I2; [exact K|]. rewrite <- Q. exact E.
    + intros k j K E. eapply I3; [exact K|]. rewrite <- P. exact E.
    + intros j J E. destruct (I5 j J E) as ((r & X) & Y). split; [exists r; rewrite <- X; apply P|exact Y].
    + intros k K. destruct (Nat.eq_dec k i) as [->|X]; [rewrite N; auto|]. specialize (O k X). rewrite O. apply I8. exact K.
  - unfold waiting_at. change (tw_nsock (put_sock i t w)) with (tw_nsock w). destruct (Nat.eqb_spec q i) as [->|X].
    + destruct (Nat.ltb_spec i (tw_nsock w)); [|lia]. rewrite N. exact H.
    + rewrite app_nil_r in H. rewrite H. rewrite O by exact X. reflexivity.
Qed.
Lemma top_step q D o w : winv D w -> wstep q D o w (fst (top_do o w)).
Proof.
  intros I. pose proof (stay_step q D o w I) as S.
  destruct o as [f|c i t p|c i t p iss|i iss|i|i|i d|j n r|c i|c|p iss|j|a|k i|k]; cbn [top_do].
  - apply new_step. exact I.
  - unfold on_tsock. destruct (Nat.ltb_spec i (tw_nsock w)) as [L|L]; [|apply S; reflexivity]. cbn [tret_of fst]. apply bind_step; auto.
  - unfold on_tsock. destruct (Nat.ltb_spec i (tw_nsock w)) as [L|L]; [|apply S; reflexivity]. cbn [tret_of fst]. apply connect_step; auto.
  - unfold on_tsock. destruct (Nat.ltb_spec i (tw_nsock w)) as [L|L]; [|apply S; reflexivity]. cbn [tret_of fst]. apply listen_call; auto.
  - unfold on_tsock. destruct (Nat.ltb_spec i (tw_nsock w)) as [L|L]; [|apply S; reflexivity]. cbn [fst]. unfold accept_acquire. destruct (Z.ltb_spec 0 (t_ready (tw_sock w i))) as [R|R]; [|apply S; reflexivity].
    destruct (wi_count D w I i L) as (A & B & C). apply accept_step; auto; cbn [t_ready t_between t_queue with_queue]; lia || auto.
  - pose proof (wi_count D w I i) as CO. assert (E : top_do (TPop i) w = on_tsock i (fun w => let (w, r) := accept_pop i w in (w, match r with Some (Ok k) => TSock k | Some (Exn e) => TErr e | None => TNone end)) w) by reflexivity.
    unfold on_tsock in *. destruct (Nat.ltb_spec i (tw_nsock w)) as [L|L].
    2:{ apply S. unfold handed. rewrite E. cbn. destruct (Nat.eqb i q); reflexivity. }
    unfold accept_pop in *. destruct (CO L) as (A & B & C). destruct (Z.ltb_spec 0 (t_between (tw_sock w i))) as [R|R].
    2:{ apply S. unfold handed. rewrite E. cbn. destruct (Nat.eqb i q); reflexivity. }
    destruct (t_queue (tw_sock w i)) as [|k l] eqn:Q; [exfalso; change (zlen (@nil nat)) with 0 in C; lia|].
    rewrite zlen_cons in C. cbn [fst] in *. apply accept_step; auto; cbn [t_ready t_between t_queue with_queue]; try lia.
    unfold handed. rewrite E. cbn [snd]. rewrite (Nat.eqb_sym q i). destruct (Nat.eqb i q); [rewrite Q|]; reflexivity.
  - unfold on_tsock. destruct (Nat.ltb_spec i (tw_nsock w)) as [L|L]; [|apply S; reflexivity]. cbn [tret_of fst]. unfold tcp_send.
    destruct (_ || _); [apply S; reflexivity|]. destruct (t_sess _) as [j|]; [|apply S; reflexivity]. pose proof (send_alike d (tw_sess w j)) as A. destruct (session_send _ _) as [s [n|e]]; cbn [fst] in *; apply sess_step; auto.
  - destruct (Nat.ltb_spec j (tw_nsess w)) as [L|L]; [|apply S; reflexivity]. cbn [fst]. apply sess_step; auto. apply read_alike.
  - unfold on_tsock. destruct (Nat.ltb_spec i (tw_nsock w)) as [L|L]; [|apply S; reflexivity]. cbn [tret_of fst]. unfold close_load. destruct (t_sess _) as [j|] eqn:E; [|apply S; reflexivity]. cbn [fst].
    apply idle_step; auto; try reflexivity.
    + intros k _. apply same_refl.
    + intros x X. cbn [tw_sess put_close]. split; [apply (wi_phase D w I); exact X|]. split; [auto|congruence].
    + intros x y. cbn [tw_close put_close]. destruct (Nat.eq_dec x c) as [->|N]; [rewrite upd_same; intros F; injection F as <-; apply (wi_sess D w I i); auto|].
      rewrite upd_other by exact N. apply (wi_close D w I).
    + exact (wi_table D w I).
  - cbn [tret_of fst]. unfold close_call. destruct (tw_close w c) as [j|] eqn:E; [|apply S; reflexivity].
    assert (I' : winv D (put_close c None w)).
    { destruct I as [I1 I2 I3 I4 I5 I6 I7 I8 I9]. split; auto. intros x y. cbn [tw_close put_close]. destruct (Nat.eq_dec x c) as [->|N]; [rewrite upd_same; discriminate|]. rewrite upd_other by exact N. apply I7. }
    apply wstep_from with (put_close c None w); try reflexivity. apply fsm_call; auto; [|discriminate]. apply (wi_close D w I c). exact E.
  - destruct (segment_target _ _) as [i|]; [|apply S; reflexivity]. unfold on_tsock. destruct (Nat.ltb_spec i (tw_nsock w)) as [L|L]; [|apply S; reflexivity]. cbn [tret_of fst].
    unfold deliver. destruct (t_sess _) as [j|] eqn:E; [|apply S; reflexivity]. apply fsm_call; auto; [|discriminate]. apply (wi_sess D w I i); auto.
  - destruct (Nat.ltb_spec j (tw_nsess w)) as [L|L]; [|apply S; reflexivity]. cbn [tret_of fst]. apply tick_call; auto.
  - apply idle_step; auto; try reflexivity.
    + intros k _. apply same_refl.
    + intros x X. cbn [fst tw_sess put_addrs]. split; [apply (wi_phase D w I); exact X|]. split; [auto|congruence].
    + apply (wi_close D w I).
    + exact (wi_table D w I).
  - apply step_table; [apply S; reflexivity|]. intros x y. cbn [tw_table put_table tw_nsock]. intros X T. apply put_in_any in X. destruct X as [[-> _]|X]; [discriminate T|]. exact (wi_table D w I x y X T).
  - apply step_table; [apply S; reflexivity|]. apply table_pop. exact (wi_table D w I).
Qed.
Lemma fresh_inv w : fresh_tcp w -> winv [] w.
Proof.
  intros (A & B & C & F). split; rewrite ?A, ?B; intros; try lia.
  - destruct H.
  - rewrite F in H. discriminate H.
  - apply C in H. congruence.
Qed.
Lemma run_inv q : forall ops D w, winv D w -> NoDup D -> let w' := top_run ops w in
  winv (D ++ completed q ops w) w' /\ NoDup (D ++ completed q ops w) /\ accepted q ops w ++ waiting_at q w' = waiting_at q w ++ completed q ops w.
Proof.
  induction ops as [|o r IH]; intros D w I N; cbn [top_run completed accepted].
  - rewrite !app_nil_r. auto.
  - destruct (top_step q D o w I) as [S1 S2 S3]. specialize (S2 N). destruct (IH _ _ S1 S2) as (A & B & C). rewrite <- app_assoc in A, B.
    split; [exact A|]. split; [exact B|]. rewrite <- app_assoc, C, app_assoc, S3, app_assoc. reflexivity.
Qed.

(** ** the SYN *)
Lemma good_valid p : good_syn p <-> valid_syn p.
Proof.
  unfold good_syn, valid_syn, is_syn. split.
  - intros (-> & -> & -> & -> & A & B). auto.
  - intros (A & B). destruct (d_syn p), (d_ack p), (d_fin p), (d_rst p); try discriminate A. tauto.
Qed.
Lemma get_put_same k i t : sock_get k (sock_put k i t) = Some i.
Proof.
  unfold sock_get. induction t as [|[a b] r IH]; cbn [sock_put find fst]; [rewrite skey_eqb_refl; reflexivity|].
  destruct (skey_eqb k a) eqn:E; cbn [find fst]; rewrite E; [reflexivity|exact IH].
Qed.
Lemma get_put_other k i t x : x <> k -> sock_get x (sock_put k i t) = sock_get x t.
Proof.
  intros N. assert (F : skey_eqb x k = false) by (apply not_true_is_false; rewrite skey_eqb_eq; exact N).
  unfold sock_get. induction t as [|[a b] r IH]; cbn [sock_put find fst]; [rewrite F; reflexivity|].
  destruct (skey_eqb k a) eqn:E; cbn [find fst].
  - apply skey_eqb_eq in E. subst a. rewrite F. reflexivity.
  - destruct (skey_eqb x a); [reflexivity|exact IH].
Qed.
Lemma fork_exact D i j p iss w : winv D w -> (i < tw_nsock w)%nat -> t_sess (tw_sock w i) = Some j -> st (tw_sess w j) = LISTEN -> good_syn p ->
  forked i j p w (fst (deliver i p iss w)) /\ snd (deliver i p iss w) = Ok tt /\
  exists b, tw_sess (fst (deliver i p iss w)) j = moved SYN_RCVD (adopt p (set_reg b (tw_sess w j))).
Proof.
  intros I L T S G. destruct (wi_sess D w I i j L T) as [J O]. apply good_valid in G. destruct G as (G1 & G2 & G3).
  unfold deliver. rewrite T. unfold session_call. set (b := registered _ _). clearbody b.
  rewrite (syn_taken p (set_reg b (tw_sess w j)) S G1 G2) by (apply no_data_iff; exact G3).
  set (s := moved SYN_RCVD (adopt p (set_reg b (tw_sess w j)))).
  assert (X : st s = SYN_RCVD /\ ends_of s = ends_in p /\ effs s = effs (tw_sess w j) ++ [FFork p] /\ reg s = true) by (unfold s, moved, adopt, ends_of; sx; auto).
  assert (Y : s = moved SYN_RCVD (adopt p (set_reg b (tw_sess w j)))) by reflexivity. clearbody s. destruct X as (X1 & X2 & X3 & X4).
  rewrite X4. rewrite (skipn_app_eq (effs (tw_sess w j)) (effs s) [FFork p] X3). cbn [fold_left fst snd]. unfold effect.
  change (tw_owner (put_sess j s w) j) with (tw_owner w j). rewrite O. change (tw_nsess (put_sess j s w)) with (tw_nsess w).
  destruct (listening_ok (s_lip (tw_sess w j)) (s_lport (tw_sess w j)) (s_rip (tw_sess w j)) (s_rport (tw_sess w j)) iss) as [L1 L2].
  assert (L3 : ends_of (listening_session (s_lip (tw_sess w j)) (s_lport (tw_sess w j)) (s_rip (tw_sess w j)) (s_rport (tw_sess w j)) iss) = ends_of (tw_sess w j)) by reflexivity.
  generalize dependent (listening_session (s_lip (tw_sess w j)) (s_lport (tw_sess w j)) (s_rip (tw_sess w j)) (s_rport (tw_sess w j)) iss). intros ls L1 L2 L3.
  split; [|split; [reflexivity|]].
  - split; cbn [tw_nsess tw_nsock tw_sock tw_sess tw_owner tw_table put_owner put_table add_sock put_sock add_sess put_sess]; cbv zeta.
    + auto.
    + rewrite upd_same. repeat split. apply get_put_same.
    + rewrite !upd_same. rewrite upd_other by lia. rewrite upd_same. auto.
    + rewrite (upd_other (tw_nsock w) i) by lia. rewrite upd_same. rewrite upd_same. rewrite (upd_other j (tw_nsess w)) by lia. rewrite upd_same. auto.
    + rewrite (upd_other (tw_nsock w) i) by lia. rewrite upd_same. repeat split.
    + intros k N. apply get_put_other. exact N.
    + intros k K N. rewrite !upd_other by lia. reflexivity.
    + intros x A N. rewrite !upd_other by lia. reflexivity.
  - exists b. cbn [tw_sess put_owner put_table add_sock put_sock add_sess put_sess tw_nsess]. rewrite upd_other by lia. rewrite upd_same. exact Y.
Qed.

(** ** who creates sessions, who completes handshakes *)
Lemma effect_sess old iss j e w x : (x < tw_nsess w)%nat -> tw_sess (effect old iss j e w) x = tw_sess w x /\ (x < tw_nsess (effect old iss j e w))%nat.
Proof.
  intros L. destruct e as [|p]; unfold effect.
  - destruct (t_parent _); split; auto.
  - cbn [tw_sess tw_nsess put_owner put_table add_sock put_sock add_sess]. split; [apply upd_other; lia|lia].
Qed.
Lemma effects_sess old iss j l : forall w x, (x < tw_nsess w)%nat -> tw_sess (fold_left (fun w e => effect old iss j e w) l w) x = tw_sess w x.
Proof. induction l as [|e l IH]; intros w x L; [reflexivity|]. cbn [fold_left]. destruct (effect_sess old iss j e w x L) as [A B]. rewrite IH by exact B. exact A. Qed.
Lemma call_sess j iss m w x : (x < tw_nsess w)%nat -> exists b,
  tw_sess (fst (session_call j iss m w)) x = if Nat.eqb x j then fst (m (set_reg b (tw_sess w j))) else tw_sess w x.
Proof.
  intros L. exists (registered (tcp_key (tw_sock w (tw_owner w j))) (tw_table w)).
  assert (C : tw_sess (called j iss m w) x = if Nat.eqb x j then fst (m (set_reg (registered (tcp_key (tw_sock w (tw_owner w j))) (tw_table w)) (tw_sess w j))) else tw_sess w x).
  { unfold called. rewrite effects_sess by exact L. reflexivity. }
  destruct (call_eq j iss m w) as [-> | ->]; exact C.
Qed.
Lemma call_counts e j iss m w : (forall b, kind e (tw_sess w j) (fst (m (set_reg b (tw_sess w j))))) -> let w' := fst (session_call j iss m w) in
  (tw_nsess w' = tw_nsess w /\ tw_nsock w' = tw_nsock w) \/ (tw_nsess w' = S (tw_nsess w) /\ tw_nsock w' = S (tw_nsock w) /\ exists p, e = EPacket p /\ st (tw_sess w j) = LISTEN /\ good_syn p).
Proof.
  intros K w'. assert (C : let w' := called j iss m w in (tw_nsess w' = tw_nsess w /\ tw_nsock w' = tw_nsock w) \/
    (tw_nsess w' = S (tw_nsess w) /\ tw_nsock w' = S (tw_nsock w) /\ exists p, e = EPacket p /\ st (tw_sess w j) = LISTEN /\ good_syn p)).
  { unfold called. set (b := registered _ _). specialize (K b). clearbody b. generalize dependent (fst (m (set_reg b (tw_sess w j)))). intros s K. cbv zeta.
    destruct K as [K1 K2 K3 K4|p K1 K2 K3 K4 K5|p K1 K2 K3 K4 K5 K6 K7 K8].
    - rewrite skipn_all_eq by exact K1. left. split; reflexivity.
    - rewrite (skipn_app_eq (effs (tw_sess w j)) (effs s) [FFork p]) by (rewrite K4; reflexivity). right. split; [reflexivity|]. split; [reflexivity|]. exists p. split; [exact K1|]. split; [exact K2|]. apply good_valid. exact K3.
    - rewrite (skipn_app_eq (effs (tw_sess w j)) (effs s) [FAccept]) by exact K5. left. cbn [fold_left effect]. destruct (t_parent _); split; reflexivity. }
  cbv zeta in C. unfold w'. destruct (call_eq j iss m w) as [-> | ->]; exact C.
Qed.
Lemma fsm_kinds D w j e : winv D w -> (j < tw_nsess w)%nat -> e <> ECall Listen -> forall b, kind e (tw_sess w j) (fst (tcp_fsm e (set_reg b (tw_sess w j)))).
Proof. intros I J E b. apply kind_reg with b. apply fsm_kind; [exact E|]. apply phase_reg. apply (wi_phase D w I). exact J. Qed.
Lemma tick_kinds D w j : winv D w -> (j < tw_nsess w)%nat -> forall b, kind ETimer (tw_sess w j) (fst (tick (set_reg b (tw_sess w j)))).
Proof. intros I J b. apply kind_reg with b. apply tick_kind. apply phase_reg. apply (wi_phase D w I). exact J. Qed.
Lemma fresh_call lip lport rip rport iss e j w : e = ECall Connect \/ e = ECall Listen -> tw_sess w j = new_session lip lport rip rport iss true [] ->
  let w' := fst (session_call j 0 (tcp_fsm e) w) in tw_nsess w' = tw_nsess w /\ tw_nsock w' = tw_nsock w.
Proof.
  intros E N w'. assert (C : tw_nsess (called j 0 (tcp_fsm e) w) = tw_nsess w /\ tw_nsock (called j 0 (tcp_fsm e) w) = tw_nsock w).
  { unfold called. rewrite N. set (b := registered _ _). clearbody b.
    assert (P : effs (fst (tcp_fsm e (set_reg b (new_session lip lport rip rport iss true [])))) = []) by (destruct E as [-> | ->]; reflexivity).
    rewrite P. split; reflexivity. }
  unfold w'. destruct (call_eq j 0 (tcp_fsm e) w) as [-> | ->]; exact C.
Qed.
Lemma top_counts D o w : winv D w -> let w' := fst (top_do o w) in
  (tw_nsess w' = tw_nsess w /\ tw_nsock w' = tw_nsock w) \/
  (tw_nsess w' = tw_nsess w /\ tw_nsock w' = S (tw_nsock w) /\ exists f, o = TSocket f) \/
  (tw_nsess w' = S (tw_nsess w) /\ tw_nsock w' = tw_nsock w /\ ((exists i iss, o = TListen i iss) \/ (exists c i t p iss, o = TConnect c i t p iss))) \/
  (tw_nsess w' = S (tw_nsess w) /\ tw_nsock w' = S (tw_nsock w) /\ exists p iss i j, o = TSegment p iss /\ segment_target (tw_table w) p = Some i /\ t_sess (tw_sock w i) = Some j /\ st (tw_sess w j) = LISTEN /\ good_syn p).
Proof.
  intros I. destruct o as [f|c i t p|c i t p iss|i iss|i|i|i d|j n r|c i|c|p iss|j|a|k i|k]; cbn [top_do]; cbv zeta.
  - right. left. split; [reflexivity|]. split; [reflexivity|]. exists f. reflexivity.
  - left. unfold on_tsock. destruct (Nat.ltb _ _); [|auto]. unfold tcp_bind. destruct (bound_port _); [auto|]. destruct t as [a|]; [|auto]. destruct (negb _); [auto|]. destruct (negb _); [auto|].
    destruct (if 0 <? p then _ else _); auto.
  - unfold on_tsock. destruct (Nat.ltb _ _); [|auto]. cbn [tret_of fst]. unfold tcp_connect. destruct (negb _); [auto|]. destruct (if bound_port _ then _ else _) as [x|x]; [|auto].
    destruct (tcp_set_ip _ _ _ _ _) as [[lip rip]|x']; [|auto]. cbv zeta. right. right. left.
    match goal with |- context [session_call ?j 0 ?m ?w1] => destruct (fresh_call lip x rip p iss (ECall Connect) j w1) as [A B]; [auto|cbn [tw_sess put_sock add_sess tw_nsess]; apply upd_same|] end.
    rewrite A, B. split; [reflexivity|]. split; [reflexivity|]. right. exists c, i, t, p, iss. reflexivity.
  - unfold on_tsock. destruct (Nat.ltb _ _); [|auto]. cbn [tret_of fst]. unfold tcp_listen. cbv zeta. right. right. left.
    match goal with |- context [session_call ?j 0 ?m ?w1] => destruct (fresh_call (t_lip (tw_sock w i)) (t_lport (tw_sock w i)) (t_rip (tw_sock w i)) (t_rport (tw_sock w i)) iss (ECall Listen) j w1) as [A B]; [auto|cbn [tw_sess put_table put_sock add_sess tw_nsess]; apply upd_same|] end.
    rewrite A, B. split; [reflexivity|]. split; [reflexivity|]. left. exists i, iss. reflexivity.
  - left. unfold on_tsock, accept_acquire. destruct (Nat.ltb _ _); [|auto]. cbn [fst]. destruct (_ <? _); auto.
  - left. unfold on_tsock, accept_pop. destruct (Nat.ltb _ _); [|auto]. destruct (_ <? _); [|auto]. destruct (t_queue _); auto.
  - left. unfold on_tsock, tcp_send. destruct (Nat.ltb _ _); [|auto]. cbn [tret_of fst]. destruct (_ || _); [auto|]. destruct (t_sess _); [|auto]. destruct (session_send _ _) as [s [n'|e]]; auto.
  - left. destruct (Nat.ltb _ _); auto.
  - left. unfold on_tsock, close_load. destruct (Nat.ltb _ _); [|auto]. cbn [tret_of fst]. destruct (t_sess _); auto.
  - left. cbn [tret_of fst]. unfold close_call. destruct (tw_close w c) as [j|] eqn:E; [|auto].
    destruct (call_counts (ECall Close) j 0 (tcp_fsm (ECall Close)) (put_close c None w)) as [X|(_ & _ & p & X & _)]; [|exact X|discriminate X].
    apply (fsm_kinds D w j); auto; [|discriminate]. apply (wi_close D w I c). exact E.
  - destruct (segment_target _ _) as [i|] eqn:T; [|auto]. unfold on_tsock. destruct (Nat.ltb_spec i (tw_nsock w)) as [L|L]; [|auto]. cbn [tret_of fst]. unfold deliver. destruct (t_sess _) as [j|] eqn:E; [|auto].
    destruct (call_counts (EPacket p) j iss (tcp_fsm (EPacket p)) w) as [X|(X1 & X2 & q & X3 & X4 & X5)]; [|auto|].
    + apply (fsm_kinds D w j); auto; [|discriminate]. apply (wi_sess D w I i); auto.
    + injection X3 as <-. right. right. right. split; [exact X1|]. split; [exact X2|]. exists p, iss, i, j. auto.
  - left. destruct (Nat.ltb_spec j (tw_nsess w)) as [L|L]; [|auto]. cbn [tret_of fst].
    destruct (call_counts ETimer j 0 tick w) as [X|(_ & _ & p & X & _)]; [|exact X|discriminate X]. apply (tick_kinds D w j); auto.
  - auto.
  - auto.
  - auto.
Qed.
