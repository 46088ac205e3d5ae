(** Lemmas for C103 and C104. *)
From Verif Require Import Base BaseLemmas TrackModel LifeModel SpecTrack.

Lemma hex_value_up d : 0 <= d < 16 -> hex_value d (hex_up d).
Proof. unfold hex_value, hex_up. destruct (d <? 10) eqn:E; lia. Qed.
Lemma hex_value_fun d e c : hex_value d c -> hex_value e c -> d = e.
Proof. unfold hex_value. lia. Qed.
Lemma log2_le n k : 0 <= k -> 0 < n -> 2 ^ k <= n -> k <= Z.log2 n.
Proof. intros. apply Z.log2_le_pow2; lia. Qed.
(** the digits, whatever the fuel *)
Lemma hex_fuel_S f n : hex_fuel (S f) n = (if n <? 16 then [] else hex_fuel f (n / 16)) ++ [hex_up (n mod 16)].
Proof. reflexivity. Qed.
Lemma fill4_hex n : 0 <= n < 65536 -> fill4 (hex_num n) = [hex_up (n / 4096); hex_up (n / 256 mod 16); hex_up (n / 16 mod 16); hex_up (n mod 16)].
Proof.
  intros H. unfold hex_num. assert (H0 : hex_up 0 = 48) by reflexivity.
  assert (Lg : forall k, 0 <= k -> 2 ^ k <= n -> exists f, Z.to_nat (Z.log2 n) = (Z.to_nat k + f)%nat).
  { intros k Hk Hn. exists (Z.to_nat (Z.log2 n) - Z.to_nat k)%nat. assert (k <= Z.log2 n) by (apply log2_le; [lia| |lia]; pose proof (Z.pow_pos_nonneg 2 k); lia). lia. }
  rewrite hex_fuel_S. destruct (n <? 16) eqn:E1.
  { cbn. replace (n / 4096) with 0 by (symmetry; apply Z.div_small; lia). replace (n / 256) with 0 by (symmetry; apply Z.div_small; lia).
    replace (n / 16) with 0 by (symmetry; apply Z.div_small; lia). reflexivity. }
  destruct (Lg 4) as (f & ->); [lia|cbn; lia|]. change (Z.to_nat 4 + f)%nat with (S (3 + f)). rewrite hex_fuel_S.
  destruct (n / 16 <? 16) eqn:E2.
  { replace (n / 4096) with 0 by (symmetry; apply Z.div_small; lia). replace (n / 256) with 0 by (symmetry; apply Z.div_small; lia). reflexivity. }
  assert (256 <= n) by lia. change (3 + f)%nat with (S (2 + f)). rewrite hex_fuel_S.
  assert (Q2 : n / 16 / 16 = n / 256) by (rewrite Z.div_div by lia; reflexivity). rewrite Q2.
  destruct (n / 256 <? 16) eqn:E3.
  { replace (n / 4096) with 0 by (symmetry; apply Z.div_small; lia). reflexivity. }
  change (2 + f)%nat with (S (1 + f)). rewrite hex_fuel_S.
  assert (Q3 : n / 256 / 16 = n / 4096) by (rewrite Z.div_div by lia; reflexivity). rewrite Q3.
  assert (n / 4096 < 16) by lia. destruct (n / 4096 <? 16) eqn:E4; [|lia]. rewrite (Z.mod_small (n / 4096)) by lia. reflexivity.
Qed.
Lemma serial_shows p n : 0 <= n < 65536 -> shows p n (serial_text p n).
Proof.
  intros H. unfold serial_text, shows. rewrite (fill4_hex n H).
  exists (hex_up (n / 4096)), (hex_up (n / 256 mod 16)), (hex_up (n / 16 mod 16)), (hex_up (n mod 16)), (n / 4096), (n / 256 mod 16), (n / 16 mod 16), (n mod 16).
  split; [destruct p; reflexivity|]. repeat (split; [apply hex_value_up; lia|]). lia.
Qed.
Lemma shows_fun p q n m t : shows p n t -> shows q m t -> p = q /\ n = m.
Proof.
  intros (a & b & c & d & x & y & z & w & -> & H1 & H2 & H3 & H4 & ->) (a' & b' & c' & d' & x' & y' & z' & w' & E & K1 & K2 & K3 & K4 & ->).
  destruct p, q; cbn in E; try discriminate; injection E as <- <- <- <-;
  (split; [reflexivity|]); rewrite (hex_value_fun _ _ _ H1 K1), (hex_value_fun _ _ _ H2 K2), (hex_value_fun _ _ _ H3 K3), (hex_value_fun _ _ _ H4 K4); reflexivity.
Qed.
Definition serial_at (p : prefix) (s : serials) : Z := match p with RX => sr_rx s | TX => sr_tx s end.
Lemma next_serial_mod n : 0 <= n < 65536 -> next_serial n = (n + 1) mod 65536.
Proof. intros H. unfold next_serial. destruct (n + 1 >? 65535) eqn:E; lia. Qed.
Lemma trackers_nth l : forall s i p, 0 <= sr_rx s < 65536 -> 0 <= sr_tx s < 65536 -> nth_error l i = Some p ->
  nth_error (trackers l s) i = Some (Track (serial_text p ((serial_at p s + before p i l) mod 65536)) None).
Proof.
  induction l as [|q l IH]; intros s i p Hr Ht N; [destruct i; discriminate|].
  destruct i as [|i].
  - injection N as ->. unfold before. cbn. rewrite Z.add_0_r. destruct p; cbn [new_tracker nth_error serial_at]; rewrite Z.mod_small by assumption; reflexivity.
  - cbn [nth_error] in N. cbn [trackers]. assert (B : before p (S i) (q :: l) = before p i l + if prefix_eqb p q then 1 else 0).
    { unfold before. cbn [firstn filter]. destruct (prefix_eqb p q); cbn [length]; lia. }
    rewrite B. destruct q; cbn [new_tracker nth_error]; rewrite (IH _ i p); cbn [sr_rx sr_tx]; auto.
    all: try (rewrite next_serial_mod by assumption; apply Z.mod_pos_bound; lia).
    all: destruct p; cbn [serial_at prefix_eqb sr_rx sr_tx]; rewrite ?next_serial_mod, ?Z.add_mod_idemp_l by (assumption || lia); do 4 f_equal; lia.
Qed.
Lemma made_trackers l s t : 0 <= sr_rx s < 65536 -> 0 <= sr_tx s < 65536 -> In t (trackers l s) -> made t.
Proof.
  intros Hr Ht I. apply In_nth_error in I. destruct I as (i & N).
  assert (L : (i < length l)%nat).
  { assert (length (trackers l s) = length l) as <-; [|apply nth_error_Some; congruence]. clear. revert s. induction l as [|p l IH]; intros s; [reflexivity|]. cbn [trackers]. destruct p; cbn; rewrite IH; reflexivity. }
  apply nth_error_Some in L. destruct (nth_error l i) as [p|] eqn:E; [|congruence]. rewrite (trackers_nth l s i p Hr Ht E) in N. injection N as <-.
  cbn. split; [|exact I]. eexists _, _. split; [|reflexivity]. apply Z.mod_pos_bound. lia.
Qed.
(** no blanks in a serial *)
Lemma serial_no_blank p n : 0 <= n < 65536 -> ~ In 32 (serial_text p n).
Proof.
  intros H. destruct (serial_shows p n H) as (a & b & c & d & x & y & z & w & -> & H1 & H2 & H3 & H4 & _). unfold hex_value in *.
  intros I. destruct p; cbn in I; repeat (destruct I as [I|I]; [lia|]); exact I.
Qed.
Lemma split_blank s t u v : ~ In 32 s -> ~ In 32 t -> s ++ [32] ++ u = t ++ [32] ++ v -> s = t /\ u = v.
Proof.
  revert t. induction s as [|x s IH]; intros t Hs Ht E; destruct t as [|y t]; cbn in *.
  - injection E as ->. auto.
  - injection E as <- E. destruct Ht. left; reflexivity.
  - injection E as -> E. destruct Hs. left; reflexivity.
  - injection E as -> E. destruct (IH t) as (-> & ->); tauto.
Qed.
Lemma str_chain t : forall u, made t -> made u -> tracker_str t = tracker_str u -> chain t = chain u.
Proof.
  assert (NB : forall p n e, 0 <= n < 65536 -> tracker_str (Track (serial_text p n) None) = tracker_str e -> In 32 (tracker_str e) -> False).
  { intros p n e H E I. rewrite <- E in I. cbn in I. eapply serial_no_blank; eauto. }
  assert (R : forall t, (forall e, match t with Track _ (Some x) => e = x -> (forall u, made e -> made u -> tracker_str e = tracker_str u -> chain e = chain u) | _ => True end) ->
    forall u, made t -> made u -> tracker_str t = tracker_str u -> chain t = chain u).
  { intros [s e] IH [s' e'] M M' E. cbn [made] in M, M'. destruct M as ((p & n & Hn & ->) & Me), M' as ((p' & n' & Hn' & ->) & Me').
    destruct e as [e|], e' as [e'|].
    - cbn [tracker_str] in E. apply split_blank in E; [|apply serial_no_blank; assumption|apply serial_no_blank; assumption].
      destruct E as (Es & Ee). cbn [chain]. rewrite Es. f_equal. apply (IH e eq_refl); assumption.
    - exfalso. eapply (NB p' n'); [exact Hn'|symmetry; exact E|]. cbn [tracker_str]. apply in_or_app. right. left. reflexivity.
    - exfalso. eapply (NB p n); [exact Hn|exact E|]. cbn [tracker_str]. apply in_or_app. right. left. reflexivity.
    - cbn in *. congruence. }
  revert t. fix F 1. intros t. apply R. destruct t as [s [x|]]; intros e; [|exact I]. intros ->. apply F.
Qed.

(** ** one thread at a time *)
Lemma alone n ts i : nth_error ts i = Some fresh_thread -> 0 <= n < 65536 ->
  exists k ts', sched (repeat i k) (n, ts) = (next_serial n, ts') /\ nth_error ts' i = Some {| th_pc := PDone; th_serial := Some n |} /\
    (forall j, j <> i -> nth_error ts' j = nth_error ts j) /\ length ts' = length ts.
Proof.
  intros N H.
  assert (G : forall (l : list tthread) t t', nth_error l i = Some t -> nth_error (set_nth i t' l) i = Some t').
  { clear. induction i as [|i IH]; intros [|x l] t t'; cbn; try discriminate; auto. intros E. eapply IH; eauto. }
  assert (O : forall (l : list tthread) t' j, j <> i -> nth_error (set_nth i t' l) j = nth_error l j).
  { clear. induction i as [|i IH]; intros [|x l] t' [|j] Hj; cbn; auto; try congruence. }
  assert (Ln : forall (l : list tthread) t', length (set_nth i t' l) = length l).
  { clear. induction i as [|i IH]; intros [|x l] t'; cbn; auto. }
  assert (St : forall c (l : list tthread) t, nth_error l i = Some t -> sched_step i (c, l) = (fst (thread_step c t), set_nth i (snd (thread_step c t)) l)).
  { intros c l t E. unfold sched_step. cbn [fst snd]. rewrite E. destruct (thread_step c t); reflexivity. }
  unfold next_serial. destruct (n + 1 >? 65535) eqn:E.
  - exists 5%nat. eexists. cbn [repeat sched]. rewrite (St _ _ _ N). cbn [thread_step fresh_thread th_pc th_serial fst snd].
    rewrite (St _ _ _ (G _ _ _ N)). cbn [thread_step th_pc th_serial fst snd].
    rewrite (St _ _ _ (G _ _ _ (G _ _ _ N))). cbn [thread_step th_pc th_serial fst snd].
    rewrite (St _ _ _ (G _ _ _ (G _ _ _ (G _ _ _ N)))). cbn [thread_step th_pc th_serial fst snd]. rewrite E.
    rewrite (St _ _ _ (G _ _ _ (G _ _ _ (G _ _ _ (G _ _ _ N))))). cbn [thread_step th_pc th_serial fst snd].
    split; [reflexivity|]. split; [eapply G, G, G, G, G; exact N|]. split; [intros j Hj; rewrite !O by assumption; reflexivity|rewrite !Ln; reflexivity].
  - exists 4%nat. eexists. cbn [repeat sched]. rewrite (St _ _ _ N). cbn [thread_step fresh_thread th_pc th_serial fst snd].
    rewrite (St _ _ _ (G _ _ _ N)). cbn [thread_step th_pc th_serial fst snd].
    rewrite (St _ _ _ (G _ _ _ (G _ _ _ N))). cbn [thread_step th_pc th_serial fst snd].
    rewrite (St _ _ _ (G _ _ _ (G _ _ _ (G _ _ _ N)))). cbn [thread_step th_pc th_serial fst snd]. rewrite E.
    split; [reflexivity|]. split; [eapply G, G, G, G; exact N|]. split; [intros j Hj; rewrite !O by assumption; reflexivity|rewrite !Ln; reflexivity].
Qed.

(** ** threads that are stopped *)
Lemma set_place_same i p q l : nth_error l i = Some q -> nth_error (set_place i p l) i = Some p.
Proof. revert i. induction l as [|x l IH]; intros [|i]; cbn; try discriminate; auto. Qed.
Lemma set_place_other i j p l : j <> i -> nth_error (set_place i p l) j = nth_error l j.
Proof. revert i j. induction l as [|x l IH]; intros [|i] [|j] H; cbn; auto; congruence. Qed.
Definition owes (i : nat) (s : life) : nat := match nth_error (l_threads s) i with Some InRound => 1 | _ => 0 end.
Lemma rounds_snoc i j s r t : rounds_of i {| l_run := r; l_threads := t; l_rounds := l_rounds s ++ [j] |} = (rounds_of i s + if Nat.eqb i j then 1 else 0)%nat.
Proof. unfold rounds_of. cbn [l_rounds]. rewrite filter_app, app_length. cbn [filter]. destruct (Nat.eqb i j); reflexivity. Qed.
Lemma down_step i o s : l_run s = false -> o <> LUp ->
  l_run (lstep o s) = false /\ (rounds_of i (lstep o s) + owes i (lstep o s) <= rounds_of i s + owes i s)%nat /\
  (rounds_of i s <= rounds_of i (lstep o s))%nat.
Proof.
  intros D N. destruct o as [| | |j]; [congruence| | |].
  - cbn. split; [exact D|]. unfold rounds_of, owes. cbn. destruct (nth_error (l_threads s) i) as [p|] eqn:E.
    + rewrite nth_error_app1 by (apply nth_error_Some; congruence). rewrite E. split; lia.
    + destruct (Nat.eq_dec i (length (l_threads s))) as [->|Ne].
      * rewrite nth_error_app2, Nat.sub_diag by lia. cbn. split; lia.
      * apply nth_error_None in E. assert (nth_error (l_threads s ++ [AtTest]) i = None) as -> by (apply nth_error_None; rewrite app_length; cbn; lia). split; lia.
  - cbn. split; [reflexivity|]. unfold rounds_of, owes. cbn. split; lia.
  - cbn [lstep]. destruct (nth_error (l_threads s) j) as [[| |]|] eqn:E; try (split; [exact D|split; lia]).
    + rewrite D. split; [reflexivity|]. split; [|unfold rounds_of; cbn; lia]. unfold rounds_of, owes. cbn [l_rounds l_threads].
      destruct (Nat.eq_dec i j) as [->|Ne]; [rewrite (set_place_same _ _ _ _ E), E; lia|rewrite set_place_other by assumption; lia].
    + split; [exact D|]. rewrite rounds_snoc. unfold owes at 1. cbn [l_threads]. destruct (Nat.eq_dec i j) as [->|Ne].
      * rewrite Nat.eqb_refl, (set_place_same _ _ _ _ E). unfold owes. rewrite E. split; lia.
      * destruct (Nat.eqb_spec i j); [congruence|]. rewrite set_place_other by assumption. fold (owes i s). split; lia.
Qed.
Lemma down_run i l : forall s, l_run s = false -> ~ In LUp l ->
  (rounds_of i s <= rounds_of i (lrun l s) <= rounds_of i s + owes i s)%nat.
Proof.
  induction l as [|o l IH]; intros s D N; cbn [lrun]; [lia|].
  destruct (down_step i o s D) as (D1 & B & M); [intros ->; apply N; left; reflexivity|].
  specialize (IH (lstep o s) D1 ltac:(intros X; apply N; right; exact X)). lia.
Qed.
(** two turns after the stop, and the thread has ended *)
Definition left_ (i : nat) (s : life) : nat := match nth_error (l_threads s) i with Some InRound => 2 | Some AtTest => 1 | _ => 0 end.
Lemma left_step i o s : l_run s = false -> o <> LUp -> (i < length (l_threads s))%nat ->
  l_run (lstep o s) = false /\ (i < length (l_threads (lstep o s)))%nat /\
  (left_ i (lstep o s) <= left_ i s - match o with LTurn j => if Nat.eqb i j then 1 else 0 | _ => 0 end)%nat.
Proof.
  intros D N L. assert (Ls : forall j p (l : list place), length (set_place j p l) = length l).
  { clear. intros j p l. revert j. induction l as [|x l IH]; intros [|j]; cbn; auto. }
  destruct o as [| | |j]; [congruence| | |].
  - cbn. split; [exact D|]. split; [rewrite app_length; cbn; lia|]. unfold left_. cbn. rewrite nth_error_app1 by assumption. lia.
  - cbn. split; [reflexivity|]. split; [exact L|]. unfold left_. cbn. lia.
  - cbn [lstep]. destruct (nth_error (l_threads s) j) as [[| |]|] eqn:E.
    + cbn [l_run l_threads]. split; [exact D|]. split; [rewrite Ls; exact L|]. unfold left_. cbn [l_threads]. rewrite D. destruct (Nat.eqb_spec i j) as [->|Ne].
      * rewrite (set_place_same _ _ _ _ E), E. lia.
      * rewrite set_place_other by assumption. lia.
    + cbn [l_run l_threads]. split; [exact D|]. split; [rewrite Ls; exact L|]. unfold left_. cbn [l_threads]. destruct (Nat.eqb_spec i j) as [->|Ne].
      * rewrite (set_place_same _ _ _ _ E), E. lia.
      * rewrite set_place_other by assumption. lia.
    + split; [exact D|]. split; [exact L|]. unfold left_. destruct (Nat.eqb_spec i j) as [->|Ne]; [rewrite E; lia|lia].
    + split; [exact D|]. split; [exact L|]. unfold left_. destruct (Nat.eqb_spec i j) as [->|Ne]; [rewrite E; lia|lia].
Qed.
Lemma down_ends i l : forall s, l_run s = false -> ~ In LUp l -> (i < length (l_threads s))%nat -> (left_ i s <= turns i l)%nat ->
  nth_error (l_threads (lrun l s)) i = Some Ended.
Proof.
  assert (Z0 : forall s, (i < length (l_threads s))%nat -> left_ i s = 0%nat -> nth_error (l_threads s) i = Some Ended).
  { intros s L E. unfold left_ in E. apply nth_error_Some in L. destruct (nth_error (l_threads s) i) as [[| |]|]; congruence. }
  induction l as [|o l IH]; intros s D N L T; cbn [lrun]; [apply Z0; [exact L|]; cbn in T; lia|].
  destruct (left_step i o s D) as (D1 & L1 & B); [intros ->; apply N; left; reflexivity|exact L|].
  apply IH; auto; [intros X; apply N; right; exact X|]. unfold turns in T |- *. cbn [filter] in T.
  destruct o as [| | |j]; cbn [length] in T; try lia. destruct (Nat.eqb i j); cbn [length] in T; lia.
Qed.
(** one thread, if none is started before the last has ended *)
Lemma alive_place i p l : (length (filter (fun p => match p with Ended => false | _ => true end) (set_place i p l)) <=
  length (filter (fun p => match p with Ended => false | _ => true end) l) + match p with Ended => 0 | _ => match nth_error l i with Some Ended => 1 | _ => 0 end end)%nat.
Proof.
  revert i. induction l as [|x l IH]; intros [|i]; cbn [set_place filter nth_error]; try (cbn; lia).
  - destruct p, x; cbn; lia.
  - specialize (IH i). destruct x, p; cbn [length] in *; try destruct (nth_error l i) as [[| |]|]; lia.
Qed.
Lemma alive_step o s : (o = LSpawn -> alive s = 0%nat) -> (alive s <= 1)%nat -> (alive (lstep o s) <= 1)%nat.
Proof.
  intros H A. destruct o as [| | |j]; cbn [lstep]; try exact A.
  - unfold alive in *. cbn [l_threads]. rewrite filter_app, app_length, (H eq_refl). cbn. lia.
  - destruct (nth_error (l_threads s) j) as [[| |]|] eqn:E; try exact A; unfold alive in *; cbn [l_threads].
    + pose proof (alive_place j (if l_run s then InRound else Ended) (l_threads s)) as B. rewrite E in B. destruct (l_run s); lia.
    + pose proof (alive_place j AtTest (l_threads s)) as B. rewrite E in B. lia.
Qed.
