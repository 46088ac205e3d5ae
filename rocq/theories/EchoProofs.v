(** The UDP echo service. *)
From Verif Require Import Base BaseLemmas AddrModel StackModel StackRxModel UdpApiModel SpecUdpApi UdpApiProofs EchoModel SpecEcho.

(** ** the words *)
Lemma starts_iff w : forall m, starts w m = true <-> exists b, m = w ++ b.
Proof.
  induction w as [|x w IH]; intros m; cbn [starts app].
  - split; eauto.
  - destruct m as [|y m]; [split; [discriminate|intros (b & H); discriminate]|].
    rewrite andb_true_iff, Z.eqb_eq, IH. split.
    + intros (-> & b & ->). eauto.
    + intros (b & H). injection H as -> ->. eauto.
Qed.
Lemma contains_iff w : forall m, contains w m = true <-> exists a b, m = a ++ w ++ b.
Proof.
  induction m as [|y m IH]; cbn [contains]; rewrite orb_true_iff, starts_iff.
  - split.
    + intros [(b & H)|H]; [exists [], b; exact H|discriminate].
    + intros (a & b & H). left. destruct a; [eauto|discriminate].
  - rewrite IH. split.
    + intros [(b & H)|(a & b & ->)]; [exists [], b; exact H|exists (y :: a), b; reflexivity].
    + intros ([|z a] & b & H); [left; eauto|right]. injection H as -> ->. eauto.
Qed.
Lemma map_infix {A B} (f : A -> B) l a w b : map f l = a ++ w ++ b -> exists a' x b', l = a' ++ x ++ b' /\ map f x = w.
Proof.
  intros H. apply map_eq_app in H. destruct H as (a' & l' & -> & _ & H). apply map_eq_app in H. destruct H as (x & b' & -> & Hx & _). eauto.
Qed.
Definition solid (x : bytes) : Prop := x <> [] /\ forall b, In b x -> is_space b = false.
Lemma lstrip_suffix m : exists p, m = p ++ lstrip m.
Proof. induction m as [|b r (p & E)]; cbn; [exists []; auto|]. destruct (is_space b); [exists (b :: p); cbn; congruence|exists []; auto]. Qed.
Lemma lstrip_keeps x b : solid x -> forall a, exists a', lstrip (a ++ x ++ b) = a' ++ x ++ b.
Proof.
  intros (N & F). destruct x as [|c x]; [congruence|]. induction a as [|y a (a' & IH)].
  - exists []. cbn. rewrite F by (left; reflexivity). reflexivity.
  - cbn [app lstrip]. destruct (is_space y); [exists a'; exact IH|exists (y :: a); reflexivity].
Qed.
Lemma solid_rev x : solid x -> solid (rev x).
Proof. intros (N & F). split; [intros E; apply N; rewrite <- (rev_involutive x), E; reflexivity|intros b H; apply F, in_rev; auto]. Qed.
Lemma strip_infix m x : solid x -> ((exists a b, strip m = a ++ x ++ b) <-> exists a b, m = a ++ x ++ b).
Proof.
  intros S. unfold strip. split.
  - intros (a & b & E). destruct (lstrip_suffix m) as (p & P). destruct (lstrip_suffix (rev (lstrip m))) as (q & Q).
    assert (L : lstrip m = (a ++ x ++ b) ++ rev q) by (rewrite <- (rev_involutive (lstrip m)), Q, rev_app_distr, E; reflexivity).
    exists (p ++ a), (b ++ rev q). rewrite P, L, <- !app_assoc. reflexivity.
  - intros (a & b & ->). destruct (lstrip_keeps x b S a) as (a' & ->).
    rewrite !rev_app_distr, <- app_assoc. destruct (lstrip_keeps (rev x) (rev a') (solid_rev _ S) (rev b)) as (b' & ->).
    exists a', (rev b'). rewrite !rev_app_distr, !rev_involutive, <- app_assoc. reflexivity.
Qed.
Definition small_word (w : bytes) : Prop := w <> [] /\ forall c, In c w -> 97 <= c <= 122.
Lemma lower1_letter b c : 97 <= c <= 122 -> (lower1 b = c <-> same_letter b c).
Proof. intros H. unfold lower1, same_letter. destruct ((65 <=? b) && (b <=? 90)) eqn:E; lia. Qed.
Lemma letter_solid b c : 97 <= c <= 122 -> same_letter b c -> is_space b = false.
Proof. intros H [->|[]]; unfold is_space; lia. Qed.
Lemma lower_word x w : (forall c, In c w -> 97 <= c <= 122) -> (map lower1 x = w <-> Forall2 same_letter x w).
Proof.
  intros F. split.
  - intros <-. induction x as [|b x IH]; cbn; constructor.
    + apply lower1_letter; [apply F; left|]; reflexivity.
    + apply IH. intros c H. apply F. right. exact H.
  - intros H. induction H as [|b c x w L H IH]; cbn; [reflexivity|]. f_equal.
    + apply lower1_letter; [apply F; left; reflexivity|exact L].
    + apply IH. intros d D. apply F. right. exact D.
Qed.
Lemma word_solid x w : small_word w -> Forall2 same_letter x w -> solid x.
Proof.
  intros (N & F) H. split; [intros ->; inversion H; subst; congruence|]. clear N.
  induction H as [|b c x w L H IH]; intros d [].
  - subst d. apply (letter_solid b c); [apply F; left; reflexivity|exact L].
  - apply IH; [intros e E; apply F; right; exact E|assumption].
Qed.
Lemma contains_said w m : small_word w -> (contains w (lower (strip m)) = true <-> said w m).
Proof.
  intros S. rewrite contains_iff. unfold said, lower. split.
  - intros (a & b & E). apply map_infix in E. destruct E as (a' & x & b' & E & L). apply lower_word in L; [|apply S].
    destruct (proj1 (strip_infix m x (word_solid _ _ S L))) as (p & q & ->); eauto 6.
  - intros (a & x & b & -> & L). destruct (proj2 (strip_infix (a ++ x ++ b) x (word_solid _ _ S L))) as (p & q & E); [eauto|].
    rewrite E, !map_app. apply lower_word in L; [|apply S]. rewrite L. eauto.
Qed.
Lemma small_malpka : small_word w_malpka.
Proof. split; [discriminate|]. intros c H. cbn in H. lia. Qed.
Lemma small_malpa : small_word w_malpa.
Proof. split; [discriminate|]. intros c H. cbn in H. lia. Qed.
Lemma small_malpi : small_word w_malpi.
Proof. split; [discriminate|]. intros c H. cbn in H. lia. Qed.
Lemma not_contains w m : small_word w -> contains w (lower (strip m)) = false -> ~ said w m.
Proof. intros S E H. apply contains_said in H; auto. congruence. Qed.
Lemma echo_answer m : answer_to m (echo_message m).
Proof.
  unfold echo_message.
  destruct (contains w_malpka (lower (strip m))) eqn:A; [apply an_malpka, contains_said; auto using small_malpka|apply not_contains in A; [|apply small_malpka]].
  destruct (contains w_malpa (lower (strip m))) eqn:B; [apply an_malpa, contains_said; auto using small_malpa|apply not_contains in B; [|apply small_malpa]].
  destruct (contains w_malpi (lower (strip m))) eqn:C; [apply an_malpi; auto; apply contains_said; auto using small_malpi|apply not_contains in C; [|apply small_malpi]].
  apply an_same; auto.
Qed.
Lemma text_names f a : names f (text_for f a) a.
Proof. destruct f, a; cbn; congruence. Qed.

(** ** calls on other sockets leave the ends of a socket alone *)
Definition apart {A} (i : nat) (m : R A) : Prop := forall n n' r, m n = (n', r) -> ends (n_udp n' i) = ends (n_udp n i).
Lemma ap_keeps {A} i (m : R A) : keeps m -> apart i m.
Proof. intros K n n' r E. apply (K _ _ _ E). Qed.
Lemma ap_ret {A} i (a : A) : apart i (rret a).
Proof. intros n n' r E. injection E as <- _. reflexivity. Qed.
Lemma ap_lift {A} i (a : res A) : apart i (rlift a).
Proof. intros n n' r E. injection E as <- _. reflexivity. Qed.
Lemma ap_gets {A} i (f : node -> A) : apart i (rgets f).
Proof. intros n n' r E. injection E as <- _. reflexivity. Qed.
Lemma ap_pick i c : apart i (fun n => rlift (pick_port c (n_socks n)) n).
Proof. intros n n' r E. injection E as <- _. reflexivity. Qed.
Lemma ap_bind {A B} i (m : R A) (k : A -> R B) : apart i m -> (forall a, apart i (k a)) -> apart i (x <+ m ;; k x).
Proof.
  intros H K n n' r E. apply bind_inv in E. destruct E as [(n1 & a & E1 & E2)|(e & E1 & _)]; [|eapply H; eauto].
  rewrite (K _ _ _ _ E2). eapply H; eauto.
Qed.
Lemma ap_upd i f : (forall n, ends (n_udp (f n) i) = ends (n_udp n i)) -> apart i (rupd f).
Proof. intros H n n' r E. injection E as <- _. apply H. Qed.
Lemma ap_register i j f : i <> j -> apart i (rupd (re_register j f)).
Proof. intros N. apply ap_upd. intros n. cbn. destruct (Nat.eqb_spec i j); congruence. Qed.
Lemma ap_udp_bind i j c t p : i <> j -> apart i (udp_bind c j t p).
Proof.
  intros N. unfold udp_bind. apply ap_bind; [apply ap_gets|intros u]. destruct (bound_port _); [apply ap_lift|]. destruct t; [|apply ap_lift].
  apply ap_bind; [apply ap_gets|intros o]. destruct (negb _); [apply ap_lift|]. destruct (negb _); [apply ap_lift|]. cbv zeta.
  apply ap_bind; [|intros q; apply ap_register; auto]. destruct (0 <? p); [|apply ap_pick].
  apply ap_bind; [apply ap_gets|intros b]. destruct b; [apply ap_lift|apply ap_ret].
Qed.
Lemma ap_connect i j c t p : i <> j -> apart i (udp_connect c j t p).
Proof.
  intros N. unfold udp_connect. destruct (negb _); [apply ap_lift|]. apply ap_bind; [apply ap_gets|intros u].
  apply ap_bind; [destruct (bound_port _); [apply ap_ret|apply ap_pick]|intros q].
  apply ap_bind; [apply ap_keeps, keeps_set_ip|intros x; apply ap_register; auto].
Qed.
Lemma ap_tail i j d t l p rp : apart i (ips <+ udp_set_ip j t l p rp ;; st <+ tx (phtx_udp (fst ips) (snd ips) p rp d) ;; rret (sent_len st d)).
Proof.
  apply ap_bind; [apply ap_keeps, keeps_set_ip|intros x]. apply ap_bind; [apply ap_keeps, keeps_tx|intros st; apply ap_ret].
Qed.
Lemma ap_sendto i j c d t p : i <> j -> apart i (udp_sendto c j d t p).
Proof.
  intros N. unfold udp_sendto. destruct (negb _); [apply ap_lift|]. apply ap_bind; [apply ap_gets|intros u].
  apply ap_bind; [|intros _; apply ap_bind; [apply ap_gets|intros q; apply ap_tail]].
  destruct (bound_port _); [apply ap_ret|].
  apply ap_bind; [apply ap_upd; reflexivity|intros _]. apply ap_bind; [apply ap_pick|intros q].
  apply ap_bind; [|intros _]; apply ap_upd; intros n; [cbn; destruct (Nat.eqb_spec i j); congruence|reflexivity].
Qed.
(** a bound socket's own sendto *)
Lemma sendto_ends i c d t p n n' r : bound_port (u_lport0 (n_udp n i)) = true -> udp_sendto c i d t p n = (n', r) -> ends (n_udp n' i) = ends (n_udp n i).
Proof.
  intros B E. unfold udp_sendto in E. destruct (negb _); [injection E as <- _; reflexivity|].
  unfold rbind' at 1, rgets at 1 in E. rewrite B in E. unfold rbind' at 1, rret at 1 in E. unfold rbind' at 1, rgets at 1 in E.
  eapply ap_tail; eauto.
Qed.
Lemma step_ends o w i : (i < w_next w)%nat -> ~ call_on i o -> ends (n_udp (w_node (fst (uop_do o w))) i) = ends (n_udp (w_node w) i).
Proof.
  intros L C.
  assert (N : forall A (m : R A) f, apart i m -> ends (n_udp (w_node (fst (on_node m f w))) i) = ends (n_udp (w_node w) i)).
  { intros A m f H. unfold on_node. destruct (m (w_node w)) as [n' r] eqn:E. cbn. eapply H; eauto. }
  assert (K : forall j A (m : R A) f, apart i m -> ends (n_udp (w_node (fst (on_sock j m f w))) i) = ends (n_udp (w_node w) i)).
  { intros j A m f H. unfold on_sock. destruct (known j w); [apply N; exact H|reflexivity]. }
  destruct o; cbn [uop_do call_on] in *.
  - cbn. destruct (Nat.eqb_spec i (w_next w)); [lia|reflexivity].
  - apply K, ap_udp_bind. congruence.
  - apply K, ap_connect. congruence.
  - apply K, ap_keeps, keeps_send.
  - apply K, ap_sendto. congruence.
  - apply K, ap_keeps, keeps_recv.
  - apply K, ap_keeps, keeps_recvfrom.
  - apply K. unfold udp_close. apply ap_upd. reflexivity.
  - apply N, ap_keeps, keeps_ether.
  - apply N, ap_upd. reflexivity.
  - apply N, ap_upd. reflexivity.
  - apply N, ap_upd. reflexivity.
Qed.

(** ** one event *)
Lemma added_own i o w : match o with UFrame _ => False | _ => True end -> added i o w = [].
Proof. destruct o; cbn; tauto. Qed.
Lemma uop_next o w : (w_next w <= w_next (fst (uop_do o w)))%nat.
Proof.
  destruct o; cbn [uop_do]; unfold on_sock, on_node; try (destruct (known _ w)); try (match goal with |- context [let (_, _) := ?x in _] => destruct x end); cbn; lia.
Qed.
Lemma run_one o w : uop_run [o] w = fst (uop_do o w).
Proof. reflexivity. Qed.
Lemma ops_world es : forall s, e_world (echo_run es s) = uop_run (ops_of es s) (e_world s).
Proof.
  induction es as [|e es IH]; intros s; [reflexivity|]. cbn [echo_run ops_of]. rewrite IH.
  assert (X : forall a b w, uop_run (a ++ b) w = uop_run b (uop_run a w)) by (induction a; cbn; auto).
  rewrite X. f_equal. destruct e as [c| |o]; cbn [echo_op echo_do]; try reflexivity.
  destruct (e_at s) eqn:A; try reflexivity.
  - destruct (echo_waits s); [reflexivity|]. cbn [uop_run]. destruct (uop_do _ _); reflexivity.
  - cbn [uop_run]. destruct (uop_do _ _); reflexivity.
Qed.
(** what is known after one event: [h] was in hand, [h'] is in hand afterwards *)
Lemma echo_step e s i f h : running i f s -> (forall o, e = EWorld o -> ~ call_on i o) -> in_hand (e_at s) h ->
  running i f (echo_do e s) /\ ends (sock_of (echo_do e s)) = ends (sock_of s) /\
  exists done h', Forall2 (answers f) (attempt e s) done /\ in_hand (e_at (echo_do e s)) h' /\
    done ++ h' ++ u_queue (sock_of (echo_do e s)) =
    h ++ u_queue (sock_of s) ++ match echo_op e s with Some o => added i o (e_world s) | None => [] end.
Proof.
  intros (Ei & L & C & B & F) P H. unfold sock_of in *. rewrite Ei in *.
  assert (STAY : forall s', e_world s' = e_world s -> e_sock s' = i -> in_hand (e_at s') h -> attempt e s = [] -> echo_op e s = None ->
    (e_sock s' = i /\ (i < w_next (e_world s'))%nat /\ counted (e_world s') i /\ bound_port (u_lport0 (n_udp (w_node (e_world s')) (e_sock s'))) = true /\ family_of (u_lip (n_udp (w_node (e_world s')) (e_sock s'))) = f) /\
    ends (n_udp (w_node (e_world s')) (e_sock s')) = ends (n_udp (w_node (e_world s)) i) /\
    exists done h', Forall2 (answers f) (attempt e s) done /\ in_hand (e_at s') h' /\
      done ++ h' ++ u_queue (n_udp (w_node (e_world s')) (e_sock s')) = h ++ u_queue (n_udp (w_node (e_world s)) i) ++ match echo_op e s with Some o => added i o (e_world s) | None => [] end).
  { intros s' W I H' A O. rewrite I, W, A, O. split; [auto|]. split; [reflexivity|]. exists [], h. rewrite app_nil_r. repeat split; auto. }
  unfold running, sock_of. destruct e as [c| |o].
  - destruct (e_at s) eqn:A.
    + apply STAY; cbn [echo_do attempt echo_op]; rewrite ?A; auto. cbn. destruct (e_run s); exact H.
    + cbn [in_hand] in H. subst h. destruct (echo_waits s) eqn:Wt.
      * apply STAY; cbn [echo_do attempt echo_op]; rewrite ?A, ?Wt; cbn; rewrite ?A, ?Wt; auto. reflexivity.
      * cbn [echo_do attempt echo_op]. rewrite A, Wt, Ei. cbn [added app].
        destruct (step_queue (URecvfrom i) (e_world s) i L C) as (C' & L' & _).
        cbn [uop_do]. unfold echo_waits in Wt. rewrite Ei in Wt.
        cbn [uop_do] in C', L'. unfold on_sock in *. assert (KN : known i (e_world s) = true) by (apply Nat.ltb_lt; exact L). rewrite KN in *.
        unfold on_node in *. destruct (udp_recvfrom i (w_node (e_world s))) as [n' r] eqn:E. cbn [fst snd w_node w_next] in *.
        assert (EN : ends (n_udp n' i) = ends (n_udp (w_node (e_world s)) i)) by (eapply (ap_keeps i); [apply keeps_recvfrom|exact E]).
        destruct (recvfrom_spec _ _ _ _ E C) as (_ & _ & D).
        cbn [e_with e_world e_sock e_at w_node w_next]. rewrite Ei. split; [|split; [exact EN|]].
        -- split; [reflexivity|]. split; [exact L'|]. split; [exact C'|]. apply ends_fields in EN. destruct EN as (-> & -> & _). auto.
        -- destruct r as [x|e].
           ++ destruct D as (m & -> & Q). exists [], [m]. split; [constructor|]. cbn. split; [exists m; auto|]. rewrite app_nil_r, Q. reflexivity.
           ++ destruct D as ((-> & Q) & Q'). exfalso. unfold counted in C. rewrite C, Q in Wt. unfold echo_waits in Wt. cbn in Wt. discriminate Wt.
    + cbn [in_hand] in H. destruct H as (m0 & -> & H). injection H as Hm Ha Hp. subst m a p.
      cbn [echo_do attempt echo_op]. rewrite A, Ei, F.
      set (o := USendto c i _ _ _).
      destruct (step_queue o (e_world s) i L C) as (C' & L' & tk & F2 & Q).
      assert (EN : ends (n_udp (w_node (fst (uop_do o (e_world s)))) i) = ends (n_udp (w_node (e_world s)) i)).
      { subst o. cbn [uop_do]. unfold on_sock. assert (KN : known i (e_world s) = true) by (apply Nat.ltb_lt; exact L). rewrite KN.
        unfold on_node. destruct (udp_sendto _ _ _ _ _ _) as [n' r] eqn:E. cbn. eapply sendto_ends; eauto. }
      subst o. cbn [returned added] in F2, Q. inversion F2; subst tk. cbn [app] in Q. rewrite app_nil_r in Q.
      assert (RN : match snd (uop_do (USendto c i (echo_message (m_data m0)) (text_for f (m_rip m0)) (m_rport m0)) (e_world s)) with RNone | RErr _ => True | _ => False end).
      { cbn [uop_do]. unfold on_sock, on_node. destruct (known _ _); [|exact I]. destruct (udp_sendto _ _ _ _ _ _) as [n' [x|x]]; exact I. }
      destruct (uop_do (USendto c i (echo_message (m_data m0)) (text_for f (m_rip m0)) (m_rport m0)) (e_world s)) as [w' r] eqn:E.
      cbn [fst snd] in *. cbn [e_with e_world e_sock e_at]. rewrite Ei. split; [|split; [exact EN|]].
      * split; [reflexivity|]. split; [exact L'|]. split; [exact C'|]. apply ends_fields in EN. destruct EN as (-> & -> & _). auto.
      * exists [m0], []. split; [|split].
        -- constructor; [|constructor]. cbn. split; [apply echo_answer|]. split; [apply text_names|reflexivity].
        -- destruct r; cbn; auto; destruct RN.
        -- cbn. rewrite app_nil_r, Q. reflexivity.
    + apply STAY; cbn [echo_do attempt echo_op]; rewrite ?A; auto.
    + apply STAY; cbn [echo_do attempt echo_op]; rewrite ?A; auto.
  - apply STAY; cbn; auto.
  - specialize (P o eq_refl). destruct (step_queue o (e_world s) i L C) as (C' & L' & tk & F2 & Q).
    assert (RT : returned i o (e_world s) = []).
    { destruct o; cbn in *; auto; destruct (Nat.eqb_spec i0 i); auto; contradiction. }
    rewrite RT in F2. inversion F2; subst tk. cbn [app] in Q.
    pose proof (step_ends o (e_world s) i L P) as EN.
    cbn [echo_do attempt echo_op e_with e_world e_sock e_at]. rewrite Ei. split; [|split; [exact EN|]].
    + split; [reflexivity|]. split; [exact L'|]. split; [exact C'|]. apply ends_fields in EN. destruct EN as (-> & -> & _). auto.
    + exists [], h. split; [constructor|]. split; [exact H|]. cbn [app]. rewrite Q. reflexivity.
Qed.
Lemma echo_history es : forall s i f h, running i f s -> private i es -> in_hand (e_at s) h ->
  running i f (echo_run es s) /\ ends (sock_of (echo_run es s)) = ends (sock_of s) /\
  exists done h', Forall2 (answers f) (tried es s) done /\ in_hand (e_at (echo_run es s)) h' /\
    done ++ h' ++ u_queue (sock_of (echo_run es s)) = h ++ u_queue (sock_of s) ++ arrivals i (ops_of es s) (e_world s).
Proof.
  induction es as [|e es IH]; intros s i f h Rn P H; cbn [echo_run tried ops_of].
  - split; [exact Rn|]. split; [reflexivity|]. exists [], h. split; [constructor|]. split; [exact H|]. cbn. rewrite app_nil_r. reflexivity.
  - destruct (echo_step e s i f h Rn) as (R1 & E1 & d1 & h1 & F1 & H1 & Q1); [intros o -> ; apply P; left; reflexivity|exact H|].
    destruct (IH (echo_do e s) i f h1 R1) as (R2 & E2 & d2 & h2 & F2 & H2 & Q2); [intros o I; apply P; right; exact I|exact H1|].
    split; [exact R2|]. split; [congruence|]. exists (d1 ++ d2), h2. split; [apply Forall2_app; auto|]. split; [exact H2|].
    rewrite <- app_assoc, Q2. rewrite (app_assoc d1), (app_assoc (d1 ++ h1)), <- (app_assoc d1), Q1, <- !app_assoc. do 2 f_equal.
    assert (W : e_world (echo_do e s) = uop_run match echo_op e s with Some o => [o] | None => [] end (e_world s)).
    { pose proof (ops_world [e] s) as X. cbn [echo_run ops_of] in X. rewrite app_nil_r in X. exact X. }
    rewrite W. destruct (echo_op e s) as [o|]; cbn; [reflexivity|reflexivity].
Qed.
