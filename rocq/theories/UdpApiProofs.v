From Verif Require Import Base BaseLemmas CodecModel AddrModel EtherModel Ip4Model Ip6Model UdpModel TcpModel
  Icmp4Model Icmp6Model FragModel StackModel StackRxModel UdpApiModel SpecUdpApi.

Lemma skey_eqb_eq : forall a b, skey_eqb a b = true <-> a = b.
Proof.
  intros [ta la pa ra qa] [tb lb pb rb qb]. unfold skey_eqb; cbn.
  rewrite !andb_true_iff, !Z.eqb_eq. split.
  - intros ((((T & L) & P) & Q) & S). subst.
    destruct ta, tb; try discriminate; destruct la, lb; cbn in L; try discriminate; apply Z.eqb_eq in L; subst;
    destruct ra, rb; cbn in Q; try discriminate; apply Z.eqb_eq in Q; subst; auto.
  - intros E. injection E as -> -> -> -> ->. destruct tb, lb, rb; cbn; rewrite ?Z.eqb_refl; auto.
Qed.
Lemma skey_eqb_refl : forall a, skey_eqb a a = true.
Proof. intros. apply skey_eqb_eq. auto. Qed.

(** ** the table *)
Lemma pop_in : forall k t k' j, In (k', j) (sock_pop k t) <-> In (k', j) t /\ k' <> k.
Proof.
  intros. unfold sock_pop. rewrite filter_In. cbn. rewrite negb_true_iff. split; intros [A B]; split; auto.
  - intros ->. rewrite skey_eqb_refl in B. discriminate.
  - apply not_true_iff_false. rewrite skey_eqb_eq. congruence.
Qed.
Lemma pop_nodup : forall k t, NoDup (map fst t) -> NoDup (map fst (sock_pop k t)).
Proof.
  induction t as [|[k' j] r IH]; cbn; auto. intros N. inversion N; subst.
  destruct (negb _); cbn; auto. constructor; auto. intros I. apply in_map_iff in I. destruct I as ([a b] & E & I). cbn in E; subst.
  apply pop_in in I. apply H1. apply in_map_iff. exists (k', b). tauto.
Qed.
Lemma put_absent : forall k i t, (forall j, ~ In (k, j) t) -> sock_put k i t = t ++ [(k, i)].
Proof.
  induction t as [|[k' j] r IH]; cbn; auto. intros N. destruct (skey_eqb k k') eqn:E.
  - apply skey_eqb_eq in E. subst. exfalso. eapply N. left; eauto.
  - f_equal. apply IH. intros j' I. apply (N j'). auto.
Qed.
Lemma put_in_other : forall k i t k' j, k' <> k -> (In (k', j) (sock_put k i t) <-> In (k', j) t).
Proof.
  induction t as [|[a b] r IH]; cbn; intros k' j N.
  - split; [intros [E|[]]; injection E as <- <-; congruence|tauto].
  - destruct (skey_eqb k a) eqn:E.
    + apply skey_eqb_eq in E. subst a. cbn. split; intros [X|X]; auto; injection X as <- <-; congruence.
    + cbn. rewrite IH by auto. tauto.
Qed.
Lemma put_in : forall k i t, In (k, i) (sock_put k i t).
Proof.
  induction t as [|[a b] r IH]; cbn; auto. destruct (skey_eqb k a) eqn:E; cbn; auto. apply skey_eqb_eq in E. subst. auto.
Qed.
Lemma put_keys : forall k i t x, In x (map fst (sock_put k i t)) <-> x = k \/ In x (map fst t).
Proof.
  induction t as [|[a b] r IH]; cbn; intros x.
  - split; intros [E|E]; auto. 
  - destruct (skey_eqb k a) eqn:E; cbn.
    + apply skey_eqb_eq in E. subst a. split; intros [X|X]; auto.
    + rewrite IH. split; intros [X|[X|X]]; auto.
Qed.
Lemma put_nodup : forall k i t, NoDup (map fst t) -> NoDup (map fst (sock_put k i t)).
Proof.
  induction t as [|[a b] r IH]; cbn; intros N.
  - constructor; auto.
  - inversion N; subst. destruct (skey_eqb k a) eqn:E; cbn; constructor; auto.
    rewrite put_keys. intros [->|X]; auto. rewrite skey_eqb_refl in E. discriminate.
Qed.

(** ** what receiving and sending leave alone *)
Definition keeps {A} (m : R A) : Prop :=
  forall n n' r, m n = (n', r) -> n_socks n' = n_socks n /\ forall i, ends (n_udp n' i) = ends (n_udp n i).
Lemma keeps_ret : forall {A} (a : A), keeps (rret a).
Proof. intros A a n n' r E. injection E as <- _. auto. Qed.
Lemma keeps_lift : forall {A} (a : res A), keeps (rlift a).
Proof. intros A a n n' r E. injection E as <- _. auto. Qed.
Lemma keeps_gets : forall {A} (f : node -> A), keeps (rgets f).
Proof. intros A a n n' r E. injection E as <- _. auto. Qed.
Lemma keeps_bind : forall {A B} (m : R A) (k : A -> R B), keeps m -> (forall a, keeps (k a)) -> keeps (x <+ m ;; k x).
Proof.
  intros A B m k Hm Hk n n' r E. unfold rbind' in E. destruct (m n) as [n1 [a|e]] eqn:E1.
  - destruct (Hm _ _ _ E1) as [S1 U1]. destruct (Hk a _ _ _ E) as [S2 U2]. split; [congruence|]. intros i. rewrite U2. auto.
  - injection E as <- _. eauto.
Qed.
Lemma keeps_tx : forall {A} (m : M A), keeps (tx m).
Proof. intros A m n n' r E. unfold tx in E. destruct (m (n_tx n)). injection E as <- _. cbn. auto. Qed.
Lemma keeps_tx_ : forall {A} (m : M A), keeps (tx_ m).
Proof. intros. unfold tx_. apply keeps_bind; [apply keeps_tx|intros; apply keeps_ret]. Qed.
Lemma keeps_upd : forall f, (forall n, n_socks (f n) = n_socks n /\ forall i, ends (n_udp (f n) i) = ends (n_udp n i)) -> keeps (rupd f).
Proof. intros f H n n' r E. injection E as <- _. auto. Qed.
Lemma keeps_set_udp : forall i g, (forall u, ends (g u) = ends u) -> forall n, n_socks (set_udp i (g (n_udp n i)) n) = n_socks n /\ forall j, ends (n_udp (set_udp i (g (n_udp n i)) n) j) = ends (n_udp n j).
Proof. intros i g H n. cbn. split; auto. intros j. destruct (Nat.eqb_spec j i); subst; auto. Qed.
Lemma keeps_parsed : forall {A} (r : res (parsed A)) k, (forall p, keeps (k p)) -> keeps (on_parsed r k).
Proof. intros. unfold on_parsed. apply keeps_bind; [apply keeps_lift|]. intros [x|x]; auto. apply keeps_ret. Qed.

Lemma keeps_deliver : forall i m, keeps (rupd (udp_deliver i m)).
Proof.
  intros. apply keeps_upd. intros n. unfold udp_deliver. cbn. split; auto. intros j. destruct (Nat.eqb_spec j i); subst; auto.
Qed.
Lemma keeps_notify : forall i, keeps (rupd (udp_notify i)).
Proof.
  intros. apply keeps_upd. intros n. unfold udp_notify. cbn. split; auto. intros j. destruct (Nat.eqb_spec j i); subst; auto.
Qed.
Ltac kp := repeat (cbv zeta; match goal with
  | |- keeps (rbind' _ _) => apply keeps_bind; [|intros]
  | |- keeps (rret _) => apply keeps_ret
  | |- keeps (rlift _) => apply keeps_lift
  | |- keeps (rgets _) => apply keeps_gets
  | |- keeps (tx _) => apply keeps_tx
  | |- keeps (tx_ _) => apply keeps_tx_
  | |- keeps (on_parsed _ _) => apply keeps_parsed; intros
  | |- keeps (rupd (udp_deliver _ _)) => apply keeps_deliver
  | |- keeps (rupd (udp_notify _)) => apply keeps_notify
  | |- keeps (rupd _) => apply keeps_upd; intros; cbn; auto
  | |- keeps (if ?b then _ else _) => destruct b
  | |- keeps (match ?x with _ => _ end) => destruct x
  | |- keeps (let (_, _) := ?x in _) => destruct x
  end).
Lemma keeps_arp : forall e, keeps (phrx_arp e).
Proof. intros. unfold phrx_arp. kp. Qed.
Lemma keeps_udp : forall a b f l p w, keeps (phrx_udp a b f l p w).
Proof. intros. unfold phrx_udp. kp. Qed.
Lemma keeps_tcp : forall a b f l p, keeps (phrx_tcp a b f l p).
Proof. intros. unfold phrx_tcp. kp. Qed.
Lemma keeps_icmp4 : forall a b f l, keeps (phrx_icmp4 a b f l).
Proof. intros. unfold phrx_icmp4. kp. Qed.
Lemma keeps_icmp6 : forall a b h f l p, keeps (phrx_icmp6 a b h f l p).
Proof. intros. unfold phrx_icmp6. kp. Qed.
Lemma keeps_dispatch4 : forall p f, keeps (ip4_dispatch p f).
Proof.
  intros. unfold ip4_dispatch. cbv zeta. destruct (_ =? _); [apply keeps_icmp4|]. destruct (_ =? _); [apply keeps_udp|].
  destruct (_ =? _); [apply keeps_tcp|apply keeps_ret].
Qed.
Lemma keeps_ip4 : forall f, keeps (phrx_ip4 f).
Proof. intros. unfold phrx_ip4. kp; apply keeps_dispatch4. Qed.
Lemma keeps_ip6 : forall fuel f, keeps (phrx_ip6_fuel fuel f).
Proof.
  induction fuel; intros f; cbn [phrx_ip6_fuel]; [apply keeps_lift|].
  kp; auto using keeps_icmp6, keeps_udp, keeps_tcp.
Qed.
Lemma keeps_ether : forall f, keeps (phrx_ether f).
Proof.
  intros. unfold phrx_ether. kp; auto using keeps_arp, keeps_ip4. intros n n' r E. unfold phrx_ip6 in E. eapply keeps_ip6; eauto.
Qed.
Lemma keeps_send : forall i d, keeps (udp_send i d).
Proof. intros. unfold udp_send. kp. apply keeps_set_udp with (g := set_unreach false). auto. Qed.
Lemma keeps_take : forall i, keeps (udp_take i).
Proof.
  intros i n n' r E. unfold udp_take, rbind', rgets, rret, rlift, rupd in E.
  destruct (0 <? _); [|injection E as <- _; auto].
  destruct (u_queue (n_udp n i)) eqn:Q; injection E as <- _; cbn; (split; [auto|]); intros j; destruct (Nat.eqb_spec j i); subst; auto.
Qed.
Lemma keeps_recv : forall i, keeps (udp_recv i).
Proof. intros. unfold udp_recv. kp; [apply keeps_set_udp with (g := set_unreach false); auto|apply keeps_take]. Qed.
Lemma keeps_recvfrom : forall i, keeps (udp_recvfrom i).
Proof. intros. unfold udp_recvfrom. kp. apply keeps_take. Qed.
Lemma keeps_set_ip : forall i t l p r, keeps (udp_set_ip i t l p r).
Proof. intros. unfold udp_set_ip. kp. apply keeps_set_udp with (g := set_unreach true). auto. Qed.

(** ** picking a port *)
Lemma ephemeral_in : forall p, In p ephemeral_ports <-> 32168 <= p < 60700 /\ p mod 2 = 0.
Proof.
  intros. unfold ephemeral_ports. rewrite in_map_iff. split.
  - intros (i & <- & I). apply in_seq in I. split; [lia|]. rewrite Z.add_mod, Z.mul_comm, Z.mod_mul by lia. reflexivity.
  - intros [B E]. exists (Z.to_nat ((p - 32168) / 2)).
    assert (X : p = 2 * (p / 2)) by (pose proof (Z.div_mod p 2); lia).
    assert (Y : (p - 32168) / 2 = p / 2 - 16084).
    { replace (p - 32168) with (p / 2 * 2 + (-16084) * 2) by lia. rewrite Z.div_add, Z.div_mul by lia. lia. }
    rewrite Y. split; [rewrite Z2Nat.id by lia; lia|]. apply in_seq. lia.
Qed.
Lemma mem_in : forall x l, mem x l = true <-> In x l.
Proof.
  intros. unfold mem. rewrite existsb_exists. split.
  - intros (y & I & E). apply Z.eqb_eq in E. subst. auto.
  - intros I. exists x. rewrite Z.eqb_refl. auto.
Qed.
Lemma port_used_mem : forall t p, mem p (map (fun kv => k_lport (fst kv)) t) = true <-> port_used t p.
Proof.
  intros. rewrite mem_in, in_map_iff. split.
  - intros ([k i] & E & I). exists k, i. auto.
  - intros (k & i & I & E). exists (k, i). auto.
Qed.
Lemma free_in : forall t p, In p (filter (fun p => negb (mem p (map (fun kv => k_lport (fst kv)) t))) ephemeral_ports) <->
  In p ephemeral_ports /\ ~ port_used t p.
Proof.
  intros. rewrite filter_In, negb_true_iff, <- port_used_mem, not_true_iff_false. tauto.
Qed.
Lemma pick_port_ok : forall c t p, pick_port c t = Ok p -> In p ephemeral_ports /\ ~ port_used t p.
Proof.
  intros c t p E. apply free_in. unfold pick_port in E. destruct (filter _ _) as [|x l]; [discriminate|].
  destruct (mem c (x :: l)) eqn:M; injection E as <-; [apply mem_in; auto|left; auto].
Qed.
Lemma pick_port_any : forall t p, In p ephemeral_ports -> ~ port_used t p -> pick_port p t = Ok p.
Proof.
  intros t p E N. assert (I := proj2 (free_in t p) (conj E N)). unfold pick_port.
  destruct (filter _ _) as [|x l]; [contradiction|]. apply mem_in in I. rewrite I. auto.
Qed.
Lemma pick_port_exn : forall c t e, pick_port c t = Exn e <-> e = OsError 98 /\ forall p, In p ephemeral_ports -> port_used t p.
Proof.
  intros c t e. unfold pick_port. split.
  - intros E. destruct (filter _ _) as [|x l] eqn:F; [|discriminate]. injection E as <-. split; auto.
    intros p I. destruct (mem p (map (fun kv => k_lport (fst kv)) t)) eqn:M; [apply port_used_mem; auto|].
    exfalso. assert (X : In p []); [|contradiction]. rewrite <- F. apply filter_In. rewrite M. auto.
  - intros [-> A]. destruct (filter _ _) as [|x l] eqn:F; auto. exfalso.
    assert (I : In x (x :: l)) by (left; auto). rewrite <- F in I. apply free_in in I. destruct I as [I N]. apply N, A, I.
Qed.
Lemma ephemeral_bound : forall p, In p ephemeral_ports -> bound_port p = true.
Proof. intros p I. apply ephemeral_in in I. unfold bound_port. apply andb_true_iff. rewrite Z.leb_le, Z.ltb_lt. lia. Qed.

(** ** address in use *)
Lemma family_eqb_eq : forall a b, family_eqb a b = true <-> a = b.
Proof. intros [] []; cbn; split; congruence. Qed.
Lemma ipaddr_eqb_eq : forall a b, ipaddr_eqb a b = true <-> a = b.
Proof.
  intros [a|a] [b|b]; cbn; try (split; congruence); rewrite Z.eqb_eq; split; congruence.
Qed.
Lemma unspecified_iff : forall a, is_unspecified a = true <-> unspec a.
Proof.
  intros [a|a]; cbn; unfold ip4_is_unspecified, ip6_is_unspecified, unspec; rewrite Z.eqb_eq; (split; [intros ->; auto|intros [X|X]; congruence]).
Qed.
Lemma in_use_iff : forall n lip p, udp_in_use n lip p = true <->
  exists k i, In (k, i) (n_socks n) /\ k_type k = Dgram /\ overlap (u_lip (n_udp n i)) lip /\ u_lport0 (n_udp n i) = p.
Proof.
  intros. unfold udp_in_use. rewrite existsb_exists. unfold overlap. split.
  - intros ([k i] & I & E). cbn in E. rewrite !andb_true_iff, !orb_true_iff, family_eqb_eq, ipaddr_eqb_eq, !unspecified_iff, Z.eqb_eq in E.
    exists k, i. split; auto. destruct (k_type k); cbn in E; [destruct E as (((X & _) & _) & _); discriminate|]. tauto.
  - intros (k & i & I & T & (F & O) & P). exists (k, i). split; auto. cbn.
    rewrite !andb_true_iff, !orb_true_iff, family_eqb_eq, ipaddr_eqb_eq, !unspecified_iff, Z.eqb_eq, T. cbn. tauto.
Qed.

(** ** the invariant of histories without use after close *)
Definition unbound (u : usock) : Prop := exists f, ends u = ends (new_udp f).
Record inv (closed : nat -> Prop) (w : world) : Prop := {
  inv_nodup : NoDup (map fst (n_socks (w_node w)));
  inv_entry : forall k j, In (k, j) (n_socks (w_node w)) -> k_type k = Dgram ->
    (j < w_next w)%nat /\ ~ closed j /\ udp_key (n_udp (w_node w) j) = k /\ bound_port (k_lport k) = true;
  inv_open : forall i, (i < w_next w)%nat -> ~ closed i ->
    unbound (n_udp (w_node w) i) \/
    bound_port (u_lport0 (n_udp (w_node w) i)) = true /\ In (udp_key (n_udp (w_node w) i), i) (n_socks (w_node w));
  inv_apart : forall i j, (i < w_next w)%nat -> (j < w_next w)%nat -> ~ closed i -> ~ closed j -> i <> j ->
    bound_port (u_lport0 (n_udp (w_node w) i)) = true -> u_lport0 (n_udp (w_node w) i) = u_lport0 (n_udp (w_node w) j) ->
    ~ overlap (u_lip (n_udp (w_node w) i)) (u_lip (n_udp (w_node w) j))
}.

Lemma ends_fields : forall a b, ends a = ends b -> u_lip a = u_lip b /\ u_lport0 a = u_lport0 b /\ udp_key a = udp_key b.
Proof. intros a b E. unfold ends in E. injection E as A B C D. unfold udp_key. rewrite A, B, C, D. auto. Qed.
Lemma inv_keeps : forall closed n n' k, inv closed {| w_node := n; w_next := k |} ->
  n_socks n' = n_socks n -> (forall i, ends (n_udp n' i) = ends (n_udp n i)) -> inv closed {| w_node := n'; w_next := k |}.
Proof.
  intros closed n n' k [N E O A] S U. cbn in *.
  assert (F := fun i => ends_fields _ _ (U i)).
  split; cbn; rewrite ?S; auto.
  - intros x j I T. destruct (F j) as (_ & _ & ->). apply E; auto.
  - intros i I C. destruct (F i) as (_ & -> & ->). destruct (O i I C) as [[f Ub]|X]; auto. left. exists f. rewrite U. auto.
  - intros i j. destruct (F i) as (-> & -> & _), (F j) as (-> & -> & _). apply A.
Qed.
Lemma unbound_port : forall u, unbound u -> u_lport0 u = 0.
Proof. intros u [f E]. unfold ends, new_udp in E. cbn in E. congruence. Qed.
Lemma bound_nonzero : forall p, bound_port p = true -> p <> 0.
Proof. intros p B ->. discriminate. Qed.

(** entries of the table after the entry of [i] was popped *)
Lemma pop_entry : forall closed w i k j, inv closed w -> (i < w_next w)%nat -> ~ closed i ->
  (In (k, j) (sock_pop (udp_key (n_udp (w_node w) i)) (n_socks (w_node w))) <->
   In (k, j) (n_socks (w_node w)) /\ (k_type k = Dgram -> j <> i)).
Proof.
  intros closed w i k j V Hi C. rewrite pop_in. split; intros [I N]; split; auto.
  - intros T ->. destruct (inv_entry _ _ V _ _ I T) as (_ & _ & X & _). congruence.
  - intros ->. destruct (inv_entry _ _ V _ _ I eq_refl) as (Hj & Cj & X & B). cbn in B.
    destruct (Nat.eq_dec j i); [exact (N eq_refl e)|].
    assert (Y := ends_fields (n_udp (w_node w) i) (n_udp (w_node w) j)).
    apply (inv_apart _ _ V i j Hi Hj C Cj (not_eq_sym n) B).
    + unfold udp_key in X. injection X as _ P _ _. auto.
    + unfold udp_key in X. injection X as L _ _ _. rewrite L. split; auto.
Qed.

Lemma inv_register : forall closed n next i u', inv closed {| w_node := n; w_next := next |} -> (i < next)%nat -> ~ closed i ->
  bound_port (u_lport0 u') = true ->
  (forall k j, In (k, j) (n_socks n) -> k_type k = Dgram -> j <> i -> u_lport0 (n_udp n j) = u_lport0 u' -> ~ overlap (u_lip (n_udp n j)) (u_lip u')) ->
  inv closed {| w_node := set_socks (sock_put (udp_key u') i (sock_pop (udp_key (n_udp n i)) (n_socks n))) (set_udp i u' n); w_next := next |}.
Proof.
  intros closed n next i u' V Hi C B NO. pose proof V as V0. destruct V as [N E O A]. cbn [w_node w_next] in *.
  assert (PE := fun k j => pop_entry _ _ i k j V0 Hi C). cbn [w_node w_next] in PE.
  assert (AB : forall j, ~ In (udp_key u', j) (sock_pop (udp_key (n_udp n i)) (n_socks n))).
  { intros j I. apply PE in I. destruct I as [I Nj]. specialize (Nj eq_refl).
    destruct (E _ _ I eq_refl) as (_ & _ & K & _). eapply NO; eauto.
    - unfold udp_key in K. injection K as _ P _ _. auto.
    - unfold udp_key in K. injection K as L _ _ _. rewrite L. split; auto. }
  rewrite (put_absent _ _ _ AB).
  split; cbn [w_node w_next set_socks n_socks n_udp set_udp].
  - rewrite map_app. cbn. apply (NoDup_Add (a := udp_key u') (l := map fst (sock_pop (udp_key (n_udp n i)) (n_socks n)))).
    + rewrite <- (app_nil_r (map fst _)) at 1. apply Add_app.
    + split; [apply pop_nodup; auto|]. intros I. apply in_map_iff in I. destruct I as ([k j] & K & I). cbn in K. subst k. exact (AB _ I).
  - intros k j I T. apply in_app_or in I. destruct I as [I|[I|[]]].
    + apply PE in I. destruct I as [I Nj]. specialize (Nj T). destruct (Nat.eqb_spec j i); [contradiction|]. apply E; auto.
    + injection I as <- <-. rewrite Nat.eqb_refl. auto.
  - intros j Hj Cj. destruct (Nat.eqb_spec j i) as [->|Nj].
    + right. split; auto. apply in_or_app. right. left. auto.
    + destruct (O j Hj Cj) as [U|[Bj I]]; auto. right. split; auto. apply in_or_app. left. apply PE. auto.
  - assert (X : forall j, (j < next)%nat -> ~ closed j -> j <> i -> bound_port (u_lport0 (n_udp n j)) = true -> u_lport0 (n_udp n j) = u_lport0 u' -> ~ overlap (u_lip (n_udp n j)) (u_lip u')).
    { intros j Hj Cj Nj Bj P. destruct (O j Hj Cj) as [U|[_ I]].
      - apply unbound_port in U. exfalso. apply bound_nonzero in Bj. contradiction.
      - eapply NO; eauto. }
    intros a b Ha Hb Ca Cb Nab. destruct (Nat.eqb_spec a i) as [->|Na], (Nat.eqb_spec b i) as [->|Nb]; try congruence.
    + intros Bi P [F Ov]. apply (X b Hb Cb Nb); [congruence|auto|]. split; auto. destruct Ov as [Ov|[Ov|Ov]]; auto.
    + intros Bi P. apply X; auto.
    + apply A; auto.
Qed.

Definition add_closed (o : uop) (closed : nat -> Prop) : nat -> Prop :=
  match o with UClose i => fun j => j = i \/ closed j | _ => closed end.

Lemma inv_pop : forall closed n next i, inv closed {| w_node := n; w_next := next |} -> (i < next)%nat -> ~ closed i ->
  unbound (n_udp n i) -> forall k j, In (k, j) (sock_pop (udp_key (n_udp n i)) (n_socks n)) <-> In (k, j) (n_socks n).
Proof.
  intros closed n next i V Hi C U k j. rewrite pop_in. split; [tauto|]. intros I. split; auto. intros ->.
  destruct (inv_entry _ _ V _ _ I eq_refl) as (_ & _ & _ & B). apply bound_nonzero in B. apply B. cbn. apply unbound_port. auto.
Qed.

(** the port is in use by nobody, or the socket keeps its own *)
Lemma fresh_port : forall closed n next p, inv closed {| w_node := n; w_next := next |} -> ~ port_used (n_socks n) p ->
  forall k j, In (k, j) (n_socks n) -> k_type k = Dgram -> u_lport0 (n_udp n j) <> p.
Proof.
  intros closed n next p V N k j I T P. apply N. exists k, j. split; auto.
  destruct (inv_entry _ _ V _ _ I T) as (_ & _ & K & _). subst k. auto.
Qed.

Lemma set_ip_spec : forall i t l p r n n' lip rip, udp_set_ip i t l p r n = (n', Ok (lip, rip)) ->
  family_of lip = family_of l /\ (lip = l \/ unspec l).
Proof.
  intros i t l p r n n' lip rip E. unfold udp_set_ip in E. destruct t as [x|]; [|discriminate].
  cbv zeta in E. unfold rbind' at 1 in E.
  assert (X : exists n1, (if is_unspecified (in_family (family_of l) x) then rupd (fun n => set_udp i (set_unreach true (n_udp n i)) n) else rret tt) n = (n1, Ok tt)).
  { destruct (is_unspecified _); eexists; reflexivity. }
  destruct X as [n1 X]. rewrite X in E. destruct (is_unspecified l) eqn:U.
  - unfold rbind', rgets in E. destruct (_ && _); [discriminate|]. injection E as _ <- _.
    split; [|right; apply unspecified_iff; auto]. unfold pick_local_ip. destruct l; cbn; auto.
  - injection E as _ <- _. auto.
Qed.

Lemma inv_ext : forall closed closed' w, (forall i, closed i <-> closed' i) -> inv closed w -> inv closed' w.
Proof.
  intros closed closed' w X [N E O A]. split; auto.
  - intros k j I T. rewrite <- X. apply E; auto.
  - intros i Hi C. rewrite <- X in C. apply O; auto.
  - intros i j Hi Hj Ci Cj. rewrite <- X in Ci, Cj. apply A; auto.
Qed.

Lemma inv_bind : forall closed n next c i t p n' r, inv closed {| w_node := n; w_next := next |} -> (i < next)%nat -> ~ closed i ->
  udp_bind c i t p n = (n', r) -> inv closed {| w_node := n'; w_next := next |}.
Proof.
  intros closed n next c i t p n' r V Hi C E. unfold udp_bind in E. unfold rbind' at 1, rgets at 1 in E.
  destruct (bound_port (u_lport0 (n_udp n i))) eqn:B; [injection E as <- _; auto|].
  destruct t as [a|]; [|injection E as <- _; auto].
  unfold rbind' at 1, rgets at 1 in E. destruct (negb (mem a _)); [injection E as <- _; auto|].
  destruct (negb _) eqn:Rg; [injection E as <- _; auto|].
  apply negb_false_iff, andb_true_iff in Rg. rewrite Z.leb_le, Z.ltb_lt in Rg.
  cbv zeta in E. unfold rbind' at 1 in E. destruct (Z.ltb_spec 0 p).
  - unfold rbind', rgets in E. destruct (udp_in_use n _ p) eqn:IU; [injection E as <- _; auto|].
    injection E as <- _. unfold re_register. apply inv_register; auto.
    + unfold bound_port; cbn. apply andb_true_iff. rewrite Z.leb_le, Z.ltb_lt. lia.
    + cbn [set_local u_lport0 u_lip]. intros k j I T Nj P O. rewrite <- not_true_iff_false in IU. apply IU.
      apply in_use_iff. exists k, j. auto.
  - unfold rlift in E. destruct (pick_port c (n_socks n)) as [q|e] eqn:PP; [|injection E as <- _; auto].
    injection E as <- _. apply pick_port_ok in PP. destruct PP as [I N]. unfold re_register. apply inv_register; auto.
    + cbn. apply ephemeral_bound; auto.
    + cbn. intros k j Ij T Nj P. exfalso. eapply fresh_port; eauto.
Qed.

Lemma inv_connect : forall closed n next c i t p n' r, inv closed {| w_node := n; w_next := next |} -> (i < next)%nat -> ~ closed i ->
  udp_connect c i t p n = (n', r) -> inv closed {| w_node := n'; w_next := next |}.
Proof.
  intros closed n next c i t p n' r V Hi C E. unfold udp_connect in E. destruct (negb _); [injection E as <- _; auto|].
  unfold rbind' at 1, rgets at 1 in E. unfold rbind' at 1 in E.
  assert (X : exists q, (q = u_lport0 (n_udp n i) \/ ~ port_used (n_socks n) q) /\ bound_port q = true /\
     (x <+ udp_set_ip i t (u_lip (n_udp n i)) q p ;; rupd (re_register i (fun u => set_remote (snd x) p (set_local (fst x) q u)))) n = (n', r) \/ n' = n).
  { destruct (bound_port (u_lport0 (n_udp n i))) eqn:B.
    - exists (u_lport0 (n_udp n i)). left. auto.
    - unfold rlift in E. destruct (pick_port c (n_socks n)) as [q|e] eqn:PP; [|injection E as <- _; exists 0; auto].
      exists q. left. apply pick_port_ok in PP. destruct PP as [I N]. split; auto. split; auto. apply ephemeral_bound; auto. }
  clear E. destruct X as (q & [(Q & B & E)| ->]); auto.
  unfold rbind' in E. destruct (udp_set_ip _ _ _ _ _ n) as [n1 [[lip rip]|e]] eqn:S.
  - destruct (keeps_set_ip _ _ _ _ _ _ _ _ S) as [KS KU]. apply set_ip_spec in S. destruct S as [Fa Lip].
    assert (V1 := inv_keeps _ _ _ _ V KS KU).
    assert (F := fun i => ends_fields _ _ (KU i)).
    injection E as <- _. unfold re_register. cbn [fst snd]. apply inv_register; auto. cbn [set_remote set_local u_lport0 u_lip].
    intros k j I T Nj P O. destruct Q as [->|N].
    + rewrite KS in I. destruct (inv_entry _ _ V _ _ I T) as (Hj & Cj & _). cbn [w_node w_next] in *.
      destruct (F j) as (Lj & Pj & _). rewrite Pj in P.
      apply (inv_apart _ _ V i j Hi Hj C Cj (not_eq_sym Nj) B (eq_sym P)). cbn [w_node]. rewrite Lj in O.
      destruct O as [Fo O]. split; [congruence|]. destruct Lip as [->|U]; [|auto]. destruct O as [O|[O|O]]; auto.
    + rewrite <- KS in N. eapply fresh_port in N; eauto.
  - injection E as <- _. destruct (keeps_set_ip _ _ _ _ _ _ _ _ S) as [KS KU]. eapply inv_keeps; eauto.
Qed.

Lemma bind_inv : forall {A B} (m : R A) (k : A -> R B) n n' r, (x <+ m ;; k x) n = (n', r) ->
  (exists n1 a, m n = (n1, Ok a) /\ k a n1 = (n', r)) \/ (exists e, m n = (n', Exn e) /\ r = Exn e).
Proof.
  intros A B m k n n' r E. unfold rbind' in E. destruct (m n) as [n1 [a|e]] eqn:M.
  - left. exists n1, a. auto.
  - injection E as <- <-. right. exists e. auto.
Qed.

Lemma inv_sendto : forall closed n next c i d t p n' r, inv closed {| w_node := n; w_next := next |} -> (i < next)%nat -> ~ closed i ->
  udp_sendto c i d t p n = (n', r) -> inv closed {| w_node := n'; w_next := next |}.
Proof.
  intros closed n next c i d t p n' r V Hi C E. unfold udp_sendto in E. destruct (negb _); [injection E as <- _; auto|].
  unfold rbind' at 1, rgets at 1 in E.
  apply bind_inv in E.
  assert (K : forall u, keeps (p0 <+ rgets (fun n => u_lport0 (n_udp n i)) ;; ips <+ udp_set_ip i t u p0 p ;;
     st <+ tx (phtx_udp (fst ips) (snd ips) p0 p d) ;; rret (sent_len st d))) by (intros; kp; apply keeps_set_ip).
  assert (X : forall n1 a, (if bound_port (u_lport0 (n_udp n i)) then rret tt
          else
            _ <+ rupd (fun m => set_socks (sock_pop (udp_key (n_udp n i)) (n_socks m)) m) ;;
            p <+ (fun m => rlift (pick_port c (n_socks m)) m) ;;
            _ <+ rupd (fun m => set_udp i (set_local (u_lip (n_udp n i)) p (n_udp m i)) m) ;;
            rupd (fun m => set_socks (sock_put (udp_key (n_udp m i)) i (n_socks m)) m)) n = (n1, a) -> inv closed {| w_node := n1; w_next := next |}).
  { intros n1 a E1. destruct (bound_port _) eqn:B; [injection E1 as <- _; auto|].
    destruct (inv_open _ _ V i Hi C) as [U|[B' _]]; [|cbn in B'; congruence]. cbn [w_node] in U.
    assert (IP := inv_pop _ _ _ i V Hi C U).
    unfold rbind', rupd, rlift in E1. cbn [set_socks n_socks] in E1.
    destruct (pick_port c _) as [q|e] eqn:PP.
    - injection E1 as <- _. apply pick_port_ok in PP. destruct PP as [I N].
      assert (N' : ~ port_used (n_socks n) q).
      { intros (k & j & Ij & Ek). apply N. exists k, j. split; auto. apply IP. auto. }
      cbn [set_udp set_socks n_udp n_socks]. rewrite Nat.eqb_refl.
      set (u' := set_local (u_lip (n_udp n i)) q (n_udp n i)).
      apply (inv_keeps closed (set_socks (sock_put (udp_key u') i (sock_pop (udp_key (n_udp n i)) (n_socks n))) (set_udp i u' n))); auto.
      apply inv_register; auto.
      + apply ephemeral_bound; auto.
      + intros k j Ij T Nj P. exfalso. eapply fresh_port; eauto.
    - injection E1 as <- _. destruct V as [N Ee O A]. split; cbn [w_node w_next set_socks n_socks n_udp] in *; auto.
      + apply pop_nodup; auto.
      + intros k j I T. apply IP in I. apply Ee; auto.
      + intros j Hj Cj. destruct (O j Hj Cj) as [|[? ?]]; auto. right. split; auto. apply IP. auto. }
  destruct E as [(n1 & a & E1 & E2)|(e & E1 & _)]; [|eauto].
  apply X in E1. destruct (K _ _ _ _ E2) as [KS KU]. eapply inv_keeps; eauto.
Qed.

Lemma inv_close : forall closed n next i n' r, inv closed {| w_node := n; w_next := next |} -> (i < next)%nat -> ~ closed i ->
  udp_close i n = (n', r) -> inv (fun j => j = i \/ closed j) {| w_node := n'; w_next := next |}.
Proof.
  intros closed n next i n' r V Hi C E. injection E as <- _.
  assert (PE := fun k j => pop_entry _ _ i k j V Hi C). destruct V as [N E O A]. cbn [w_node w_next] in *.
  split; cbn [w_node w_next set_socks n_socks n_udp].
  - apply pop_nodup; auto.
  - intros k j I T. apply PE in I. destruct I as [I Nj]. destruct (E _ _ I T) as (? & ? & ? & ?). repeat split; auto. intros [->|]; auto. exact (Nj T eq_refl).
  - intros j Hj Cj. destruct (O j Hj ltac:(tauto)) as [|[? ?]]; auto. right. split; auto. apply PE. auto.
  - intros a b Ha Hb Ca Cb. apply A; tauto.
Qed.

Lemma inv_do : forall o closed w, inv closed w -> (forall i, closed i -> ~ call_on i o) ->
  inv (add_closed o closed) (fst (uop_do o w)) /\ (w_next w <= w_next (fst (uop_do o w)))%nat.
Proof.
  intros o closed [n next] V NC.
  assert (KP : forall A (m : R A) f, keeps m -> inv closed (fst (on_node m f {| w_node := n; w_next := next |})) /\ (next <= w_next (fst (on_node m f {| w_node := n; w_next := next |})))%nat).
  { intros A m f K. unfold on_node; cbn [w_node w_next]. destruct (m n) as [n' r] eqn:E. cbn. destruct (K _ _ _ E). split; [eapply inv_keeps; eauto|auto]. }
  assert (KS : forall i A (m : R A) f, keeps m -> inv closed (fst (on_sock i m f {| w_node := n; w_next := next |})) /\ (next <= w_next (fst (on_sock i m f {| w_node := n; w_next := next |})))%nat).
  { intros i A m f K. unfold on_sock. destruct (known _ _); [apply KP; auto|split; auto]. }
  assert (KI : forall i A (m : R A) f closed', (forall n' r, (i < next)%nat -> m n = (n', r) -> inv closed' {| w_node := n'; w_next := next |}) ->
     ((next <= i)%nat -> inv closed' {| w_node := n; w_next := next |}) ->
     inv closed' (fst (on_sock i m f {| w_node := n; w_next := next |})) /\ (next <= w_next (fst (on_sock i m f {| w_node := n; w_next := next |})))%nat).
  { intros i A m f closed' K K2. unfold on_sock, known. cbn [w_next]. destruct (Nat.ltb_spec i next).
    - unfold on_node; cbn [w_node w_next]. destruct (m n) as [n' r] eqn:E. cbn. split; [eapply K; eauto|auto].
    - cbn. auto. }
  destruct o; cbn [uop_do add_closed w_next] in *.
  - cbn [fst w_next w_node]. split; [|lia]. destruct V as [N E O A]. cbn [w_node w_next] in *. split; cbn [w_node w_next set_udp n_socks n_udp]; auto.
    + intros k j I T. destruct (E _ _ I T) as (Hj & Cj & K & B). destruct (Nat.eqb_spec j next); [lia|]. repeat split; auto.
    + intros i Hi Ci. destruct (Nat.eqb_spec i next); [left; exists f; auto|]. apply O; auto. lia.
    + intros i j Hi Hj Ci Cj Nij. destruct (Nat.eqb_spec i next), (Nat.eqb_spec j next); try lia.
      * cbn. discriminate.
      * cbn. intros B P. exfalso. apply bound_nonzero in B. contradiction.
      * apply A; auto; lia.
  - apply KI; [|auto]. intros n' r Hi E. eapply inv_bind; eauto. intros Ci. eapply NC; eauto. cbn. auto.
  - apply KI; [|auto]. intros n' r Hi E. eapply inv_connect; eauto. intros Ci. eapply NC; eauto. cbn. auto.
  - apply KS, keeps_send.
  - apply KI; [|auto]. intros n' r Hi E. eapply inv_sendto; eauto. intros Ci. eapply NC; eauto. cbn. auto.
  - apply KS, keeps_recv.
  - apply KS, keeps_recvfrom.
  - apply KI.
    + intros n' r Hi E. eapply inv_close; eauto. intros Ci. eapply NC; eauto. cbn. auto.
    + intros Hi. destruct V as [N E O A]. cbn [w_node w_next] in *. split; cbn [w_node w_next]; auto.
      * intros k j I T. destruct (E _ _ I T) as (Hj & Cj & K). split; auto. split; [intros [->|]; [lia|auto]|auto].
  - apply KP, keeps_ether.
  - apply KP. apply keeps_upd. intros; cbn; auto.
  - unfold on_node, rupd. cbn [fst w_next w_node]. split; auto. destruct V as [N E O A]. cbn [w_node w_next] in *.
    split; cbn [w_node w_next set_socks n_socks n_udp]; auto using put_nodup.
    + intros x y I T. apply E; auto. apply put_in_other in I; auto. intros ->. discriminate.
    + intros i Hi Ci. destruct (O i Hi Ci) as [|[? ?]]; auto. right. split; auto. apply put_in_other; auto. discriminate.
  - unfold on_node, rupd. cbn [fst w_next w_node]. split; auto. destruct V as [N E O A]. cbn [w_node w_next] in *.
    split; cbn [w_node w_next set_socks n_socks n_udp]; auto using pop_nodup.
    + intros x y I T. apply pop_in in I. apply E; tauto.
    + intros i Hi Ci. destruct (O i Hi Ci) as [|[? ?]]; auto. right. split; auto. apply pop_in. split; auto. discriminate.
Qed.

Lemma inv_run : forall ops closed w, inv closed w -> (forall i, closed i -> forall o, In o ops -> ~ call_on i o) ->
  no_use_after_close ops -> inv (fun i => closed i \/ closed_in ops i) (uop_run ops w).
Proof.
  induction ops as [|o r IH]; intros closed w V NC NU.
  - eapply inv_ext; [|exact V]. intros i. unfold closed_in. cbn. tauto.
  - cbn [uop_run]. destruct (inv_do o closed w V) as [V1 _].
    { intros i Ci. apply NC; auto. left; auto. }
    eapply inv_ext; [|apply (IH (add_closed o closed) _ V1)].
    + intros i. unfold closed_in. cbn [In]. destruct o; cbn [add_closed]; try (split; [tauto|intros [?|[E|?]]; [tauto|discriminate|tauto]]).
      split; [intros [[->|?]|?]; tauto|]. intros [?|[E|?]]; try tauto. injection E as ->. tauto.
    + intros i Ci x Ix. assert (C' : closed i \/ o = UClose i).
      { destruct o; cbn in Ci; auto. destruct Ci as [->|]; auto. }
      destruct C' as [C'| ->]; [apply NC; auto; right; auto|].
      apply (NU [] i r eq_refl x Ix).
    + intros a i b E. apply (NU (o :: a) i b). cbn. congruence.
Qed.
Lemma inv_fresh : forall w, fresh_world w -> inv (fun _ => False) w.
Proof.
  intros w [N S]. split; rewrite ?S.
  - constructor.
  - intros k j [].
  - intros i Hi. lia.
  - intros i j Hi. lia.
Qed.
Lemma inv_history : forall ops w, fresh_world w -> no_use_after_close ops -> inv (closed_in ops) (uop_run ops w).
Proof.
  intros ops w F NU. eapply inv_ext; [|apply (inv_run ops (fun _ => False) w (inv_fresh w F))]; auto. intros; tauto. 
Qed.

(** ** receiving *)
Definition uniform {A} (P : usock -> usock -> Prop) (m : R A) : Prop :=
  forall n n' r, m n = (n', r) -> forall i, P (n_udp n i) (n_udp n' i).
Definition grows (u u' : usock) : Prop := exists l, u_queue u' = u_queue u ++ l /\ u_ready u' = u_ready u + zlen l.
Definition qsame (u u' : usock) : Prop := u_queue u' = u_queue u /\ u_ready u' = u_ready u.
Definition preorder (P : usock -> usock -> Prop) : Prop := (forall u, P u u) /\ (forall a b c, P a b -> P b c -> P a c).
Lemma grows_po : preorder grows.
Proof.
  split.
  - intros u. exists []. rewrite app_nil_r. unfold zlen. cbn. split; auto. lia.
  - intros a b c (l & Q & R) (l' & Q' & R'). exists (l ++ l'). rewrite Q', Q, R', R, app_assoc. split; auto. unfold zlen. rewrite app_length. lia.
Qed.
Lemma qsame_po : preorder qsame.
Proof. split; [split; auto|]. intros a b c [A B] [C D]. split; congruence. Qed.
Lemma qsame_grows : forall a b, qsame a b -> grows a b.
Proof. intros a b [Q R]. exists []. rewrite app_nil_r, Q, R. unfold zlen; cbn. split; auto. lia. Qed.

Lemma un_ret : forall P {A} (a : A), preorder P -> uniform P (rret a).
Proof. intros P A a [X _] n n' r E. injection E as <- _. auto. Qed.
Lemma un_lift : forall P {A} (a : res A), preorder P -> uniform P (rlift a).
Proof. intros P A a [X _] n n' r E. injection E as <- _. auto. Qed.
Lemma un_gets : forall P {A} (a : node -> A), preorder P -> uniform P (rgets a).
Proof. intros P A a [X _] n n' r E. injection E as <- _. auto. Qed.
Lemma un_bind : forall P {A B} (m : R A) (k : A -> R B), preorder P -> uniform P m -> (forall a, uniform P (k a)) -> uniform P (x <+ m ;; k x).
Proof.
  intros P A B m k [X T] Hm Hk n n' r E i. apply bind_inv in E. destruct E as [(n1 & a & E1 & E2)|(e & E1 & _)].
  - eapply T; [eapply Hm; eauto|eapply Hk; eauto].
  - eapply Hm; eauto.
Qed.
Lemma un_tx : forall P {A} (m : M A), preorder P -> uniform P (tx m).
Proof. intros P A m [X _] n n' r E. unfold tx in E. destruct (m (n_tx n)). injection E as <- _. cbn. auto. Qed.
Lemma un_tx_ : forall P {A} (m : M A), preorder P -> uniform P (tx_ m).
Proof. intros. unfold tx_. apply un_bind; auto; [apply un_tx; auto|intros; apply un_ret; auto]. Qed.
Lemma un_upd : forall (P : usock -> usock -> Prop) f, (forall n i, P (n_udp n i) (n_udp (f n) i)) -> uniform P (rupd f).
Proof. intros P f H n n' r E. injection E as <- _. auto. Qed.
Lemma un_upd_same : forall P f, preorder P -> (forall n, n_udp (f n) = n_udp n) -> uniform P (rupd f).
Proof. intros P f [X _] H. apply un_upd. intros n i. rewrite H. auto. Qed.
Lemma un_set : forall (P : usock -> usock -> Prop) i g, preorder P -> (forall u, P u (g u)) -> forall n j, P (n_udp n j) (n_udp (set_udp i (g (n_udp n i)) n) j).
Proof. intros P i g [X _] H n j. cbn. destruct (Nat.eqb_spec j i); subst; auto. Qed.
Lemma un_parsed : forall P {A} (r : res (parsed A)) k, preorder P -> (forall p, uniform P (k p)) -> uniform P (on_parsed r k).
Proof. intros. unfold on_parsed. apply un_bind; auto; [apply un_lift; auto|]. intros [x|x]; auto. apply un_ret; auto. Qed.
Lemma un_deliver : forall i m, uniform grows (rupd (udp_deliver i m)).
Proof.
  intros. apply un_upd. intros n j. unfold udp_deliver. cbn. destruct (Nat.eqb_spec j i); subst; [|apply grows_po].
  exists [m]. cbn. auto.
Qed.
Lemma un_notify : forall i, uniform qsame (rupd (udp_notify i)).
Proof. intros. apply un_upd. intros n j. unfold udp_notify. cbn. destruct (Nat.eqb_spec j i); subst; split; auto. Qed.
Lemma un_weak : forall {A} (m : R A), uniform qsame m -> uniform grows m.
Proof. intros A m H n n' r E i. apply qsame_grows. eapply H; eauto. Qed.
Ltac un := repeat (cbv zeta; match goal with
  | |- uniform _ (rbind' _ _) => apply un_bind; [assumption| |intros]
  | |- uniform _ (rret _) => apply un_ret; assumption
  | |- uniform _ (rlift _) => apply un_lift; assumption
  | |- uniform _ (rgets _) => apply un_gets; assumption
  | |- uniform _ (tx _) => apply un_tx; assumption
  | |- uniform _ (tx_ _) => apply un_tx_; assumption
  | |- uniform _ (on_parsed _ _) => apply un_parsed; [assumption|intros]
  | |- uniform grows (rupd (udp_deliver _ _)) => apply un_deliver
  | |- uniform grows (rupd (udp_notify _)) => apply un_weak, un_notify
  | |- uniform _ (rupd _) => apply un_upd_same; [assumption|intros; reflexivity]
  | |- uniform _ (if ?b then _ else _) => destruct b
  | |- uniform _ (match ?x with _ => _ end) => destruct x
  | |- uniform _ (let (_, _) := ?x in _) => destruct x
  end).
Lemma un_arp : forall e, uniform grows (phrx_arp e).
Proof. intros. pose proof grows_po. unfold phrx_arp. un. Qed.
Lemma un_udp : forall a b f l p w, uniform grows (phrx_udp a b f l p w).
Proof. intros. pose proof grows_po. unfold phrx_udp. un. Qed.
Lemma un_tcp : forall a b f l p, uniform grows (phrx_tcp a b f l p).
Proof. intros. pose proof grows_po. unfold phrx_tcp. un. Qed.
Lemma un_icmp4 : forall a b f l, uniform grows (phrx_icmp4 a b f l).
Proof. intros. pose proof grows_po. unfold phrx_icmp4. un. Qed.
Lemma un_icmp6 : forall a b h f l p, uniform grows (phrx_icmp6 a b h f l p).
Proof. intros. pose proof grows_po. unfold phrx_icmp6. un. Qed.
Lemma un_dispatch4 : forall p f, uniform grows (ip4_dispatch p f).
Proof.
  intros. unfold ip4_dispatch. cbv zeta. destruct (_ =? _); [apply un_icmp4|]. destruct (_ =? _); [apply un_udp|].
  destruct (_ =? _); [apply un_tcp|apply un_ret, grows_po].
Qed.
Lemma un_ip4 : forall f, uniform grows (phrx_ip4 f).
Proof. intros. pose proof grows_po. unfold phrx_ip4. un; apply un_dispatch4. Qed.
Lemma un_ip6 : forall fuel f, uniform grows (phrx_ip6_fuel fuel f).
Proof.
  pose proof grows_po. induction fuel; intros f; cbn [phrx_ip6_fuel]; [apply un_lift; auto|].
  un; auto using un_icmp6, un_udp, un_tcp.
Qed.
Lemma un_ether : forall f, uniform grows (phrx_ether f).
Proof.
  intros. pose proof grows_po. unfold phrx_ether. un; auto using un_arp, un_ip4. intros n n' r E. unfold phrx_ip6 in E. eapply un_ip6; eauto.
Qed.
Lemma un_unreach : forall i b, uniform qsame (rupd (fun n => set_udp i (set_unreach b (n_udp n i)) n)).
Proof. intros. apply un_upd. apply (un_set qsame i (set_unreach b) qsame_po). split; auto. Qed.
Lemma un_send : forall i d, uniform qsame (udp_send i d).
Proof. intros. pose proof qsame_po. unfold udp_send. un. apply un_unreach. Qed.
Lemma un_set_ip : forall i t l p r, uniform qsame (udp_set_ip i t l p r).
Proof. intros. pose proof qsame_po. unfold udp_set_ip. un. apply un_unreach. Qed.
Lemma un_re_register : forall i g, (forall u, qsame u (g u)) -> uniform qsame (rupd (re_register i g)).
Proof.
  intros i g H. apply un_upd. intros n j. unfold re_register. cbn. destruct (Nat.eqb_spec j i); subst; auto. split; auto.
Qed.
Lemma un_bindcall : forall c i t p, uniform qsame (udp_bind c i t p).
Proof.
  intros. pose proof qsame_po. unfold udp_bind. un; try (apply un_re_register; split; auto).
  intros n n' r E. unfold rlift in E. injection E as <- _. split; auto.
Qed.
Lemma un_connect : forall c i t p, uniform qsame (udp_connect c i t p).
Proof.
  intros. pose proof qsame_po. unfold udp_connect. un; try (apply un_re_register; split; auto); try apply un_set_ip.
  intros n n' r E. unfold rlift in E. injection E as <- _. split; auto.
Qed.
Lemma un_sendto : forall c i d t p, uniform qsame (udp_sendto c i d t p).
Proof.
  intros. pose proof qsame_po. unfold udp_sendto. un; try apply un_set_ip.
  - intros n n' r E. unfold rlift in E. injection E as <- _. split; auto.
  - intros n n' r E j. injection E as <- _. cbn. destruct (Nat.eqb_spec j i); subst; split; auto.
Qed.

(** a receive call takes the head of the queue or nothing *)
Lemma take_spec : forall i n n' r, udp_take i n = (n', r) -> u_ready (n_udp n i) = zlen (u_queue (n_udp n i)) ->
  (forall j, j <> i -> n_udp n' j = n_udp n j) /\ u_ready (n_udp n' i) = zlen (u_queue (n_udp n' i)) /\
  match r with
  | Ok m => u_queue (n_udp n i) = m :: u_queue (n_udp n' i)
  | Exn e => e = RecvTimeout /\ u_queue (n_udp n i) = [] /\ n' = n
  end.
Proof.
  intros i n n' r E C. unfold udp_take, rbind', rgets, rret, rlift, rupd in E.
  destruct (Z.ltb_spec 0 (u_ready (n_udp n i))) as [L|L].
  - destruct (u_queue (n_udp n i)) as [|m q] eqn:Q; [rewrite C in L; unfold zlen in L; cbn in L; lia|].
    injection E as <- <-. cbn. split; [intros j Nj; destruct (Nat.eqb_spec j i); congruence|].
    rewrite Nat.eqb_refl. cbn. split; auto. rewrite C. unfold zlen. cbn [length]. lia.
  - injection E as <- <-. split; auto. split; auto. split; auto. split; auto.
    destruct (u_queue (n_udp n i)); auto. rewrite C in L. unfold zlen in L. cbn in L. lia.
Qed.
Lemma recv_spec : forall i n n' r, udp_recv i n = (n', r) -> u_ready (n_udp n i) = zlen (u_queue (n_udp n i)) ->
  (forall j, j <> i -> n_udp n' j = n_udp n j) /\ u_ready (n_udp n' i) = zlen (u_queue (n_udp n' i)) /\
  match r with
  | Ok d => exists m, d = m_data m /\ u_queue (n_udp n i) = m :: u_queue (n_udp n' i)
  | Exn e => (e = RecvTimeout /\ u_queue (n_udp n i) = [] \/ e = ConnRefused /\ u_unreach (n_udp n i) = true) /\ u_queue (n_udp n' i) = u_queue (n_udp n i)
  end.
Proof.
  intros i n n' r E C. unfold udp_recv in E. unfold rbind' at 1, rgets in E. destruct (u_unreach (n_udp n i)) eqn:U.
  - unfold rbind', rupd, rlift in E. injection E as <- <-. cbn. split; [intros j Nj; destruct (Nat.eqb_spec j i); congruence|].
    rewrite Nat.eqb_refl. cbn. auto.
  - apply bind_inv in E. destruct E as [(n1 & m & E1 & E2)|(e & E1 & ->)].
    + injection E2 as <- <-. destruct (take_spec _ _ _ _ E1 C) as (A & B & D). split; auto. split; auto. exists m. auto.
    + destruct (take_spec _ _ _ _ E1 C) as (A & B & D & Q & ->). auto 6.
Qed.
Lemma recvfrom_spec : forall i n n' r, udp_recvfrom i n = (n', r) -> u_ready (n_udp n i) = zlen (u_queue (n_udp n i)) ->
  (forall j, j <> i -> n_udp n' j = n_udp n j) /\ u_ready (n_udp n' i) = zlen (u_queue (n_udp n' i)) /\
  match r with
  | Ok d => exists m, d = (m_data m, (m_rip m, m_rport m)) /\ u_queue (n_udp n i) = m :: u_queue (n_udp n' i)
  | Exn e => (e = RecvTimeout /\ u_queue (n_udp n i) = []) /\ u_queue (n_udp n' i) = u_queue (n_udp n i)
  end.
Proof.
  intros i n n' r E C. unfold udp_recvfrom in E.
  apply bind_inv in E. destruct E as [(n1 & m & E1 & E2)|(e & E1 & ->)].
  - injection E2 as <- <-. destruct (take_spec _ _ _ _ E1 C) as (A & B & D). split; auto. split; auto. exists m. auto.
  - destruct (take_spec _ _ _ _ E1 C) as (A & B & D & Q & ->). auto 6.
Qed.

Lemma skipn_grown : forall {A} (a b : list A), skipn (length a) (a ++ b) = b.
Proof. induction a; cbn; auto. Qed.
(** one step of a history, for a socket that exists *)
Lemma step_queue : forall o w i, (i < w_next w)%nat -> counted w i ->
  counted (fst (uop_do o w)) i /\ (i < w_next (fst (uop_do o w)))%nat /\
  exists taken, Forall2 carries (returned i o w) taken /\
    taken ++ u_queue (n_udp (w_node (fst (uop_do o w))) i) = u_queue (n_udp (w_node w) i) ++ added i o w.
Proof.
  intros o [n next] i Hi C. unfold counted in *. cbn [w_node w_next] in *.
  assert (QN : forall A (m : R A) f, uniform qsame m ->
     let w' := fst (on_node m f {| w_node := n; w_next := next |}) in
     u_ready (n_udp (w_node w') i) = zlen (u_queue (n_udp (w_node w') i)) /\ w_next w' = next /\
     u_queue (n_udp (w_node w') i) = u_queue (n_udp n i)).
  { intros A m f U. unfold on_node; cbn [w_node w_next]. destruct (m n) as [n' r] eqn:E. cbn. destruct (U _ _ _ E i) as [Q R]. rewrite Q, R. auto. }
  assert (QS : forall j A (m : R A) f, uniform qsame m ->
     let w' := fst (on_sock j m f {| w_node := n; w_next := next |}) in
     u_ready (n_udp (w_node w') i) = zlen (u_queue (n_udp (w_node w') i)) /\ w_next w' = next /\
     u_queue (n_udp (w_node w') i) = u_queue (n_udp n i)).
  { intros j A m f U. unfold on_sock. destruct (known _ _); [apply QN; auto|cbn; auto]. }
  assert (FIN : forall w', u_ready (n_udp (w_node w') i) = zlen (u_queue (n_udp (w_node w') i)) /\ w_next w' = next /\
     u_queue (n_udp (w_node w') i) = u_queue (n_udp n i) ->
     u_ready (n_udp (w_node w') i) = zlen (u_queue (n_udp (w_node w') i)) /\ (i < w_next w')%nat /\
     exists taken, Forall2 carries [] taken /\ taken ++ u_queue (n_udp (w_node w') i) = u_queue (n_udp n i) ++ []).
  { intros w' (A & B & D). split; auto. split; [lia|]. exists []. rewrite app_nil_r. auto. }
  destruct o; cbn [uop_do added returned w_node].
  - cbn. destruct (Nat.eqb_spec i next); [lia|]. split; auto. split; [lia|]. exists []. rewrite app_nil_r. auto.
  - apply FIN, QS, un_bindcall.
  - apply FIN, QS, un_connect.
  - apply FIN, QS, un_send.
  - apply FIN, QS, un_sendto.
  - unfold on_sock, known. cbn [w_next]. destruct (Nat.ltb_spec i0 next).
    + unfold on_node. cbn [w_node w_next]. destruct (udp_recv i0 n) as [n' r] eqn:E. cbn [fst snd w_node w_next].
      destruct (Nat.eqb_spec i0 i) as [->|Ni].
      * destruct (recv_spec _ _ _ _ E C) as (_ & R & D). split; auto. split; auto.
        destruct r as [d|e]; cbn.
        -- destruct D as (m & -> & ->). exists [m]. rewrite app_nil_r. split; [constructor; [reflexivity|auto]|auto].
        -- destruct D as (_ & ->). exists []. rewrite app_nil_r. auto.
      * assert (X : n_udp n' i = n_udp n i).
        { unfold udp_recv in E. unfold rbind' at 1, rgets at 1 in E. destruct (u_unreach _).
          - unfold rbind', rupd, rlift in E. injection E as <- _. cbn. destruct (Nat.eqb_spec i i0); congruence.
          - apply bind_inv in E. assert (T : forall r, udp_take i0 n = (n', r) -> n_udp n' i = n_udp n i).
            { intros r0 T. unfold udp_take, rbind', rgets, rret, rlift, rupd in T. destruct (0 <? _); [|injection T as <- _; auto].
              destruct (u_queue (n_udp n i0)); injection T as <- _; cbn; destruct (Nat.eqb_spec i i0); congruence. }
            destruct E as [(n1 & m & E1 & E2)|(e & E1 & _)]; [injection E2 as <- _; eauto|eauto]. }
        rewrite X. split; auto. split; auto. exists []. rewrite app_nil_r. auto.
    + cbn. split; auto. split; auto. destruct (Nat.eqb i0 i); exists []; rewrite app_nil_r; auto.
  - unfold on_sock, known. cbn [w_next]. destruct (Nat.ltb_spec i0 next).
    + unfold on_node. cbn [w_node w_next]. destruct (udp_recvfrom i0 n) as [n' r] eqn:E. cbn [fst snd w_node w_next].
      destruct (Nat.eqb_spec i0 i) as [->|Ni].
      * destruct (recvfrom_spec _ _ _ _ E C) as (_ & R & D). split; auto. split; auto.
        destruct r as [d|e]; cbn.
        -- destruct D as (m & -> & ->). exists [m]. rewrite app_nil_r. split; [constructor; [cbn; auto|auto]|auto].
        -- destruct D as (_ & ->). exists []. rewrite app_nil_r. auto.
      * assert (X : n_udp n' i = n_udp n i).
        { unfold udp_recvfrom in E. apply bind_inv in E. assert (T : forall r, udp_take i0 n = (n', r) -> n_udp n' i = n_udp n i).
            { intros r0 T. unfold udp_take, rbind', rgets, rret, rlift, rupd in T. destruct (0 <? _); [|injection T as <- _; auto].
              destruct (u_queue (n_udp n i0)); injection T as <- _; cbn; destruct (Nat.eqb_spec i i0); congruence. }
            destruct E as [(n1 & m & E1 & E2)|(e & E1 & _)]; [injection E2 as <- _; eauto|eauto]. }
        rewrite X. split; auto. split; auto. exists []. rewrite app_nil_r. auto.
    + cbn. split; auto. split; auto. destruct (Nat.eqb i0 i); exists []; rewrite app_nil_r; auto.
  - apply FIN, QS. unfold udp_close. apply un_upd_same; [apply qsame_po|auto].
  - unfold on_node. cbn [w_node w_next]. destruct (phrx_ether f n) as [n' r] eqn:E. cbn [fst w_node w_next].
    destruct (un_ether f _ _ _ E i) as (l & Q & R). rewrite Q, R, C. split; [unfold zlen; rewrite app_length; lia|].
    split; auto. exists []. rewrite skipn_grown. auto.
  - apply FIN, QN. apply un_upd_same; [apply qsame_po|auto].
  - apply FIN, QN. apply un_upd_same; [apply qsame_po|auto].
  - apply FIN, QN. apply un_upd_same; [apply qsame_po|auto].
Qed.
Lemma run_queue : forall ops w i, (i < w_next w)%nat -> counted w i ->
  counted (uop_run ops w) i /\
  exists taken, Forall2 carries (returns i ops w) taken /\
    taken ++ u_queue (n_udp (w_node (uop_run ops w)) i) = u_queue (n_udp (w_node w) i) ++ arrivals i ops w.
Proof.
  induction ops as [|o r IH]; intros w i Hi C; cbn [uop_run returns arrivals].
  - split; auto. exists []. rewrite app_nil_r. auto.
  - destruct (step_queue o w i Hi C) as (C1 & H1 & t1 & F1 & Q1). destruct (IH _ _ H1 C1) as (C2 & t2 & F2 & Q2).
    split; auto. exists (t1 ++ t2). split; [apply Forall2_app; auto|]. rewrite <- app_assoc, Q2, app_assoc, Q1, app_assoc. auto.
Qed.

(** ** interleavings *)
Lemma legal_inv : forall p h s es, legal p h s es -> 0 <= p -> 0 <= h ->
  v_sem s + p + h = zlen (v_queue s) -> 0 <= v_sem s -> v_fail s = false ->
  v_fail (recv_run es s) = false /\
  v_got (recv_run es s) ++ v_queue (recv_run es s) = v_got s ++ v_queue s ++ appended es.
Proof.
  intros p h s es L. induction L; intros P Hh S N F; cbn [recv_run appended].
  - rewrite app_nil_r. auto.
  - destruct IHL as [A B]; auto; try lia; cbn.
    + unfold zlen in *. rewrite app_length. cbn. lia.
    + split; [exact A|]. etransitivity; [exact B|]. cbn. rewrite <- app_assoc. auto.
  - destruct IHL as [A B]; auto; cbn; try lia.
  - destruct IHL as [A B]; auto; cbn; try lia.
  - assert (X : exists m q, v_queue s = m :: q).
    { destruct (v_queue s); eauto. unfold zlen in S. cbn in S. lia. }
    destruct X as (m & q & Q). cbn [recv_do] in *. rewrite Q in *. cbn [v_queue v_sem v_got v_fail] in *.
    destruct IHL as [A B]; auto; try lia.
    + unfold zlen in *. cbn [length] in S. lia.
    + split; auto. rewrite B. rewrite <- !app_assoc. auto.
Qed.

(** ** C57 *)
Lemma bind_auto : forall c i a n n' , udp_bind c i a 0 n = (n', Ok tt) ->
  In (u_lport0 (n_udp n' i)) ephemeral_ports /\ ~ port_used (n_socks n) (u_lport0 (n_udp n' i)) /\
  In (udp_key (n_udp n' i), i) (n_socks n').
Proof.
  intros c i a n n' E. unfold udp_bind in E. unfold rbind' at 1, rgets at 1 in E.
  destruct (bound_port (u_lport0 (n_udp n i))) eqn:B; [discriminate|].
  destruct a as [a|]; [|discriminate]. unfold rbind' at 1, rgets at 1 in E. destruct (negb (mem a _)); [discriminate|].
  destruct (negb _); [discriminate|]. cbv zeta in E. unfold rbind' in E. change (0 <? 0) with false in E. unfold rlift in E.
  destruct (pick_port c (n_socks n)) as [q|e] eqn:PP; [|discriminate].
  injection E as <-. unfold re_register. cbn. rewrite Nat.eqb_refl. cbn. apply pick_port_ok in PP. destruct PP as [I N].
  split; auto. split; auto. apply put_in.
Qed.
Lemma bind_none : forall c i a n, bound_port (u_lport0 (n_udp n i)) = false ->
  In a (match family_of (u_lip (n_udp n i)) with Fam4 => ip4_unicast (my_addrs n) | Fam6 => ip6_unicast (my_addrs n) end ++ [0]) ->
  (forall p, In p ephemeral_ports -> port_used (n_socks n) p) -> udp_bind c i (Some a) 0 n = (n, Exn (OsError 98)).
Proof.
  intros c i a n B I A. unfold udp_bind. unfold rbind' at 1, rgets at 1. rewrite B. unfold rbind' at 1, rgets at 1.
  apply mem_in in I. rewrite I. cbn [negb]. change (negb ((0 <=? 0) && (0 <? 65536))) with false. cbv zeta.
  unfold rbind'. change (0 <? 0) with false. unfold rlift.
  rewrite (proj2 (pick_port_exn c (n_socks n) (OsError 98))); auto.
Qed.
Lemma connect_auto : forall c i a rp n n', bound_port (u_lport0 (n_udp n i)) = false -> udp_connect c i a rp n = (n', Ok tt) ->
  In (u_lport0 (n_udp n' i)) ephemeral_ports /\ ~ port_used (n_socks n) (u_lport0 (n_udp n' i)) /\
  In (udp_key (n_udp n' i), i) (n_socks n').
Proof.
  intros c i a rp n n' B E. unfold udp_connect in E. destruct (negb _); [discriminate|].
  unfold rbind' at 1, rgets at 1 in E. unfold rbind' at 1 in E. rewrite B in E. unfold rlift in E.
  destruct (pick_port c (n_socks n)) as [q|e] eqn:PP; [|discriminate].
  apply bind_inv in E. destruct E as [(n1 & [lip rip] & S & E)|(e & _ & E)]; [|discriminate].
  injection E as <-. unfold re_register. cbn. rewrite Nat.eqb_refl. cbn. apply pick_port_ok in PP. destruct PP as [I N].
  split; auto. split; auto. apply put_in.
Qed.
Lemma connect_none : forall c i a rp n, bound_port (u_lport0 (n_udp n i)) = false -> 0 <= rp < 65536 ->
  (forall p, In p ephemeral_ports -> port_used (n_socks n) p) -> udp_connect c i a rp n = (n, Exn (OsError 98)).
Proof.
  intros c i a rp n B R A. unfold udp_connect.
  replace (negb _) with false by (symmetry; apply negb_false_iff, andb_true_iff; rewrite Z.leb_le, Z.ltb_lt; lia).
  unfold rbind' at 1, rgets at 1. unfold rbind' at 1. rewrite B. unfold rlift.
  rewrite (proj2 (pick_port_exn c (n_socks n) (OsError 98))); auto.
Qed.
Lemma popped_used : forall n i p, bound_port (u_lport0 (n_udp n i)) = false -> In p ephemeral_ports ->
  (port_used (sock_pop (udp_key (n_udp n i)) (n_socks n)) p <-> port_used (n_socks n) p).
Proof.
  intros n i p B I. apply ephemeral_bound in I. split; intros (k & j & Ij & E); exists k, j; split; auto.
  - apply pop_in in Ij. tauto.
  - apply pop_in. split; auto. intros ->. cbn in E. congruence.
Qed.
Lemma sendto_auto : forall c i d a rp n n' l, bound_port (u_lport0 (n_udp n i)) = false -> udp_sendto c i d a rp n = (n', Ok l) ->
  In (u_lport0 (n_udp n' i)) ephemeral_ports /\ ~ port_used (n_socks n) (u_lport0 (n_udp n' i)) /\
  In (udp_key (n_udp n' i), i) (n_socks n').
Proof.
  intros c i d a rp n n' l B E. unfold udp_sendto in E. destruct (negb _); [discriminate|].
  unfold rbind' at 1, rgets at 1 in E. rewrite B in E. apply bind_inv in E.
  destruct E as [(n1 & x & E1 & E2)|(e & _ & E)]; [|discriminate].
  assert (K : keeps (p0 <+ rgets (fun n => u_lport0 (n_udp n i)) ;; ips <+ udp_set_ip i a (u_lip (n_udp n i)) p0 rp ;;
     st <+ tx (phtx_udp (fst ips) (snd ips) p0 rp d) ;; rret (sent_len st d))) by (kp; apply keeps_set_ip).
  destruct (K _ _ _ E2) as [KS KU]. destruct (ends_fields _ _ (KU i)) as (_ & P & Ky). rewrite P, Ky, KS. clear E2 K KS KU P Ky.
  unfold rbind', rupd, rlift in E1. cbn [set_socks n_socks] in E1.
  destruct (pick_port c _) as [q|e] eqn:PP; [|discriminate]. injection E1 as <- _.
  apply pick_port_ok in PP. destruct PP as [I N]. rewrite popped_used in N by auto.
  cbn [set_udp set_socks n_udp n_socks]. rewrite Nat.eqb_refl. cbn [set_local u_lport0]. split; auto. split; auto. apply put_in.
Qed.
Lemma sendto_none : forall c i d a rp n, bound_port (u_lport0 (n_udp n i)) = false -> 0 <= rp < 65536 ->
  (forall p, In p ephemeral_ports -> port_used (n_socks n) p) -> snd (udp_sendto c i d a rp n) = Exn (OsError 98).
Proof.
  intros c i d a rp n B R A. unfold udp_sendto.
  replace (negb _) with false by (symmetry; apply negb_false_iff, andb_true_iff; rewrite Z.leb_le, Z.ltb_lt; lia).
  unfold rbind' at 1, rgets at 1. rewrite B. unfold rbind', rupd, rlift. cbn [set_socks n_socks].
  rewrite (proj2 (pick_port_exn c _ (OsError 98))); auto. split; auto. intros p I. apply popped_used; auto.
Qed.

(** ** C60 *)
Lemma close_only : forall closed w i, inv closed w -> (i < w_next w)%nat -> ~ closed i ->
  forall k j, In (k, j) (n_socks (w_node (fst (uop_do (UClose i) w)))) <-> In (k, j) (n_socks (w_node w)) /\ (k_type k = Dgram -> j <> i).
Proof.
  intros closed w i V Hi C k j. cbn [uop_do]. unfold on_sock, known. apply Nat.ltb_lt in Hi. rewrite Hi. cbn.
  apply Nat.ltb_lt in Hi. apply pop_entry with (closed := closed); auto.
Qed.
