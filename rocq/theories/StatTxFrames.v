(** What the transmit counters say about frames, statuses and sources. *)
From Verif Require Import Base BaseLemmas CodecModel AddrModel AddrProofs EtherModel Ip4Model Ip6Model UdpModel TcpModel
  Icmp4Model Icmp6Model FragModel FragSendProofs RingModel BufProofs StackModel StackTxProofs StackRouteProofs StackSendProofs
  StatTxModel SpecStatTx StatTxProofs.

(** ** a run from a state with the addresses [a]: counters, frames, result *)
Definition runs {A} (a : addrs) (t : X A) (P : list txc -> list oframe -> res A -> Prop) : Prop :=
  forall s l s' r, s_addrs s = a -> t s = (l, (s', r)) ->
  s_addrs s' = a /\ exists new, s_out s' = s_out s ++ new /\ P l new r.
(** a statement that leaves addresses and frames alone *)
Definition still {A} (m : M A) : Prop := forall s, s_addrs (fst (m s)) = s_addrs s /\ s_out (fst (m s)) = s_out s.
Lemma st_ret {A} (x : A) : still (ret x). Proof. split; reflexivity. Qed.
Lemma st_raise {A} e : still (@raise A e). Proof. split; reflexivity. Qed.
Lemma st_gets {A} (f : stack -> A) : still (gets f). Proof. split; reflexivity. Qed.
Lemma st_lift {A} (r : res A) : still (lift r). Proof. split; reflexivity. Qed.
Lemma st_arp c : still (upd (set_arp c)). Proof. split; reflexivity. Qed.
Lemma st_nd c : still (upd (set_nd c)). Proof. split; reflexivity. Qed.
Lemma st_id4 c : still (upd (set_id4 c)). Proof. split; reflexivity. Qed.
Lemma st_id6 c : still (upd (set_id6 c)). Proof. split; reflexivity. Qed.
Global Hint Resolve st_ret st_raise st_gets st_lift st_arp st_nd st_id4 st_id6 : stl.

Lemma r_quiet {A} a (m : M A) (P : list txc -> list oframe -> res A -> Prop) : still m -> (forall r, P [] [] r) -> runs a (quiet m) P.
Proof.
  intros S H s l s' r Ea E. unfold quiet in E. injection E as <- E. destruct (S s) as (S1 & S2). rewrite E in S1, S2. cbn in S1, S2.
  split; [congruence|]. exists []. rewrite app_nil_r. auto.
Qed.
Lemma r_ret {A} a (x : A) (P : list txc -> list oframe -> res A -> Prop) : P [] [] (Ok x) -> runs a (quiet (ret x)) P.
Proof. intros H s l s' r Ea E. injection E as <- <- <-. split; [exact Ea|]. exists []. rewrite app_nil_r. auto. Qed.
Lemma r_raise {A} a e (P : list txc -> list oframe -> res A -> Prop) : P [] [] (Exn e) -> runs a (quiet (raise e)) P.
Proof. intros H s l s' r Ea E. injection E as <- <- <-. split; [exact Ea|]. exists []. rewrite app_nil_r. auto. Qed.
Lemma r_gets {B C} a (f : stack -> C) (k : C -> X B) P : (forall c, runs a (k c) P) -> runs a (xbind (quiet (gets f)) k) P.
Proof.
  intros H s l s' r Ea E. unfold xbind, quiet, gets in E. destruct (k (f s) s) as [l1 x] eqn:K. injection E as <- ->. exact (H _ _ _ _ _ Ea K).
Qed.
Lemma r_addrs {B} a (k : addrs -> X B) P : runs a (k a) P -> runs a (xbind (quiet (gets s_addrs)) k) P.
Proof.
  intros H s l s' r Ea E. unfold xbind, quiet, gets in E. destruct (k (s_addrs s) s) as [l1 x] eqn:K. injection E as <- ->.
  rewrite Ea in K. exact (H _ _ _ _ Ea K).
Qed.
Lemma r_lift {A B} a (x : res A) (k : A -> X B) (P : list txc -> list oframe -> res B -> Prop) : (forall y, x = Ok y -> runs a (k y) P) ->
  (forall e, x = Exn e -> P [] [] (Exn e)) -> runs a (xbind (quiet (lift x)) k) P.
Proof.
  intros H K s l s' r Ea E. unfold xbind, quiet, lift in E. destruct x as [y|e].
  - destruct (k y s) as [l1 x] eqn:K1. injection E as <- ->. exact (H y eq_refl _ _ _ _ Ea K1).
  - injection E as <- <- <-. split; [exact Ea|]. exists []. rewrite app_nil_r. auto.
Qed.
Lemma r_upd {B} a f (k : unit -> X B) P : still (upd f) -> runs a (k tt) P -> runs a (xbind (quiet (upd f)) k) P.
Proof.
  intros S H s l s' r Ea E. unfold xbind, quiet, upd in E. destruct (k tt (f s)) as [l1 x] eqn:K. injection E as <- ->.
  destruct (S s) as (S1 & S2). cbn in S1, S2. rewrite <- S2. apply (H (f s)); congruence.
Qed.
Lemma r_count {B} a c (k : unit -> X B) P : runs a (k tt) (fun l => P (c ++ l)) -> runs a (xbind (count c) k) P.
Proof. intros H s l s' r Ea E. unfold xbind, count in E. destruct (k tt s) as [l1 x] eqn:K. injection E as <- ->. exact (H _ _ _ _ Ea K). Qed.
Lemma r_bind {A B} a (t : X A) (k : A -> X B) P Q : runs a t Q ->
  (forall x l new, Q l new (Ok x) -> runs a (k x) (fun l' new' => P (l ++ l') (new ++ new'))) ->
  (forall l new e, Q l new (Exn e) -> P l new (Exn e)) -> runs a (xbind t k) P.
Proof.
  intros H K F s l s' r Ea E. unfold xbind in E. destruct (t s) as [l1 [s1 [x|e]]] eqn:T; destruct (H _ _ _ _ Ea T) as (Ea1 & n1 & O1 & Q1).
  - destruct (k x s1) as [l2 y] eqn:K1. injection E as <- ->. destruct (K _ _ _ Q1 _ _ _ _ Ea1 K1) as (Ea2 & n2 & O2 & P2).
    split; [exact Ea2|]. exists (n1 ++ n2). rewrite O2, O1, app_assoc. auto.
  - injection E as <- <- <-. split; [exact Ea1|]. exists n1. auto.
Qed.
Lemma r_assert {A} a b (t : X A) (P : list txc -> list oframe -> res A -> Prop) : (b = true -> runs a t P) -> P [] [] (Exn AssertionError) -> runs a (xassert b t) P.
Proof. intros H K. destruct b; [auto|]. apply r_raise. exact K. Qed.
Lemma r_weaken {A} a (t : X A) (P Q : list txc -> list oframe -> res A -> Prop) : runs a t Q -> (forall l n r, Q l n r -> P l n r) -> runs a t P.
Proof. intros H W s l s' r Ea E. destruct (H _ _ _ _ Ea E) as (E1 & n & O & q). eauto 6. Qed.
Lemma r_ether_send a src dst p (P : list txc -> list oframe -> res tx_status -> Prop) :
  P [] [{| f_dst := dst; f_src := if mac_is_unspecified src then a_mac a else src; f_pkt := p |}] (Ok PassedToTxRing) ->
  runs a (quiet (ether_send src dst p)) P.
Proof. intros H s l s' r Ea E. unfold quiet, ether_send, mbind, gets, upd, ret in E. injection E as <- <- <-. rewrite Ea. cbn. eauto. Qed.
Lemma r_send a c src dst p (P : list txc -> list oframe -> res tx_status -> Prop) :
  P [c] [{| f_dst := dst; f_src := if mac_is_unspecified src then a_mac a else src; f_pkt := p |}] (Ok PassedToTxRing) ->
  runs a (x_send c src dst p) P.
Proof. intros H. apply r_count, r_ether_send. exact H. Qed.
Lemma r_drop a c st (P : list txc -> list oframe -> res tx_status -> Prop) : P [c] [] (Ok st) -> runs a (x_drop c st) P.
Proof. intros H. apply r_count, r_ret. exact H. Qed.
Ltac r := cbv zeta;
  repeat match goal with
  | |- runs _ (quiet (ret _)) _ => apply r_ret
  | |- runs _ (quiet (raise _)) _ => apply r_raise
  | |- runs _ (quiet (ether_send _ _ _)) _ => apply r_ether_send
  | |- runs _ (x_send _ _ _ _) _ => apply r_send
  | |- runs _ (x_drop _ _) _ => apply r_drop
  | |- runs _ (xbind (quiet (gets s_addrs)) _) _ => apply r_addrs
  | |- runs _ (xbind (quiet (gets _)) _) _ => apply r_gets; intros ?
  | |- runs _ (xbind (quiet (lift _)) _) _ => apply r_lift; [intros ? ?|intros ? ?]
  | |- runs _ (xbind (quiet (upd _)) _) _ => apply r_upd; [auto with stl; fail|]
  | |- runs _ (xbind (count _) _) _ => apply r_count
  | |- runs _ (xbind (ether_head _) _) _ => apply r_count
  | |- runs _ (xassert _ _) _ => apply r_assert; [intros ?|]
  | |- runs _ (if ?b then _ else _) _ => destruct b eqn:?
  | |- runs _ (match ?x with _ => _ end) _ => destruct x eqn:?
  end.

(** ** frames *)
Definition told (a : addrs) (l : list txc) (new : list oframe) : Prop := Forall2 (tells a) (filter says_sent l) new.
Lemma told_app a l n l' n' : told a l n -> told a l' n' -> told a (l ++ l') (n ++ n').
Proof. intros H K. unfold told. rewrite filter_app. apply Forall2_app; assumption. Qed.
Lemma told_skip a c l n : filter says_sent c = [] -> told a l n -> told a (c ++ l) n.
Proof. intros H K. unfold told. rewrite filter_app, H. exact K. Qed.
(** nothing sent, or one frame *)
Ltac none := unfold told; repeat (rewrite ?filter_app); cbn; solve [constructor].
Lemma r_arp a e d p : runs a (x_arp e d p) (fun l n _ => told a l n).
Proof.
  unfold x_arp, ether_head, when. destruct (mac_is_unspecified e), (a_oper p =? ARP_OP_REQUEST), (a_oper p =? ARP_OP_REPLY); r; try none.
  all: unfold told; cbn; apply Forall2_cons; [cbn; eauto|constructor].
Qed.
Lemma r_arp_find {B} a ip (k : option Z -> X B) P :
  (forall l new m, told a l new -> runs a (k m) (fun l' new' => P (l ++ l') (new ++ new'))) ->
  (forall l new e, told a l new -> P l new (Exn e)) ->
  runs a (xbind (x_arp_find ip) k) P.
Proof.
  intros H F. apply r_bind with (Q := fun l n _ => told a l n); [|intros m l new T; apply H; exact T|exact F].
  unfold x_arp_find, x_arp_request. r; [none|].
  eapply r_bind with (Q := fun l n _ => told a l n); [|intros ? l n T; r; rewrite !app_nil_r; exact T|auto].
  r. eapply r_bind; [apply r_arp|intros ? l n T; r; rewrite !app_nil_r; exact T|auto].
Qed.

Lemma within_true w n x : net_contains n w x = true <-> within w n x.
Proof. unfold net_contains, net_last, within. rewrite andb_true_iff, !Z.leb_le. reflexivity. Qed.
Lemma within_false w n x : net_contains n w x = false <-> ~ within w n x.
Proof. rewrite <- within_true. destruct (net_contains n w x); intuition congruence. Qed.
Lemma group4_true x : ip4_is_multicast x = true <-> group4 x. Proof. unfold ip4_is_multicast, group4. apply Z.eqb_eq. Qed.
Lemma group4_false x : ip4_is_multicast x = false <-> ~ group4 x. Proof. unfold ip4_is_multicast, group4. apply Z.eqb_neq. Qed.
Lemma group6_true x : ip6_is_multicast x = true <-> group6 x. Proof. unfold ip6_is_multicast, group6. apply Z.eqb_eq. Qed.
Lemma group6_false x : ip6_is_multicast x = false <-> ~ group6 x. Proof. unfold ip6_is_multicast, group6. apply Z.eqb_neq. Qed.
Lemma leaves_some n hosts src dst h : find (fun h => (h_addr h =? src) && negb (net_contains n (h_net h) dst)) hosts = Some h ->
  In h hosts /\ h_addr h = src /\ ~ within (h_net h) n dst.
Proof.
  intros E. apply find_some in E. destruct E as (I & E). apply andb_true_iff in E. destruct E as (E1 & E2).
  apply negb_true_iff, within_false in E2. split; [exact I|]. split; [lia|exact E2].
Qed.
Lemma leaves_none n hosts src dst : find (fun h => (h_addr h =? src) && negb (net_contains n (h_net h) dst)) hosts = None ->
  forall h, In h hosts -> h_addr h = src -> within (h_net h) n dst.
Proof.
  intros E h I <-. pose proof (find_none _ _ E h I) as N. cbv beta in N. rewrite Z.eqb_refl in N. cbn in N.
  apply negb_false_iff, within_true in N. exact N.
Qed.
Lemma multicast_mac4_eq d : 0 <= d < 2 ^ 32 -> ip4_is_multicast d = true -> ip4_multicast_mac d = Ok (0x01005E000000 + d mod 2 ^ 23).
Proof. intros H M. pose proof (ip4_multicast_mac_spec d H) as S. rewrite M in S. destruct S as (m & -> & -> & _). reflexivity. Qed.

Lemma told_one a c f : says_sent c = true -> tells a c f -> told a [c] [f].
Proof. intros H T. unfold told. cbn. rewrite H. constructor; [exact T|constructor]. Qed.
Lemma r_ether_ip4 a s d p : 0 <= d < 2 ^ 32 -> (forall m n, ends4 {| f_dst := m; f_src := n; f_pkt := p |} = Some (s, d)) ->
  runs a (x_ether_ip4 s d p) (fun l n _ => told a l n).
Proof.
  intros Hd En. unfold x_ether_ip4. change (ether_head 0) with (count [ether__pre_assemble; ether__src_unspec__fill]).
  apply r_count, r_count, r_addrs. destruct (ip4_is_multicast d) eqn:M.
  { rewrite multicast_mac4_eq by assumption. apply r_count, r_lift; [|discriminate]. intros y [= <-]. r.
    apply told_skip; [reflexivity|]. apply told_skip; [reflexivity|]. cbn [app]. apply told_one; [reflexivity|].
    exists s, d. apply group4_true in M. cbn. auto. }
  apply group4_false in M. destruct (ip4_is_limited_broadcast d) eqn:L.
  { r. apply told_skip; [reflexivity|]. apply told_skip; [reflexivity|]. apply told_one; [reflexivity|]. exists s.
    unfold ip4_is_limited_broadcast in L. rewrite En. split; [|reflexivity]. do 2 f_equal. lia. }
  destruct (existsb _ (a_host4 a)) eqn:Ex.
  { apply existsb_exists in Ex. destruct Ex as (h & Ih & Eh). r. apply told_skip; [reflexivity|]. apply told_skip; [reflexivity|].
    apply told_one; [reflexivity|]. exists s, d, h. rewrite En. repeat split; auto; lia. }
  destruct (find _ (a_host4 a)) as [h|] eqn:Fi.
  - apply leaves_some in Fi. destruct Fi as (Ih & Ea & Nw). destruct (h_gw h) as [g|] eqn:G; [|r; none].
    apply r_arp_find; [|intros l new e T; apply told_skip; [reflexivity|]; apply told_skip; [reflexivity|]; exact T].
    intros l new m T. r; apply told_skip; try reflexivity; apply told_skip; try reflexivity; (eapply told_app; [exact T|]); [|none].
    apply told_one; [reflexivity|]. exists s, d, h. rewrite En, G. repeat split; auto; discriminate.
  - pose proof (leaves_none _ _ _ _ Fi) as Nw.
    apply r_arp_find; [|intros l new e T; apply told_skip; [reflexivity|]; apply told_skip; [reflexivity|]; exact T].
    intros l new m T. r; apply told_skip; try reflexivity; apply told_skip; try reflexivity; (eapply told_app; [exact T|]); [|none].
    apply told_one; [reflexivity|]. exists s, d. rewrite En. auto.
Qed.
Lemma r_frags4 a s d l : 0 <= d < 2 ^ 32 -> (forall x, In x l -> t4_src (fst x) = s /\ t4_dst (fst x) = d) ->
  runs a (x_frags4 s d l) (fun l n _ => told a l n).
Proof.
  intros Hd. induction l as [|[t b] l IH]; intros F; cbn [x_frags4]; r; [none|].
  destruct (F (t, b) (or_introl eq_refl)) as (<- & <-). cbn [fst] in *.
  eapply r_bind; [apply r_ether_ip4; [exact Hd|reflexivity]| |intros; apply told_skip; auto].
  intros x l1 n1 T1. eapply r_bind; [apply IH; intros; apply F; right; assumption| |].
  - intros xs l2 n2 T2. r. apply told_skip; [reflexivity|]. rewrite !app_nil_r. apply told_app; assumption.
  - intros l2 n2 e T2. apply told_skip; [reflexivity|]. apply told_app; assumption.
Qed.
Lemma src4_quiet a s d p : filter says_sent (fst (x_src4 a s d p)) = [].
Proof.
  unfold x_src4.
  repeat match goal with |- filter _ (fst (if ?b then _ else _)) = _ => destruct b
  | |- filter _ (fst (match ?x with _ => _ end)) = _ => destruct x end; reflexivity.
Qed.
Lemma src6_quiet a s d p : filter says_sent (fst (x_src6 a s d p)) = [].
Proof.
  unfold x_src6.
  repeat match goal with |- filter _ (fst (if ?b then _ else _)) = _ => destruct b
  | |- filter _ (fst (match ?x with _ => _ end)) = _ => destruct x end; reflexivity.
Qed.
Lemma told_nil a : told a [] []. Proof. constructor. Qed.
Lemma told_quiet a c : filter says_sent c = [] -> told a c []. Proof. intros H. unfold told. rewrite H. constructor. Qed.
Ltac skips := repeat match goal with
  | |- told _ (_ ++ []) _ => rewrite app_nil_r
  | |- told _ _ (_ ++ []) => rewrite app_nil_r
  | |- told _ (_ ++ _) _ => apply told_skip; [first [reflexivity | apply src4_quiet | apply src6_quiet | assumption]|]
  | |- told _ [] [] => apply told_nil
  | |- told _ _ [] => apply told_quiet; first [reflexivity | apply src4_quiet | apply src6_quiet | assumption]
  end; try assumption.
Lemma r_ip4 a s d t p : 0 <= d < 2 ^ 32 -> runs a (x_ip4 s d t p) (fun l n _ => told a l n).
Proof.
  intros Hd. unfold x_ip4. apply r_count, r_assert; [intros _|skips]. apply r_addrs. destruct (negb _); [r; skips|]. cbv zeta.
  apply r_count. destruct (snd (x_src4 a s d p)) as [src|st]; [|r; skips].
  destruct (ip4_is_unspecified d); [r; skips|]. apply r_assert; [intros _|skips]. destruct (_ <=? _).
  - apply r_count. eapply r_weaken; [apply r_ether_ip4; [exact Hd|reflexivity]|]. intros l n x T. skips.
  - apply r_count. r; skips. eapply r_bind; [apply r_frags4; [exact Hd|]| |intros; skips].
    + intros x Ix. match goal with H : ip4_fragment _ _ _ _ _ _ _ = Ok _ |- _ =>
        destruct (frag4_src TAP_MTU _ _ _ _ _ _ _ _ ltac:(unfold TAP_MTU; lia) H x Ix) end. auto.
    + intros xs l2 n2 T2. r. skips.
Qed.
Lemma r_ether_ip6 a f s d p : 0 <= d < 2 ^ 128 -> (forall m n, ends6 {| f_dst := m; f_src := n; f_pkt := p |} = Some (s, d)) ->
  (forall x, runs a (f x) (fun l n _ => told a l n)) -> runs a (x_ether_ip6 f s d p) (fun l n _ => told a l n).
Proof.
  intros Hd En Hf. unfold x_ether_ip6. change (ether_head 0) with (count [ether__pre_assemble; ether__src_unspec__fill]).
  apply r_count, r_count, r_addrs. destruct (ip6_is_multicast d) eqn:M.
  { rewrite multicast_mac6_eq by assumption. apply r_count, r_lift; [|discriminate]. intros y [= <-]. r.
    apply told_skip; [reflexivity|]. apply told_skip; [reflexivity|]. cbn [app]. apply told_one; [reflexivity|].
    exists s, d. apply group6_true in M. cbn. auto. }
  apply group6_false in M.
  assert (N : forall x, runs a (x_nd_find f x) (fun l n _ => told a l n)).
  { intros x. unfold x_nd_find. r; skips. eapply r_bind; [apply Hf|intros ? l n T; r; skips|intros; skips]. }
  destruct (find _ (a_host6 a)) as [h|] eqn:Fi.
  - apply leaves_some in Fi. destruct Fi as (Ih & Ea & Nw). destruct (h_gw h) as [g|] eqn:G; [|r; none].
    eapply r_bind; [apply N| |intros; skips].
    intros m l new T. r; do 2 (apply told_skip; [reflexivity|]); (apply told_app; [exact T|]); [|none].
    apply told_one; [reflexivity|]. exists s, d, h. rewrite En, G. repeat split; auto; discriminate.
  - pose proof (leaves_none _ _ _ _ Fi) as Nw.
    eapply r_bind; [apply N| |intros; skips].
    intros m l new T. r; do 2 (apply told_skip; [reflexivity|]); (apply told_app; [exact T|]); [|none].
    apply told_one; [reflexivity|]. exists s, d. rewrite En. auto.
Qed.
Lemma r_frags6 a f n i l : (forall x, runs a (f x) (fun l n _ => told a l n)) -> runs a (x_frags6 f n i l) (fun l n _ => told a l n).
Proof.
  intros H. induction l as [|x l IH]; cbn [x_frags6]; r; skips.
  eapply r_bind; [apply H| |intros; skips].
  intros y l1 n1 T1. eapply r_bind; [exact IH| |].
  - intros xs l2 n2 T2. r. apply told_skip; [reflexivity|]. rewrite !app_nil_r. apply told_app; assumption.
  - intros l2 n2 e T2. apply told_skip; [reflexivity|]. apply told_app; assumption.
Qed.
Lemma solicited_range t y : ip6_solicited_node_multicast t = Ok y -> 0 <= y < 2 ^ 128.
Proof.
  unfold ip6_solicited_node_multicast, ip6_of_int. destruct (_ =? _) eqn:E; [|discriminate]. intros [= <-]. apply Z.eqb_eq in E. rewrite <- E.
  change 0xFFFFFFFFFFFFFFFFFFFFFFFFFFFFFFFF with (2 ^ 128 - 1). rewrite land_ones' by lia. apply Z.mod_pos_bound. lia.
Qed.
Lemma r_ip6_fuel a fuel : forall s d h p, 0 <= d < 2 ^ 128 -> runs a (x_ip6_fuel fuel s d h p) (fun l n _ => told a l n).
Proof.
  induction fuel as [|fuel IH]; intros s d h p Hd; cbn [x_ip6_fuel]; [r; skips|]. cbv zeta.
  apply r_count, r_assert; [intros _|skips]. apply r_addrs. destruct (negb _); [r; skips|].
  apply r_count. destruct (snd (x_src6 a s d p)) as [src|st]; [|r; skips].
  destruct (ip6_is_unspecified d); [r; skips|]. apply r_assert; [intros _|skips]. destruct (_ <=? _).
  - apply r_count. eapply r_weaken; [apply r_ether_ip6; [exact Hd|reflexivity|]|intros; skips].
    intros x. r; skips. apply solicited_range in H.
    eapply r_bind; [apply IH; exact H| |intros; skips]. intros ? l n T. r. skips.
  - apply r_count. apply r_gets. intros id0. apply r_lift; [intros fi _|intros; skips]. r; skips.
    eapply r_bind; [apply r_frags6; intros; apply IH; exact Hd| |intros; skips]. intros xs l n T. r. skips.
Qed.
Lemma r_request a q : dst_ok q -> runs a (x_request q) (fun l n _ => told a l n).
Proof.
  intros D. destruct q; cbn [x_request dst_ok] in *; auto using r_arp, r_ip4.
  - apply r_ip6_fuel. exact D.
  - unfold x_udp. r; skips; (eapply r_weaken; [apply r_ip4 || apply r_ip6_fuel; exact D|intros; skips]).
  - unfold x_tcp. cbv zeta.
    assert (O : filter says_sent (tcp__pre_assemble :: tcp_opt_counts mss wscale) = []).
    { unfold tcp_opt_counts. destruct mss as [m|], wscale as [w|]; try destruct (m =? 0); try destruct (w =? 0); reflexivity. }
    assert (F : filter says_sent (when fack tcp__flag_ack ++ when frst tcp__flag_rst ++ when fsyn tcp__flag_syn ++ when ffin tcp__flag_fin) = []).
    { destruct fack, frst, fsyn, ffin; reflexivity. }
    revert O F. generalize (tcp__pre_assemble :: tcp_opt_counts mss wscale).
    generalize (when fack tcp__flag_ack ++ when frst tcp__flag_rst ++ when fsyn tcp__flag_syn ++ when ffin tcp__flag_fin). intros lf lo O F.
    r; skips; (eapply r_weaken; [apply r_ip4 || apply r_ip6_fuel; exact D|intros; skips]).
  - unfold x_icmp4. apply r_count, r_lift; [intros t _|intros; skips]. apply r_count. eapply r_weaken; [apply r_ip4; exact D|].
    intros l n x T. assert (C : filter says_sent [icmp4_counter t] = []) by (destruct t; reflexivity). skips.
  - unfold x_icmp6. apply r_count, r_lift; [intros t' _|intros; skips]. apply r_count. eapply r_weaken; [apply r_ip6_fuel; exact D|].
    intros l n x T. assert (C : filter says_sent [icmp6_counter t'] = []) by (destruct t'; reflexivity). skips.
Qed.
