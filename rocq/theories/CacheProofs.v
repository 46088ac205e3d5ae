From Verif Require Import Base BaseLemmas AddrModel SpecAddr AddrProofs EtherModel Ip6Model Icmp6Model StackModel SpecStack
  StackTxProofs CacheModel SpecCache.

(** ** the request sent for an address *)

Definition ask_frame (w : which) (a : addrs) (ip : Z) : list oframe :=
  match w with Arp => [arp_request a ip] | Nd => ns_frames a ip end.
Lemma resolve_req_eq w ip s : addr_ok w ip -> can_ask w (s_addrs s) ip ->
  resolve_req w ip s = (addl (ask_frame w (s_addrs s) ip) s, Ok tt).
Proof.
  unfold addr_ok. destruct w; cbn [can_ask resolve_req ask_frame]; intros R C.
  - apply send_arp_request_eq; auto.
  - apply (solicit_eq 2); tauto.
Qed.
Lemma ns_source_in hosts t : (exists h, In h hosts /\ net_contains 128 (h_net h) t = true) ->
  exists h, In h hosts /\ ns_source hosts t = h_addr h.
Proof.
  unfold ns_source. generalize 0. induction hosts as [|g l IH] using rev_ind; intros z (h & I & C); [destruct I|].
  rewrite fold_left_app. cbn [fold_left]. destruct (net_contains 128 (h_net g) t) eqn:G.
  - exists g. rewrite in_app_iff. cbn. auto.
  - apply in_app_iff in I. destruct I as [I|[<-|[]]]; [|congruence].
    destruct (IH z (ex_intro _ h (conj I C))) as (h' & I' & E). exists h'. rewrite in_app_iff. auto.
Qed.
Lemma mem_In x l : mem x l = true <-> In x l.
Proof.
  unfold mem. rewrite existsb_exists. split; [intros (y & I & E); apply Z.eqb_eq in E; subst; auto|].
  intros I. exists x. rewrite Z.eqb_refl. auto.
Qed.
Lemma ask_frame_asks w a ip : addr_ok w ip -> can_ask w a ip -> exists f, ask_frame w a ip = [f] /\ asks w ip f.
Proof.
  unfold addr_ok. destruct w; cbn [can_ask ask_frame]; intros R C.
  - eexists; split; [reflexivity|]. cbn. auto.
  - destruct C as (_ & X & N). destruct (ns_source_in _ _ X) as (h & I & E). destruct (N h I) as (Z0 & M).
    unfold ns_frames, validate_src6. rewrite E.
    replace (mem (h_addr h) (ip6_unicast a)) with true
      by (symmetry; apply mem_In; unfold ip6_unicast; apply in_map; exact I).
    cbn [orb negb]. destruct (mem (h_addr h) (a_mcast6 a)) eqn:MM; [apply mem_In in MM; contradiction|].
    unfold ip6_is_unspecified at 1. destruct (Z.eqb_spec (h_addr h) 0); [contradiction|]. cbn [negb].
    eexists; split; [reflexivity|]. cbn. repeat split. unfold solicited_node.
    pose proof (Z.mod_pos_bound ip (2 ^ 24) ltac:(lia)) as B. set (m := ip mod 2 ^ 24) in *. clearbody m. clear -B.
    match goal with |- context [(?x + m) mod ?y] =>
      replace ((x + m) mod y) with ((4278190080 + m + (65282 * 2 ^ 80 + 1) * 4294967296) mod 4294967296) by (f_equal; lia) end.
    rewrite Z_mod_plus_full, Z.mod_small by lia. lia.
Qed.

(** ** caches *)

Lemma cache_get_del k k' c : cache_get k (cache_del k' c) = if k =? k' then None else cache_get k c.
Proof.
  unfold cache_get, cache_del. induction c as [|[a e] c IH]; cbn [filter find fst snd].
  - destruct (k =? k'); reflexivity.
  - destruct (Z.eqb_spec k' a) as [->|N]; cbn [negb].
    + rewrite IH. destruct (k =? a); reflexivity.
    + cbn [find fst snd]. destruct (Z.eqb_spec k a) as [->|]; [|exact IH].
      destruct (Z.eqb_spec a k'); [congruence|reflexivity].
Qed.
Lemma cache_keys k c : In k (map fst c) <-> cache_get k c <> None.
Proof.
  unfold cache_get. induction c as [|[a e] c IH]; cbn; [tauto|]. destruct (Z.eqb_spec k a) as [->|N]; cbn.
  - split; [discriminate|auto].
  - rewrite <- IH. split; [intros [E|I]; [congruence|auto]|auto].
Qed.
Lemma cache_set_keys k v c : map fst (cache_set k v c) = if mem k (map fst c) then map fst c else map fst c ++ [k].
Proof.
  induction c as [|[a e] c IH]; cbn; [reflexivity|]. destruct (Z.eqb_spec k a) as [->|N]; cbn; [reflexivity|].
  rewrite IH. fold (mem k (map fst c)). destruct (mem k (map fst c)); reflexivity.
Qed.
Lemma cache_set_nodup k v c : NoDup (map fst c) -> NoDup (map fst (cache_set k v c)).
Proof.
  intros N. rewrite cache_set_keys. destruct (mem k (map fst c)) eqn:E; [exact N|].
  apply (Permutation.Permutation_NoDup (l := k :: map fst c)).
  - apply Permutation.Permutation_cons_append.
  - constructor; [intros I; apply mem_In in I; congruence|exact N].
Qed.
Lemma cache_del_nodup k c : NoDup (map fst c) -> NoDup (map fst (cache_del k c)).
Proof.
  intros N. unfold cache_del. induction c as [|[a e] c IH]; cbn; [constructor|]. inversion N; subst.
  destruct (k =? a); cbn; [auto|]. constructor; auto.
  intros I. apply H1. apply in_map_iff in I. destruct I as (x & E & I). apply filter_In in I. apply in_map_iff. exists x. tauto.
Qed.

(** ** what the model keeps of a history: for each address its binding, the binding's age,
    and whether it was looked up since *)

Definition bind := option (Z * Z * bool).
Definition bstep (ip : Z) (b : bind) (o : cop) : bind :=
  match o with
  | CUpdate ip' mac => if ip =? ip' then Some (mac, 0, false) else b
  | CLookup ip' => match b with Some (m, a, u) => Some (m, a, if ip =? ip' then true else u) | None => None end
  | CMaintain => match b with
      | Some (m, a, u) => if a >? 3600 * 1000 then None else Some (m, a, if a >? 3300 * 1000 then false else u)
      | None => None end
  | CClock d => match b with Some (m, a, u) => Some (m, a + d, u) | None => None end
  end.
Definition bound (ip : Z) (h : list cop) : bind := fold_left (bstep ip) h None.
Lemma bound_snoc ip h o : bound ip (h ++ [o]) = bstep ip (bound ip h) o.
Proof. unfold bound. rewrite fold_left_app. reflexivity. Qed.

Lemma snoc_split {A} (h1 : list A) x h2 h o : h ++ [o] = h1 ++ x :: h2 ->
  (h2 = [] /\ h1 = h /\ x = o) \/ (exists h2', h2 = h2' ++ [o] /\ h = h1 ++ x :: h2').
Proof.
  intros E. destruct h2 as [|y h2] using rev_ind.
  - apply app_inj_tail in E. destruct E; subst. auto.
  - right. exists h2. change (x :: h2 ++ [y]) with ((x :: h2) ++ [y]) in E. rewrite app_assoc in E.
    apply app_inj_tail in E. destruct E; subst; auto.
Qed.
Lemma elapsed_snoc h o : elapsed (h ++ [o]) = elapsed h + elapsed [o].
Proof. induction h as [|x h IH]; cbn; [destruct o; lia|]. destruct x; cbn in IH; lia. Qed.
Lemma elapsed_app h g : elapsed (h ++ g) = elapsed h + elapsed g.
Proof. induction h as [|x h IH]; cbn; [reflexivity|]. destruct x; lia. Qed.

Lemma latest_snoc ip m a h o : latest ip m a (h ++ [o]) <->
  match o with
  | CUpdate ip' m' => if ip =? ip' then m = m' /\ a = 0 else latest ip m a h
  | _ => latest ip m (a - elapsed [o]) h
  end.
Proof.
  split.
  - intros (h1 & h2 & E & N & A). destruct (snoc_split _ _ _ _ _ E) as [(-> & -> & <-)|(h2' & -> & ->)].
    + rewrite Z.eqb_refl. cbn in A. auto.
    + assert (L : forall b, elapsed h2' = b -> latest ip m b (h1 ++ CUpdate ip m :: h2'))
        by (intros b Eb; exists h1, h2'; repeat split; auto; intros m' I; apply (N m'), in_app_iff; auto).
      rewrite elapsed_snoc in A. destruct o; try (apply L; lia).
      destruct (Z.eqb_spec ip ip0) as [->|]; [exfalso; apply (N mac), in_app_iff; cbn; auto|]. apply L. cbn in A. lia.
  - assert (L : forall b, latest ip m b h -> (forall m', o <> CUpdate ip m') -> latest ip m (b + elapsed [o]) (h ++ [o])).
    { intros b (h1 & h2 & -> & N & A) D. exists h1, (h2 ++ [o]). rewrite <- app_assoc. repeat split.
      - intros m' I. apply in_app_iff in I. destruct I as [I|[I|[]]]; [apply (N m' I)|apply (D m' I)].
      - rewrite elapsed_snoc. lia. }
    intros H. destruct o; try (replace a with (a - elapsed [CLookup ip0] + elapsed [CLookup ip0]) by lia; apply L; [exact H|discriminate]);
      try (replace a with (a - elapsed [CMaintain] + elapsed [CMaintain]) by lia; apply L; [exact H|discriminate]);
      try (replace a with (a - elapsed [CClock d] + elapsed [CClock d]) by lia; apply L; [exact H|discriminate]).
    destruct (Z.eqb_spec ip ip0) as [->|Ne].
    + destruct H as (-> & ->). exists h, []. repeat split; auto.
    + replace a with (a + elapsed [CUpdate ip0 mac]) by (cbn; lia). apply L; [exact H|]. intros m' X. injection X. congruence.
Qed.
Lemma latest_nil ip m a : ~ latest ip m a [].
Proof. intros (h1 & h2 & E & _). destruct h1; discriminate. Qed.
Lemma latest_fun ip m a m' a' h : latest ip m a h -> latest ip m' a' h -> m = m' /\ a = a'.
Proof.
  revert a a'. induction h as [|o h IH] using rev_ind; intros a a' L L'; [destruct (latest_nil _ _ _ L)|].
  apply latest_snoc in L. apply latest_snoc in L'. destruct o; try (destruct (IH _ _ L L'); split; auto; lia).
  destruct (ip =? ip0); [destruct L, L'; subst; auto|]. apply (IH _ _ L L').
Qed.

Lemma expired_snoc ip h o : expired ip (h ++ [o]) <->
  match o with
  | CUpdate ip' _ => if ip =? ip' then False else expired ip h
  | CMaintain => expired ip h \/ exists m a, latest ip m a h /\ a > 3600 * 1000
  | _ => expired ip h
  end.
Proof.
  split.
  - intros (h1 & m & h2 & h3 & E & N & A).
    rewrite app_comm_cons, app_assoc in E. destruct (snoc_split _ _ _ _ _ E) as [(-> & E1 & <-)|(h3' & -> & E1)].
    + right. exists m, (elapsed h2). split; [|exact A]. exists h1, h2. repeat split; auto.
      intros m' I. apply (N m'). rewrite app_nil_r. exact I.
    + assert (X : expired ip h).
      { exists h1, m, h2, h3'. rewrite E1, <- app_assoc. repeat split; auto.
        intros m' I. apply (N m'). rewrite app_assoc. apply in_app_iff. auto. }
      destruct o; auto. destruct (Z.eqb_spec ip ip0) as [->|]; [|exact X].
      apply (N mac). rewrite !in_app_iff. cbn. auto.
  - assert (X : expired ip h -> (forall m, o <> CUpdate ip m) -> expired ip (h ++ [o])).
    { intros (h1 & m & h2 & h3 & -> & N & A) D. exists h1, m, h2, (h3 ++ [o]).
      rewrite <- !app_assoc. cbn [app]. rewrite <- !app_assoc. repeat split; auto.
      intros m' I. rewrite app_assoc in I. apply in_app_iff in I. destruct I as [I|[I|[]]]; [apply (N m' I)|apply (D m' I)]. }
    destruct o.
    + destruct (Z.eqb_spec ip ip0) as [->|]; [tauto|]. intros H. apply X; auto. intros m E. injection E. congruence.
    + intros H. apply X; auto. discriminate.
    + intros [H|(m & a & (h1 & h2 & -> & N & A) & G)]; [apply X; auto; discriminate|].
      exists h1, m, h2, []. rewrite <- app_assoc. repeat split; [|lia]. rewrite app_nil_r. exact N.
    + intros H. apply X; auto. discriminate.
Qed.

Lemma in_use_snoc ip h o : in_use ip (h ++ [o]) <->
  match o with
  | CUpdate ip' _ => if ip =? ip' then False else in_use ip h
  | CLookup ip' => in_use ip h \/ (ip = ip' /\ exists m a, latest ip m a h)
  | CMaintain => in_use ip h /\ (forall m a, latest ip m a h -> a <= 3300 * 1000)
  | CClock _ => in_use ip h
  end.
Proof.
  split.
  - intros (h1 & m & h2 & h3 & E & N & A).
    rewrite app_comm_cons, app_assoc in E. destruct (snoc_split _ _ _ _ _ E) as [(-> & E1 & <-)|(h3' & -> & E1)].
    + right. split; auto. exists m, (elapsed h2). exists h1, h2. repeat split; auto.
      intros m' I. apply (N m'). rewrite app_nil_r. exact I.
    + assert (X : in_use ip h).
      { exists h1, m, h2, h3'. rewrite E1, <- app_assoc. repeat split; auto.
        - intros m' I. apply (N m'). rewrite app_assoc. apply in_app_iff. auto.
        - intros h4 h5 ->. apply (A h4 (h5 ++ [o])). rewrite <- app_assoc. reflexivity. }
      destruct o; auto.
      * destruct (Z.eqb_spec ip ip0) as [->|]; [|exact X]. apply (N mac). rewrite !in_app_iff. cbn. auto.
      * split; [exact X|]. intros m' a' L.
        assert (L2 : latest ip m (elapsed h2 + elapsed h3') h).
        { rewrite E1. exists h1, (h2 ++ CLookup ip :: h3'). rewrite <- app_assoc. repeat split.
          - intros m0 I. apply (N m0). apply in_app_iff in I. rewrite !in_app_iff.
            destruct I as [I|[I|I]]; [auto|discriminate|auto].
          - rewrite elapsed_app. reflexivity. }
        destruct (latest_fun _ _ _ _ _ _ L L2) as (_ & ->). apply (A h3' []). reflexivity.
  - assert (X : in_use ip h -> (forall m, o <> CUpdate ip m) -> (o = CMaintain -> forall m a, latest ip m a h -> a <= 3300 * 1000) ->
       in_use ip (h ++ [o])).
    { intros (h1 & m & h2 & h3 & -> & N & A) D MM. exists h1, m, h2, (h3 ++ [o]).
      rewrite <- !app_assoc. cbn [app]. rewrite <- !app_assoc. repeat split; auto.
      - intros m' I. rewrite app_assoc in I. apply in_app_iff in I. destruct I as [I|[I|[]]]; [apply (N m' I)|apply (D m' I)].
      - intros h4 h5 E. destruct (snoc_split _ _ _ _ _ E) as [(-> & -> & Eo)|(h5' & -> & ->)]; [|apply (A h4 h5' eq_refl)].
        apply (MM (eq_sym Eo) m). exists h1, (h2 ++ CLookup ip :: h3). repeat split.
        + intros m0 I. apply (N m0). apply in_app_iff in I. rewrite !in_app_iff.
          destruct I as [I|[I|I]]; [auto|discriminate|auto].
        + rewrite elapsed_app. reflexivity. }
    destruct o.
    + destruct (Z.eqb_spec ip ip0) as [->|]; [tauto|]. intros H. apply X; auto; [|discriminate]. intros m E. injection E. congruence.
    + intros [H|(<- & m & a & h1 & h2 & -> & N & A)]; [apply X; auto; discriminate|].
      exists h1, m, h2, []. rewrite <- app_assoc. repeat split; [rewrite app_nil_r; exact N|].
      intros h4 h5 E. destruct h4; discriminate.
    + intros (H & G). apply X; auto. discriminate.
    + intros H. apply X; auto; discriminate.
Qed.

Lemma bound_meaning ip h :
  (forall m a u, bound ip h = Some (m, a, u) -> latest ip m a h /\ ~ expired ip h /\ (u = true <-> in_use ip h)) /\
  (bound ip h = None -> ~ expired ip h -> forall m a, ~ latest ip m a h).
Proof.
  induction h as [|o h (I1 & I2)] using rev_ind.
  { split; [discriminate|]. intros _ _ m a. apply latest_nil. }
  rewrite bound_snoc. destruct o as [ip' mac|ip'| |d]; cbn [bstep].
  - split.
    + intros m a u E. rewrite latest_snoc, expired_snoc, in_use_snoc. destruct (ip =? ip').
      * injection E as <- <- <-. repeat split; auto; try tauto; discriminate.
      * apply I1. exact E.
    + intros E N m a. rewrite latest_snoc. rewrite expired_snoc in N. destruct (ip =? ip'); [discriminate|auto].
  - destruct (bound ip h) as [[[m0 a0] u0]|].
    + destruct (I1 _ _ _ eq_refl) as (L & X & U). split; [|discriminate]. intros m a u E. injection E as <- <- <-.
      rewrite latest_snoc, expired_snoc, in_use_snoc. cbn [elapsed]. rewrite Z.sub_0_r. split; [auto|]. split; [auto|].
      destruct (Z.eqb_spec ip ip') as [->|Ne].
      * split; auto. intros _. right. split; eauto.
      * rewrite U. split; [auto|]. intros [|(? & _)]; [auto|contradiction].
    + split; [discriminate|]. intros _ N m a. rewrite latest_snoc. rewrite expired_snoc in N. auto.
  - destruct (bound ip h) as [[[m0 a0] u0]|].
    + destruct (I1 _ _ _ eq_refl) as (L & X & U). destruct (Z.gtb_spec a0 (3600 * 1000)).
      * split; [discriminate|]. intros _ N. exfalso. apply N. rewrite expired_snoc. right. exists m0, a0. split; auto. lia.
      * split; [|discriminate]. intros m a u E. injection E as <- <- <-.
        rewrite latest_snoc, expired_snoc, in_use_snoc. cbn [elapsed]. rewrite Z.sub_0_r. split; [auto|]. split.
        { intros [|(m & a & L' & G)]; [auto|]. destruct (latest_fun _ _ _ _ _ _ L L'). lia. }
        destruct (Z.gtb_spec a0 (3300 * 1000)).
        { split; [discriminate|]. intros (_ & G). specialize (G _ _ L). lia. }
        { rewrite U. split; [|tauto]. intros ?. split; auto. intros m a L'. destruct (latest_fun _ _ _ _ _ _ L L'). lia. }
    + split; [discriminate|]. intros _ N m a. rewrite latest_snoc. rewrite expired_snoc in N. auto.
  - destruct (bound ip h) as [[[m0 a0] u0]|].
    + destruct (I1 _ _ _ eq_refl) as (L & X & U). split; [|discriminate]. intros m a u E. injection E as <- <- <-.
      rewrite latest_snoc, expired_snoc, in_use_snoc. cbn [elapsed]. replace (a0 + d - (d + 0)) with a0 by lia. auto.
    + split; [discriminate|]. intros _ N m a. rewrite latest_snoc. rewrite expired_snoc in N. auto.
Qed.

(** ** the model follows it *)

Definition matches (now : Z) (b : bind) (e : option entry) : Prop :=
  match b, e with
  | None, None => True
  | Some (m, a, u), Some e => ce_mac e = m /\ ce_perm e = false /\ ce_time e = now - a /\ 0 <= ce_hits e /\ (u = true <-> ce_hits e <> 0)
  | _, _ => False
  end.
Definition cinv (w : which) (a : addrs) (h : list cop) (s : stack) : Prop :=
  s_addrs s = a /\ NoDup (map fst (the_cache w s)) /\ forall ip, matches (s_now s) (bound ip h) (cache_get ip (the_cache w s)).

Lemma the_set w c s : the_cache w (set_cache w c s) = c. Proof. destruct w; reflexivity. Qed.
Lemma set_addrs_same w c s : s_addrs (set_cache w c s) = s_addrs s. Proof. destruct w; reflexivity. Qed.
Lemma set_now_same w c s : s_now (set_cache w c s) = s_now s. Proof. destruct w; reflexivity. Qed.
Lemma set_out_same w c s : s_out (set_cache w c s) = s_out s. Proof. destruct w; reflexivity. Qed.
Lemma the_addl w l s : the_cache w (addl l s) = the_cache w s. Proof. destruct w; reflexivity. Qed.
Lemma the_now w t s : the_cache w (set_now t s) = the_cache w s. Proof. destruct w; reflexivity. Qed.

Lemma c_add_eq w ip mac s : c_add w ip mac s =
  (set_cache w (cache_set ip {| ce_mac := mac; ce_perm := false; ce_time := s_now s; ce_hits := 0 |} (the_cache w s)) s, Ok tt).
Proof. destruct w; reflexivity. Qed.
Lemma c_find_eq w ip s : addr_ok w ip -> can_ask w (s_addrs s) ip ->
  c_find w ip s = match cache_get ip (the_cache w s) with
    | Some e => (set_cache w (cache_set ip (hit e) (the_cache w s)) s, Ok (Some (ce_mac e)))
    | None => (addl (ask_frame w (s_addrs s) ip) s, Ok None)
    end.
Proof.
  intros R C. pose proof (resolve_req_eq w ip s R C) as Q. destruct w; cbn [c_find the_cache set_cache resolve_req] in *.
  - unfold arp_find, mbind at 1, gets. destruct (cache_get ip (s_arp s)); [reflexivity|].
    unfold mbind. rewrite Q. reflexivity.
  - unfold nd_find, mbind at 1, gets. destruct (cache_get ip (s_nd s)); [reflexivity|].
    unfold mbind. rewrite Q. reflexivity.
Qed.

(** one turn of the loop: what happens to key [k] and which frames are sent *)
Definition kept_after (w : which) (now : Z) (e : entry) : option entry :=
  match look w now e with Leave => Some e | Discard => None | Refresh => Some (no_hits e) end.
Definition due (w : which) (now : Z) (e : option entry) : bool :=
  match e with Some e => match look w now e with Refresh => true | _ => false end | None => false end.

Lemma maintain_key_eq w k s e : addr_ok w k -> can_ask w (s_addrs s) k -> cache_get k (the_cache w s) = Some e ->
  exists c', maintain_key w k s =
    (addl (if due w (s_now s) (Some e) then ask_frame w (s_addrs s) k else []) (set_cache w c' s), Ok tt) /\
  (forall k', cache_get k' c' = if k' =? k then kept_after w (s_now s) e else cache_get k' (the_cache w s)) /\
  (NoDup (map fst (the_cache w s)) -> NoDup (map fst c')).
Proof.
  intros R C E. unfold maintain_key, mbind at 1 2, gets. rewrite E. cbn [due]. unfold kept_after.
  destruct (look w (s_now s) e).
  - exists (the_cache w s). rewrite addl_nil. split; [|split; [|auto]].
    + unfold ret. f_equal. destruct w, s; reflexivity.
    + intros k'. destruct (Z.eqb_spec k' k) as [->|]; auto.
  - exists (cache_del k (the_cache w s)). rewrite addl_nil. unfold pop_key, mbind, gets. rewrite E. split; [reflexivity|].
    split; [intros k'; apply cache_get_del|apply cache_del_nodup].
  - exists (cache_set k (no_hits e) (the_cache w s)). unfold mbind, upd. rewrite resolve_req_eq by (rewrite ?set_addrs_same; auto).
    rewrite set_addrs_same. split; [reflexivity|]. split; [intros k'; apply cache_get_set|apply cache_set_nodup].
Qed.

Lemma maintain_keys_eq w l : forall s, NoDup l ->
  (forall k, In k l -> addr_ok w k /\ can_ask w (s_addrs s) k /\ cache_get k (the_cache w s) <> None) ->
  exists c', maintain_keys w l s =
    (addl (concat (map (fun k => ask_frame w (s_addrs s) k) (filter (fun k => due w (s_now s) (cache_get k (the_cache w s))) l))) (set_cache w c' s), Ok tt) /\
  (forall k, cache_get k c' = if mem k l then match cache_get k (the_cache w s) with Some e => kept_after w (s_now s) e | None => None end
                              else cache_get k (the_cache w s)) /\
  (NoDup (map fst (the_cache w s)) -> NoDup (map fst c')).
Proof.
  induction l as [|k l IH]; intros s N H.
  - exists (the_cache w s). cbn. rewrite addl_nil. split; [|auto]. unfold ret. f_equal. destruct w, s; reflexivity.
  - inversion N as [|? ? Nk Nl]; subst. destruct (H k (or_introl eq_refl)) as (R & C & G).
    destruct (cache_get k (the_cache w s)) as [e|] eqn:E; [|congruence].
    destruct (maintain_key_eq w k s e R C E) as (c1 & E1 & G1 & N1).
    cbn [maintain_keys]. unfold mbind. rewrite E1.
    set (s1 := addl _ _). assert (A1 : s_addrs s1 = s_addrs s) by (subst s1; destruct w; reflexivity).
    assert (T1 : s_now s1 = s_now s) by (subst s1; destruct w; reflexivity).
    assert (C1 : the_cache w s1 = c1) by (subst s1; destruct w; reflexivity).
    assert (D : forall k', In k' l -> cache_get k' c1 = cache_get k' (the_cache w s)).
    { intros k' I. rewrite G1. destruct (Z.eqb_spec k' k) as [->|]; [contradiction|reflexivity]. }
    destruct (IH s1 Nl) as (c2 & E2 & G2 & N2).
    { intros k' I. destruct (H k' (or_intror I)) as (R' & C' & G'). rewrite A1, C1, D by auto. auto. }
    exists c2. rewrite E2, A1, T1, C1. split; [|split].
    + f_equal. cbn [filter]. rewrite E.
      replace (filter (fun k0 => due w (s_now s) (cache_get k0 c1)) l) with (filter (fun k0 => due w (s_now s) (cache_get k0 (the_cache w s))) l)
        by (apply filter_ext_in; intros k' I; rewrite D by auto; reflexivity).
      subst s1. destruct (due w (s_now s) (Some e)); cbn [map concat app].
      * destruct w, s; unfold addl; cbn; rewrite <- app_assoc; reflexivity.
      * destruct w, s; unfold addl; cbn; rewrite app_nil_r; reflexivity.
    + intros k'. rewrite G2, C1, T1. cbn [mem existsb]. fold (mem k' l). rewrite G1. destruct (Z.eqb_spec k' k) as [->|].
      * replace (mem k l) with false; [rewrite E; reflexivity|]. symmetry. destruct (mem k l) eqn:M; auto. apply mem_In in M. contradiction.
      * reflexivity.
    + rewrite C1 in N2. auto.
Qed.

Lemma look_spec w now e : ce_perm e = false -> 0 <= ce_hits e ->
  look w now e = if now - ce_time e >? 3600 * 1000 then Discard
    else if (now - ce_time e >? 3300 * 1000) && negb (ce_hits e =? 0) then Refresh else Leave.
Proof. intros P _. unfold look. rewrite P. destruct w; reflexivity. Qed.

(** the frames a pass sends *)
Definition refreshes (w : which) (s : stack) : list Z :=
  filter (fun k => due w (s_now s) (cache_get k (the_cache w s))) (map fst (the_cache w s)).
Lemma maintain_eq w s : NoDup (map fst (the_cache w s)) ->
  (forall k, cache_get k (the_cache w s) <> None -> addr_ok w k /\ can_ask w (s_addrs s) k) ->
  exists c', maintain w s = (addl (concat (map (ask_frame w (s_addrs s)) (refreshes w s))) (set_cache w c' s), Ok tt) /\
  (forall k, cache_get k c' = match cache_get k (the_cache w s) with Some e => kept_after w (s_now s) e | None => None end) /\
  NoDup (map fst c').
Proof.
  intros N H. unfold maintain, mbind, gets. destruct (maintain_keys_eq w (map fst (the_cache w s)) s N) as (c' & E & G & N').
  { intros k I. apply cache_keys in I. destruct (H k I). auto. }
  exists c'. split; [exact E|]. split; [|auto]. intros k. rewrite G. destruct (mem k (map fst (the_cache w s))) eqn:M; [reflexivity|].
  destruct (cache_get k (the_cache w s)) eqn:X; [|reflexivity].
  assert (I : In k (map fst (the_cache w s))) by (apply cache_keys; congruence). apply mem_In in I. congruence.
Qed.

Definition hist_ok (w : which) (a : addrs) (h : list cop) : Prop :=
  forall ip, speaks_of ip h -> addr_ok w ip /\ can_ask w a ip.
Lemma speaks_app ip h g : speaks_of ip h -> speaks_of ip (h ++ g).
Proof. intros [(m & I)|I]; [left; exists m|right]; apply in_app_iff; auto. Qed.
Lemma bound_speaks ip h : bound ip h <> None -> speaks_of ip h.
Proof.
  destruct (bound ip h) as [[[m a] u]|] eqn:E; [intros _|congruence].
  destruct (bound_meaning ip h) as (M & _). destruct (M _ _ _ E) as ((h1 & h2 & -> & _) & _).
  left. exists m. apply in_app_iff. cbn. auto.
Qed.

Lemma cinv_step w a h s o : cinv w a h s -> hist_ok w a (h ++ [o]) ->
  exists s' r, cop_do w o s = (s', Ok r) /\ cinv w a (h ++ [o]) s'.
Proof.
  intros (A & N & G) H. assert (HK : forall k, cache_get k (the_cache w s) <> None -> addr_ok w k /\ can_ask w (s_addrs s) k).
  { intros k X. rewrite A. apply H, speaks_app, bound_speaks. specialize (G k). intros Y. rewrite Y in G.
    unfold matches in G. destruct (cache_get k (the_cache w s)); [exact G|congruence]. }
  destruct o as [ip mac|ip| |d]; cbn [cop_do].
  - unfold mbind. rewrite c_add_eq. do 2 eexists. split; [reflexivity|]. split; [|split].
    + rewrite set_addrs_same. exact A.
    + rewrite the_set. apply cache_set_nodup, N.
    + intros k. rewrite bound_snoc, the_set, set_now_same, cache_get_set. cbn [bstep]. destruct (k =? ip); [|apply G].
      cbn. repeat split; auto; try lia; discriminate.
  - destruct (H ip) as (R & C); [right; apply in_app_iff; cbn; auto|]. rewrite c_find_eq by (rewrite ?A; auto).
    pose proof (G ip) as Gi. destruct (cache_get ip (the_cache w s)) as [e|] eqn:E.
    + do 2 eexists. split; [reflexivity|]. split; [|split].
      * rewrite set_addrs_same. exact A.
      * rewrite the_set. apply cache_set_nodup, N.
      * intros k. rewrite bound_snoc, the_set, set_now_same, cache_get_set. cbn [bstep]. specialize (G k).
        destruct (Z.eqb_spec k ip) as [->|]; [|destruct (bound k h) as [[[? ?] ?]|]; exact G].
        destruct (bound ip h) as [[[m0 a0] u0]|]; [|destruct Gi]. cbn in Gi |- *. destruct Gi as (? & ? & ? & ? & ?).
        repeat split; auto; lia.
    + do 2 eexists. split; [reflexivity|]. split; [exact A|]. split; [rewrite the_addl; exact N|].
      intros k. rewrite bound_snoc, the_addl. cbn [bstep]. change (s_now (addl _ s)) with (s_now s). specialize (G k).
      destruct (Z.eqb_spec k ip) as [->|]; [|destruct (bound k h) as [[[? ?] ?]|]; exact G].
      rewrite E in G |- *. destruct (bound ip h) as [[[? ?] ?]|]; [destruct G|exact G].
  - destruct (maintain_eq w s N HK) as (c' & E & Gc & N'). unfold mbind. rewrite E. do 2 eexists. split; [reflexivity|].
    split; [|split].
    + change (s_addrs (addl ?l ?x)) with (s_addrs x). rewrite set_addrs_same. exact A.
    + rewrite the_addl, the_set. exact N'.
    + intros k. rewrite bound_snoc, the_addl, the_set, Gc. cbn [bstep]. change (s_now (addl ?l ?x)) with (s_now x). rewrite set_now_same.
      specialize (G k). destruct (bound k h) as [[[m0 a0] u0]|], (cache_get k (the_cache w s)) as [e|]; try exact G; try (destruct G; fail).
      cbn in G. destruct G as (G1 & G2 & G3 & G4 & G5). unfold kept_after. rewrite look_spec by auto.
      replace (s_now s - ce_time e) with a0 by lia.
      destruct (Z.gtb_spec a0 (3600 * 1000)); [exact Logic.I|]. destruct (Z.gtb_spec a0 (3300 * 1000)); cbn [andb].
      * destruct (Z.eqb_spec (ce_hits e) 0); cbn; repeat split; auto; try discriminate; try lia.
      * cbn. auto.
  - do 2 eexists. split; [reflexivity|]. split; [exact A|]. split; [rewrite the_now; exact N|].
    intros k. rewrite bound_snoc, the_now. cbn [bstep]. specialize (G k). change (s_now (set_now ?t s)) with t.
    destruct (bound k h) as [[[m0 a0] u0]|], (cache_get k (the_cache w s)) as [e|]; try exact G; try (destruct G; fail).
    cbn in G |- *. destruct G as (? & ? & ? & ? & ?). repeat (split; [first [assumption|lia]|]). assumption.
Qed.

Lemma cop_run_app w h g s : cop_run w (h ++ g) s = match cop_run w h s with (s', Ok _) => cop_run w g s' | (s', Exn e) => (s', Exn e) end.
Proof.
  revert s. induction h as [|o h IH]; intros s; cbn [app cop_run]; [reflexivity|].
  unfold mbind. destruct (cop_do w o s) as [s1 [r|e]]; [apply IH|reflexivity].
Qed.
Lemma cinv_run w a h s : s_addrs s = a -> the_cache w s = [] -> hist_ok w a h ->
  exists s', cop_run w h s = (s', Ok tt) /\ cinv w a h s'.
Proof.
  intros A C. induction h as [|o h IH] using rev_ind; intros H.
  - exists s. split; [reflexivity|]. split; [exact A|]. rewrite C. split; [constructor|]. intros ip. exact Logic.I.
  - destruct IH as (s1 & E1 & V1); [intros ip X; apply H, speaks_app, X|].
    destruct (cinv_step _ _ _ _ o V1 H) as (s2 & r & E2 & V2). exists s2. split; [|exact V2].
    rewrite cop_run_app, E1. cbn [cop_run]. unfold mbind. rewrite E2. reflexivity.
Qed.

Lemma lookup_history w s0 h ip : the_cache w s0 = [] -> hist_ok w (s_addrs s0) (h ++ [CLookup ip]) ->
  exists s s' r, cop_run w h s0 = (s, Ok tt) /\ c_find w ip s = (s', Ok r) /\
    (forall mac, r = Some mac <-> (exists age, latest ip mac age h) /\ ~ expired ip h) /\
    (r <> None -> s_out s' = s_out s) /\
    (r = None -> exists f, s_out s' = s_out s ++ [f] /\ asks w ip f).
Proof.
  intros C H. destruct (cinv_run w (s_addrs s0) h s0 eq_refl C) as (s & E & A & N & G).
  { intros i X. apply H, speaks_app, X. }
  destruct (H ip) as (R & Q); [right; apply in_app_iff; cbn; auto|].
  destruct (ask_frame_asks w (s_addrs s0) ip R Q) as (f & Ef & Af).
  exists s. pose proof (c_find_eq w ip s R) as F. rewrite A in F. specialize (F Q). specialize (G ip).
  destruct (bound_meaning ip h) as (B1 & B2).
  destruct (cache_get ip (the_cache w s)) as [e|]; do 2 eexists; (split; [exact E|]); (split; [exact F|]).
  - destruct (bound ip h) as [[[m a] u]|]; [|destruct G]. cbn in G. destruct G as (-> & _).
    destruct (B1 _ _ _ eq_refl) as (L & X & _). split; [|split].
    + intros mac. split.
      * intros [= <-]. split; eauto.
      * intros ((age & L') & _). destruct (latest_fun _ _ _ _ _ _ L L') as (-> & _). reflexivity.
    + intros _. apply set_out_same.
    + discriminate.
  - destruct (bound ip h) as [[[m a] u]|]; [destruct G|]. split; [|split].
    + intros mac. split; [discriminate|]. intros ((age & L) & X). destruct (B2 eq_refl X mac age L).
    + congruence.
    + intros _. exists f. rewrite Ef. auto.
Qed.

Lemma pass_history w s0 h : the_cache w s0 = [] -> hist_ok w (s_addrs s0) h ->
  exists s s' l fs, cop_run w h s0 = (s, Ok tt) /\ maintain w s = (s', Ok tt) /\ s_out s' = s_out s ++ fs /\
    Forall2 (asks w) l fs /\ NoDup l /\
    forall ip, In ip l <-> in_use ip h /\ ~ expired ip h /\ exists mac age, latest ip mac age h /\ 3300 * 1000 < age <= 3600 * 1000.
Proof.
  intros C H. destruct (cinv_run w (s_addrs s0) h s0 eq_refl C H) as (s & E & A & N & G).
  assert (HK : forall k, cache_get k (the_cache w s) <> None -> addr_ok w k /\ can_ask w (s_addrs s) k).
  { intros k X. rewrite A. apply H, bound_speaks. specialize (G k). intros Y. rewrite Y in G.
    unfold matches in G. destruct (cache_get k (the_cache w s)); [exact G|congruence]. }
  destruct (maintain_eq w s N HK) as (c' & Em & _). exists s. do 1 eexists. exists (refreshes w s). eexists.
  split; [exact E|]. split; [exact Em|]. split; [|split; [|split]].
  - change (s_out (addl ?l ?x)) with (s_out x ++ l). rewrite set_out_same. reflexivity.
  - unfold refreshes. set (p := fun k => due _ _ _). assert (X : forall k, In k (map fst (the_cache w s)) -> addr_ok w k /\ can_ask w (s_addrs s) k)
      by (intros k I; apply HK, cache_keys, I).
    clear N Em. induction (map fst (the_cache w s)) as [|k l IH]; cbn [filter]; [constructor|].
    assert (Y := IH (fun k' I => X k' (or_intror I))). destruct (p k); [|exact Y].
    destruct (X k (or_introl eq_refl)) as (R & Q). destruct (ask_frame_asks w _ k R Q) as (f & Ef & Af).
    cbn [map concat]. rewrite Ef. constructor; auto.
  - apply NoDup_filter, N.
  - intros ip. unfold refreshes. rewrite filter_In, cache_keys. specialize (G ip). destruct (bound_meaning ip h) as (B1 & B2).
    destruct (bound ip h) as [[[m a] u]|], (cache_get ip (the_cache w s)) as [e|] eqn:Ec; try (destruct G; fail).
    + cbn in G. destruct G as (G1 & G2 & G3 & G4 & G5). destruct (B1 _ _ _ eq_refl) as (L & X & U).
      unfold due. rewrite look_spec by auto. replace (s_now s - ce_time e) with a by lia. split.
      * intros (_ & D). destruct (Z.gtb_spec a (3600 * 1000)); [discriminate|]. destruct (Z.gtb_spec a (3300 * 1000)); [|discriminate].
        cbn [andb] in D. destruct (Z.eqb_spec (ce_hits e) 0); [discriminate|]. split; [tauto|]. split; [auto|]. exists m, a. split; [exact L|lia].
      * intros (I & _ & m' & a' & L' & B). destruct (latest_fun _ _ _ _ _ _ L L') as (_ & <-). split; [discriminate|].
        destruct (Z.gtb_spec a (3600 * 1000)); [lia|]. destruct (Z.gtb_spec a (3300 * 1000)); [|lia].
        cbn [andb]. destruct (Z.eqb_spec (ce_hits e) 0); [tauto|reflexivity].
    + split; [tauto|]. intros (_ & X & m & a & L & _). destruct (B2 eq_refl X m a L).
Qed.

(** ** interleaved maintenance *)

Definition pc_ok (c : cache) (p : mpc) : Prop :=
  match p with
  | Idle => True
  | Keys l => NoDup l /\ forall k, In k l -> cache_get k c <> None
  | Popping k l => NoDup (k :: l) /\ forall k', In k' (k :: l) -> cache_get k' c <> None
  end.
Definition bstep_f (ip : Z) (b : option Z) (o : fop) : option Z :=
  match o with FUpdate ip' mac => if ip =? ip' then Some mac else b | _ => b end.
Definition bound_f (ip : Z) (h : list fop) : option Z := fold_left (bstep_f ip) h None.
Lemma bound_f_snoc ip h o : bound_f ip (h ++ [o]) = bstep_f ip (bound_f ip h) o.
Proof. unfold bound_f. rewrite fold_left_app. reflexivity. Qed.
Lemma bound_f_latest ip h mac : bound_f ip h = Some mac -> latest_f ip mac h.
Proof.
  induction h as [|o h IH] using rev_ind; [discriminate|]. rewrite bound_f_snoc. intros E.
  assert (X : bound_f ip h = Some mac -> (forall m, o <> FUpdate ip m) -> latest_f ip mac (h ++ [o])).
  { intros B D. destruct (IH B) as (h1 & h2 & -> & N). exists h1, (h2 ++ [o]). rewrite <- app_assoc. split; [reflexivity|].
    intros m I. apply in_app_iff in I. destruct I as [I|[I|[]]]; [apply (N m I)|apply (D m I)]. }
  destruct o as [ip' m'|ip'|d|]; cbn [bstep_f] in E; try (apply X; [exact E|discriminate]).
  destruct (Z.eqb_spec ip ip') as [->|Ne]; [injection E as ->|apply X; auto; intros m Y; injection Y; congruence].
  exists h, []. split; auto.
Qed.
Definition finv (w : which) (a : addrs) (h : list fop) (p : mpc) (s : stack) : Prop :=
  s_addrs s = a /\ NoDup (map fst (the_cache w s)) /\ pc_ok (the_cache w s) p /\
  forall ip e, cache_get ip (the_cache w s) = Some e -> bound_f ip h = Some (ce_mac e) /\ addr_ok w ip /\ can_ask w a ip.

Lemma pc_ok_more c c' p : (forall k, cache_get k c <> None -> cache_get k c' <> None) -> pc_ok c p -> pc_ok c' p.
Proof. intros H. destruct p; cbn; auto; intros (N & G); auto. Qed.

Lemma finv_step w a h p s o : finv w a h p s -> (forall ip, speaks_of_f ip [o] -> addr_ok w ip /\ can_ask w a ip) ->
  exists s' p' r, fop_do w o p s = (s', Ok (p', r)) /\ finv w a (h ++ [o]) p' s'.
Proof.
  intros (A & N & P & G) H.
  assert (HK : forall k, cache_get k (the_cache w s) <> None -> addr_ok w k /\ can_ask w (s_addrs s) k).
  { intros k X. destruct (cache_get k (the_cache w s)) as [e|] eqn:E; [|congruence]. rewrite A. apply (G k e E). }
  assert (SET : forall k e0 e, cache_get k (the_cache w s) = Some e0 -> forall k', cache_get k' (the_cache w s) <> None -> cache_get k' (cache_set k e (the_cache w s)) <> None).
  { intros k e0 e E k' X. rewrite cache_get_set. destruct (k' =? k); [discriminate|exact X]. }
  destruct o as [ip mac|ip|d|]; cbn [fop_do].
  - destruct (H ip) as (R & C); [left; cbn; eauto|]. unfold mbind. rewrite c_add_eq. do 3 eexists. split; [reflexivity|].
    split; [rewrite set_addrs_same; exact A|]. rewrite the_set. split; [apply cache_set_nodup, N|]. split.
    + apply (pc_ok_more (the_cache w s)); [|exact P]. intros k X. rewrite cache_get_set. destruct (k =? ip); [discriminate|exact X].
    + intros k e. rewrite cache_get_set, bound_f_snoc. cbn [bstep_f]. destruct (Z.eqb_spec k ip) as [->|]; [|apply G].
      intros [= <-]. auto.
  - destruct (H ip) as (R & C); [right; cbn; auto|]. unfold mbind. rewrite c_find_eq by (rewrite ?A; auto).
    destruct (cache_get ip (the_cache w s)) as [e|] eqn:E.
    + do 3 eexists. split; [reflexivity|]. split; [rewrite set_addrs_same; exact A|]. rewrite the_set.
      split; [apply cache_set_nodup, N|]. split; [apply (pc_ok_more (the_cache w s)); [eauto|exact P]|].
      intros k e'. rewrite cache_get_set, bound_f_snoc. cbn [bstep_f]. destruct (Z.eqb_spec k ip) as [->|]; [|apply G].
      intros [= <-]. apply (G ip e E).
    + do 3 eexists. split; [reflexivity|]. split; [exact A|]. rewrite the_addl. repeat split; auto; rewrite ?bound_f_snoc; apply (G _ _ H0).
  - do 3 eexists. split; [reflexivity|]. split; [exact A|]. rewrite the_now. repeat split; auto; rewrite ?bound_f_snoc; apply (G _ _ H0).
  - assert (GS : forall k e, cache_get k (the_cache w s) = Some e -> bound_f k (h ++ [FStep]) = Some (ce_mac e) /\ addr_ok w k /\ can_ask w a k)
      by (intros k e E; rewrite bound_f_snoc; apply (G k e E)).
    destruct p as [|[|k l]|k l]; cbn [fstep]; unfold mbind, gets.
    + do 3 eexists. split; [reflexivity|]. repeat split; auto; try apply (GS _ _ H0). intros k I. apply cache_keys, I.
    + do 3 eexists. split; [reflexivity|]. repeat split; auto; apply (GS _ _ H0).
    + destruct P as (Nk & Pk). inversion Nk as [|? ? N1 N2]; subst. destruct (cache_get k (the_cache w s)) as [e|] eqn:E; [|destruct (Pk k (or_introl eq_refl) E)].
      assert (Kl : pc_ok (the_cache w s) (Keys l)) by (split; [auto|]; intros k' I; apply Pk; cbn; auto).
      destruct (look w (s_now s) e).
      * do 3 eexists. split; [reflexivity|]. split; [auto|]. split; [auto|]. split; [exact Kl|exact GS].
      * do 3 eexists. split; [reflexivity|]. split; [auto|]. split; [auto|]. split; [split; auto|exact GS].
      * destruct (HK k) as (R & C); [congruence|]. unfold upd. rewrite resolve_req_eq by (rewrite ?set_addrs_same; auto).
        do 3 eexists. split; [reflexivity|]. split; [change (s_addrs (addl ?l ?x)) with (s_addrs x); rewrite set_addrs_same; auto|].
        rewrite the_addl, the_set. split; [apply cache_set_nodup, N|].
        split; [apply (pc_ok_more (the_cache w s)); [eauto|exact Kl]|]. intros k' e'. rewrite cache_get_set.
        destruct (Z.eqb_spec k' k) as [->|]; [|apply GS]. intros [= <-]. apply (GS k e E).
    + destruct P as (Nk & Pk). inversion Nk as [|? ? N1 N2]; subst. unfold pop_key, mbind, gets.
      destruct (cache_get k (the_cache w s)) as [e|] eqn:E; [|destruct (Pk k (or_introl eq_refl) E)]. unfold upd.
      do 3 eexists. split; [reflexivity|]. split; [rewrite set_addrs_same; auto|]. rewrite the_set.
      split; [apply cache_del_nodup, N|]. split.
      * split; [auto|]. intros k' I. rewrite cache_get_del. destruct (Z.eqb_spec k' k) as [->|]; [contradiction|]. apply Pk. cbn. auto.
      * intros k' e'. rewrite cache_get_del. destruct (k' =? k); [discriminate|]. apply GS.
Qed.
Lemma fop_run_app w h g : forall p s, fop_run w (h ++ g) p s = match fop_run w h p s with (s', Ok p') => fop_run w g p' s' | (s', Exn e) => (s', Exn e) end.
Proof.
  induction h as [|o h IH]; intros p s; cbn [app fop_run]; [reflexivity|].
  unfold mbind. destruct (fop_do w o p s) as [s1 [r|e]]; [apply IH|reflexivity].
Qed.
Lemma finv_run w s h : the_cache w s = [] -> (forall ip, speaks_of_f ip h -> addr_ok w ip /\ can_ask w (s_addrs s) ip) ->
  exists s' p, fop_run w h Idle s = (s', Ok p) /\ finv w (s_addrs s) h p s'.
Proof.
  intros C. induction h as [|o h IH] using rev_ind; intros H.
  - exists s, Idle. split; [reflexivity|]. split; [auto|]. rewrite C. split; [constructor|]. split; [exact Logic.I|]. discriminate.
  - destruct IH as (s1 & p1 & E1 & V1).
    { intros ip [(m & I)|I]; apply H; [left; exists m|right]; apply in_app_iff; auto. }
    destruct (finv_step _ _ _ _ _ o V1) as (s2 & p2 & r & E2 & V2).
    { intros ip [(m & I)|I]; apply H; [left; exists m|right]; apply in_app_iff; auto. }
    exists s2, p2. split; [|exact V2]. rewrite fop_run_app, E1. cbn [fop_run]. unfold mbind. rewrite E2. reflexivity.
Qed.
Lemma lookup_history_f w s0 h ip : the_cache w s0 = [] ->
  (forall i, speaks_of_f i (h ++ [FLookup ip]) -> addr_ok w i /\ can_ask w (s_addrs s0) i) ->
  exists s p s' r, fop_run w h Idle s0 = (s, Ok p) /\ fop_do w (FLookup ip) p s = (s', Ok (p, r)) /\
    (forall mac, r = Some mac -> latest_f ip mac h) /\
    (r <> None -> s_out s' = s_out s) /\
    (r = None -> exists f, s_out s' = s_out s ++ [f] /\ asks w ip f).
Proof.
  intros C H. destruct (finv_run w s0 h C) as (s & p & E & A & N & P & G).
  { intros i [(m & I)|I]; apply H; [left; exists m|right]; apply in_app_iff; auto. }
  destruct (H ip) as (R & Q); [right; apply in_app_iff; cbn; auto|].
  destruct (ask_frame_asks w (s_addrs s0) ip R Q) as (f & Ef & Af).
  exists s, p. pose proof (c_find_eq w ip s R) as F. rewrite A in F. specialize (F Q).
  cbn [fop_do]. unfold mbind. rewrite F. destruct (cache_get ip (the_cache w s)) as [e|] eqn:Ec; do 2 eexists; (split; [exact E|]); (split; [reflexivity|]).
  - split; [|split; [intros _; apply set_out_same|discriminate]]. intros mac [= <-]. apply bound_f_latest. apply (G ip e Ec).
  - split; [discriminate|]. split; [congruence|]. intros _. exists f. rewrite Ef. auto.
Qed.

(** ** how old a returned binding can be *)

Lemma elapsed_nonneg h : clock_ok h -> 0 <= elapsed h.
Proof.
  induction h as [|o h IH]; intros C; [cbn; lia|]. assert (0 <= elapsed h) by (apply IH; intros d I; apply C; cbn; auto).
  destruct o; cbn; auto. pose proof (C d (or_introl eq_refl)). lia.
Qed.
Lemma age_bound ip mac age h1 h2 : clock_ok (h1 ++ CMaintain :: h2) ->
  latest ip mac age (h1 ++ CMaintain :: h2) -> ~ expired ip (h1 ++ CMaintain :: h2) -> age <= 3600 * 1000 + elapsed h2.
Proof.
  revert age. induction h2 as [|o h2 IH] using rev_ind; intros age C L X.
  - rewrite latest_snoc in L. rewrite expired_snoc in X. cbn [elapsed] in *.
    destruct (Z.le_gt_cases age (3600 * 1000)); [lia|]. exfalso. apply X. right. exists mac, (age - 0). split; [exact L|lia].
  - rewrite app_comm_cons, app_assoc in *. rewrite latest_snoc in L. rewrite expired_snoc in X. rewrite elapsed_snoc.
    assert (C' : clock_ok (h1 ++ CMaintain :: h2)) by (intros d I; apply C, in_app_iff; auto).
    assert (E : 0 <= elapsed h2) by (apply elapsed_nonneg; intros d I; apply C', in_app_iff; cbn; auto).
    destruct o as [ip' m'|ip'| |d].
    + cbn [elapsed]. destruct (ip =? ip'); [lia|]. specialize (IH age C' L X). lia.
    + specialize (IH _ C' L X). lia.
    + specialize (IH _ C' L (fun Y => X (or_introl Y))). lia.
    + specialize (IH _ C' L X). lia.
Qed.
