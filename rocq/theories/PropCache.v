(** C52: the ARP and ND caches. *)
From Verif Require Import Base BaseLemmas AddrModel SpecAddr EtherModel Ip6Model Icmp6Model StackModel SpecStack StackTxProofs PropTx
  CacheModel SpecCache CacheProofs.

(** The claim as first made: a lookup returns the latest binding exactly if it is at most
    an hour old. *)
Definition C52_statement : Prop :=
  forall w s0 h ip s s' r, the_cache w s0 = [] -> hist_ok w (s_addrs s0) (h ++ [CLookup ip]) -> clock_ok h ->
    cop_run w h s0 = (s, Ok tt) -> c_find w ip s = (s', Ok r) ->
    forall mac, r = Some mac <-> exists age, latest ip mac age h /\ age <= 3600 * 1000.

(** a node with both protocols on and empty caches *)
Definition ex_fresh : stack := set_nd [] (set_arp [] ex_stack).
Definition ex_nb (w : which) : Z := match w with Arp => 0x0A000009 | Nd => db8 + 9 end.
Lemma ex_hist_ok w h : (forall ip, speaks_of ip h -> ip = ex_nb w) -> hist_ok w (s_addrs ex_fresh) h.
Proof.
  intros H ip S. rewrite (H ip S). split; [destruct w; unfold addr_ok, ex_nb, db8; lia|].
  destruct w; [reflexivity|]. split; [reflexivity|]. split.
  - exists ex_h6. split; [cbn; auto|vm_compute; reflexivity].
  - intros h' [<-|[]]. split; [vm_compute; discriminate|]. vm_compute. intros [X|[X|[]]]; discriminate.
Qed.
Definition only_nb (w : which) (h : list cop) : bool :=
  forallb (fun o => match o with CUpdate ip _ | CLookup ip => ip =? ex_nb w | _ => true end) h.
Lemma ex_only w h : only_nb w h = true -> hist_ok w (s_addrs ex_fresh) h.
Proof.
  intros H. apply ex_hist_ok. unfold only_nb in H. rewrite forallb_forall in H.
  intros ip [(m & I)|I]; apply Z.eqb_eq, (H _ I).
Qed.

(** Refuted: between two passes of the maintenance thread an expired binding is returned. *)
Theorem C52_refuted : ~ C52_statement.
Proof.
  intros S. set (h := [CUpdate (ex_nb Arp) 0x020000000009; CClock 3600001]).
  destruct (cop_run Arp h ex_fresh) as [s r0] eqn:E. destruct (c_find Arp (ex_nb Arp) s) as [s' r] eqn:F.
  assert (E' := E). vm_compute in E'. injection E' as <- <-. assert (F' := F). vm_compute in F'. injection F' as <- <-.
  assert (HO : hist_ok Arp (s_addrs ex_fresh) (h ++ [CLookup (ex_nb Arp)])) by (apply ex_only; vm_compute; reflexivity).
  assert (C : clock_ok h) by (intros d [I|[I|[]]]; inversion I; lia).
  destruct (S Arp ex_fresh h (ex_nb Arp) _ _ _ eq_refl HO C E F 0x020000000009) as (A & _).
  destruct (A eq_refl) as (age & L & B).
  change h with ([] ++ CUpdate (ex_nb Arp) 0x020000000009 :: [CClock 3600001]) in L.
  assert (L' : latest (ex_nb Arp) 0x020000000009 3600001 h) by (exists [], [CClock 3600001]; repeat split; intros m [X|[]]; discriminate).
  destruct (latest_fun _ _ _ _ _ _ L L'). lia.
Qed.
Print Assumptions C52_refuted.

(** Proved: after any history of updates, lookups, passes and time, no call raises; a
    lookup returns the latest update's link-layer address exactly if no pass has found it
    older than an hour, and then sends nothing; otherwise it returns nothing and sends
    exactly one request for that address.  (Missing from the full claim: "older than an
    hour" takes effect at the next pass only; see C52_age_partial.) *)
Theorem C52_lookup_partial w s0 h ip : the_cache w s0 = [] -> hist_ok w (s_addrs s0) (h ++ [CLookup ip]) ->
  exists s s' r, cop_run w h s0 = (s, Ok tt) /\ c_find w ip s = (s', Ok r) /\
    (forall mac, r = Some mac <-> (exists age, latest ip mac age h) /\ ~ expired ip h) /\
    (r <> None -> s_out s' = s_out s) /\
    (r = None -> exists f, s_out s' = s_out s ++ [f] /\ asks w ip f).
Proof. exact (lookup_history w s0 h ip). Qed.
Print Assumptions C52_lookup_partial.

(** a returned binding is never older than an hour plus the time since the last pass *)
Theorem C52_age_partial w s0 h1 h2 ip s s' mac age : the_cache w s0 = [] ->
  hist_ok w (s_addrs s0) ((h1 ++ CMaintain :: h2) ++ [CLookup ip]) -> clock_ok (h1 ++ CMaintain :: h2) ->
  cop_run w (h1 ++ CMaintain :: h2) s0 = (s, Ok tt) -> c_find w ip s = (s', Ok (Some mac)) ->
  latest ip mac age (h1 ++ CMaintain :: h2) -> age <= 3600 * 1000 + elapsed h2.
Proof.
  intros C H K E F L. destruct (lookup_history w s0 _ ip C H) as (s1 & s1' & r & E1 & F1 & B & _).
  rewrite E in E1. injection E1 as <-. rewrite F in F1. injection F1 as _ <-.
  destruct (proj1 (B mac) eq_refl) as (_ & X). exact (age_bound _ _ _ _ _ K L X).
Qed.
Print Assumptions C52_age_partial.

(** a pass asks again, once each, for exactly the bindings that are 55 to 60 minutes old
    and were looked up since their last update or refresh *)
Theorem C52_refresh w s0 h : the_cache w s0 = [] -> hist_ok w (s_addrs s0) h ->
  exists s s' l fs, cop_run w h s0 = (s, Ok tt) /\ maintain w s = (s', Ok tt) /\ s_out s' = s_out s ++ fs /\
    Forall2 (asks w) l fs /\ NoDup l /\
    forall ip, In ip l <-> in_use ip h /\ ~ expired ip h /\ exists mac age, latest ip mac age h /\ 3300 * 1000 < age <= 3600 * 1000.
Proof. exact (pass_history w s0 h). Qed.
Print Assumptions C52_refresh.

Definition answers (w : which) (l : list cop) : list (option Z) * nat :=
  let fix go l s := match l with
    | [] => ([], length (s_out s))
    | o :: r => match cop_do w o s with
        | (s', Ok x) => let '(xs, n) := go r s' in (match o with CLookup _ => x :: xs | _ => xs end, n)
        | (s', Exn _) => ([Some (-1)], O) end
    end in go l ex_fresh.
Definition ex_history (w : which) : list cop :=
  [CLookup (ex_nb w); CUpdate (ex_nb w) 7; CMaintain; CLookup (ex_nb w); CUpdate (ex_nb w) 8; CLookup (ex_nb w);
   CClock 3400000; CMaintain; CMaintain; CLookup (ex_nb w); CClock 200001; CLookup (ex_nb w); CMaintain; CLookup (ex_nb w)].
Example C52_example : forall w, hist_ok w (s_addrs ex_fresh) (ex_history w) /\ the_cache w ex_fresh = [] /\
  answers w (ex_history w) = ([None; Some 7; Some 8; Some 8; Some 8; None], 3%nat).
Proof. intros [|]; (split; [apply ex_only; vm_compute; reflexivity|]); split; vm_compute; reflexivity. Qed.
Example C52_age_example : clock_ok (firstn 12 (ex_history Arp)) /\ latest (ex_nb Arp) 8 3600001 (firstn 12 (ex_history Arp)).
Proof.
  split; [intros d I; cbn in I; repeat (destruct I as [I|I]; [inversion I; lia|]); destruct I|].
  exists (firstn 4 (ex_history Arp)), (firstn 7 (skipn 5 (ex_history Arp))). split; [reflexivity|]. split; [|reflexivity].
  intros m I. cbn in I. repeat (destruct I as [I|I]; [discriminate|]). destruct I.
Qed.

(** With the maintenance thread interleaved step by step with the others: it never raises,
    what a lookup returns is always the latest update, and a miss sends one request. *)
Theorem C52_threads_partial w s0 h ip : the_cache w s0 = [] ->
  (forall i, speaks_of_f i (h ++ [FLookup ip]) -> addr_ok w i /\ can_ask w (s_addrs s0) i) ->
  exists s p s' r, fop_run w h Idle s0 = (s, Ok p) /\ fop_do w (FLookup ip) p s = (s', Ok (p, r)) /\
    (forall mac, r = Some mac -> latest_f ip mac h) /\
    (r <> None -> s_out s' = s_out s) /\
    (r = None -> exists f, s_out s' = s_out s ++ [f] /\ asks w ip f).
Proof. exact (lookup_history_f w s0 h ip). Qed.
Print Assumptions C52_threads_partial.

(** Refuted for interleaved threads: a binding just learned can be thrown away, when the
    update falls between the thread's look at the old binding and its pop. *)
Theorem C52_threads_refuted : forall w, exists h s p s',
  h = [FUpdate (ex_nb w) 7; FClock 3600001; FStep; FStep; FUpdate (ex_nb w) 8; FStep] /\
  fop_run w h Idle ex_fresh = (s, Ok p) /\ c_find w (ex_nb w) s = (s', Ok None).
Proof.
  intros [|]; do 4 eexists; (split; [reflexivity|]); (split; [vm_compute; reflexivity|]); vm_compute; reflexivity.
Qed.
Print Assumptions C52_threads_refuted.

(** Refuted for the ND cache: a lookup of an address on no link of the node sends
    nothing when no address has a gateway. *)
Definition ex_one_link : stack :=
  set_addrs {| a_mac := 0x020000000007; a_mac_mcast := []; a_host4 := []; a_mcast4 := [];
     a_host6 := [{| h_addr := h_addr ex_h6; h_net := h_net ex_h6; h_gw := None |}]; a_mcast6 := [];
     a_cand4 := []; a_cand6 := None; a_sup4 := true; a_sup6 := true |} ex_fresh.
Theorem C52_no_source_refuted : exists s' ip, addr_ok Nd ip /\ s_out ex_one_link = [] /\
  c_find Nd ip ex_one_link = (s', Ok None) /\ s_out s' = [].
Proof.
  eexists. exists 5. split; [unfold addr_ok; lia|]. split; [reflexivity|]. split; [vm_compute; reflexivity|reflexivity].
Qed.
Print Assumptions C52_no_source_refuted.
