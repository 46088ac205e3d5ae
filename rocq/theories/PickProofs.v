(** Lemmas for the choice of the local address, TCP option values and MAC ranges. *)
From Verif Require Import Base BaseLemmas AddrModel AddrProofs SpecStack StackTxProofs TcpModel Icmp6Model.

Lemma mac_ranges a : 0 <= a < 2 ^ 48 ->
  (mac_is_unspecified a = true <-> a = 0) /\ (mac_is_broadcast a = true <-> a = 2 ^ 48 - 1) /\
  (mac_is_multicast_ip4 a = true <-> a / 2 ^ 24 = 0x01005E) /\
  (mac_is_multicast_ip6 a = true <-> a / 2 ^ 32 = 0x3333) /\
  (mac_is_multicast_ip6_solicited_node a = true <-> a / 2 ^ 24 = 0x3333FF) /\
  (mac_is_unicast a = true <-> a <> 0 /\ a <> 2 ^ 48 - 1 /\ a / 2 ^ 24 <> 0x01005E /\ a / 2 ^ 32 <> 0x3333).
Proof.
  intros H. unfold mac_is_unspecified, mac_is_broadcast, mac_is_multicast_ip4, mac_is_multicast_ip6,
    mac_is_multicast_ip6_solicited_node, mac_is_unicast, in_range.
  pose proof (Z.div_mod a (2 ^ 24) ltac:(lia)). pose proof (Z.mod_pos_bound a (2 ^ 24) ltac:(lia)).
  pose proof (Z.div_mod a (2 ^ 32) ltac:(lia)). pose proof (Z.mod_pos_bound a (2 ^ 32) ltac:(lia)). lia.
Qed.

(** first element with a property *)
Definition first_with {A} (P : A -> Prop) (l : list A) (x : A) : Prop :=
  exists a b, l = a ++ x :: b /\ P x /\ forall y, In y a -> ~ P y.

(** The local address for talking to [remote], from the hosts (address with prefix length [k],
    optional gateway) in their order. *)
Inductive local_for (n : Z) (hosts : list (Z * Z * option Z)) (remote : Z) : Z -> Prop :=
| lf_on_link a k g : first_with (fun h => on_link n (snd (fst h)) (fst (fst h)) remote = true) hosts (a, k, g) ->
    local_for n hosts remote a
| lf_gateway a k g : (forall h, In h hosts -> on_link n (snd (fst h)) (fst (fst h)) remote = false) ->
    first_with (fun h => snd h <> None) hosts (a, k, g) -> local_for n hosts remote a
| lf_none : (forall h, In h hosts -> on_link n (snd (fst h)) (fst (fst h)) remote = false) ->
    (forall h, In h hosts -> snd h = None) -> local_for n hosts remote 0.

Lemma first_with_cons {A} (P : A -> Prop) y l x : ~ P y -> first_with P l x -> first_with P (y :: l) x.
Proof. intros N (a & b & -> & Px & Q). exists (y :: a), b. split; [reflexivity|]. split; [exact Px|]. intros z [<-|I]; auto. Qed.
Lemma first_with_hd {A} (P : A -> Prop) l x : P x -> first_with P (x :: l) x.
Proof. intros H. exists [], l. split; [reflexivity|]. split; [exact H|]. intros y []. Qed.

Lemma pick_local_spec n hosts remote : Forall (fun hk => host_ok n (snd hk) (fst hk)) hosts ->
  local_for (Z.of_nat n) (map (fun hk => (h_addr (fst hk), snd hk, h_gw (fst hk))) hosts) remote
    (pick_local n (map fst hosts) remote).
Proof.
  intros F. unfold pick_local.
  assert (A : match pick_by_net n (map fst hosts) remote with
    | Some a => exists k g, first_with (fun h => on_link (Z.of_nat n) (snd (fst h)) (fst (fst h)) remote = true)
        (map (fun hk => (h_addr (fst hk), snd hk, h_gw (fst hk))) hosts) (a, k, g)
    | None => forall h, In h (map (fun hk => (h_addr (fst hk), snd hk, h_gw (fst hk))) hosts) ->
        on_link (Z.of_nat n) (snd (fst h)) (fst (fst h)) remote = false
    end).
  { induction F as [|[h k] l Hh F IH]; [intros h []|]. cbn [map fst snd pick_by_net] in *.
    rewrite (host_ok_in n k h remote Hh).
    destruct (on_link (Z.of_nat n) k (h_addr h) remote) eqn:E.
    - exists k, (h_gw h). apply first_with_hd. exact E.
    - destruct (pick_by_net n (map fst l) remote) as [a|].
      + destruct IH as (k' & g & P). exists k', g. apply first_with_cons; [|exact P]. cbn [fst snd]. rewrite E. discriminate.
      + intros z [<-|I]; [exact E|auto]. }
  assert (B : match pick_by_gw (map fst hosts) with
    | Some a => exists k g, first_with (fun h => snd h <> None) (map (fun hk => (h_addr (fst hk), snd hk, h_gw (fst hk))) hosts) (a, k, g)
    | None => forall h, In h (map (fun hk => (h_addr (fst hk), snd hk, h_gw (fst hk))) hosts) -> snd h = None
    end).
  { clear A. induction hosts as [|[h k] l IH]; [intros h []|]. inversion F as [|? ? ? F']; subst. cbn [map fst snd pick_by_gw] in *.
    destruct (h_gw h) as [g|] eqn:E.
    - exists k, (Some g). apply first_with_hd. discriminate.
    - specialize (IH F'). destruct (pick_by_gw (map fst l)) as [a|].
      + destruct IH as (k' & g & P). exists k', g. apply first_with_cons; [|exact P]. cbn [snd]. congruence.
      + intros z [<-|I]; [reflexivity|auto]. }
  destruct (pick_by_net n (map fst hosts) remote) as [a|].
  - destruct A as (k & g & P). exact (lf_on_link _ _ _ _ _ _ P).
  - destruct (pick_by_gw (map fst hosts)) as [a|].
    + destruct B as (k & g & P). exact (lf_gateway _ _ _ _ _ _ A P).
    + exact (lf_none _ _ _ A B).
Qed.

Lemma opt_values l : Forall (fun o => match o with OWscale w => 0 <= w | _ => True end) l ->
  (forall m, opt_mss l = m <->
    (exists a b, l = a ++ OMss m :: b /\ forall o, In o a -> match o with OMss _ => False | _ => True end) \/
    (m = 536 /\ forall o, In o l -> match o with OMss _ => False | _ => True end)) /\
  (forall v, opt_wscale l = v <->
    (exists w a b, v = Some (2 ^ w) /\ l = a ++ OWscale w :: b /\ forall o, In o a -> match o with OWscale _ => False | _ => True end) \/
    (v = None /\ forall o, In o l -> match o with OWscale _ => False | _ => True end)).
Proof.
  intros F. split.
  - intros m. clear F. induction l as [|o l IH]; cbn [opt_mss].
    + split; [intros <-; right; split; [reflexivity|intros o []]|].
      intros [([|] & b & X & _)|(-> & _)]; [discriminate|discriminate|reflexivity].
    + assert (S : (exists a b, o :: l = a ++ OMss m :: b /\ forall o, In o a -> match o with OMss _ => False | _ => True end) <->
        o = OMss m \/ (match o with OMss _ => False | _ => True end /\
        exists a b, l = a ++ OMss m :: b /\ forall o, In o a -> match o with OMss _ => False | _ => True end)).
      { split.
        - intros ([|p a] & b & X & Q); injection X as -> ->; [left; reflexivity|]. right. split; [apply Q; left; reflexivity|].
          exists a, b. split; [reflexivity|]. intros z I. apply Q. right. exact I.
        - intros [->|(N & a & b & -> & Q)]; [exists [], l; split; [reflexivity|intros z []]|].
          exists (o :: a), b. split; [reflexivity|]. intros z [<-|I]; [exact N|exact (Q z I)]. }
      assert (S2 : (forall p, In p (o :: l) -> match p with OMss _ => False | _ => True end) <->
        (match o with OMss _ => False | _ => True end /\ forall p, In p l -> match p with OMss _ => False | _ => True end)).
      { split; [intros Q; split; [apply Q; left; reflexivity|intros p I; apply Q; right; exact I]|intros (Q1 & Q2) p [<-|I]; [exact Q1|exact (Q2 p I)]]. }
      rewrite S, S2. destruct o; try (rewrite IH; clear; split;
        [intros [X|(X & Y)]; [left; right; split; [exact I|exact X]|right; split; [exact X|split; [exact I|exact Y]]]
        |intros [[X|(_ & X)]|(X & _ & Y)]; [discriminate|left; exact X|right; split; [exact X|exact Y]]]).
      split; [intros ->; left; left; reflexivity|]. intros [[X|([] & _)]|(_ & [] & _)]. injection X as ->. reflexivity.
  - intros v. induction F as [|o l Ho F IH]; cbn [opt_wscale].
    + split; [intros <-; right; split; [reflexivity|intros o []]|].
      intros [(w & [|] & b & _ & X & _)|(-> & _)]; [discriminate|discriminate|reflexivity].
    + assert (S : (exists w a b, v = Some (2 ^ w) /\ o :: l = a ++ OWscale w :: b /\ forall o, In o a -> match o with OWscale _ => False | _ => True end) <->
        (exists w, v = Some (2 ^ w) /\ o = OWscale w) \/ (match o with OWscale _ => False | _ => True end /\
        exists w a b, v = Some (2 ^ w) /\ l = a ++ OWscale w :: b /\ forall o, In o a -> match o with OWscale _ => False | _ => True end)).
      { split.
        - intros (w & [|p a] & b & V & X & Q); injection X as -> ->; [left; eauto|]. right. split; [apply Q; left; reflexivity|].
          exists w, a, b. split; [exact V|]. split; [reflexivity|]. intros z I. apply Q. right. exact I.
        - intros [(w & V & ->)|(N & w & a & b & V & -> & Q)]; [exists w, [], l; split; [exact V|]; split; [reflexivity|intros z []]|].
          exists w, (o :: a), b. split; [exact V|]. split; [reflexivity|]. intros z [<-|I]; [exact N|exact (Q z I)]. }
      assert (S2 : (forall p, In p (o :: l) -> match p with OWscale _ => False | _ => True end) <->
        (match o with OWscale _ => False | _ => True end /\ forall p, In p l -> match p with OWscale _ => False | _ => True end)).
      { split; [intros Q; split; [apply Q; left; reflexivity|intros p I; apply Q; right; exact I]|intros (Q1 & Q2) p [<-|I]; [exact Q1|exact (Q2 p I)]]. }
      rewrite S, S2. destruct o; try (rewrite IH; clear; split;
        [intros [X|(X & Y)]; [left; right; split; [exact I|exact X]|right; split; [exact X|split; [exact I|exact Y]]]
        |intros [[(w & _ & X)|(_ & X)]|(X & _ & Y)]; [discriminate|left; exact X|right; split; [exact X|exact Y]]]).
      rewrite Z.shiftl_1_l. split; [intros <-; left; left; eauto|].
      intros [[(w' & V & X)|([] & _)]|(_ & [] & _)]. injection X as ->. auto.
Qed.

(** ** Neighbour discovery options *)
Lemma nd_values l :
  (forall m, nd_slla l = Some m <-> exists a b, l = a ++ NSlla m :: b /\ forall m', ~ In (NSlla m') a) /\
  (nd_slla l = None <-> forall m, ~ In (NSlla m) l) /\
  (forall m, nd_tlla l = Some m <-> exists a b, l = a ++ NTlla m :: b /\ forall m', ~ In (NTlla m') a) /\
  (nd_tlla l = None <-> forall m, ~ In (NTlla m) l) /\
  (forall w, In w (nd_prefixes l) <-> exists fl vl pl s, In (NPi fl true vl pl s w) l /\ mask_len (n_mask w) = 64).
Proof.
  assert (S : forall (C : Z -> nd_opt) (g : list nd_opt -> option Z),
    g [] = None -> (forall m r, g (C m :: r) = Some m) -> (forall o r, (forall m, o <> C m) -> g (o :: r) = g r) ->
    (forall o, (exists m, o = C m) \/ forall m, o <> C m) -> (forall m m', C m = C m' -> m = m') ->
    (forall m, g l = Some m <-> exists a b, l = a ++ C m :: b /\ forall m', ~ In (C m') a) /\ (g l = None <-> forall m, ~ In (C m) l)).
  { intros C g G0 G1 G2 D J. induction l as [|o l (IH1 & IH2)].
    - rewrite G0. split; [|split; auto]. intros m. split; [discriminate|]. intros ([|] & b & X & _); discriminate.
    - destruct (D o) as [(m0 & ->)|N].
      + rewrite G1. split.
        * intros m. split; [intros E; injection E as <-; exists [], l; split; [reflexivity|intros m' []]|].
          intros ([|p a] & b & X & Q); injection X; [intros _ X'; apply J in X' as ->; reflexivity|].
          intros _ X'. exfalso. apply (Q m0). left. auto.
        * split; [discriminate|]. intros Q. exfalso. apply (Q m0). left. reflexivity.
      + rewrite G2 by exact N. split.
        * intros m. rewrite IH1. split.
          -- intros (a & b & -> & Q). exists (o :: a), b. split; [reflexivity|]. intros m' [X|X]; [exact (N _ X)|exact (Q _ X)].
          -- intros ([|p a] & b & X & Q); injection X; [intros _ X'; destruct (N _ X')|].
             intros -> ->. exists a, b. split; [reflexivity|]. intros m' I. apply (Q m'). right. exact I.
        * rewrite IH2. split; [intros Q m [X|X]; [exact (N _ X)|exact (Q _ X)]|intros Q m X; apply (Q m); right; exact X]. }
  destruct (S NSlla nd_slla eq_refl (fun _ _ => eq_refl)) as (A1 & A2).
  { intros o r N. destruct o; try reflexivity. destruct (N _ eq_refl). }
  { intros o. destruct o; try (right; intros; discriminate). left. eauto. }
  { intros m m' X. injection X. auto. }
  destruct (S NTlla nd_tlla eq_refl (fun _ _ => eq_refl)) as (B1 & B2).
  { intros o r N. destruct o; try reflexivity. destruct (N _ eq_refl). }
  { intros o. destruct o; try (right; intros; discriminate). left. eauto. }
  { intros m m' X. injection X. auto. }
  split; [exact A1|]. split; [exact A2|]. split; [exact B1|]. split; [exact B2|]. clear.
  intros w. induction l as [|o l IH]; cbn [nd_prefixes].
  - split; [intros []|intros (? & ? & ? & ? & [] & _)].
  - assert (T : (exists fl vl pl s, In (NPi fl true vl pl s w) (o :: l) /\ mask_len (n_mask w) = 64) <->
       (exists fl vl pl s, o = NPi fl true vl pl s w /\ mask_len (n_mask w) = 64) \/
       (exists fl vl pl s, In (NPi fl true vl pl s w) l /\ mask_len (n_mask w) = 64)).
    { split.
      - intros (fl & vl & pl & s & [X|X] & M); [left|right]; exists fl, vl, pl, s; auto.
      - intros [(fl & vl & pl & s & X & M)|(fl & vl & pl & s & X & M)]; exists fl, vl, pl, s; split; auto; [left|right]; auto. }
    rewrite T, <- IH. clear T IH.
    destruct o; try (split; [intros X; right; exact X|intros [(? & ? & ? & ? & X & _)|X]; [discriminate|exact X]]).
    match goal with |- context [if ?c then _ else _] => destruct c eqn:C end.
    + apply andb_prop in C as (-> & C). apply Z.eqb_eq in C. cbn [In]. split.
      * intros [->|X]; [left; do 4 eexists; split; [reflexivity|exact C]|right; exact X].
      * intros [(? & ? & ? & ? & X & _)|X]; [left; injection X; auto|right; exact X].
    + split; [intros X; right; exact X|]. intros [(? & ? & ? & ? & X & M)|X]; [|exact X].
      exfalso. injection X as -> -> -> -> -> ->. apply Z.eqb_eq in M. rewrite M in C. discriminate.
Qed.

Lemma nd_prefixes_app a b : nd_prefixes (a ++ b) = nd_prefixes a ++ nd_prefixes b.
Proof.
  induction a as [|o a IH]; [reflexivity|]. cbn [app nd_prefixes]. destruct o; auto.
  rewrite IH. match goal with |- context [if ?c then _ else _] => destruct c end; reflexivity.
Qed.
