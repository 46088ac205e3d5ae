(** The DHCP client's messages and its run. *)
From Verif Require Import BaseLemmas CodecModel CodecLemmas AddrModel SpecAddr AddrProofs SpecDhcp DhcpModel DhcpProofs.

Lemma opt_all_none {A} (P : A -> Prop) : opt_all P None.
Proof. intros x H; discriminate. Qed.
Lemma opt_all_some {A} (P : A -> Prop) x : P x -> opt_all P (Some x).
Proof. intros H y E. injection E as <-. exact H. Qed.

Lemma mac_bytes_len mac : 0 <= mac < 2 ^ 48 -> zlen (mac_bytes mac) = 6.
Proof. intros H. rewrite mac_bytes_enc by auto. apply be_enc_zlen. Qed.
Lemma host_name_text : is_text dhcp_host_name.
Proof. split; [|reflexivity]. unfold dhcp_host_name. repeat (constructor; [lia|]). constructor. Qed.
Ltac txok := unfold dhcp_tx_ok; cbn [dhcp_discover dhcp_request dt_op dt_xid dt_flag_b dt_ciaddr dt_yiaddr dt_siaddr dt_giaddr dt_chaddr
    dt_mask dt_router dt_dns dt_host dt_domain dt_req_ip dt_lease dt_srv dt_params dt_msg];
  repeat match goal with
  | |- _ /\ _ => split
  | |- opt_all _ None => apply opt_all_none
  | |- opt_all is_text (Some _) => apply opt_all_some, host_name_text
  | |- opt_all _ (Some _) => apply opt_all_some; cbv beta
  | |- wf_bytes (_ :: _) => apply wf_cons; [unfold is_byte; lia|]
  | |- wf_bytes [] => apply wf_nil
  | |- zlen (mac_bytes _) = 6 => apply mac_bytes_len; assumption
  | |- zlen _ < 256 => reflexivity
  | _ => first [lia | assumption]
  end.
Lemma discover_ok xid mac : 0 <= xid < 2 ^ 32 -> 0 <= mac < 2 ^ 48 -> dhcp_tx_ok (dhcp_discover xid mac).
Proof. intros Hx Hm. txok. Qed.
Lemma request_ok xid mac srv yi : 0 <= xid < 2 ^ 32 -> 0 <= mac < 2 ^ 48 -> opt_all (fun a => 0 <= a < 2 ^ 32) srv ->
  0 <= yi < 2 ^ 32 -> dhcp_tx_ok (dhcp_request xid mac srv yi).
Proof. intros Hx Hm Hs Hy. txok. Qed.

Lemma first_opt_in {A} (f : dopt -> option A) l x : first_opt f l = Some x -> exists o, In o l /\ f o = Some x.
Proof.
  induction l as [|o l IH]; cbn [first_opt]; [discriminate|]. destruct (f o) as [y|] eqn:E.
  - intros K. injection K as <-. exists o. split; [left; reflexivity|exact E].
  - intros K. destruct (IH K) as (o' & I & F). exists o'. split; [right; exact I|exact F].
Qed.

(** ** addresses and masks of a parsed message are in range *)
Definition dopt_rng (o : dopt) : Prop :=
  match o with
  | DMask _ m => exists k, 0 <= k <= 32 /\ m = prefix_mask 32 k
  | DRouter _ l => Forall (fun a => 0 <= a < 2 ^ 32) l
  | DSrv _ a => 0 <= a < 2 ^ 32
  | _ => True
  end.
Lemma ip4_of_bytes_rng b v : wf_bytes b -> ip4_of_bytes b = Ok v -> 0 <= v < 2 ^ 32.
Proof. intros W E. apply ip4_of_bytes_inv in E as [H _]; auto. Qed.
Lemma dopt_addrs_rng raw : wf_bytes raw -> forall k p l, dopt_addrs k p raw = Ok l -> Forall (fun a => 0 <= a < 2 ^ 32) l.
Proof.
  intros W. induction k as [|k IH]; intros p l; cbn [dopt_addrs]; [intros E; injection E as <-; constructor|].
  destruct (ip4_of_bytes (slice p (p + 4) raw)) as [a|] eqn:Ea; [|discriminate]. cbn [rbind].
  destruct (dopt_addrs k (p + 4) raw) as [t|] eqn:Et; [|discriminate]. cbn [rbind]. intros E.
  assert (l = a :: t) as -> by congruence. constructor; [|eauto].
  eapply ip4_of_bytes_rng; [|exact Ea]. apply wf_slice, W.
Qed.
Lemma dopt_read_rng raw o : wf_bytes raw -> dopt_read raw = Ok o -> dopt_rng o.
Proof.
  intros W. unfold dopt_read. destruct (index raw 0) as [c|]; [|discriminate]. cbn [rbind].
  destruct (index raw 1) as [n|]; [|discriminate]. cbn [rbind].
  assert (N : forall A (m : res A) (f : A -> dopt), (forall a, m = Ok a -> dopt_rng (f a)) ->
            (x <- m ;; Ok (f x)) = Ok o -> dopt_rng o).
  { intros A m f Hf. destruct m; [|discriminate]. cbn [rbind]. intros K. injection K as <-. apply Hf. reflexivity. }
  destruct (c =? 1).
  { apply N. intros m E. cbn [dopt_rng].
    destruct (mask_of_bytes_spec 32 (slice 2 6 raw) (wf_slice _ _ _ W)) as [[S _] D].
    assert (E' : mask_of_bytes 32 (slice 2 6 raw) = Ok (be (slice 2 6 raw))) by (destruct D as [D|D]; [exact D|congruence]).
    destruct (S E') as (_ & k & Hk & Eb). exists k. split; [exact Hk|]. rewrite E in E'. injection E' as ->. exact Eb. }
  destruct (c =? 3). { apply N. intros a E. eapply dopt_addrs_rng; [exact W|exact E]. }
  destruct (c =? 6). { apply N. intros; exact I. }
  destruct (c =? 12). { apply N. intros; exact I. }
  destruct (c =? 15). { apply N. intros; exact I. }
  destruct (c =? 50). { apply N. intros; exact I. }
  destruct (c =? 51). { apply N. intros; exact I. }
  destruct (c =? 53). { apply N. intros; exact I. }
  destruct (c =? 54). { apply N. intros a E. eapply ip4_of_bytes_rng; [|exact E]. apply wf_slice, W. }
  destruct (c =? 55). { intros K. injection K as <-. exact I. }
  intros K. injection K as <-. exact I.
Qed.
Lemma dhcp_loop_rng fuel : forall raw i acc l, wf_bytes raw -> Forall dopt_rng acc ->
  dhcp_loop fuel raw i acc = Ok l -> Forall dopt_rng l.
Proof.
  induction fuel as [|fuel IH]; intros raw i acc l W Ha; cbn [dhcp_loop].
  - destruct (i <? zlen raw); [discriminate|]. intros E. injection E as <-. exact Ha.
  - destruct (i <? zlen raw); [|intros E; injection E as <-; exact Ha].
    assert (K : forall o, dopt_rng o -> Forall dopt_rng (acc ++ [o])).
    { intros o Ho. apply Forall_app. split; [exact Ha|]. constructor; [exact Ho|constructor]. }
    destruct (index raw i) as [c|]; [|discriminate]. cbn [rbind].
    destruct (c =? 255). { intros E. injection E as <-. apply K. exact I. }
    destruct (c =? 0). { apply IH; [exact W|]. apply K. exact I. }
    destruct (index raw (i + 1)) as [n|]; [|discriminate]. cbn [rbind].
    destruct (dopt_read _) as [o|] eqn:Eo; [|discriminate]. cbn [rbind].
    destruct (dopts_raw _) as [ag|]; [|discriminate]. cbn [rbind].
    destruct (index ag _) as [n'|]; [|discriminate]. cbn [rbind].
    apply IH; [exact W|]. apply K. eapply dopt_read_rng; [|exact Eo]. apply wf_slice, W.
Qed.
Lemma dhcp_parse_rng f d : wf_bytes f -> dhcp_parse f = Ok d ->
  0 <= d_yiaddr d < 2 ^ 32 /\ Forall dopt_rng (d_opts d).
Proof.
  intros W. unfold dhcp_parse, dhcp_parse_fuel. destruct (zlen f =? 0); [discriminate|].
  cbn zeta. set (h := slice 0 240 f). assert (Wh : wf_bytes h) by apply wf_slice, W.
  repeat match goal with |- (x <- ?m ;; _) = Ok _ -> _ => let E := fresh "E" in destruct m eqn:E; [|discriminate]; cbn [rbind] end.
  intros K. injection K as <-. cbn [d_yiaddr d_opts]. split.
  - eapply ip4_of_bytes_rng; [|eassumption]. apply wf_slice, Wh.
  - eapply dhcp_loop_rng; [| |eassumption]; [apply wf_slice_from, W|constructor].
Qed.

(** ** the run of the client *)
Inductive fetch_end := FTimeout | FOther | FMade (r : res (option host)).

Lemma fetch_first xid mac offer ack : 0 <= xid < 2 ^ 32 -> 0 <= mac < 2 ^ 48 -> opt_all wf_bytes offer ->
  exists w1, dhcp_parse w1 = Ok (dhcp_build (dhcp_discover xid mac)) /\
  ((offer = None /\ dhcp_fetch xid mac offer ack = fetch_done [w1] (Ok None)) \/
   (exists f1 e, offer = Some f1 /\ dhcp_parse f1 = Exn e /\ dhcp_fetch xid mac offer ack = fetch_raises [w1] e) \/
   (exists f1 d1, offer = Some f1 /\ dhcp_parse f1 = Ok d1 /\ dhcp_msg_type d1 <> Some 2 /\
      dhcp_fetch xid mac offer ack = fetch_done [w1] (Ok None)) \/
   (exists f1 d1 w2, offer = Some f1 /\ dhcp_parse f1 = Ok d1 /\ dhcp_msg_type d1 = Some 2 /\
      dhcp_parse w2 = Ok (dhcp_build (dhcp_request xid mac (dhcp_srv_id d1) (d_yiaddr d1))) /\
      ((ack = None /\ dhcp_fetch xid mac offer ack = fetch_done [w1; w2] (Ok None)) \/
       (exists f2 e, ack = Some f2 /\ dhcp_parse f2 = Exn e /\ dhcp_fetch xid mac offer ack = fetch_raises [w1; w2] e) \/
       (exists f2 d2, ack = Some f2 /\ dhcp_parse f2 = Ok d2 /\ dhcp_msg_type d2 <> Some 5 /\
          dhcp_fetch xid mac offer ack = fetch_done [w1; w2] (Ok None)) \/
       (exists f2 d2, ack = Some f2 /\ dhcp_parse f2 = Ok d2 /\ dhcp_msg_type d2 = Some 5 /\
          dhcp_fetch xid mac offer ack = fetch_done [w1; w2] (fetch_host d2))))).
Proof.
  intros Hx Hm Wo.
  assert (M : forall d v, (msg_is d v = true /\ dhcp_msg_type d = Some v) \/ (msg_is d v = false /\ dhcp_msg_type d <> Some v)).
  { intros d v. unfold msg_is. destruct (dhcp_msg_type d) as [x|]; [|right; split; [reflexivity|discriminate]].
    destruct (Z.eqb_spec x v) as [->|N]; [left; auto|right; split; [reflexivity|congruence]]. }
  destruct (dhcp_round_trip _ (discover_ok xid mac Hx Hm)) as (_ & w1 & _ & _ & _ & E1 & P1).
  specialize (P1 []). rewrite app_nil_r in P1. exists w1. split; [exact P1|].
  unfold dhcp_fetch. rewrite E1. destruct offer as [f1|]; [|left; auto]. specialize (Wo f1 eq_refl). cbn beta in Wo.
  right. destruct (dhcp_parse f1) as [d1|e] eqn:Ed1; [|left; exists f1, e; auto]. right.
  destruct (M d1 2) as [[-> T]|[-> T]]; cbn [negb]; [right|left; exists f1, d1; auto].
  destruct (dhcp_parse_rng f1 d1 Wo Ed1) as [Ry Ro].
  assert (Rs : opt_all (fun a => 0 <= a < 2 ^ 32) (dhcp_srv_id d1)).
  { intros a Ha. unfold dhcp_srv_id in Ha. apply first_opt_in in Ha as (o & Io & Fo).
    rewrite Forall_forall in Ro. specialize (Ro o Io). destruct o; try discriminate. cbn [dopt_rng] in Ro. congruence. }
  destruct (dhcp_round_trip _ (request_ok xid mac _ _ Hx Hm Rs Ry)) as (_ & w2 & _ & _ & _ & E2 & P2).
  specialize (P2 []). rewrite app_nil_r in P2. exists f1, d1, w2.
  split; [reflexivity|]. split; [exact Ed1|]. split; [exact T|]. split; [exact P2|]. rewrite E2.
  destruct ack as [f2|]; [|left; auto]. right.
  destruct (dhcp_parse f2) as [d2|e] eqn:Ed2; [|left; exists f2, e; auto]. right.
  destruct (M d2 5) as [[-> T2]|[-> T2]]; cbn [negb]; [right|left]; exists f2, d2; auto.
Qed.

(** ** what an ACK describes *)
(** the first option of a kind *)
Definition first_with (l : list dopt) (is : dopt -> Prop) (o : dopt) : Prop :=
  exists a b, l = a ++ o :: b /\ is o /\ Forall (fun x => ~ is x) a.
Definition is_mask (o : dopt) : Prop := exists n m, o = DMask n m.
Definition is_router (o : dopt) : Prop := exists n l, o = DRouter n l.
Definition is_msg (o : dopt) : Prop := exists n v, o = DMsg n v.
(** the host that an ACK describes: address, contiguous mask, first router *)
Definition ack_host (d : dhcp) (h : host) : Prop :=
  h_addr h = d_yiaddr d /\
  (exists n k, first_with (d_opts d) is_mask (DMask n (prefix_mask 32 k)) /\ 0 <= k <= 32 /\
     n_mask (h_net h) = prefix_mask 32 k /\ n_addr (h_net h) = d_yiaddr d - d_yiaddr d mod 2 ^ (32 - k)) /\
  ((h_gw h = None /\ Forall (fun o => ~ is_router o) (d_opts d)) \/
   exists n g l, first_with (d_opts d) is_router (DRouter n (g :: l)) /\ h_gw h = Some g).


Lemma first_opt_spec {A} (f : dopt -> option A) (is : dopt -> Prop) l x :
  (forall o, is o <-> f o <> None) -> first_opt f l = Some x -> exists o, first_with l is o /\ f o = Some x.
Proof.
  intros K. induction l as [|o l IH]; cbn [first_opt]; [discriminate|]. destruct (f o) as [y|] eqn:E.
  - intros H. injection H as <-. exists o. split; [|exact E]. exists [], l. split; [reflexivity|]. split; [|constructor].
    apply K. congruence.
  - intros H. destruct (IH H) as (o' & (a & b & -> & I & N) & Fo). exists o'. split; [|exact Fo].
    exists (o :: a), b. split; [reflexivity|]. split; [exact I|]. constructor; [|exact N]. intros C. apply K in C. congruence.
Qed.
Lemma first_opt_none {A} (f : dopt -> option A) (is : dopt -> Prop) l :
  (forall o, is o <-> f o <> None) -> (first_opt f l = None <-> Forall (fun o => ~ is o) l).
Proof.
  intros K. induction l as [|o l IH]; cbn [first_opt]; [split; auto|]. destruct (f o) as [y|] eqn:E.
  - split; [discriminate|]. intros H. inversion H as [|? ? C]; subst. destruct C. apply K. congruence.
  - rewrite IH. split; intros H; [constructor; [intros C; apply K in C; congruence|exact H]|inversion H; auto].
Qed.
Lemma first_with_opt {A} (f : dopt -> option A) (is : dopt -> Prop) l o :
  (forall o, is o <-> f o <> None) -> first_with l is o -> first_opt f l = f o.
Proof.
  intros K (a & b & -> & I & N). induction N as [|x a Nx Na IH]; cbn [first_opt app].
  - destruct (f o) eqn:E; [reflexivity|]. apply K in I. congruence.
  - destruct (f x) eqn:E; [|exact IH]. destruct Nx. apply K. congruence.
Qed.
Lemma is_mask_f o : is_mask o <-> match o with DMask _ m => Some m | _ => None end <> None.
Proof. unfold is_mask. split; [intros (n & m & ->); discriminate|]. destruct o; try congruence. eauto. Qed.
Lemma is_router_f o : is_router o <-> match o with DRouter _ m => Some m | _ => None end <> None.
Proof. unfold is_router. split; [intros (n & m & ->); discriminate|]. destruct o; try congruence. eauto. Qed.
Lemma is_msg_f o : is_msg o <-> match o with DMsg _ m => Some m | _ => None end <> None.
Proof. unfold is_msg. split; [intros (n & m & ->); discriminate|]. destruct o; try congruence. eauto. Qed.

Lemma first_msg d v : dhcp_msg_type d = Some v -> exists n, first_with (d_opts d) is_msg (DMsg n v).
Proof.
  intros H. destruct (first_opt_spec _ _ _ _ is_msg_f H) as (o & F & E). destruct o; try discriminate.
  injection E as ->. eauto.
Qed.
Lemma msg_first d n v : first_with (d_opts d) is_msg (DMsg n v) -> dhcp_msg_type d = Some v.
Proof. intros H. exact (first_with_opt _ _ _ _ is_msg_f H). Qed.

Lemma fetch_host_ok d h : 0 <= d_yiaddr d < 2 ^ 32 -> Forall dopt_rng (d_opts d) ->
  fetch_host d = Ok (Some h) -> ack_host d h.
Proof.
  intros Ry Ro. unfold fetch_host. destruct (dhcp_subnet_mask d) as [m|] eqn:Em; [|discriminate].
  destruct (first_opt_spec _ _ _ _ is_mask_f Em) as (o & F & E). destruct o; try discriminate.
  injection E as ->.
  assert (Hk : exists k, 0 <= k <= 32 /\ m = prefix_mask 32 k).
  { destruct F as (a & b & El & _ & _). rewrite El in Ro. apply Forall_app in Ro as [_ Ro]. inversion Ro; auto. }
  destruct Hk as (k & Hk & ->). unfold mk_host.
  pose proof (mk_net_spec 32 k (d_yiaddr d) Hk Ry) as En. change (Z.of_nat 32) with 32 in En. rewrite En. cbn [rbind].
  destruct (dhcp_router d) as [l|] eqn:El.
  - destruct (first_opt_spec _ _ _ _ is_router_f El) as (o & Fr & E). destruct o; try discriminate. injection E as ->.
    destruct l as [|g l]; cbn [index nth_error rbind Z.to_nat]; [discriminate|]. change (index (g :: l) 0) with (Ok g).
    cbn [rbind]. unfold ip4_set_gateway. destruct (_ || _); [discriminate|]. intros E. injection E as <-.
    split; [reflexivity|]. split; [exists len, k; auto|]. right. exists len0, g, l. auto.
  - intros E. injection E as <-. split; [reflexivity|]. split; [exists len, k; auto|]. left.
    split; [reflexivity|]. apply (first_opt_none _ _ _ is_router_f). exact El.
Qed.

Lemma fetch_configures : forall xid mac f1 d1 f2 d2 n k,
  0 <= xid < 2 ^ 32 -> 0 <= mac < 2 ^ 48 -> wf_bytes f1 -> wf_bytes f2 ->
  dhcp_parse f1 = Ok d1 -> (exists n, first_with (d_opts d1) is_msg (DMsg n 2)) ->
  dhcp_parse f2 = Ok d2 -> (exists n, first_with (d_opts d2) is_msg (DMsg n 5)) ->
  first_with (d_opts d2) is_mask (DMask n (prefix_mask 32 k)) -> 0 <= k <= 32 ->
  (Forall (fun o => ~ is_router o) (d_opts d2) \/
   exists n g l, first_with (d_opts d2) is_router (DRouter n (g :: l)) /\ 0 <= g < 2 ^ 32 /\
     g / 2 ^ (32 - k) = d_yiaddr d2 / 2 ^ (32 - k) /\ g mod 2 ^ (32 - k) <> 0 /\
     g mod 2 ^ (32 - k) <> 2 ^ (32 - k) - 1 /\ g <> d_yiaddr d2) ->
  exists h, fr_result (dhcp_fetch xid mac (Some f1) (Some f2)) = Ok (Some h) /\ ack_host d2 h.
Proof.
  intros xid mac f1 d1 f2 d2 n k Hx Hm W1 W2 P1 [n1 M1] P2 [n2 M2] Fk Hk R.
  apply msg_first in M1. apply msg_first in M2.
  destruct (dhcp_parse_rng f2 d2 W2 P2) as [Ry Ro].
  destruct (fetch_first xid mac (Some f1) (Some f2) Hx Hm) as (w1 & _ & C). { apply opt_all_some, W1. }
  destruct C as [[C _]|[(? & e & E & P & _)|[(? & ? & E & P & T & _)|(f1' & d1' & w2 & E & Pd1 & T1 & _ & C)]]].
  - discriminate.
  - injection E as <-. congruence.
  - injection E as <-. congruence.
  - destruct C as [[C _]|[(? & e & E2 & P & _)|[(? & ? & E2 & P & T & _)|(f2' & d2' & E2 & Pd2 & T2 & C)]]].
    + discriminate.
    + injection E2 as <-. congruence.
    + injection E2 as <-. congruence.
    + injection E2 as <-. assert (d2' = d2) as -> by congruence. rewrite C. cbn [fetch_done fr_result].
      assert (Hh : exists h, fetch_host d2 = Ok (Some h)).
      { unfold fetch_host. change (dhcp_subnet_mask d2) with
          (first_opt (fun o => match o with DMask _ m => Some m | _ => None end) (d_opts d2)).
        rewrite (first_with_opt _ _ _ _ is_mask_f Fk). unfold mk_host.
        pose proof (mk_net_spec 32 k (d_yiaddr d2) Hk Ry) as En. change (Z.of_nat 32) with 32 in En. rewrite En. cbn [rbind].
        change (dhcp_router d2) with (first_opt (fun o => match o with DRouter _ m => Some m | _ => None end) (d_opts d2)).
        destruct R as [R|(n' & g & l & Fr & Hg & S1 & S2 & S3 & S4)].
        - rewrite (proj2 (first_opt_none _ _ _ is_router_f) R). eauto.
        - rewrite (first_with_opt _ _ _ _ is_router_f Fr). change (index (g :: l) 0) with (Ok g). cbn [rbind].
          unfold ip4_set_gateway, ip4_broadcast. cbn [h_addr h_net n_addr].
          set (w := {| n_addr := d_yiaddr d2 - d_yiaddr d2 mod 2 ^ (32 - k); n_mask := prefix_mask 32 k |}).
          destruct (net_contains_spec 32 k (d_yiaddr d2) g w) as (Hc & _); auto.
          assert (0 < 2 ^ (32 - k)) as Hp by (apply Z.pow_pos_nonneg; lia).
          rewrite (proj2 Hc).
          2:{ unfold same_prefix. change (Z.of_nat 32) with 32. exact S1. }
          pose proof (net_last_spec 32 k (d_yiaddr d2) Hk Ry) as Nl. change (Z.of_nat 32) with 32 in Nl. fold w in Nl.
          cbn zeta in Nl. rewrite Nl.
          pose proof (Z.div_mod g (2 ^ (32 - k)) ltac:(lia)) as D1.
          pose proof (Z.div_mod (d_yiaddr d2) (2 ^ (32 - k)) ltac:(lia)) as D2. rewrite S1 in D1.
          set (q := 2 ^ (32 - k) * (d_yiaddr d2 / 2 ^ (32 - k))) in *.
          destruct (Z.eqb_spec g (d_yiaddr d2 - d_yiaddr d2 mod 2 ^ (32 - k))); [lia|].
          match goal with |- context [g =? ?x] => destruct (Z.eqb_spec g x); [lia|] end.
          destruct (Z.eqb_spec g (d_yiaddr d2)); [lia|]. cbn. eauto. }
      destruct Hh as [h Eh]. exists h. split; [exact Eh|]. apply fetch_host_ok; auto.
Qed.

Lemma dhcp_parse_dichotomy : forall f, wf_bytes f ->
  (dhcp_parse f <> Exn OutOfFuel /\ forall k, (length f < k)%nat -> dhcp_parse_fuel k f = dhcp_parse f) \/
  (In 0 (slice_from 240 f) /\ forall k, dhcp_parse_fuel k f = Exn OutOfFuel).
Proof.
  intros f W. unfold dhcp_parse, dhcp_parse_fuel. destruct (zlen f =? 0); [left; split; [discriminate|reflexivity]|].
  cbn zeta. set (h := slice 0 240 f).
  assert (NI : forall i, index h i <> Exn OutOfFuel) by (intros i; unfold index; destruct (nth_error _ _); discriminate).
  assert (NU : forall n b, unpack n b <> Exn OutOfFuel) by (intros n b; unfold unpack; destruct (Nat.eqb _ _); discriminate).
  assert (NA : forall b, ip4_of_bytes b <> Exn OutOfFuel) by (intros b; unfold ip4_of_bytes; destruct (_ =? _); discriminate).
  repeat match goal with
  | |- context [x <- index ?l ?i ;; _] =>
      pose proof (NI i); destruct (index l i); cbn [rbind]; [|left; split; [congruence|reflexivity]]
  | |- context [x <- unpack ?n ?b ;; _] =>
      pose proof (NU n b); destruct (unpack n b); cbn [rbind]; [|left; split; [congruence|reflexivity]]
  | |- context [x <- ip4_of_bytes ?b ;; _] =>
      pose proof (NA b); destruct (ip4_of_bytes b); cbn [rbind]; [|left; split; [congruence|reflexivity]]
  end.
  destruct (dhcp_loop_dichotomy (S (length f)) (slice_from 240 f) 0 [] (wf_slice_from _ _ W) (Forall_nil _) ltac:(lia))
    as [[A B]|[A B]].
  { unfold slice_from, zlen. rewrite skipn_length. lia. }
  - left. split.
    + destruct (dhcp_loop _ _ _ _); cbn [rbind]; congruence.
    + intros k Hk. rewrite (B k) by lia. reflexivity.
  - right. split; [exact A|]. intros k. rewrite B. reflexivity.
Qed.
