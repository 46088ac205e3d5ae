From Verif Require Import Base BaseLemmas CodecModel CodecLemmas EtherModel Ip4Model Ip6Model UdpModel TcpModel
  Icmp4Model Icmp6Model BufProofs RingModel.

(** The packets the stack builds and puts into an Ethernet frame. *)
Inductive tx_packet : carried -> Prop :=
| TP_raw d : tx_packet (raw_carried d)
| TP_arp p : tx_packet (arp_carried p)
| TP_udp s d x : tx_packet (udp_carried s d x)
| TP_tcp t : tx_packet (tcp_carried t)
| TP_icmp4 t : tx_packet (icmp4_carried t)
| TP_icmp6 t : tx_packet (icmp6_carried t)
| TP_frag6 n o m i d : tx_packet (frag6_carried n o m i d)
| TP_frag4 t d : tx_packet (ip4_frag_carried t d)
| TP_ip4 t c : tx_packet c -> tx_packet (ip4_carried t c)
| TP_ip6 t c : tx_packet c -> tx_packet (ip6_carried t c).

Lemma tx_packet_indep c : tx_packet c -> indep c.
Proof.
  induction 1; auto using raw_indep, arp_indep, udp_indep, tcp_indep, icmp4_indep, icmp6_indep, frag6_indep,
    ip4_frag_indep, ip4_indep, ip6_indep.
Qed.

(** The frame a packet stands for: what assembling it into a new buffer gives. *)
Definition fresh (p : frame_tx) : res bytes := frame_asm p (repeat 0 (Z.to_nat (frame_len p))).

(** What the wire sees of a list of frames: the ones that fit, each as if assembled
    alone, up to the first that cannot be assembled.  [w] tells which writes fail. *)
Fixpoint on_wire (l : list (frame_tx * bool)) : list bytes * option exn :=
  match l with
  | [] => ([], None)
  | (p, wr) :: r =>
      if frame_len p >? 1514 then on_wire r
      else match fresh p with
           | Exn e => ([], Some e)
           | Ok f => let (o, e) := on_wire r in (if wr then f :: o else o, e)
           end
  end.

Definition enqs (l : list tx_op) : list frame_tx :=
  flat_map (fun o => match o with TxEnq p => [p] | _ => [] end) l.

Lemma frame_any p b : tx_packet (e_car p) -> zlen b = frame_len p ->
  frame_asm p b = fresh p /\ forall f, frame_asm p b = Ok f -> zlen f = frame_len p.
Proof.
  intros T L. unfold frame_asm, fresh. apply tx_packet_indep in T. assert (H := T). destruct H as (H & _).
  unfold frame_len, ether_len in *.
  apply ether_indep; auto; unfold ether_len. unfold zlen. rewrite repeat_length. lia.
Qed.

Lemma on_wire_app l1 l2 : on_wire (l1 ++ l2) =
  match on_wire l1 with
  | (o, Some e) => (o, Some e)
  | (o, None) => let (o', e) := on_wire l2 in (o ++ o', e)
  end.
Proof.
  induction l1 as [|[p wr] l1 IH]; cbn [app on_wire]; [destruct (on_wire l2); reflexivity|].
  destruct (frame_len p >? 1514); [exact IH|]. destruct (fresh p) as [f|e]; [|reflexivity].
  rewrite IH. destruct (on_wire l1) as [o [e|]]; [destruct wr; reflexivity|].
  destruct (on_wire l2) as [o' e]. destruct wr; reflexivity.
Qed.

(** one invariant for both properties *)
Lemma tx_inv buf l : zlen buf = 1514 ->
  Forall (fun p => tx_packet (e_car p)) (enqs l) ->
  let s := tx_run (tx_ring_new buf) l in zlen (tr_buf s) = 1514 /\
  exists d, enqs l = map fst d ++ tr_q s /\ (tr_out s, tr_dead s) = on_wire d /\
    (forall d1 x d2, d = d1 ++ x :: d2 -> snd (on_wire (d1 ++ [x])) = None \/ d2 = []).
Proof.
  intros L0. induction l as [|o l IH] using rev_ind; intros F.
  - cbn [tx_run fold_left tx_ring_new tr_q tr_buf tr_out tr_dead enqs flat_map] in *.
    split; [assumption|]. exists []. split; [reflexivity|]. split; [reflexivity|].
    intros [|? d1] x d2 H; discriminate.
  - unfold tx_run. rewrite fold_left_app. fold (tx_run (tx_ring_new buf) l). cbn [fold_left].
    unfold enqs in *. rewrite flat_map_app in *. apply Forall_app in F as [F1 F2].
    specialize (IH F1). cbn zeta in IH. destruct IH as (Lb & d & Eq & Ew & Hd).
    set (s := tx_run (tx_ring_new buf) l) in *. destruct o as [p|wr]; cbn [tx_step].
    + unfold tx_enqueue. cbn [tr_q tr_buf tr_out tr_dead]. split; [assumption|].
      exists d. split; [|auto]. rewrite Eq, <- app_assoc. reflexivity.
    + cbn [flat_map] in *. rewrite !app_nil_r in *. unfold tx_turn.
      destruct (tr_dead s) as [e|] eqn:Ed; [split; [assumption|]; exists d; rewrite Ed; auto|].
      destruct (tr_q s) as [|p q] eqn:Eqq; [split; [assumption|]; exists d; rewrite Ed, Eqq; auto|].
      assert (Tp : tx_packet (e_car p)).
      { rewrite Eq in F1. apply Forall_app in F1 as [_ F1]. inversion F1; assumption. }
      assert (Hw : on_wire (d ++ [(p, wr)]) = let (o', e) := on_wire [(p, wr)] in (tr_out s ++ o', e)).
      { rewrite on_wire_app. rewrite <- Ew. reflexivity. }
      assert (Hd' : forall d1 x d2, d ++ [(p, wr)] = d1 ++ x :: d2 -> snd (on_wire (d1 ++ [x])) = None \/ d2 = []).
      { intros d1 x d2 H. destruct d2 as [|y d2] using rev_ind; [auto|left]. clear IHd2.
        rewrite app_comm_cons, app_assoc in H. apply app_inj_tail in H as [H _]. rewrite H in Ew.
        assert (A : on_wire (d1 ++ x :: d2) = on_wire ((d1 ++ [x]) ++ d2)) by (rewrite <- app_assoc; reflexivity).
        rewrite A, on_wire_app in Ew.
        destruct (on_wire (d1 ++ [x])) as [o [e|]]; [discriminate|reflexivity]. }
      assert (Ef : enqs l = map fst (d ++ [(p, wr)]) ++ q).
      { unfold enqs. rewrite Eq, map_app, <- app_assoc. reflexivity. }
      change FRAME_BUF with 1514. cbn [on_wire] in Hw.
      destruct (frame_len p >? 1514) eqn:G.
      { cbn [tr_q tr_buf tr_out tr_dead]. split; [assumption|]. exists (d ++ [(p, wr)]).
        split; [exact Ef|]. split; [|exact Hd']. rewrite Hw, app_nil_r. reflexivity. }
      assert (0 <= frame_len p).
      { unfold frame_len, ether_len. apply tx_packet_indep in Tp. destruct Tp as (? & _). lia. }
      destruct (frame_any p (slice 0 (frame_len p) (tr_buf s)) Tp) as [A B]; [rewrite zlen_slice; lia|].
      rewrite <- A in Hw.
      destruct (frame_asm p (slice 0 (frame_len p) (tr_buf s))) as [f|e];
        cbn [tr_q tr_buf tr_out tr_dead].
      * specialize (B f eq_refl). split; [rewrite zlen_app, B, zlen_slice_from; lia|]. exists (d ++ [(p, wr)]).
        split; [exact Ef|]. split; [|exact Hd']. rewrite Hw. destruct wr; [|rewrite app_nil_r]; reflexivity.
      * split; [assumption|]. exists (d ++ [(p, wr)]). split; [exact Ef|]. split; [|exact Hd'].
        rewrite Hw, app_nil_r. reflexivity.
Qed.

Definition same_ring (s1 s2 : tx_ring) : Prop :=
  tr_q s1 = tr_q s2 /\ tr_out s1 = tr_out s2 /\ tr_dead s1 = tr_dead s2.

Lemma tx_sim l : forall s1 s2, zlen (tr_buf s1) = 1514 -> zlen (tr_buf s2) = 1514 -> same_ring s1 s2 ->
  Forall (fun p => tx_packet (e_car p)) (tr_q s1) -> Forall (fun p => tx_packet (e_car p)) (enqs l) ->
  same_ring (tx_run s1 l) (tx_run s2 l).
Proof.
  induction l as [|o l IH]; intros s1 s2 L1 L2 S Fq F; [exact S|]. cbn [tx_run fold_left].
  unfold enqs in F. cbn [flat_map] in F. apply Forall_app in F as [Fo F].
  destruct S as (Sq & So & Sd).
  assert (N : zlen (tr_buf (tx_step s1 o)) = 1514 /\ zlen (tr_buf (tx_step s2 o)) = 1514 /\
     same_ring (tx_step s1 o) (tx_step s2 o) /\ Forall (fun p => tx_packet (e_car p)) (tr_q (tx_step s1 o))).
  { destruct o as [p|wr]; cbn [tx_step].
    - unfold tx_enqueue, same_ring. cbn [tr_q tr_buf tr_out tr_dead]. rewrite Sq in *.
      repeat split; auto. apply Forall_app; auto.
    - unfold tx_turn. rewrite <- Sd, <- Sq. destruct (tr_dead s1) as [e|] eqn:Ed.
      { unfold same_ring. rewrite <- Sq, Ed, <- Sd. repeat split; auto. }
      destruct (tr_q s1) as [|p q] eqn:Eq.
      { unfold same_ring. rewrite Ed, <- Sq, Eq, <- Sd. repeat split; auto. }
      inversion Fq as [|? ? Tp Fq']; subst. change FRAME_BUF with 1514.
      destruct (frame_len p >? 1514) eqn:G.
      { unfold same_ring. cbn [tr_q tr_buf tr_out tr_dead]. repeat split; auto. }
      assert (0 <= frame_len p).
      { unfold frame_len, ether_len. apply tx_packet_indep in Tp. destruct Tp as (? & _). lia. }
      destruct (frame_any p (slice 0 (frame_len p) (tr_buf s1)) Tp) as [A1 B1]; [rewrite zlen_slice; lia|].
      destruct (frame_any p (slice 0 (frame_len p) (tr_buf s2)) Tp) as [A2 B2]; [rewrite zlen_slice; lia|].
      rewrite A1 in *. rewrite A2 in *. destruct (fresh p) as [f|e]; unfold same_ring;
        cbn [tr_q tr_buf tr_out tr_dead].
      + specialize (B1 f eq_refl). rewrite !zlen_app, B1, !zlen_slice_from by lia. rewrite So. repeat split; auto; lia.
      + repeat split; auto. }
  destruct N as (N1 & N2 & N3 & N4). apply IH; assumption.
Qed.

Definition frames_in (l : list rx_op) : list bytes :=
  flat_map (fun o => match o with RxFrame f => [f] | _ => [] end) l.
Lemma frames_in_app a b : frames_in (a ++ b) = frames_in a ++ frames_in b.
Proof. apply flat_map_app. Qed.
Lemma rx_inv l : map (slice 0 2048) (frames_in l) = rr_out (rx_run rx_ring_new l) ++ rr_q (rx_run rx_ring_new l).
Proof.
  induction l as [|o l IH] using rev_ind; [reflexivity|].
  rewrite frames_in_app. etransitivity; [apply map_app|].
  transitivity ((rr_out (rx_run rx_ring_new l) ++ rr_q (rx_run rx_ring_new l)) ++ map (slice 0 2048) (frames_in [o]));
    [f_equal; exact IH|]. unfold rx_run. rewrite fold_left_app. cbn [fold_left].
  set (s := fold_left rx_step l rx_ring_new) in *. destruct o as [f|]; cbn [rx_step frames_in flat_map app map].
  - cbn [rr_q rr_out]. rewrite app_assoc. reflexivity.
  - rewrite app_nil_r. destruct (rr_q s) as [|f q] eqn:Eq; [rewrite Eq; reflexivity|].
    cbn [rr_q rr_out]. rewrite <- app_assoc. reflexivity.
Qed.
