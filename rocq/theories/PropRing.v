(** C34 (transmit buffer reuse) and C79 (the rings). *)
From Verif Require Import Base BaseLemmas CodecModel EtherModel Ip4Model Ip6Model UdpModel TcpModel
  Icmp4Model Icmp6Model BufProofs RingModel RingProofs.

(** ** C34: a frame does not depend on the frames sent before it *)

(** Whatever the ring has sent before ([s]: any buffer contents, any history), the
    next frame is put on the wire exactly as if it were assembled into a new zeroed
    buffer of its own, and if it cannot be assembled it raises the same exception. *)
Theorem C34_frame : forall s p q wr, zlen (tr_buf s) = 1514 -> tx_packet (e_car p) ->
  tr_dead s = None -> tr_q s = p :: q -> frame_len p <= 1514 ->
  match fresh p with
  | Ok f => tr_out (tx_turn true s) = tr_out s ++ [f] /\ zlen f = frame_len p /\ tr_dead (tx_turn wr s) = None
  | Exn e => tr_out (tx_turn wr s) = tr_out s /\ tr_dead (tx_turn wr s) = Some e
  end.
Proof.
  intros s p q wr L T D Q G. assert (0 <= frame_len p).
  { unfold frame_len, ether_len. apply tx_packet_indep in T. destruct T as (? & _). lia. }
  destruct (frame_any p (slice 0 (frame_len p) (tr_buf s)) T) as [A B]; [rewrite zlen_slice; lia|].
  unfold tx_turn. rewrite D, Q. change FRAME_BUF with 1514. replace (frame_len p >? 1514) with false by lia.
  rewrite A in *. destruct (fresh p) as [f|e]; cbn [tr_out tr_dead]; auto.
Qed.
Print Assumptions C34_frame.

(** Two rings that differ only in the old contents of the buffer emit the same frames. *)
Theorem C34_history : forall b1 b2 l, zlen b1 = 1514 -> zlen b2 = 1514 ->
  Forall (fun p => tx_packet (e_car p)) (enqs l) ->
  tr_out (tx_run (tx_ring_new b1) l) = tr_out (tx_run (tx_ring_new b2) l) /\
  tr_dead (tx_run (tx_ring_new b1) l) = tr_dead (tx_run (tx_ring_new b2) l).
Proof.
  intros b1 b2 l L1 L2 F. destruct (tx_sim l (tx_ring_new b1) (tx_ring_new b2)) as (_ & A & B); auto.
  - repeat split.
  - constructor.
Qed.
Print Assumptions C34_history.

(** A TCP segment with a data byte after a longer ICMP packet, into a dirty buffer. *)
Definition C34_tcp : frame_tx := {| e_dst := 0x020000000002; e_src := 0x020000000001; e_type := ETHER_TYPE_IP4;
  e_car := ip4_carried {| t4_src := 0x0A000001; t4_dst := 0x0A000002; t4_ttl := 64; t4_dscp := 0; t4_ecn := 0; t4_id := 7;
       t4_df := false; t4_mf := false; t4_offset := 0; t4_opts := []; t4_proto := 6 |}
    (tcp_carried {| x_sport := 80; x_dport := 40000; x_seq := 1; x_ack := 2; x_fns := false; x_fcrw := false;
       x_fece := false; x_furg := false; x_fack := true; x_fpsh := true; x_frst := false; x_fsyn := false; x_ffin := false;
       x_win := 65535; x_urp := 0; x_opts := []; x_data := [65] |}) |}.
Definition C34_icmp : frame_tx := {| e_dst := 0x020000000002; e_src := 0x020000000001; e_type := ETHER_TYPE_IP4;
  e_car := ip4_carried {| t4_src := 0x0A000001; t4_dst := 0x0A000002; t4_ttl := 64; t4_dscp := 0; t4_ecn := 0; t4_id := 7;
       t4_df := false; t4_mf := false; t4_offset := 0; t4_opts := []; t4_proto := 1 |}
    (icmp4_carried (T4EchoReply 1 1 (repeat 255 200))) |}.
Example C34_example :
  tx_packet (e_car C34_tcp) /\ tx_packet (e_car C34_icmp) /\
  exists f, fresh C34_tcp = Ok f /\ zlen f = 55 /\
    tr_out (tx_run (tx_ring_new (repeat 170 1514)) [TxEnq C34_icmp; TxEnq C34_tcp; TxTurn true; TxTurn true])
    = [match fresh C34_icmp with Ok g => g | _ => [] end; f].
Proof.
  split; [repeat constructor|]. split; [repeat constructor|].
  eexists. split; [vm_compute; reflexivity|]. split; vm_compute; reflexivity.
Qed.

(** ** C79: the rings are first-in first-out and lose nothing else *)

(** For every interleaving of senders and the transmit thread: the frames taken from
    the ring ([d], with the result of os.write for each) followed by the frames
    still waiting are the frames enqueued, in order; and the wire has seen exactly
    the taken ones that fit, in order, up to the first that could not be assembled. *)
Theorem C79_tx_fifo : forall buf l, zlen buf = 1514 -> Forall (fun p => tx_packet (e_car p)) (enqs l) ->
  let s := tx_run (tx_ring_new buf) l in
  exists d, enqs l = map fst d ++ tr_q s /\ (tr_out s, tr_dead s) = on_wire d /\
    (forall d1 x d2, d = d1 ++ x :: d2 -> snd (on_wire (d1 ++ [x])) = None \/ d2 = []).
Proof. intros buf l L F. destruct (tx_inv buf l L F) as (_ & H). exact H. Qed.
Print Assumptions C79_tx_fifo.

(** When every frame can be assembled and written, that is: the frames not longer
    than 1514 bytes, in order, and the thread survives. *)
Theorem C79_tx_only_long_dropped : forall buf l, zlen buf = 1514 ->
  Forall (fun p => tx_packet (e_car p) /\ exists f, fresh p = Ok f) (enqs l) ->
  Forall (fun o => o <> TxTurn false) l ->
  let s := tx_run (tx_ring_new buf) l in
  tr_dead s = None /\
  exists d, enqs l = d ++ tr_q s /\ map fresh (filter (fun p => frame_len p <=? 1514) d) = map Ok (tr_out s).
Proof.
  intros buf l L F W. cbn zeta.
  assert (F1 : Forall (fun p => tx_packet (e_car p)) (enqs l)) by (eapply Forall_impl; [|exact F]; cbn; tauto).
  assert (G : let s := tx_run (tx_ring_new buf) l in
    exists d, enqs l = map fst d ++ tr_q s /\ (tr_out s, tr_dead s) = on_wire d /\ Forall (fun x => snd x = true) d).
  { clear F. cbn zeta. induction l as [|o l IH] using rev_ind.
    - exists []. repeat split. constructor.
    - unfold enqs in F1. rewrite flat_map_app in F1. apply Forall_app in F1 as [F1 F2].
      apply Forall_app in W as [W1 W2]. destruct (IH W1 F1) as (d & E1 & E2 & E3).
      destruct (tx_inv buf l L F1) as (Lb & _). cbn zeta in Lb.
      unfold tx_run in *. rewrite fold_left_app. cbn [fold_left]. unfold enqs in *. rewrite flat_map_app.
      set (s := fold_left tx_step l (tx_ring_new buf)) in *. inversion W2 as [|? ? Wo _]; subst.
      destruct o as [p|wr]; cbn [tx_step flat_map]; [|destruct wr; [|congruence]].
      + exists d. cbn [tx_enqueue tr_q tr_out tr_dead]. rewrite E1, <- app_assoc. auto.
      + rewrite !app_nil_r. unfold tx_turn. destruct (tr_dead s) eqn:D; [exists d; rewrite D; auto|].
        destruct (tr_q s) as [|p q] eqn:Q; [exists d; rewrite D, Q; auto|]. exists (d ++ [(p, true)]).
        assert (T : tx_packet (e_car p)) by (rewrite E1 in F1; apply Forall_app in F1 as [_ F1]; inversion F1; assumption).
        assert (0 <= frame_len p) by (unfold frame_len, ether_len; apply tx_packet_indep in T; destruct T as (? & _); lia).
        rewrite map_app, <- app_assoc, on_wire_app, <- E2. cbn [map fst app on_wire]. change FRAME_BUF with 1514.
        assert (Forall (fun x : frame_tx * bool => snd x = true) (d ++ [(p, true)])) by (apply Forall_app; auto).
        destruct (frame_len p >? 1514) eqn:G; cbn [tr_q tr_out tr_dead]; [rewrite app_nil_r; auto|].
        destruct (frame_any p (slice 0 (frame_len p) (tr_buf s)) T) as [A B]; [rewrite zlen_slice; lia|].
        rewrite A. destruct (fresh p); cbn [tr_q tr_out tr_dead]; [auto|rewrite app_nil_r; auto]. }
  cbn zeta in G. destruct G as (d & E1 & E2 & E3). set (s := tx_run (tx_ring_new buf) l) in *.
  assert (F2 : Forall (fun p => exists f, fresh p = Ok f) (map fst d)).
  { rewrite E1 in F. apply Forall_app in F as [F _]. eapply Forall_impl; [|exact F]. cbn; tauto. }
  assert (H : forall o e, on_wire d = (o, e) -> e = None /\
     map fresh (filter (fun p => frame_len p <=? 1514) (map fst d)) = map Ok o).
  { clear -E3 F2. induction d as [|[p wr] d IH]; cbn [on_wire map filter fst]; intros o e E.
    - injection E as <- <-. auto.
    - inversion E3 as [|? ? Hw E3']; subst. cbn [snd] in Hw. subst wr.
      inversion F2 as [|? ? [f Hf] F2']; subst. cbn [fst] in Hf.
      destruct (frame_len p >? 1514) eqn:G.
      + replace (frame_len p <=? 1514) with false by lia. apply IH; auto.
      + replace (frame_len p <=? 1514) with true by lia. rewrite Hf in E.
        destruct (on_wire d) as [o' e'] eqn:Ed. injection E as <- <-.
        destruct (IH E3' F2' o' e' eq_refl) as [-> M]. split; [reflexivity|].
        cbn [map]. rewrite Hf, M. reflexivity. }
  destruct (H _ _ (eq_sym E2)) as [H1 H2]. split; [exact H1|]. exists (map fst d). auto.
Qed.
Print Assumptions C79_tx_only_long_dropped.

(** Every turn takes one frame while the thread is alive, so nothing waits for ever. *)
Theorem C79_tx_progress : forall s wr, tr_dead s = None -> tr_q (tx_turn wr s) = tl (tr_q s).
Proof.
  intros s wr D. unfold tx_turn. rewrite D. destruct (tr_q s) as [|p q] eqn:Q; [rewrite Q; reflexivity|].
  destruct (_ >? _); [reflexivity|]. destruct (frame_asm _ _); reflexivity.
Qed.
Print Assumptions C79_tx_progress.

(** The receive ring hands out the frames read from the interface, each once and in
    order, for every interleaving of the two threads. *)
Theorem C79_rx_fifo : forall l,
  map (slice 0 2048) (frames_in l) = rr_out (rx_run rx_ring_new l) ++ rr_q (rx_run rx_ring_new l).
Proof. exact rx_inv. Qed.
Print Assumptions C79_rx_fifo.

(** and a frame that fits the interface's MTU is handed out unchanged *)
Theorem C79_rx_whole : forall l, Forall (fun f => zlen f <= 2048) (frames_in l) ->
  frames_in l = rr_out (rx_run rx_ring_new l) ++ rr_q (rx_run rx_ring_new l).
Proof.
  intros l F. rewrite <- C79_rx_fifo. induction F as [|f r Hf F IH]; [reflexivity|]. cbn [map].
  rewrite <- IH. f_equal. unfold slice. cbn [Z.to_nat skipn]. rewrite firstn_all2; [reflexivity|].
  unfold zlen in Hf. lia.
Qed.
Print Assumptions C79_rx_whole.

Example C79_example :
  let long := {| e_dst := 1; e_src := 2; e_type := ETHER_TYPE_RAW; e_car := raw_carried (repeat 7 1501) |} in
  let short := {| e_dst := 1; e_src := 2; e_type := ETHER_TYPE_RAW; e_car := raw_carried [1; 2; 3] |} in
  let ops := [TxEnq long; TxEnq short; TxTurn true; TxEnq C34_tcp; TxTurn true; TxTurn true] in
  Forall (fun p => tx_packet (e_car p) /\ exists f, fresh p = Ok f) (enqs ops) /\
  length (tr_out (tx_run (tx_ring_new (repeat 9 1514)) ops)) = 2%nat.
Proof.
  cbn zeta. split; [|vm_compute; reflexivity].
  repeat (constructor; [split; [repeat constructor|eexists; vm_compute; reflexivity]|]). constructor.
Qed.
