(** Every run of the session's state machine is a sequence of a few kinds of steps. *)
From Verif Require Import Base BaseLemmas AddrModel TcpModel StackModel StackRxModel SessModel.

(** * Dicts and timers *)
Lemma fsm_eqb_eq a b : fsm_eqb a b = true <-> a = b.
Proof. split; [destruct a, b; cbn; congruence|intros ->; destruct b; reflexivity]. Qed.
Lemma in_state_iff l s : in_state l s = true <-> In (st s) l.
Proof.
  unfold in_state. rewrite existsb_exists. split.
  - intros (x & H & E). apply fsm_eqb_eq in E. congruence.
  - intros H. exists (st s). split; auto. apply fsm_eqb_eq. reflexivity.
Qed.
Lemma dget_set {A} k (v : A) j d : dget j (dset k v d) = if k =? j then Some v else dget j d.
Proof.
  induction d as [|[i w] d IH]; cbn; [reflexivity|].
  destruct (i =? k) eqn:E; cbn; apply Z.eqb_eq in E || apply Z.eqb_neq in E.
  - subst. destruct (k =? j); reflexivity.
  - rewrite IH. destruct (i =? j) eqn:E1; [|reflexivity]. apply Z.eqb_eq in E1. subst. destruct (k =? j) eqn:E2; [apply Z.eqb_eq in E2; congruence|reflexivity].
Qed.
Lemma dget_in {A} k (v : A) d : dget k d = Some v -> In (k, v) d.
Proof.
  induction d as [|[i w] d IH]; cbn; [discriminate|]. destruct (i =? k) eqn:E; [|auto].
  intros H. injection H as ->. apply Z.eqb_eq in E. subst. auto.
Qed.
Lemma in_dset {A} k (v : A) d x : In x (dset k v d) -> x = (k, v) \/ In x d.
Proof.
  induction d as [|[i w] d IH]; cbn; [intros [<-|[]]; auto|].
  destruct (i =? k) eqn:E; cbn.
  - apply Z.eqb_eq in E. subst. intros [<-|H]; auto.
  - intros [<-|H]; auto. apply IH in H. tauto.
Qed.
Lemma in_ddel {A} k (d : dict A) x : In x (ddel k d) -> In x d.
Proof. unfold ddel. intros H. apply filter_In in H. tauto. Qed.
Lemma in_dpurge {A} k (d : dict A) x : In x (dpurge k d) -> In x d /\ k <= fst x.
Proof. unfold dpurge. intros H. apply filter_In in H. destruct H as [H E]. split; [auto|]. apply negb_true_iff, Z.ltb_ge in E. auto. Qed.
Lemma ddel_shorter {A} k (v : A) d : In (k, v) d -> (length (ddel k d) < length d)%nat.
Proof.
  unfold ddel. induction d as [|[i w] d IH]; cbn; [intros []|]. intros [E|H].
  - injection E as -> ->. rewrite Z.eqb_refl. cbn. apply Nat.lt_succ_r.
    clear. induction d as [|x d IH]; cbn; [constructor|]. destruct (negb _); cbn; lia.
  - destruct (negb _); cbn; apply IH in H; lia.
Qed.

(** * Pure forms of the big statements *)
Definition pkt (seq : Z) (syn ack fin rst : bool) (data : bytes) (s : sess) : sess :=
  let nxt := seq + zlen data + b2z syn + b2z fin in
  let numbered := negb (zlen data =? 0) || syn || fin in
  let t := if in_state [ESTABLISHED] s then tset TDelayedAck DELAYED_ACK_DELAY (tmr s) else tmr s in
  let c := dgetd seq (-1) (tx_to s) + 1 in
  {| s_lip := s_lip s; s_lport := s_lport s; s_rip := s_rip s; s_rport := s_rport s; st := st s; snd_ini := snd_ini s; snd_nxt := nxt; snd_max := Z.max (snd_max s) nxt; snd_una := snd_una s; snd_fin := if fin then nxt else snd_fin s; snd_mss := snd_mss s; snd_wnd := snd_wnd s; snd_ewn := snd_ewn s; snd_wsc := snd_wsc s; tx_mod := tx_mod s + (b2z syn + b2z fin); rcv_ini := rcv_ini s; rcv_nxt := rcv_nxt s; rcv_una := rcv_nxt s; tx_buf := tx_buf s; rx_buf := rx_buf s; tx_req := tx_req s; tx_to := if numbered then dset seq c (tx_to s) else tx_to s; rx_req := rx_req s; ooo := ooo s; closing := closing s; conn_err := conn_err s; ev_conn := ev_conn s; ev_rx := ev_rx s; tmr := if numbered then tset (TRetransmit seq) (RETRANSMIT_TIMEOUT * Z.shiftl 1 c) t else t; reg := reg s; sent := sent s ++ [segment s seq syn ack fin rst data]; hist := hist s; effs := effs s |}.
Definition seq_of (o : option Z) (s : sess) : Z := match o with Some q => q | None => snd_nxt s end.
Lemma dgetd_set k v d def : dgetd k def (dset k v d) = v.
Proof. unfold dgetd. rewrite dget_set, Z.eqb_refl. reflexivity. Qed.
Lemma transmit_eq o syn ack fin rst data s :
  transmit_packet o syn ack fin rst data s =
  if tcp_tx_ok (segment s (seq_of o s) syn ack fin rst data) then (pkt (seq_of o s) syn ack fin rst data s, Ok tt)
  else (s, Exn AssertionError).
Proof.
  unfold transmit_packet. fold (seq_of o s). set (q := seq_of o s). destruct (tcp_tx_ok _); [|reflexivity].
  unfold pkt, pbind, pdo, pwhen, pif, pret, register_timer.
  destruct fin; cbn -[tset dset dgetd Z.mul in_state];
  change (in_state [ESTABLISHED] ?x) with (fsm_eqb (st x) ESTABLISHED || false); cbn -[tset dset dgetd Z.mul];
  destruct (fsm_eqb (st s) ESTABLISHED); cbn -[tset dset dgetd Z.mul];
  destruct (negb (zlen data =? 0)), syn; cbn -[tset dset dgetd Z.mul]; rewrite ?dgetd_set; reflexivity.
Qed.
Definition acked (p : tmd) (s : sess) : sess :=
  let una := Z.max (snd_una s) (d_ackn p) in
  let off := Z.max (una - tx_mod s) 0 in
  let nxt := d_seq p + zlen (d_data p) + b2z (d_syn p) + b2z (d_fin p) in
  {| s_lip := s_lip s; s_lport := s_lport s; s_rip := s_rip s; s_rport := s_rport s; st := st s; snd_ini := snd_ini s; snd_nxt := if (snd_nxt s <? una) && (una <=? snd_max s) then una else snd_nxt s; snd_max := snd_max s; snd_una := una; snd_fin := snd_fin s; snd_mss := snd_mss s; snd_wnd := d_win p * snd_wsc s; snd_ewn := Z.min (Z.shiftl (snd_ewn s) 1) (d_win p * snd_wsc s); snd_wsc := snd_wsc s; tx_mod := tx_mod s + off; rcv_ini := rcv_ini s; rcv_nxt := nxt; rcv_una := rcv_una s; tx_buf := slice_from off (tx_buf s); rx_buf := rx_buf s ++ d_data p; tx_req := dpurge (d_ackn p) (tx_req s); tx_to := dpurge (d_ackn p) (tx_to s); rx_req := dpurge nxt (rx_req s); ooo := ooo s; closing := closing s; conn_err := conn_err s; ev_conn := ev_conn s; ev_rx := if no_data p then ev_rx s else if ev_rx s =? 0 then ev_rx s + 1 else ev_rx s; tmr := tmr s; reg := reg s; sent := sent s; hist := hist s; effs := effs s |}.
Lemma pbind_do {A} f (k : unit -> P A) s : (pbind (pdo f) k) s = k tt (f s).
Proof. reflexivity. Qed.
Lemma pbind_when {A} c f (k : unit -> P A) s : (pbind (pwhen c (pdo f)) k) s = k tt (if c s then f s else s).
Proof. unfold pbind, pwhen, pif, pdo, pret. destruct (c s); reflexivity. Qed.
Lemma pbind_enq {A} (b : bool) d (k : unit -> P A) s :
  (pbind (if b then pret tt else enqueue_rx d) k) s =
  k tt (if b then s else set_ev_rx (if ev_rx s =? 0 then ev_rx s + 1 else ev_rx s) (set_rx_buf (rx_buf s ++ d) s)).
Proof.
  destruct b; [reflexivity|]. unfold enqueue_rx, release_rx, pbind, pwhen, pif, pdo, pret. cbn [ev_rx set_rx_buf].
  destruct (ev_rx s =? 0); [reflexivity|]. destruct s; reflexivity.
Qed.
Lemma process_eq again p s :
  process_ack again p s =
  let s1 := acked p s in
  match dget (rcv_nxt s1) (ooo s1) with
  | None => (s1, Ok tt)
  | Some q => again q (set_ooo (ddel (rcv_nxt s1) (ooo s1)) s1)
  end.
Proof.
  destruct s. unfold process_ack, tx_buf_una, acked, no_data.
  Ltac go := cbn -[Z.add Z.sub Z.mul Z.max Z.min Z.shiftl Z.ltb Z.leb Z.eqb slice_from dpurge dget ddel zlen b2z app pbind pdo pwhen enqueue_rx andb].
  rewrite pbind_do. go. rewrite pbind_when. go.
  match goal with |- context [if ?c then set_snd_nxt _ _ else _] => destruct c end; go;
  rewrite pbind_do; go; rewrite pbind_enq; go;
  (destruct (zlen (d_data p) =? 0) eqn:E2; go;
   [apply Z.eqb_eq in E2; destruct (d_data p); try discriminate E2; rewrite !app_nil_r|]; do 7 (rewrite pbind_do; go); reflexivity).
Qed.
