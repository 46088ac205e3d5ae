(** What the TCP socket calls are expected to do with connections that come in. *)
From Verif Require Import Base AddrModel TcpModel StackModel StackRxModel UdpApiModel SessModel TcpApiModel.

(** no TCP socket yet *)
Definition fresh_tcp (w : tworld) : Prop :=
  tw_nsock w = 0%nat /\ tw_nsess w = 0%nat /\ (forall k i, In (k, i) (tw_table w) -> k_type k = Dgram) /\ forall c, tw_close w c = None.
(** what happened since the stack was started *)
Definition history (ops : list top) (w0 w : tworld) : Prop := fresh_tcp w0 /\ w = top_run ops w0.
(** socket [t] came from listening socket [q] *)
Definition comes_from (q : nat) (t : tsock) : bool := match t_parent t with Some r => Nat.eqb r q | None => false end.
(** the sockets from [q] whose handshake was completed between [w] and [w'] *)
Definition completions (q : nat) (w w' : tworld) : list nat :=
  map (tw_owner w') (filter (fun j =>
    fsm_eqb (st (tw_sess w j)) SYN_RCVD && fsm_eqb (st (tw_sess w' j)) ESTABLISHED
    && comes_from q (tw_sock w' (tw_owner w' j))) (seq 0 (tw_nsess w))).
Fixpoint completed (q : nat) (ops : list top) (w : tworld) : list nat :=
  match ops with
  | [] => []
  | o :: r => completions q w (fst (top_do o w)) ++ completed q r (fst (top_do o w))
  end.
(** the sockets that accept() on [q] returned *)
Definition handed (q : nat) (o : top) (w : tworld) : list nat :=
  match o with
  | TPop i => if Nat.eqb i q then match snd (top_do o w) with TSock k => [k] | _ => [] end else []
  | _ => []
  end.
Fixpoint accepted (q : nat) (ops : list top) (w : tworld) : list nat :=
  match ops with [] => [] | o :: r => handed q o w ++ accepted q r (fst (top_do o w)) end.
(** the sockets waiting in [q]'s accept queue *)
Definition waiting_at (q : nat) (w : tworld) : list nat := if Nat.ltb q (tw_nsock w) then t_queue (tw_sock w q) else [].

(** ** A SYN for a listening socket *)
Definition ends_of (s : sess) : ipaddr * Z * ipaddr * Z := (s_lip s, s_lport s, s_rip s, s_rport s).
Definition ends_at (t : tsock) : ipaddr * Z * ipaddr * Z := (t_lip t, t_lport t, t_rip t, t_rport t).
Definition ends_in (p : tmd) : ipaddr * Z * ipaddr * Z := (d_lip p, d_lport p, d_rip p, d_rport p).
Definition good_syn (p : tmd) : Prop := d_syn p = true /\ d_ack p = false /\ d_fin p = false /\ d_rst p = false /\ d_ackn p = 0 /\ d_data p = [].
(** from socket [i], whose session was [j], a connection with the endpoints of [p] split off *)
Record forked (i j : nat) (p : tmd) (w w' : tworld) : Prop := {
  fk_one : tw_nsess w' = S (tw_nsess w) /\ tw_nsock w' = S (tw_nsock w);
  (* the socket of the connection *)
  fk_sock : let t := tw_sock w' (tw_nsock w) in
    ends_at t = ends_in p /\ t_sess t = Some j /\ t_parent t = Some i /\ t_queue t = [] /\ sock_get (segment_key p) (tw_table w') = Some (tw_nsock w);
  fk_conn : st (tw_sess w' j) = SYN_RCVD /\ ends_of (tw_sess w' j) = ends_in p /\ tw_owner w' j = tw_nsock w;
  (* the listening socket *)
  fk_listener : t_sess (tw_sock w' i) = Some (tw_nsess w) /\ st (tw_sess w' (tw_nsess w)) = LISTEN /\ tw_owner w' (tw_nsess w) = i /\
    ends_of (tw_sess w' (tw_nsess w)) = ends_of (tw_sess w j);
  fk_kept : ends_at (tw_sock w' i) = ends_at (tw_sock w i) /\ t_parent (tw_sock w' i) = t_parent (tw_sock w i) /\ t_queue (tw_sock w' i) = t_queue (tw_sock w i) /\
    t_ready (tw_sock w' i) = t_ready (tw_sock w i) /\ t_between (tw_sock w' i) = t_between (tw_sock w i);
  (* everything else *)
  fk_table : forall k, k <> segment_key p -> sock_get k (tw_table w') = sock_get k (tw_table w);
  fk_socks : forall k, (k < tw_nsock w)%nat -> k <> i -> tw_sock w' k = tw_sock w k;
  fk_sessions : forall x, (x < tw_nsess w)%nat -> x <> j -> tw_sess w' x = tw_sess w x }.

(** the connection of socket [k] was completed: the other side acknowledged the SYN+ACK that
    the session behind [k] had sent in reply to its SYN *)
Definition acknowledged (o : top) (k : nat) (w : tworld) : Prop :=
  exists p iss j t, o = TSegment p iss /\ t_sess (tw_sock w k) = Some j /\ In t (sent (tw_sess w j)) /\
    x_fsyn t = true /\ x_fack t = true /\ x_seq t + 1 = d_ackn p /\ x_ack t = d_seq p.
