(** What the datagram socket calls promise, in terms of the calls made. *)
From Verif Require Import Base AddrModel StackModel StackRxModel UdpApiModel.

(** local address, local port, remote address, remote port *)
Definition ends (u : usock) := (u_lip u, u_lport0 u, u_rip u, u_rport u).
Definition unspec (a : ipaddr) : Prop := a = A4 0 \/ a = A6 0.
(** two local addresses one of which covers the other *)
Definition overlap (a b : ipaddr) : Prop := family_of a = family_of b /\ (a = b \/ unspec a \/ unspec b).

(** the call is made on socket [i] *)
Definition call_on (i : nat) (o : uop) : Prop :=
  match o with
  | UBind _ j _ _ | UConnect _ j _ _ | USend j _ | USendto _ j _ _ _ | URecv j | URecvfrom j | UClose j => j = i
  | _ => False
  end.
(** no call is made on a socket that was closed *)
Definition no_use_after_close (ops : list uop) : Prop :=
  forall a i b, ops = a ++ UClose i :: b -> forall o, In o b -> ~ call_on i o.
Definition closed_in (ops : list uop) (i : nat) : Prop := In (UClose i) ops.
(** a socket of any kind in the table has this local port *)
Definition port_used (t : sockets) (p : Z) : Prop := exists k i, In (k, i) t /\ k_lport k = p.
(** no sockets yet *)
Definition fresh_world (w : world) : Prop := w_next w = 0%nat /\ n_socks (w_node w) = [].

(** ** receiving *)
(** the datagrams put into the queue of socket [i] by the frames of a history, in order *)
Definition added (i : nat) (o : uop) (w : world) : list umd :=
  match o with
  | UFrame _ => skipn (length (u_queue (n_udp (w_node w) i))) (u_queue (n_udp (w_node (fst (uop_do o w))) i))
  | _ => []
  end.
Fixpoint arrivals (i : nat) (ops : list uop) (w : world) : list umd :=
  match ops with [] => [] | o :: r => added i o w ++ arrivals i r (fst (uop_do o w)) end.
(** what the receive calls on socket [i] returned, in order *)
Definition returned (i : nat) (o : uop) (w : world) : list uret :=
  match o with
  | URecv j | URecvfrom j =>
      if Nat.eqb j i then match snd (uop_do o w) with RNone | RErr _ => [] | x => [x] end else []
  | _ => []
  end.
Fixpoint returns (i : nat) (ops : list uop) (w : world) : list uret :=
  match ops with [] => [] | o :: r => returned i o w ++ returns i r (fst (uop_do o w)) end.
(** a result carries the bytes, and for recvfrom the sender, of a datagram *)
Definition carries (r : uret) (m : umd) : Prop :=
  match r with
  | RData d => d = m_data m
  | RFrom d a p => d = m_data m /\ a = m_rip m /\ p = m_rport m
  | _ => False
  end.
(** the semaphore of a socket counts its queue *)
Definition counted (w : world) (i : nat) : Prop := u_ready (n_udp (w_node w) i) = zlen (u_queue (n_udp (w_node w) i)).

(** ** interleavings of the two halves of deliveries and receive calls: a release follows its
    append, a pop its acquire, and acquire waits for a positive semaphore *)
Inductive legal : Z -> Z -> recv_st -> list recv_ev -> Prop :=
| lg_nil p h s : legal p h s []
| lg_append p h s m r : legal (p + 1) h (recv_do (VAppend m) s) r -> legal p h s (VAppend m :: r)
| lg_release p h s r : 0 < p -> legal (p - 1) h (recv_do VRelease s) r -> legal p h s (VRelease :: r)
| lg_acquire p h s r : 0 < v_sem s -> legal p (h + 1) (recv_do VAcquire s) r -> legal p h s (VAcquire :: r)
| lg_pop p h s r : 0 < h -> legal p (h - 1) (recv_do VPop s) r -> legal p h s (VPop :: r).
Fixpoint appended (es : list recv_ev) : list umd :=
  match es with [] => [] | VAppend m :: r => m :: appended r | _ :: r => appended r end.
Definition recv0 : recv_st := {| v_queue := []; v_sem := 0; v_got := []; v_fail := false |}.
