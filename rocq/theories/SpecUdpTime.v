(** What a UDP daytime and a UDP discard service promise. *)
From Verif Require Import Base AddrModel StackModel StackRxModel UdpApiModel SpecUdpApi EchoModel SpecEcho UdpTimeModel.

(** nobody but the service makes calls on its socket *)
Definition ut_private (i : nat) (es : list ut_ev) : Prop := forall o, In (UWorld o) es -> ~ call_on i o.
(** everything that happened at the socket interface, in order *)
Fixpoint ut_ops (b : bool) (es : list ut_ev) (s : echo) : list uop :=
  match es with
  | [] => []
  | e :: r => match ut_op b e s with Some o => [o] | None => [] end ++ ut_ops b r (ut_do b e s)
  end.
(** the sendto calls of the service, with what the clock said at that step *)
Definition ut_attempt (b : bool) (e : ut_ev) (s : echo) : list (bytes * option Z * Z * bytes) :=
  match e with
  | UThread _ now => match ut_op b e s with Some (USendto _ _ d t p) => [(d, t, p, now)] | _ => [] end
  | _ => []
  end.
Fixpoint ut_tried (b : bool) (es : list ut_ev) (s : echo) : list (bytes * option Z * Z * bytes) :=
  match es with [] => [] | e :: r => ut_attempt b e s ++ ut_tried b r (ut_do b e s) end.
(** a call answers a datagram: with the time of the call, to the address and port it came from *)
Definition tells (f : family) (c : bytes * option Z * Z * bytes) (m : umd) : Prop :=
  let '(d, t, p, now) := c in d = now /\ names f t (m_rip m) /\ p = m_rport m.
