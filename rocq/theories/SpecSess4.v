(** What is asked of the end of a TCP connection. *)
From Verif Require Import Base AddrModel TcpModel StackModel StackRxModel SessModel SpecSess SpecSess2 SpecSess3.

(** C89: a FIN has been sent *)
Definition fin_out (t : tcp_tx) (c : conn) : Prop := In t (sent (c_sess c)) /\ x_ffin t = true.
(** the states in which the application has closed the connection and all it wrote is delivered *)
Definition closing_states : list fsm_state := [FIN_WAIT_1; FIN_WAIT_2; CLOSING; TIME_WAIT; LAST_ACK].
(** every byte written so far has been acknowledged *)
Definition delivered (iss : Z) (c : conn) : Prop := iss + 1 + zlen (c_written c) <= snd_una (c_sess c).
(** a segment that acknowledges the FIN [t], at its place, without data *)
Definition acks_fin (t : tcp_tx) (p : tmd) (c : conn) : Prop :=
  flags_of p = (false, true, false, false) /\ d_data p = [] /\ d_seq p = rcv_nxt (c_sess c) /\ d_ackn p = seg_end t.
(** the FIN of the peer, at its place, perhaps with data *)
Definition peer_fin (p : tmd) (c : conn) : Prop :=
  flags_of p = (false, true, true, false) /\ d_seq p = rcv_nxt (c_sess c) /\ zlen (d_data p) <= 65535 /\
  snd_una (c_sess c) <= d_ackn p <= snd_max (c_sess c).
(** the states that wait for the FIN to be acknowledged *)
Definition unacked : list fsm_state := [FIN_WAIT_1; CLOSING; LAST_ACK].
(** the state a connection waits in once it has sent its FIN *)
Definition wait_of (a : fsm_state) : fsm_state := match a with ESTABLISHED => FIN_WAIT_1 | _ => LAST_ACK end.
