(** The end of the connect() call.  No proofs here. *)
From Verif Require Import Base AddrModel TcpModel StackModel StackRxModel SessModel.

(** how connect() ends, tcp/socket.py:248-260: it returns or raises ConnectionRefusedError or
    TimeoutError *)
Inductive connect_end := Connected | ConnectRefused | ConnectTimedOut.
Definition err_eqb (a b : conn_error) : bool :=
  match a, b with NoError, NoError | Refused, Refused | TimedOut, TimedOut => true | _, _ => false end.
(** the wait of connect, session.py:398: it goes on when the semaphore has been released *)
Definition connect_wakes (s : sess) : bool := 0 <? ev_conn s.
(** session.py:399-408, the state and the error being looked at twice, while other threads run:
    [s1] to [s4] are the session at these four moments *)
Definition connect_ends (s1 s2 s3 s4 : sess) : connect_end :=
  if negb (fsm_eqb (st s1) ESTABLISHED) && err_eqb (conn_err s2) Refused then ConnectRefused
  else if negb (fsm_eqb (st s3) ESTABLISHED) && err_eqb (conn_err s4) TimedOut then ConnectTimedOut
  else Connected.
