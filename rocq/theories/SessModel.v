(** One TCP session: tcp/session.py, class TcpSession.
    Simplifications, here and below: sequence numbers are unbounded integers as in the code;
    the calls that hold the session's FSM lock (segments, timer events, connect, listen,
    close) and send are atomic; the four steps of receive are separate; log calls are left
    out (their arguments cannot raise); the timers of the session are the named timers
    whose name starts with the session's name, so two live sessions with equal endpoints
    are not covered. *)
From Verif Require Import Base AddrModel TcpModel StackModel StackRxModel.

(** FsmState, session.py:92-107 *)
Inductive fsm_state := CLOSED | LISTEN | SYN_SENT | SYN_RCVD | ESTABLISHED | FIN_WAIT_1 | FIN_WAIT_2 | CLOSING | CLOSE_WAIT | LAST_ACK | TIME_WAIT.
Definition fsm_eqb (a b : fsm_state) : bool :=
  match a, b with
  | CLOSED, CLOSED | LISTEN, LISTEN | SYN_SENT, SYN_SENT | SYN_RCVD, SYN_RCVD | ESTABLISHED, ESTABLISHED | FIN_WAIT_1, FIN_WAIT_1
  | FIN_WAIT_2, FIN_WAIT_2 | CLOSING, CLOSING | CLOSE_WAIT, CLOSE_WAIT | LAST_ACK, LAST_ACK | TIME_WAIT, TIME_WAIT => true
  | _, _ => false
  end.
(** ConnError, session.py:113-120 *)
Inductive conn_error := NoError | Refused | TimedOut.
(** SysCall, session.py:79-86 *)
Inductive syscall := Connect | Listen | Close.
(** the names "{self}-delayed_ack", "{self}-retransmit_seq-{seq}" and "{self}-time_wait" *)
Inductive tkey := TDelayedAck | TRetransmit (seq : Z) | TTimeWait.
Definition tkey_eqb (a b : tkey) : bool :=
  match a, b with
  | TDelayedAck, TDelayedAck | TTimeWait, TTimeWait => true
  | TRetransmit x, TRetransmit y => x =? y
  | _, _ => false
  end.
(** effects on other objects: the session's socket is appended to the accept queue of its
    parent and the parent's semaphore released, session.py:1051-1052; a listening session
    is forked, session.py:870-892 *)
Inductive eff := FAccept | FFork (p : tmd).

(** ** dicts with integer keys *)
Definition dict (A : Type) := list (Z * A).
Fixpoint dget {A} (k : Z) (d : dict A) : option A :=
  match d with [] => None | (j, v) :: r => if j =? k then Some v else dget k r end.
Fixpoint dset {A} (k : Z) (v : A) (d : dict A) : dict A :=
  match d with [] => [(k, v)] | (j, w) :: r => if j =? k then (j, v) :: r else (j, w) :: dset k v r end.
Definition ddel {A} (k : Z) (d : dict A) : dict A := filter (fun kv => negb (fst kv =? k)) d.
(** "for seq in list(d): if seq < bound: d.pop(seq)" *)
Definition dpurge {A} (bound : Z) (d : dict A) : dict A := filter (fun kv => negb (fst kv <? bound)) d.
Definition dgetd (k def : Z) (d : dict Z) : Z := match dget k d with Some v => v | None => def end.

(** ** the session's timers; see TimerModel for the timer itself *)
Fixpoint tget (k : tkey) (l : list (tkey * Z)) : option Z :=
  match l with [] => None | (j, v) :: r => if tkey_eqb j k then Some v else tget k r end.
Fixpoint tset (k : tkey) (v : Z) (l : list (tkey * Z)) : list (tkey * Z) :=
  match l with [] => [(k, v)] | (j, w) :: r => if tkey_eqb j k then (j, v) :: r else (j, w) :: tset k v r end.
(** timer.py:199-204 *)
Definition expired (k : tkey) (l : list (tkey * Z)) : bool := match tget k l with None => true | Some v => v =? 0 end.
(** timer.py:152-157 *)
Definition tdec (l : list (tkey * Z)) : list (tkey * Z) :=
  filter (fun kv => negb (snd kv =? 0)) (map (fun kv => (fst kv, snd kv - 1)) l).

(** ** the object, session.py:185-309.  [reg] tells whether str(self._socket) is a key of
    stack.sockets; [sent] are the segments handed to the stack, [hist] the state changes
    logged by _change_state, both oldest first *)
Record sess := {
  s_lip : ipaddr; s_lport : Z; s_rip : ipaddr; s_rport : Z;
  st : fsm_state; snd_ini : Z; snd_nxt : Z; snd_max : Z;
  snd_una : Z; snd_fin : Z; snd_mss : Z; snd_wnd : Z;
  snd_ewn : Z; snd_wsc : Z; tx_mod : Z; rcv_ini : Z;
  rcv_nxt : Z; rcv_una : Z; tx_buf : bytes; rx_buf : bytes;
  tx_req : dict Z; tx_to : dict Z; rx_req : dict Z; ooo : dict tmd;
  closing : bool; conn_err : conn_error; ev_conn : Z; ev_rx : Z;
  tmr : list (tkey * Z); reg : bool; sent : list tcp_tx; hist : list (fsm_state * fsm_state);
  effs : list eff }.
(** assignments to the attributes *)
Definition set_s_lip (v : ipaddr) (s : sess) : sess :=
  {| s_lip := v; s_lport := s_lport s; s_rip := s_rip s; s_rport := s_rport s; st := st s; snd_ini := snd_ini s; snd_nxt := snd_nxt s; snd_max := snd_max s; snd_una := snd_una s; snd_fin := snd_fin s; snd_mss := snd_mss s; snd_wnd := snd_wnd s; snd_ewn := snd_ewn s; snd_wsc := snd_wsc s; tx_mod := tx_mod s; rcv_ini := rcv_ini s; rcv_nxt := rcv_nxt s; rcv_una := rcv_una s; tx_buf := tx_buf s; rx_buf := rx_buf s; tx_req := tx_req s; tx_to := tx_to s; rx_req := rx_req s; ooo := ooo s; closing := closing s; conn_err := conn_err s; ev_conn := ev_conn s; ev_rx := ev_rx s; tmr := tmr s; reg := reg s; sent := sent s; hist := hist s; effs := effs s |}.
Definition set_s_lport (v : Z) (s : sess) : sess :=
  {| s_lip := s_lip s; s_lport := v; s_rip := s_rip s; s_rport := s_rport s; st := st s; snd_ini := snd_ini s; snd_nxt := snd_nxt s; snd_max := snd_max s; snd_una := snd_una s; snd_fin := snd_fin s; snd_mss := snd_mss s; snd_wnd := snd_wnd s; snd_ewn := snd_ewn s; snd_wsc := snd_wsc s; tx_mod := tx_mod s; rcv_ini := rcv_ini s; rcv_nxt := rcv_nxt s; rcv_una := rcv_una s; tx_buf := tx_buf s; rx_buf := rx_buf s; tx_req := tx_req s; tx_to := tx_to s; rx_req := rx_req s; ooo := ooo s; closing := closing s; conn_err := conn_err s; ev_conn := ev_conn s; ev_rx := ev_rx s; tmr := tmr s; reg := reg s; sent := sent s; hist := hist s; effs := effs s |}.
Definition set_s_rip (v : ipaddr) (s : sess) : sess :=
  {| s_lip := s_lip s; s_lport := s_lport s; s_rip := v; s_rport := s_rport s; st := st s; snd_ini := snd_ini s; snd_nxt := snd_nxt s; snd_max := snd_max s; snd_una := snd_una s; snd_fin := snd_fin s; snd_mss := snd_mss s; snd_wnd := snd_wnd s; snd_ewn := snd_ewn s; snd_wsc := snd_wsc s; tx_mod := tx_mod s; rcv_ini := rcv_ini s; rcv_nxt := rcv_nxt s; rcv_una := rcv_una s; tx_buf := tx_buf s; rx_buf := rx_buf s; tx_req := tx_req s; tx_to := tx_to s; rx_req := rx_req s; ooo := ooo s; closing := closing s; conn_err := conn_err s; ev_conn := ev_conn s; ev_rx := ev_rx s; tmr := tmr s; reg := reg s; sent := sent s; hist := hist s; effs := effs s |}.
Definition set_s_rport (v : Z) (s : sess) : sess :=
  {| s_lip := s_lip s; s_lport := s_lport s; s_rip := s_rip s; s_rport := v; st := st s; snd_ini := snd_ini s; snd_nxt := snd_nxt s; snd_max := snd_max s; snd_una := snd_una s; snd_fin := snd_fin s; snd_mss := snd_mss s; snd_wnd := snd_wnd s; snd_ewn := snd_ewn s; snd_wsc := snd_wsc s; tx_mod := tx_mod s; rcv_ini := rcv_ini s; rcv_nxt := rcv_nxt s; rcv_una := rcv_una s; tx_buf := tx_buf s; rx_buf := rx_buf s; tx_req := tx_req s; tx_to := tx_to s; rx_req := rx_req s; ooo := ooo s; closing := closing s; conn_err := conn_err s; ev_conn := ev_conn s; ev_rx := ev_rx s; tmr := tmr s; reg := reg s; sent := sent s; hist := hist s; effs := effs s |}.
Definition set_st (v : fsm_state) (s : sess) : sess :=
  {| s_lip := s_lip s; s_lport := s_lport s; s_rip := s_rip s; s_rport := s_rport s; st := v; snd_ini := snd_ini s; snd_nxt := snd_nxt s; snd_max := snd_max s; snd_una := snd_una s; snd_fin := snd_fin s; snd_mss := snd_mss s; snd_wnd := snd_wnd s; snd_ewn := snd_ewn s; snd_wsc := snd_wsc s; tx_mod := tx_mod s; rcv_ini := rcv_ini s; rcv_nxt := rcv_nxt s; rcv_una := rcv_una s; tx_buf := tx_buf s; rx_buf := rx_buf s; tx_req := tx_req s; tx_to := tx_to s; rx_req := rx_req s; ooo := ooo s; closing := closing s; conn_err := conn_err s; ev_conn := ev_conn s; ev_rx := ev_rx s; tmr := tmr s; reg := reg s; sent := sent s; hist := hist s; effs := effs s |}.
Definition set_snd_ini (v : Z) (s : sess) : sess :=
  {| s_lip := s_lip s; s_lport := s_lport s; s_rip := s_rip s; s_rport := s_rport s; st := st s; snd_ini := v; snd_nxt := snd_nxt s; snd_max := snd_max s; snd_una := snd_una s; snd_fin := snd_fin s; snd_mss := snd_mss s; snd_wnd := snd_wnd s; snd_ewn := snd_ewn s; snd_wsc := snd_wsc s; tx_mod := tx_mod s; rcv_ini := rcv_ini s; rcv_nxt := rcv_nxt s; rcv_una := rcv_una s; tx_buf := tx_buf s; rx_buf := rx_buf s; tx_req := tx_req s; tx_to := tx_to s; rx_req := rx_req s; ooo := ooo s; closing := closing s; conn_err := conn_err s; ev_conn := ev_conn s; ev_rx := ev_rx s; tmr := tmr s; reg := reg s; sent := sent s; hist := hist s; effs := effs s |}.
Definition set_snd_nxt (v : Z) (s : sess) : sess :=
  {| s_lip := s_lip s; s_lport := s_lport s; s_rip := s_rip s; s_rport := s_rport s; st := st s; snd_ini := snd_ini s; snd_nxt := v; snd_max := snd_max s; snd_una := snd_una s; snd_fin := snd_fin s; snd_mss := snd_mss s; snd_wnd := snd_wnd s; snd_ewn := snd_ewn s; snd_wsc := snd_wsc s; tx_mod := tx_mod s; rcv_ini := rcv_ini s; rcv_nxt := rcv_nxt s; rcv_una := rcv_una s; tx_buf := tx_buf s; rx_buf := rx_buf s; tx_req := tx_req s; tx_to := tx_to s; rx_req := rx_req s; ooo := ooo s; closing := closing s; conn_err := conn_err s; ev_conn := ev_conn s; ev_rx := ev_rx s; tmr := tmr s; reg := reg s; sent := sent s; hist := hist s; effs := effs s |}.
Definition set_snd_max (v : Z) (s : sess) : sess :=
  {| s_lip := s_lip s; s_lport := s_lport s; s_rip := s_rip s; s_rport := s_rport s; st := st s; snd_ini := snd_ini s; snd_nxt := snd_nxt s; snd_max := v; snd_una := snd_una s; snd_fin := snd_fin s; snd_mss := snd_mss s; snd_wnd := snd_wnd s; snd_ewn := snd_ewn s; snd_wsc := snd_wsc s; tx_mod := tx_mod s; rcv_ini := rcv_ini s; rcv_nxt := rcv_nxt s; rcv_una := rcv_una s; tx_buf := tx_buf s; rx_buf := rx_buf s; tx_req := tx_req s; tx_to := tx_to s; rx_req := rx_req s; ooo := ooo s; closing := closing s; conn_err := conn_err s; ev_conn := ev_conn s; ev_rx := ev_rx s; tmr := tmr s; reg := reg s; sent := sent s; hist := hist s; effs := effs s |}.
Definition set_snd_una (v : Z) (s : sess) : sess :=
  {| s_lip := s_lip s; s_lport := s_lport s; s_rip := s_rip s; s_rport := s_rport s; st := st s; snd_ini := snd_ini s; snd_nxt := snd_nxt s; snd_max := snd_max s; snd_una := v; snd_fin := snd_fin s; snd_mss := snd_mss s; snd_wnd := snd_wnd s; snd_ewn := snd_ewn s; snd_wsc := snd_wsc s; tx_mod := tx_mod s; rcv_ini := rcv_ini s; rcv_nxt := rcv_nxt s; rcv_una := rcv_una s; tx_buf := tx_buf s; rx_buf := rx_buf s; tx_req := tx_req s; tx_to := tx_to s; rx_req := rx_req s; ooo := ooo s; closing := closing s; conn_err := conn_err s; ev_conn := ev_conn s; ev_rx := ev_rx s; tmr := tmr s; reg := reg s; sent := sent s; hist := hist s; effs := effs s |}.
Definition set_snd_fin (v : Z) (s : sess) : sess :=
  {| s_lip := s_lip s; s_lport := s_lport s; s_rip := s_rip s; s_rport := s_rport s; st := st s; snd_ini := snd_ini s; snd_nxt := snd_nxt s; snd_max := snd_max s; snd_una := snd_una s; snd_fin := v; snd_mss := snd_mss s; snd_wnd := snd_wnd s; snd_ewn := snd_ewn s; snd_wsc := snd_wsc s; tx_mod := tx_mod s; rcv_ini := rcv_ini s; rcv_nxt := rcv_nxt s; rcv_una := rcv_una s; tx_buf := tx_buf s; rx_buf := rx_buf s; tx_req := tx_req s; tx_to := tx_to s; rx_req := rx_req s; ooo := ooo s; closing := closing s; conn_err := conn_err s; ev_conn := ev_conn s; ev_rx := ev_rx s; tmr := tmr s; reg := reg s; sent := sent s; hist := hist s; effs := effs s |}.
Definition set_snd_mss (v : Z) (s : sess) : sess :=
  {| s_lip := s_lip s; s_lport := s_lport s; s_rip := s_rip s; s_rport := s_rport s; st := st s; snd_ini := snd_ini s; snd_nxt := snd_nxt s; snd_max := snd_max s; snd_una := snd_una s; snd_fin := snd_fin s; snd_mss := v; snd_wnd := snd_wnd s; snd_ewn := snd_ewn s; snd_wsc := snd_wsc s; tx_mod := tx_mod s; rcv_ini := rcv_ini s; rcv_nxt := rcv_nxt s; rcv_una := rcv_una s; tx_buf := tx_buf s; rx_buf := rx_buf s; tx_req := tx_req s; tx_to := tx_to s; rx_req := rx_req s; ooo := ooo s; closing := closing s; conn_err := conn_err s; ev_conn := ev_conn s; ev_rx := ev_rx s; tmr := tmr s; reg := reg s; sent := sent s; hist := hist s; effs := effs s |}.
Definition set_snd_wnd (v : Z) (s : sess) : sess :=
  {| s_lip := s_lip s; s_lport := s_lport s; s_rip := s_rip s; s_rport := s_rport s; st := st s; snd_ini := snd_ini s; snd_nxt := snd_nxt s; snd_max := snd_max s; snd_una := snd_una s; snd_fin := snd_fin s; snd_mss := snd_mss s; snd_wnd := v; snd_ewn := snd_ewn s; snd_wsc := snd_wsc s; tx_mod := tx_mod s; rcv_ini := rcv_ini s; rcv_nxt := rcv_nxt s; rcv_una := rcv_una s; tx_buf := tx_buf s; rx_buf := rx_buf s; tx_req := tx_req s; tx_to := tx_to s; rx_req := rx_req s; ooo := ooo s; closing := closing s; conn_err := conn_err s; ev_conn := ev_conn s; ev_rx := ev_rx s; tmr := tmr s; reg := reg s; sent := sent s; hist := hist s; effs := effs s |}.
Definition set_snd_ewn (v : Z) (s : sess) : sess :=
  {| s_lip := s_lip s; s_lport := s_lport s; s_rip := s_rip s; s_rport := s_rport s; st := st s; snd_ini := snd_ini s; snd_nxt := snd_nxt s; snd_max := snd_max s; snd_una := snd_una s; snd_fin := snd_fin s; snd_mss := snd_mss s; snd_wnd := snd_wnd s; snd_ewn := v; snd_wsc := snd_wsc s; tx_mod := tx_mod s; rcv_ini := rcv_ini s; rcv_nxt := rcv_nxt s; rcv_una := rcv_una s; tx_buf := tx_buf s; rx_buf := rx_buf s; tx_req := tx_req s; tx_to := tx_to s; rx_req := rx_req s; ooo := ooo s; closing := closing s; conn_err := conn_err s; ev_conn := ev_conn s; ev_rx := ev_rx s; tmr := tmr s; reg := reg s; sent := sent s; hist := hist s; effs := effs s |}.
Definition set_snd_wsc (v : Z) (s : sess) : sess :=
  {| s_lip := s_lip s; s_lport := s_lport s; s_rip := s_rip s; s_rport := s_rport s; st := st s; snd_ini := snd_ini s; snd_nxt := snd_nxt s; snd_max := snd_max s; snd_una := snd_una s; snd_fin := snd_fin s; snd_mss := snd_mss s; snd_wnd := snd_wnd s; snd_ewn := snd_ewn s; snd_wsc := v; tx_mod := tx_mod s; rcv_ini := rcv_ini s; rcv_nxt := rcv_nxt s; rcv_una := rcv_una s; tx_buf := tx_buf s; rx_buf := rx_buf s; tx_req := tx_req s; tx_to := tx_to s; rx_req := rx_req s; ooo := ooo s; closing := closing s; conn_err := conn_err s; ev_conn := ev_conn s; ev_rx := ev_rx s; tmr := tmr s; reg := reg s; sent := sent s; hist := hist s; effs := effs s |}.
Definition set_tx_mod (v : Z) (s : sess) : sess :=
  {| s_lip := s_lip s; s_lport := s_lport s; s_rip := s_rip s; s_rport := s_rport s; st := st s; snd_ini := snd_ini s; snd_nxt := snd_nxt s; snd_max := snd_max s; snd_una := snd_una s; snd_fin := snd_fin s; snd_mss := snd_mss s; snd_wnd := snd_wnd s; snd_ewn := snd_ewn s; snd_wsc := snd_wsc s; tx_mod := v; rcv_ini := rcv_ini s; rcv_nxt := rcv_nxt s; rcv_una := rcv_una s; tx_buf := tx_buf s; rx_buf := rx_buf s; tx_req := tx_req s; tx_to := tx_to s; rx_req := rx_req s; ooo := ooo s; closing := closing s; conn_err := conn_err s; ev_conn := ev_conn s; ev_rx := ev_rx s; tmr := tmr s; reg := reg s; sent := sent s; hist := hist s; effs := effs s |}.
Definition set_rcv_ini (v : Z) (s : sess) : sess :=
  {| s_lip := s_lip s; s_lport := s_lport s; s_rip := s_rip s; s_rport := s_rport s; st := st s; snd_ini := snd_ini s; snd_nxt := snd_nxt s; snd_max := snd_max s; snd_una := snd_una s; snd_fin := snd_fin s; snd_mss := snd_mss s; snd_wnd := snd_wnd s; snd_ewn := snd_ewn s; snd_wsc := snd_wsc s; tx_mod := tx_mod s; rcv_ini := v; rcv_nxt := rcv_nxt s; rcv_una := rcv_una s; tx_buf := tx_buf s; rx_buf := rx_buf s; tx_req := tx_req s; tx_to := tx_to s; rx_req := rx_req s; ooo := ooo s; closing := closing s; conn_err := conn_err s; ev_conn := ev_conn s; ev_rx := ev_rx s; tmr := tmr s; reg := reg s; sent := sent s; hist := hist s; effs := effs s |}.
Definition set_rcv_nxt (v : Z) (s : sess) : sess :=
  {| s_lip := s_lip s; s_lport := s_lport s; s_rip := s_rip s; s_rport := s_rport s; st := st s; snd_ini := snd_ini s; snd_nxt := snd_nxt s; snd_max := snd_max s; snd_una := snd_una s; snd_fin := snd_fin s; snd_mss := snd_mss s; snd_wnd := snd_wnd s; snd_ewn := snd_ewn s; snd_wsc := snd_wsc s; tx_mod := tx_mod s; rcv_ini := rcv_ini s; rcv_nxt := v; rcv_una := rcv_una s; tx_buf := tx_buf s; rx_buf := rx_buf s; tx_req := tx_req s; tx_to := tx_to s; rx_req := rx_req s; ooo := ooo s; closing := closing s; conn_err := conn_err s; ev_conn := ev_conn s; ev_rx := ev_rx s; tmr := tmr s; reg := reg s; sent := sent s; hist := hist s; effs := effs s |}.
Definition set_rcv_una (v : Z) (s : sess) : sess :=
  {| s_lip := s_lip s; s_lport := s_lport s; s_rip := s_rip s; s_rport := s_rport s; st := st s; snd_ini := snd_ini s; snd_nxt := snd_nxt s; snd_max := snd_max s; snd_una := snd_una s; snd_fin := snd_fin s; snd_mss := snd_mss s; snd_wnd := snd_wnd s; snd_ewn := snd_ewn s; snd_wsc := snd_wsc s; tx_mod := tx_mod s; rcv_ini := rcv_ini s; rcv_nxt := rcv_nxt s; rcv_una := v; tx_buf := tx_buf s; rx_buf := rx_buf s; tx_req := tx_req s; tx_to := tx_to s; rx_req := rx_req s; ooo := ooo s; closing := closing s; conn_err := conn_err s; ev_conn := ev_conn s; ev_rx := ev_rx s; tmr := tmr s; reg := reg s; sent := sent s; hist := hist s; effs := effs s |}.
Definition set_tx_buf (v : bytes) (s : sess) : sess :=
  {| s_lip := s_lip s; s_lport := s_lport s; s_rip := s_rip s; s_rport := s_rport s; st := st s; snd_ini := snd_ini s; snd_nxt := snd_nxt s; snd_max := snd_max s; snd_una := snd_una s; snd_fin := snd_fin s; snd_mss := snd_mss s; snd_wnd := snd_wnd s; snd_ewn := snd_ewn s; snd_wsc := snd_wsc s; tx_mod := tx_mod s; rcv_ini := rcv_ini s; rcv_nxt := rcv_nxt s; rcv_una := rcv_una s; tx_buf := v; rx_buf := rx_buf s; tx_req := tx_req s; tx_to := tx_to s; rx_req := rx_req s; ooo := ooo s; closing := closing s; conn_err := conn_err s; ev_conn := ev_conn s; ev_rx := ev_rx s; tmr := tmr s; reg := reg s; sent := sent s; hist := hist s; effs := effs s |}.
Definition set_rx_buf (v : bytes) (s : sess) : sess :=
  {| s_lip := s_lip s; s_lport := s_lport s; s_rip := s_rip s; s_rport := s_rport s; st := st s; snd_ini := snd_ini s; snd_nxt := snd_nxt s; snd_max := snd_max s; snd_una := snd_una s; snd_fin := snd_fin s; snd_mss := snd_mss s; snd_wnd := snd_wnd s; snd_ewn := snd_ewn s; snd_wsc := snd_wsc s; tx_mod := tx_mod s; rcv_ini := rcv_ini s; rcv_nxt := rcv_nxt s; rcv_una := rcv_una s; tx_buf := tx_buf s; rx_buf := v; tx_req := tx_req s; tx_to := tx_to s; rx_req := rx_req s; ooo := ooo s; closing := closing s; conn_err := conn_err s; ev_conn := ev_conn s; ev_rx := ev_rx s; tmr := tmr s; reg := reg s; sent := sent s; hist := hist s; effs := effs s |}.
Definition set_tx_req (v : dict Z) (s : sess) : sess :=
  {| s_lip := s_lip s; s_lport := s_lport s; s_rip := s_rip s; s_rport := s_rport s; st := st s; snd_ini := snd_ini s; snd_nxt := snd_nxt s; snd_max := snd_max s; snd_una := snd_una s; snd_fin := snd_fin s; snd_mss := snd_mss s; snd_wnd := snd_wnd s; snd_ewn := snd_ewn s; snd_wsc := snd_wsc s; tx_mod := tx_mod s; rcv_ini := rcv_ini s; rcv_nxt := rcv_nxt s; rcv_una := rcv_una s; tx_buf := tx_buf s; rx_buf := rx_buf s; tx_req := v; tx_to := tx_to s; rx_req := rx_req s; ooo := ooo s; closing := closing s; conn_err := conn_err s; ev_conn := ev_conn s; ev_rx := ev_rx s; tmr := tmr s; reg := reg s; sent := sent s; hist := hist s; effs := effs s |}.
Definition set_tx_to (v : dict Z) (s : sess) : sess :=
  {| s_lip := s_lip s; s_lport := s_lport s; s_rip := s_rip s; s_rport := s_rport s; st := st s; snd_ini := snd_ini s; snd_nxt := snd_nxt s; snd_max := snd_max s; snd_una := snd_una s; snd_fin := snd_fin s; snd_mss := snd_mss s; snd_wnd := snd_wnd s; snd_ewn := snd_ewn s; snd_wsc := snd_wsc s; tx_mod := tx_mod s; rcv_ini := rcv_ini s; rcv_nxt := rcv_nxt s; rcv_una := rcv_una s; tx_buf := tx_buf s; rx_buf := rx_buf s; tx_req := tx_req s; tx_to := v; rx_req := rx_req s; ooo := ooo s; closing := closing s; conn_err := conn_err s; ev_conn := ev_conn s; ev_rx := ev_rx s; tmr := tmr s; reg := reg s; sent := sent s; hist := hist s; effs := effs s |}.
Definition set_rx_req (v : dict Z) (s : sess) : sess :=
  {| s_lip := s_lip s; s_lport := s_lport s; s_rip := s_rip s; s_rport := s_rport s; st := st s; snd_ini := snd_ini s; snd_nxt := snd_nxt s; snd_max := snd_max s; snd_una := snd_una s; snd_fin := snd_fin s; snd_mss := snd_mss s; snd_wnd := snd_wnd s; snd_ewn := snd_ewn s; snd_wsc := snd_wsc s; tx_mod := tx_mod s; rcv_ini := rcv_ini s; rcv_nxt := rcv_nxt s; rcv_una := rcv_una s; tx_buf := tx_buf s; rx_buf := rx_buf s; tx_req := tx_req s; tx_to := tx_to s; rx_req := v; ooo := ooo s; closing := closing s; conn_err := conn_err s; ev_conn := ev_conn s; ev_rx := ev_rx s; tmr := tmr s; reg := reg s; sent := sent s; hist := hist s; effs := effs s |}.
Definition set_ooo (v : dict tmd) (s : sess) : sess :=
  {| s_lip := s_lip s; s_lport := s_lport s; s_rip := s_rip s; s_rport := s_rport s; st := st s; snd_ini := snd_ini s; snd_nxt := snd_nxt s; snd_max := snd_max s; snd_una := snd_una s; snd_fin := snd_fin s; snd_mss := snd_mss s; snd_wnd := snd_wnd s; snd_ewn := snd_ewn s; snd_wsc := snd_wsc s; tx_mod := tx_mod s; rcv_ini := rcv_ini s; rcv_nxt := rcv_nxt s; rcv_una := rcv_una s; tx_buf := tx_buf s; rx_buf := rx_buf s; tx_req := tx_req s; tx_to := tx_to s; rx_req := rx_req s; ooo := v; closing := closing s; conn_err := conn_err s; ev_conn := ev_conn s; ev_rx := ev_rx s; tmr := tmr s; reg := reg s; sent := sent s; hist := hist s; effs := effs s |}.
Definition set_closing (v : bool) (s : sess) : sess :=
  {| s_lip := s_lip s; s_lport := s_lport s; s_rip := s_rip s; s_rport := s_rport s; st := st s; snd_ini := snd_ini s; snd_nxt := snd_nxt s; snd_max := snd_max s; snd_una := snd_una s; snd_fin := snd_fin s; snd_mss := snd_mss s; snd_wnd := snd_wnd s; snd_ewn := snd_ewn s; snd_wsc := snd_wsc s; tx_mod := tx_mod s; rcv_ini := rcv_ini s; rcv_nxt := rcv_nxt s; rcv_una := rcv_una s; tx_buf := tx_buf s; rx_buf := rx_buf s; tx_req := tx_req s; tx_to := tx_to s; rx_req := rx_req s; ooo := ooo s; closing := v; conn_err := conn_err s; ev_conn := ev_conn s; ev_rx := ev_rx s; tmr := tmr s; reg := reg s; sent := sent s; hist := hist s; effs := effs s |}.
Definition set_conn_err (v : conn_error) (s : sess) : sess :=
  {| s_lip := s_lip s; s_lport := s_lport s; s_rip := s_rip s; s_rport := s_rport s; st := st s; snd_ini := snd_ini s; snd_nxt := snd_nxt s; snd_max := snd_max s; snd_una := snd_una s; snd_fin := snd_fin s; snd_mss := snd_mss s; snd_wnd := snd_wnd s; snd_ewn := snd_ewn s; snd_wsc := snd_wsc s; tx_mod := tx_mod s; rcv_ini := rcv_ini s; rcv_nxt := rcv_nxt s; rcv_una := rcv_una s; tx_buf := tx_buf s; rx_buf := rx_buf s; tx_req := tx_req s; tx_to := tx_to s; rx_req := rx_req s; ooo := ooo s; closing := closing s; conn_err := v; ev_conn := ev_conn s; ev_rx := ev_rx s; tmr := tmr s; reg := reg s; sent := sent s; hist := hist s; effs := effs s |}.
Definition set_ev_conn (v : Z) (s : sess) : sess :=
  {| s_lip := s_lip s; s_lport := s_lport s; s_rip := s_rip s; s_rport := s_rport s; st := st s; snd_ini := snd_ini s; snd_nxt := snd_nxt s; snd_max := snd_max s; snd_una := snd_una s; snd_fin := snd_fin s; snd_mss := snd_mss s; snd_wnd := snd_wnd s; snd_ewn := snd_ewn s; snd_wsc := snd_wsc s; tx_mod := tx_mod s; rcv_ini := rcv_ini s; rcv_nxt := rcv_nxt s; rcv_una := rcv_una s; tx_buf := tx_buf s; rx_buf := rx_buf s; tx_req := tx_req s; tx_to := tx_to s; rx_req := rx_req s; ooo := ooo s; closing := closing s; conn_err := conn_err s; ev_conn := v; ev_rx := ev_rx s; tmr := tmr s; reg := reg s; sent := sent s; hist := hist s; effs := effs s |}.
Definition set_ev_rx (v : Z) (s : sess) : sess :=
  {| s_lip := s_lip s; s_lport := s_lport s; s_rip := s_rip s; s_rport := s_rport s; st := st s; snd_ini := snd_ini s; snd_nxt := snd_nxt s; snd_max := snd_max s; snd_una := snd_una s; snd_fin := snd_fin s; snd_mss := snd_mss s; snd_wnd := snd_wnd s; snd_ewn := snd_ewn s; snd_wsc := snd_wsc s; tx_mod := tx_mod s; rcv_ini := rcv_ini s; rcv_nxt := rcv_nxt s; rcv_una := rcv_una s; tx_buf := tx_buf s; rx_buf := rx_buf s; tx_req := tx_req s; tx_to := tx_to s; rx_req := rx_req s; ooo := ooo s; closing := closing s; conn_err := conn_err s; ev_conn := ev_conn s; ev_rx := v; tmr := tmr s; reg := reg s; sent := sent s; hist := hist s; effs := effs s |}.
Definition set_tmr (v : list (tkey * Z)) (s : sess) : sess :=
  {| s_lip := s_lip s; s_lport := s_lport s; s_rip := s_rip s; s_rport := s_rport s; st := st s; snd_ini := snd_ini s; snd_nxt := snd_nxt s; snd_max := snd_max s; snd_una := snd_una s; snd_fin := snd_fin s; snd_mss := snd_mss s; snd_wnd := snd_wnd s; snd_ewn := snd_ewn s; snd_wsc := snd_wsc s; tx_mod := tx_mod s; rcv_ini := rcv_ini s; rcv_nxt := rcv_nxt s; rcv_una := rcv_una s; tx_buf := tx_buf s; rx_buf := rx_buf s; tx_req := tx_req s; tx_to := tx_to s; rx_req := rx_req s; ooo := ooo s; closing := closing s; conn_err := conn_err s; ev_conn := ev_conn s; ev_rx := ev_rx s; tmr := v; reg := reg s; sent := sent s; hist := hist s; effs := effs s |}.
Definition set_reg (v : bool) (s : sess) : sess :=
  {| s_lip := s_lip s; s_lport := s_lport s; s_rip := s_rip s; s_rport := s_rport s; st := st s; snd_ini := snd_ini s; snd_nxt := snd_nxt s; snd_max := snd_max s; snd_una := snd_una s; snd_fin := snd_fin s; snd_mss := snd_mss s; snd_wnd := snd_wnd s; snd_ewn := snd_ewn s; snd_wsc := snd_wsc s; tx_mod := tx_mod s; rcv_ini := rcv_ini s; rcv_nxt := rcv_nxt s; rcv_una := rcv_una s; tx_buf := tx_buf s; rx_buf := rx_buf s; tx_req := tx_req s; tx_to := tx_to s; rx_req := rx_req s; ooo := ooo s; closing := closing s; conn_err := conn_err s; ev_conn := ev_conn s; ev_rx := ev_rx s; tmr := tmr s; reg := v; sent := sent s; hist := hist s; effs := effs s |}.
Definition set_sent (v : list tcp_tx) (s : sess) : sess :=
  {| s_lip := s_lip s; s_lport := s_lport s; s_rip := s_rip s; s_rport := s_rport s; st := st s; snd_ini := snd_ini s; snd_nxt := snd_nxt s; snd_max := snd_max s; snd_una := snd_una s; snd_fin := snd_fin s; snd_mss := snd_mss s; snd_wnd := snd_wnd s; snd_ewn := snd_ewn s; snd_wsc := snd_wsc s; tx_mod := tx_mod s; rcv_ini := rcv_ini s; rcv_nxt := rcv_nxt s; rcv_una := rcv_una s; tx_buf := tx_buf s; rx_buf := rx_buf s; tx_req := tx_req s; tx_to := tx_to s; rx_req := rx_req s; ooo := ooo s; closing := closing s; conn_err := conn_err s; ev_conn := ev_conn s; ev_rx := ev_rx s; tmr := tmr s; reg := reg s; sent := v; hist := hist s; effs := effs s |}.
Definition set_hist (v : list (fsm_state * fsm_state)) (s : sess) : sess :=
  {| s_lip := s_lip s; s_lport := s_lport s; s_rip := s_rip s; s_rport := s_rport s; st := st s; snd_ini := snd_ini s; snd_nxt := snd_nxt s; snd_max := snd_max s; snd_una := snd_una s; snd_fin := snd_fin s; snd_mss := snd_mss s; snd_wnd := snd_wnd s; snd_ewn := snd_ewn s; snd_wsc := snd_wsc s; tx_mod := tx_mod s; rcv_ini := rcv_ini s; rcv_nxt := rcv_nxt s; rcv_una := rcv_una s; tx_buf := tx_buf s; rx_buf := rx_buf s; tx_req := tx_req s; tx_to := tx_to s; rx_req := rx_req s; ooo := ooo s; closing := closing s; conn_err := conn_err s; ev_conn := ev_conn s; ev_rx := ev_rx s; tmr := tmr s; reg := reg s; sent := sent s; hist := v; effs := effs s |}.
Definition set_effs (v : list eff) (s : sess) : sess :=
  {| s_lip := s_lip s; s_lport := s_lport s; s_rip := s_rip s; s_rport := s_rport s; st := st s; snd_ini := snd_ini s; snd_nxt := snd_nxt s; snd_max := snd_max s; snd_una := snd_una s; snd_fin := snd_fin s; snd_mss := snd_mss s; snd_wnd := snd_wnd s; snd_ewn := snd_ewn s; snd_wsc := snd_wsc s; tx_mod := tx_mod s; rcv_ini := rcv_ini s; rcv_nxt := rcv_nxt s; rcv_una := rcv_una s; tx_buf := tx_buf s; rx_buf := rx_buf s; tx_req := tx_req s; tx_to := tx_to s; rx_req := rx_req s; ooo := ooo s; closing := closing s; conn_err := conn_err s; ev_conn := ev_conn s; ev_rx := ev_rx s; tmr := tmr s; reg := reg s; sent := sent s; hist := hist s; effs := v |}.

(** ** statements *)
Definition P (A : Type) := sess -> sess * res A.
Definition pret {A} (a : A) : P A := fun s => (s, Ok a).
Definition pbind {A B} (m : P A) (k : A -> P B) : P B :=
  fun s => match m s with (s', Ok a) => k a s' | (s', Exn e) => (s', Exn e) end.
Notation "x <# m ;; k" := (pbind m (fun x => k)) (at level 61, m at next level, right associativity).
Definition pdo (f : sess -> sess) : P unit := fun s => (f s, Ok tt).
(** a condition evaluated in the current state *)
Definition pif (c : sess -> bool) (a b : P unit) : P unit := fun s => if c s then a s else b s.
Definition pwhen (c : sess -> bool) (a : P unit) : P unit := pif c a (pret tt).
Definition passert (c : sess -> bool) : P unit := fun s => if c s then (s, Ok tt) else (s, Exn AssertionError).
Definition in_state (l : list fsm_state) (s : sess) : bool := existsb (fsm_eqb (st s)) l.

Definition LOCAL_TCP_MSS : Z := 1460.                 (* config.py:136-139 *)
Definition RCV_WND : Z := 65535.                      (* session.py:225 *)
Definition RETRANSMIT_TIMEOUT : Z := 1000.            (* session.py:65 *)
Definition RETRANSMIT_MAX : Z := 3.                   (* session.py:66 *)
Definition TIME_WAIT_DELAY : Z := 30000.              (* session.py:67 *)
Definition DELAYED_ACK_DELAY : Z := 100.              (* session.py:68-70 *)

(** __init__, session.py:185-312, for the initial sequence number drawn; [reg0] tells
    whether the socket is registered *)
Definition new_session (lip : ipaddr) (lport : Z) (rip : ipaddr) (rport iss : Z) (reg0 : bool) (timers : list (tkey * Z)) : sess :=
  {| s_lip := lip; s_lport := lport; s_rip := rip; s_rport := rport; st := CLOSED;
     snd_ini := iss; snd_nxt := iss; snd_max := iss; snd_una := iss; snd_fin := 0; snd_mss := 536; snd_wnd := 536; snd_ewn := 536; snd_wsc := 1;
     tx_mod := iss; rcv_ini := 0; rcv_nxt := 0; rcv_una := 0; tx_buf := []; rx_buf := [];
     tx_req := []; tx_to := []; rx_req := []; ooo := []; closing := false; conn_err := NoError; ev_conn := 0; ev_rx := 0;
     tmr := timers; reg := reg0; sent := []; hist := []; effs := [] |}.

(** _tx_buffer_nxt and _tx_buffer_una, session.py:365-377 *)
Definition tx_buf_nxt (s : sess) : Z := Z.max (snd_nxt s - tx_mod s) 0.
Definition tx_buf_una (s : sess) : Z := Z.max (snd_una s - tx_mod s) 0.

Definition register_timer (k : tkey) (n : Z) : P unit := pdo (fun s => set_tmr (tset k n (tmr s)) s).
(** releasing the semaphores *)
Definition release_rx : P unit := pdo (fun s => set_ev_rx (ev_rx s + 1) s).
Definition release_conn : P unit := pdo (fun s => set_ev_conn (ev_conn s + 1) s).

(** _change_state, session.py:470-488: KeyError if the socket is not registered *)
Definition change_state (n : fsm_state) : P unit :=
  _ <# pdo (fun s => set_st n (set_hist (hist s ++ [(st s, n)]) s)) ;;
  pwhen (in_state [CLOSED]) (fun s => if reg s then (set_reg false s, Ok tt) else (s, Exn KeyError)).

(** the packet send_tcp_packet builds, packet_handler.py:646-681 and tcp/phtx.py:96-134, from
    the arguments given at session.py:506-521 *)
Definition segment (s : sess) (seq : Z) (syn ack fin rst : bool) (data : bytes) : tcp_tx :=
  {| x_sport := s_lport s; x_dport := s_rport s; x_seq := seq; x_ack := if ack then rcv_nxt s else 0;
     x_fns := false; x_fcrw := false; x_fece := false; x_furg := false; x_fack := ack;
     x_fpsh := false; x_frst := rst; x_fsyn := syn; x_ffin := fin;
     x_win := RCV_WND; x_urp := 0;
     x_opts := tcp_phtx_opts (if syn then Some LOCAL_TCP_MSS else None) (if syn then Some 0 else None); x_data := data |}.
(** _transmit_packet, session.py:490-555.  Of send_tcp_packet only the assertions of the
    assembler are kept: the rest of the transmit path is in StackModel *)
Definition transmit_packet (seq : option Z) (syn ack fin rst : bool) (data : bytes) : P unit := fun s =>
  let seq := match seq with Some q => q | None => snd_nxt s end in
  let t := segment s seq syn ack fin rst data in
  if tcp_tx_ok t then
    (_ <# pdo (fun s => set_sent (sent s ++ [t]) s) ;;
     _ <# pdo (fun s => set_rcv_una (rcv_nxt s) s) ;;
     _ <# pdo (fun s => set_snd_nxt (seq + zlen data + b2z syn + b2z fin) s) ;;
     _ <# pdo (fun s => set_snd_max (Z.max (snd_max s) (snd_nxt s)) s) ;;
     _ <# pdo (fun s => set_tx_mod (tx_mod s + (b2z syn + b2z fin)) s) ;;
     _ <# (if fin then pdo (fun s => set_snd_fin (snd_nxt s) s) else pret tt) ;;
     _ <# pwhen (in_state [ESTABLISHED]) (register_timer TDelayedAck DELAYED_ACK_DELAY) ;;
     if negb (zlen data =? 0) || syn || fin then
       _ <# pdo (fun s => set_tx_to (dset seq (dgetd seq (-1) (tx_to s) + 1) (tx_to s)) s) ;;
       fun s => register_timer (TRetransmit seq) (RETRANSMIT_TIMEOUT * Z.shiftl 1 (dgetd seq (-1) (tx_to s))) s
     else pret tt) s
  else (s, Exn AssertionError).
Definition transmit_ack : P unit := transmit_packet None false true false false [].

(** _enqueue_rx_buffer, session.py:557-573 *)
Definition enqueue_rx (d : bytes) : P unit :=
  _ <# pdo (fun s => set_rx_buf (rx_buf s ++ d) s) ;;
  pwhen (fun s => ev_rx s =? 0) release_rx.

(** bytearray slices whose end may be negative *)
Definition py_end {A} (b : Z) (l : list A) : Z := if b <? 0 then Z.max 0 (b + zlen l) else b.
Definition py_slice {A} (a b : Z) (l : list A) : list A := slice a (py_end b l) l.

(** _transmit_data, session.py:575-651 *)
Definition transmit_data : P unit :=
  _ <# passert (fun s => (snd_una s <=? snd_nxt s) && (snd_nxt s <=? snd_una s + snd_ewn s)) ;;
  pif (fun s => in_state [SYN_SENT] s && (snd_nxt s =? snd_ini s)) (transmit_packet None true false false false []) (
  pif (fun s => in_state [SYN_RCVD] s && (snd_nxt s =? snd_ini s)) (transmit_packet None true true false false []) (
  pif (fun s => in_state [ESTABLISHED; CLOSE_WAIT] s && negb (zlen (tx_buf s) - tx_buf_nxt s =? 0))
    (fun s =>
       let remaining := zlen (tx_buf s) - tx_buf_nxt s in
       let usable := snd_ewn s - tx_buf_nxt s in
       let len := Z.min (Z.min (snd_mss s) usable) remaining in
       if len =? 0 then (s, Ok tt)
       else transmit_packet None false true false false (py_slice (tx_buf_nxt s) (tx_buf_nxt s + len) (tx_buf s)) s) (
  pwhen (fun s => in_state [FIN_WAIT_1; LAST_ACK] s && negb (snd_nxt s =? snd_fin s)) (transmit_packet None false true true false [])))).

(** _delayed_ack, session.py:653-663 *)
Definition delayed_ack : P unit :=
  pwhen (fun s => expired TDelayedAck (tmr s))
    (_ <# pwhen (fun s => rcv_una s <? rcv_nxt s) transmit_ack ;;
     register_timer TDelayedAck DELAYED_ACK_DELAY).

(** _retransmit_packet_timeout, session.py:665-720 *)
Definition give_up : P unit :=
  _ <# (fun s => transmit_packet (Some (snd_una s)) false true false true [] s) ;;
  _ <# pwhen (in_state [ESTABLISHED; FIN_WAIT_1; FIN_WAIT_2; CLOSE_WAIT]) (_ <# pdo (set_conn_err TimedOut) ;; release_rx) ;;
  _ <# pwhen (in_state [SYN_SENT]) (_ <# pdo (set_conn_err TimedOut) ;; release_conn) ;;
  change_state CLOSED.
Definition rewind (s : sess) : sess :=
  let s := set_snd_nxt (snd_una s) (set_snd_ewn (snd_mss s) s) in
  if (snd_nxt s =? snd_ini s) || (snd_nxt s =? snd_fin s) then set_tx_mod (tx_mod s - 1) s else s.
Definition retransmit_timeout : P unit := fun s =>
  match dget (snd_una s) (tx_to s) with
  | None => (s, Ok tt)
  | Some c =>
      if expired (TRetransmit (snd_una s)) (tmr s) then
        if c =? RETRANSMIT_MAX then give_up s else pdo rewind s
      else (s, Ok tt)
  end.
(** _retransmit_packet_request, session.py:722-735 *)
Definition retransmit_request (p : tmd) : P unit :=
  _ <# pdo (fun s => set_tx_req (dset (d_ackn p) (dgetd (d_ackn p) 0 (tx_req s) + 1) (tx_req s)) s) ;;
  pwhen (fun s => 1 <? dgetd (d_ackn p) 0 (tx_req s)) (pdo (fun s => set_snd_nxt (snd_una s) s)).

(** _process_ack_packet, session.py:737-820; [again] is the call of tcp_fsm on a packet from
    the out of order queue *)
Definition process_ack (again : tmd -> P unit) (p : tmd) : P unit :=
  _ <# pdo (fun s => set_snd_una (Z.max (snd_una s) (d_ackn p)) s) ;;
  _ <# pwhen (fun s => (snd_nxt s <? snd_una s) && (snd_una s <=? snd_max s)) (pdo (fun s => set_snd_nxt (snd_una s) s)) ;;
  _ <# pdo (set_rcv_nxt (d_seq p + zlen (d_data p) + b2z (d_syn p) + b2z (d_fin p))) ;;
  _ <# (if zlen (d_data p) =? 0 then pret tt else enqueue_rx (d_data p)) ;;
  _ <# pdo (fun s => set_tx_buf (slice_from (tx_buf_una s) (tx_buf s)) s) ;;
  _ <# pdo (fun s => set_tx_mod (tx_mod s + tx_buf_una s) s) ;;
  _ <# pdo (fun s => set_snd_wnd (d_win p * snd_wsc s) s) ;;
  _ <# pdo (fun s => set_snd_ewn (Z.min (Z.shiftl (snd_ewn s) 1) (snd_wnd s)) s) ;;
  _ <# pdo (fun s => set_tx_req (dpurge (d_ackn p) (tx_req s)) s) ;;
  _ <# pdo (fun s => set_tx_to (dpurge (d_ackn p) (tx_to s)) s) ;;
  _ <# pdo (fun s => set_rx_req (dpurge (rcv_nxt s) (rx_req s)) s) ;;
  fun s => match dget (rcv_nxt s) (ooo s) with
           | None => (s, Ok tt)
           | Some q => again q (set_ooo (ddel (rcv_nxt s) (ooo s)) s)
           end.

(** ** the state handlers *)
Inductive event := EPacket (p : tmd) | ECall (c : syscall) | ETimer.
(** the flag tests *)
Definition is_syn (p : tmd) : bool := d_syn p && negb (d_ack p || d_fin p || d_rst p).
Definition is_synack (p : tmd) : bool := d_syn p && d_ack p && negb (d_fin p || d_rst p).
Definition is_ack (p : tmd) : bool := d_ack p && negb (d_syn p || d_rst p || d_fin p).
Definition is_finack (p : tmd) : bool := d_fin p && d_ack p && negb (d_syn p || d_rst p).
Definition is_rstack (p : tmd) : bool := d_rst p && d_ack p && negb (d_fin p || d_syn p).
Definition is_rst (p : tmd) : bool := d_rst p && negb (d_ack p || d_fin p || d_syn p).
Definition no_data (p : tmd) : bool := zlen (d_data p) =? 0.
(** "packet.seq == rcv_nxt" and "snd_una <= packet.ack <= snd_max" *)
Definition next_in (p : tmd) (s : sess) : bool := d_seq p =? rcv_nxt s.
Definition ack_ok (p : tmd) (s : sess) : bool := (snd_una s <=? d_ackn p) && (d_ackn p <=? snd_max s).
Definition fits (p : tmd) (s : sess) : bool := next_in p s && ack_ok p s.

(** _tcp_fsm_closed, session.py:822-839 *)
Definition fsm_closed (e : event) : P unit :=
  match e with
  | ECall Connect => change_state SYN_SENT
  | ECall Listen => change_state LISTEN
  | _ => pret tt
  end.
(** _tcp_fsm_listen, session.py:841-917: the session itself takes the connection, the new
    session and socket are the effect [FFork] *)
Definition adopt (p : tmd) (s : sess) : sess :=
  let s := set_s_lip (d_lip p) (set_s_lport (d_lport p) (set_s_rip (d_rip p) (set_s_rport (d_rport p) s))) in
  let s := set_effs (effs s ++ [FFork p]) s in
  (* the new socket has just been registered, tcp/socket.py:92 *)
  let s := set_reg true s in
  let s := set_snd_mss (Z.min (d_mss p) LOCAL_TCP_MSS) s in
  let s := set_snd_wnd (d_win p * snd_wsc s) s in
  let s := set_snd_wsc (match d_wscale p with Some w => if w =? 0 then 1 else w | None => 1 end) s in
  let s := set_rcv_ini (d_seq p) s in
  let s := set_snd_ewn (snd_mss s) s in
  set_rcv_nxt (d_seq p + b2z (d_syn p)) s.
Definition fsm_listen (e : event) : P unit :=
  match e with
  | EPacket p =>
      if is_syn p && ((d_ackn p =? 0) && no_data p) then _ <# pdo (adopt p) ;; change_state SYN_RCVD
      else pret tt
  | ECall Close => change_state CLOSED
  | _ => pret tt
  end.
(** _tcp_fsm_syn_sent, session.py:919-1010.  The branch for a SYN, lines 972-990, asks for a
    segment with and without the SYN flag and is left out *)
Definition synchronise (p : tmd) (s : sess) : sess :=
  let s := set_snd_mss (Z.min (d_mss p) LOCAL_TCP_MSS) s in
  let s := set_snd_wnd (d_win p * snd_wsc s) s in
  let s := set_snd_wsc (match d_wscale p with Some w => if w =? 0 then 1 else w | None => 1 end) s in
  let s := set_rcv_ini (d_seq p) s in
  set_snd_ewn (snd_mss s) s.
Definition fsm_syn_sent (again : tmd -> P unit) (e : event) : P unit :=
  match e with
  | ETimer => _ <# retransmit_timeout ;; transmit_data
  | EPacket p =>
      pif (fun s => is_synack p && ((d_ackn p =? snd_nxt s) && no_data p))
        (_ <# pdo (synchronise p) ;; _ <# process_ack again p ;; _ <# transmit_ack ;; _ <# change_state ESTABLISHED ;; release_conn)
        (pwhen (fun s => is_rstack p && ((d_seq p =? 0) && (d_ackn p =? snd_nxt s)))
           (_ <# change_state CLOSED ;; _ <# pdo (set_conn_err Refused) ;; release_conn))
  | ECall Close => change_state CLOSED
  | ECall _ => pret tt
  end.
(** _tcp_fsm_syn_rcvd, session.py:1012-1095 *)
Definition fsm_syn_rcvd (again : tmd -> P unit) (e : event) : P unit :=
  match e with
  | ETimer => _ <# retransmit_timeout ;; transmit_data
  | EPacket p =>
      pif (fun s => is_ack p && (next_in p s && (d_ackn p =? snd_nxt s) && no_data p))
        (_ <# process_ack again p ;; _ <# change_state ESTABLISHED ;; _ <# pdo (fun s => set_effs (effs s ++ [FAccept]) s) ;; release_conn)
        (pwhen (fun s => is_rstack p && fits p s || is_rst p && (next_in p s && (d_ackn p =? 0))) (change_state CLOSED))
  | ECall Close => change_state FIN_WAIT_1
  | ECall _ => pret tt
  end.
(** the out of order branch, session.py:1154-1165 and 1475-1486 *)
Definition store_ooo (p : tmd) : P unit :=
  _ <# pdo (fun s => set_ooo (dset (d_seq p) p (ooo s)) s) ;;
  _ <# pdo (fun s => set_rx_req (dset (rcv_nxt s) (dgetd (rcv_nxt s) 0 (rx_req s) + 1) (rx_req s)) s) ;;
  pwhen (fun s => dgetd (rcv_nxt s) 0 (rx_req s) <=? 2) transmit_ack.
(** _tcp_fsm_established, session.py:1097-1221 *)
Definition fsm_established (again : tmd -> P unit) (e : event) : P unit :=
  match e with
  | ETimer =>
      _ <# retransmit_timeout ;; _ <# transmit_data ;; _ <# delayed_ack ;;
      pwhen (fun s => closing s && (zlen (tx_buf s) =? 0)) (change_state FIN_WAIT_1)
  | EPacket p =>
      pif (fun s => negb ((rcv_nxt s <=? d_seq p) && (d_seq p <=? rcv_nxt s + RCV_WND - zlen (d_data p)))) (pret tt) (
      if is_ack p then
        pif (fun s => next_in p s && (d_ackn p =? snd_una s) && no_data p) (retransmit_request p) (
        pif (fun s => (rcv_nxt s <? d_seq p) && ack_ok p s) (store_ooo p) (
        pwhen (fits p) (process_ack again p)))
      else if is_finack p then
        pwhen (fits p)
          (_ <# process_ack again p ;; _ <# (if no_data p then pret tt else transmit_ack) ;; _ <# release_rx ;; change_state CLOSE_WAIT)
      else if is_rstack p then pwhen (fits p) (_ <# release_rx ;; change_state CLOSED)
      else pret tt)
  | ECall Close => pdo (set_closing true)
  | ECall _ => pret tt
  end.
(** _tcp_fsm_fin_wait_1, session.py:1223-1311 *)
Definition enter_time_wait : P unit := _ <# change_state TIME_WAIT ;; register_timer TTimeWait TIME_WAIT_DELAY.
Definition fsm_fin_wait_1 (again : tmd -> P unit) (e : event) : P unit :=
  match e with
  | ETimer => _ <# retransmit_timeout ;; transmit_data
  | EPacket p =>
      if is_ack p then
        pwhen (fits p)
          (_ <# process_ack again p ;; _ <# (if no_data p then pret tt else transmit_ack) ;;
           pwhen (fun s => snd_fin s <=? d_ackn p) (change_state FIN_WAIT_2))
      else if is_finack p then
        pwhen (fits p)
          (_ <# process_ack again p ;; _ <# transmit_ack ;;
           pif (fun s => snd_fin s <=? d_ackn p) enter_time_wait (change_state CLOSING))
      else if is_rstack p then pwhen (fits p) (change_state CLOSED)
      else pret tt
  | ECall _ => pret tt
  end.
(** _tcp_fsm_fin_wait_2, session.py:1313-1383 *)
Definition fsm_fin_wait_2 (again : tmd -> P unit) (e : event) : P unit :=
  match e with
  | EPacket p =>
      if is_ack p then pwhen (fits p) (_ <# process_ack again p ;; if no_data p then pret tt else transmit_ack)
      else if is_finack p then pwhen (fits p) (_ <# process_ack again p ;; _ <# transmit_ack ;; enter_time_wait)
      else if is_rstack p then pwhen (fits p) (change_state CLOSED)
      else pret tt
  | _ => pret tt
  end.
(** _tcp_fsm_closing, session.py:1385-1431 *)
Definition fsm_closing (e : event) : P unit :=
  match e with
  | EPacket p =>
      if is_ack p then
        pwhen (fun s => (d_ackn p =? snd_nxt s) && ack_ok p s) (_ <# pdo (set_snd_una (d_ackn p)) ;; enter_time_wait)
      else if is_rstack p then pwhen (fits p) (change_state CLOSED)
      else pret tt
  | _ => pret tt
  end.
(** _tcp_fsm_close_wait, session.py:1433-1519 *)
Definition fsm_close_wait (again : tmd -> P unit) (e : event) : P unit :=
  match e with
  | ETimer =>
      _ <# retransmit_timeout ;; _ <# transmit_data ;; _ <# delayed_ack ;;
      pwhen (fun s => closing s && (zlen (tx_buf s) =? 0)) (change_state LAST_ACK)
  | EPacket p =>
      if is_ack p then
        pif (fun s => next_in p s && (d_ackn p =? snd_una s) && no_data p) (retransmit_request p) (
        pif (fun s => (rcv_nxt s <? d_seq p) && ack_ok p s) (store_ooo p) (
        pwhen (fun s => fits p s && no_data p) (process_ack again p)))
      else if is_rst p then pwhen (next_in p) (change_state CLOSED)
      else pret tt
  | ECall Close => pdo (set_closing true)
  | ECall _ => pret tt
  end.
(** _tcp_fsm_last_ack, session.py:1521-1570 *)
Definition fsm_last_ack (e : event) : P unit :=
  match e with
  | ETimer => _ <# retransmit_timeout ;; transmit_data
  | EPacket p =>
      if is_ack p then pwhen (fun s => (d_ackn p =? snd_nxt s) && ack_ok p s) (change_state CLOSED)
      else if is_rstack p then pwhen (fits p) (change_state CLOSED)
      else pret tt
  | ECall _ => pret tt
  end.
(** _tcp_fsm_time_wait, session.py:1572-1585 *)
Definition fsm_time_wait (e : event) : P unit :=
  match e with
  | ETimer => pwhen (fun s => expired TTimeWait (tmr s)) (change_state CLOSED)
  | _ => pret tt
  end.
(** tcp_fsm, session.py:1587-1611.  Every nested call takes a packet out of the out of order
    queue, so [fuel] = one more than the number of packets in it suffices *)
Fixpoint fsm (fuel : nat) (e : event) : P unit :=
  match fuel with
  | O => fun s => (s, Exn OutOfFuel)
  | S fuel => fun s =>
      let again p := fsm fuel (EPacket p) in
      match st s with
      | CLOSED => fsm_closed e s
      | LISTEN => fsm_listen e s
      | SYN_SENT => fsm_syn_sent again e s
      | SYN_RCVD => fsm_syn_rcvd again e s
      | ESTABLISHED => fsm_established again e s
      | FIN_WAIT_1 => fsm_fin_wait_1 again e s
      | FIN_WAIT_2 => fsm_fin_wait_2 again e s
      | CLOSING => fsm_closing e s
      | CLOSE_WAIT => fsm_close_wait again e s
      | LAST_ACK => fsm_last_ack e s
      | TIME_WAIT => fsm_time_wait e s
      end
  end.
Definition tcp_fsm (e : event) : P unit := fun s => fsm (S (length (ooo s))) e s.

(** ** the calls *)
(** send, session.py:410-421 *)
Definition session_send (d : bytes) : P Z := fun s =>
  if in_state [ESTABLISHED; CLOSE_WAIT] s then (set_tx_buf (tx_buf s ++ d) s, Ok (zlen d)) else (s, Exn SessionError).
(** receive, session.py:423-457: a reading thread waits for the semaphore, looks at the
    buffer, if it is empty looks at the state, and takes bytes under the buffer lock *)
Inductive reader := RIdle | RAcquired | RSawEmpty | RTake.
Definition ended (s : sess) : bool := in_state [CLOSE_WAIT; CLOSED] s.
Definition take_count (n : option Z) (s : sess) : Z :=
  match n with None => zlen (rx_buf s) | Some k => Z.min k (zlen (rx_buf s)) end.
(** one step of the thread; the bytes returned if it is the last one *)
Definition read_step (n : option Z) (r : reader) (s : sess) : sess * reader * option bytes :=
  match r with
  | RIdle => if 0 <? ev_rx s then (set_ev_rx (ev_rx s - 1) s, RAcquired, None) else (s, RIdle, None)
  | RAcquired => (s, if zlen (rx_buf s) =? 0 then RSawEmpty else RTake, None)
  | RSawEmpty => if ended s then (s, RIdle, Some []) else (s, RTake, None)
  | RTake =>
      let k := take_count n s in
      let d := py_slice 0 k (rx_buf s) in
      let s := set_rx_buf (slice_from (py_end k (rx_buf s)) (rx_buf s)) s in
      let s := if negb (zlen (rx_buf s) =? 0) || ended s then set_ev_rx (ev_rx s + 1) s else s in
      (s, RIdle, Some d)
  end.

(** ** a connection in use: the session, its reading threads, what the reads returned and
    what the writes accepted *)
Record conn := { c_sess : sess; c_rd : nat -> reader; c_read : list bytes; c_written : bytes }.
Inductive op :=
| OTick                               (* one millisecond: the timers count down, then tcp_fsm(timer=True) *)
| OSegment (p : tmd)                  (* a segment for this session *)
| OClose                              (* close() *)
| OSend (d : bytes)                   (* send(), with its result ignored *)
| ORead (i : nat) (n : option Z).     (* the next step of reading thread i *)
Definition tick : P unit := _ <# pdo (fun s => set_tmr (tdec (tmr s)) s) ;; tcp_fsm ETimer.
Definition with_sess (c : conn) (r : sess * res unit) : conn * res unit :=
  ({| c_sess := fst r; c_rd := c_rd c; c_read := c_read c; c_written := c_written c |}, snd r).
Definition op_do (o : op) (c : conn) : conn * res unit :=
  match o with
  | OTick => with_sess c (tick (c_sess c))
  | OSegment p => with_sess c (tcp_fsm (EPacket p) (c_sess c))
  | OClose => with_sess c (tcp_fsm (ECall Close) (c_sess c))
  | OSend d =>
      match session_send d (c_sess c) with
      | (s, Ok _) => ({| c_sess := s; c_rd := c_rd c; c_read := c_read c; c_written := c_written c ++ d |}, Ok tt)
      | (s, Exn e) => (c, Exn e)
      end
  | ORead i n =>
      match read_step n (c_rd c i) (c_sess c) with
      | (s, r, d) =>
          ({| c_sess := s; c_rd := fun j => if Nat.eqb j i then r else c_rd c j;
              c_read := c_read c ++ match d with Some d => [d] | None => [] end; c_written := c_written c |}, Ok tt)
      end
  end.
(** the states after each operation and the exceptions raised *)
Fixpoint op_run (l : list op) (c : conn) : conn * list (res unit) :=
  match l with
  | [] => (c, [])
  | o :: l => let (c', r) := op_do o c in let (c'', rs) := op_run l c' in (c'', r :: rs)
  end.
(** connect(), session.py:389-397, up to the wait, and listen(), session.py:379-387, on a
    new session *)
Definition start (c : syscall) (s : sess) : conn :=
  {| c_sess := fst (tcp_fsm (ECall c) s); c_rd := fun _ => RIdle; c_read := []; c_written := [] |}.
