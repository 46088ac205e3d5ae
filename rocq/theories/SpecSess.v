(** What is asked of a TCP session, in terms of what the application and the peer see. *)
From Verif Require Import Base AddrModel TcpModel StackModel StackRxModel SessModel.

(** the connections reachable from [c0] when every operation is one of the allowed ones *)
Inductive reach (allowed : op -> conn -> Prop) (c0 : conn) : conn -> Prop :=
| reach_0 : reach allowed c0 c0
| reach_op c o : reach allowed c0 c -> allowed o c -> reach allowed c0 (fst (op_do o c)).
(** a connection just opened, actively or passively, with initial sequence number [iss];
    the timers are a dict *)
Definition opened (iss : Z) (c : conn) : Prop :=
  0 <= iss < 2 ^ 32 /\ exists call lip lport rip rport timers, (call = Connect \/ call = Listen) /\
    NoDup (map fst timers) /\ c = start call (new_session lip lport rip rport iss true timers).
(** operations without any restriction *)
Definition any_op (o : op) (c : conn) : Prop := True.
(** the peer never acknowledges our initial sequence number itself and its MSS is not
    negative, and close() is not called on a half-open connection, which no socket refers to *)
Definition sane_op (iss : Z) (o : op) (c : conn) : Prop :=
  match o with
  | OSegment p => d_ackn p <> iss /\ 0 <= d_mss p
  | OClose => st (c_sess c) <> SYN_RCVD
  | _ => True
  end.

(** C65: the bytes of a segment are those the application wrote at its place in the stream *)
Definition carries (iss : Z) (w : bytes) (t : tcp_tx) : Prop :=
  (x_data t <> [] -> exists k, 0 <= k /\ x_seq t = iss + 1 + k /\ k + zlen (x_data t) <= zlen w /\
     x_data t = firstn (length (x_data t)) (skipn (Z.to_nat k) w)) /\
  (x_ffin t = true -> x_seq t = iss + 1 + zlen w).

(** C68: the edges of the connection state diagram and the events they are documented for *)
Definition flags_of (p : tmd) : bool * bool * bool * bool := (d_syn p, d_ack p, d_fin p, d_rst p).
Definition documented (o : op) (a b : fsm_state) : Prop :=
  match a, b with
  | LISTEN, SYN_RCVD => exists p, o = OSegment p /\ flags_of p = (true, false, false, false)
  | LISTEN, CLOSED => o = OClose
  | SYN_SENT, ESTABLISHED => exists p, o = OSegment p /\ flags_of p = (true, true, false, false)
  | SYN_SENT, CLOSED => o = OClose \/ o = OTick \/ exists p, o = OSegment p /\ flags_of p = (false, true, false, true)
  | SYN_RCVD, ESTABLISHED => exists p, o = OSegment p /\ flags_of p = (false, true, false, false)
  | SYN_RCVD, CLOSED => o = OTick \/ exists p, o = OSegment p /\ d_rst p = true
  | ESTABLISHED, FIN_WAIT_1 => o = OTick
  | ESTABLISHED, CLOSE_WAIT => exists p, o = OSegment p /\ flags_of p = (false, true, true, false)
  | FIN_WAIT_1, FIN_WAIT_2 | FIN_WAIT_2, FIN_WAIT_2 => exists p, o = OSegment p /\ d_ack p = true
  | FIN_WAIT_1, CLOSING | FIN_WAIT_1, TIME_WAIT | FIN_WAIT_2, TIME_WAIT => exists p, o = OSegment p /\ flags_of p = (false, true, true, false)
  | CLOSING, TIME_WAIT => exists p, o = OSegment p /\ flags_of p = (false, true, false, false)
  | CLOSE_WAIT, LAST_ACK => o = OTick
  | LAST_ACK, CLOSED => o = OTick \/ exists p, o = OSegment p /\ (flags_of p = (false, true, false, false) \/ d_rst p = true)
  | TIME_WAIT, CLOSED => o = OTick
  | ESTABLISHED, CLOSED | FIN_WAIT_1, CLOSED | CLOSE_WAIT, CLOSED => o = OTick \/ exists p, o = OSegment p /\ d_rst p = true
  | FIN_WAIT_2, CLOSED | CLOSING, CLOSED => exists p, o = OSegment p /\ d_rst p = true
  | _, _ => False
  end.
(** the state changes one operation can make, one after the other *)
Inductive edges (o : op) : fsm_state -> fsm_state -> Prop :=
| edges_0 a : edges o a a
| edges_1 a b c : documented o a b -> edges o b c -> edges o a c.

(** C63: a segment of a peer with initial sequence number [irs] sending the bytes [stream]:
    the SYN is at [irs]; data and FIN are at their place in the stream, the sequence number
    taken modulo 2^32.  [got] bytes have been received so far; the segment is less than 2^32
    away from there (always so if the stream is shorter than that). *)
Definition from_peer (irs : Z) (stream : bytes) (got : Z) (p : tmd) : Prop :=
  0 <= d_seq p < 2 ^ 32 /\ (d_syn p = true -> d_seq p = irs) /\
  (d_data p <> [] \/ d_fin p = true -> exists k, 0 <= k /\ Z.abs (k - got) < 2 ^ 32 /\ d_seq p = (irs + 1 + k) mod 2 ^ 32 /\
     k + zlen (d_data p) <= zlen stream /\ d_data p = firstn (length (d_data p)) (skipn (Z.to_nat k) stream) /\
     (d_fin p = true -> k + zlen (d_data p) = zlen stream)).
(** all that was received, read by the application or not *)
Definition received (c : conn) : bytes := concat (c_read c) ++ rx_buf (c_sess c).
Definition peer_op (irs : Z) (stream : bytes) (o : op) (c : conn) : Prop :=
  match o with OSegment p => from_peer irs stream (zlen (received c)) p | _ => True end.
Definition prefix {A} (a b : list A) : Prop := exists r, b = a ++ r.

(** the milliseconds a run takes *)
Definition ticks (l : list op) : Z := zlen (filter (fun o => match o with OTick => true | _ => false end) l).

(** C70: all up to [n] has been acknowledged *)
Definition acknowledged (n : Z) (s : sess) : Prop := exists t, In t (sent s) /\ x_fack t = true /\ n <= x_ack t.
(** the sequence numbers of segments are not negative *)
Definition seq_op (iss : Z) (o : op) (c : conn) : Prop := sane_op iss o c /\ match o with OSegment p => 0 <= d_seq p | _ => True end.
(** a run during which the connection stays up and no tick raises *)
Fixpoint steady (iss : Z) (l : list op) (c : conn) : Prop :=
  match l with
  | [] => True
  | o :: l => seq_op iss o c /\ (o = OTick -> snd (op_do o c) = Ok tt) /\ In (st (c_sess (fst (op_do o c)))) [ESTABLISHED; CLOSE_WAIT] /\ steady iss l (fst (op_do o c))
  end.
(** a delayed acknowledgement timer left over by an earlier session of the same name runs at
    most 100 ms *)
Definition delay_ok (c : conn) : Prop := forall x, tget TDelayedAck (tmr (c_sess c)) = Some x -> 0 < x <= 100.

(** C71: the ports, sequence numbers and options of a segment are those of a well-formed one,
    with an MSS and a window of at least one byte, ending below 2^32; neither it nor a segment
    waiting in the out of order queue advertises less than what is in flight; and the stream
    written ends below 2^32 *)
Definition fine (p : tmd) : Prop :=
  0 <= d_lport p <= 0xFFFF /\ 0 <= d_rport p <= 0xFFFF /\ 1 <= d_mss p /\ (forall w, d_wscale p = Some w -> 0 <= w) /\
  0 <= d_seq p /\ d_seq p + zlen (d_data p) + 2 < 2 ^ 32 /\ 1 <= d_win p.
Definition room (p : tmd) (s : sess) : Prop := snd_nxt s - snd_una s <= d_win p * snd_wsc s.
Definition roomy_op (iss : Z) (o : op) (c : conn) : Prop :=
  sane_op iss o c /\
  match o with
  | OSegment p => fine p /\ room p (c_sess c) /\ (forall k q, In (k, q) (ooo (c_sess c)) -> room q (c_sess c))
  | OSend d => iss + 2 + zlen (c_written c ++ d) < 2 ^ 32
  | _ => True
  end.
Definition ports_ok (c : conn) : Prop := 0 <= s_lport (c_sess c) <= 0xFFFF /\ 0 <= s_rport (c_sess c) <= 0xFFFF.
(** a run of allowed operations during which the connection stays up *)
Fixpoint stays (allowed : op -> conn -> Prop) (l : list op) (c : conn) : Prop :=
  match l with
  | [] => True
  | o :: l => allowed o c /\ In (st (c_sess (fst (op_do o c)))) [ESTABLISHED; CLOSE_WAIT] /\ stays allowed l (fst (op_do o c))
  end.

(** C64: one read from its start to its return, or to where it waits, uninterrupted *)
Fixpoint read_on (fuel : nat) (i : nat) (n : option Z) (c : conn) : conn :=
  let c' := fst (op_do (ORead i n) c) in
  match fuel, c_rd c' i with
  | S fuel, (RAcquired | RSawEmpty | RTake) => read_on fuel i n c'
  | _, _ => c'
  end.
Definition read_now (i : nat) (n : option Z) (c : conn) : conn := read_on 3 i n c.
(** the connections reachable when every read is uninterrupted *)
Inductive areach (allowed : op -> conn -> Prop) (c0 : conn) : conn -> Prop :=
| areach_0 : areach allowed c0 c0
| areach_op c o : areach allowed c0 c -> allowed o c -> (forall i n, o <> ORead i n) -> areach allowed c0 (fst (op_do o c))
| areach_read c i n : areach allowed c0 c -> areach allowed c0 (read_now i n c).
Definition eof_op (iss irs : Z) (stream : bytes) (o : op) (c : conn) : Prop := sane_op iss o c /\ peer_op irs stream o c.
(** the session was closed by a reset, a timeout or a close before it was established *)
Definition aborted (s : sess) : Prop := exists a, In (a, CLOSED) (hist s) /\ ~ In a [LAST_ACK; TIME_WAIT].
(** a read that asks for something *)
Definition asks (n : option Z) : Prop := forall k, n = Some k -> 0 < k.

(** C69: how often the segment that starts at [q] was transmitted, pure acknowledgements and
    resets aside *)
Definition transmissions (q : Z) (s : sess) : Z :=
  zlen (filter (fun t => (x_seq t =? q) && (negb (zlen (x_data t) =? 0) || x_fsyn t || x_ffin t)) (sent s)).
(** a segment waits for its acknowledgement: [k] retransmissions are counted and the timer has
    [x] milliseconds left *)
Definition waits (k x : Z) (s : sess) : Prop :=
  In (st s) [SYN_SENT; SYN_RCVD; ESTABLISHED; FIN_WAIT_1; CLOSE_WAIT; LAST_ACK] /\ snd_una s < snd_nxt s /\
  dget (snd_una s) (tx_to s) = Some k /\ tget (TRetransmit (snd_una s)) (tmr s) = Some x.
(** operations without news from the peer *)
Definition quiet_op (o : op) (c : conn) : Prop :=
  match o with OSegment _ => False | OClose => st (c_sess c) <> SYN_SENT /\ st (c_sess c) <> SYN_RCVD | _ => True end.
(** the timeouts double: the j-th retransmission has 1000 * 2^j ms.  After [n]
    milliseconds it was sent again so many times, and after this time it is given up *)
Definition resends (k x n : Z) : Z := zlen (filter (fun j => (k <? j) && (x + 1000 * (2 ^ j - 2 ^ (k + 1)) <=? n)) [1; 2; 3]).
Definition gives_up (k x : Z) : Z := x + 1000 * (2 ^ 4 - 2 ^ (k + 1)).

(** the session is reset and closed and those who wait are told *)
Definition told (s s' : sess) : Prop :=
  st s' = CLOSED /\ reg s' = false /\ (exists t, sent s' = sent s ++ [t] /\ x_frst t = true /\ x_seq t = snd_una s /\ x_data t = [] /\ x_fsyn t = false /\ x_ffin t = false) /\
  (In (st s) [ESTABLISHED; FIN_WAIT_1; CLOSE_WAIT] -> conn_err s' = TimedOut /\ ev_rx s' = ev_rx s + 1) /\
  (st s = SYN_SENT -> conn_err s' = TimedOut /\ ev_conn s' = ev_conn s + 1).
(** a run of allowed operations *)
Fixpoint all_of (allowed : op -> conn -> Prop) (l : list op) (c : conn) : Prop :=
  match l with [] => True | o :: l => allowed o c /\ all_of allowed l (fst (op_do o c)) end.

(** C73: segments as they come from the wire: windows and window scales are not negative *)
Definition wire_op (iss : Z) (o : op) (c : conn) : Prop :=
  sane_op iss o c /\ match o with OSegment p => 0 <= d_win p /\ (forall w, d_wscale p = Some w -> 0 <= w) | _ => True end.

(** C72: sequence numbers on the wire have 32 bits *)
Definition ack32_op (iss : Z) (o : op) (c : conn) : Prop := sane_op iss o c /\ match o with OSegment p => d_ackn p < 2 ^ 32 | _ => True end.
