(** What is asked of connect(). *)
From Verif Require Import Base AddrModel TcpModel StackModel StackRxModel SessModel SessCallModel SpecSess SpecSess2.

(** C90: connect() was called on a new session with initial sequence number [iss] *)
Definition dialed (iss : Z) (c : conn) : Prop :=
  0 <= iss < 2 ^ 32 /\ exists lip lport rip rport timers, NoDup (map fst timers) /\ c = start Connect (new_session lip lport rip rport iss true timers).
(** between [c0] and [c] operation [o] was done, in [c1] *)
Definition happened (allowed : op -> conn -> Prop) (c0 : conn) (o : op) (c1 c : conn) : Prop :=
  reach allowed c0 c1 /\ allowed o c1 /\ reach allowed (fst (op_do o c1)) c.
(** the SYN has been sent *)
Definition syn_out (iss : Z) (c : conn) : Prop := exists t, In t (sent (c_sess c)) /\ x_fsyn t = true /\ x_fack t = false /\ x_seq t = iss.
(** the peer's acceptance and refusal *)
Definition accepts (iss : Z) (p : tmd) : Prop := flags_of p = (true, true, false, false) /\ d_data p = [] /\ d_ackn p = iss + 1.
Definition refuses (iss : Z) (p : tmd) : Prop := flags_of p = (false, true, false, true) /\ d_seq p = 0 /\ d_ackn p = iss + 1.
(** the tick gives the connection up and resets the peer *)
Definition abandons (c : conn) : Prop :=
  let s := c_sess c in let s' := c_sess (fst (op_do OTick c)) in
  conn_err s = NoError /\ conn_err s' = TimedOut /\ exists t, sent s' = sent s ++ [t] /\ x_frst t = true /\ x_seq t = snd_una s.
(** the call went on in [c1] and looked at the session there, in [c2], [c3] and [c4] *)
Definition ends_with (allowed : op -> conn -> Prop) (r : connect_end) (c0 c1 c2 c3 c4 : conn) : Prop :=
  reach allowed c0 c1 /\ connect_wakes (c_sess c1) = true /\ reach allowed c1 c2 /\ reach allowed c2 c3 /\ reach allowed c3 c4 /\
  connect_ends (c_sess c1) (c_sess c2) (c_sess c3) (c_sess c4) = r.
(** no close() while connect() waits *)
Definition patient (o : op) (c : conn) : Prop := o = OClose -> st (c_sess c) <> SYN_SENT.
(** what the result of the call says *)
Definition outcome (allowed : op -> conn -> Prop) (iss : Z) (r : connect_end) (c0 c1 c4 : conn) : Prop :=
  match r with
  | Connected => exists c p, happened allowed c0 (OSegment p) c c1 /\ st (c_sess c) = SYN_SENT /\ syn_out iss c /\ accepts iss p
  | ConnectRefused => exists c p, happened allowed c0 (OSegment p) c c1 /\ st (c_sess c) = SYN_SENT /\ syn_out iss c /\ refuses iss p
  | ConnectTimedOut => exists c, happened allowed c0 OTick c c4 /\ abandons c
  end.
(** however the call goes on from [c] this is its result *)
Definition result_is (r : connect_end) (c : conn) : Prop :=
  connect_wakes (c_sess c) = true /\
  forall c1 c2 c3 c4, reach any_op c c1 -> reach any_op c1 c2 -> reach any_op c2 c3 -> reach any_op c3 c4 -> connect_ends (c_sess c1) (c_sess c2) (c_sess c3) (c_sess c4) = r.
(** what is allowed while connect() waits *)
Definition dial_op (iss : Z) (o : op) (c : conn) : Prop := roomy_op iss o c /\ patient o c.
Definition quiet_dial (iss : Z) (o : op) (c : conn) : Prop := roomy_op iss o c /\ quiet_op o c.
