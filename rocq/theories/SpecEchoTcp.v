(** What a TCP echo service promises its client. *)
From Verif Require Import Base AddrModel TcpModel StackModel StackRxModel SessModel SpecSess EchoModel SpecEcho EchoTcpModel.

(** space, tab, newline, vertical tab, form feed, carriage return *)
Definition blank (b : Z) : Prop := In b [32; 9; 10; 11; 12; 13].
(** the message is one of the words, in small or capital letters, with blanks around it *)
Definition takes_leave (m : bytes) : Prop :=
  exists w a x b, In w quit_words /\ m = a ++ x ++ b /\ Forall blank a /\ Forall blank b /\ Forall2 same_letter x w.
(** the answer to what one recv() returned *)
Inductive reply_to (m : bytes) : bytes -> Prop :=
| rp_closed : m = [] -> reply_to m client_closed
| rp_leave : m <> [] -> takes_leave m -> reply_to m client_open
| rp_echo x : m <> [] -> ~ takes_leave m -> answer_to m x -> reply_to m x.
(** what was written is the greeting and one answer for each of the [reads] *)
Definition said_all (reads : list bytes) (written : bytes) : Prop :=
  exists l, Forall2 reply_to reads l /\ written = hello ++ concat l.
Definition transcript (a : srv_at) (c : conn) : Prop :=
  match a with
  | SGreet => c_read c = [] /\ c_written c = []
  | SGot m => exists l, c_read c = l ++ [m] /\ said_all l (c_written c)
  | SDied _ => (c_read c = [] /\ c_written c = []) \/ exists l m, c_read c = l ++ [m] /\ said_all l (c_written c)
  | _ => said_all (c_read c) (c_written c)
  end.
(** the connection has been established *)
Definition established_states : list fsm_state := [ESTABLISHED; FIN_WAIT_1; FIN_WAIT_2; CLOSING; CLOSE_WAIT; LAST_ACK; TIME_WAIT; CLOSED].
Definition passive (iss : Z) (c : conn) : Prop :=
  0 <= iss < 2 ^ 32 /\ exists lip lport rip rport, c = start Listen (new_session lip lport rip rport iss true []).
(** every segment satisfies [P] when it arrives *)
Fixpoint segments (P : tmd -> conn -> Prop) (es : list srv_ev) (s : srv) : Prop :=
  match es with
  | [] => True
  | e :: r => match e with SSegment p => P p (v_conn s) | _ => True end /\ segments P r (srv_do e s)
  end.
Definition sane_seg (iss : Z) (p : tmd) (c : conn) : Prop := d_ackn p <> iss /\ 0 <= d_mss p.
(** a connection as accept() hands it over *)
Definition handed (allowed : op -> conn -> Prop) (iss : Z) (c : conn) : Prop :=
  exists c0, passive iss c0 /\ reach allowed c0 c /\ In (st (c_sess c)) established_states /\ c_read c = [] /\ c_written c = [] /\ c_rd c 0%nat = RIdle.
(** no segment and no millisecond comes in the middle of a recv() *)
Definition whole_ev (P : tmd -> conn -> Prop) (e : srv_ev) (s : srv) : Prop :=
  match e with SSegment p => P p (v_conn s) /\ c_rd (v_conn s) 0%nat = RIdle | STick => c_rd (v_conn s) 0%nat = RIdle | _ => True end.
Fixpoint unbroken (P : tmd -> conn -> Prop) (es : list srv_ev) (s : srv) : Prop :=
  match es with [] => True | e :: r => whole_ev P e s /\ unbroken P r (srv_do e s) end.
Definition handed_whole (allowed : op -> conn -> Prop) (iss : Z) (c : conn) : Prop :=
  exists c0, passive iss c0 /\ areach allowed c0 c /\ In (st (c_sess c)) established_states /\ c_read c = [] /\ c_written c = [].
