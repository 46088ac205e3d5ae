(** The TCP echo service of the examples, for one connection: TcpEchoService.service,
    examples/tcp_echo_service.py:69-129, run in a thread of its own by
    examples/lib/tcp_service.py:144-152.  No proofs here.

    The thread works on the session of a connected socket, as accept() returns it: a remote
    address and port are set, so the test of send, tcp/socket.py:314, passes.  It is the
    reading thread 0 of [conn], and the only one.  Left out: the console output. *)
From Verif Require Import Base AddrModel TcpModel StackModel StackRxModel SessModel EchoModel.

(** the byte strings of lines 78, 90 and 103 *)
Definition hello : bytes := [42; 42; 42; 67; 76; 73; 69; 78; 84; 32; 79; 80; 69; 78; 32; 47; 32; 83; 69; 82; 86; 73; 67; 69; 32; 79; 80; 69; 78; 42; 42; 42; 10].
Definition client_closed : bytes := [42; 42; 42; 67; 76; 73; 69; 78; 84; 32; 67; 76; 79; 83; 69; 68; 44; 32; 83; 69; 82; 86; 73; 67; 69; 32; 67; 76; 79; 83; 73; 78; 71; 42; 42; 42; 10].
Definition client_open : bytes := [42; 42; 42; 67; 76; 73; 69; 78; 84; 32; 79; 80; 69; 78; 44; 32; 83; 69; 82; 86; 73; 67; 69; 32; 67; 76; 79; 83; 73; 78; 71; 42; 42; 42; 10].
(** {b"quit", b"close", b"bye", b"exit"}, line 98 *)
Definition quit_words : list bytes := [[113; 117; 105; 116]; [99; 108; 111; 115; 101]; [98; 121; 101]; [101; 120; 105; 116]].
Definition bytes_eqb (a b : bytes) : bool := if list_eq_dec Z.eq_dec a b then true else false.
Definition quits (m : bytes) : bool := existsb (bytes_eqb (lower (strip m))) quit_words.

(** where the thread is: before the first message, at the test of "while self._run_thread", in
    recv(), with what recv() returned, before close() (which "continue" or "break" follows),
    returned, or ended by an exception *)
Inductive srv_at := SGreet | STest | SRecv | SGot (m : bytes) | SClose (again : bool) | SDone | SDied (e : exn).
Record srv := { v_conn : conn; v_at : srv_at; v_run : bool }.
(** what is sent about what was received, lines 81-125, and what comes next *)
Definition srv_reply (m : bytes) : bytes := if zlen m =? 0 then client_closed else if quits m then client_open else echo_message m.
Definition srv_next (m : bytes) : srv_at := if zlen m =? 0 then SClose false else if quits m then SClose true else STest.
(** a step of the thread, stop(), a millisecond, a segment *)
Inductive srv_ev := SThread | SStop | STick | SSegment (p : tmd).
Definition srv_op (e : srv_ev) (s : srv) : option op :=
  match e with
  | STick => Some OTick
  | SSegment p => Some (OSegment p)
  | SStop => None
  | SThread =>
      match v_at s with
      | SGreet => Some (OSend hello)
      | SRecv => Some (ORead 0 None)
      | SGot m => Some (OSend (srv_reply m))
      | SClose _ => Some OClose
      | STest | SDone | SDied _ => None
      end
  end.
Definition v_with (c : conn) (a : srv_at) (s : srv) : srv := {| v_conn := c; v_at := a; v_run := v_run s |}.
(** the TcpSessionError of send becomes a BrokenPipeError, tcp/socket.py:320-325; nothing
    catches it *)
Definition srv_do (e : srv_ev) (s : srv) : srv :=
  let c := match srv_op e s with Some o => fst (op_do o (v_conn s)) | None => v_conn s end in
  let r := match srv_op e s with Some o => snd (op_do o (v_conn s)) | None => Ok tt end in
  match e with
  | STick | SSegment _ => v_with c (v_at s) s
  | SStop => {| v_conn := v_conn s; v_at := v_at s; v_run := false |}
  | SThread =>
      match v_at s with
      | SGreet => v_with c match r with Ok _ => STest | Exn _ => SDied BrokenPipe end s
      | STest => v_with c (if v_run s then SRecv else SDone) s
      | SRecv => v_with c match snd (read_step None (c_rd (v_conn s) 0%nat) (c_sess (v_conn s))) with Some m => SGot m | None => SRecv end s
      | SGot m => v_with c match r with Ok _ => srv_next m | Exn _ => SDied BrokenPipe end s
      | SClose again => v_with c match r with Ok _ => if again then STest else SDone | Exn x => SDied x end s
      | SDone | SDied _ => s
      end
  end.
Fixpoint srv_run (es : list srv_ev) (s : srv) : srv :=
  match es with [] => s | e :: r => srv_run r (srv_do e s) end.
Definition serve (c : conn) : srv := {| v_conn := c; v_at := SGreet; v_run := true |}.
