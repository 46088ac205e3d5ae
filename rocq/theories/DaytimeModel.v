(** The TCP daytime service of the examples, for one connection: TcpDaytimeService.service,
    examples/tcp_daytime_service.py:77-111, run in a thread of its own by
    examples/lib/tcp_service.py:144-152.  No proofs here.

    As in EchoTcpModel the socket is the one accept() returned, so the test of send,
    tcp/socket.py:314, passes.  The text of str(datetime.now()), line 92, comes with the step of
    the thread that reads the clock: any text whose bytes are given.  Left out: the console
    output and how long time.sleep, line 104, takes. *)
From Verif Require Import Base AddrModel TcpModel StackModel StackRxModel SessModel EchoModel EchoTcpModel.

(** where the thread is: before the first message, at the test of line 91, before send() with the
    message, in sleep(), before close(), returned, or ended by an exception *)
Inductive day_at := DGreet | DTest | DSay (m : bytes) | DSleep | DClose | DDone | DDied (e : exn).
(** [y_count]: the local message_count of line 83 *)
Record day := { y_conn : conn; y_at : day_at; y_run : bool; y_count : Z }.
(** a step of the thread with what the clock says, stop(), a millisecond, a segment *)
Inductive day_ev := DThread (now : bytes) | DStop | DTick | DSegment (p : tmd).
Definition day_op (e : day_ev) (s : day) : option op :=
  match e with
  | DTick => Some OTick
  | DSegment p => Some (OSegment p)
  | DStop => None
  | DThread _ =>
      match y_at s with
      | DGreet => Some (OSend hello)
      | DSay m => Some (OSend m)
      | DClose => Some OClose
      | DTest | DSleep | DDone | DDied _ => None
      end
  end.
Definition y_with (c : conn) (a : day_at) (n : Z) (s : day) : day := {| y_conn := c; y_at := a; y_run := y_run s; y_count := n |}.
(** the TcpSessionError of send becomes a BrokenPipeError, tcp/socket.py:320-325, which is an
    OSError: caught at lines 96-98, not at line 89; line 105 counts down *)
Definition day_do (e : day_ev) (s : day) : day :=
  let c := match day_op e s with Some o => fst (op_do o (y_conn s)) | None => y_conn s end in
  let r := match day_op e s with Some o => snd (op_do o (y_conn s)) | None => Ok tt end in
  let n := y_count s in
  match e with
  | DTick | DSegment _ => y_with c (y_at s) n s
  | DStop => {| y_conn := y_conn s; y_at := y_at s; y_run := false; y_count := n |}
  | DThread now =>
      match y_at s with
      | DGreet => y_with c match r with Ok _ => DTest | Exn _ => DDied BrokenPipe end n s
      | DTest => y_with c (if y_run s && negb (n =? 0) then DSay (now ++ [10]) else DClose) n s
      | DSay m => y_with c match r with Ok _ => DSleep | Exn _ => DClose end n s
      | DSleep => y_with c DTest (Z.min n (n - 1)) s
      | DClose => y_with c match r with Ok _ => DDone | Exn x => DDied x end n s
      | DDone | DDied _ => s
      end
  end.
Fixpoint day_run (es : list day_ev) (s : day) : day :=
  match es with [] => s | e :: r => day_run r (day_do e s) end.
(** the service started with message_count [n], line 83 *)
Definition daytime (n : Z) (c : conn) : day := {| y_conn := c; y_at := DGreet; y_run := true; y_count := n |}.
