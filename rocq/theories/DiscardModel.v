(** The TCP discard service of the examples, for one connection: TcpDiscardService.service,
    examples/tcp_discard_service.py:67-118, run in a thread of its own by
    examples/lib/tcp_service.py:144-152.  No proofs here.

    As in EchoTcpModel the socket is the one accept() returned, so the test of send,
    tcp/socket.py:314, passes, and the thread is the reading thread 0 of [conn], and the only
    one.  The byte strings of lines 76, 88 and 101 and the words of line 96 are those of the
    echo service.  Left out: the console output. *)
From Verif Require Import Base AddrModel TcpModel StackModel StackRxModel SessModel EchoModel EchoTcpModel.

(** where the thread is: before the first message, at the test of line 78, in recv(), with what
    recv() returned, before the close() of line 93 or 106 ([again]), before the close() of line
    114, returned, or ended by an exception *)
Inductive dsc_at := XGreet | XTest | XRecv | XGot (m : bytes) | XClose (again : bool) | XLast | XDone | XDied (e : exn).
Record dsc := { z_conn : conn; z_at : dsc_at; z_run : bool }.
(** the message sent about what was received, lines 79-107, if any *)
Definition dsc_reply (m : bytes) : option bytes :=
  if zlen m =? 0 then Some client_closed else if quits m then Some client_open else None.
Definition dsc_op (e : srv_ev) (s : dsc) : option op :=
  match e with
  | STick => Some OTick
  | SSegment p => Some (OSegment p)
  | SStop => None
  | SThread =>
      match z_at s with
      | XGreet => Some (OSend hello)
      | XRecv => Some (ORead 0 None)
      | XGot m => match dsc_reply m with Some d => Some (OSend d) | None => None end
      | XClose _ | XLast => Some OClose
      | XTest | XDone | XDied _ => None
      end
  end.
Definition z_with (c : conn) (a : dsc_at) (s : dsc) : dsc := {| z_conn := c; z_at := a; z_run := z_run s |}.
(** the TcpSessionError of send becomes a BrokenPipeError, tcp/socket.py:320-325; nothing
    catches it *)
Definition dsc_do (e : srv_ev) (s : dsc) : dsc :=
  let c := match dsc_op e s with Some o => fst (op_do o (z_conn s)) | None => z_conn s end in
  let r := match dsc_op e s with Some o => snd (op_do o (z_conn s)) | None => Ok tt end in
  match e with
  | STick | SSegment _ => z_with c (z_at s) s
  | SStop => {| z_conn := z_conn s; z_at := z_at s; z_run := false |}
  | SThread =>
      match z_at s with
      | XGreet => z_with c match r with Ok _ => XTest | Exn _ => XDied BrokenPipe end s
      | XTest => z_with c (if z_run s then XRecv else XLast) s
      | XRecv => z_with c match snd (read_step None (c_rd (z_conn s) 0%nat) (c_sess (z_conn s))) with Some m => XGot m | None => XRecv end s
      | XGot m =>
          match dsc_reply m with
          | None => z_with c XTest s
          | Some _ => z_with c match r with Ok _ => XClose (negb (zlen m =? 0)) | Exn _ => XDied BrokenPipe end s
          end
      | XClose again => z_with c match r with Ok _ => if again then XTest else XLast | Exn x => XDied x end s
      | XLast => z_with c match r with Ok _ => XDone | Exn x => XDied x end s
      | XDone | XDied _ => s
      end
  end.
Fixpoint dsc_run (es : list srv_ev) (s : dsc) : dsc :=
  match es with [] => s | e :: r => dsc_run r (dsc_do e s) end.
Definition discard (c : conn) : dsc := {| z_conn := c; z_at := XGreet; z_run := true |}.
