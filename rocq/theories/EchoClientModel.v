(** The TCP echo client of the examples, for one connection: TcpEchoClient.__thread_client,
    examples/tcp_echo_client.py:148-168, from where connect() has returned, and stop(), lines
    90-97.  No proofs here.

    The socket is connected, so the test of send, tcp/socket.py:314, passes.  A time.sleep() is a
    step of the thread that can come at any time after the send().  Left out: the console output,
    but for the fact that a send() error was reported. *)
From Verif Require Import Base AddrModel TcpModel StackModel StackRxModel SessModel EchoModel EchoTcpModel.

(** the decimal digits of a number, in front of [acc] *)
Fixpoint dec_onto (fuel : nat) (n : Z) (acc : bytes) : bytes :=
  match fuel with
  | O => acc
  | S f => let acc' := (48 + n mod 10) :: acc in if n <? 10 then acc' else dec_onto f (n / 10) acc'
  end.
(** f"{n:05}" for n > 0 *)
Definition five (n : Z) : bytes :=
  let t := dec_onto (Z.to_nat (Z.log2 n + 1)) n [] in repeat 48 (5 - length t)%nat ++ t.
(** "[------START------] ", line 150 *)
Definition msg_start : bytes := [91; 45; 45; 45; 45; 45; 45; 83; 84; 65; 82; 84; 45; 45; 45; 45; 45; 45; 93; 32].
(** "[-------END-------]\n", line 153 *)
Definition msg_end : bytes := [91; 45; 45; 45; 45; 45; 45; 45; 69; 78; 68; 45; 45; 45; 45; 45; 45; 45; 93; 10].
(** f"[------{i + 1:05}------] ", line 152 *)
Definition msg_block (i : Z) : bytes := [91; 45; 45; 45; 45; 45; 45] ++ five (i + 1) ++ [45; 45; 45; 45; 45; 45; 93; 32].
(** lines 150-153 *)
Definition echo_message (size : Z) : bytes :=
  msg_start ++ concat (map (fun i => msg_block (Z.of_nat i)) (seq 0 (Z.to_nat (size - 2)))) ++ msg_end.

(** where the thread is: at the test of line 149, before the send(), in the sleep, before the
    close(), returned, or ended by an exception *)
Inductive cl_at := KTest | KSend | KSleep | KClose | KDone | KDied (e : exn).
Record cl := { k_conn : conn; k_at : cl_at; k_left : Z; k_size : Z; k_run : bool; k_told : bool }.
Definition k_with (c : conn) (a : cl_at) (left : Z) (told : bool) (s : cl) : cl :=
  {| k_conn := c; k_at := a; k_left := left; k_size := k_size s; k_run := k_run s; k_told := told |}.
(** The while of line 149 does not look at _run_thread.  The TcpSessionError of send becomes a
    BrokenPipeError, tcp/socket.py:320-325, an OSError: lines 155-159. *)
Definition cl_do (e : srv_ev) (s : cl) : cl :=
  match e with
  | STick => k_with (fst (op_do OTick (k_conn s))) (k_at s) (k_left s) (k_told s) s
  | SSegment p => k_with (fst (op_do (OSegment p) (k_conn s))) (k_at s) (k_left s) (k_told s) s
  | SStop => {| k_conn := k_conn s; k_at := k_at s; k_left := k_left s; k_size := k_size s; k_run := false; k_told := k_told s |}
  | SThread =>
      match k_at s with
      | KTest => k_with (k_conn s) (if k_left s =? 0 then KClose else KSend) (k_left s) (k_told s) s
      | KSend =>
          let (c, r) := op_do (OSend (echo_message (k_size s))) (k_conn s) in
          match r with
          | Ok _ => k_with c KSleep (k_left s) (k_told s) s
          | Exn _ => k_with c KClose (k_left s) true s
          end
      | KSleep => k_with (k_conn s) KTest (Z.min (k_left s) (k_left s - 1)) (k_told s) s
      | KClose =>
          let (c, r) := op_do OClose (k_conn s) in
          k_with c match r with Ok _ => KDone | Exn x => KDied x end (k_left s) (k_told s) s
      | KDone | KDied _ => s
      end
  end.
Fixpoint cl_run (es : list srv_ev) (s : cl) : cl :=
  match es with [] => s | e :: r => cl_run r (cl_do e s) end.
(** message_count and message_size, lines 56-78 and 148 *)
Definition client (count size : Z) (c : conn) : cl :=
  {| k_conn := c; k_at := KTest; k_left := count; k_size := size; k_run := true; k_told := false |}.
