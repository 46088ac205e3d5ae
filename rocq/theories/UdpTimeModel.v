(** The UDP daytime and discard services of the examples: examples/udp_daytime_service.py:69-81
    and examples/udp_discard_service.py:68-78, set up by examples/lib/udp_service.py as the echo
    service is (echo_start).  No proofs here.

    The state and what is left out are those of EchoModel.  What str(datetime.now()) says, line
    76, comes with the step of the thread that reads the clock and calls sendto; it can be any
    bytes. *)
From Verif Require Import Base CodecModel AddrModel EtherModel StackModel StackRxModel UdpApiModel EchoModel.

(** a step of the thread with the port the stack might choose and what the clock says, stop(), or
    anything else that happens in the stack *)
Inductive ut_ev := UThread (choice : Z) (now : bytes) | UStop | UWorld (o : uop).
(** [answer]: the daytime service (true) or the discard service, which calls nothing after
    recvfrom() and goes back to the test *)
Definition ut_op (answer : bool) (e : ut_ev) (s : echo) : option uop :=
  match e with
  | UWorld o => Some o
  | UStop => None
  | UThread c now =>
      match e_at s with
      | InRecv => if echo_waits s then None else Some (URecvfrom (e_sock s))
      | Holding m a p =>
          if answer then Some (USendto c (e_sock s) now (text_for (family_of (u_lip (n_udp (w_node (e_world s)) (e_sock s)))) a) p)
          else None
      | _ => None
      end
  end.
Definition ut_do (answer : bool) (e : ut_ev) (s : echo) : echo :=
  match e with
  | UWorld o => e_with (fst (uop_do o (e_world s))) (e_at s) s
  | UStop => {| e_world := e_world s; e_sock := e_sock s; e_at := e_at s; e_run := false |}
  | UThread c now =>
      match e_at s with
      | AtTest => e_with (e_world s) (if e_run s then InRecv else Returned) s
      | InRecv =>
          match ut_op answer e s with
          | None => s
          | Some o =>
              let (w, r) := uop_do o (e_world s) in
              e_with w match r with RErr x => Died x | RFrom m a p => Holding m a p | _ => AtTest end s
          end
      | Holding _ _ _ =>
          match ut_op answer e s with
          | None => e_with (e_world s) AtTest s
          | Some o =>
              let (w, r) := uop_do o (e_world s) in
              e_with w match r with RErr x => Died x | _ => AtTest end s
          end
      | Returned | Died _ => s
      end
  end.
Fixpoint ut_run (answer : bool) (es : list ut_ev) (s : echo) : echo :=
  match es with [] => s | e :: r => ut_run answer r (ut_do answer e s) end.
