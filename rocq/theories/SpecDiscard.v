(** What a TCP discard service promises its client. *)
From Verif Require Import Base AddrModel TcpModel StackModel StackRxModel SessModel SpecSess EchoModel SpecEcho EchoTcpModel SpecEchoTcp DiscardModel.

(** what is said about what one recv() returned: nothing about data *)
Inductive notice_of (m : bytes) : bytes -> Prop :=
| nt_closed : m = [] -> notice_of m client_closed
| nt_leave : m <> [] -> takes_leave m -> notice_of m client_open
| nt_data : m <> [] -> ~ takes_leave m -> notice_of m [].
Definition noted_all (reads : list bytes) (written : bytes) : Prop :=
  exists l, Forall2 notice_of reads l /\ written = hello ++ concat l.
Definition dsc_transcript (a : dsc_at) (c : conn) : Prop :=
  match a with
  | XGreet => c_read c = [] /\ c_written c = []
  | XGot m => exists l, c_read c = l ++ [m] /\ noted_all l (c_written c)
  | XDied _ => (c_read c = [] /\ c_written c = []) \/ exists l m, c_read c = l ++ [m] /\ noted_all l (c_written c)
  | _ => noted_all (c_read c) (c_written c)
  end.
(** every segment satisfies [P] when it arrives *)
Fixpoint dsc_segments (P : tmd -> conn -> Prop) (es : list srv_ev) (s : dsc) : Prop :=
  match es with
  | [] => True
  | e :: r => match e with SSegment p => P p (z_conn s) | _ => True end /\ dsc_segments P r (dsc_do e s)
  end.
