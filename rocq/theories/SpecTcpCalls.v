(** What send() and close() of a TCP socket are expected to do. *)
From Verif Require Import Base AddrModel TcpModel StackModel StackRxModel UdpApiModel SpecUdpApi SessModel TcpApiModel SpecTcpApi.

(** the socket has a peer *)
Definition has_peer (t : tsock) : Prop := ~ unspec (t_rip t) /\ t_rport t <> 0.
(** the connection takes data *)
Definition writable (s : sess) : Prop := st s = ESTABLISHED \/ st s = CLOSE_WAIT.
(** only session [j] changed, into [s] *)
Record only_session (j : nat) (s : sess) (w w' : tworld) : Prop := {
  os_it : tw_sess w' j = s;
  os_rest : forall x, x <> j -> tw_sess w' x = tw_sess w x;
  os_socks : tw_sock w' = tw_sock w /\ tw_nsock w' = tw_nsock w;
  os_sessions : tw_owner w' = tw_owner w /\ tw_nsess w' = tw_nsess w;
  os_else : tw_addrs w' = tw_addrs w }.
(** send(): all of the data is taken behind what is waiting, or nothing *)
Definition send_outcome (i : nat) (d : bytes) (w w' : tworld) (r : res Z) : Prop :=
  let t := tw_sock w i in
  (~ has_peer t /\ r = Exn (OsError 0) /\ w' = w) \/
  (has_peer t /\ exists j, t_sess t = Some j /\ tw_table w' = tw_table w /\ tw_close w' = tw_close w /\
    ((writable (tw_sess w j) /\ r = Ok (zlen d) /\ only_session j (set_tx_buf (tx_buf (tw_sess w j) ++ d) (tw_sess w j)) w w') \/
     (~ writable (tw_sess w j) /\ r = Exn BrokenPipe /\ only_session j (tw_sess w j) w w'))).
(** two sessions are the same but for the record of their registration *)
Definition same_but_reg (a b : sess) : Prop := set_reg true a = set_reg true b.
Definition moved (n : fsm_state) (s : sess) : sess := set_st n (set_hist (hist s ++ [(st s, n)]) s).
(** close() of session [j], by its state *)
Definition close_outcome (j : nat) (w w' : tworld) (r : res unit) : Prop :=
  let s := tw_sess w j in let k := tcp_key (tw_sock w (tw_owner w j)) in
  exists s', only_session j s' w w' /\
  ((In (st s) [LISTEN; SYN_SENT] /\ same_but_reg s' (moved CLOSED s) /\
      ((registered k (tw_table w) = true /\ r = Ok tt /\ sock_get k (tw_table w') = None /\ forall x, x <> k -> sock_get x (tw_table w') = sock_get x (tw_table w)) \/
       (registered k (tw_table w) = false /\ r = Exn KeyError /\ tw_table w' = tw_table w))) \/
   (tw_table w' = tw_table w /\ r = Ok tt /\
      ((st s = SYN_RCVD /\ same_but_reg s' (moved FIN_WAIT_1 s)) \/
       (writable s /\ same_but_reg s' (set_closing true s)) \/
       (In (st s) [FIN_WAIT_1; FIN_WAIT_2; CLOSING; LAST_ACK; TIME_WAIT; CLOSED] /\ same_but_reg s' s)))).
