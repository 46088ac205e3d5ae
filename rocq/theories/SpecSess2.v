(** More of what is asked of a TCP session. *)
From Verif Require Import Base AddrModel TcpModel StackModel StackRxModel SessModel SpecSess.

(** C86: the header of a segment of the session between the ports [lp] and [rp] whose initial
    sequence number is [iss]: a SYN, a segment with or without data, a FIN or a reset; never two
    of these, no flags besides, the window 65535, and the MSS option on the SYN only *)
Definition header (iss lp rp : Z) (t : tcp_tx) : Prop :=
  x_sport t = lp /\ x_dport t = rp /\ x_win t = 65535 /\ x_urp t = 0 /\
  x_fns t = false /\ x_fcrw t = false /\ x_fece t = false /\ x_furg t = false /\ x_fpsh t = false /\
  (x_fack t = false -> x_fsyn t = true /\ x_ack t = 0) /\
  match x_fsyn t, x_ffin t, x_frst t with
  | true, false, false => x_seq t = iss /\ x_data t = [] /\ x_opts t = [TOMss 1460]
  | false, false, false => x_opts t = []
  | false, true, false | false, false, true => x_data t = [] /\ x_opts t = []
  | _, _, _ => False
  end.

(** C87: a reset that falls at the next sequence number expected, its acknowledgement if it has
    one in range *)
Definition reset (p : tmd) : Prop := d_rst p = true /\ d_syn p = false /\ d_fin p = false.
Definition acceptable (p : tmd) (s : sess) : Prop := d_seq p = rcv_nxt s /\ (d_ack p = true -> snd_una s <= d_ackn p <= snd_max s).
Definition synchronised : list fsm_state := [SYN_RCVD; ESTABLISHED; FIN_WAIT_1; FIN_WAIT_2; CLOSING; CLOSE_WAIT; LAST_ACK].
(** the connection is gone, nothing is sent and those who read are woken *)
Definition torn_down (s s' : sess) : Prop :=
  st s' = CLOSED /\ reg s' = false /\ sent s' = sent s /\ (In (st s) [ESTABLISHED; FIN_WAIT_1; FIN_WAIT_2; CLOSE_WAIT] -> 0 < ev_rx s').
