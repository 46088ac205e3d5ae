(** What is asked of the out of order queue of a TCP session and of the end of a connection. *)
From Verif Require Import Base AddrModel TcpModel StackModel StackRxModel SessModel SpecSess SpecSess2.

(** C88: a segment with data, in the middle of a connection *)
Definition plain (q : tmd) : Prop := flags_of q = (false, true, false, false) /\ d_data q <> [] /\ zlen (d_data q) <= 65535.
Definition bytes_of (l : list tmd) : bytes := concat (map d_data l).
(** the queue [d] continues the stream from [n] on with the segments [l] and no further; their
    acknowledgement numbers do not decrease from [a] on *)
Fixpoint in_line (a n : Z) (l : list tmd) (d : dict tmd) : Prop :=
  match l with
  | [] => forall q, ~ In (n, q) d
  | q :: l => In (n, q) d /\ plain q /\ a <= d_ackn q /\ in_line (d_ackn q) (n + zlen (d_data q)) l d
  end.
(** the segments [l] cut a piece of the stream from [n] on, all with the acknowledgement
    number [a] *)
Fixpoint cut (a n : Z) (l : list tmd) : Prop :=
  match l with
  | [] => True
  | q :: l => plain q /\ d_seq q = n /\ d_ackn q = a /\ cut a (n + zlen (d_data q)) l
  end.
(** C67: where a segment ends; SYN and FIN count *)
Definition seg_end (t : tcp_tx) : Z := x_seq t + zlen (x_data t) + b2z (x_fsyn t) + b2z (x_ffin t).
(** the segment acknowledges all before [n] and does nothing else *)
Definition pure_ack (n : Z) (t : tcp_tx) : Prop :=
  x_fack t = true /\ x_ack t = n /\ x_data t = [] /\ x_fsyn t = false /\ x_ffin t = false /\ x_frst t = false.
(** a segment that comes too early, within the window *)
Definition early_in (q : tmd) (s : sess) : Prop :=
  plain q /\ rcv_nxt s < d_seq q /\ d_seq q + zlen (d_data q) <= rcv_nxt s + 65535 /\ snd_una s <= d_ackn q <= snd_max s.
