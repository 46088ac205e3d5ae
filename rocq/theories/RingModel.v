(** The transmit and receive rings. No proofs here. *)
From Verif Require Import Base CodecModel EtherModel.

(** config.TAP_MTU, config.py:136, plus the Ethernet header *)
Definition TAP_MTU := 1500.
Definition FRAME_BUF := TAP_MTU + 14.

(** an EtherAssembler waiting in the ring: its addresses, type and carried packet,
    ether/fpa.py:56-98 *)
Record frame_tx := { e_dst : Z; e_src : Z; e_type : Z; e_car : carried }.
Definition frame_len (p : frame_tx) : Z := ether_len (e_car p).
Definition frame_asm (p : frame_tx) (buf : bytes) : res bytes :=
  ether_asm (e_dst p) (e_src p) (e_type p) (e_car p) buf.

(** TxRing: the list, the static frame buffer, what os.write has been given so far
    and the exception that ended the thread, tx_ring.py:59-66,86-143.  The semaphore
    is not part of the state: acquire() has a timeout whose result is ignored, so
    the thread may look at the list at any time. *)
Record tx_ring := { tr_q : list frame_tx; tr_buf : bytes; tr_out : list bytes; tr_dead : option exn }.
(** __init__ and the buffer of __thread_transmit, tx_ring.py:59-66,96 *)
Definition tx_ring_new (buf : bytes) : tx_ring := {| tr_q := []; tr_buf := buf; tr_out := []; tr_dead := None |}.
(** enqueue, tx_ring.py:134-143 *)
Definition tx_enqueue (p : frame_tx) (s : tx_ring) : tx_ring :=
  {| tr_q := tr_q s ++ [p]; tr_buf := tr_buf s; tr_out := tr_out s; tr_dead := tr_dead s |}.
(** one turn of the loop of __thread_transmit, tx_ring.py:98-130.  [wr] is whether
    os.write accepts the frame; its OSError is caught. An exception of assemble is
    not, and ends the thread. *)
Definition tx_turn (wr : bool) (s : tx_ring) : tx_ring :=
  match tr_dead s, tr_q s with
  | Some _, _ | _, [] => s
  | None, p :: q =>
      if frame_len p >? FRAME_BUF
      then {| tr_q := q; tr_buf := tr_buf s; tr_out := tr_out s; tr_dead := None |}
      else
        match frame_asm p (slice 0 (frame_len p) (tr_buf s)) with
        | Exn e => {| tr_q := q; tr_buf := tr_buf s; tr_out := tr_out s; tr_dead := Some e |}
        | Ok f =>
            {| tr_q := q; tr_buf := f ++ slice_from (frame_len p) (tr_buf s);
               tr_out := if wr then tr_out s ++ [f] else tr_out s; tr_dead := None |}
        end
  end.

(** an interleaving of senders and the transmit thread *)
Inductive tx_op := TxEnq (p : frame_tx) | TxTurn (wr : bool).
Definition tx_step (s : tx_ring) (o : tx_op) : tx_ring :=
  match o with TxEnq p => tx_enqueue p s | TxTurn wr => tx_turn wr s end.
Definition tx_run (s : tx_ring) (l : list tx_op) : tx_ring := fold_left tx_step l s.

(** RxRing, rx_ring.py:58-66: the list and, as a ghost, what dequeue() has returned *)
Record rx_ring := { rr_q : list bytes; rr_out : list bytes }.
Definition rx_ring_new : rx_ring := {| rr_q := []; rr_out := [] |}.
(** one frame read by __thread_receive, at most 2048 bytes of it, rx_ring.py:94-106;
    dequeue, rx_ring.py:110-119 *)
Inductive rx_op := RxFrame (f : bytes) | RxDeq.
Definition rx_step (s : rx_ring) (o : rx_op) : rx_ring :=
  match o with
  | RxFrame f => {| rr_q := rr_q s ++ [slice 0 2048 f]; rr_out := rr_out s |}
  | RxDeq => match rr_q s with [] => s | f :: q => {| rr_q := q; rr_out := rr_out s ++ [f] |} end
  end.
Definition rx_run (s : rx_ring) (l : list rx_op) : rx_ring := fold_left rx_step l s.
