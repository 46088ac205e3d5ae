(** What send() and sendto() of a datagram socket promise. *)
From Verif Require Import Base AddrModel StackModel StackRxModel UdpApiModel StackSendProofs StackRouteProofs.

(** the frames put on the wire by a call *)
Definition frames_out (n n' : node) (new : list oframe) : Prop := s_out (n_tx n') = s_out (n_tx n) ++ new.
(** the datagram left, in one packet or in fragments, all to one link-layer address *)
Definition datagram_left (n : node) (src dst : ipaddr) (sport dport : Z) (data : bytes) (new : list oframe) : Prop :=
  exists m hw l, new = map (fun p => {| f_dst := m; f_src := hw; f_pkt := p |}) l /\ l <> [] /\ packets_of (n_tx n) (QUdp src dst sport dport data) l.
(** what a call that returns [k] did: all of the datagram left, or nothing but requests for the
    link-layer address of the next hop *)
Definition send_result (n n' : node) (src dst : ipaddr) (sport dport : Z) (data : bytes) (k : Z) : Prop :=
  exists new, frames_out n n' new /\ (k = zlen data /\ datagram_left n src dst sport dport data new \/ k = 0 /\ Forall resolution_frame new).
Definition addr_ok (a : ipaddr) : Prop := match a with A4 x => in32 x | A6 x => in128 x end.
Definition no_remote (u : usock) : Prop := u_rip u = A4 0 \/ u_rip u = A6 0 \/ u_rport u = 0.
(** the two nodes differ at most in what was sent *)
Definition same_sockets (n n' : node) : Prop := n_socks n' = n_socks n /\ n_udp n' = n_udp n /\ n_tcp n' = n_tcp n.
(** the local address of sendto: the socket's, or the one picked for the destination (C82) *)
Definition source_for (n : node) (u : usock) (rip : ipaddr) : ipaddr := if is_unspecified (u_lip u) then pick_local_ip (my_addrs n) rip else u_lip u.
