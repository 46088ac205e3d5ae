(** The UDP socket calls: lib/socket.py and protocols/udp/socket.py.  No proofs here.

    An address given as text is [Some a] when the text is a valid address of the socket's
    family and [None] when Ip4Address() / Ip6Address() raises its format error.  Calls are
    atomic with respect to each other; the two halves of a receive call and of a delivery
    are separated in [recv_ev] below. *)
From Verif Require Import Base CodecModel AddrModel EtherModel StackModel StackRxModel.

Inductive family := Fam4 | Fam6.
Definition zero_addr (f : family) : ipaddr := match f with Fam4 => A4 0 | Fam6 => A6 0 end.
Definition in_family (f : family) (a : Z) : ipaddr := match f with Fam4 => A4 a | Fam6 => A6 a end.
Definition family_of (a : ipaddr) : family := match a with A4 _ => Fam4 | A6 _ => Fam6 end.
Definition family_eqb (a b : family) : bool := match a, b with Fam4, Fam4 | Fam6, Fam6 => true | _, _ => false end.

(** Socket.__str__, lib/socket.py:152-159 *)
Definition udp_key (u : usock) : skey :=
  {| k_type := Dgram; k_lip := u_lip u; k_lport := u_lport0 u; k_rip := u_rip u; k_rport := u_rport u |}.

(** the dict stack.sockets: pop(key, None) and assignment *)
Definition sock_pop (k : skey) (t : sockets) : sockets := filter (fun kv => negb (skey_eqb k (fst kv))) t.
Fixpoint sock_put (k : skey) (i : nat) (t : sockets) : sockets :=
  match t with
  | [] => [(k, i)]
  | (k', j) :: r => if skey_eqb k k' then (k', i) :: r else (k', j) :: sock_put k i r
  end.
Definition set_socks (t : sockets) (n : node) : node :=
  {| n_tx := n_tx n; n_flows4 := n_flows4 n; n_flows6 := n_flows6 n; n_socks := t; n_udp := n_udp n; n_tcp := n_tcp n;
     n_dad := n_dad n; n_dad_tlla := n_dad_tlla n; n_ra := n_ra n; n_ra_ev := n_ra_ev n; n_conflict := n_conflict n |}.

(** EPHEMERAL_PORT_RANGE = range(32168, 60700, 2), config.py:133 *)
Definition ephemeral_ports : list Z := map (fun i => 32168 + 2 * Z.of_nat i) (seq 0 (Z.to_nat 14266)).
(** _pick_local_port, lib/socket.py:203-216: ports of all sockets in the table, whatever their
    family and type, are taken out; set.pop() gives an arbitrary member: [choice] if it is one *)
Definition pick_port (choice : Z) (t : sockets) : res Z :=
  match filter (fun p => negb (mem p (map (fun kv => k_lport (fst kv)) t))) ephemeral_ports with
  | [] => Exn (OsError 98)
  | p :: r => Ok (if mem choice (p :: r) then choice else p)
  end.

(** _is_address_in_use, lib/socket.py:218-238, called on a UDP socket: the attributes are those
    of the socket objects *)
Definition udp_in_use (n : node) (lip : ipaddr) (lport : Z) : bool :=
  existsb (fun kv =>
    let o := n_udp n (snd kv) in
    sock_type_eqb (k_type (fst kv)) Dgram && family_eqb (family_of (u_lip o)) (family_of lip)
    && ((is_unspecified (u_lip o) || ipaddr_eqb (u_lip o) lip) || is_unspecified lip)
    && (u_lport0 o =? lport)) (n_socks n).

(** pick_local_ip_address, lib/ip_helper.py:92-103 *)
Definition pick_local_ip (a : addrs) (remote : ipaddr) : ipaddr :=
  match remote with
  | A4 r => A4 (pick_local 32 (a_host4 a) r)
  | A6 r => A6 (pick_local 128 (a_host6 a) r)
  end.

Definition set_unreach (b : bool) (u : usock) : usock :=
  {| u_lip := u_lip u; u_lport0 := u_lport0 u; u_rip := u_rip u; u_rport := u_rport u;
     u_queue := u_queue u; u_ready := u_ready u; u_unreach := b |}.
(** _set_ip_addresses on a UDP socket, lib/socket.py:240-286 *)
Definition udp_set_ip (i : nat) (text : option Z) (lip : ipaddr) (lport rport : Z) : R (ipaddr * ipaddr) :=
  match text with
  | None => rlift (Exn GaiError)
  | Some r =>
      let rip := in_family (family_of lip) r in
      _ <+ (if is_unspecified rip then rupd (fun n => set_udp i (set_unreach true (n_udp n i)) n) else rret tt) ;;
      if is_unspecified lip then
        a <+ rgets my_addrs ;;
        let lip' := pick_local_ip a rip in
        if is_unspecified lip' && negb ((lport =? 68) && (rport =? 67)) then rlift (Exn GaiError)
        else rret (lip', rip)
      else rret (lip, rip)
  end.

Definition bound_port (p : Z) : bool := (1 <=? p) && (p <? 65536).
Definition set_local (lip : ipaddr) (lport : Z) (u : usock) : usock :=
  {| u_lip := lip; u_lport0 := lport; u_rip := u_rip u; u_rport := u_rport u;
     u_queue := u_queue u; u_ready := u_ready u; u_unreach := u_unreach u |}.
Definition set_remote (rip : ipaddr) (rport : Z) (u : usock) : usock :=
  {| u_lip := u_lip u; u_lport0 := u_lport0 u; u_rip := rip; u_rport := rport;
     u_queue := u_queue u; u_ready := u_ready u; u_unreach := u_unreach u |}.
(** "stack.sockets.pop(str(self), None)", new attributes, "stack.sockets[str(self)] = self" *)
Definition re_register (i : nat) (f : usock -> usock) (n : node) : node :=
  let u := n_udp n i in
  set_socks (sock_put (udp_key (f u)) i (sock_pop (udp_key u) (n_socks n))) (set_udp i (f u) n).

(** __init__, udp/socket.py:72-96 *)
Definition new_udp (f : family) : usock :=
  {| u_lip := zero_addr f; u_lport0 := 0; u_rip := zero_addr f; u_rport := 0; u_queue := []; u_ready := 0; u_unreach := false |}.

(** bind, udp/socket.py:98-168 *)
Definition udp_bind (choice : Z) (i : nat) (text : option Z) (port : Z) : R unit :=
  u <+ rgets (fun n => n_udp n i) ;;
  if bound_port (u_lport0 u) then rlift (Exn (OsError 22))
  else match text with
  | None => rlift (Exn GaiError)
  | Some a =>
      own <+ rgets (fun n => match family_of (u_lip u) with Fam4 => ip4_unicast (my_addrs n) | Fam6 => ip6_unicast (my_addrs n) end) ;;
      if negb (mem a (own ++ [0])) then rlift (Exn (OsError 99))
      else if negb ((0 <=? port) && (port <? 65536)) then rlift (Exn OverflowErr)
      else
        let lip := in_family (family_of (u_lip u)) a in
        p <+ (if 0 <? port then
                used <+ rgets (fun n => udp_in_use n lip port) ;;
                (if used then rlift (Exn (OsError 98)) else rret port)
              else fun n => rlift (pick_port choice (n_socks n)) n) ;;
        rupd (re_register i (set_local lip p))
  end.

(** connect, udp/socket.py:170-203 *)
Definition udp_connect (choice : Z) (i : nat) (text : option Z) (rport : Z) : R unit :=
  if negb ((0 <=? rport) && (rport <? 65536)) then rlift (Exn OverflowErr)
  else
    u <+ rgets (fun n => n_udp n i) ;;
    p <+ (if bound_port (u_lport0 u) then rret (u_lport0 u) else fun n => rlift (pick_port choice (n_socks n)) n) ;;
    ips <+ udp_set_ip i text (u_lip u) p rport ;;
    rupd (re_register i (fun u => set_remote (snd ips) rport (set_local (fst ips) p u))).

(** what send and sendto return, udp/socket.py:232-241, 277-286 *)
Definition sent_len (st : tx_status) (data : bytes) : Z := if tx_status_eqb st PassedToTxRing then zlen data else 0.
(** send, udp/socket.py:205-241; send_udp_packet, packet_handler.py:627-645 *)
Definition udp_send (i : nat) (data : bytes) : R Z :=
  u <+ rgets (fun n => n_udp n i) ;;
  if is_unspecified (u_rip u) || (u_rport u =? 0) then rlift (Exn (OsError 89))
  else if u_unreach u then
    _ <+ rupd (fun n => set_udp i (set_unreach false (n_udp n i)) n) ;; rlift (Exn ConnRefused)
  else
    st <+ tx (phtx_udp (u_lip u) (u_rip u) (u_lport0 u) (u_rport u) data) ;;
    rret (sent_len st data).

(** sendto, udp/socket.py:243-286 *)
Definition udp_sendto (choice : Z) (i : nat) (data : bytes) (text : option Z) (rport : Z) : R Z :=
  if negb ((0 <=? rport) && (rport <? 65536)) then rlift (Exn OverflowErr)
  else
    u <+ rgets (fun n => n_udp n i) ;;
    _ <+ (if bound_port (u_lport0 u) then rret tt
          else
            _ <+ rupd (fun n => set_socks (sock_pop (udp_key u) (n_socks n)) n) ;;
            p <+ (fun n => rlift (pick_port choice (n_socks n)) n) ;;
            _ <+ rupd (fun n => set_udp i (set_local (u_lip u) p (n_udp n i)) n) ;;
            rupd (fun n => set_socks (sock_put (udp_key (n_udp n i)) i (n_socks n)) n)) ;;
    p <+ rgets (fun n => u_lport0 (n_udp n i)) ;;
    ips <+ udp_set_ip i text (u_lip u) p rport ;;
    st <+ tx (phtx_udp (fst ips) (snd ips) p rport data) ;;
    rret (sent_len st data).

(** the common part of recv and recvfrom: "if ready.acquire(timeout=…): md = queue.pop(0)", else
    ReceiveTimeout.  A call without timeout waits until the semaphore is positive. *)
Definition udp_take (i : nat) : R umd :=
  u <+ rgets (fun n => n_udp n i) ;;
  if 0 <? u_ready u then
    match u_queue u with
    | [] => _ <+ rupd (set_udp i {| u_lip := u_lip u; u_lport0 := u_lport0 u; u_rip := u_rip u; u_rport := u_rport u;
                u_queue := []; u_ready := u_ready u - 1; u_unreach := u_unreach u |}) ;; rlift (Exn IndexError)
    | m :: q => _ <+ rupd (set_udp i {| u_lip := u_lip u; u_lport0 := u_lport0 u; u_rip := u_rip u; u_rport := u_rport u;
                u_queue := q; u_ready := u_ready u - 1; u_unreach := u_unreach u |}) ;; rret m
    end
  else rlift (Exn RecvTimeout).
(** recv, udp/socket.py:288-310 *)
Definition udp_recv (i : nat) : R bytes :=
  u <+ rgets (fun n => n_udp n i) ;;
  if u_unreach u then
    _ <+ rupd (fun n => set_udp i (set_unreach false (n_udp n i)) n) ;; rlift (Exn ConnRefused)
  else m <+ udp_take i ;; rret (m_data m).
(** recvfrom, udp/socket.py:312-332 *)
Definition udp_recvfrom (i : nat) : R (bytes * (ipaddr * Z)) :=
  m <+ udp_take i ;; rret (m_data m, (m_rip m, m_rport m)).
(** close, udp/socket.py:334-339 *)
Definition udp_close (i : nat) : R unit := rupd (fun n => set_socks (sock_pop (udp_key (n_udp n i)) (n_socks n)) n).

(** ** Histories: calls on any number of sockets, received frames, address changes and whatever
    the TCP sockets do to the table *)
Inductive uop :=
| UNew (f : family)
| UBind (choice : Z) (i : nat) (text : option Z) (port : Z)
| UConnect (choice : Z) (i : nat) (text : option Z) (port : Z)
| USend (i : nat) (data : bytes)
| USendto (choice : Z) (i : nat) (data : bytes) (text : option Z) (port : Z)
| URecv (i : nat)
| URecvfrom (i : nat)
| UClose (i : nat)
| UFrame (f : bytes)
| UAddrs (a : addrs)
| UPutStream (k : skey) (j : nat)
| UPopStream (k : skey).
(** the next socket object gets the next number *)
Record world := { w_node : node; w_next : nat }.
Definition as_stream (k : skey) : skey :=
  {| k_type := Stream; k_lip := k_lip k; k_lport := k_lport k; k_rip := k_rip k; k_rport := k_rport k |}.
(** what a call gives back, as far as the histories look at it *)
Inductive uret := RNone | RData (b : bytes) | RFrom (b : bytes) (a : ipaddr) (p : Z) | RErr (e : exn).
Definition ret_of {A} (f : A -> uret) (r : res A) : uret := match r with Ok a => f a | Exn e => RErr e end.
Definition on_node {A} (m : R A) (f : A -> uret) (w : world) : world * uret :=
  let (n, r) := m (w_node w) in ({| w_node := n; w_next := w_next w |}, ret_of f r).
(** a call is made on a socket that exists *)
Definition known (i : nat) (w : world) : bool := Nat.ltb i (w_next w).
Definition on_sock {A} (i : nat) (m : R A) (f : A -> uret) (w : world) : world * uret :=
  if known i w then on_node m f w else (w, RNone).
Definition uop_do (o : uop) (w : world) : world * uret :=
  match o with
  | UNew f => ({| w_node := set_udp (w_next w) (new_udp f) (w_node w); w_next := S (w_next w) |}, RNone)
  | UBind c i t p => on_sock i (udp_bind c i t p) (fun _ => RNone) w
  | UConnect c i t p => on_sock i (udp_connect c i t p) (fun _ => RNone) w
  | USend i d => on_sock i (udp_send i d) (fun _ => RNone) w
  | USendto c i d t p => on_sock i (udp_sendto c i d t p) (fun _ => RNone) w
  | URecv i => on_sock i (udp_recv i) RData w
  | URecvfrom i => on_sock i (udp_recvfrom i) (fun x => RFrom (fst x) (fst (snd x)) (snd (snd x))) w
  | UClose i => on_sock i (udp_close i) (fun _ => RNone) w
  | UFrame f => on_node (phrx_ether f) (fun _ => RNone) w
  | UAddrs a => on_node (rupd (fun n => set_tx (set_addrs a (n_tx n)) n)) (fun _ => RNone) w
  | UPutStream k j => on_node (rupd (fun n => set_socks (sock_put (as_stream k) j (n_socks n)) n)) (fun _ => RNone) w
  | UPopStream k => on_node (rupd (fun n => set_socks (sock_pop (as_stream k) (n_socks n)) n)) (fun _ => RNone) w
  end.
Fixpoint uop_run (ops : list uop) (w : world) : world :=
  match ops with [] => w | o :: r => uop_run r (fst (uop_do o w)) end.

(** ** Receiving and delivering in two threads, udp/socket.py:302-303, 321-322, 345-346.
    "append" and "release" are separate steps, as are "acquire" and "pop(0)". *)
Inductive recv_ev := VAppend (m : umd) | VRelease | VAcquire | VPop.
Record recv_st := { v_queue : list umd; v_sem : Z; v_got : list umd; v_fail : bool }.
Definition recv_do (e : recv_ev) (s : recv_st) : recv_st :=
  match e with
  | VAppend m => {| v_queue := v_queue s ++ [m]; v_sem := v_sem s; v_got := v_got s; v_fail := v_fail s |}
  | VRelease => {| v_queue := v_queue s; v_sem := v_sem s + 1; v_got := v_got s; v_fail := v_fail s |}
  | VAcquire => {| v_queue := v_queue s; v_sem := v_sem s - 1; v_got := v_got s; v_fail := v_fail s |}
  | VPop => match v_queue s with
            | m :: q => {| v_queue := q; v_sem := v_sem s; v_got := v_got s ++ [m]; v_fail := v_fail s |}
            | [] => {| v_queue := []; v_sem := v_sem s; v_got := v_got s; v_fail := true |}   (* IndexError *)
            end
  end.
Fixpoint recv_run (es : list recv_ev) (s : recv_st) : recv_st :=
  match es with [] => s | e :: r => recv_run r (recv_do e s) end.
