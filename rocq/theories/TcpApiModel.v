(** The TCP socket calls, lib/socket.py and tcp/socket.py, and the sessions behind them.
    No proofs here.

    As in UdpApiModel an address given as text is [Some a] when it is a valid address of the
    socket's family.  A call of a session that holds its FSM lock is atomic, and so is what
    the session does to the socket table, to the socket objects and to other sessions
    meanwhile; the two statements of accept are separate, and so are the two statements of
    close.  The wait of connect, session.py:398-408, is left out.  Sessions are
    numbered in the order of their creation and so are sockets; the number of a session in
    the model stays with the object when it changes its endpoints. *)
From Verif Require Import Base AddrModel TcpModel StackModel StackRxModel UdpApiModel SessModel.

(** TcpSocket.__init__, tcp/socket.py:63-106.  [t_between] counts the threads that are between
    the two statements of accept, tcp/socket.py:296-297 *)
Record tsock := { t_lip : ipaddr; t_lport : Z; t_rip : ipaddr; t_rport : Z;
  t_sess : option nat;             (* _tcp_session *)
  t_parent : option nat;           (* _parent_socket, not set in a socket made by the application *)
  t_queue : list nat;              (* _tcp_accept *)
  t_ready : Z;                     (* _event_tcp_session_established *)
  t_between : Z }.
Definition new_tcp (f : family) : tsock :=
  {| t_lip := zero_addr f; t_lport := 0; t_rip := zero_addr f; t_rport := 0;
     t_sess := None; t_parent := None; t_queue := []; t_ready := 0; t_between := 0 |}.
(** lines 85-92 *)
Definition child_tcp (j parent : nat) (p : tmd) : tsock :=
  {| t_lip := d_lip p; t_lport := d_lport p; t_rip := d_rip p; t_rport := d_rport p;
     t_sess := Some j; t_parent := Some parent; t_queue := []; t_ready := 0; t_between := 0 |}.
(** Socket.__str__, lib/socket.py:152-159 *)
Definition tcp_key (t : tsock) : skey :=
  {| k_type := Stream; k_lip := t_lip t; k_lport := t_lport t; k_rip := t_rip t; k_rport := t_rport t |}.
Definition with_sess_of (j : nat) (t : tsock) : tsock :=
  {| t_lip := t_lip t; t_lport := t_lport t; t_rip := t_rip t; t_rport := t_rport t;
     t_sess := Some j; t_parent := t_parent t; t_queue := t_queue t; t_ready := t_ready t; t_between := t_between t |}.
Definition with_ends (lip : ipaddr) (lport : Z) (rip : ipaddr) (rport : Z) (t : tsock) : tsock :=
  {| t_lip := lip; t_lport := lport; t_rip := rip; t_rport := rport;
     t_sess := t_sess t; t_parent := t_parent t; t_queue := t_queue t; t_ready := t_ready t; t_between := t_between t |}.
Definition with_queue (q : list nat) (ready between : Z) (t : tsock) : tsock :=
  {| t_lip := t_lip t; t_lport := t_lport t; t_rip := t_rip t; t_rport := t_rport t;
     t_sess := t_sess t; t_parent := t_parent t; t_queue := q; t_ready := ready; t_between := between |}.

(** stack.sockets, the addresses of the stack, the TCP socket objects, the session objects,
    the attribute _socket of each session, and the sessions that threads inside close() have
    loaded, tcp/socket.py:362 *)
Record tworld := { tw_table : sockets; tw_addrs : addrs;
  tw_sock : nat -> tsock; tw_nsock : nat;
  tw_sess : nat -> sess; tw_owner : nat -> nat; tw_nsess : nat;
  tw_close : nat -> option nat }.
Definition upd {A} (i : nat) (v : A) (f : nat -> A) : nat -> A := fun j => if Nat.eqb j i then v else f j.
Definition put_sock (i : nat) (t : tsock) (w : tworld) : tworld :=
  {| tw_table := tw_table w; tw_addrs := tw_addrs w; tw_sock := upd i t (tw_sock w); tw_nsock := tw_nsock w;
     tw_sess := tw_sess w; tw_owner := tw_owner w; tw_nsess := tw_nsess w; tw_close := tw_close w |}.
Definition put_sess (j : nat) (s : sess) (w : tworld) : tworld :=
  {| tw_table := tw_table w; tw_addrs := tw_addrs w; tw_sock := tw_sock w; tw_nsock := tw_nsock w;
     tw_sess := upd j s (tw_sess w); tw_owner := tw_owner w; tw_nsess := tw_nsess w; tw_close := tw_close w |}.
Definition put_table (t : sockets) (w : tworld) : tworld :=
  {| tw_table := t; tw_addrs := tw_addrs w; tw_sock := tw_sock w; tw_nsock := tw_nsock w;
     tw_sess := tw_sess w; tw_owner := tw_owner w; tw_nsess := tw_nsess w; tw_close := tw_close w |}.
Definition put_close (i : nat) (c : option nat) (w : tworld) : tworld :=
  {| tw_table := tw_table w; tw_addrs := tw_addrs w; tw_sock := tw_sock w; tw_nsock := tw_nsock w;
     tw_sess := tw_sess w; tw_owner := tw_owner w; tw_nsess := tw_nsess w; tw_close := upd i c (tw_close w) |}.
Definition put_addrs (a : addrs) (w : tworld) : tworld :=
  {| tw_table := tw_table w; tw_addrs := a; tw_sock := tw_sock w; tw_nsock := tw_nsock w;
     tw_sess := tw_sess w; tw_owner := tw_owner w; tw_nsess := tw_nsess w; tw_close := tw_close w |}.
(** new objects *)
Definition add_sock (t : tsock) (w : tworld) : tworld :=
  {| tw_table := tw_table w; tw_addrs := tw_addrs w; tw_sock := upd (tw_nsock w) t (tw_sock w); tw_nsock := S (tw_nsock w);
     tw_sess := tw_sess w; tw_owner := tw_owner w; tw_nsess := tw_nsess w; tw_close := tw_close w |}.
Definition add_sess (s : sess) (owner : nat) (w : tworld) : tworld :=
  {| tw_table := tw_table w; tw_addrs := tw_addrs w; tw_sock := tw_sock w; tw_nsock := tw_nsock w;
     tw_sess := upd (tw_nsess w) s (tw_sess w); tw_owner := upd (tw_nsess w) owner (tw_owner w); tw_nsess := S (tw_nsess w);
     tw_close := tw_close w |}.
Definition put_owner (j k : nat) (w : tworld) : tworld :=
  {| tw_table := tw_table w; tw_addrs := tw_addrs w; tw_sock := tw_sock w; tw_nsock := tw_nsock w;
     tw_sess := tw_sess w; tw_owner := upd j k (tw_owner w); tw_nsess := tw_nsess w; tw_close := tw_close w |}.

Definition registered (k : skey) (t : sockets) : bool := match sock_get k t with Some _ => true | None => false end.

(** a session that has been told to listen, session.py:185-312, 379-387 *)
Definition listening_session (lip : ipaddr) (lport : Z) (rip : ipaddr) (rport iss : Z) : sess :=
  fst (tcp_fsm (ECall Listen) (new_session lip lport rip rport iss true [])).

(** what session [j] does to other objects.
    FFork, session.py:870-892: a new session with the endpoints of [old], told to listen, takes
    the place of [j] at the listening socket; [j] gets a new socket, registered at
    tcp/socket.py:92.
    FAccept, session.py:1051-1052: the socket of [j] is appended to the accept queue of its
    parent and the parent's semaphore is released. *)
Definition effect (old : sess) (iss : Z) (j : nat) (e : eff) (w : tworld) : tworld :=
  let o := tw_owner w j in
  match e with
  | FFork p =>
      let n := tw_nsess w in
      let m := tw_nsock w in
      let w := add_sess (listening_session (s_lip old) (s_lport old) (s_rip old) (s_rport old) iss) o w in
      let w := put_sock o (with_sess_of n (tw_sock w o)) w in
      let w := add_sock (child_tcp j o p) w in
      let w := put_table (sock_put (tcp_key (child_tcp j o p)) m (tw_table w)) w in
      put_owner j m w
  | FAccept =>
      match t_parent (tw_sock w o) with
      | Some q =>
          let l := tw_sock w q in
          put_sock q (with_queue (t_queue l ++ [o]) (t_ready l + 1) (t_between l) l) w
      | None => w
      end
  end.
(** a statement of session [j]: it sees whether its socket is registered, session.py:485;
    afterwards its effects take place and its socket is unregistered if it asked for that.
    [iss] is the initial sequence number drawn if a session is created *)
Definition session_call (j : nat) (iss : Z) (m : P unit) (w : tworld) : tworld * res unit :=
  let old := tw_sess w j in
  let (s, r) := m (set_reg (registered (tcp_key (tw_sock w (tw_owner w j))) (tw_table w)) old) in
  let w := put_sess j s w in
  let w := fold_left (fun w e => effect old iss j e w) (skipn (length (effs old)) (effs s)) w in
  ((if reg s then w else put_table (sock_pop (tcp_key (tw_sock w (tw_owner w j))) (tw_table w)) w), r).

(** process_tcp_packet, tcp/socket.py:365-370 *)
Definition deliver (i : nat) (p : tmd) (iss : Z) (w : tworld) : tworld * res unit :=
  match t_sess (tw_sock w i) with
  | Some j => session_call j iss (tcp_fsm (EPacket p)) w
  | None => (w, Ok tt)
  end.
(** the socket a segment goes to, tcp/phrx.py:96-127; see [phrx_tcp] *)
Definition segment_key (p : tmd) : skey :=
  {| k_type := Stream; k_lip := d_lip p; k_lport := d_lport p; k_rip := d_rip p; k_rport := d_rport p |}.
Definition segment_target (t : sockets) (p : tmd) : option nat :=
  match sock_get (segment_key p) t with
  | Some i => Some i
  | None => if d_syn p && negb (d_ack p || d_fin p || d_rst p) then first_match (listen_patterns (d_lip p) (d_lport p)) t else None
  end.

(** _is_address_in_use, lib/socket.py:218-238, called on a TCP socket *)
Definition tcp_in_use (w : tworld) (lip : ipaddr) (lport : Z) : bool :=
  existsb (fun kv =>
    let o := tw_sock w (snd kv) in
    sock_type_eqb (k_type (fst kv)) Stream && family_eqb (family_of (t_lip o)) (family_of lip)
    && ((is_unspecified (t_lip o) || ipaddr_eqb (t_lip o) lip) || is_unspecified lip)
    && (t_lport o =? lport)) (tw_table w).
(** _set_ip_addresses on a TCP socket, lib/socket.py:240-286 *)
Definition tcp_set_ip (a : addrs) (text : option Z) (lip : ipaddr) (lport rport : Z) : res (ipaddr * ipaddr) :=
  match text with
  | None => Exn GaiError
  | Some r =>
      let rip := in_family (family_of lip) r in
      if is_unspecified rip then Exn ConnRefused
      else if is_unspecified lip then
        let lip' := pick_local_ip a rip in
        if is_unspecified lip' && negb ((lport =? 68) && (rport =? 67)) then Exn GaiError else Ok (lip', rip)
      else Ok (lip, rip)
  end.
(** "stack.sockets.pop(str(self), None)", new attributes, "stack.sockets[str(self)] = self" *)
Definition tcp_register (i : nat) (t : tsock) (w : tworld) : tworld :=
  put_table (sock_put (tcp_key t) i (sock_pop (tcp_key (tw_sock w i)) (tw_table w))) (put_sock i t w).

(** bind, tcp/socket.py:131-201 *)
Definition tcp_bind (choice : Z) (i : nat) (text : option Z) (port : Z) (w : tworld) : tworld * res unit :=
  let t := tw_sock w i in
  if bound_port (t_lport t) then (w, Exn (OsError 22))
  else match text with
  | None => (w, Exn GaiError)
  | Some a =>
      let own := match family_of (t_lip t) with Fam4 => ip4_unicast (tw_addrs w) | Fam6 => ip6_unicast (tw_addrs w) end in
      if negb (mem a (own ++ [0])) then (w, Exn (OsError 99))
      else if negb ((0 <=? port) && (port <? 65536)) then (w, Exn OverflowErr)
      else
        let lip := in_family (family_of (t_lip t)) a in
        match (if 0 <? port then if tcp_in_use w lip port then Exn (OsError 98) else Ok port
               else pick_port choice (tw_table w)) with
        | Exn e => (w, Exn e)
        | Ok p => (tcp_register i (with_ends lip p (t_rip t) (t_rport t) t) w, Ok tt)
        end
  end.

(** connect, tcp/socket.py:203-262, up to the wait *)
Definition tcp_connect (choice : Z) (i : nat) (text : option Z) (rport iss : Z) (w : tworld) : tworld * res unit :=
  if negb ((0 <=? rport) && (rport <? 65536)) then (w, Exn OverflowErr)
  else
    let t := tw_sock w i in
    match (if bound_port (t_lport t) then Ok (t_lport t) else pick_port choice (tw_table w)) with
    | Exn e => (w, Exn e)
    | Ok p =>
        match tcp_set_ip (tw_addrs w) text (t_lip t) p rport with
        | Exn e => (w, Exn e)
        | Ok (lip, rip) =>
            let w := tcp_register i (with_ends lip p rip rport t) w in
            let j := tw_nsess w in
            let w := add_sess (new_session lip p rip rport iss true []) i w in
            let w := put_sock i (with_sess_of j (tw_sock w i)) w in
            session_call j 0 (tcp_fsm (ECall Connect)) w
        end
    end.
(** listen, tcp/socket.py:264-284 *)
Definition tcp_listen (i : nat) (iss : Z) (w : tworld) : tworld * res unit :=
  let t := tw_sock w i in
  let j := tw_nsess w in
  let w := add_sess (new_session (t_lip t) (t_lport t) (t_rip t) (t_rport t) iss true []) i w in
  let w := put_sock i (with_sess_of j (tw_sock w i)) w in
  let w := put_table (sock_put (tcp_key t) i (tw_table w)) w in
  session_call j 0 (tcp_fsm (ECall Listen)) w.
(** accept, tcp/socket.py:286-305: acquire, and pop(0) *)
Definition accept_acquire (i : nat) (w : tworld) : tworld :=
  let t := tw_sock w i in
  if 0 <? t_ready t then put_sock i (with_queue (t_queue t) (t_ready t - 1) (t_between t + 1) t) w else w.
Definition accept_pop (i : nat) (w : tworld) : tworld * option (res nat) :=
  let t := tw_sock w i in
  if 0 <? t_between t then
    match t_queue t with
    | k :: q => (put_sock i (with_queue q (t_ready t) (t_between t - 1) t) w, Some (Ok k))
    | [] => (put_sock i (with_queue [] (t_ready t) (t_between t - 1) t) w, Some (Exn IndexError))
    end
  else (w, None).
(** send, tcp/socket.py:307-330; the OSError of line 315 carries no number *)
Definition tcp_send (i : nat) (d : bytes) (w : tworld) : tworld * res Z :=
  let t := tw_sock w i in
  if is_unspecified (t_rip t) || (t_rport t =? 0) then (w, Exn (OsError 0))
  else match t_sess t with
  | None => (w, Exn AssertionError)
  | Some j =>
      match session_send d (tw_sess w j) with
      | (s, Ok n) => (put_sess j s w, Ok n)
      | (s, Exn e) => (put_sess j s w, Exn BrokenPipe)
      end
  end.
(** close, tcp/socket.py:357-363: thread [c] loads the session, then calls it *)
Definition close_load (c i : nat) (w : tworld) : tworld * res unit :=
  match t_sess (tw_sock w i) with
  | None => (w, Exn AssertionError)
  | Some j => (put_close c (Some j) w, Ok tt)
  end.
Definition close_call (c : nat) (w : tworld) : tworld * res unit :=
  match tw_close w c with
  | None => (w, Ok tt)
  | Some j => session_call j 0 (tcp_fsm (ECall Close)) (put_close c None w)
  end.

(** ** Histories *)
Inductive top :=
| TSocket (f : family)
| TBind (choice : Z) (i : nat) (text : option Z) (port : Z)
| TConnect (choice : Z) (i : nat) (text : option Z) (port iss : Z)
| TListen (i : nat) (iss : Z)
| TAcquire (i : nat)
| TPop (i : nat)
| TSend (i : nat) (d : bytes)
| TRead (j : nat) (n : option Z) (r : reader)   (* any step of a reading thread, at any time *)
| TLoad (c i : nat)
| TClose (c : nat)
| TSegment (p : tmd) (iss : Z)
| TTick (j : nat)                               (* session j's timer, see [tick] *)
| TAddrs (a : addrs)
| TPutDgram (k : skey) (i : nat)                (* what the UDP sockets do to the table *)
| TPopDgram (k : skey).
Definition as_dgram (k : skey) : skey :=
  {| k_type := Dgram; k_lip := k_lip k; k_lport := k_lport k; k_rip := k_rip k; k_rport := k_rport k |}.
(** what an operation gives back: nothing, the socket accept returned, or an exception *)
Inductive tret := TNone | TSock (k : nat) | TErr (e : exn).
Definition tret_of {A} (x : tworld * res A) : tworld * tret := (fst x, match snd x with Ok _ => TNone | Exn e => TErr e end).
Definition on_tsock (i : nat) (f : tworld -> tworld * tret) (w : tworld) : tworld * tret :=
  if Nat.ltb i (tw_nsock w) then f w else (w, TNone).
Definition top_do (o : top) (w : tworld) : tworld * tret :=
  match o with
  | TSocket f => (add_sock (new_tcp f) w, TNone)
  | TBind c i t p => on_tsock i (fun w => tret_of (tcp_bind c i t p w)) w
  | TConnect c i t p iss => on_tsock i (fun w => tret_of (tcp_connect c i t p iss w)) w
  | TListen i iss => on_tsock i (fun w => tret_of (tcp_listen i iss w)) w
  | TAcquire i => on_tsock i (fun w => (accept_acquire i w, TNone)) w
  | TPop i => on_tsock i (fun w => let (w, r) := accept_pop i w in
                (w, match r with Some (Ok k) => TSock k | Some (Exn e) => TErr e | None => TNone end)) w
  | TSend i d => on_tsock i (fun w => tret_of (tcp_send i d w)) w
  | TRead j n r => if Nat.ltb j (tw_nsess w) then (put_sess j (fst (fst (read_step n r (tw_sess w j)))) w, TNone) else (w, TNone)
  | TLoad c i => on_tsock i (fun w => tret_of (close_load c i w)) w
  | TClose c => tret_of (close_call c w)
  | TSegment p iss => match segment_target (tw_table w) p with
                      | Some i => on_tsock i (fun w => tret_of (deliver i p iss w)) w
                      | None => (w, TNone)   (* a reset is sent, see [phrx_tcp] *)
                      end
  | TTick j => if Nat.ltb j (tw_nsess w) then tret_of (session_call j 0 tick w) else (w, TNone)
  | TAddrs a => (put_addrs a w, TNone)
  | TPutDgram k i => (put_table (sock_put (as_dgram k) i (tw_table w)) w, TNone)
  | TPopDgram k => (put_table (sock_pop (as_dgram k) (tw_table w)) w, TNone)
  end.
Fixpoint top_run (ops : list top) (w : tworld) : tworld :=
  match ops with [] => w | o :: r => top_run r (fst (top_do o w)) end.
