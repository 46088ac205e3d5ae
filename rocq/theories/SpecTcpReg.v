(** What bind(), connect() and listen() of a TCP socket are expected to do. *)
From Verif Require Import Base AddrModel TcpModel StackModel StackRxModel UdpApiModel SpecUdpApi SessModel TcpApiModel SpecTcpApi.

(** a local address the socket may have: one of the stack's, or "any" *)
Definition may_bind (w : tworld) (f : family) (a : Z) : Prop :=
  a = 0 \/ In a (match f with Fam4 => ip4_unicast (tw_addrs w) | Fam6 => ip6_unicast (tw_addrs w) end).
(** a registered TCP socket has the port on that address *)
Definition taken (w : tworld) (a : ipaddr) (port : Z) : Prop :=
  exists k i, In (k, i) (tw_table w) /\ k_type k = Stream /\ k_lport k = port /\ overlap (k_lip k) a.
Definition ephemeral (p : Z) : Prop := 32168 <= p < 60700 /\ p mod 2 = 0.
(** there is a port to give away; [p] is one *)
Definition free_port (w : tworld) (p : Z) : Prop := ephemeral p /\ ~ port_used (tw_table w) p.
Definition is_bound (t : tsock) : Prop := 1 <= t_lport t < 65536.
Definition port_ok (p : Z) : Prop := 0 <= p < 65536.
Definition local_ends (t : tsock) : ipaddr * Z := (t_lip t, t_lport t).
Definition remote_ends (t : tsock) : ipaddr * Z := (t_rip t, t_rport t).
(** registrations of sockets other than [i] are as before *)
Definition others_kept (i : nat) (w w' : tworld) : Prop :=
  forall k x, x <> i -> sock_get k (tw_table w) = Some x -> sock_get k (tw_table w') = Some x.
(** the entry under the socket's own endpoints is not another socket's *)
Definition own_key (w : tworld) (i : nat) (k : skey) : Prop := forall x, sock_get k (tw_table w) = Some x -> x = i.
(** the local address of a connection: that of the socket or one picked for the peer; unknown
    only for the DHCP client *)
Definition local_for (w : tworld) (lip : ipaddr) (rip : ipaddr) (p rport : Z) (a : ipaddr) : Prop :=
  (~ unspec lip /\ a = lip) \/
  (unspec lip /\ a = pick_local_ip (tw_addrs w) rip /\ (~ unspec a \/ p = 68 /\ rport = 67)).
(** nothing but the socket table and socket [i] changed, and of the socket only its endpoints *)
Record rebound (i : nat) (l r : ipaddr * Z) (w w' : tworld) : Prop := {
  rb_ends : local_ends (tw_sock w' i) = l /\ remote_ends (tw_sock w' i) = r;
  rb_kept : t_parent (tw_sock w' i) = t_parent (tw_sock w i) /\ t_queue (tw_sock w' i) = t_queue (tw_sock w i) /\
    t_ready (tw_sock w' i) = t_ready (tw_sock w i) /\ t_between (tw_sock w' i) = t_between (tw_sock w i);
  rb_socks : forall x, x <> i -> tw_sock w' x = tw_sock w x;
  rb_count : tw_nsock w' = tw_nsock w /\ tw_addrs w' = tw_addrs w /\ tw_close w' = tw_close w;
  rb_sessions : forall x, (x < tw_nsess w)%nat -> tw_sess w' x = tw_sess w x /\ tw_owner w' x = tw_owner w x;
  rb_registered : sock_get (tcp_key (tw_sock w' i)) (tw_table w') = Some i;
  rb_table : forall k, k <> tcp_key (tw_sock w i) -> k <> tcp_key (tw_sock w' i) -> sock_get k (tw_table w') = sock_get k (tw_table w);
  rb_old : tcp_key (tw_sock w i) <> tcp_key (tw_sock w' i) -> sock_get (tcp_key (tw_sock w i)) (tw_table w') = None }.
(** a session was made for it *)
Definition opened (i : nat) (s : fsm_state) (w w' : tworld) : Prop :=
  tw_nsess w' = S (tw_nsess w) /\ t_sess (tw_sock w' i) = Some (tw_nsess w) /\ tw_owner w' (tw_nsess w) = i /\
  st (tw_sess w' (tw_nsess w)) = s /\ ends_of (tw_sess w' (tw_nsess w)) = ends_at (tw_sock w' i).
(** bind(): what it answers and does, in every case *)
Definition bind_outcome (i : nat) (text : option Z) (port : Z) (w w' : tworld) (r : tret) : Prop :=
  let t := tw_sock w i in let f := family_of (t_lip t) in
  (is_bound t /\ r = TErr (OsError 22) /\ w' = w) \/
  (~ is_bound t /\ text = None /\ r = TErr GaiError /\ w' = w) \/
  (~ is_bound t /\ exists a, text = Some a /\
    ((~ may_bind w f a /\ r = TErr (OsError 99) /\ w' = w) \/
     (may_bind w f a /\ ~ port_ok port /\ r = TErr OverflowErr /\ w' = w) \/
     (may_bind w f a /\ 0 < port < 65536 /\ taken w (in_family f a) port /\ r = TErr (OsError 98) /\ w' = w) \/
     (may_bind w f a /\ port = 0 /\ (forall p, ~ free_port w p) /\ r = TErr (OsError 98) /\ w' = w) \/
     (may_bind w f a /\ r = TNone /\ exists p, ((0 < port < 65536 /\ p = port /\ ~ taken w (in_family f a) port) \/ (port = 0 /\ free_port w p)) /\
        rebound i (in_family f a, p) (remote_ends t) w w' /\ tw_nsess w' = tw_nsess w /\ t_sess (tw_sock w' i) = t_sess t))).
(** connect(), up to the wait for the handshake *)
Definition connect_outcome (i : nat) (text : option Z) (rport : Z) (w w' : tworld) (r : tret) : Prop :=
  let t := tw_sock w i in
  (~ port_ok rport /\ r = TErr OverflowErr /\ w' = w) \/
  (port_ok rport /\ ~ is_bound t /\ (forall p, ~ free_port w p) /\ r = TErr (OsError 98) /\ w' = w) \/
  (port_ok rport /\ exists p, ((is_bound t /\ p = t_lport t) \/ (~ is_bound t /\ free_port w p)) /\
    ((text = None /\ r = TErr GaiError /\ w' = w) \/
     exists x, text = Some x /\ let rip := in_family (family_of (t_lip t)) x in
       (unspec rip /\ r = TErr ConnRefused /\ w' = w) \/
       (~ unspec rip /\ (forall a, ~ local_for w (t_lip t) rip p rport a) /\ r = TErr GaiError /\ w' = w) \/
       (~ unspec rip /\ r = TNone /\ exists a, local_for w (t_lip t) rip p rport a /\
          rebound i (a, p) (rip, rport) w w' /\ opened i SYN_SENT w w'))).
(** a call of these three on socket [i] *)
Definition reg_call (i : nat) (o : top) : Prop :=
  (exists c text port, o = TBind c i text port) \/ (exists c text port iss, o = TConnect c i text port iss) \/ (exists iss, o = TListen i iss).
