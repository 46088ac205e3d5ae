(** What an echo service promises, in terms of the datagrams received and the sendto calls made. *)
From Verif Require Import Base AddrModel StackModel StackRxModel UdpApiModel SpecUdpApi EchoModel.

(** the word [w], written in small letters, occurs in [m] in small or capital letters *)
Definition same_letter (b c : Z) : Prop := b = c \/ 65 <= b <= 90 /\ c = b + 32.
Definition said (w m : bytes) : Prop := exists a x b, m = a ++ x ++ b /\ Forall2 same_letter x w.
(** what goes back: the message itself, or a picture when it names one *)
Inductive answer_to (m : bytes) : bytes -> Prop :=
| an_malpka : said w_malpka m -> answer_to m malpka
| an_malpa : ~ said w_malpka m -> said w_malpa m -> answer_to m malpa
| an_malpi : ~ said w_malpka m -> ~ said w_malpa m -> said w_malpi m -> answer_to m malpi
| an_same : ~ said w_malpka m -> ~ said w_malpa m -> ~ said w_malpi m -> answer_to m m.

(** nobody but the service makes calls on its socket *)
Definition private (i : nat) (es : list echo_ev) : Prop := forall o, In (EWorld o) es -> ~ call_on i o.
(** everything that happened at the socket interface, in order *)
Fixpoint ops_of (es : list echo_ev) (s : echo) : list uop :=
  match es with
  | [] => []
  | e :: r => match echo_op e s with Some o => [o] | None => [] end ++ ops_of r (echo_do e s)
  end.
(** the sendto calls of the service: data, address text, port *)
Definition attempt (e : echo_ev) (s : echo) : list (bytes * option Z * Z) :=
  match e with
  | EThread _ => match echo_op e s with Some (USendto _ _ d t p) => [(d, t, p)] | _ => [] end
  | _ => []
  end.
Fixpoint tried (es : list echo_ev) (s : echo) : list (bytes * option Z * Z) :=
  match es with [] => [] | e :: r => attempt e s ++ tried r (echo_do e s) end.
(** a call answers a datagram: the right data, to the address and port it came from *)
Definition names (f : family) (t : option Z) (a : ipaddr) : Prop :=
  match t with Some x => a = in_family f x | None => family_of a <> f end.
Definition answers (f : family) (c : bytes * option Z * Z) (m : umd) : Prop :=
  let '(d, t, p) := c in answer_to (m_data m) d /\ names f t (m_rip m) /\ p = m_rport m.
(** the datagram received but not yet answered *)
Definition in_hand (a : echo_at) (l : list umd) : Prop :=
  match a with
  | Holding d r p => exists m, l = [m] /\ (d, r, p) = (m_data m, m_rip m, m_rport m)
  | _ => l = []
  end.
Definition sock_of (s : echo) : usock := n_udp (w_node (e_world s)) (e_sock s).
(** the service's socket [i] exists, is bound, and its semaphore counts its queue *)
Definition running (i : nat) (f : family) (s : echo) : Prop :=
  e_sock s = i /\ (i < w_next (e_world s))%nat /\ counted (e_world s) i /\ bound_port (u_lport0 (sock_of s)) = true /\ family_of (u_lip (sock_of s)) = f.
(** a datagram meant for the socket, with a sender that can be answered *)
Definition meant_for (u : usock) (m : umd) : Prop :=
  family_of (m_rip m) = family_of (u_lip u) /\ match m_rip m with A4 x => 0 <= x < 2 ^ 32 | A6 x => 0 <= x < 2 ^ 128 end /\ 0 < m_rport m < 65536 /\ zlen (m_data m) < 65528 /\
  m_lport m = u_lport0 u /\ (m_lip m = u_lip u \/ unspec (u_lip u)).
(** the calls that set the service up *)
Definition startup (f : family) (a port : Z) (w : world) : list uop := [UNew f; UBind 0 (w_next w) (Some a) port].
(** why a service holding a datagram is ended *)
Definition ended_by (f : family) (s : echo) (e : exn) : Prop :=
  exists d r p x, e_at s = Holding d r p /\ answer_to d x /\
    ((e = GaiError /\ unspec (u_lip (sock_of s)) /\ unspec (pick_local_ip (my_addrs (w_node (e_world s))) r)) \/
     (e = AssertionError /\ f = Fam4 /\ 1472 < zlen x /\ 65535 <= s_id4 (n_tx (w_node (e_world s))))).
