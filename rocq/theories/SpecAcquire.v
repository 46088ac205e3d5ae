(** What address acquisition must do, in terms of the frames that came in and went out. *)
From Verif Require Import Base CodecModel AddrModel EtherModel Icmp6Model StackModel StackRxModel SpecRx SpecReact SpecStack AcquireModel.

(** the number of elements with a property *)
Inductive counted {A} (P : A -> Prop) : list A -> Z -> Prop :=
| cnt_nil : counted P [] 0
| cnt_yes x l k : P x -> counted P l k -> counted P (x :: l) (k + 1)
| cnt_no x l k : ~ P x -> counted P l k -> counted P (x :: l) k.

(** a list within a list, in order *)
Inductive subseq {A} : list A -> list A -> Prop :=
| ss_nil l : subseq [] l
| ss_take x l l' : subseq l l' -> subseq (x :: l) (x :: l')
| ss_skip x l l' : subseq l l' -> subseq l (x :: l').

(** ** IPv4, RFC 5227 *)
(** the frame [f], handled in state [m], is an ARP reply of another host that uses [ip] to
    our probe *)
Definition reply_from_user (m : node) (f : bytes) (ip : Z) : Prop :=
  exists e p, arp_in m f e p /\ a_oper p = 2 /\ EtherModel.e_dst e = a_mac (my_addrs m) /\
    a_tha p = a_mac (my_addrs m) /\ a_tpa p = 0 /\ a_spa p = ip.
Definition used_by_other (log : list (node * bytes)) (ip : Z) : Prop :=
  exists m f, In (m, f) log /\ reply_from_user m f ip.
(** the probe and the announcement *)
Definition probe_frame (mac ip : Z) : oframe :=
  {| f_dst := 2 ^ 48 - 1; f_src := mac; f_pkt := NArp {| a_oper := 1; a_sha := mac; a_spa := 0; a_tha := 0; a_tpa := ip |} |}.
Definition announce_frame (mac ip : Z) : oframe :=
  {| f_dst := 2 ^ 48 - 1; f_src := mac; f_pkt := NArp {| a_oper := 1; a_sha := mac; a_spa := ip; a_tha := 0; a_tpa := ip |} |}.

(** ** IPv6, RFC 4862 *)
(** the frame [f], handled in state [m], is a neighbour advertisement for [c] *)
Definition advert_for (m : node) (f : bytes) (c : Z) : Prop :=
  exists n1 src dst q r s o opts, icmp6_in m f n1 src dst q /\ q6_body q = B6Na r s o c opts.
(** … while the stack is testing [c] *)
Definition answers_probe (c : Z) (e : node * bytes) : Prop :=
  a_cand6 (my_addrs (fst e)) = Some c /\ advert_for (fst e) (snd e) c.
(** candidates claimed one after the other, each with the outcome and the frames handled
    meanwhile *)
Inductive claiming : world -> list (host * bool * list (node * bytes)) -> world -> Prop :=
| cl_nil w : claiming w [] w
| cl_cons w h ok seg w1 l w2 :
    claim6 h w = (w1, Ok tt) -> w_log w1 = w_log w ++ seg ->
    a_host6 (my_addrs (w_node w1)) = a_host6 (my_addrs (w_node w)) ++ (if ok : bool then [h] else []) ->
    claiming w1 l w2 -> claiming w ((h, ok, seg) :: l) w2.

(** a world the acquisition may start in *)
Definition quiet (n : node) : Prop := a_cand6 (my_addrs n) = None /\ n_dad n = 0.
Definition frames_ok (s : schedule) : Prop := Forall (Forall wf_bytes) s.

(** ** assignment history, latest first *)
Definition same_host (a b : host) : bool := (h_addr a =? h_addr b) && (n_mask (h_net a) =? n_mask (h_net b)).
Fixpoint times (h : host) (hist : list mop) : nat :=
  match hist with
  | [] => O
  | MAssign x :: r => if same_host h x then S (times h r) else times h r
  | MRemove x :: r => if same_host h x then pred (times h r) else times h r
  | _ :: r => times h r
  end.
Definition assigned (hist : list mop) (a : Z) : Prop := exists h, h_addr h = a /\ (0 < times h hist)%nat.
(** 33:33 and the low 32 bits, RFC 2464 *)
Definition group_mac (g : Z) : Z := 0x333300000000 + g mod 2 ^ 32.
Definition op_ok (o : mop) : Prop :=
  match o with MAssign h | MRemove h => 0 <= h_addr h < 2 ^ 128 | MProbe c => 0 <= c < 2 ^ 128 | _ => True end.
(** answers heard and candidates rejected in a sequence of claims *)
Inductive tally : list (host * bool * list (node * bytes)) -> Z -> Z -> Prop :=
| ta_nil : tally [] 0 0
| ta_cons h ok seg l k hits rej : counted (answers_probe (h_addr h)) seg k -> tally l hits rej ->
    tally ((h, ok, seg) :: l) (k + hits) ((if ok : bool then 0 else 1) + rej).
