(** Properties C92-C95: addresses, networks and hosts as text. *)
From Verif Require Import Base BaseLemmas AddrModel SpecAddr IpTextModel.
From Verif Require Import SpecIpText SpecIntText IpText2 IpText3 IpText4 IpText5 IpText6.

(** * C92 The text of an address identifies it *)
(** what str() prints is read back as the same address *)
Theorem C92_text_round_trip :
  (forall a, 0 <= a < 2 ^ 32 -> ip4_of_text (ip4_str a) = TOk a)
  /\ (forall a, 0 <= a < 2 ^ 128 -> ip6_of_text (ip6_str a) = TOk a).
Proof. exact (conj ip4_round ip6_round). Qed.
Print Assumptions C92_text_round_trip.

(** == compares the texts: it holds exactly for the same address of the same
    version *)
Theorem C92_address_equality : forall v6 a w6 b, ip_range v6 a -> ip_range w6 b ->
  (ip_eq v6 a w6 b = true <-> v6 = w6 /\ a = b).
Proof. exact ip_eq_iff. Qed.
Print Assumptions C92_address_equality.

(** two sockets share an identifier (the key of stack.sockets) only if family,
    type, addresses and ports agree *)
Theorem C92_socket_identifier : forall v6 st lip lp rip rp v6' st' lip' lp' rip' rp',
  ip_range v6 lip -> ip_range v6 rip -> ip_range v6' lip' -> ip_range v6' rip' ->
  0 <= lp -> 0 <= rp -> 0 <= lp' -> 0 <= rp' ->
  socket_str v6 st lip lp rip rp = socket_str v6' st' lip' lp' rip' rp' ->
  (v6, st, lip, lp, rip, rp) = (v6', st', lip', lp', rip', rp').
Proof. exact socket_str_inj. Qed.
Print Assumptions C92_socket_identifier.

Example C92_ex_print :
  ip6_str 0x20010db8000000000001000000000001 = lit "2001:db8::1:0:0:1"
  /\ ip6_str 0xFFFF01020304 = lit "::ffff:1.2.3.4" /\ ip6_str 1 = lit "::1"
  /\ ip6_str 0x00010002000300040005000600070008 = lit "1:2:3:4:5:6:7:8".
Proof. vm_compute. auto. Qed.
Example C92_ex_socket :
  socket_str false true 0xC0A80001 1000 0x0A000002 80
  = lit "AF_INET4/SOCK_STREAM/192.168.0.1/1000/10.0.0.2/80".
Proof. vm_compute. reflexivity. Qed.

(** * C93 The IPv6 address texts accepted *)
(** "exactly the texts of RFC 4291, and each with its meaning" *)
Definition C93_ip6_text_statement : Prop :=
  forall t v, ip6_of_text t = TOk v <-> denotes6 t v.

(** true up to the form of six groups and an IPv4 address, which is refused *)
Theorem C93_ip6_text_partial : forall t v,
  ip6_of_text t = TOk v <-> denotes6 t v /\ ~ six_and_quad t.
Proof. exact ip6_text_iff. Qed.
Print Assumptions C93_ip6_text_partial.

(** a text that is refused raises the format error, except that one containing
    a null character may raise ValueError *)
Theorem C93_ip6_refused : forall t e, ip6_of_text t = TErr e ->
  e = AddrErr \/ e = ValErr /\ In 0 t.
Proof.
  intros t e E. destruct (ip_errors true t e E) as [H|[-> H]]; auto. right. split; auto.
  apply existsb_exists in H as (c & I & C). apply Z.eqb_eq in C. now subst c.
Qed.
Print Assumptions C93_ip6_refused.

Lemma C93_ex_denotes : denotes6 (lit "1:2:3:4:5:6:1.2.3.4") 0x00010002000300040005000601020304
  /\ six_and_quad (lit "1:2:3:4:5:6:1.2.3.4").
Proof.
  assert (G : groups (lit "1:2:3:4:5:6") [1; 2; 3; 4; 5; 6])
    by (apply (gtext_groups [1; 2; 3; 4; 5; 6]); [repeat constructor; lia|discriminate]).
  assert (Q : quad (lit "1.2.3.4") 0x01020304) by (apply (ip4_str_quad 0x01020304); lia).
  change (lit "1:2:3:4:5:6:1.2.3.4") with (lit "1:2:3:4:5:6" ++ 58 :: lit "1.2.3.4").
  split.
  - left. exists ([1; 2; 3; 4; 5; 6] ++ [0x01020304 / 65536; 0x01020304 mod 65536]).
    split; [apply tail_both; auto|]. split; reflexivity.
  - exists (lit "1:2:3:4:5:6"), [1; 2; 3; 4; 5; 6], (lit "1.2.3.4"), 0x01020304. auto.
Qed.
Theorem C93_ip6_text_refuted : ~ C93_ip6_text_statement.
Proof.
  intros H. destruct C93_ex_denotes as [D S]. apply H in D. apply ip6_text_iff in D as [_ N]. auto.
Qed.
Print Assumptions C93_ip6_text_refuted.

Example C93_ex_accepted :
  ip6_of_text (lit "::1") = TOk 1 /\ ip6_of_text (lit "::") = TOk 0
  /\ ip6_of_text (lit "2001:DB8::1.2.3.4") = TOk 0x20010db8000000000000000001020304
  /\ ip6_of_text (lit "1:2:3:4:5:6:7::") = TOk 0x00010002000300040005000600070000
  /\ ip6_of_text (lit "1::2::3") = TErr AddrErr /\ ip6_of_text (lit "12345::") = TErr AddrErr
  /\ ip6_of_text (lit "1:2:3:4:5:6:7:8:9") = TErr AddrErr /\ ip6_of_text (lit ":1::") = TErr AddrErr
  /\ ip6_of_text (lit "::1" ++ [0]) = TErr ValErr.
Proof. vm_compute. repeat split; reflexivity. Qed.

(** * C94 The IPv4 address texts accepted *)
(** "exactly the texts of four decimal octets, and each with its meaning" *)
Definition C94_ip4_text_statement : Prop :=
  forall t v, ip4_of_text t = TOk v <-> quad t v.

(** every such text is accepted with its meaning; and nothing else is that is
    made of digits and dots without leading zeros *)
Theorem C94_ip4_text_partial :
  (forall t v, quad t v -> ip4_of_text t = TOk v)
  /\ (forall t v, plain4 t -> (ip4_of_text t = TOk v <-> quad t v))
  /\ (forall t v, ip4_of_text t = TOk v -> 0 <= v < 2 ^ 32).
Proof.
  split; [exact ip4_text_complete|]. split; [|exact ip4_of_text_range].
  intros t v P. split; [now apply ip4_text_sound_plain|apply ip4_text_complete].
Qed.
Print Assumptions C94_ip4_text_partial.

Theorem C94_ip4_refused : forall t e, ip4_of_text t = TErr e ->
  e = AddrErr \/ e = ValErr /\ In 0 t.
Proof.
  intros t e E. destruct (ip_errors false t e E) as [H|[-> H]]; auto. right. split; auto.
  apply existsb_exists in H as (c & I & C). apply Z.eqb_eq in C. now subst c.
Qed.
Print Assumptions C94_ip4_refused.

(** octal and hexadecimal octets, text after a blank, and a match of the
    pattern other than the part that is converted *)
Example C94_ex_accepted :
  ip4_of_text (lit "192.168.9.255") = TOk 0xC0A809FF
  /\ ip4_of_text (lit "010.0.0.1") = TOk 0x08000001
  /\ ip4_of_text (lit "0x0a1.2.3") = TErr AddrErr
  /\ ip4_of_text (lit "0x1.2.3.4") = TOk 0x01020304
  /\ ip4_of_text (lit "1.2.3.4 junk") = TOk 0x01020304
  /\ ip4_of_text (lit "1.2 9.9.9.9") = TOk 0x01000002
  /\ ip4_of_text (lit "1.2.3") = TErr AddrErr /\ ip4_of_text (lit "1.2.3.256") = TErr AddrErr
  /\ ip4_of_text (lit "1.2.3.4" ++ [0]) = TErr ValErr.
Proof. vm_compute. repeat split; reflexivity. Qed.

(** no digit after a leading 0 in a quad: "010.0.0.1" is none *)
Theorem C94_ip4_text_refuted : ~ C94_ip4_text_statement
  /\ exists t v, ip4_of_text t = TOk v /\ Forall (fun c => dec_char c \/ c = 46) t /\ ~ quad t v.
Proof.
  assert (A : ip4_of_text (lit "1.2.3.4 junk") = TOk 0x01020304) by (vm_compute; reflexivity).
  assert (B : ip4_of_text (lit "010.0.0.1") = TOk 0x08000001) by (vm_compute; reflexivity).
  split.
  - intros H. apply H in A. apply quad_chars in A.
    assert (I : In 32 (lit "1.2.3.4 junk")) by (vm_compute; tauto).
    rewrite Forall_forall in A. apply A in I. unfold dec_char in I. lia.
  - exists (lit "010.0.0.1"), 0x08000001. split; [exact B|]. split.
    + change (lit "010.0.0.1") with [48; 49; 48; 46; 48; 46; 48; 46; 49].
      repeat (constructor; [unfold dec_char; lia|]). constructor.
    + intros (t1 & t2 & t3 & t4 & a & b & c & d & (D & N & R & Z1) & _ & _ & _ & E & _).
      change (lit "010.0.0.1") with [48; 49; 48; 46; 48; 46; 48; 46; 49] in E.
      destruct t1 as [|x [|y t1]]; [congruence|discriminate|]. injection E as <- <- _.
      specialize (Z1 _ eq_refl). discriminate.
Qed.
Print Assumptions C94_ip4_text_refuted.

(** * C95 Networks and hosts as text *)
(** "a/m" with m in digits names, if accepted, the network of the first m bits
    of the address a; it is accepted exactly if a is and m is at most 32, for
    IPv6 128 *)
Theorem C95_network_text : forall (v6 : bool) a m k w, no_slash a -> dec_num m k -> 1 <= zlen m <= 3 ->
  ((if v6 then net6_of_text (a ++ 47 :: m) else net4_of_text (a ++ 47 :: m)) = TOk w <->
   k <= Z.of_nat (width v6) /\
   exists x, (if v6 then ip6_of_text a else ip4_of_text a) = TOk x
     /\ n_mask w = prefix_mask (Z.of_nat (width v6)) k
     /\ n_addr w = x - x mod 2 ^ (Z.of_nat (width v6) - k)).
Proof.
  intros v6 a m k w A D L.
  assert (N : m <> []) by (intros ->; cbn in L; lia).
  pose proof (net_digits v6 a m k w A D N (proj2 L)) as H. unfold net_of_text, ip_of_text in H.
  rewrite H. split; intros (K & x & X & E); split; auto; exists x; split; auto.
  - rewrite E. split; reflexivity.
  - destruct E as [E1 E2]. destruct w as [wa wm]. cbn in E1, E2. subst. reflexivity.
Qed.
Print Assumptions C95_network_text.

(** the same for the address of a host together with its network *)
Theorem C95_host_text : forall v6 a m k h, no_slash a -> dec_num m k -> 1 <= zlen m <= 3 ->
  (host_of_text v6 (a ++ 47 :: m) = TOk h <->
   k <= Z.of_nat (width v6) /\ h_gw h = None /\
   (if v6 then ip6_of_text a else ip4_of_text a) = TOk (h_addr h) /\
   n_mask (h_net h) = prefix_mask (Z.of_nat (width v6)) k /\
   n_addr (h_net h) = h_addr h - h_addr h mod 2 ^ (Z.of_nat (width v6) - k)).
Proof.
  intros v6 a m k h A D L.
  assert (N : m <> []) by (intros ->; cbn in L; lia).
  rewrite (host_digits v6 a m k h A D N (proj2 L)). unfold ip_of_text. split.
  - intros (K & x & X & ->). cbn. auto.
  - intros (K & G & X & M & E). split; auto. exists (h_addr h). split; auto.
    destruct h as [ha [na nm] hg]. cbn in *. subst. reflexivity.
Qed.
Print Assumptions C95_host_text.

(** Every text that names an IPv4 network: one slash, an address before it, and
    behind it what int() takes for a number up to 32; a negative number counts
    as 0, unless it is too small for a C index *)
Theorem C95_ip4_network_exact : forall t w, net4_of_text t = TOk w <->
  exists a m k x, t = a ++ 47 :: m /\ no_slash a /\ no_slash m /\ int_text m k
    /\ 32 - 2 ^ 63 < k <= 32 /\ ip4_of_text a = TOk x
    /\ n_mask w = prefix_mask 32 (Z.max 0 k)
    /\ n_addr w = x - x mod 2 ^ (32 - Z.max 0 k).
Proof.
  intros t w. rewrite net4_iff.
  split; intros (a & m & k & x & E & A & M & P & K & X & W); exists a, m, k, x;
    do 6 (split; [assumption|]).
  - rewrite W. split; reflexivity.
  - destruct W as [W1 W2]. destruct w as [wa wm]. cbn [n_mask n_addr] in W1, W2. subst. reflexivity.
Qed.
Print Assumptions C95_ip4_network_exact.

(** Every text that names an IPv6 network: one slash, an address before it, and
    behind it one to three digits of a number up to 128, perhaps with a line
    feed (10) at the end *)
Theorem C95_ip6_network_exact : forall t w, net6_of_text t = TOk w <->
  exists a d m k x, t = a ++ 47 :: m /\ (m = d \/ m = d ++ [10]) /\ no_slash a
    /\ dec_num d k /\ 1 <= zlen d <= 3 /\ k <= 128 /\ ip6_of_text a = TOk x
    /\ n_mask w = prefix_mask 128 k /\ n_addr w = x - x mod 2 ^ (128 - k).
Proof.
  intros t w. rewrite net6_iff.
  split; intros (a & d & m & k & x & E & M & A & D & L & K & X & W); exists a, d, m, k, x;
    do 7 (split; [assumption|]).
  - rewrite W. split; reflexivity.
  - destruct W as [W1 W2]. destruct w as [wa wm]. cbn [n_mask n_addr] in W1, W2. subst. reflexivity.
Qed.
Print Assumptions C95_ip6_network_exact.

Example C95_ex_exact :
  int_text (lit " +1_6 ") 16
  /\ net4_of_text (lit "10.1.2.3/ +1_6 ") = TOk {| n_addr := 0x0A010000; n_mask := 0xFFFF0000 |}
  /\ net4_of_text (lit "10.1.2.3/1__6") = TErr NetErr /\ net4_of_text (lit "10.1.2.3/_16") = TErr NetErr
  /\ net4_of_text (lit "10.1.2.3/16_") = TErr NetErr /\ net4_of_text (lit "10.1.2.3/- 1") = TErr NetErr
  /\ net6_of_text (lit "::/1_6") = TErr NetErr.
Proof.
  split; [|vm_compute; repeat split; reflexivity].
  exists [32], [43], (lit "1_6"), [32], (lit "16"), 16.
  split; [reflexivity|]. split; [repeat constructor; unfold blank; lia|].
  split; [repeat constructor; unfold blank; lia|].
  split; [apply (dg_more [49] [54] [54]); [discriminate|repeat constructor; discriminate|]|].
  - apply dg_one; [discriminate|]. repeat constructor; discriminate.
  - split; [apply (dec_more [49] 1 54); [apply (dec_more [] 0 49); [constructor|]|]; split; discriminate|].
    left. auto.
Qed.

(** what str() prints for a network or a host (without gateway) is read back *)
Theorem C95_round_trip : forall v6 x k, ip_range v6 x -> 0 <= k <= Z.of_nat (width v6) ->
  let w := {| n_addr := x - x mod 2 ^ (Z.of_nat (width v6) - k);
              n_mask := prefix_mask (Z.of_nat (width v6)) k |} in
  let h := {| h_addr := x; h_net := w; h_gw := None |} in
  (if v6 then net6_of_text (net_str v6 w) else net4_of_text (net_str v6 w)) = TOk w
  /\ host_of_text v6 (host_str v6 h) = TOk h
  /\ net_str v6 w = ip_str v6 (n_addr w) ++ lit "/" ++ dec_str k
  /\ host_str v6 h = ip_str v6 x ++ lit "/" ++ dec_str k.
Proof. exact net_host_round. Qed.
Print Assumptions C95_round_trip.

(** "m is always in digits, and what is refused raises the error of its own
    constructor" *)
Definition C95_strict_statement : Prop :=
  (forall (v6 : bool) t w, (if v6 then net6_of_text t else net4_of_text t) = TOk w ->
     exists a m k, t = a ++ 47 :: m /\ dec_num m k /\ k <= Z.of_nat (width v6))
  /\ (forall (v6 : bool) t e, (if v6 then net6_of_text t else net4_of_text t) = TErr e -> e = NetErr)
  /\ (forall v6 t e, host_of_text v6 t = TErr e -> e = HostErr).

Example C95_ex_texts :
  net4_of_text (lit "10.1.2.3/8") = TOk {| n_addr := 0x0A000000; n_mask := 0xFF000000 |}
  /\ net4_of_text (lit "10.1.2.3/-5") = TOk {| n_addr := 0; n_mask := 0 |}
  /\ net4_of_text (lit "10.1.2.3/ 8 ") = TOk {| n_addr := 0x0A000000; n_mask := 0xFF000000 |}
  /\ net4_of_text (lit "10.1.2.3/9999999999999999999") = TErr OverErr
  /\ net6_of_text (lit "::/64" ++ [10]) = TOk {| n_addr := 0; n_mask := prefix_mask 128 64 |}
  /\ net4_of_text (lit "10.1.2.3") = TErr NetErr /\ net4_of_text (lit "10.1.2.3/33") = TErr NetErr
  /\ host_of_text false (lit "10.1.2.3/33") = TErr NetErr
  /\ host_of_text false (lit "10.1.2.333/8") = TErr HostErr
  /\ host_of_text true (lit "fe80::7/64")
     = TOk {| h_addr := 0xfe800000000000000000000000000007;
              h_net := {| n_addr := 0xfe800000000000000000000000000000;
                          n_mask := prefix_mask 128 64 |}; h_gw := None |}.
Proof. vm_compute. repeat split; reflexivity. Qed.

Theorem C95_strict_refuted : ~ C95_strict_statement
  /\ (exists t w a m, net4_of_text t = TOk w /\ t = a ++ 47 :: 45 :: m)
  /\ (exists t, net4_of_text t = TErr OverErr)
  /\ (exists t, host_of_text false t = TErr NetErr) /\ (exists t, host_of_text true t = TErr NetErr).
Proof.
  assert (H4 : host_of_text false (lit "10.1.2.3/33") = TErr NetErr) by (vm_compute; reflexivity).
  split; [intros (_ & _ & H); apply H in H4; discriminate|]. split.
  - exists (lit "10.1.2.3/-5"), {| n_addr := 0; n_mask := 0 |}, (lit "10.1.2.3"), (lit "5").
    split; vm_compute; reflexivity.
  - split; [exists (lit "10.1.2.3/9999999999999999999"); vm_compute; reflexivity|].
    split; [exists (lit "10.1.2.3/33"); exact H4|].
    exists (lit "::/129"). vm_compute. reflexivity.
Qed.
Print Assumptions C95_strict_refuted.

(** the exceptions there are *)
Theorem C95_errors_partial :
  (forall (v6 : bool) t e, (if v6 then net6_of_text t else net4_of_text t) = TErr e ->
     e = NetErr \/ e = OverErr /\ v6 = false)
  /\ (forall v6 t e, host_of_text v6 t = TErr e ->
     e = HostErr \/ e = NetErr \/ e = OverErr /\ v6 = false)
  /\ (forall (v6 : bool) a m e, no_slash a -> no_slash m ->
     (if v6 then ip6_of_text a else ip4_of_text a) = TErr e ->
     host_of_text v6 (a ++ 47 :: m) = TErr HostErr).
Proof. exact (conj net_errors (conj host_errors host_errors_addr)). Qed.
Print Assumptions C95_errors_partial.
