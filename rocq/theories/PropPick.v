(** Properties C82-C84: the local address picked for a remote address, the option values of a
    received segment and of a neighbour discovery message; and the exact MAC address ranges (C06). *)
From Verif Require Import Base BaseLemmas AddrModel AddrProofs SpecStack StackTxProofs TcpModel Icmp6Model PickProofs StackModel PropTx.

(** * C06 exact ranges *)
Theorem C06_mac_ranges : forall a, 0 <= a < 2 ^ 48 ->
  (mac_is_unspecified a = true <-> a = 0) /\ (mac_is_broadcast a = true <-> a = 2 ^ 48 - 1) /\
  (mac_is_multicast_ip4 a = true <-> a / 2 ^ 24 = 0x01005E) /\
  (mac_is_multicast_ip6 a = true <-> a / 2 ^ 32 = 0x3333) /\
  (mac_is_multicast_ip6_solicited_node a = true <-> a / 2 ^ 24 = 0x3333FF) /\
  (mac_is_unicast a = true <-> a <> 0 /\ a <> 2 ^ 48 - 1 /\ a / 2 ^ 24 <> 0x01005E /\ a / 2 ^ 32 <> 0x3333).
Proof. exact mac_ranges. Qed.
Print Assumptions C06_mac_ranges.
Example C06_ranges_example : 0 <= 0x3333FF000001 < 2 ^ 48 /\ mac_is_multicast_ip6_solicited_node 0x3333FF000001 = true /\
  mac_is_multicast_ip6_solicited_node 0x333300000001 = false.
Proof. split; [lia|]. split; reflexivity. Qed.

(** * C82 the local address *)
Theorem C82_local_address : forall n hosts remote, Forall (fun hk => host_ok n (snd hk) (fst hk)) hosts ->
  local_for (Z.of_nat n) (map (fun hk => (h_addr (fst hk), snd hk, h_gw (fst hk))) hosts) remote
    (pick_local n (map fst hosts) remote).
Proof. exact pick_local_spec. Qed.
Print Assumptions C82_local_address.
Example C82_example : Forall (fun hk => host_ok 32 (snd hk) (fst hk)) [(ex_h4, 24)] /\
  pick_local 32 [ex_h4] 0x0A000009 = h_addr ex_h4 /\ pick_local 32 [ex_h4] 0x08080808 = h_addr ex_h4 /\
  pick_local 32 [] 0x08080808 = 0.
Proof. split; [constructor; [exact (proj1 ex_host4_ok)|constructor]|]. repeat split; vm_compute; reflexivity. Qed.

(** * C83 option values *)
Theorem C83_option_values : forall l, Forall (fun o => match o with OWscale w => 0 <= w | _ => True end) l ->
  (forall m, opt_mss l = m <->
    (exists a b, l = a ++ OMss m :: b /\ forall o, In o a -> match o with OMss _ => False | _ => True end) \/
    (m = 536 /\ forall o, In o l -> match o with OMss _ => False | _ => True end)) /\
  (forall v, opt_wscale l = v <->
    (exists w a b, v = Some (2 ^ w) /\ l = a ++ OWscale w :: b /\ forall o, In o a -> match o with OWscale _ => False | _ => True end) \/
    (v = None /\ forall o, In o l -> match o with OWscale _ => False | _ => True end)).
Proof. exact opt_values. Qed.
Print Assumptions C83_option_values.
Example C83_example : let l := [ONop; OWscale 7; OMss 1460; OMss 9000] in
  Forall (fun o => match o with OWscale w => 0 <= w | _ => True end) l /\ opt_mss l = 1460 /\ opt_wscale l = Some 128.
Proof. repeat split; repeat constructor; lia. Qed.

(** * C84 neighbour discovery option values *)
Theorem C84_nd_option_values : forall l,
  (forall m, nd_slla l = Some m <-> exists a b, l = a ++ NSlla m :: b /\ forall m', ~ In (NSlla m') a) /\
  (nd_slla l = None <-> forall m, ~ In (NSlla m) l) /\
  (forall m, nd_tlla l = Some m <-> exists a b, l = a ++ NTlla m :: b /\ forall m', ~ In (NTlla m') a) /\
  (nd_tlla l = None <-> forall m, ~ In (NTlla m) l) /\
  (forall w, In w (nd_prefixes l) <->
     exists onlink router valid prefer, In (NPi onlink true router valid prefer w) l /\ mask_len (n_mask w) = 64).
Proof. exact nd_values. Qed.
Print Assumptions C84_nd_option_values.
Theorem C84_prefix_order : forall a b, nd_prefixes (a ++ b) = nd_prefixes a ++ nd_prefixes b.
Proof. exact nd_prefixes_app. Qed.
Print Assumptions C84_prefix_order.
Example C84_example :
  let w := {| n_addr := 0x20010DB8 * 2 ^ 96; n_mask := (2 ^ 64 - 1) * 2 ^ 64 |} in
  nd_slla [NTlla 5; NSlla 7; NSlla 8] = Some 7 /\
  nd_prefixes [NPi true false false 1 1 w; NPi true true false 1 1 w] = [w].
Proof. split; vm_compute; reflexivity. Qed.
