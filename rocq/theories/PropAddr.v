(** Properties C05-C14: addresses, masks, networks, hosts. *)
From Verif Require Import BaseLemmas BitLemmas AddrModel SpecAddr AddrProofs.

(** * C05 MAC address value round trips *)
Theorem C05_mac_roundtrip : forall a, 0 <= a < 2 ^ 48 ->
  mac_of_int a = Ok a /\ mac_of_bytes (mac_bytes a) = Ok a /\ mac_of_text (mac_str a) = Ok a.
Proof.
  intros a H. exact (conj (proj2 (proj1 (mac_of_int_iff a)) H)
                          (conj (mac_bytes_round a H) (mac_str_round a H))).
Qed.
Print Assumptions C05_mac_roundtrip.

Theorem C05_mac_printing_injective : forall a b, 0 <= a < 2 ^ 48 -> 0 <= b < 2 ^ 48 ->
  mac_str a = mac_str b -> a = b.
Proof. exact mac_str_inj. Qed.
Print Assumptions C05_mac_printing_injective.

(** exactly the 48-bit integers, the 6-byte strings (denoting their big-endian
    value) and the texts made of six hex pairs separated by ':' or '-', with
    white space around, are accepted; everything else is the format error. *)
Theorem C05_mac_rejects : 
  (forall a, ~ (0 <= a < 2 ^ 48) <-> mac_of_int a = Exn FormatError) /\
  (forall b, wf_bytes b -> zlen b = 6 -> mac_of_bytes b = Ok (be b)) /\
  (forall b, zlen b <> 6 -> mac_of_bytes b = Exn FormatError) /\
  (forall t v, mac_of_text t = Ok v <->
     exists w1 c w2 l, t = w1 ++ c ++ w2 /\ spaces w1 /\ spaces w2 /\
                       mac_text c l /\ length l = 6%nat /\ v = be l) /\
  (forall t, (exists v, mac_of_text t = Ok v) \/ mac_of_text t = Exn FormatError).
Proof.
  exact (conj (fun a => proj2 (mac_of_int_iff a)) (conj mac_of_bytes_be (conj mac_of_bytes_len
        (conj mac_of_text_spec mac_of_text_total)))).
Qed.
Print Assumptions C05_mac_rejects.

(** " 02:00:00:aA-bb:cc\n" *)
Example C05_example :
  mac_of_text [32; 48; 50; 58; 48; 48; 58; 48; 48; 58; 97; 65; 45; 98; 98; 58; 99; 99; 10]
    = Ok 0x020000AABBCC /\ mac_str 0x020000AABBCC
    = [48; 50; 58; 48; 48; 58; 48; 48; 58; 97; 97; 58; 98; 98; 58; 99; 99].
Proof. split; vm_compute; reflexivity. Qed.

(** * C06 MAC classes *)
Theorem C06_mac_classes_partial : forall a, 0 <= a < 2 ^ 48 ->
  exactly_one [mac_is_unspecified a; mac_is_broadcast a; mac_is_multicast_ip4 a;
               mac_is_multicast_ip6 a; mac_is_unicast a].
Proof. exact mac_classes. Qed.
Print Assumptions C06_mac_classes_partial.

(** the second half of C06 is false: 01:80:c2:00:00:00 (a group address, its
    first byte is odd) is reported as unicast *)
Theorem C06_group_bit_refuted : exists a, 0 <= a < 2 ^ 48 /\ mac_is_unicast a = true /\
  exists b0 r, mac_bytes a = b0 :: r /\ Z.odd b0 = true.
Proof.
  exists 0x0180C2000000. split; [lia|]. split; [reflexivity|].
  do 2 eexists; split; vm_compute; reflexivity.
Qed.
Print Assumptions C06_group_bit_refuted.
Example C06_example : 0 <= 0x020000AABBCC < 2 ^ 48 /\ mac_is_unicast 0x020000AABBCC = true.
Proof. split; [lia|reflexivity]. Qed.

(** * C07 IPv4 classes partition *)
Theorem C07_ip4_classes : forall a, 0 <= a < 2 ^ 32 ->
  exactly_one [ip4_is_unspecified a; ip4_is_invalid a; ip4_is_loopback a; ip4_is_link_local a;
               ip4_is_private a; ip4_is_multicast a; ip4_is_reserved a;
               ip4_is_limited_broadcast a; ip4_is_global a].
Proof. exact ip4_classes. Qed.
Print Assumptions C07_ip4_classes.
Theorem C07_ip4_unicast : forall a,
  ip4_is_unicast a = true <-> ip4_is_global a = true \/ ip4_is_private a = true \/
    ip4_is_link_local a = true \/ ip4_is_loopback a = true.
Proof. exact ip4_unicast_iff. Qed.
Print Assumptions C07_ip4_unicast.
Example C07_example : 0 <= dot 8 8 8 8 < 2 ^ 32 /\ ip4_is_global (dot 8 8 8 8) = true.
Proof. split; [unfold dot; lia|reflexivity]. Qed.

(** * C08 IPv4 class ranges.  Full statement: the conjunction below together
    with "ip4_is_reserved a = true <-> between (dot 240 0 0 0) a (dot 255 255
    255 254)"; that last part is false. *)
Theorem C08_ip4_ranges_partial : forall a, 0 <= a < 2 ^ 32 ->
  (ip4_is_loopback a = true <-> between (dot 127 0 0 0) a (dot 127 255 255 255)) /\
  (ip4_is_link_local a = true <-> between (dot 169 254 0 0) a (dot 169 254 255 255)) /\
  (ip4_is_private a = true <-> between (dot 10 0 0 0) a (dot 10 255 255 255) \/
     between (dot 172 16 0 0) a (dot 172 31 255 255) \/
     between (dot 192 168 0 0) a (dot 192 168 255 255)) /\
  (ip4_is_multicast a = true <-> between (dot 224 0 0 0) a (dot 239 255 255 255)) /\
  (ip4_is_invalid a = true <-> between (dot 0 0 0 1) a (dot 0 255 255 255)) /\
  (ip4_is_unspecified a = true <-> a = dot 0 0 0 0) /\
  (ip4_is_limited_broadcast a = true <-> a = dot 255 255 255 255) /\
  (ip4_is_reserved a = true <-> between (dot 240 0 0 0) a (dot 255 255 255 254) /\ a mod 2 = 0).
Proof. exact ip4_ranges. Qed.
Print Assumptions C08_ip4_ranges_partial.
Theorem C08_reserved_refuted : exists a, 0 <= a < 2 ^ 32 /\
  between (dot 240 0 0 0) a (dot 255 255 255 254) /\
  ip4_is_reserved a = false /\ ip4_is_global a = true /\ ip4_is_unicast a = true.
Proof.
  exists (dot 240 0 0 1). unfold between, dot. split; [lia|]. split; [lia|].
  repeat split; vm_compute; reflexivity.
Qed.
Print Assumptions C08_reserved_refuted.

(** * C09 IPv6 classes *)
Theorem C09_ip6_prefixes : forall a, 0 <= a < 2 ^ 128 ->
  (ip6_is_unspecified a = true <-> a = 0) /\
  (ip6_is_loopback a = true <-> a = 1) /\
  (ip6_is_link_local a = true <-> same_prefix 128 10 a (0xFE80 * 2 ^ 112)) /\
  (ip6_is_private a = true <-> same_prefix 128 7 a (0xFC00 * 2 ^ 112)) /\
  (ip6_is_global a = true <-> same_prefix 128 3 a (0x2000 * 2 ^ 112)) /\
  (ip6_is_multicast a = true <-> same_prefix 128 8 a (0xFF00 * 2 ^ 112)) /\
  (ip6_is_solicited_node_multicast a = true <->
     same_prefix 128 104 a 0xFF0200000000000000000001FF000000) /\
  at_most_one [ip6_is_unspecified a; ip6_is_loopback a; ip6_is_link_local a; ip6_is_private a;
               ip6_is_global a; ip6_is_multicast a].
Proof. exact ip6_prefixes. Qed.
Print Assumptions C09_ip6_prefixes.
Example C09_example : ip6_is_global (0x20010DB8 * 2 ^ 96 + 7) = true /\
  ip6_is_link_local (0xFE80 * 2 ^ 112 + 1) = true /\
  ip6_is_solicited_node_multicast 0xFF0200000000000000000001FF123456 = true.
Proof. repeat split. Qed.

(** * C10 masks; n is 32 or 128 in the code *)
Theorem C10_mask_int : forall n m,
  (mask_of_int n m = Ok m <-> exists k, 0 <= k <= Z.of_nat n /\ m = prefix_mask (Z.of_nat n) k) /\
  (mask_of_int n m = Ok m \/ mask_of_int n m = Exn FormatError).
Proof. exact mask_of_int_spec. Qed.
Print Assumptions C10_mask_int.
Theorem C10_mask_bytes : forall n b, wf_bytes b ->
  (mask_of_bytes n b = Ok (be b) <->
     8 * zlen b = Z.of_nat n /\ exists k, 0 <= k <= Z.of_nat n /\ be b = prefix_mask (Z.of_nat n) k) /\
  (mask_of_bytes n b = Ok (be b) \/ mask_of_bytes n b = Exn FormatError).
Proof. exact mask_of_bytes_spec. Qed.
Print Assumptions C10_mask_bytes.
Theorem C10_mask_prefix : forall n k,
  mask_of_prefix n k = (if (0 <=? k) && (k <=? Z.of_nat n)
                        then Ok (prefix_mask (Z.of_nat n) k) else Exn FormatError) /\
  (0 <= k <= Z.of_nat n -> mask_len (prefix_mask (Z.of_nat n) k) = k).
Proof. exact (fun n k => conj (mask_of_prefix_spec n k) (mask_len_prefix (Z.of_nat n) k)). Qed.
Print Assumptions C10_mask_prefix.
Example C10_example : mask_of_int 32 (dot 255 255 254 0) = Ok (dot 255 255 254 0) /\
  mask_of_int 32 (dot 255 0 255 0) = Exn FormatError /\ mask_of_int 32 (2 ^ 32) = Exn FormatError /\
  mask_of_prefix 128 64 = Ok (2 ^ 128 - 2 ^ 64) /\ mask_of_bytes 32 [255; 255; 255] = Exn FormatError.
Proof. repeat split; vm_compute; reflexivity. Qed.

(** * C11 network membership *)
Theorem C11_membership : forall n k addr w a,
  0 <= k <= Z.of_nat n -> 0 <= addr < 2 ^ Z.of_nat n ->
  mk_net n addr (prefix_mask (Z.of_nat n) k) = Ok w ->
  (net_contains n w a = true <-> same_prefix (Z.of_nat n) k a addr) /\
  (net_contains n w a = true -> n_addr w <= a <= net_last n w) /\
  net_contains n w (n_addr w) = true /\ net_contains n w (net_last n w) = true /\
  0 <= n_addr w /\ net_last n w < 2 ^ Z.of_nat n.
Proof. exact (fun n k addr w a => net_contains_spec n k addr a w). Qed.
Print Assumptions C11_membership.
Theorem C11_network_exists : forall n k addr,
  0 <= k <= Z.of_nat n -> 0 <= addr < 2 ^ Z.of_nat n ->
  exists w, mk_net n addr (prefix_mask (Z.of_nat n) k) = Ok w.
Proof. exact (fun n k addr Hk Ha => ex_intro _ _ (mk_net_spec n k addr Hk Ha)). Qed.
Print Assumptions C11_network_exists.
Example C11_example : exists w, mk_net 32 (dot 192 168 1 77) (prefix_mask 32 24) = Ok w /\
  n_addr w = dot 192 168 1 0 /\ net_last 32 w = dot 192 168 1 255 /\
  net_contains 32 w (dot 192 168 1 200) = true /\ net_contains 32 w (dot 192 168 2 0) = false.
Proof. eexists. split; [vm_compute; reflexivity|]. repeat split; vm_compute; reflexivity. Qed.

(** * C12 gateways.  gs is any sequence of assigned values (None clears). *)
Theorem C12_ip4_gateway : forall n_host gs h g,
  h_gw n_host = None ->
  h = fold_left (fun h g => fst (ip4_set_gateway h g)) gs n_host ->
  h_gw h = Some g ->
  net_contains 32 (h_net n_host) g = true /\ g <> n_addr (h_net n_host) /\
  g <> ip4_broadcast (h_net n_host) /\ g <> h_addr n_host.
Proof. exact ip4_gateway_usable. Qed.
Print Assumptions C12_ip4_gateway.
Theorem C12_rejected_keeps : forall h g e,
  (snd (ip4_set_gateway h g) = Some e -> fst (ip4_set_gateway h g) = h) /\
  (snd (ip6_set_gateway h g) = Some e -> fst (ip6_set_gateway h g) = h).
Proof. exact rejected_keeps. Qed.
Print Assumptions C12_rejected_keeps.
(** IPv6: link-local, but nothing keeps the own address out *)
Theorem C12_ip6_gateway_partial : forall h0 gs h g,
  h_gw h0 = None -> Forall (fun o => forall a, o = Some a -> 0 <= a < 2 ^ 128) gs ->
  h = fold_left (fun h g => fst (ip6_set_gateway h g)) gs h0 ->
  h_gw h = Some g -> same_prefix 128 10 g (0xFE80 * 2 ^ 112).
Proof. exact ip6_gateway_ll. Qed.
Print Assumptions C12_ip6_gateway_partial.
Theorem C12_ip6_own_address_refuted : exists h g,
  mk_host 128 (0xFE80 * 2 ^ 112 + 1) (prefix_mask 128 64) = Ok h /\
  h_gw (fst (ip6_set_gateway h g)) = Some (h_addr h).
Proof.
  exists {| h_addr := 0xFE80 * 2 ^ 112 + 1;
            h_net := {| n_addr := 0xFE80 * 2 ^ 112; n_mask := prefix_mask 128 64 |}; h_gw := None |},
         (Some (0xFE80 * 2 ^ 112 + 1)).
  split; vm_compute; reflexivity.
Qed.
Print Assumptions C12_ip6_own_address_refuted.
Example C12_example : exists h, mk_host 32 (dot 192 168 1 7) (prefix_mask 32 24) = Ok h /\
  h_gw (fold_left (fun h g => fst (ip4_set_gateway h g))
          [Some (dot 192 168 1 1); Some (dot 192 168 1 255); Some (dot 10 0 0 1)] h)
  = Some (dot 192 168 1 1).
Proof. eexists; split; [vm_compute; reflexivity|]; vm_compute; reflexivity. Qed.

(** * C13 EUI-64, bytes as in RFC 4291 appendix A *)
Theorem C13_eui64 : forall addr w mac b0 b1 b2 b3 b4 b5,
  0 <= addr < 2 ^ 128 -> mk_net 128 addr (prefix_mask 128 64) = Ok w ->
  wf_bytes [b0; b1; b2; b3; b4; b5] -> mac = be [b0; b1; b2; b3; b4; b5] ->
  exists h, ip6_eui64 w mac = Ok h /\
    h_addr h = be (be_enc 8 (addr / 2 ^ 64) ++ [Z.lxor b0 2; b1; b2; 255; 254; b3; b4; b5]) /\
    h_net h = w /\ net_contains 128 w (h_addr h) = true /\ h_gw h = None.
Proof. exact eui64_full. Qed.
Print Assumptions C13_eui64.
Theorem C13_eui64_injective : forall addr w mac1 mac2 h1 h2,
  0 <= addr < 2 ^ 128 -> mk_net 128 addr (prefix_mask 128 64) = Ok w ->
  0 <= mac1 < 2 ^ 48 -> 0 <= mac2 < 2 ^ 48 ->
  ip6_eui64 w mac1 = Ok h1 -> ip6_eui64 w mac2 = Ok h2 -> h_addr h1 = h_addr h2 -> mac1 = mac2.
Proof. exact eui64_inj. Qed.
Print Assumptions C13_eui64_injective.
Example C13_example : exists w h, mk_net 128 (0xFE80 * 2 ^ 112) (prefix_mask 128 64) = Ok w /\
  ip6_eui64 w 0x02005E10BBCC = Ok h /\ h_addr h = 0xFE8000000000000000005EFFFE10BBCC.
Proof.
  do 2 eexists. split; [vm_compute; reflexivity|].
  split; [vm_compute; reflexivity|]. vm_compute; reflexivity.
Qed.

(** * C14 multicast mapping *)
Theorem C14_solicited_node : forall a, 0 <= a < 2 ^ 128 ->
  exists g, ip6_solicited_node_multicast a = Ok g /\
    g = be [255; 2; 0; 0; 0; 0; 0; 0; 0; 0; 0; 1; 255; 0; 0; 0] + a mod 2 ^ 24 /\
    0 <= g < 2 ^ 128 /\ ip6_is_solicited_node_multicast g = true /\ ip6_is_multicast g = true.
Proof. exact solicited_node_spec. Qed.
Print Assumptions C14_solicited_node.
Theorem C14_ip6_multicast_mac : forall a, 0 <= a < 2 ^ 128 ->
  if ip6_is_multicast a
  then exists m, ip6_multicast_mac a = Ok m /\ m = be [0x33; 0x33; 0; 0; 0; 0] + a mod 2 ^ 32 /\
       mac_is_multicast_ip6 m = true
  else ip6_multicast_mac a = Exn AssertionError.
Proof. exact ip6_multicast_mac_spec. Qed.
Print Assumptions C14_ip6_multicast_mac.
Theorem C14_ip4_multicast_mac : forall a, 0 <= a < 2 ^ 32 ->
  if ip4_is_multicast a
  then exists m, ip4_multicast_mac a = Ok m /\ m = be [0x01; 0x00; 0x5e; 0; 0; 0] + a mod 2 ^ 23 /\
       mac_is_multicast_ip4 m = true
  else ip4_multicast_mac a = Exn AssertionError.
Proof. exact ip4_multicast_mac_spec. Qed.
Print Assumptions C14_ip4_multicast_mac.
Example C14_example : ip4_multicast_mac (dot 224 129 2 3) = Ok 0x01005E010203 /\
  ip4_multicast_mac (dot 10 0 0 1) = Exn AssertionError /\
  ip6_multicast_mac 0xFF0200000000000000000001FF123456 = Ok 0x3333FF123456.
Proof. repeat split; vm_compute; reflexivity. Qed.
