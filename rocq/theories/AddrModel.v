(** Model of the address classes.  An address object is the integer it holds;
    a Python str is the list of its code points. *)
From Verif Require Import Base.

(** * MAC addresses, pytcp/lib/mac_address.py *)

(** struct.pack("!HHH", ...)/struct.unpack("!HHH", ...) on the three 16-bit
    groups. *)

(** MacAddress.__init__ with an int, mac_address.py:59-62,86 *)
Definition mac_of_int (a : Z) : res Z :=
  if (0 <=? a) && (a <? 0x1000000000000) then Ok a else Exn FormatError.

(** MacAddress.__init__ with bytes/bytearray/memoryview, mac_address.py:64-68,86 *)
Definition mac_of_bytes (b : bytes) : res Z :=
  if zlen b =? 6
  then Ok (Z.shiftl (be (slice 0 2 b)) 32 + Z.shiftl (be (slice 2 4 b)) 16 + be (slice 4 6 b))
  else Exn FormatError.

(** MacAddress.__bytes__, mac_address.py:101-110 *)
Definition mac_bytes (a : Z) : bytes :=
  be_enc 2 (Z.land (Z.shiftr a 32) 0xFFFF) ++ be_enc 2 (Z.land (Z.shiftr a 16) 0xFFFF)
  ++ be_enc 2 (Z.land a 0xFFFF).

(** a lower-case hexadecimal digit's code point: what format "x" prints *)
Definition hex_digit (d : Z) : Z := if d <? 10 then 48 + d else 87 + d.

(** f"{b:0>2x}" for a byte, mac_address.py:93 *)
Definition hex2 (b : Z) : list Z := [hex_digit (b / 16); hex_digit (b mod 16)].

(** ":".join(l), 58 is ':' *)
Fixpoint join_colon (l : list (list Z)) : list Z :=
  match l with
  | [] => []
  | [x] => x
  | x :: r => x ++ 58 :: join_colon r
  end.

(** MacAddress.__str__, mac_address.py:89-93 *)
Definition mac_str (a : Z) : list Z := join_colon (map hex2 (mac_bytes a)).

(** code points removed by str.strip() (str.isspace() characters) *)
Definition py_space (c : Z) : bool :=
  ((9 <=? c) && (c <=? 13)) || ((28 <=? c) && (c <=? 32)) || (c =? 133) || (c =? 160)
  || (c =? 5760) || ((8192 <=? c) && (c <=? 8202)) || (c =? 8232) || (c =? 8233)
  || (c =? 8239) || (c =? 8287) || (c =? 0x3000).
Fixpoint lstrip (t : list Z) : list Z :=
  match t with [] => [] | c :: r => if py_space c then lstrip r else t end.
Definition strip (t : list Z) : list Z := rev (lstrip (rev (lstrip t))).

(** value of a [0-9A-Fa-f] character *)
Definition hex_val (c : Z) : option Z :=
  if (48 <=? c) && (c <=? 57) then Some (c - 48)
  else if (97 <=? c) && (c <=? 102) then Some (c - 87)
  else if (65 <=? c) && (c <=? 70) then Some (c - 55)
  else None.

(** match of ([0-9A-Fa-f]{2}[:-]){n}([0-9A-Fa-f]{2})$ against the whole text,
    giving bytes.fromhex of the text without separators.  58 is ':', 45 is '-'.
    mac_address.py:71-79; "$" may also match before a final newline, but strip()
    has removed it. *)
Fixpoint mac_groups (n : nat) (t : list Z) : option bytes :=
  match t with
  | a :: b :: r =>
      match hex_val a, hex_val b with
      | Some x, Some y =>
          match n, r with
          | O, [] => Some [16 * x + y]
          | S n', s :: r' =>
              if (s =? 58) || (s =? 45)
              then match mac_groups n' r' with
                   | Some l => Some (16 * x + y :: l)
                   | None => None
                   end
              else None
          | _, _ => None
          end
      | _, _ => None
      end
  | _ => None
  end.

(** MacAddress.__init__ with a str, mac_address.py:70-82,86 *)
Definition mac_of_text (t : list Z) : res Z :=
  match mac_groups 5 (strip t) with
  | Some b => mac_of_bytes b
  | None => Exn FormatError
  end.

(** mac_address.py:131-177 *)
Definition mac_is_unspecified (a : Z) : bool := a =? 0.
Definition in_range (a lo hi : Z) : bool := (lo <=? a) && (a <? hi).
Definition mac_is_unicast (a : Z) : bool :=
  negb (a =? 0) && negb (in_range a 0x1005E000000 0x1005F000000)
  && negb (in_range a 0x333300000000 0x333400000000) && negb (a =? 0xFFFFFFFFFFFF).
Definition mac_is_multicast_ip4 (a : Z) : bool := in_range a 0x1005E000000 0x1005F000000.
Definition mac_is_multicast_ip6 (a : Z) : bool := in_range a 0x333300000000 0x333400000000.
Definition mac_is_multicast_ip6_solicited_node (a : Z) : bool :=
  in_range a 0x3333FF000000 0x333400000000.
Definition mac_is_broadcast (a : Z) : bool := a =? 0xFFFFFFFFFFFF.

(** * IPv4 addresses, pytcp/lib/ip4_address.py.  The str form of the
    constructor (a regex plus the C function inet_aton) is in IpTextModel. *)

(** Ip4Address.__init__ with an int, ip4_address.py:97-100,121 *)
Definition ip4_of_int (a : Z) : res Z :=
  if Z.land a 0xFFFFFFFF =? a then Ok a else Exn FormatError.
(** Ip4Address.__init__ with bytes, ip4_address.py:102-105,121 *)
Definition ip4_of_bytes (b : bytes) : res Z :=
  if zlen b =? 4 then Ok (be b) else Exn FormatError.
(** Ip4Address.__bytes__, ip4_address.py:129-133 *)
Definition ip4_bytes (a : Z) : bytes := be_enc 4 a.

(** ip4_address.py:153-219, and is_unspecified ip_address.py:121-125 *)
Definition ip4_is_unspecified (a : Z) : bool := a =? 0.
Definition ip4_is_link_local (a : Z) : bool := Z.land a 0xFFFF0000 =? 0xA9FE0000.
Definition ip4_is_loopback (a : Z) : bool := Z.land a 0xFF000000 =? 0x7F000000.
Definition ip4_is_multicast (a : Z) : bool := Z.land a 0xF0000000 =? 0xE0000000.
Definition ip4_is_private (a : Z) : bool :=
  (Z.land a 0xFF000000 =? 0xA000000) || (Z.land a 0xFFF00000 =? 0xAC100000)
  || (Z.land a 0xFFFF0000 =? 0xC0A80000).
Definition ip4_is_reserved (a : Z) : bool := Z.land a 0xF0000001 =? 0xF0000000.
Definition ip4_is_limited_broadcast (a : Z) : bool := a =? 0xFFFFFFFF.
Definition ip4_is_invalid (a : Z) : bool := negb (a =? 0) && (Z.land a 0xFF000000 =? 0).
(** ip4_address.py:135-151 *)
Definition ip4_is_global (a : Z) : bool :=
  negb (ip4_is_unspecified a || ip4_is_invalid a || ip4_is_link_local a || ip4_is_loopback a
        || ip4_is_multicast a || ip4_is_private a || ip4_is_reserved a
        || ip4_is_limited_broadcast a).
(** IpAddress.is_unicast, ip_address.py:127-139 *)
Definition ip4_is_unicast (a : Z) : bool :=
  ip4_is_global a || ip4_is_private a || ip4_is_link_local a || ip4_is_loopback a.

(** Ip4Address.multicast_mac, ip4_address.py:228-236 *)
Definition ip4_multicast_mac (a : Z) : res Z :=
  assert_ (ip4_is_multicast a)
    (base <- mac_of_int 0x1005E000000 ;; mac_of_int (Z.lor base (Z.land a 0x7FFFFF))).

(** socket.inet_ntoa on the 4 bytes, ip4_address.py:123-127: decimal numbers
    joined by dots (46 is '.') *)
Definition dec_byte (b : Z) : list Z :=
  if b <? 10 then [48 + b]
  else if b <? 100 then [48 + b / 10; 48 + b mod 10]
  else [48 + b / 100; 48 + b / 10 mod 10; 48 + b mod 10].
Definition ip4_str (a : Z) : list Z :=
  match ip4_bytes a with
  | [x; y; z; w] => dec_byte x ++ 46 :: dec_byte y ++ 46 :: dec_byte z ++ 46 :: dec_byte w
  | _ => []
  end.

(** * IPv6 addresses, pytcp/lib/ip6_address.py.  The str forms (regex plus
    inet_pton/inet_ntop) are in IpTextModel. *)

(** Ip6Address.__init__ with an int, ip6_address.py:104-107,132 *)
Definition ip6_of_int (a : Z) : res Z :=
  if Z.land a 0xFFFFFFFFFFFFFFFFFFFFFFFFFFFFFFFF =? a then Ok a else Exn FormatError.
(** Ip6Address.__init__ with bytes, ip6_address.py:109-113,132 *)
Definition ip6_of_bytes (b : bytes) : res Z :=
  if zlen b =? 16
  then Ok (Z.shiftl (be (slice 0 4 b)) 96 + Z.shiftl (be (slice 4 8 b)) 64
           + Z.shiftl (be (slice 8 12 b)) 32 + be (slice 12 16 b))
  else Exn FormatError.
(** Ip6Address.__bytes__, ip6_address.py:139-148 *)
Definition ip6_bytes (a : Z) : bytes :=
  be_enc 4 (Z.land (Z.shiftr a 96) 0xFFFFFFFF) ++ be_enc 4 (Z.land (Z.shiftr a 64) 0xFFFFFFFF)
  ++ be_enc 4 (Z.land (Z.shiftr a 32) 0xFFFFFFFF) ++ be_enc 4 (Z.land a 0xFFFFFFFF).

(** ip6_address.py:150-205.  0xE000.. etc. are written as shifts. *)
Definition ip6_is_unspecified (a : Z) : bool := a =? 0.
Definition ip6_is_loopback (a : Z) : bool := a =? 1.
Definition ip6_is_global (a : Z) : bool :=
  Z.land a (Z.shiftl 0xE000 112) =? Z.shiftl 0x2000 112.
Definition ip6_is_private (a : Z) : bool :=
  Z.land a (Z.shiftl 0xFE00 112) =? Z.shiftl 0xFC00 112.
Definition ip6_is_link_local (a : Z) : bool :=
  Z.land a (Z.shiftl 0xFFC0 112) =? Z.shiftl 0xFE80 112.
Definition ip6_is_multicast (a : Z) : bool :=
  Z.land a (Z.shiftl 0xFF00 112) =? Z.shiftl 0xFF00 112.
(** 0xFFFF_..._FF00_0000 and 0xFF02_0000_0000_0000_0000_0001_FF00_0000 *)
Definition sn_base : Z := Z.shiftl 0xFF02 112 + 0x1FF000000.
Definition ip6_is_solicited_node_multicast (a : Z) : bool :=
  Z.land a (0x100000000000000000000000000000000 - 0x1000000) =? sn_base.
(** Ip6Address.solicited_node_multicast, ip6_address.py:207-214 *)
Definition ip6_solicited_node_multicast (a : Z) : res Z :=
  ip6_of_int (Z.lor (Z.land a 0xFFFFFF) sn_base).
(** Ip6Address.multicast_mac, ip6_address.py:216-224 *)
Definition ip6_multicast_mac (a : Z) : res Z :=
  assert_ (ip6_is_multicast a)
    (base <- mac_of_int 0x333300000000 ;; mac_of_int (Z.lor base (Z.land a 0xFFFFFFFF))).
(** IpAddress.is_unicast, ip_address.py:127-139 *)
Definition ip6_is_unicast (a : Z) : bool :=
  ip6_is_global a || ip6_is_private a || ip6_is_link_local a || ip6_is_loopback a.

(** * Masks.  [n] is the address width, 32 (ip4_address.py:239-300) or 128
    (ip6_address.py:234-294). *)

(** f"{m:0nb}" for 0 <= m < 2^n, most significant digit first *)
Fixpoint bits (n : nat) (m : Z) : list bool :=
  match n with O => [] | S n' => bits n' (m / 2) ++ [Z.odd m] end.

(** _validate_bits: everything from the first "0" on contains no "1",
    ip4_address.py:254-262, ip6_address.py:249-257 *)
Fixpoint validate_bits (l : list bool) : bool :=
  match l with
  | [] => true
  | true :: r => validate_bits r
  | false :: r => forallb negb r
  end.

(** Mask from an int, ip4_address.py:264-268,294, ip6_address.py:259-263,282 *)
Definition mask_of_int (n : nat) (m : Z) : res Z :=
  if (Z.land m (2 ^ Z.of_nat n - 1) =? m) && validate_bits (bits n m) then Ok m
  else Exn FormatError.
(** Mask from bytes, ip4_address.py:270-274, ip6_address.py:265-270 *)
Definition mask_of_bytes (n : nat) (b : bytes) : res Z :=
  if 8 * zlen b =? Z.of_nat n
  then (if validate_bits (bits n (be b)) then Ok (be b) else Exn FormatError)
  else Exn FormatError.

(** int(l, 2) *)
Definition bits_val (l : list bool) : Z :=
  fold_left (fun acc (b : bool) => 2 * acc + (if b then 1 else 0)) l 0.

(** Mask from "/k", ip4_address.py:276-280, ip6_address.py:272-276.  The text
    is reduced to the number k its digits denote. *)
Definition mask_of_prefix (n : nat) (k : Z) : res Z :=
  if (0 <=? k) && (k <=? Z.of_nat n)
  then Ok (bits_val (repeat true (Z.to_nat k) ++ repeat false (n - Z.to_nat k)))
  else Exn FormatError.

(** IpMask.__len__: number of "1" in f"{m:b}", ip_address.py:279-283 *)
Fixpoint pop_count (p : positive) : Z :=
  match p with xH => 1 | xO q => pop_count q | xI q => 1 + pop_count q end.
Definition mask_len (m : Z) : Z := match m with Zpos p => pop_count p | _ => 0 end.

(** * Networks, ip4_address.py:303-377, ip6_address.py:297-378 *)
Record net := { n_addr : Z; n_mask : Z }.

(** Network from an (address, mask) pair, ip4_address.py:319-328,
    ip6_address.py:313-322 *)
Definition mk_net (n : nat) (addr mask : Z) : res net :=
  if Z.land (Z.land addr mask) (2 ^ Z.of_nat n - 1) =? Z.land addr mask
  then Ok {| n_addr := Z.land addr mask; n_mask := mask |} else Exn FormatError.
(** Network.last, ip4_address.py:365-370, ip6_address.py:356-364.  (The
    address constructor around the sum never fails on networks built by
    mk_net.) *)
Definition net_last (n : nat) (w : net) : Z :=
  n_addr w + Z.land (Z.lnot (n_mask w)) (2 ^ Z.of_nat n - 1).
(** Ip4Network.broadcast, ip4_address.py:372-377 *)
Definition ip4_broadcast (w : net) : Z := net_last 32 w.
(** IpNetwork.__contains__ for an address of the same version,
    ip_address.py:351-360 *)
Definition net_contains (n : nat) (w : net) (a : Z) : bool :=
  (n_addr w <=? a) && (a <=? net_last n w).

(** * Hosts, ip4_address.py:380-473, ip6_address.py:381-468 *)
Record host := { h_addr : Z; h_net : net; h_gw : option Z }.

(** Host from an (address, mask) pair, ip4_address.py:402,412-417,
    ip6_address.py:401,411-416 *)
Definition mk_host (n : nat) (addr mask : Z) : res host :=
  w <- mk_net n addr mask ;; Ok {| h_addr := addr; h_net := w; h_gw := None |}.

(** Ip4Host.gateway setter, ip4_address.py:456-473; the exception leaves the
    object as it was *)
Definition ip4_set_gateway (h : host) (g : option Z) : host * option exn :=
  match g with
  | Some a =>
      if negb (net_contains 32 (h_net h) a) || (a =? n_addr (h_net h))
         || (a =? ip4_broadcast (h_net h)) || (a =? h_addr h)
      then (h, Some GatewayError)
      else ({| h_addr := h_addr h; h_net := h_net h; h_gw := Some a |}, None)
  | None => ({| h_addr := h_addr h; h_net := h_net h; h_gw := None |}, None)
  end.

(** Ip6Network("fe80::/10") *)
Definition ip6_ll_net : net :=
  {| n_addr := Z.shiftl 0xFE80 112; n_mask := Z.shiftl 0xFFC0 112 |}.

(** Ip6Host.gateway setter, ip6_address.py:456-468 *)
Definition ip6_set_gateway (h : host) (g : option Z) : host * option exn :=
  match g with
  | Some a =>
      if negb (net_contains 128 ip6_ll_net a) then (h, Some GatewayError)
      else ({| h_addr := h_addr h; h_net := h_net h; h_gw := Some a |}, None)
  | None => ({| h_addr := h_addr h; h_net := h_net h; h_gw := None |}, None)
  end.

(** Ip6Network.eui64, ip6_address.py:366-378 *)
Definition ip6_eui64 (w : net) (mac : Z) : res host :=
  assert_ (mask_len (n_mask w) =? 64)
    (let interface_id :=
       Z.lxor (Z.lor (Z.lor (Z.shiftl (Z.land mac 0xFFFFFF000000) 16) (Z.land mac 0xFFFFFF))
                     0xFFFE000000) 0x200000000000000 in
     a <- ip6_of_int (Z.lor (n_addr w) interface_id) ;;
     m <- mask_of_prefix 128 64 ;;
     mk_host 128 a m).

(** pick_local_ip6_address / pick_local_ip4_address, ip_helper.py:106-141.
    An address object is always truthy, so "if host.gateway" tests for None. *)
Fixpoint pick_by_net (n : nat) (hosts : list host) (remote : Z) : option Z :=
  match hosts with
  | [] => None
  | h :: r => if net_contains n (h_net h) remote then Some (h_addr h) else pick_by_net n r remote
  end.
Fixpoint pick_by_gw (hosts : list host) : option Z :=
  match hosts with
  | [] => None
  | h :: r => match h_gw h with Some _ => Some (h_addr h) | None => pick_by_gw r end
  end.
Definition pick_local (n : nat) (hosts : list host) (remote : Z) : Z :=
  match pick_by_net n hosts remote with
  | Some a => a
  | None => match pick_by_gw hosts with Some a => a | None => 0 end
  end.
