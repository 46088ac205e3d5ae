(** Specifications for routing and address selection, in plain arithmetic. *)
From Verif Require Import Base.

(** where a packet must be sent on the link: to a known link-layer address, to the
    link-layer address of an on-link address, of a gateway, or nowhere *)
Inductive hop := ToMac (m : Z) | ToHost (a : Z) | ToGateway (a : Z) | Unroutable.

(** a destination in the n-bit network addr/k *)
Definition on_link (n k addr dst : Z) : bool := dst / 2 ^ (n - k) =? addr / 2 ^ (n - k).

(** IPv4 packets from [addr]/[k] with gateway [gw]: 224.0.0.0-239.255.255.255 map to
    01:00:5e + low 23 bits (RFC 1112), 255.255.255.255 and the all-zeros and all-ones
    host numbers of the own network to ff:ff:ff:ff:ff:ff *)
Definition next_hop4 (addr k : Z) (gw : option Z) (dst : Z) : hop :=
  if (224 * 2 ^ 24 <=? dst) && (dst <? 240 * 2 ^ 24) then ToMac (0x01005E000000 + dst mod 2 ^ 23)
  else if dst =? 2 ^ 32 - 1 then ToMac (2 ^ 48 - 1)
  else if on_link 32 k addr dst then
    (if (dst mod 2 ^ (32 - k) =? 0) || (dst mod 2 ^ (32 - k) =? 2 ^ (32 - k) - 1)
     then ToMac (2 ^ 48 - 1) else ToHost dst)
  else match gw with Some g => ToGateway g | None => Unroutable end.

(** IPv6: ff00::/8 maps to 33:33 + low 32 bits (RFC 2464) *)
Definition next_hop6 (addr k : Z) (gw : option Z) (dst : Z) : hop :=
  if 255 * 2 ^ 120 <=? dst then ToMac (0x333300000000 + dst mod 2 ^ 32)
  else if on_link 128 k addr dst then ToHost dst
  else match gw with Some g => ToGateway g | None => Unroutable end.

(** solicited-node multicast address ff02::1:ffxx:xxxx, RFC 4291 *)
Definition solicited_node (a : Z) : Z := 0xFF02 * 2 ^ 112 + 0x1FF000000 + a mod 2 ^ 24.
