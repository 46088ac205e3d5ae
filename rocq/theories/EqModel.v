(** Equality, hashes and copies of addresses, masks, networks and hosts.  No proofs here. *)
From Coq Require Import String.
From Verif Require Import Base AddrModel IpTextModel.
Local Open Scope string_scope.
Local Open Scope Z_scope.
Local Open Scope list_scope.

(** an object of lib/mac_address.py, lib/ip4_address.py or lib/ip6_address.py; [v6] tells the version *)
Inductive obj :=
| OMac (a : Z) | OAddr (v6 : bool) (a : Z) | OMask (v6 : bool) (m : Z)
| ONet (v6 : bool) (w : net) | OHost (v6 : bool) (h : host).

Definition ip_name (v6 : bool) (cls : string) : text := lit "Ip" ++ (if v6 then lit "6" else lit "4") ++ lit cls.
(** __repr__: mac_address.py:95-99, ip_address.py:87-91, 255-259, 333-337, 448-452 *)
Definition obj_repr (o : obj) : text :=
  match o with
  | OMac a => lit "MacAddress" ++ lit "('" ++ mac_str a ++ lit "')"
  | OAddr v a => ip_name v "Address" ++ lit "('" ++ ip_str v a ++ lit "')"
  | OMask v m => ip_name v "Mask" ++ lit "('" ++ mask_str m ++ lit "')"
  | ONet v w => ip_name v "Network" ++ lit "('" ++ net_str v w ++ lit "')"
  | OHost v h => ip_name v "Host" ++ lit "('" ++ host_str v h ++ lit "')"
  end.
(** __eq__: mac_address.py:118-122, ip_address.py:81-85, 267-271, 339-343, 454-458 *)
Definition obj_eq (o p : obj) : bool := text_eqb (obj_repr o) (obj_repr p).

(** hash(x) when x.__hash__() returns [v] >= 0: CPython keeps what fits a Py_ssize_t and takes
    anything larger modulo 2^61 - 1 (Objects/typeobject.c slot_tp_hash, longobject.c long_hash) *)
Definition py_hash (v : Z) : Z := if v <? 2 ^ 63 then v else v mod (2 ^ 61 - 1).
(** __hash__: ip_address.py:93-97, 273-277, 345-349, 460-464, mac_address.py:124-128 *)
Definition net_hash (w : net) : Z := py_hash (Z.lxor (py_hash (n_addr w)) (py_hash (n_mask w))).
Definition obj_hash (o : obj) : Z :=
  match o with
  | OMac a | OAddr _ a => py_hash a
  | OMask _ m => py_hash m
  | ONet _ w => net_hash w
  | OHost _ h => py_hash (Z.lxor (py_hash (h_addr h)) (net_hash (h_net h)))
  end.

(** Ip4Host((address, network)), ip4_address.py:404-411, and Ip6Host, ip6_address.py:404-411:
    whether the address is in the network is not looked at *)
Definition host_pair (a : Z) (w : net) : host := {| h_addr := a; h_net := w; h_gw := None |}.
(** the constructors given an object of their own class: mac_address.py:83-85, ip4_address.py:117-119, 290-292,
    344-347, 402, 428-431, and the same in ip6_address.py *)
Definition obj_copy (o : obj) : obj :=
  match o with
  | ONet v w => ONet v {| n_addr := Z.land (n_addr w) (n_mask w); n_mask := n_mask w |}
  | OHost v h => OHost v {| h_addr := h_addr h; h_net := h_net h; h_gw := None |}
  | _ => o
  end.
