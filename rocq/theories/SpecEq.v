(** When two addresses, masks, networks or hosts are the same. *)
From Verif Require Import Base AddrModel SpecAddr SpecIpText EqModel.

(** a mask of [k] leading ones, an address with nothing behind them *)
Definition net_good (v6 : bool) (w : net) : Prop :=
  exists k, 0 <= k <= Z.of_nat (width v6) /\ n_mask w = prefix_mask (Z.of_nat (width v6)) k /\
    ip_range v6 (n_addr w) /\ n_addr w mod 2 ^ (Z.of_nat (width v6) - k) = 0.
(** what the constructors make *)
Definition good (o : obj) : Prop :=
  match o with
  | OMac a => 0 <= a < 2 ^ 48
  | OAddr v a => ip_range v a
  | OMask v m => exists k, 0 <= k <= Z.of_nat (width v) /\ m = prefix_mask (Z.of_nat (width v)) k
  | ONet v w => net_good v w
  | OHost v h => ip_range v (h_addr h) /\ net_good v (h_net h)
  end.
(** of one class and one value; for hosts: one address and one mask *)
Definition same (o p : obj) : Prop :=
  match o, p with
  | OMac a, OMac b => a = b
  | OAddr v a, OAddr v' b => v = v' /\ a = b
  | OMask v m, OMask v' m' => v = v' /\ m = m'
  | ONet v w, ONet v' w' => v = v' /\ w = w'
  | OHost v h, OHost v' h' => v = v' /\ h_addr h = h_addr h' /\ n_mask (h_net h) = n_mask (h_net h')
  | _, _ => False
  end.
(** the network of a host is the one its address is in *)
Definition at_home (o : obj) : Prop :=
  match o with OHost v h => net_contains (width v) (h_net h) (h_addr h) = true | _ => True end.
