(** Wire formats of ICMPv6 Neighbour Discovery and MLDv2, in the style of SpecWire. *)
From Verif Require Import Base.

(** RFC 4861 section 4.6: link-layer address options and prefix information
    (with the R flag of RFC 6275 section 7.2) *)
Definition nd_slla_wire (mac : Z) : bytes := [1; 1] ++ be_enc 6 mac.
Definition nd_tlla_wire (mac : Z) : bytes := [2; 1] ++ be_enc 6 mac.
Definition nd_pi_wire (plen : Z) (l a r : bool) (valid prefer prefix : Z) : bytes :=
  [3; 4; plen; b2z l * 128 + b2z a * 64 + b2z r * 32]
  ++ be_enc 4 valid ++ be_enc 4 prefer ++ [0; 0; 0; 0] ++ be_enc 16 prefix.
(** RFC 4861 sections 4.1-4.4 *)
Definition nd_rs_body (opts : bytes) : bytes := [0; 0; 0; 0] ++ opts.
Definition nd_ra_body (hop : Z) (m o : bool) (life reach retrans : Z) (opts : bytes) : bytes :=
  [hop; b2z m * 128 + b2z o * 64] ++ be_enc 2 life ++ be_enc 4 reach ++ be_enc 4 retrans ++ opts.
Definition nd_ns_body (target : Z) (opts : bytes) : bytes := [0; 0; 0; 0] ++ be_enc 16 target ++ opts.
Definition nd_na_body (r s o : bool) (target : Z) (opts : bytes) : bytes :=
  [b2z r * 128 + b2z s * 64 + b2z o * 32; 0; 0; 0] ++ be_enc 16 target ++ opts.
(** RFC 3810 section 5.2.  [auxlen] is the auxiliary data length field, in units of
    32-bit words according to the RFC. *)
Definition mld2_rec_wire (type auxlen addr : Z) (srcs : list Z) (aux : bytes) : bytes :=
  [type; auxlen] ++ be_enc 2 (zlen srcs) ++ be_enc 16 addr ++ concat (map (be_enc 16) srcs) ++ aux.
Definition mld2_report_body (count : Z) (recs : bytes) : bytes := [0; 0] ++ be_enc 2 count ++ recs.

(** a well-formed option area (RFC 4861 section 4.6): options whose length is a
    positive number of 8-byte units, prefix information being at least 4 units long
    and with a prefix length of at most 128 *)
Inductive nd_area : bytes -> Prop :=
| nd_area_nil : nd_area []
| nd_area_cons : forall k n d rest,
    1 <= n -> zlen d = 8 * n - 2 -> (k = 3 -> 4 <= n /\ nth 0 d 0 <= 128) -> nd_area rest ->
    nd_area (k :: n :: d ++ rest).
