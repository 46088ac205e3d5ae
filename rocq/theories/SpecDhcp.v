(** DHCP messages on the wire (RFC 2131 section 2, RFC 2132). *)
From Verif Require Import Base.

(** RFC 2132 section 2: code, length of the data, data *)
Definition dhcp_tlv (code : Z) (data : bytes) : bytes := code :: zlen data :: data.

(** RFC 2131 section 2, figure 1, and the magic cookie of section 3 *)
Definition dhcp_wire (op htype hlen hops xid secs flags ci yi si gi : Z) (chaddr sname file opts : bytes) : bytes :=
  [op; htype; hlen; hops] ++ be_enc 4 xid ++ be_enc 2 secs ++ be_enc 2 flags
  ++ be_enc 4 ci ++ be_enc 4 yi ++ be_enc 4 si ++ be_enc 4 gi
  ++ chaddr ++ sname ++ file ++ [99; 130; 83; 99] ++ opts.
