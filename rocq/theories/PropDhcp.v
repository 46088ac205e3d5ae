(** Properties C32, C33, C80 and C81: DHCP messages and the DHCP client. *)
From Verif Require Import BaseLemmas CodecModel CodecLemmas AddrModel SpecAddr AddrProofs SpecDhcp DhcpModel DhcpProofs
  DhcpClientProofs.

(** ** C32: message round trip *)

(** Any message that can be built, with ASCII names and option data that fit: it is
    encoded as RFC 2131 and RFC 2132 say and reads back as the same header fields
    and the same options, whatever follows it in the datagram. *)
Theorem C32_round_trip : forall t, dhcp_tx_ok t ->
  exists l w, Forall dopt_ok l /\ d_opts (dhcp_build t) = l ++ [DEnd] /\
    w = dhcp_wire (dt_op t) 1 6 0 (dt_xid t) 0 (if dt_flag_b t then 32768 else 0)
          (dt_ciaddr t) (dt_yiaddr t) (dt_siaddr t) (dt_giaddr t) (dt_chaddr t ++ repeat 0 10)
          (repeat 0 64) (repeat 0 128) (dopts_wire l ++ [255]) /\
    dhcp_raw_packet (dhcp_build t) = Ok w /\
    forall pad, dhcp_parse (w ++ pad) = Ok (dhcp_build t).
Proof. exact dhcp_round_trip. Qed.
Print Assumptions C32_round_trip.

(** The two messages that the client builds: every option asked for is there, in
    this order. *)
Theorem C32_client_messages : forall xid mac srv yi,
  0 <= xid < 2 ^ 32 -> 0 <= mac < 2 ^ 48 -> opt_all (fun a => 0 <= a < 2 ^ 32) srv -> 0 <= yi < 2 ^ 32 ->
  (exists w, dhcp_raw_packet (dhcp_build (dhcp_discover xid mac)) = Ok w /\
     exists d, dhcp_parse w = Ok d /\ d_op d = 1 /\ d_xid d = xid /\ d_chaddr d = be_enc 6 mac /\
       d_opts d = [DHost 5 [80; 121; 84; 67; 80]; DParam 2 [1; 3]; DMsg 1 1; DEnd]) /\
  (exists w, dhcp_raw_packet (dhcp_build (dhcp_request xid mac srv yi)) = Ok w /\
     exists d, dhcp_parse w = Ok d /\ d_op d = 1 /\ d_xid d = xid /\ d_chaddr d = be_enc 6 mac /\
       d_opts d = [DHost 5 [80; 121; 84; 67; 80]; DReqIp 4 yi] ++
                  match srv with Some a => [DSrv 4 a] | None => [] end ++ [DParam 2 [1; 3]; DMsg 1 3; DEnd]).
Proof.
  intros xid mac srv yi Hx Hm Hs Hy.
  destruct (dhcp_round_trip _ (discover_ok xid mac Hx Hm)) as (_ & w1 & _ & _ & _ & E1 & P1).
  destruct (dhcp_round_trip _ (request_ok xid mac srv yi Hx Hm Hs Hy)) as (_ & w2 & _ & _ & _ & E2 & P2).
  specialize (P1 []). specialize (P2 []). rewrite app_nil_r in P1, P2. split.
  - exists w1. split; [exact E1|]. eexists. split; [exact P1|]. repeat (split; [reflexivity|]).
    split; [apply mac_bytes_enc; exact Hm|reflexivity].
  - exists w2. split; [exact E2|]. eexists. split; [exact P2|]. repeat (split; [reflexivity|]).
    split; [apply mac_bytes_enc; exact Hm|]. destruct srv; reflexivity.
Qed.
Print Assumptions C32_client_messages.
(** Every option, pad and end included, is written as RFC 2132 says. *)
Theorem C32_options : forall o, dopt_ok o \/ o = DPad \/ o = DEnd -> dopt_raw o = Ok (dopt_wire o).
Proof. intros o [H|[->| ->]]; [apply dopt_raw_ok; exact H|reflexivity|reflexivity]. Qed.
Print Assumptions C32_options.
Example C32_example_options : dopt_ok (DRouter 8 [1; 2]) /\ dopt_wire (DRouter 8 [1; 2]) = [3; 8; 0; 0; 0; 1; 0; 0; 0; 2] /\ dopt_wire DPad = [0].
Proof. split; [split; [reflexivity|split; [lia|repeat constructor; lia]]|split; reflexivity]. Qed.

(** Messages of a server: any RFC 2132 options without pad, in any order. *)
Theorem C32_server_messages : forall op ht hl hops xid secs flags ci yi si gi cha sname file l rest,
  0 <= op < 256 -> 0 <= ht < 256 -> 0 <= hl <= 16 -> 0 <= hops < 256 ->
  0 <= xid < 2 ^ 32 -> 0 <= secs < 65536 -> 0 <= flags < 65536 ->
  0 <= ci < 2 ^ 32 -> 0 <= yi < 2 ^ 32 -> 0 <= si < 2 ^ 32 -> 0 <= gi < 2 ^ 32 ->
  zlen cha = 16 -> zlen sname = 64 -> zlen file = 128 -> Forall dopt_ok l ->
  dhcp_parse (dhcp_wire op ht hl hops xid secs flags ci yi si gi cha sname file (dopts_wire l ++ 255 :: rest)) =
  Ok {| d_op := op; d_hwtype := ht; d_hwlen := hl; d_hops := hops; d_xid := xid; d_secs := secs;
        d_flag_b := 32768 <=? flags; d_ciaddr := ci; d_yiaddr := yi; d_siaddr := si; d_giaddr := gi;
        d_chaddr := slice 0 hl cha; d_sname := sname; d_file := file; d_opts := l ++ [DEnd] |}.
Proof. exact dhcp_parse_wire. Qed.
Print Assumptions C32_server_messages.

(** Outside of ASCII the length is counted in characters and the name is cut inside
    a character: the constructor's message does not read back. *)
Definition C32_accent : dhcp_tx :=
  {| dt_op := 1; dt_xid := 7; dt_flag_b := false; dt_ciaddr := 0; dt_yiaddr := 0; dt_siaddr := 0; dt_giaddr := 0;
     dt_chaddr := [2; 0; 0; 0; 0; 1]; dt_mask := None; dt_router := None; dt_dns := None; dt_host := Some [233];
     dt_domain := None; dt_req_ip := None; dt_lease := None; dt_srv := None; dt_params := None; dt_msg := Some 1 |}.
Theorem C32_non_ascii_refuted : exists w,
  dhcp_raw_packet (dhcp_build C32_accent) = Ok w /\ dhcp_parse w = Exn UnicodeError.
Proof. eexists. split; [vm_compute; reflexivity|]. vm_compute; reflexivity. Qed.
Print Assumptions C32_non_ascii_refuted.

(** an ACK with mask, two routers, DNS, lease time and an unknown option *)
Definition C32_opts : list dopt :=
  [DMsg 1 5; DSrv 4 0xC0A80001; DLease 4 86400; DMask 4 0xFFFFFF00; DRouter 8 [0xC0A80001; 0xC0A80002];
   DDns 4 [0x08080808]; DUnk 28 4 [192; 168; 0; 255]].
Definition C32_ack (xid : Z) (cha : bytes) (l : list dopt) : bytes :=
  dhcp_wire 2 1 6 0 xid 0 0 0 0xC0A80064 0 0 (cha ++ repeat 0 10) (repeat 0 64) (repeat 0 128) (dopts_wire l ++ [255]).
Example C32_example : Forall dopt_ok C32_opts /\
  exists d, dhcp_parse (C32_ack 42 [2; 0; 0; 0; 0; 1] C32_opts) = Ok d /\ d_opts d = C32_opts ++ [DEnd].
Proof.
  split; [|eexists; split; vm_compute; reflexivity].
  unfold C32_opts. repeat (constructor; [cbn [dopt_ok]; repeat split; try lia; try reflexivity;
    first [exists 24; split; [lia|reflexivity] | cbn; intuition lia | repeat (constructor; [unfold is_byte; lia|]); constructor
          | idtac]|]). constructor.
Qed.

(** ** C33: parsing terminates *)
Definition C33_statement : Prop := forall f, wf_bytes f -> exists fuel, dhcp_parse_fuel fuel f <> Exn OutOfFuel.

(** A pad option (RFC 2132 section 3.1) before the end option: never ends. *)
Theorem C33_pad_refuted : exists f, wf_bytes f /\ forall fuel, dhcp_parse_fuel fuel f = Exn OutOfFuel.
Proof.
  exists (dhcp_wire 2 1 6 0 42 0 0 0 0xC0A80064 0 0 (repeat 0 16) (repeat 0 64) (repeat 0 128) [53; 1; 5; 0; 255]).
  split; [apply wf_bytesb_ok; vm_compute; reflexivity|]. intros fuel.
  unfold dhcp_parse_fuel. 
  match goal with |- context [dhcp_loop fuel ?r 0 []] =>
    let v := eval vm_compute in r in change r with v end.
  assert (E : dhcp_loop fuel [53; 1; 5; 0; 255] 0 [] = Exn OutOfFuel).
  { destruct fuel as [|fuel]; [reflexivity|]. cbn [dhcp_loop].
    change (dhcp_loop fuel [53; 1; 5; 0; 255] 3 [DMsg 1 5] = Exn OutOfFuel). apply dhcp_loop_pad; [lia|reflexivity]. }
  rewrite E. vm_compute. reflexivity.
Qed.
Print Assumptions C33_pad_refuted.
Theorem C33_statement_refuted : ~ C33_statement.
Proof.
  intros H. destruct C33_pad_refuted as (f & W & E). destruct (H f W) as [k K]. apply K, E.
Qed.
Print Assumptions C33_statement_refuted.

(** Partial: pad is the only cause.  A datagram whose options contain no zero byte is
    parsed within [length f + 1] iterations, and any datagram either is or is never. *)
Theorem C33_terminates_partial : forall f, wf_bytes f ->
  (dhcp_parse f <> Exn OutOfFuel /\ forall k, (length f < k)%nat -> dhcp_parse_fuel k f = dhcp_parse f) \/
  (In 0 (slice_from 240 f) /\ forall k, dhcp_parse_fuel k f = Exn OutOfFuel).
Proof. exact dhcp_parse_dichotomy. Qed.
Print Assumptions C33_terminates_partial.

Example C33_example : exists d, dhcp_parse (C32_ack 42 [2; 0; 0; 0; 0; 1] [DMsg 1 5; DMask 4 0xFFFFFF00]) = Ok d.
Proof. eexists. vm_compute. reflexivity. Qed.

(** ** C80: only answers to the client's own request *)
Definition C80_statement : Prop := forall xid mac offer ack h,
  0 <= xid < 2 ^ 32 -> 0 <= mac < 2 ^ 48 -> opt_all wf_bytes offer -> opt_all wf_bytes ack ->
  fr_result (dhcp_fetch xid mac offer ack) = Ok (Some h) ->
  exists f2 d2, ack = Some f2 /\ dhcp_parse f2 = Ok d2 /\ dhcp_msg_type d2 = Some 5 /\
    d_op d2 = 2 /\ d_xid d2 = xid /\ d_chaddr d2 = be_enc 6 mac.

(** The client with transaction 42 and address 02:00:00:00:00:01 takes its
    configuration from an ACK of transaction 43 for 02:00:00:00:00:02. *)
Theorem C80_statement_refuted : ~ C80_statement.
Proof.
  intros H.
  destruct (H 42 0x020000000001 (Some (C32_ack 42 [2; 0; 0; 0; 0; 1] [DMsg 1 2]))
              (Some (C32_ack 43 [2; 0; 0; 0; 0; 2] [DMsg 1 5; DMask 4 0xFFFFFF00]))
              {| h_addr := 0xC0A80064; h_net := {| n_addr := 0xC0A80000; n_mask := 0xFFFFFF00 |}; h_gw := None |})
    as (f2 & d2 & E & P & _ & _ & X & _).
  - lia.
  - lia.
  - apply opt_all_some, wf_bytesb_ok. vm_compute; reflexivity.
  - apply opt_all_some, wf_bytesb_ok. vm_compute; reflexivity.
  - vm_compute; reflexivity.
  - injection E as <-.
    assert (D : d_xid d2 = 43).
    { assert (K : match dhcp_parse (C32_ack 43 [2; 0; 0; 0; 0; 2] [DMsg 1 5; DMask 4 0xFFFFFF00]) with
                  | Ok d => d_xid d | _ => 0 end = 43) by (vm_compute; reflexivity). rewrite P in K. exact K. }
    lia.
Qed.
Print Assumptions C80_statement_refuted.

(** The same for the OFFER, as a concrete run. *)
Theorem C80_foreign_offer_refuted : exists xid mac offer ack h d1,
  dhcp_parse offer = Ok d1 /\ d_xid d1 <> xid /\ d_chaddr d1 <> be_enc 6 mac /\
  fr_result (dhcp_fetch xid mac (Some offer) (Some ack)) = Ok (Some h).
Proof.
  exists 42, 0x020000000001, (C32_ack 43 [2; 0; 0; 0; 0; 2] [DMsg 1 2]),
    (C32_ack 42 [2; 0; 0; 0; 0; 1] [DMsg 1 5; DMask 4 0xFFFFFF00]). do 2 eexists.
  split; [vm_compute; reflexivity|]. split; [vm_compute; congruence|]. split; [vm_compute; congruence|].
  vm_compute; reflexivity.
Qed.
Print Assumptions C80_foreign_offer_refuted.

(** Partial: a host is configured only after DISCOVER has been sent, a message of
    type OFFER received, a REQUEST sent for the offered address to the offering
    server, and a message of type ACK received; both sent messages carry the
    client's own transaction and hardware address.  What is missing is that the
    received ones do. *)
Theorem C80_exchange_partial : forall xid mac offer ack h,
  0 <= xid < 2 ^ 32 -> 0 <= mac < 2 ^ 48 -> opt_all wf_bytes offer ->
  fr_result (dhcp_fetch xid mac offer ack) = Ok (Some h) ->
  exists w1 w2 f1 d1 f2 d2,
    fr_sent (dhcp_fetch xid mac offer ack) = [w1; w2] /\ fr_closed (dhcp_fetch xid mac offer ack) = true /\
    offer = Some f1 /\ dhcp_parse f1 = Ok d1 /\ dhcp_msg_type d1 = Some 2 /\
    ack = Some f2 /\ dhcp_parse f2 = Ok d2 /\ dhcp_msg_type d2 = Some 5 /\
    (exists m, dhcp_parse w1 = Ok m /\ d_xid m = xid /\ d_chaddr m = be_enc 6 mac /\ dhcp_msg_type m = Some 1) /\
    (exists m, dhcp_parse w2 = Ok m /\ d_xid m = xid /\ d_chaddr m = be_enc 6 mac /\ dhcp_msg_type m = Some 3 /\
       In (DReqIp 4 (d_yiaddr d1)) (d_opts m) /\ dhcp_srv_id m = dhcp_srv_id d1).
Proof.
  intros xid mac offer ack h Hx Hm Wo E.
  destruct (fetch_first xid mac offer ack Hx Hm Wo) as (w1 & P1 & C).
  destruct C as [[_ C]|[(? & e & _ & _ & C)|[(? & ? & _ & _ & _ & C)|(f1 & d1 & w2 & -> & Pd1 & T1 & P2 & C)]]];
    try (rewrite C in E; discriminate).
  destruct C as [[_ C]|[(? & e & _ & _ & C)|[(? & ? & _ & _ & _ & C)|(f2 & d2 & -> & Pd2 & T2 & C)]]];
    try (rewrite C in E; discriminate).
  exists w1, w2, f1, d1, f2, d2. rewrite C. repeat (split; [auto; fail|]). split.
  - eexists. split; [exact P1|]. split; [reflexivity|]. split; [apply mac_bytes_enc; exact Hm|reflexivity].
  - eexists. split; [exact P2|]. split; [reflexivity|]. split; [apply mac_bytes_enc; exact Hm|].
    destruct (dhcp_srv_id d1); (split; [reflexivity|]; split; [cbn; tauto|reflexivity]).
Qed.
Print Assumptions C80_exchange_partial.

(** ** C81: the configuration is what the server sent *)

(** [first_with], [is_mask], [is_router], [is_msg] and [ack_host] are defined in
    DhcpClientProofs. *)
Definition C81_statement : Prop := forall xid mac offer ack,
  0 <= xid < 2 ^ 32 -> 0 <= mac < 2 ^ 48 -> opt_all wf_bytes offer -> opt_all wf_bytes ack ->
  fr_result (dhcp_fetch xid mac offer ack) = Ok None \/
  exists h f2 d2 n, fr_result (dhcp_fetch xid mac offer ack) = Ok (Some h) /\
    ack = Some f2 /\ dhcp_parse f2 = Ok d2 /\ first_with (d_opts d2) is_msg (DMsg n 5) /\ ack_host d2 h.

(** An ACK without mask, an ACK whose router is outside the subnet, one whose router
    option is empty, an empty datagram: the client raises instead of giving up, and
    for the last leaves its socket bound to port 68. *)
Definition C81_run (l : list dopt) : fetch_run :=
  dhcp_fetch 42 0x020000000001 (Some (C32_ack 42 [2; 0; 0; 0; 0; 1] [DMsg 1 2])) (Some (C32_ack 42 [2; 0; 0; 0; 0; 1] l)).
Theorem C81_raises_refuted :
  fr_result (C81_run [DMsg 1 5]) = Exn AssertionError /\
  fr_result (C81_run [DMsg 1 5; DMask 4 0xFFFFFF00; DRouter 4 [0x0A000001]]) = Exn GatewayError /\
  fr_result (C81_run [DMsg 1 5; DMask 4 0xFFFFFF00; DRouter 0 []]) = Exn IndexError /\
  (let r := dhcp_fetch 42 0x020000000001 (Some []) None in fr_result r = Exn AssertionError /\ fr_closed r = false).
Proof. vm_compute. auto. Qed.
Print Assumptions C81_raises_refuted.
Theorem C81_statement_refuted : ~ C81_statement.
Proof.
  intros H. destruct (H 42 0x020000000001 (Some []) None) as [E|(h & f2 & d2 & n & E & _)]; try lia;
    try (apply opt_all_some; apply wf_nil); try apply opt_all_none; vm_compute in E; discriminate.
Qed.
Print Assumptions C81_statement_refuted.

(** Partial: a host, if returned, is the one the ACK describes; otherwise nothing is
    configured (None, or one of the exceptions above). *)
Theorem C81_host_partial : forall xid mac offer ack h,
  0 <= xid < 2 ^ 32 -> 0 <= mac < 2 ^ 48 -> opt_all wf_bytes offer -> opt_all wf_bytes ack ->
  fr_result (dhcp_fetch xid mac offer ack) = Ok (Some h) ->
  exists f2 d2 n, ack = Some f2 /\ dhcp_parse f2 = Ok d2 /\ first_with (d_opts d2) is_msg (DMsg n 5) /\ ack_host d2 h.
Proof.
  intros xid mac offer ack h Hx Hm Wo Wa E.
  destruct (fetch_first xid mac offer ack Hx Hm Wo) as (w1 & P1 & C).
  destruct C as [[_ C]|[(? & e & _ & _ & C)|[(? & ? & _ & _ & _ & C)|(f1 & d1 & w2 & -> & Pd1 & T1 & P2 & C)]]];
    try (rewrite C in E; discriminate).
  destruct C as [[_ C]|[(? & e & _ & _ & C)|[(? & ? & _ & _ & _ & C)|(f2 & d2 & -> & Pd2 & T2 & C)]]];
    try (rewrite C in E; discriminate).
  rewrite C in E. cbn [fetch_done fr_result] in E.
  destruct (dhcp_parse_rng f2 d2 (Wa f2 eq_refl) Pd2) as [Ry Ro].
  destruct (first_msg _ _ T2) as (n & Fm). exists f2, d2, n. repeat (split; [auto; fail|]).
  apply fetch_host_ok; auto.
Qed.
Print Assumptions C81_host_partial.

(** and an OFFER and an ACK whose router, if any, can be a gateway do configure. *)
Theorem C81_configures_partial : forall xid mac f1 d1 f2 d2 n k,
  0 <= xid < 2 ^ 32 -> 0 <= mac < 2 ^ 48 -> wf_bytes f1 -> wf_bytes f2 ->
  dhcp_parse f1 = Ok d1 -> (exists n, first_with (d_opts d1) is_msg (DMsg n 2)) ->
  dhcp_parse f2 = Ok d2 -> (exists n, first_with (d_opts d2) is_msg (DMsg n 5)) ->
  first_with (d_opts d2) is_mask (DMask n (prefix_mask 32 k)) -> 0 <= k <= 32 ->
  (Forall (fun o => ~ is_router o) (d_opts d2) \/
   exists n g l, first_with (d_opts d2) is_router (DRouter n (g :: l)) /\ 0 <= g < 2 ^ 32 /\
     g / 2 ^ (32 - k) = d_yiaddr d2 / 2 ^ (32 - k) /\ g mod 2 ^ (32 - k) <> 0 /\
     g mod 2 ^ (32 - k) <> 2 ^ (32 - k) - 1 /\ g <> d_yiaddr d2) ->
  exists h, fr_result (dhcp_fetch xid mac (Some f1) (Some f2)) = Ok (Some h) /\ ack_host d2 h.
Proof. exact fetch_configures. Qed.
Print Assumptions C81_configures_partial.

Example C81_example : fr_result (C81_run C32_opts) =
  Ok (Some {| h_addr := 0xC0A80064; h_net := {| n_addr := 0xC0A80000; n_mask := 0xFFFFFF00 |}; h_gw := Some 0xC0A80001 |})
  /\ first_with C32_opts is_router (DRouter 8 [0xC0A80001; 0xC0A80002]).
Proof.
  split; [vm_compute; reflexivity|].
  exists [DMsg 1 5; DSrv 4 0xC0A80001; DLease 4 86400; DMask 4 0xFFFFFF00], [DDns 4 [0x08080808]; DUnk 28 4 [192; 168; 0; 255]].
  split; [reflexivity|]. split; [exists 8; eexists; reflexivity|].
  repeat (constructor; [intros (n & l & E); discriminate|]). constructor.
Qed.
