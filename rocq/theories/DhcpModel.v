(** pytcp/protocols/dhcp4/ps.py (DHCP messages) and client.py (the DHCP client).
    A Python str is the list of its code points.  Line numbers without a file name
    refer to ps.py. *)
From Verif Require Import Base CodecModel AddrModel.

(** ** UTF-8, as str(b, "utf-8") and bytes(s, "utf-8") *)
Definition is_cont (b : Z) : bool := (0x80 <=? b) && (b <? 0xC0).
Definition is_surrogate (c : Z) : bool := (0xD800 <=? c) && (c <? 0xE000).
Fixpoint utf8_dec (l : bytes) : res (list Z) :=
  match l with
  | [] => Ok []
  | a :: r =>
      if a <? 0x80 then t <- utf8_dec r ;; Ok (a :: t)
      else if (0xC2 <=? a) && (a <? 0xE0) then
        match r with
        | b :: r' => if is_cont b then t <- utf8_dec r' ;; Ok ((a - 0xC0) * 64 + (b - 0x80) :: t)
                     else Exn UnicodeError
        | _ => Exn UnicodeError
        end
      else if (0xE0 <=? a) && (a <? 0xF0) then
        match r with
        | b :: c :: r' =>
            let v := (a - 0xE0) * 4096 + (b - 0x80) * 64 + (c - 0x80) in
            if is_cont b && is_cont c && (0x800 <=? v) && negb (is_surrogate v)
            then t <- utf8_dec r' ;; Ok (v :: t) else Exn UnicodeError
        | _ => Exn UnicodeError
        end
      else if (0xF0 <=? a) && (a <? 0xF5) then
        match r with
        | b :: c :: d :: r' =>
            let v := (a - 0xF0) * 262144 + (b - 0x80) * 4096 + (c - 0x80) * 64 + (d - 0x80) in
            if is_cont b && is_cont c && is_cont d && (0x10000 <=? v) && (v <? 0x110000)
            then t <- utf8_dec r' ;; Ok (v :: t) else Exn UnicodeError
        | _ => Exn UnicodeError
        end
      else Exn UnicodeError
  end.
Definition utf8_enc1 (c : Z) : res bytes :=
  if c <? 0x80 then Ok [c]
  else if c <? 0x800 then Ok [0xC0 + c / 64; 0x80 + c mod 64]
  else if is_surrogate c then Exn UnicodeError
  else if c <? 0x10000 then Ok [0xE0 + c / 4096; 0x80 + c / 64 mod 64; 0x80 + c mod 64]
  else Ok [0xF0 + c / 262144; 0x80 + c / 4096 mod 64; 0x80 + c / 64 mod 64; 0x80 + c mod 64].
Fixpoint utf8_enc (s : list Z) : res bytes :=
  match s with
  | [] => Ok []
  | c :: r => b <- utf8_enc1 c ;; t <- utf8_enc r ;; Ok (b ++ t)
  end.

(** the "{n}s" format: exactly n bytes, cut or padded with zeros *)
Definition fit (n : Z) (b : bytes) : bytes := firstn (Z.to_nat n) (b ++ repeat 0 (Z.to_nat n)).

(** ** Options, 471-1039.  Every option object remembers opt_len. *)
Inductive dopt :=
| DMask (len m : Z)
| DRouter (len : Z) (l : list Z)
| DDns (len : Z) (l : list Z)
| DHost (len : Z) (s : list Z)
| DDomain (len : Z) (s : list Z)
| DReqIp (len a : Z)
| DLease (len v : Z)
| DMsg (len v : Z)
| DSrv (len a : Z)
| DParam (len : Z) (l : list Z)
| DUnk (code len : Z) (d : bytes)
| DPad
| DEnd.

(** [Ip4Address(raw_option[_ : _ + 4]) for _ in range(2, 2 + opt_len, 4)], 604-607,
    655-658 *)
Fixpoint dopt_addrs (n : nat) (pos : Z) (raw : bytes) : res (list Z) :=
  match n with
  | O => Ok []
  | S k => a <- ip4_of_bytes (slice pos (pos + 4) raw) ;; t <- dopt_addrs k (pos + 4) raw ;; Ok (a :: t)
  end.

(** the option constructors applied to raw bytes, 554-559, 601-607, 652-658,
    700-703, 748-753, 798-801, 843-848, 888-891, 933-936, 978-983, 1018-1024;
    the table of 210-221 *)
Definition dopt_read (raw : bytes) : res dopt :=
  code <- index raw 0 ;;
  len <- index raw 1 ;;
  if code =? 1 then m <- mask_of_bytes 32 (slice 2 6 raw) ;; Ok (DMask len m)
  else if code =? 3 then l <- dopt_addrs (Z.to_nat ((len + 3) / 4)) 2 raw ;; Ok (DRouter len l)
  else if code =? 6 then l <- dopt_addrs (Z.to_nat ((len + 3) / 4)) 2 raw ;; Ok (DDns len l)
  else if code =? 12 then s <- utf8_dec (slice 2 (2 + len) raw) ;; Ok (DHost len s)
  else if code =? 15 then s <- utf8_dec (slice 2 (2 + len) raw) ;; Ok (DDomain len s)
  else if code =? 50 then a <- ip4_of_bytes (slice 2 6 raw) ;; Ok (DReqIp len a)
  else if code =? 51 then v <- unpack 4 (slice 2 6 raw) ;; Ok (DLease len v)
  else if code =? 53 then v <- index raw 2 ;; Ok (DMsg len v)
  else if code =? 54 then a <- ip4_of_bytes (slice 2 6 raw) ;; Ok (DSrv len a)
  else if code =? 55 then Ok (DParam len (slice 2 (2 + len) raw))
  else Ok (DUnk code len (slice 2 (2 + len) raw)).

(** bytes(list of ints) *)
Definition bytes_of_ints (l : list Z) : res bytes := if wf_bytesb l then Ok l else Exn ValueError.

(** the raw_option properties, 494-499, 525-530, 566-573, 614-624, 665-675, 711-721,
    761-771, 809-816, 856-863, 899-906, 944-951, 991-1001, 1026-1033.  bytes() of
    an Ip4Address or Ip4Mask is its four bytes. *)
Definition dopt_raw (o : dopt) : res bytes :=
  match o with
  | DMask n m => pack [FI 1 1; FI 1 n; FB (be_enc 4 m)]
  | DRouter n l => pack [FI 1 3; FI 1 n; FB (fit (zlen l * 4) (concat (map ip4_bytes l)))]
  | DDns n l => pack [FI 1 6; FI 1 n; FB (fit (zlen l * 4) (concat (map ip4_bytes l)))]
  | DHost n s => b <- utf8_enc s ;; pack [FI 1 12; FI 1 n; FB (fit n b)]
  | DDomain n s => b <- utf8_enc s ;; pack [FI 1 15; FI 1 n; FB (fit n b)]
  | DReqIp n a => pack [FI 1 50; FI 1 n; FB (ip4_bytes a)]
  | DLease n v => pack [FI 1 51; FI 1 n; FI 4 v]
  | DMsg n v => pack [FI 1 53; FI 1 n; FI 1 v]
  | DSrv n a => pack [FI 1 54; FI 1 n; FB (ip4_bytes a)]
  | DParam n l => b <- bytes_of_ints l ;; pack [FI 1 55; FI 1 n; FB (fit n b)]
  | DUnk c n d => pack [FI 1 c; FI 1 n; FB (fit n d)]
  | DPad => pack [FI 1 0]
  | DEnd => pack [FI 1 255]
  end.
(** raw_options, 354-362 *)
Fixpoint dopts_raw (l : list dopt) : res bytes :=
  match l with
  | [] => Ok []
  | o :: r => b <- dopt_raw o ;; t <- dopts_raw r ;; Ok (b ++ t)
  end.

(** ** Messages *)
Record dhcp := {
  d_op : Z; d_hwtype : Z; d_hwlen : Z; d_hops : Z; d_xid : Z; d_secs : Z; d_flag_b : bool;
  d_ciaddr : Z; d_yiaddr : Z; d_siaddr : Z; d_giaddr : Z; d_chaddr : bytes; d_sname : bytes; d_file : bytes;
  d_opts : list dopt }.

(** the option loop, 223-240: [acc] is self.dhcp_options.  The index advances by the
    length byte found in the re-encoding self.raw_options of the options read so
    far (240), and not at all for a pad option (DHCP4_OPT_PAD_LEN is 0, 511). *)
Fixpoint dhcp_loop (fuel : nat) (raw : bytes) (i : Z) (acc : list dopt) : res (list dopt) :=
  if i <? zlen raw then
    match fuel with
    | O => Exn OutOfFuel
    | S k =>
        c <- index raw i ;;
        if c =? 255 then Ok (acc ++ [DEnd])
        else if c =? 0 then dhcp_loop k raw (i + 0) (acc ++ [DPad])
        else
          n <- index raw (i + 1) ;;
          o <- dopt_read (slice i (i + n + 2) raw) ;;
          let acc' := acc ++ [o] in
          again <- dopts_raw acc' ;;
          n' <- index again (i + 1) ;;
          dhcp_loop k raw (i + (n' + 2)) acc'
    end
  else Ok acc.

(** Dhcp4Packet(raw_packet), 172-240; an empty payload is falsy and takes the
    packet-building branch without arguments (243-251) *)
Definition dhcp_parse_fuel (fuel : nat) (f : bytes) : res dhcp :=
  if zlen f =? 0 then Exn AssertionError
  else
    let h := slice 0 240 f in
    op <- index h 0 ;;
    hwtype <- index h 1 ;;
    hwlen <- index h 2 ;;
    hops <- index h 3 ;;
    xid <- unpack 4 (slice 4 8 h) ;;
    secs <- unpack 2 (slice 8 10 h) ;;
    fl <- unpack 2 (slice 10 12 h) ;;
    ci <- ip4_of_bytes (slice 12 16 h) ;;
    yi <- ip4_of_bytes (slice 16 20 h) ;;
    si <- ip4_of_bytes (slice 20 24 h) ;;
    gi <- ip4_of_bytes (slice 24 28 h) ;;
    opts <- dhcp_loop fuel (slice_from 240 f) 0 [] ;;
    Ok {| d_op := op; d_hwtype := hwtype; d_hwlen := hwlen; d_hops := hops; d_xid := xid; d_secs := secs;
          d_flag_b := z2b (Z.land fl 0x8000); d_ciaddr := ci; d_yiaddr := yi; d_siaddr := si; d_giaddr := gi;
          d_chaddr := slice 28 (28 + hwlen) h; d_sname := slice 44 108 h; d_file := slice 108 236 h;
          d_opts := opts |}.
(** every iteration but the pad one advances by at least two *)
Definition dhcp_parse (f : bytes) : res dhcp := dhcp_parse_fuel (S (length f)) f.

(** the arguments of the constructor used for building, 146-168 *)
Record dhcp_tx := {
  dt_op : Z; dt_xid : Z; dt_flag_b : bool; dt_ciaddr : Z; dt_yiaddr : Z; dt_siaddr : Z; dt_giaddr : Z;
  dt_chaddr : bytes;
  dt_mask : option Z; dt_router : option (list Z); dt_dns : option (list Z);
  dt_host : option (list Z); dt_domain : option (list Z); dt_req_ip : option Z; dt_lease : option Z;
  dt_srv : option Z; dt_params : option (list Z); dt_msg : option Z }.

(** "if x: options.append(f(x))": None and falsy values add nothing *)
Definition opt_if {A} (truthy : A -> bool) (f : A -> dopt) (x : option A) : list dopt :=
  match x with Some v => if truthy v then [f v] else [] | None => [] end.
Definition nonempty {A} (l : list A) : bool := negb (zlen l =? 0).
(** 242-316.  An Ip4Mask is falsy when its __len__, the prefix length, is 0
    (lib/ip_address.py:279-283); an Ip4Address is always truthy. *)
Definition dhcp_build (t : dhcp_tx) : dhcp :=
  {| d_op := dt_op t; d_hwtype := 1; d_hwlen := 6; d_hops := 0; d_xid := dt_xid t; d_secs := 0;
     d_flag_b := dt_flag_b t; d_ciaddr := dt_ciaddr t; d_yiaddr := dt_yiaddr t; d_siaddr := dt_siaddr t;
     d_giaddr := dt_giaddr t; d_chaddr := dt_chaddr t; d_sname := repeat 0 64; d_file := repeat 0 128;
     d_opts :=
       opt_if (fun m => negb (mask_len m =? 0)) (DMask 4) (dt_mask t) ++
       opt_if nonempty (fun l => DRouter (zlen l * 4) l) (dt_router t) ++
       opt_if nonempty (fun l => DDns (zlen l * 4) l) (dt_dns t) ++
       opt_if nonempty (fun s => DHost (zlen s) s) (dt_host t) ++
       opt_if nonempty (fun s => DDomain (zlen s) s) (dt_domain t) ++
       opt_if (fun _ => true) (DReqIp 4) (dt_req_ip t) ++
       opt_if z2b (DLease 4) (dt_lease t) ++
       opt_if (fun _ => true) (DSrv 4) (dt_srv t) ++
       opt_if nonempty (fun l => DParam (zlen l) l) (dt_params t) ++
       opt_if z2b (DMsg 1) (dt_msg t) ++ [DEnd] |}.

(** raw_header, 330-352; flag_b is a bool *)
Definition dhcp_raw_header (d : dhcp) : res bytes :=
  pack [FI 1 (d_op d); FI 1 (d_hwtype d); FI 1 (d_hwlen d); FI 1 (d_hops d); FI 4 (d_xid d); FI 2 (d_secs d);
        FI 2 (Z.shiftl (b2z (d_flag_b d)) 15); FB (ip4_bytes (d_ciaddr d)); FB (ip4_bytes (d_yiaddr d));
        FB (ip4_bytes (d_siaddr d)); FB (ip4_bytes (d_giaddr d)); FB (fit 16 (d_chaddr d ++ repeat 0 10));
        FB (fit 64 (d_sname d)); FB (fit 128 (d_file d)); FB [0x63; 0x82; 0x53; 0x63]].
(** raw_packet, 464-468 *)
Definition dhcp_raw_packet (d : dhcp) : res bytes :=
  h <- dhcp_raw_header d ;; o <- dopts_raw (d_opts d) ;; Ok (h ++ o).

(** the option properties used by the client, 364-392, 434-452: the first option of
    the class *)
Fixpoint first_opt {A} (f : dopt -> option A) (l : list dopt) : option A :=
  match l with [] => None | o :: r => match f o with Some x => Some x | None => first_opt f r end end.
Definition dhcp_subnet_mask (d : dhcp) := first_opt (fun o => match o with DMask _ m => Some m | _ => None end) (d_opts d).
Definition dhcp_router (d : dhcp) := first_opt (fun o => match o with DRouter _ l => Some l | _ => None end) (d_opts d).
Definition dhcp_msg_type (d : dhcp) := first_opt (fun o => match o with DMsg _ v => Some v | _ => None end) (d_opts d).
Definition dhcp_srv_id (d : dhcp) := first_opt (fun o => match o with DSrv _ a => Some a | _ => None end) (d_opts d).

(** ** The client, client.py:72-202 *)

(** "PyTCP" *)
Definition dhcp_host_name : list Z := [80; 121; 84; 67; 80].
(** client.py:88-105 *)
Definition dhcp_discover (xid mac : Z) : dhcp_tx :=
  {| dt_op := 1; dt_xid := xid; dt_flag_b := false; dt_ciaddr := 0; dt_yiaddr := 0; dt_siaddr := 0; dt_giaddr := 0;
     dt_chaddr := mac_bytes mac; dt_mask := None; dt_router := None; dt_dns := None; dt_host := Some dhcp_host_name;
     dt_domain := None; dt_req_ip := None; dt_lease := None; dt_srv := None; dt_params := Some [1; 3];
     dt_msg := Some 1 |}.
(** client.py:140-159 *)
Definition dhcp_request (xid mac : Z) (srv : option Z) (yiaddr : Z) : dhcp_tx :=
  {| dt_op := 1; dt_xid := xid; dt_flag_b := false; dt_ciaddr := 0; dt_yiaddr := 0; dt_siaddr := 0; dt_giaddr := 0;
     dt_chaddr := mac_bytes mac; dt_mask := None; dt_router := None; dt_dns := None; dt_host := Some dhcp_host_name;
     dt_domain := None; dt_req_ip := Some yiaddr; dt_lease := None; dt_srv := srv; dt_params := Some [1; 3];
     dt_msg := Some 3 |}.

(** What fetch() does: the payloads it sends, whether it closes its socket, and its
    result.  [offer] and [ack] are what client_socket.recv(timeout=5) returns, [None]
    being ReceiveTimeout.  The socket calls themselves (bind to port 68, connect to
    255.255.255.255 port 67) are those of the socket model. *)
Record fetch_run := { fr_sent : list bytes; fr_closed : bool; fr_result : res (option host) }.
Definition fetch_done (sent : list bytes) (r : res (option host)) : fetch_run :=
  {| fr_sent := sent; fr_closed := true; fr_result := r |}.
Definition fetch_raises (sent : list bytes) (e : exn) : fetch_run :=
  {| fr_sent := sent; fr_closed := false; fr_result := Exn e |}.

(** client.py:188-202 *)
Definition fetch_host (d : dhcp) : res (option host) :=
  match dhcp_subnet_mask d with
  | None => Exn AssertionError
  | Some m =>
      h <- mk_host 32 (d_yiaddr d) m ;;
      match dhcp_router d with
      | None => Ok (Some h)
      | Some l =>
          g <- index l 0 ;;
          match ip4_set_gateway h (Some g) with
          | (h', None) => Ok (Some h')
          | (_, Some e) => Exn e
          end
      end
  end.

(** msg_type != DHCP4_MSG_xxx *)
Definition msg_is (d : dhcp) (v : Z) : bool :=
  match dhcp_msg_type d with Some x => x =? v | None => false end.

Definition dhcp_fetch (xid mac : Z) (offer ack : option bytes) : fetch_run :=
  match dhcp_raw_packet (dhcp_build (dhcp_discover xid mac)) with
  | Exn e => fetch_raises [] e
  | Ok w1 =>
      match offer with
      | None => fetch_done [w1] (Ok None)
      | Some f1 =>
          match dhcp_parse f1 with
          | Exn e => fetch_raises [w1] e
          | Ok d1 =>
              if negb (msg_is d1 2) then fetch_done [w1] (Ok None)
              else
                match dhcp_raw_packet (dhcp_build (dhcp_request xid mac (dhcp_srv_id d1) (d_yiaddr d1))) with
                | Exn e => fetch_raises [w1] e
                | Ok w2 =>
                    match ack with
                    | None => fetch_done [w1; w2] (Ok None)
                    | Some f2 =>
                        match dhcp_parse f2 with
                        | Exn e => fetch_raises [w1; w2] e
                        | Ok d2 =>
                            if negb (msg_is d2 5) then fetch_done [w1; w2] (Ok None)
                            else fetch_done [w1; w2] (fetch_host d2)
                        end
                    end
                end
          end
      end
  end.
