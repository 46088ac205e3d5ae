(** Fragmentation and reassembly of IPv4 and IPv6 packets. No proofs here. *)
From Verif Require Import Base CodecModel CksumModel AddrModel Ip4Model Ip6Model.

(** ** sending *)

(** [data[_ : n + _] for _ in range(0, len(data), n)], ip4/phtx.py:290,
    ip6_ext_frag/phtx.py:68.  range() raises ValueError for n = 0; the slices are
    taken one after the other, each cutting n bytes off what is left, so the length
    of the data is enough fuel. *)
Fixpoint chunks_fuel (fuel : nat) (n : Z) (data : bytes) : list bytes :=
  match fuel, data with
  | S fuel', _ :: _ => slice 0 n data :: chunks_fuel fuel' n (slice_from n data)
  | _, _ => []
  end.
Definition chunks (n : Z) (data : bytes) : res (list bytes) :=
  if n =? 0 then Exn ValueError else Ok (chunks_fuel (length data) n data).

(** the loop over data_frags, ip4/phtx.py:294-308, ip6_ext_frag/phtx.py:72-91: each
    fragment's offset, flag_mf ("is not the last element") and data *)
Fixpoint frag_list (offset : Z) (l : list bytes) : list (Z * bool * bytes) :=
  match l with
  | [] => []
  | d :: r => (offset, match r with [] => false | _ => true end, d) :: frag_list (offset + zlen d) r
  end.

(** data_mtu, ip4/phtx.py:289 and ip6_ext_frag/phtx.py:65-67 *)
Definition data_mtu (mtu hlen : Z) : Z := Z.land (mtu - hlen) 0xFFF8.

(** Ip4FragAssembler as called at ip4/phtx.py:295-304: no options, dscp, ecn 0 and
    flag_df False by default, ip4/fpa.py:251-268 *)
Definition ip4_frag_tx (src dst ttl proto id : Z) (x : Z * bool * bytes) : ip4_tx :=
  {| t4_src := src; t4_dst := dst; t4_ttl := ttl; t4_dscp := 0; t4_ecn := 0; t4_id := id;
     t4_df := false; t4_mf := snd (fst x); t4_offset := fst (fst x); t4_opts := []; t4_proto := proto |}.
(** Ip4Assembler as called at ip4/phtx.py:270-272: id 0, ip4/fpa.py:75-92 *)
Definition ip4_whole_tx (src dst ttl proto : Z) : ip4_tx :=
  {| t4_src := src; t4_dst := dst; t4_ttl := ttl; t4_dscp := 0; t4_ecn := 0; t4_id := 0;
     t4_df := false; t4_mf := false; t4_offset := 0; t4_opts := []; t4_proto := proto |}.

(** the part of _phtx_ip4 that builds the packets once the addresses are settled,
    ip4/phtx.py:269-308: the carried packets handed to _phtx_ether and the new value
    of self.ip4_id.  The fragments' constructors assert their arguments one by one
    while earlier fragments have already been sent; here an assertion that fails
    fails for the first fragment, the checked values being the same for all. *)
Definition ip4_fragment (mtu src dst ttl proto id0 : Z) (c : carried) : res (list (ip4_tx * bytes) * Z) :=
  ps <- ip4_pshdr_sum src dst proto (c_len c) ;;
  data <- c_asm c (repeat 0 (Z.to_nat (c_len c))) ps ;;
  l <- chunks (data_mtu mtu 20) data ;;
  let id := id0 + 1 in
  let fs := map (fun x => (ip4_frag_tx src dst ttl proto id x, snd x)) (frag_list 0 l) in
  match fs with
  | (t, _) :: _ => assert_ (ip4_tx_ok t) (Ok (fs, id))
  | [] => Ok (fs, id)
  end.

(** _phtx_ip6_ext_frag, ip6_ext_frag/phtx.py:54-91: next, offset, flag_mf, id and data
    of each fragment and the new self.ip6_id *)
Definition ip6_fragment (mtu src dst next id0 : Z) (c : carried) : res (list (Z * bool * bytes) * Z) :=
  ps <- ip6_pshdr_sum src dst (c_len c) next ;;
  data <- c_asm c (repeat 0 (Z.to_nat (c_len c))) ps ;;
  l <- chunks (data_mtu mtu 48) data ;;
  Ok (frag_list 0 l, id0 + 1).

(** Ip6Assembler as called by _phtx_ip6, ip6/phtx.py:251-253: dscp, ecn and flow 0 by
    default, ip6/fpa.py:71-83.  Each fragment goes through _phtx_ip6 with the default
    ip6_hop, config.IP6_DEFAULT_HOP = 64 (ip6/phtx.py:213, ip6_ext_frag/phtx.py:85-91). *)
Definition ip6_plain_tx (src dst hop next : Z) : ip6_tx :=
  {| t6_src := src; t6_dst := dst; t6_hop := hop; t6_dscp := 0; t6_ecn := 0; t6_flow := 0; t6_next := next |}.
Definition ip6_frag_tx (src dst : Z) : ip6_tx := ip6_plain_tx src dst 64 IP6_NEXT_EXT_FRAG.
Definition ip6_frag_carried (next id : Z) (x : Z * bool * bytes) : carried :=
  frag6_carried next (fst (fst x)) (snd (fst x)) id (snd x).

(** ** receiving *)

(** one entry of ip4_frag_flows / ip6_frag_flows, ip4/phrx.py:90-95.  "data" is a dict
    from offset to bytes that is only ever read through sorted(); it is kept as a
    list sorted by offset.  Times are integers (milliseconds). *)
Record flow := { fl_hdr : bytes; fl_time : Z; fl_last : bool; fl_data : list (Z * bytes) }.
Definition flow_key := (Z * Z * Z)%type.
Definition key_eqb (a b : flow_key) : bool :=
  match a, b with (a1, a2, a3), (b1, b2, b3) => (a1 =? b1) && (a2 =? b2) && (a3 =? b3) end.
(** the dict of flows: each key occurs once *)
Definition flows := list (flow_key * flow).
Definition flow_get (k : flow_key) (fs : flows) : option flow :=
  match find (fun kv => key_eqb k (fst kv)) fs with Some kv => Some (snd kv) | None => None end.
Definition flow_del (k : flow_key) (fs : flows) : flows := filter (fun kv => negb (key_eqb k (fst kv))) fs.
Definition flow_set (k : flow_key) (v : flow) (fs : flows) : flows := (k, v) :: flow_del k fs.

(** data[offset] = d *)
Fixpoint frag_put (off : Z) (d : bytes) (l : list (Z * bytes)) : list (Z * bytes) :=
  match l with
  | [] => [(off, d)]
  | (o, x) :: r =>
      if off <? o then (off, d) :: l
      else if off =? o then (off, d) :: r
      else (o, x) :: frag_put off d r
  end.

(** config.IP4_FRAG_FLOW_TIMEOUT = IP6_FRAG_FLOW_TIMEOUT = 5 seconds, config.py:116-117 *)
Definition FRAG_FLOW_TIMEOUT := 5000.
(** the "cleanup expired flows" comprehension, ip4/phrx.py:68-73, ip6_ext_frag/phrx.py:60-66 *)
Definition flows_cleanup (now : Z) (fs : flows) : flows :=
  filter (fun kv => fl_time (snd kv) - now <? FRAG_FLOW_TIMEOUT) fs.

(** "update flow db", ip4/phrx.py:84-97, ip6_ext_frag/phrx.py:78-93; time() is taken to
    give the same value as in the cleanup *)
Definition flow_add (now : Z) (k : flow_key) (hdr : bytes) (off : Z) (mf : bool) (d : bytes) (fs : flows) : flow :=
  match flow_get k fs with
  | Some v => {| fl_hdr := fl_hdr v; fl_time := fl_time v; fl_last := fl_last v || negb mf;
                 fl_data := frag_put off d (fl_data v) |}
  | None => {| fl_hdr := hdr; fl_time := now; fl_last := negb mf; fl_data := [(off, d)] |}
  end.

(** the loop that computes data_len, ip4/phrx.py:102-106, ip6_ext_frag/phrx.py:98-102;
    None is "return None" *)
Fixpoint frags_len (l : list (Z * bytes)) (data_len : Z) : option Z :=
  match l with
  | [] => Some data_len
  | (o, d) :: r => if o >? data_len then None else frags_len r (o + zlen d)
  end.
(** the loop of struct.pack_into, ip4/phrx.py:111-117, ip6_ext_frag/phrx.py:107-113 *)
Fixpoint frags_fill (l : list (Z * bytes)) (buf : bytes) : res bytes :=
  match l with
  | [] => Ok buf
  | (o, d) :: r => b <- pack_into buf o [FB d] ;; frags_fill r b
  end.

(** header[i] = v *)
Definition set_byte (b : bytes) (i : Z) (v : Z) : bytes := overwrite b (Z.to_nat i) [v].

(** the rewritten IPv4 header, ip4/phrx.py:119-122 *)
Definition ip4_reheader (h : bytes) (dlen : Z) : res bytes :=
  let h := set_byte h 0 0x45 in
  h <- pack_into h 2 [FI 2 (20 + dlen)] ;;
  let h := set_byte (set_byte (set_byte (set_byte h 6 0) 7 0) 10 0) 11 0 in
  pack_into h 10 [FI 2 (inet_cksum h 0)].
(** the rewritten IPv6 header, ip6_ext_frag/phrx.py:115-116 *)
Definition ip6_reheader (h : bytes) (dlen next : Z) : res bytes :=
  h <- pack_into h 4 [FI 2 dlen] ;; Ok (set_byte h 6 next).

(** _defragment_ip4_packet and _defragment_ip6_packet share everything but the key and
    the header.  The result is the new flow table and the reassembled packet, if any;
    the table keeps the flow when an exception is raised before the "del". *)
Definition defrag (now : Z) (k : flow_key) (hdr : bytes) (off : Z) (mf : bool) (d : bytes)
    (rehdr : bytes -> Z -> res bytes) (fs : flows) : flows * res (option bytes) :=
  let fs := flows_cleanup now fs in
  let v := flow_add now k hdr off mf d fs in
  let fs' := flow_set k v fs in
  if negb (fl_last v) then (fs', Ok None)
  else match frags_len (fl_data v) 0 with
  | None => (fs', Ok None)
  | Some n =>
      match frags_fill (fl_data v) (repeat 0 (Z.to_nat n)) with
      | Exn e => (fs', Exn e)
      | Ok data =>
          (flow_del k fs', h <- rehdr (fl_hdr v) (zlen data) ;; Ok (Some (h ++ data)))
      end
  end.

(** _defragment_ip4_packet, ip4/phrx.py:60-130.  header_copy is the first 20 bytes.  The
    caller reads the fields of the reassembled packet through Ip4Parser. *)
Definition defrag4 (now : Z) (p : ip4) (fs : flows) : flows * res (option bytes) :=
  defrag now (i4_src p, i4_dst p, i4_id p) (slice 0 20 (i4_frame p)) (i4_offset p) (i4_mf p) (i4_data p)
    ip4_reheader fs.

(** _defragment_ip6_packet, ip6_ext_frag/phrx.py:53-123 *)
Definition defrag6 (now : Z) (p : ip6) (g : frag6) (fs : flows) : flows * res (option bytes) :=
  defrag now (i6_src p, i6_dst p, g_id g) (slice 0 40 (i6_frame p)) (g_offset g) (g_mf g) (g_data g)
    (fun h n => ip6_reheader h n (g_next g)) fs.
