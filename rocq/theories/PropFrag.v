(** C35-C40: fragmentation and reassembly. *)
From Coq Require Import Permutation.
From Verif Require Import Base BaseLemmas CodecModel AddrModel Ip4Model Ip4Proofs Ip6Model Ip6Proofs UdpModel
  FragModel FragProofs FragIpProofs FragRunProofs FragSendProofs FragHostProofs.

Ltac conc := first [exact I|vm_compute; discriminate|vm_compute; reflexivity
  |apply (proj1 (wf_bytesb_ok _)); vm_compute; reflexivity].

(** ** C35: IPv4 fragmentation is well formed *)

(** The fragments concatenate to the carried packet, each fits the MTU and is not
    empty, the offsets are multiples of 8 and count the bytes before, exactly the last
    has the more-flag off, and all other fields are the same in each. *)
Theorem C35_fragments : forall mtu src dst ttl proto id0 c fs id, 28 <= mtu < 65556 ->
  ip4_fragment mtu src dst ttl proto id0 c = Ok (fs, id) ->
  (exists ps, ip4_pshdr_sum src dst proto (c_len c) = Ok ps /\
     c_asm c (repeat 0 (Z.to_nat (c_len c))) ps = Ok (concat (map snd fs))) /\
  forall i t d, nth_error fs i = Some (t, d) ->
    0 < zlen d /\ 20 + zlen d <= mtu /\ ip4_len t (zlen d) = 20 + zlen d /\
    t4_offset t = zlen (concat (firstn i (map snd fs))) /\ t4_offset t mod 8 = 0 /\
    (t4_mf t = true <-> (S i < length fs)%nat) /\
    t4_src t = src /\ t4_dst t = dst /\ t4_ttl t = ttl /\ t4_proto t = proto /\ t4_id t = id0 + 1 /\
    t4_opts t = [] /\ t4_df t = false /\ t4_dscp t = 0 /\ t4_ecn t = 0.
Proof.
  intros mtu src dst ttl proto id0 c fs id Hm H.
  destruct (ip4_fragment_ok _ _ _ _ _ _ _ _ _ Hm H) as (ps & data & Ep & Ed & -> & C & F).
  pose proof C as (Ec & Cl & _).
  split; [exists ps; split; [exact Ep|]; rewrite Ed; f_equal; symmetry; exact Ec|].
  intros i t d N. destruct (F _ _ _ N) as (F1 & F2 & F3 & F4 & F5 & F6 & F7 & F8 & F9 & F10 & (Nd & Eo & Em)).
  rewrite Forall_forall in Cl. specialize (Cl d (nth_error_In _ _ Nd)). cbv beta in Cl.
  assert (Lk : (i < length (map snd fs))%nat) by (apply nth_error_Some; intros X; pose proof (eq_trans (eq_sym Nd) X); discriminate).
  pose proof (cut_prefix _ _ _ C i Lk) as Op.
  assert (O8 : t4_offset t mod 8 = 0).
  { rewrite Eo, Op, <- Z.mul_assoc, (Z.mul_comm 8), Z.mul_assoc. apply Z.mod_mul. lia. }
  repeat split; auto; try lia.
  - unfold ip4_len. rewrite F6. reflexivity.
  - rewrite Em. intros X. apply Nat.ltb_lt in X. rewrite map_length in X. exact X.
  - rewrite Em. intros X. apply Nat.ltb_lt. rewrite map_length. exact X.
Qed.
Print Assumptions C35_fragments.

(** Every carried packet that assembles is sent, while ids last (C40). *)
Theorem C35_sends : forall mtu src dst ttl proto id0 c ps data, 28 <= mtu < 65556 ->
  ip4_pshdr_sum src dst proto (c_len c) = Ok ps -> c_asm c (repeat 0 (Z.to_nat (c_len c))) ps = Ok data ->
  0 <= ttl <= 255 -> In proto [1; 17; 6; 255] -> 0 <= id0 < 65535 ->
  exists fs, ip4_fragment mtu src dst ttl proto id0 c = Ok (fs, id0 + 1).
Proof. exact ip4_fragment_sends. Qed.
Print Assumptions C35_sends.

(** On the wire every fragment has at most [mtu] bytes and passes the IPv4 parser. *)
Theorem C35_wire : forall mtu src dst ttl proto id0 c fs id data, 28 <= mtu < 65556 ->
  ip4_fragment mtu src dst ttl proto id0 c = Ok (fs, id) ->
  data = concat (map snd fs) -> wf_bytes data -> zlen data <= 65515 ->
  0 <= src < 2 ^ 32 -> 0 <= dst < 2 ^ 32 -> ip4_is_multicast src = false -> ip4_is_reserved src = false ->
  ip4_is_limited_broadcast src = false ->
  forall k t d buf ps pad, nth_error fs k = Some (t, d) -> zlen buf = ip4_len t (zlen d) -> wf_bytes pad ->
  exists w p, ip4_frag_asm t d buf ps = Ok w /\ zlen w <= mtu /\
    ip4_parse (w ++ pad) = Ok (inr p) /\ i4_frame p = w ++ pad.
Proof. exact frag4_wire. Qed.
Print Assumptions C35_wire.

(** a 2992-byte UDP datagram with the real MTU: three fragments, the last of 40 bytes *)
Example C35_example : exists fs ps, ip4_fragment 1500 0x0A000001 0x0A000002 64 17 7 (udp_carried 1000 2000 (repeat 5 2992)) = Ok (fs, 8) /\
  map (fun x => (t4_offset (fst x), t4_mf (fst x), zlen (snd x))) fs = [(0, true, 1480); (1480, true, 1480); (2960, false, 40)] /\
  ip4_pshdr_sum 0x0A000001 0x0A000002 17 (c_len (udp_carried 1000 2000 (repeat 5 2992))) = Ok ps /\
  udp_asm 1000 2000 (repeat 5 2992) (repeat 0 3000) ps = Ok (concat (map snd fs)).
Proof.
  do 2 eexists. split; [vm_compute; reflexivity|]. split; [vm_compute; reflexivity|]. split; [vm_compute; reflexivity|].
  vm_compute; reflexivity.
Qed.

(** ** C36: IPv4 reassembly *)

(** Any history of fragments, with time not running backwards, in which the fragments
    of one datagram, cut as [cs], appear in any order, any number of times, mixed with
    arbitrary fragments of other datagrams: a fragment of the datagram delivers exactly
    when it completes the set of fragments received since the last delivery ([expect]),
    and what is delivered parses as the unfragmented datagram. *)
Theorem C36_reassembly : forall (cs : list (list Z)) K pr l now0 fs,
  nonempty cs -> zlen (concat cs) <= 65515 -> wf_bytes (concat cs) ->
  flow_get K fs = None -> history (own4 cs K pr) (other4 K) now0 l ->
  as_expected (whole4 K pr (concat cs)) (length cs) None l (run defrag4 fs (plain l)).
Proof. exact run4_expected. Qed.
Print Assumptions C36_reassembly.

(** Each fragment exactly once, in any order: nothing is delivered before the last one
    arrives, and then the whole datagram is, once. *)
Theorem C36_any_order : forall (cs : list (list Z)) K pr l now0 fs,
  nonempty cs -> 0 < zlen (concat cs) <= 65515 -> wf_bytes (concat cs) ->
  flow_get K fs = None -> history (own4 cs K pr) (other4 K) now0 l ->
  Permutation (map fst (own_of l)) (seq 0 (length cs)) ->
  exists o p, outs_of l (run defrag4 fs (plain l)) = repeat (Ok None) (length cs - 1) ++ [o] /\
    In p (map snd (own_of l)) /\ whole4 K pr (concat cs) p o.
Proof.
  intros cs K pr l now0 fs Hne Hl W Hf Hh Pm. eapply once_outs; [|exact Pm|].
  - destruct cs; [cbn in Hl; lia|cbn; lia].
  - eapply run4_expected; eauto. lia.
Qed.
Print Assumptions C36_any_order.

(** Sender and receiver together: what _phtx_ip4 cuts, put on the wire (with any
    Ethernet padding) and received in any order, is the datagram. *)
Theorem C36_end_to_end : forall mtu src dst ttl proto id0 c fs id l now0 fl, 28 <= mtu < 65556 ->
  ip4_fragment mtu src dst ttl proto id0 c = Ok (fs, id) ->
  wf_bytes (concat (map snd fs)) -> 0 < zlen (concat (map snd fs)) <= 65515 ->
  0 <= src < 2 ^ 32 -> 0 <= dst < 2 ^ 32 -> ip4_is_multicast src = false -> ip4_is_reserved src = false ->
  ip4_is_limited_broadcast src = false ->
  flow_get (src, dst, id) fl = None ->
  history (sent4 fs) (other4 (src, dst, id)) now0 l ->
  Permutation (map fst (own_of l)) (seq 0 (length fs)) ->
  exists w q, outs_of l (run defrag4 fl (plain l)) = repeat (Ok None) (length fs - 1) ++ [Ok (Some w)] /\
    ip4_parse w = Ok (inr q) /\ i4_data q = concat (map snd fs) /\ i4_src q = src /\ i4_dst q = dst /\
    i4_proto q = proto /\ i4_ttl q = ttl /\ i4_mf q = false /\ i4_offset q = 0.
Proof. exact end_to_end4. Qed.
Print Assumptions C36_end_to_end.

(** 20 bytes cut at MTU 28 in fragments 0, 1, 2; arriving 2, 0, (other datagram), 0, 1, 1. *)
Definition C36_frag (id : Z) (x : Z * bool * bytes) : ip4 :=
  match ip4_frag_asm (ip4_frag_tx 0x0A000001 0x0A000002 64 255 id x) (snd x) (repeat 0 (Z.to_nat (20 + zlen (snd x)))) 0 with
  | Ok w => match ip4_parse (w ++ [0; 0]) with Ok (inr p) => p | _ => {| i4_ver := 0; i4_hlen := 0; i4_dscp := 0; i4_ecn := 0;
       i4_plen := 0; i4_id := 0; i4_df := false; i4_mf := false; i4_offset := 0; i4_ttl := 0; i4_proto := 0; i4_cksum := 0;
       i4_src := 0; i4_dst := 0; i4_opts := []; i4_frame := [] |} end
  | _ => {| i4_ver := 0; i4_hlen := 0; i4_dscp := 0; i4_ecn := 0;
       i4_plen := 0; i4_id := 0; i4_df := false; i4_mf := false; i4_offset := 0; i4_ttl := 0; i4_proto := 0; i4_cksum := 0;
       i4_src := 0; i4_dst := 0; i4_opts := []; i4_frame := [] |}
  end.
Definition C36_cs : list (list Z) := [[1; 2; 3; 4; 5; 6; 7; 8]; [9; 10; 11; 12; 13; 14; 15; 16]; [17; 18; 19; 20]].
Definition C36_p (id : Z) (k : nat) : ip4 := C36_frag id (nth k (frag_list 0 C36_cs) (0, false, [])).
Definition C36_l : list (Z * ip4 * option nat) :=
  [(10, C36_p 5 2, Some 2%nat); (20, C36_p 5 0, Some 0%nat); (20, C36_p 6 0, None); (30, C36_p 5 0, Some 0%nat);
   (40, C36_p 5 1, Some 1%nat); (50, C36_p 5 1, Some 1%nat)].
Example C36_example :
  nonempty C36_cs /\ history (own4 C36_cs (0x0A000001, 0x0A000002, 5) 255) (other4 (0x0A000001, 0x0A000002, 5)) 0 C36_l /\
  map (fun o => match o with Ok (Some w) => Some (slice_from 20 w) | _ => None end) (run defrag4 [] (plain C36_l))
    = [None; None; None; None; Some (concat C36_cs); None].
Proof.
  split; [|split; [|vm_compute; reflexivity]].
  - intros [|[|i]] H; [vm_compute; reflexivity|vm_compute; reflexivity|cbn in H; lia].
  - unfold C36_l. cbn [history]. unfold own4, other4, is_frag. repeat match goal with |- _ /\ _ => split end;  conc.
Qed.

(** ** C37: hostile fragments *)

Definition C37_statement : Prop := forall l,
  Forall (fun x => wf_bytes (i4_frame (snd x)) /\ ip4_parse (i4_frame (snd x)) = Ok (inr (snd x))) l ->
  Forall (fun o => exists r, o = Ok r) (run defrag4 [] l).

(** Overlap: 16 bytes at offset 0, then the last fragment, 4 bytes at offset 8. *)
Definition C37_overlap : list (Z * ip4) :=
  [(0, C36_frag 5 (0, true, repeat 1 16)); (1, C36_frag 5 (8, false, repeat 2 4))].
Theorem C37_overlap_refuted :
  Forall (fun x => wf_bytes (i4_frame (snd x)) /\ ip4_parse (i4_frame (snd x)) = Ok (inr (snd x))) C37_overlap /\
  run defrag4 [] C37_overlap = [Ok None; Exn StructError].
Proof.
  split; [|vm_compute; reflexivity].
  repeat (apply Forall_cons || apply Forall_nil); (split; conc).
Qed.
Print Assumptions C37_overlap_refuted.
(** Size: 44 fragments of 1480 bytes and one of 400, in order; 20 + 65520 does not fit
    the total length field. *)
Definition C37_long : list (Z * ip4) :=
  map (fun x => (0, C36_frag 5 x)) (frag_list 0 (repeat (repeat 1 1480) 44 ++ [repeat 2 400])).
Theorem C37_long_refuted :
  Forall parsed4 C37_long /\ run defrag4 [] C37_long = repeat (Ok None) 44 ++ [Exn StructError].
Proof.
  split; [|vm_compute; reflexivity].
  assert (E : forallb (fun x => wf_bytesb (i4_frame (snd x))) C37_long = true) by (vm_compute; reflexivity).
  rewrite forallb_forall in E.
  assert (P : map (fun x => ip4_parse (i4_frame (snd x))) C37_long = map (fun x => Ok (inr (snd x))) C37_long)
    by (vm_compute; reflexivity).
  revert E P. generalize C37_long. intros l E P. apply Forall_forall. intros x I. split.
  - apply wf_bytesb_ok. apply E. exact I.
  - clear E. induction l as [|y l IH]; [contradiction|]. cbn [map] in P. injection P as P1 P2.
    destruct I as [->|I]; auto.
Qed.
Print Assumptions C37_long_refuted.
(** every datagram that long raises when its last fragment arrives *)
Theorem C37_every_long_refuted : forall (cs : list (list Z)) K pr l now0 fs,
  nonempty cs -> 65515 < zlen (concat cs) -> flow_get K fs = None -> history (own4 cs K pr) (other4 K) now0 l ->
  Permutation (map fst (own_of l)) (seq 0 (length cs)) ->
  outs_of l (run defrag4 fs (plain l)) = repeat (Ok None) (length cs - 1) ++ [Exn StructError].
Proof. exact long_raises. Qed.
Print Assumptions C37_every_long_refuted.
Theorem C37_refuted : ~ C37_statement.
Proof.
  intros H. destruct C37_overlap_refuted as (A & E). specialize (H _ A). rewrite E in H.
  inversion H as [|? ? _ H2]; subst. inversion H2 as [|? ? (r & X) _]; subst. discriminate.
Qed.
Print Assumptions C37_refuted.

(** IPv6 has the same fault. *)
Definition C37_frag6 (x : Z * bool * bytes) : ip6 * frag6 :=
  let t := ip6_frag_tx 0xfe800000000000000000000000000001 0xfe800000000000000000000000000002 in
  let c := ip6_frag_carried 255 5 x in
  match ip6_asm t c (repeat 0 (Z.to_nat (48 + zlen (snd x)))) 0 with
  | Ok w => match ip6_parse w with
            | Ok (inr p) => match frag6_parse (i6_rest p) (i6_dlen p) with
                            | Ok (inr g) => (p, g)
                            | _ => (p, {| g_next := 0; g_offset := 0; g_mf := false; g_id := 0; g_plen := 0; g_frame := [] |}) end
            | _ => ({| i6_ver := 0; i6_dscp := 0; i6_ecn := 0; i6_flow := 0; i6_dlen := 0; i6_next := 0; i6_hop := 0;
                       i6_src := 0; i6_dst := 0; i6_frame := [] |},
                    {| g_next := 0; g_offset := 0; g_mf := false; g_id := 0; g_plen := 0; g_frame := [] |}) end
  | _ => ({| i6_ver := 0; i6_dscp := 0; i6_ecn := 0; i6_flow := 0; i6_dlen := 0; i6_next := 0; i6_hop := 0;
             i6_src := 0; i6_dst := 0; i6_frame := [] |},
          {| g_next := 0; g_offset := 0; g_mf := false; g_id := 0; g_plen := 0; g_frame := [] |})
  end.
Definition C37_overlap6 : list (Z * (ip6 * frag6)) :=
  [(0, C37_frag6 (0, true, repeat 1 16)); (1, C37_frag6 (8, false, repeat 2 4))].
Theorem C37_overlap6_refuted : Forall parsed6 C37_overlap6 /\
  run (fun now pg => defrag6 now (fst pg) (snd pg)) [] C37_overlap6 = [Ok None; Exn StructError].
Proof.
  split; [|vm_compute; reflexivity].
  repeat (apply Forall_cons || apply Forall_nil); unfold parsed6; cbn [snd];
    match goal with |- context [C37_frag6 ?k] => let x := eval vm_compute in (C37_frag6 k) in change (C37_frag6 k) with x; cbv iota beta end;
    (split; [|split]); conc.
Qed.
Print Assumptions C37_overlap6_refuted.

(** What does hold.  Reassembly of arbitrary accepted fragments raises nothing but
    struct.error ... *)
Theorem C37_only_struct_error_partial : forall l, Forall parsed4 l ->
  Forall (fun o => (exists r, o = Ok r) \/ o = Exn StructError) (run defrag4 [] l).
Proof. intros l. apply run4_errors. apply flows_ok_nil. Qed.
Print Assumptions C37_only_struct_error_partial.
Theorem C37_only_struct_error6_partial : forall l, Forall parsed6 l ->
  Forall (fun o => (exists r, o = Ok r) \/ o = Exn StructError) (run (fun now pg => defrag6 now (fst pg) (snd pg)) [] l).
Proof. intros l. apply run6_errors. apply flows_ok_nil. Qed.
Print Assumptions C37_only_struct_error6_partial.

(** ... and that only if one of the stored fragments ends after the one with the highest
    offset does, or the datagram has more than 65515 bytes. *)
Theorem C37_when_partial : forall now p fs e, flows_ok 20 fs -> parsed4 (now, p) ->
  snd (defrag4 now p fs) = Exn e ->
  let l := fl_data (flow_add now (i4_src p, i4_dst p, i4_id p) (slice 0 20 (i4_frame p)) (i4_offset p) (i4_mf p) (i4_data p)
                      (flows_cleanup now fs)) in
  Exists (fun x => last_end l < fst x + zlen (snd x)) l \/ 65515 < last_end l.
Proof.
  intros now p fs e Hk (W & P) H. destruct (accepted4 _ _ W P) as (Ho & Lh & _).
  cbn [snd] in *.
  apply (defrag_errors now _ _ _ _ _ ip4_reheader (fun n => 65515 < n) 20 fs e Ho Lh Hk); [|exact H].
  intros h n x. apply ip4_reheader_errors.
Qed.
Print Assumptions C37_when_partial.

(** In particular fragments that come from cutting datagrams of at most 65515 bytes
    (a datagram for each flow key), in any order and mixture, never raise. *)
Theorem C37_consistent_partial : forall cut_of pr_of idx l now0, ordered now0 l ->
  (forall K, nonempty (cut_of K) /\ zlen (concat (cut_of K)) <= 65515 /\ wf_bytes (concat (cut_of K))) ->
  Forall (fun x => own4 (cut_of (key4 (snd x))) (key4 (snd x)) (pr_of (key4 (snd x))) (idx (snd x)) (snd x)) l ->
  Forall (fun o => exists r, o = Ok r) (run defrag4 [] l).
Proof. exact consistent_ok. Qed.
Print Assumptions C37_consistent_partial.

Example C37_example : Forall parsed4 (plain C36_l) /\ flows_ok 20 (fst (defrag4 10 (C36_p 5 2) [])) /\
  Forall (fun x => own4 C36_cs (key4 (snd x)) 255 (Z.to_nat (i4_offset (snd x) / 8)) (snd x)) (plain C36_l).
Proof.
  split; [|split].
  - unfold C36_l, plain. cbn [map fst]. repeat (apply Forall_cons || apply Forall_nil); (split; conc).
  - apply defrag_flows_ok; [vm_compute; discriminate|vm_compute; reflexivity|apply flows_ok_nil].
  - unfold C36_l, plain. cbn [map fst]. repeat (apply Forall_cons || apply Forall_nil); unfold own4, is_frag; cbn [snd];
      repeat match goal with |- _ /\ _ => split end;
      conc.
Qed.

(** ** C38: stale fragments *)

(** A fragment has no effect on what arrives more than the timeout later. *)
Definition C38_statement : Prop := forall t1 p1 t2 p2, parsed4 (t1, p1) -> parsed4 (t2, p2) ->
  t1 + FRAG_FLOW_TIMEOUT < t2 ->
  snd (defrag4 t2 p2 (fst (defrag4 t1 p1 []))) = snd (defrag4 t2 p2 []).
(** One day later the second half still completes the first one. *)
Theorem C38_refuted : exists t1 p1 t2 p2, parsed4 (t1, p1) /\ parsed4 (t2, p2) /\ t2 = t1 + 24 * 3600 * 1000 /\
  snd (defrag4 t2 p2 []) = Ok None /\
  exists w, snd (defrag4 t2 p2 (fst (defrag4 t1 p1 []))) = Ok (Some w).
Proof.
  exists 0, (C36_frag 5 (0, true, repeat 1 8)), (24 * 3600 * 1000), (C36_frag 5 (8, false, repeat 2 4)).
  split; [split; [apply (proj1 (wf_bytesb_ok _)); vm_compute; reflexivity|vm_compute; reflexivity]|].
  split; [split; [apply (proj1 (wf_bytesb_ok _)); vm_compute; reflexivity|vm_compute; reflexivity]|].
  split; [reflexivity|]. split; [vm_compute; reflexivity|]. eexists. vm_compute; reflexivity.
Qed.
Print Assumptions C38_refuted.
Theorem C38_statement_refuted : ~ C38_statement.
Proof.
  intros H. destruct C38_refuted as (t1 & p1 & t2 & p2 & P1 & P2 & E & N & w & Y).
  specialize (H t1 p1 t2 p2 P1 P2 ltac:(unfold FRAG_FLOW_TIMEOUT; lia)). rewrite N, Y in H. discriminate.
Qed.
Print Assumptions C38_statement_refuted.
(** An incomplete flow outlives every fragment of other flows, however late it comes. *)
Theorem C38_never_forgotten_refuted : forall now p fs K v, flow_get K fs = Some v -> (i4_src p, i4_dst p, i4_id p) <> K ->
  (forall kv, In kv fs -> fst kv = K -> fl_time (snd kv) <= now) ->
  flow_get K (fst (defrag4 now p fs)) = Some v.
Proof. exact flow_stays. Qed.
Print Assumptions C38_never_forgotten_refuted.

(** What does hold: a flow that completes is forgotten at once. *)
Theorem C38_completed_partial : forall now p fs fs' w, defrag4 now p fs = (fs', Ok (Some w)) ->
  flow_get (i4_src p, i4_dst p, i4_id p) fs' = None.
Proof. exact completed_forgotten. Qed.
Print Assumptions C38_completed_partial.
Example C38_example : exists v, flow_get (0x0A000001, 0x0A000002, 5) (fst (defrag4 0 (C36_p 5 0) [])) = Some v /\
  flow_get (0x0A000001, 0x0A000002, 5) (fst (defrag4 (10 ^ 9) (C36_p 6 0) (fst (defrag4 0 (C36_p 5 0) [])))) = Some v /\
  exists fs' w, defrag4 2 (C36_p 5 2) (fst (defrag4 1 (C36_p 5 1) (fst (defrag4 0 (C36_p 5 0) [])))) = (fs', Ok (Some w)).
Proof.
  eexists. split; [vm_compute; reflexivity|]. split; [vm_compute; reflexivity|]. do 2 eexists. vm_compute; reflexivity.
Qed.

(** ** C39: IPv6 *)

(** fragmentation: as C35; 48 bytes are the IPv6 and the fragment header *)
Theorem C39_fragments : forall mtu src dst next id0 c fs id, 56 <= mtu < 65584 ->
  ip6_fragment mtu src dst next id0 c = Ok (fs, id) ->
  id = id0 + 1 /\
  (exists ps, ip6_pshdr_sum src dst (c_len c) next = Ok ps /\
     c_asm c (repeat 0 (Z.to_nat (c_len c))) ps = Ok (concat (map snd fs))) /\
  forall i off mf d, nth_error fs i = Some (off, mf, d) ->
    0 < zlen d /\ 48 + zlen d <= mtu /\ off = zlen (concat (firstn i (map snd fs))) /\ off mod 8 = 0 /\
    (mf = true <-> (S i < length fs)%nat).
Proof.
  intros mtu src dst next id0 c fs id Hm H.
  destruct (ip6_fragment_ok _ _ _ _ _ _ _ _ Hm H) as (ps & data & Ep & Ed & -> & C & F).
  pose proof C as (Ec & Cl & _). split; [reflexivity|].
  split; [exists ps; split; [exact Ep|]; rewrite Ed; f_equal; symmetry; exact Ec|].
  intros i off mf d N. destruct (F _ _ _ _ N) as (Nd & Eo & Em).
  rewrite Forall_forall in Cl. specialize (Cl d (nth_error_In _ _ Nd)). cbv beta in Cl.
  assert (Lk : (i < length (map snd fs))%nat) by (apply nth_error_Some; intros X; pose proof (eq_trans (eq_sym Nd) X); discriminate).
  pose proof (cut_prefix _ _ _ C i Lk) as Op.
  assert (O8 : off mod 8 = 0).
  { rewrite Eo, Op, <- Z.mul_assoc, (Z.mul_comm 8), Z.mul_assoc. apply Z.mod_mul. lia. }
  repeat split; auto; try lia.
  - rewrite Em. intros X. apply Nat.ltb_lt in X. rewrite map_length in X. exact X.
  - rewrite Em. intros X. apply Nat.ltb_lt. rewrite map_length. exact X.
Qed.
Print Assumptions C39_fragments.

Theorem C39_reassembly : forall (cs : list (list Z)) K next l now0 fs,
  nonempty cs -> zlen (concat cs) <= 65535 -> wf_bytes (concat cs) ->
  flow_get K fs = None -> history (own6 cs K next) (other6 K) now0 l ->
  as_expected (whole6 K next (concat cs)) (length cs) None l (run (fun now pg => defrag6 now (fst pg) (snd pg)) fs (plain l)).
Proof. exact run6_expected. Qed.
Print Assumptions C39_reassembly.

(** Sender and receiver together, each fragment once in any order.  The hop limit of the
    result is the default, whatever the sender asked for (see C44). *)
Theorem C39_end_to_end : forall mtu src dst next id0 c fs id l now0 fl, 56 <= mtu < 65584 ->
  ip6_fragment mtu src dst next id0 c = Ok (fs, id) ->
  wf_bytes (concat (map snd fs)) -> 0 < zlen (concat (map snd fs)) <= 65527 ->
  0 <= src < 2 ^ 128 -> 0 <= dst < 2 ^ 128 -> ip6_is_multicast src = false -> In next [58; 17; 6; 255] ->
  0 <= id < 2 ^ 32 ->
  flow_get (src, dst, id) fl = None ->
  history (sent6 src dst next id fs) (other6 (src, dst, id)) now0 l ->
  Permutation (map fst (own_of l)) (seq 0 (length fs)) ->
  exists w q, outs_of l (run (fun now pg => defrag6 now (fst pg) (snd pg)) fl (plain l))
      = repeat (Ok None) (length fs - 1) ++ [Ok (Some w)] /\
    ip6_parse w = Ok (inr q) /\ i6_data q = concat (map snd fs) /\ i6_src q = src /\ i6_dst q = dst /\
    i6_next q = next /\ i6_hop q = 64.
Proof. exact end_to_end6. Qed.
Print Assumptions C39_end_to_end.

Definition C39_p (k : nat) : ip6 * frag6 := C37_frag6 (nth k (frag_list 0 C36_cs) (0, false, [])).
Definition C39_l : list (Z * (ip6 * frag6) * option nat) :=
  [(10, C39_p 2, Some 2%nat); (20, C39_p 0, Some 0%nat); (30, C39_p 0, Some 0%nat); (40, C39_p 1, Some 1%nat)].
Definition C39_K : flow_key := (0xfe800000000000000000000000000001, 0xfe800000000000000000000000000002, 5).
Example C39_example :
  (exists fs, ip6_fragment 1500 0xfe800000000000000000000000000001 0xfe800000000000000000000000000002 255 4
     (raw_carried (repeat 7 3000)) = Ok (fs, 5) /\ map (fun x => (fst x, zlen (snd x))) fs
      = [(0, true, 1448); (1448, true, 1448); (2896, false, 104)]) /\
  history (own6 C36_cs C39_K 255) (other6 C39_K) 0 C39_l /\
  map (fun o => match o with Ok (Some w) => Some (slice_from 40 w) | _ => None end)
     (run (fun now pg => defrag6 now (fst pg) (snd pg)) [] (plain C39_l)) = [None; None; None; Some (concat C36_cs)].
Proof.
  split; [eexists; split; [vm_compute; reflexivity|vm_compute; reflexivity]|]. split; [|vm_compute; reflexivity].
  unfold C39_l. cbn [history]. unfold own6, other6, is_frag.
  repeat match goal with |- _ /\ _ => split | |- context [let (_, _) := C39_p ?k in _] =>
    let x := eval vm_compute in (C39_p k) in change (C39_p k) with x; cbv iota beta end;
 conc.
Qed.

(** ** C40: packet ids *)

(** the ids of a series of oversized datagrams sent one after the other, all succeeding *)
Fixpoint sends4 (mtu id0 : Z) (l : list (Z * Z * Z * Z * carried)) : res (list (list (ip4_tx * bytes))) :=
  match l with
  | [] => Ok []
  | (src, dst, ttl, proto, c) :: r =>
      x <- ip4_fragment mtu src dst ttl proto id0 c ;;
      xs <- sends4 mtu (snd x) r ;; Ok (fst x :: xs)
  end.
Definition C40_statement : Prop := forall l,
  Forall (fun x => match x with (src, dst, ttl, proto, c) => 0 < ttl < 256 /\ In proto [1; 17; 6; 255] /\
     exists ps data, ip4_pshdr_sum src dst proto (c_len c) = Ok ps /\ c_asm c (repeat 0 (Z.to_nat (c_len c))) ps = Ok data end) l ->
  exists fss, sends4 1500 0 l = Ok fss.

(** When the counter stands at 65535 every further oversized datagram raises; the counter
    is never decreased, so this is for good. *)
Theorem C40_stuck_refuted : forall mtu src dst ttl proto id0 c ps data, 28 <= mtu < 65556 ->
  ip4_pshdr_sum src dst proto (c_len c) = Ok ps -> c_asm c (repeat 0 (Z.to_nat (c_len c))) ps = Ok data ->
  data <> [] -> 65535 <= id0 ->
  ip4_fragment mtu src dst ttl proto id0 c = Exn AssertionError.
Proof. exact ip4_fragment_stuck. Qed.
Print Assumptions C40_stuck_refuted.
Lemma sends4_stuck mtu l : 28 <= mtu < 65556 -> forall id0,
  Forall (fun x => match x with (src, dst, ttl, proto, c) => exists ps data, ip4_pshdr_sum src dst proto (c_len c) = Ok ps /\
     c_asm c (repeat 0 (Z.to_nat (c_len c))) ps = Ok data /\ data <> [] end) l ->
  0 <= id0 -> l <> [] -> 65535 < id0 + zlen l -> exists e, sends4 mtu id0 l = Exn e.
Proof.
  intros Hm. induction l as [|[[[[src dst] ttl] proto] c] l IH]; intros id0 F Hi Hn Hl; [congruence|].
  inversion F as [|? ? Hx F']; subst. destruct Hx as (ps & data & E1 & E2 & E3). cbn [sends4].
  destruct (Z.le_gt_cases 65535 id0) as [L|L].
  - rewrite (ip4_fragment_stuck _ _ _ _ _ _ _ _ _ Hm E1 E2 E3 L). cbn [rbind]. eauto.
  - destruct (ip4_fragment mtu src dst ttl proto id0 c) as [[fs id]|e] eqn:E; cbn [rbind]; [|eauto]. cbn [fst snd].
    destruct (ip4_fragment_ok _ _ _ _ _ _ _ _ _ Hm E) as (_ & _ & _ & _ & -> & _).
    rewrite zlen_cons in Hl. destruct (IH (id0 + 1) F') as (e & Ee); try lia.
    { intros ->. change (zlen []) with 0 in Hl. lia. }
    rewrite Ee. cbn [rbind]. eauto.
Qed.
Theorem C40_refuted : ~ C40_statement.
Proof.
  intros H. set (x := (0x0A000001, 0x0A000002, 64, 255, raw_carried (repeat 7 1481))).
  assert (E1 : exists ps, ip4_pshdr_sum 0x0A000001 0x0A000002 255 (c_len (raw_carried (repeat 7 1481))) = Ok ps)
    by (eexists; vm_compute; reflexivity).
  assert (E2 : forall ps, c_asm (raw_carried (repeat 7 1481)) (repeat 0 (Z.to_nat (c_len (raw_carried (repeat 7 1481))))) ps = Ok (repeat 7 1481))
    by (intros ps; vm_compute; reflexivity).
  destruct E1 as (ps & E1). specialize (E2 ps).
  destruct (H (repeat x (Z.to_nat 65536))) as (fss & E).
  - apply Forall_forall. intros y I. apply repeat_spec in I as ->. unfold x. split; [lia|]. split; [cbn; auto|]. eauto.
  - destruct (sends4_stuck 1500 (repeat x (Z.to_nat 65536)) ltac:(lia) 0) as (e & Ee); [| | | |congruence].
    + apply Forall_forall. intros y I. apply repeat_spec in I as ->. unfold x. exists ps, (repeat 7 1481).
      split; [exact E1|]. split; [exact E2|]. discriminate.
    + lia.
    + replace (Z.to_nat 65536) with (S (Z.to_nat 65535)) by lia. discriminate.
    + unfold zlen. rewrite repeat_length. lia.
Qed.
Print Assumptions C40_refuted.

(** IPv6: no fragment with an id of 2^32 or more can be assembled; the exception is
    raised in the thread of the transmit ring (C79). *)
Theorem C40_ip6_stuck_refuted : forall next off mf id d buf ps, In next [58; 17; 6; 255] -> 2 ^ 32 <= id ->
  0 <= off < 65536 -> off mod 8 = 0 ->
  frag6_asm next off mf id d buf ps = Exn StructError.
Proof. exact frag6_asm_id. Qed.
Print Assumptions C40_ip6_stuck_refuted.

(** What does hold: up to there, all sends succeed and no two datagrams share an id. *)
Theorem C40_first_65535_partial : forall mtu l id0, 28 <= mtu < 65556 -> 0 <= id0 -> id0 + zlen l <= 65535 ->
  Forall (fun x => match x with (src, dst, ttl, proto, c) => 0 < ttl < 256 /\ In proto [1; 17; 6; 255] /\
     exists ps data, ip4_pshdr_sum src dst proto (c_len c) = Ok ps /\ c_asm c (repeat 0 (Z.to_nat (c_len c))) ps = Ok data end) l ->
  exists fss, sends4 mtu id0 l = Ok fss.
Proof.
  intros mtu l id0 Hm. revert id0. induction l as [|[[[[src dst] ttl] proto] c] l IH]; intros id0 Hi Hl F; [exists []; reflexivity|].
  inversion F as [|? ? Hx F']; subst. destruct Hx as (Ht & Hp & ps & data & E1 & E2). cbn [sends4].
  rewrite zlen_cons in Hl. pose proof (zlen_nonneg l).
  destruct (ip4_fragment_sends mtu src dst ttl proto id0 c ps data Hm E1 E2) as (fs & E); try lia; auto.
  rewrite E. cbn [rbind fst snd]. destruct (IH (id0 + 1)) as (fss & E'); try lia; auto. rewrite E'. cbn [rbind]. eauto.
Qed.
Print Assumptions C40_first_65535_partial.
Theorem C40_distinct : forall mtu l id0 fss, 28 <= mtu < 65556 -> sends4 mtu id0 l = Ok fss ->
  forall i fs t d, nth_error fss i = Some fs -> In (t, d) fs -> t4_id t = id0 + 1 + Z.of_nat i.
Proof.
  intros mtu l id0 fss Hm. revert id0 fss. induction l as [|[[[[src dst] ttl] proto] c] l IH]; intros id0 fss H i fs t d N I; cbn [sends4] in H.
  - injection H as <-. destruct i; discriminate.
  - destruct (ip4_fragment mtu src dst ttl proto id0 c) as [[fs0 id]|e] eqn:E; cbn [rbind fst snd] in H; [|discriminate].
    destruct (sends4 mtu id l) as [xs|] eqn:E'; cbn [rbind] in H; [|discriminate]. injection H as <-.
    destruct (ip4_fragment_ok _ _ _ _ _ _ _ _ _ Hm E) as (_ & _ & _ & _ & -> & _ & F).
    destruct i as [|i]; cbn [nth_error] in N.
    + injection N as <-. apply In_nth_error in I as (j & Nj). destruct (F _ _ _ Nj) as (_ & _ & _ & _ & -> & _). lia.
    + rewrite (IH _ _ E' _ _ _ _ N I). lia.
Qed.
Print Assumptions C40_distinct.
Example C40_example : exists fss, sends4 1500 0 (repeat (0x0A000001, 0x0A000002, 64, 255, raw_carried (repeat 7 1481)) 3) = Ok fss /\
  map (map (fun x => t4_id (fst x))) fss = [[1; 1]; [2; 2]; [3; 3]].
Proof. eexists. split; vm_compute; reflexivity. Qed.
