(** The receive handlers do what the rules of SpecReact say. *)
From Verif Require Import Base BaseLemmas BitLemmas CodecModel CodecLemmas CksumModel AddrModel AddrProofs SpecCksum SpecWire EtherModel EtherProofs
  Ip4Model Ip4Proofs Ip6Model Ip6Proofs PshdrLemmas UdpModel UdpProofs UdpIpProofs TcpModel TcpProofs Icmp4Model Icmp4Proofs Icmp6Model
  Icmp6Proofs BufProofs FragModel StackModel SpecStack StackTxProofs StackSendProofs StackRxModel SpecRx RxProofs SpecReact.

(** ** socket tables *)
Lemma ipaddr_eqb_eq a b : ipaddr_eqb a b = true <-> a = b.
Proof. destruct a, b; cbn; rewrite ?Z.eqb_eq; split; congruence. Qed.
Lemma skey_eqb_eq a b : skey_eqb a b = true <-> a = b.
Proof.
  destruct a as [t l p r q], b as [t' l' p' r' q']. unfold skey_eqb. cbn [k_type k_lip k_lport k_rip k_rport].
  rewrite !andb_true_iff, !ipaddr_eqb_eq, !Z.eqb_eq. split.
  - intros ((((T & ->) & ->) & ->) & ->). destruct t, t'; cbn in T; congruence.
  - intros [= -> -> -> -> ->]. destruct t'; auto.
Qed.
Lemma sock_get_some t k i : socks_ok t -> (sock_get k t = Some i <-> In (k, i) t).
Proof.
  unfold socks_ok, sock_get. intros N. induction t as [|[k' j] t IH]; cbn [find fst snd In]; [split; [discriminate|tauto]|].
  inversion N as [|? ? NI N']; subst. specialize (IH N'). destruct (skey_eqb k k') eqn:E.
  - apply skey_eqb_eq in E. subst k'. cbn [snd]. split.
    + intros [= <-]. auto.
    + intros [[= <-]|I]; [reflexivity|]. exfalso. apply NI. apply (in_map fst) in I. exact I.
  - assert (k <> k') by (intros ->; rewrite (proj2 (skey_eqb_eq k' k') eq_refl) in E; discriminate).
    rewrite IH. split; [auto|]. intros [[= ]|I]; [congruence|exact I].
Qed.
Lemma sock_get_none t k : sock_get k t = None <-> forall i, ~ In (k, i) t.
Proof.
  unfold sock_get. destruct (find (fun kv => skey_eqb k (fst kv)) t) as [[k' j]|] eqn:E.
  - apply find_some in E as (I & E). cbn in E. apply skey_eqb_eq in E. subst k'. split; [discriminate|]. intros N. destruct (N j I).
  - split; [|reflexivity]. intros _ i I. apply (find_none _ _ E) in I. cbn in I.
    rewrite (proj2 (skey_eqb_eq k k) eq_refl) in I. discriminate.
Qed.
Lemma open_get t ty lip lport rip rport i : socks_ok t ->
  (open_as t ty lip lport rip rport i <->
   sock_get {| k_type := ty; k_lip := lip; k_lport := lport; k_rip := rip; k_rport := rport |} t = Some i).
Proof. intros N. unfold open_as. rewrite sock_get_some by auto. tauto. Qed.
Lemma none_get t ty lip lport rip rport :
  none_as t ty lip lport rip rport <->
  sock_get {| k_type := ty; k_lip := lip; k_lport := lport; k_rip := rip; k_rport := rport |} t = None.
Proof. unfold none_as, open_as. rewrite sock_get_none. tauto. Qed.

Lemma udp_target_iff t lip lport rip rport o : socks_ok t ->
  (udp_target t lip lport rip rport o <-> first_match (socket_patterns lip lport rip rport) t = o).
Proof.
  intros N. change unspecified with zero_of. unfold socket_patterns. cbn [app first_match].
  change (unspecified lip) with (zero_of lip). split.
  - intros H. inversion H as [i O|i N1 O|i N1 N2 O|x i E N1 N2 N3 O|N1 N2 N3 N4]; subst;
      rewrite ?(open_get _ _ _ _ _ _ _ N) in *; rewrite ?none_get in *; rewrite ?O, ?N1, ?N2, ?N3; try reflexivity.
    + cbn [app first_match]. rewrite O. reflexivity.
    + destruct lip as [x|x]; cbn [app first_match]; [|reflexivity]. specialize (N4 x eq_refl). apply none_get in N4. rewrite N4. reflexivity.
  - destruct (sock_get _ t) as [i|] eqn:G1; [intros <-; apply ut_connected, open_get; auto|]. apply none_get in G1.
    destruct (sock_get {| k_type := Dgram; k_lip := lip; k_lport := lport; k_rip := zero_of lip; k_rport := 0 |} t) as [i|] eqn:G2;
      [intros <-; apply ut_bound; auto; apply open_get; auto|]. apply none_get in G2.
    destruct (sock_get {| k_type := Dgram; k_lip := zero_of lip; k_lport := lport; k_rip := zero_of lip; k_rport := 0 |} t) as [i|] eqn:G3;
      [intros <-; apply ut_wildcard; auto; apply open_get; auto|]. apply none_get in G3.
    destruct lip as [x|x]; cbn [app first_match].
    + destruct (sock_get {| k_type := Dgram; k_lip := A4 0; k_lport := lport; k_rip := A4 0xFFFFFFFF; k_rport := rport |} t) as [i|] eqn:G4.
      * intros <-. apply (ut_dhcp _ _ _ _ _ x); auto. apply open_get; auto.
      * intros <-. apply none_get in G4. apply ut_none; auto.
    + intros <-. apply ut_none; auto. intros y [=].
Qed.
Lemma udp_target_det t lip lport rip rport o o' : socks_ok t ->
  udp_target t lip lport rip rport o -> udp_target t lip lport rip rport o' -> o' = o.
Proof. intros N H H'. apply udp_target_iff in H, H'; auto. congruence. Qed.

Definition tcp_lookup (t : sockets) (lip : ipaddr) (lport : Z) (rip : ipaddr) (rport : Z) (b : bool) : option nat :=
  match sock_get {| k_type := Stream; k_lip := lip; k_lport := lport; k_rip := rip; k_rport := rport |} t with
  | Some i => Some i
  | None => if b then first_match (listen_patterns lip lport) t else None
  end.
Lemma tcp_target_iff t lip lport rip rport b o : socks_ok t ->
  (tcp_target t lip lport rip rport b o <-> tcp_lookup t lip lport rip rport b = o).
Proof.
  intros N. unfold tcp_lookup, listen_patterns. change (unspecified lip) with (zero_of lip). cbn [first_match]. split.
  - intros H. inversion H as [i O|i B N1 O|i B N1 N2 O|N1 N2]; subst;
      rewrite ?(open_get _ _ _ _ _ _ _ N) in *; rewrite ?none_get in *; rewrite ?O, ?N1, ?N2, ?N3; try reflexivity.
    destruct b; [|reflexivity]. destruct (N2 eq_refl) as (X & Y). rewrite X, Y. reflexivity.
  - destruct (sock_get _ t) as [i|] eqn:G1; [intros <-; apply tt_session, open_get; auto|]. apply none_get in G1.
    destruct b; [|intros <-; apply tt_none; auto; discriminate].
    destruct (sock_get {| k_type := Stream; k_lip := lip; k_lport := lport; k_rip := zero_of lip; k_rport := 0 |} t) as [i|] eqn:G2;
      [intros <-; apply tt_listen; auto; apply open_get; auto|]. apply none_get in G2.
    destruct (sock_get {| k_type := Stream; k_lip := zero_of lip; k_lport := lport; k_rip := zero_of lip; k_rport := 0 |} t) as [i|] eqn:G3;
      [intros <-; apply tt_listen_any; auto; apply open_get; auto|]. apply none_get in G3.
    intros <-. apply tt_none; auto.
Qed.

(** ** datagrams *)
Lemma be_enc_word a b : is_byte a -> is_byte b -> be_enc 2 (a * 256 + b) = [a; b].
Proof. intros Ha Hb. rewrite <- be2. apply (be_enc_be [a; b]). repeat apply wf_cons; auto using wf_nil. Qed.
Lemma firstn_plus {A} n m (l : list A) : firstn (n + m) l = firstn n l ++ firstn m (skipn n l).
Proof. revert l; induction n as [|n IH]; intros [|x l]; cbn [Nat.add firstn skipn app]; rewrite ?firstn_nil; auto. rewrite IH. reflexivity. Qed.
Lemma slice_join {A} (l : list A) a b : 0 <= a <= b -> slice 0 b l = slice 0 a l ++ slice a b l.
Proof.
  intros H. unfold slice. change (Z.to_nat 0) with O. cbn [skipn]. rewrite !Z.sub_0_r.
  replace (Z.to_nat b) with (Z.to_nat a + Z.to_nat (b - a))%nat by lia. apply firstn_plus.
Qed.
Lemma datagram_iff f plen ps pseudo sport dport data : wf_bytes f -> pshdr_for pseudo ps -> 0 <= plen < 65536 -> plen <= zlen f ->
  (datagram pseudo (slice 0 plen f) sport dport data <->
   exists u, udp_parse f plen ps = Ok (inr u) /\ u_sport u = sport /\ u_dport u = dport /\ u_data u = data).
Proof.
  intros W Hp Hl Lf. pose proof (slice_split f plen ltac:(lia)) as Sp.
  assert (Ls : zlen (slice 0 plen f) = plen) by (rewrite zlen_slice; lia).
  split.
  - intros (ck & Hc & Hs & Hd & E & V). set (seg := slice 0 plen f) in *.
    assert (L : plen = 8 + zlen data) by (rewrite <- Ls, E, udp_wire_len; reflexivity).
    assert (Ws : wf_bytes seg) by (apply wf_slice; auto). rewrite E in Ws. unfold udp_wire in Ws. rewrite !wf_app in Ws.
    pose proof (udp_parse_wire sport dport ck data (slice_from plen f) ps pseudo) as X. rewrite <- E, <- Sp, <- L in X.
    eexists. split; [apply X; auto; [tauto|apply wf_slice_from; auto|lia]|]. auto.
  - intros (u & E & <- & <- & <-). destruct (udp_parse_total f plen ps pseudo W Hp Hl) as [(r & E' & _)|(p & E' & V & L & E4 & N0 & N2 & ->)]; [congruence|].
    rewrite E' in E. injection E as <-. cbn [u_sport u_dport u_data].
    set (seg := slice 0 plen f) in *. exists (word_at f 6).
    assert (L8 : 8 <= zlen f) by lia.
    assert (Wb : 0 <= word_at f 0 < 65536 /\ 0 <= word_at f 2 < 65536 /\ 0 <= word_at f 6 < 65536).
    { clear - W L8. take_bytes L8. wf_split W. unfold word_at, byte_at, is_byte in *. cbn [nth Nat.add]. lia. }
    split; [lia|]. split; [lia|]. split; [lia|]. split; [|exact V].
    unfold seg. clear - W L8 L E4.
    assert (Ld : zlen (slice 8 plen f) = plen - 8) by (rewrite zlen_slice; lia).
    rewrite Ld. replace (8 + (plen - 8)) with plen by lia. rewrite <- E4 at 2.
    rewrite (slice_join f 8 plen) by lia. unfold udp_wire. rewrite !app_assoc. f_equal.
    clear - W L8. take_bytes L8. wf_split W. unfold word_at, byte_at. cbn [nth Nat.add].
    rewrite !be_enc_word by assumption. reflexivity.
Qed.

(** ** packets handed to the transport handlers *)
Lemma in4_facts f p : wf_bytes f -> ip4_parse f = Ok (inr p) ->
  wf_bytes (i4_rest p) /\ 0 <= i4_dlen p < 65536 /\ i4_dlen p <= zlen (i4_rest p) /\ i4_data p = slice 0 (i4_dlen p) (i4_rest p) /\
  0 <= i4_src p < 2 ^ 32 /\ 0 <= i4_dst p < 2 ^ 32 /\ 0 <= i4_plen p < 65536 /\ i4_frame p = f /\
  exists ps, i4_pshdr_sum p = Ok ps /\ pshdr_for (ip4_pseudo (i4_src p) (i4_dst p) (i4_proto p) (i4_dlen p)) ps.
Proof.
  intros W E. destruct (ip4_accept_fields f p W E) as (Lh & Lp & _ & _ & _ & _ & _ & _ & _ & Ep).
  assert (F : i4_frame p = f) by (rewrite Ep; reflexivity).
  assert (Hp : 0 <= i4_plen p < 65536).
  { rewrite Ep. cbn [ip4_of i4_plen]. pose proof (byte_at_range f 2 W). pose proof (byte_at_range f 3 W).
    unfold word_at. unfold is_byte in *. lia. }
  assert (Hs : 0 <= i4_src p < 2 ^ 32).
  { rewrite Ep. cbn [ip4_of i4_src]. pose proof (be_bound _ (wf_slice 12 16 f W)) as B. rewrite zlen_slice in B by lia. exact B. }
  assert (Hd : 0 <= i4_dst p < 2 ^ 32).
  { rewrite Ep. cbn [ip4_of i4_dst]. pose proof (be_bound _ (wf_slice 16 20 f W)) as B. rewrite zlen_slice in B by lia. exact B. }
  assert (Hq : 0 <= i4_proto p < 256).
  { rewrite Ep. cbn [ip4_of i4_proto]. pose proof (byte_at_range f 9 W). unfold is_byte in *. lia. }
  unfold i4_rest, i4_data, i4_dlen. rewrite F.
  split; [apply wf_slice_from; auto|]. split; [lia|]. split; [rewrite zlen_slice_from; lia|].
  split; [unfold slice, slice_from; change (Z.to_nat 0) with O; cbn [skipn]; rewrite Z.sub_0_r; reflexivity|].
  do 4 (split; [auto|]). eexists. split.
  - unfold i4_pshdr_sum. rewrite ip4_pshdr_ok by (auto; unfold i4_dlen; lia). reflexivity.
  - unfold i4_dlen. apply pshdr4_for; auto. lia.
Qed.
Lemma in6_facts f p : wf_bytes f -> ip6_parse f = Ok (inr p) ->
  wf_bytes (i6_rest p) /\ 0 <= i6_dlen p < 65536 /\ i6_dlen p <= zlen (i6_rest p) /\ i6_data p = slice 0 (i6_dlen p) (i6_rest p) /\
  0 <= i6_src p < 2 ^ 128 /\ 0 <= i6_dst p < 2 ^ 128 /\ i6_frame p = f /\
  exists ps, i6_pshdr_sum p = Ok ps /\ pshdr_for (ip6_pseudo (i6_src p) (i6_dst p) (i6_dlen p) (i6_next p)) ps.
Proof.
  intros W E. apply (ip6_parse_exact f p W) in E as (_ & _ & _ & _ & Hl & Hn & _ & Hs & Hd & _ & F & L & _).
  split; [unfold i6_rest; rewrite F; apply wf_slice_from; auto|]. split; [auto|]. split; [lia|].
  split; [unfold i6_data, i6_plen, i6_rest, slice, slice_from; change (Z.to_nat 0) with O; cbn [skipn]; f_equal; lia|].
  do 3 (split; [auto|]). eexists. split.
  - unfold i6_pshdr_sum. rewrite ip6_pshdr_ok by lia. reflexivity.
  - apply pshdr6_for; auto.
Qed.

(** ** the model's reading of a reaction *)
Definition effect (x : reaction) : R unit :=
  match x with
  | RArpReply p =>
      a <+ rgets my_addrs ;;
      _ <+ tx_ (send_request (QArp (a_mac a) (a_sha p)
              {| a_oper := 2; a_sha := a_mac a; a_spa := a_tpa p; a_tha := a_sha p; a_tpa := a_spa p |})) ;;
      tx_ (arp_add (a_spa p) (a_sha p))
  | RLearn4 ip m => tx_ (arp_add ip m)
  | RLearn6 ip m => tx_ (nd_add ip m)
  | RConflict ip => rupd (put_conflict ip)
  | RDeliver i m => rupd (udp_deliver i m)
  | RRefused i => rupd (udp_notify i)
  | RSegment i d => rupd (put_tcp i d)
  | RSend q => tx_ (send_request q)
  | RAdvertise l src q => _ <+ match l with Some m => tx_ (nd_add src m) | None => rret tt end ;; tx_ (send_request q)
  | RTaken t => rupd (set_dad t)
  | RPrefixes l => rupd (set_ra l)
  end.

Lemma unicast4_mem a x : mem x (ip4_unicast a) = true <-> exists h, In h (a_host4 a) /\ h_addr h = x.
Proof. rewrite mem_In. unfold ip4_unicast. rewrite in_map_iff. split; intros (h & A & B); eauto. Qed.
Lemma unicast6_mem a x : mem x (ip6_unicast a) = true <-> exists h, In h (a_host6 a) /\ h_addr h = x.
Proof. rewrite mem_In. unfold ip6_unicast. rewrite in_map_iff. split; intros (h & A & B); eauto. Qed.
Lemma cand4_mem a x : mem x (map h_addr (a_cand4 a)) = true <-> exists h, In h (a_cand4 a) /\ h_addr h = x.
Proof. rewrite mem_In, in_map_iff. split; intros (h & A & B); eauto. Qed.

(** ARP *)
Lemma arp_cases n f e n' r : wf_bytes f -> for_us n f e -> EtherModel.e_type e = 0x0806 -> a_sup4 (my_addrs n) = true ->
  phrx_arp e n = (n', r) ->
  (n' = n /\ r = Ok tt) \/ exists x, reacts n f n x /\ effect x n = (n', r).
Proof.
  intros W U T S E. unfold phrx_arp, on_parsed, rbind' at 1, rlift in E.
  assert (We : wf_bytes (EtherModel.e_rest e)).
  { destruct U as (Ep & _). apply (ether_parse_exact f e W) in Ep as (_ & _ & _ & Ef). rewrite Ef in W. unfold eth_wire in W. rewrite !wf_app in W. tauto. }
  destruct (arp_parse_total _ We) as [(m & P)|(p & pad & P & Hw & _)]; rewrite P in E; [left; injection E; auto|].
  assert (I : arp_in n f e p) by (unfold arp_in; auto).
  unfold rbind' at 1, rgets in E. change ARP_OP_REQUEST with 1 in E. change ARP_OP_REPLY with 2 in E.
  destruct (Z.eqb_spec (a_oper p) 1) as [O|O].
  - destruct (mem (a_spa p) (ip4_unicast (my_addrs n))) eqn:M1; [left; injection E; auto|].
    destruct (mem (a_tpa p) (ip4_unicast (my_addrs n))) eqn:M2; [|left; injection E; auto].
    right. exists (RArpReply p). split; [|exact E].
    apply (re_arp_reply n f e p I O); [apply unicast4_mem; exact M2|]. intros X. apply unicast4_mem in X. congruence.
  - destruct (Z.eqb_spec (a_oper p) 2) as [O2|]; [|left; injection E; auto].
    destruct (Z.eqb_spec (EtherModel.e_dst e) (a_mac (my_addrs n))) as [D|D]; cbn [andb] in E.
    + destruct (mem (a_spa p) (map h_addr (a_cand4 (my_addrs n))) && (a_tha p =? a_mac (my_addrs n)) && ip4_is_unspecified (a_tpa p)) eqn:C.
      * right. exists (RConflict (a_spa p)). split; [|exact E]. rewrite !andb_true_iff, cand4_mem in C. destruct C as ((C1 & C2) & C3).
        apply Z.eqb_eq in C2. apply Z.eqb_eq in C3. apply (re_arp_conflict n f e p); auto.
      * right. exists (RLearn4 (a_spa p) (a_sha p)). split; [|exact E]. apply (re_arp_learn n f e p); auto.
        intros (C1 & C2 & C3). apply cand4_mem in C1. rewrite C1, C2, C3, Z.eqb_refl in C. discriminate.
    + unfold mac_is_broadcast in E. destruct (Z.eqb_spec (EtherModel.e_dst e) 0xFFFFFFFFFFFF) as [B|B]; cbn [andb] in E; [|left; injection E; auto].
      destruct (Z.eqb_spec (a_spa p) (a_tpa p)) as [G|G]; [|left; injection E; auto].
      right. exists (RLearn4 (a_spa p) (a_sha p)). split; [|exact E]. apply (re_arp_gratuitous n f e p); auto.
Qed.

(** UDP *)
Definition same_kind (a b : ipaddr) : Prop := match a, b with A4 _, A4 _ | A6 _, A6 _ => True | _, _ => False end.
Lemma is_unspecified_spec a : is_unspecified a = true <-> a = zero_of a.
Proof.
  destruct a as [x|x]; cbn [is_unspecified zero_of]; unfold ip4_is_unspecified, ip6_is_unspecified; rewrite Z.eqb_eq; split; congruence.
Qed.
Lemma udp_accepted src dst f plen ps whole u n : same_kind src dst -> udp_parse f plen ps = Ok (inr u) ->
  phrx_udp src dst f plen (Ok ps) whole n =
  match first_match (socket_patterns dst (u_dport u) src (u_sport u)) (n_socks n) with
  | Some i => effect (RDeliver i {| m_lip := dst; m_lport := u_dport u; m_rip := src; m_rport := u_sport u; m_data := u_data u |}) n
  | None => if is_unspecified src then (n, Ok tt) else effect (RSend (unreachable_for src dst whole)) n
  end.
Proof.
  intros K E. unfold phrx_udp, on_parsed, rbind' at 1 2, rlift. rewrite E. unfold rbind' at 1, rgets.
  destruct (first_match _ _); [reflexivity|]. destruct (is_unspecified src); [reflexivity|].
  destruct src, dst; try contradiction; reflexivity.
Qed.

(** TCP *)
Lemma pure_syn_eq s : s_fsyn s && negb (s_fack s || s_ffin s || s_frst s) = pure_syn s.
Proof. unfold pure_syn. destruct (s_fsyn s), (s_fack s), (s_ffin s), (s_frst s); reflexivity. Qed.
Lemma tcp_accepted src dst f plen ps s n : tcp_parse f plen ps = Ok (inr s) ->
  phrx_tcp src dst f plen (Ok ps) n =
  match tcp_lookup (n_socks n) dst (s_dport s) src (s_sport s) (pure_syn s) with
  | Some i => effect (RSegment i (tmd_of src dst s)) n
  | None => effect (RSend (reset_for src dst s)) n
  end.
Proof.
  intros E. unfold phrx_tcp, on_parsed, rbind' at 1 2, rlift. rewrite E. unfold rbind' at 1, rgets. unfold tcp_lookup.
  destruct (sock_get _ _); [reflexivity|]. rewrite pure_syn_eq. destruct (pure_syn s); [|reflexivity].
  destruct (first_match _ _); reflexivity.
Qed.

(** quoted datagrams *)
Lemma shl2 b : is_byte b -> Z.shiftl (Z.land b 15) 2 = b mod 16 * 4 /\ Z.shiftr b 4 = b / 16.
Proof.
  intros H. change 15 with (2 ^ 4 - 1). rewrite land_ones' by lia. rewrite Z.shiftl_mul_pow2, Z.shiftr_div_pow2 by lia. auto.
Qed.
Lemma quoted4_spec d : wf_bytes d ->
  (exists lip lport rip rport, quoted4 d = Ok (Some (lip, lport, rip, rport)) /\ quotes4 d lip lport rip rport) \/
  (quoted4 d = Ok None /\ forall lip lport rip rport, ~ quotes4 d lip lport rip rport).
Proof.
  intros W. unfold quoted4, quotes4. destruct (zlen d >=? 20) eqn:L; [|right; split; [reflexivity|intros; lia]].
  assert (L' : 20 <= zlen d) by lia.
  assert (R : u8 d 0 = Ok (nth 0 d 0) /\ u8 d 9 = Ok (nth 9 d 0) /\ is_byte (nth 0 d 0)).
  { clear - W L'. take_bytes L'. wf_split W. readf. auto. }
  destruct R as (R0 & R9 & B0). rewrite R0, R9. cbn [rbind]. destruct (shl2 _ B0) as (-> & ->).
  set (off := nth 0 d 0 mod 16 * 4) in *. assert (0 <= off) by (unfold off, is_byte in *; lia).
  destruct (Z.eqb_spec (nth 0 d 0 / 16) 4) as [V|V]; cbn [andb]; [|right; split; [reflexivity|intros; lia]].
  destruct (zlen d >=? off) eqn:Lo; [|right; split; [reflexivity|intros; lia]].
  destruct (Z.eqb_spec (nth 9 d 0) 17) as [P|P]; cbn [andb]; [|right; split; [reflexivity|intros; lia]].
  destruct (zlen d >=? off + 8) eqn:L8; [|right; split; [reflexivity|intros; lia]].
  left. assert (I4 : forall a, 0 <= a -> a + 4 <= zlen d -> ip4_of_bytes (slice a (a + 4) d) = Ok (be (slice a (a + 4) d))).
  { intros a Ha Hb. unfold ip4_of_bytes. rewrite zlen_slice by lia. replace (a + 4 - a) with 4 by lia. reflexivity. }
  pose proof (I4 12 ltac:(lia) ltac:(lia)) as J1. pose proof (I4 16 ltac:(lia) ltac:(lia)) as J2. change (12 + 4) with 16 in J1. change (16 + 4) with 20 in J2.
  rewrite J1, J2. cbn [rbind].
  assert (I2 : forall a, 0 <= a -> a + 2 <= zlen d -> u16 d a = Ok (be (slice a (a + 2) d))).
  { intros a Ha Hb. unfold u16. apply unpack_ok. rewrite zlen_slice; lia. }
  rewrite (I2 off), (I2 (off + 2)) by lia. cbn [rbind]. do 4 eexists. split; [reflexivity|].
  replace (off + 2 + 2) with (off + 4) by lia. repeat split; auto; lia.
Qed.

Lemma quoted6_spec d : wf_bytes d ->
  (exists lip lport rip rport, quoted6 d = Ok (Some (lip, lport, rip, rport)) /\ quotes6 d lip lport rip rport) \/
  (quoted6 d = Ok None /\ forall lip lport rip rport, ~ quotes6 d lip lport rip rport).
Proof.
  intros W. unfold quoted6, quotes6. destruct (zlen d >=? 48) eqn:L; [|right; split; [reflexivity|intros; lia]].
  assert (L' : 20 <= zlen d) by lia.
  assert (R : u8 d 0 = Ok (nth 0 d 0) /\ u8 d 6 = Ok (nth 6 d 0) /\ is_byte (nth 0 d 0)).
  { clear - W L'. take_bytes L'. wf_split W. readf. auto. }
  destruct R as (R0 & R6 & B0). rewrite R0, R6. cbn [rbind]. destruct (shl2 _ B0) as (_ & ->).
  destruct (Z.eqb_spec (nth 0 d 0 / 16) 6) as [V|V]; [|right; split; [reflexivity|intros; lia]].
  destruct (Z.eqb_spec (nth 6 d 0) 17) as [P|P]; [|right; split; [reflexivity|intros; lia]].
  left. assert (I6 : forall a, 0 <= a -> a + 16 <= zlen d -> ip6_of_bytes (slice a (a + 16) d) = Ok (be (slice a (a + 16) d))).
  { intros a Ha Hb. apply ip6_of_bytes_be. rewrite zlen_slice; lia. }
  pose proof (I6 8 ltac:(lia) ltac:(lia)) as J1. pose proof (I6 24 ltac:(lia) ltac:(lia)) as J2. change (8 + 16) with 24 in J1. change (24 + 16) with 40 in J2.
  rewrite J1, J2. cbn [rbind].
  assert (I2 : forall a, 0 <= a -> a + 2 <= zlen d -> u16 d a = Ok (be (slice a (a + 2) d))).
  { intros a Ha Hb. unfold u16. apply unpack_ok. rewrite zlen_slice; lia. }
  rewrite (I2 40), (I2 42) by lia. cbn [rbind]. do 4 eexists. split; [reflexivity|]. repeat split; auto; lia.
Qed.

(** ** dispatch *)
Definition outcome (n : node) (f : bytes) (n1 n' : node) (r : res unit) : Prop :=
  (n' = n1 /\ (r = Ok tt \/ exists e, r = Exn e /\ rx_raises n f e)) \/
  exists x, reacts n f n1 x /\ effect x n1 = (n', r).

Lemma dispatch4_cases n f n1 p n' r : rx4 n f n1 p -> wf_bytes f -> node_ok n -> socks_ok (n_socks n) ->
  ip4_dispatch p (i4_rest p) n1 = (n', r) -> outcome n f n1 n' r.
Proof.
  intros H W K N E. destruct (rx4_facts n f n1 p H W K) as ((St & Ss & _) & _ & _ & _ & _ & _ & Wf & P).
  destruct (in4_facts _ _ Wf P) as (Wr & Hl & Lr & Ed & Hs & Hd & Hp & _ & ps & Eps & Hps).
  assert (Q : forall n' r, (n1, Ok tt) = (n', r) -> outcome n f n1 n' r) by (intros ? ? [= <- <-]; left; auto).
  unfold ip4_dispatch in E. change IP4_PROTO_ICMP4 with 1 in E. change IP4_PROTO_UDP with 17 in E. change IP4_PROTO_TCP with 6 in E.
  destruct (Z.eqb_spec (i4_proto p) 1) as [T|T1].
  { unfold phrx_icmp4, on_parsed, rbind' at 1, rlift at 1 in E.
    destruct (icmp4_parse_total _ _ Wr Hl) as [(x & Ep & _)|(Ep & A)]; rewrite Ep in E; [exact (Q _ _ E)|].
    set (q := icmp4_of (i4_rest p) (i4_dlen p)) in *.
    assert (I : icmp4_in n f n1 (i4_src p) (i4_dst p) q) by (exists p; auto 6).
    destruct (q4_body q) as [id seq d|d|] eqn:B.
    - destruct (Z.eqb_spec (q4_type q) 8) as [T8|]; [|exact (Q _ _ E)].
      right. eexists. split; [apply (re_echo4 n f n1 (i4_src p) (i4_dst p) q id seq d); auto|exact E].
    - assert (Wd : wf_bytes d).
      { unfold q, icmp4_of in B. cbn [q4_body] in B. destruct (_ || _); [discriminate|]. destruct (_ =? 3); [|discriminate].
        injection B as <-. apply wf_slice; auto. }
      unfold rbind' at 1, rlift in E. destruct (quoted4_spec d Wd) as [(lip & lport & rip & rport & Eq & Hq)|(Eq & _)];
        rewrite Eq in E; [|exact (Q _ _ E)].
      unfold rbind' at 1, rgets in E. rewrite Ss in E.
      destruct (first_match (socket_patterns (A4 lip) lport (A4 rip) rport) (n_socks n)) as [i|] eqn:M; [|exact (Q _ _ E)].
      right. exists (RRefused i). split; [|exact E]. apply (re_refused4 n f n1 (i4_src p) (i4_dst p) q d lip lport rip rport); auto.
      apply udp_target_iff; auto.
    - exact (Q _ _ E). }
  destruct (Z.eqb_spec (i4_proto p) 17) as [T|T17].
  { rewrite Eps in E. destruct (udp_parse_total _ _ _ _ Wr Hps Hl) as [(x & Ep & _)|(u & Ep & _)].
    { unfold phrx_udp, on_parsed, rbind', rlift in E. rewrite Ep in E. exact (Q _ _ E). }
    rewrite (udp_accepted (A4 (i4_src p)) (A4 (i4_dst p)) _ _ _ _ u n1 I Ep), Ss in E. rewrite T in Hps.
    assert (Dg : udp_in n f n1 (A4 (i4_src p)) (A4 (i4_dst p)) (u_sport u) (u_dport u) (u_data u) (slice 0 (i4_plen p) (i4_frame p))).
    { apply udp_in4; auto. rewrite Ed. apply (datagram_iff _ _ _ _ _ _ _ Wr Hps Hl Lr). eauto. }
    destruct (first_match _ _) as [i|] eqn:M.
    - apply udp_target_iff in M; [|auto]. right. eexists. split; [|exact E]. apply (re_udp _ _ _ _ _ _ _ _ _ _ Dg M).
    - apply udp_target_iff in M; [|auto]. destruct (is_unspecified (A4 (i4_src p))) eqn:U; [exact (Q _ _ E)|].
      right. eexists. split; [|exact E]. apply (re_udp_none _ _ _ _ _ _ _ _ _ Dg M).
      intros X. apply is_unspecified_spec in X. congruence. }
  destruct (Z.eqb_spec (i4_proto p) 6) as [T|T6]; [|exact (Q _ _ E)].
  rewrite Eps in E. destruct (tcp_parse (i4_rest p) (i4_dlen p) ps) as [[x|s]|x] eqn:Ep.
  - unfold phrx_tcp, on_parsed, rbind', rlift in E. rewrite Ep in E. exact (Q _ _ E).
  - rewrite (tcp_accepted _ _ _ _ _ s n1 Ep), Ss in E.
    assert (Tg : tcp_in n f n1 (A4 (i4_src p)) (A4 (i4_dst p)) s) by (apply (tcp_in4 n f n1 p ps); auto).
    destruct (tcp_lookup _ _ _ _ _ _) as [i|] eqn:M; apply tcp_target_iff in M; auto; right; eexists; (split; [|exact E]).
    + apply (re_tcp _ _ _ _ _ _ _ Tg M).
    + apply (re_tcp_none _ _ _ _ _ _ Tg M).
  - unfold phrx_tcp, on_parsed, rbind', rlift in E. rewrite Ep in E. injection E as <- <-.
    left. split; [reflexivity|]. right. exists x. split; [reflexivity|]. apply (rr_tcp4 n f n1 p ps); auto.
Qed.

Lemma icmp6_body_wf f plen opts d : wf_bytes f -> q6_body (icmp6_of f plen opts) = B6Unreach d -> wf_bytes d.
Proof.
  intros W. unfold icmp6_of. cbn [q6_body]. repeat match goal with |- (if ?b then _ else _) = _ -> _ => destruct b end; try discriminate.
  intros [= <-]. apply wf_slice; auto.
Qed.

Lemma dispatch6_cases n f n1 p n' r : rx6 n f n1 p -> wf_bytes f -> node_ok n -> socks_ok (n_socks n) ->
  ip6_dispatch p n1 = (n', r) -> outcome n f n1 n' r.
Proof.
  intros H W K N E. destruct (rx6_facts n f n1 p H W K) as ((St & Ss & _) & _ & _ & _ & _ & Wf & P).
  destruct (in6_facts _ _ Wf P) as (Wr & Hl & Lr & Ed & Hs & Hd & _ & ps & Eps & Hps).
  assert (Q : forall n' r, (n1, Ok tt) = (n', r) -> outcome n f n1 n' r) by (intros ? ? [= <- <-]; left; auto).
  unfold ip6_dispatch in E. change IP6_NEXT_ICMP6 with 58 in E. change IP6_NEXT_UDP with 17 in E. change IP6_NEXT_TCP with 6 in E.
  assert (Ea : my_addrs n1 = my_addrs n) by (unfold my_addrs; rewrite St; reflexivity).
  destruct (Z.eqb_spec (i6_next p) 58) as [T|T1].
  { rewrite Eps in E. unfold phrx_icmp6, on_parsed, rbind' at 1 2, rlift at 1 2 in E.
    destruct (icmp6_parse_cases _ _ _ _ (i6_src p) (i6_dst p) (i6_hop p) Wr Hl Hps) as [(x & Ep)|[(opts & Ep & _)|(_ & x & Ep & _)]]; rewrite Ep in E.
    { exact (Q _ _ E). }
    2:{ injection E as <- <-. left. split; [reflexivity|]. right. exists x. split; [reflexivity|]. apply (rr_icmp6 n f n1 p ps); auto. }
    pose proof (icmp6_body_wf (i6_rest p) (i6_dlen p) opts) as Wd.
    set (q := icmp6_of (i6_rest p) (i6_dlen p) opts) in *.
    assert (I : icmp6_in n f n1 (i6_src p) (i6_dst p) q) by (exists p, ps; auto 8).
    unfold rbind' at 1, rgets at 1 in E. rewrite Ea in E.
    destruct (q6_body q) as [d|id seq d|os|hp m o rl rt rr os|tg os|br bs bo tg os|nor|] eqn:B.
    - unfold rbind' at 1, rlift in E. destruct (quoted6_spec d (Wd d Wr eq_refl)) as [(lip & lport & rip & rport & Eq & Hq)|(Eq & _)];
        rewrite Eq in E; [|exact (Q _ _ E)].
      unfold rbind' at 1, rgets in E. rewrite Ss in E.
      destruct (first_match (socket_patterns (A6 lip) lport (A6 rip) rport) (n_socks n)) as [i|] eqn:M; [|exact (Q _ _ E)].
      right. exists (RRefused i). split; [|exact E]. apply (re_refused6 n f n1 (i6_src p) (i6_dst p) q d lip lport rip rport); auto.
      apply udp_target_iff; auto.
    - destruct (Z.eqb_spec (q6_type q) 128) as [T8|]; [|exact (Q _ _ E)].
      right. eexists. split; [apply (re_echo6 n f n1 (i6_src p) (i6_dst p) q id seq d); auto|exact E].
    - exact (Q _ _ E).
    - right. eexists. split; [apply (re_ra n f n1 (i6_src p) (i6_dst p) q hp m o rl rt rr os); auto|exact E].
    - destruct (mem tg (ip6_unicast (my_addrs n))) eqn:M; cbn [negb] in E; [|exact (Q _ _ E)]. apply unicast6_mem in M.
      right. eexists. split; [apply (re_ns n f n1 (i6_src p) (i6_dst p) q tg os I B M)|].
      rewrite <- E. cbn [effect]. unfold advertisement.
      rewrite ip6_multicast_iv by auto. unfold ip6_is_unspecified.
      replace ((0xFF00 * 2 ^ 112 <=? i6_src p) && (i6_src p <=? 2 ^ 128 - 1)) with (255 * 2 ^ 120 <=? i6_src p) by lia.
      change ip6_all_nodes with (0xFF02 * 2 ^ 112 + 1).
      destruct (i6_src p =? 0); cbn [orb negb].
      + destruct (nd_slla os); reflexivity.
      + destruct (255 * 2 ^ 120 <=? i6_src p); destruct (nd_slla os); reflexivity.
    - destruct (a_cand6 (my_addrs n)) as [c|] eqn:C.
      + destruct (Z.eqb_spec tg c) as [X|X].
        * right. eexists. split; [apply (re_na_taken n f n1 (i6_src p) (i6_dst p) q br bs bo tg os); auto; congruence|exact E].
        * destruct (nd_tlla os) as [m|] eqn:O; [|exact (Q _ _ E)].
          right. eexists. split; [apply (re_na_learn n f n1 (i6_src p) (i6_dst p) q br bs bo tg os m); auto; congruence|exact E].
      + destruct (nd_tlla os) as [m|] eqn:O; [|exact (Q _ _ E)].
        right. eexists. split; [apply (re_na_learn n f n1 (i6_src p) (i6_dst p) q br bs bo tg os m); auto; congruence|exact E].
    - exact (Q _ _ E).
    - exact (Q _ _ E). }
  destruct (Z.eqb_spec (i6_next p) 17) as [T|T17].
  { rewrite Eps in E. destruct (udp_parse_total _ _ _ _ Wr Hps Hl) as [(x & Ep & _)|(u & Ep & _)].
    { unfold phrx_udp, on_parsed, rbind', rlift in E. rewrite Ep in E. exact (Q _ _ E). }
    rewrite (udp_accepted (A6 (i6_src p)) (A6 (i6_dst p)) _ _ _ _ u n1 I Ep), Ss in E. rewrite T in Hps.
    assert (Dg : udp_in n f n1 (A6 (i6_src p)) (A6 (i6_dst p)) (u_sport u) (u_dport u) (u_data u) (slice 0 (i6_plen p) (i6_frame p))).
    { apply udp_in6; auto. rewrite Ed. apply (datagram_iff _ _ _ _ _ _ _ Wr Hps Hl Lr). eauto. }
    destruct (first_match _ _) as [i|] eqn:M.
    - apply udp_target_iff in M; [|auto]. right. eexists. split; [|exact E]. apply (re_udp _ _ _ _ _ _ _ _ _ _ Dg M).
    - apply udp_target_iff in M; [|auto]. destruct (is_unspecified (A6 (i6_src p))) eqn:U; [exact (Q _ _ E)|].
      right. eexists. split; [|exact E]. apply (re_udp_none _ _ _ _ _ _ _ _ _ Dg M).
      intros X. apply is_unspecified_spec in X. congruence. }
  destruct (Z.eqb_spec (i6_next p) 6) as [T|T6]; [|exact (Q _ _ E)].
  rewrite Eps in E. destruct (tcp_parse (i6_rest p) (i6_dlen p) ps) as [[x|s]|x] eqn:Ep.
  - unfold phrx_tcp, on_parsed, rbind', rlift in E. rewrite Ep in E. exact (Q _ _ E).
  - rewrite (tcp_accepted _ _ _ _ _ s n1 Ep), Ss in E.
    assert (Tg : tcp_in n f n1 (A6 (i6_src p)) (A6 (i6_dst p)) s) by (apply (tcp_in6 n f n1 p ps); auto).
    destruct (tcp_lookup _ _ _ _ _ _) as [i|] eqn:M; apply tcp_target_iff in M; auto; right; eexists; (split; [|exact E]).
    + apply (re_tcp _ _ _ _ _ _ _ Tg M).
    + apply (re_tcp_none _ _ _ _ _ _ Tg M).
  - unfold phrx_tcp, on_parsed, rbind', rlift in E. rewrite Ep in E. injection E as <- <-.
    left. split; [reflexivity|]. right. exists x. split; [reflexivity|]. apply (rr_tcp6 n f n1 p ps); auto.
Qed.

(** Whatever a frame does, a rule allows it. *)
Lemma react_total n f n' r : wf_bytes f -> node_ok n -> socks_ok (n_socks n) -> phrx_ether f n = (n', r) ->
  (same_but_flows n n' /\ node_ok n' /\ (r = Ok tt \/ exists e, r = Exn e /\ rx_raises n f e)) \/
  exists n1 x, reacts n f n1 x /\ effect x n1 = (n', r) /\ same_but_flows n n1 /\ node_ok n1.
Proof.
  intros W K N E. destruct (ether_cases f n n' r W K E)
    as [(-> & -> & _)|[(e & U & T & S & A)|[(e & U & T & P & -> & ->)|[(e & p & fs & o & U & T & P & Fr & Ed & -> & K' & Ho)|
        [(e & U & T & F4 & (S & K' & R) & Nx)|[(n1 & p & H & D)|(n1 & p & H & D)]]]]]].
  - left. auto using same_refl.
  - destruct (arp_cases n f e n' r W U T S A) as [(-> & ->)|(x & Hx & Ex)]; [left; auto using same_refl|].
    right. exists n, x. auto using same_refl.
  - left. split; [apply same_refl|]. split; [auto|]. right. exists IndexError. split; [auto|]. apply (rr_ip4 n f e); auto.
  - left. split; [apply same_flows4|]. split; [auto|]. destruct Ho as [(-> & ->)|(-> & ->)]; [auto|].
    right. exists StructError. split; [auto|]. apply (rr_frag4 n f e p fs); auto.
  - left. split; [auto|]. split; [auto|]. destruct R as [->| ->]; [auto|]. right. exists StructError. split; [auto|].
    apply (rr_frag6 n f e); auto.
  - destruct (rx4_facts n f n1 p H W K) as (S1 & K1 & _).
    destruct (dispatch4_cases n f n1 p n' r H W K N D) as [(-> & R)|(x & Hx & Ex)]; [left; auto|right; exists n1, x; auto].
  - destruct (rx6_facts n f n1 p H W K) as (S1 & K1 & _).
    destruct (dispatch6_cases n f n1 p n' r H W K N D) as [(-> & R)|(x & Hx & Ex)]; [left; auto|right; exists n1, x; auto].
Qed.

(** A rule that applies is what happens. *)
Lemma arp_run n f e p : arp_in n f e p -> phrx_ether f n = phrx_arp e n.
Proof.
  intros ((Ep & Um) & T & S & _). unfold phrx_ether, on_parsed, rbind', rlift, rgets. rewrite Ep.
  apply our_mac_mem in Um. rewrite Um, T, S. reflexivity.
Qed.

Lemma udp_run n f n1 src dst sport dport data whole : udp_in n f n1 src dst sport dport data whole ->
  wf_bytes f -> node_ok n ->
  same_but_flows n n1 /\
  phrx_ether f n =
  match first_match (socket_patterns dst dport src sport) (n_socks n) with
  | Some i => effect (RDeliver i {| m_lip := dst; m_lport := dport; m_rip := src; m_rport := sport; m_data := data |}) n1
  | None => if is_unspecified src then (n1, Ok tt) else effect (RSend (unreachable_for src dst whole)) n1
  end.
Proof.
  intros H W K. inversion H as [n1' p sp dp d R T Dg|n1' p sp dp d R T Dg]; subst.
  - destruct (rx4_facts _ _ _ _ R W K) as (Sf & _ & _ & _ & _ & _ & Wf & P). split; [exact Sf|].
    destruct Sf as (_ & Ss & _). destruct (in4_facts _ _ Wf P) as (Wr & Hl & Lr & Ed & _ & _ & _ & _ & ps & Eps & Hps).
    rewrite (rx4_run _ _ _ _ R W K). unfold ip4_dispatch. rewrite T, Eps. change (17 =? IP4_PROTO_ICMP4) with false. change (17 =? IP4_PROTO_UDP) with true.
    rewrite T in Hps. rewrite Ed in Dg.
    apply (datagram_iff _ _ _ _ _ _ _ Wr Hps Hl Lr) in Dg as (u & Ep & <- & <- & <-).
    cbv iota. rewrite (udp_accepted (A4 (i4_src p)) (A4 (i4_dst p)) _ _ _ _ u n1 I Ep), Ss. reflexivity.
  - destruct (rx6_facts _ _ _ _ R W K) as (Sf & _ & _ & _ & _ & Wf & P). split; [exact Sf|].
    destruct Sf as (_ & Ss & _). destruct (in6_facts _ _ Wf P) as (Wr & Hl & Lr & Ed & _ & _ & _ & ps & Eps & Hps).
    rewrite (rx6_run _ _ _ _ R W K). unfold ip6_dispatch. rewrite T, Eps. change (17 =? IP6_NEXT_ICMP6) with false. change (17 =? IP6_NEXT_UDP) with true.
    rewrite T in Hps. rewrite Ed in Dg.
    apply (datagram_iff _ _ _ _ _ _ _ Wr Hps Hl Lr) in Dg as (u & Ep & <- & <- & <-).
    cbv iota. rewrite (udp_accepted (A6 (i6_src p)) (A6 (i6_dst p)) _ _ _ _ u n1 I Ep), Ss. reflexivity.
Qed.

Lemma tcp_run n f n1 src dst s : tcp_in n f n1 src dst s -> wf_bytes f -> node_ok n ->
  same_but_flows n n1 /\
  phrx_ether f n =
  match tcp_lookup (n_socks n) dst (s_dport s) src (s_sport s) (pure_syn s) with
  | Some i => effect (RSegment i (tmd_of src dst s)) n1
  | None => effect (RSend (reset_for src dst s)) n1
  end.
Proof.
  intros H W K. inversion H as [n1' p ps q R T Eps Ep|n1' p ps q R T Eps Ep]; subst.
  - destruct (rx4_facts _ _ _ _ R W K) as (Sf & _). split; [exact Sf|]. destruct Sf as (_ & Ss & _).
    rewrite (rx4_run _ _ _ _ R W K). unfold ip4_dispatch. rewrite T, Eps.
    change (6 =? IP4_PROTO_ICMP4) with false. change (6 =? IP4_PROTO_UDP) with false. change (6 =? IP4_PROTO_TCP) with true. cbv iota.
    rewrite (tcp_accepted _ _ _ _ _ s n1 Ep), Ss. reflexivity.
  - destruct (rx6_facts _ _ _ _ R W K) as (Sf & _). split; [exact Sf|]. destruct Sf as (_ & Ss & _).
    rewrite (rx6_run _ _ _ _ R W K). unfold ip6_dispatch. rewrite T, Eps.
    change (6 =? IP6_NEXT_ICMP6) with false. change (6 =? IP6_NEXT_UDP) with false. change (6 =? IP6_NEXT_TCP) with true. cbv iota.
    rewrite (tcp_accepted _ _ _ _ _ s n1 Ep), Ss. reflexivity.
Qed.

Lemma quotes4_some d lip lport rip rport : wf_bytes d -> quotes4 d lip lport rip rport ->
  quoted4 d = Ok (Some (lip, lport, rip, rport)).
Proof.
  intros W Q. destruct (quoted4_spec d W) as [(a & b & c & e & E & H)|(_ & N)]; [|exfalso; eapply N; eauto].
  rewrite E. unfold quotes4 in Q, H. destruct Q as (_ & _ & _ & _ & -> & -> & -> & ->). destruct H as (_ & _ & _ & _ & -> & -> & -> & ->). reflexivity.
Qed.
Lemma quotes6_some d lip lport rip rport : wf_bytes d -> quotes6 d lip lport rip rport ->
  quoted6 d = Ok (Some (lip, lport, rip, rport)).
Proof.
  intros W Q. destruct (quoted6_spec d W) as [(a & b & c & e & E & H)|(_ & N)]; [|exfalso; eapply N; eauto].
  rewrite E. unfold quotes6 in Q, H. destruct Q as (_ & _ & _ & -> & -> & -> & ->). destruct H as (_ & _ & _ & -> & -> & -> & ->). reflexivity.
Qed.


Lemma icmp4_run n f n1 src dst q : icmp4_in n f n1 src dst q -> wf_bytes f -> node_ok n ->
  same_but_flows n n1 /\ (forall d, q4_body q = B4Unreach d -> wf_bytes d) /\
  exists seg plen, icmp4_parse seg plen = Ok (inr q) /\ phrx_ether f n = phrx_icmp4 src dst seg plen n1.
Proof.
  intros (p & R & T & -> & -> & Ep) W K.
  destruct (rx4_facts _ _ _ _ R W K) as (Sf & _ & _ & _ & _ & _ & Wf & P). split; [exact Sf|].
  destruct (in4_facts _ _ Wf P) as (Wr & Hl & _). split.
  - intros d B. destruct (icmp4_parse_total _ _ Wr Hl) as [(x & X & _)|(X & _)]; rewrite X in Ep; [discriminate|].
    injection Ep as <-. unfold icmp4_of in B. cbn [q4_body] in B. destruct (_ || _); [discriminate|]. destruct (_ =? 3); [|discriminate].
    injection B as <-. apply wf_slice; auto.
  - exists (i4_rest p), (i4_dlen p). split; [exact Ep|]. rewrite (rx4_run _ _ _ _ R W K). unfold ip4_dispatch. rewrite T. reflexivity.
Qed.

Lemma icmp6_run n f n1 src dst q : icmp6_in n f n1 src dst q -> wf_bytes f -> node_ok n ->
  same_but_flows n n1 /\ 0 <= src < 2 ^ 128 /\ 0 <= dst < 2 ^ 128 /\ (forall d, q6_body q = B6Unreach d -> wf_bytes d) /\
  exists hop seg plen ps, icmp6_parse seg plen ps src dst hop = Ok (inr q) /\ phrx_ether f n = phrx_icmp6 src dst hop seg plen (Ok ps) n1.
Proof.
  intros (p & ps & R & T & -> & -> & Eps & Ep) W K.
  destruct (rx6_facts _ _ _ _ R W K) as (Sf & _ & _ & _ & _ & Wf & P). split; [exact Sf|].
  destruct (in6_facts _ _ Wf P) as (Wr & Hl & _ & _ & Hs & Hd & _ & ps' & Eps' & Hps). split; [auto|]. split; [auto|].
  rewrite Eps in Eps'. injection Eps' as <-. split.
  - intros d B. destruct (icmp6_parse_cases _ _ _ _ (i6_src p) (i6_dst p) (i6_hop p) Wr Hl Hps) as [(x & X)|[(opts & X & _)|(_ & x & X & _)]];
      rewrite X in Ep; try discriminate. injection Ep as <-. exact (icmp6_body_wf _ _ _ _ Wr B).
  - exists (i6_hop p), (i6_rest p), (i6_dlen p), ps. split; [exact Ep|].
    rewrite (rx6_run _ _ _ _ R W K). unfold ip6_dispatch. rewrite T, Eps. reflexivity.
Qed.

Lemma react_run n f n1 x : reacts n f n1 x -> wf_bytes f -> node_ok n -> socks_ok (n_socks n) ->
  same_but_flows n n1 /\ phrx_ether f n = effect x n1.
Proof.
  intros H W K N. destruct H as
   [e p I O Ht Hs|e p I O D C Th Tp|e p I O D C|e p I O D B G
   |n1 src dst sport dport data whole i I T|n1 src dst sport dport data whole I T Z0
   |n1 src dst s i I T|n1 src dst s I T
   |n1 src dst q id seq data I T B|n1 src dst q id seq data I T B
   |n1 src dst q d lip lport rip rport i I B Q T|n1 src dst q d lip lport rip rport i I B Q T
   |n1 src dst q target opts I B Hh|n1 src dst q br bs bo target opts I B C|n1 src dst q br bs bo target opts m I B C O
   |n1 src dst q h m o rl rt rr opts I B].
  - split; [apply same_refl|]. rewrite (arp_run _ _ _ _ I). destruct I as (_ & _ & _ & P).
    unfold phrx_arp, on_parsed, rbind' at 1, rlift. rewrite P. unfold rbind' at 1, rgets. rewrite O. cbn [Z.eqb ARP_OP_REQUEST Pos.eqb].
    apply unicast4_mem in Ht. destruct (mem (a_spa p) _) eqn:M; [apply unicast4_mem in M; contradiction|]. rewrite Ht. reflexivity.
  - split; [apply same_refl|]. rewrite (arp_run _ _ _ _ I). destruct I as (_ & _ & _ & P).
    unfold phrx_arp, on_parsed, rbind' at 1, rlift. rewrite P. unfold rbind' at 1, rgets. rewrite O.
    apply cand4_mem in C. rewrite D, C, Th, Tp, !Z.eqb_refl. reflexivity.
  - split; [apply same_refl|]. rewrite (arp_run _ _ _ _ I). destruct I as (_ & _ & _ & P).
    unfold phrx_arp, on_parsed, rbind' at 1, rlift. rewrite P. unfold rbind' at 1, rgets. rewrite O, D, !Z.eqb_refl.
    destruct (mem (a_spa p) (map h_addr (a_cand4 (my_addrs n)))) eqn:M; [|reflexivity].
    destruct (Z.eqb_spec (a_tha p) (a_mac (my_addrs n))) as [E1|]; [|reflexivity].
    unfold ip4_is_unspecified. destruct (Z.eqb_spec (a_tpa p) 0) as [E2|]; [|reflexivity].
    apply cand4_mem in M. tauto.
  - split; [apply same_refl|]. rewrite (arp_run _ _ _ _ I). destruct I as (_ & _ & _ & P).
    unfold phrx_arp, on_parsed, rbind' at 1, rlift. rewrite P. unfold rbind' at 1, rgets. rewrite O.
    destruct (Z.eqb_spec (EtherModel.e_dst e) (a_mac (my_addrs n))) as [|]; [contradiction|].
    rewrite B, G, !Z.eqb_refl. reflexivity.
  - destruct (udp_run _ _ _ _ _ _ _ _ _ I W K) as (S & E). split; [exact S|]. rewrite E.
    apply udp_target_iff in T; [|auto]. rewrite T. reflexivity.
  - destruct (udp_run _ _ _ _ _ _ _ _ _ I W K) as (S & E). split; [exact S|]. rewrite E.
    apply udp_target_iff in T; [|auto]. rewrite T.
    destruct (is_unspecified src) eqn:U; [apply is_unspecified_spec in U; contradiction|reflexivity].
  - destruct (tcp_run _ _ _ _ _ _ I W K) as (S & E). split; [exact S|]. rewrite E.
    apply tcp_target_iff in T; [|auto]. rewrite T. reflexivity.
  - destruct (tcp_run _ _ _ _ _ _ I W K) as (S & E). split; [exact S|]. rewrite E.
    apply tcp_target_iff in T; [|auto]. rewrite T. reflexivity.
  - destruct (icmp4_run _ _ _ _ _ _ I W K) as (S & Wd & seg & plen & P & E). split; [exact S|]. rewrite E.
    unfold phrx_icmp4, on_parsed, rbind' at 1, rlift. rewrite P, B, T. reflexivity.
  - destruct (icmp6_run _ _ _ _ _ _ I W K) as (S & _ & _ & Wd & hop & seg & plen & ps & P & E). split; [exact S|]. rewrite E.
    unfold phrx_icmp6, on_parsed, rbind' at 1 2 3, rlift, rgets. rewrite P, B, T. reflexivity.
  - destruct (icmp4_run _ _ _ _ _ _ I W K) as (S & Wd & seg & plen & P & E). split; [exact S|]. rewrite E.
    unfold phrx_icmp4, on_parsed, rbind' at 1, rlift at 1. rewrite P, B. unfold rbind' at 1, rlift. rewrite (quotes4_some _ _ _ _ _ (Wd d B) Q).
    unfold rbind', rgets. destruct S as (_ & Ss & _). rewrite Ss. apply udp_target_iff in T; [|auto]. rewrite T. reflexivity.
  - destruct (icmp6_run _ _ _ _ _ _ I W K) as (S & _ & _ & Wd & hop & seg & plen & ps & P & E). split; [exact S|]. rewrite E.
    unfold phrx_icmp6, on_parsed, rbind' at 1 2 3, rlift at 1 2, rgets at 1. rewrite P, B. unfold rbind' at 1, rlift. rewrite (quotes6_some _ _ _ _ _ (Wd d B) Q).
    unfold rbind', rgets. destruct S as (_ & Ss & _). rewrite Ss. apply udp_target_iff in T; [|auto]. rewrite T. reflexivity.
  - destruct (icmp6_run _ _ _ _ _ _ I W K) as (S & Hs & Hd & Wd & hop & seg & plen & ps & P & E). split; [exact S|]. rewrite E.
    unfold phrx_icmp6, on_parsed, rbind' at 1 2 3, rlift at 1 2, rgets at 1. rewrite P, B.
    assert (Ea : my_addrs n1 = my_addrs n) by (unfold my_addrs; destruct S as (St & _); rewrite St; reflexivity). rewrite Ea.
    apply unicast6_mem in Hh. rewrite Hh. cbn [negb effect]. unfold advertisement.
    rewrite ip6_multicast_iv by auto. unfold ip6_is_unspecified.
    replace ((0xFF00 * 2 ^ 112 <=? src) && (src <=? 2 ^ 128 - 1)) with (255 * 2 ^ 120 <=? src) by lia.
    change ip6_all_nodes with (0xFF02 * 2 ^ 112 + 1).
    destruct (src =? 0); cbn [orb negb].
    + destruct (nd_slla opts); reflexivity.
    + destruct (255 * 2 ^ 120 <=? src); destruct (nd_slla opts); reflexivity.
  - destruct (icmp6_run _ _ _ _ _ _ I W K) as (S & Hs & Hd & Wd & hop & seg & plen & ps & P & E). split; [exact S|]. rewrite E.
    unfold phrx_icmp6, on_parsed, rbind' at 1 2 3, rlift at 1 2, rgets at 1. rewrite P, B.
    assert (Ea : my_addrs n1 = my_addrs n) by (unfold my_addrs; destruct S as (St & _); rewrite St; reflexivity). rewrite Ea, C, Z.eqb_refl. reflexivity.
  - destruct (icmp6_run _ _ _ _ _ _ I W K) as (S & Hs & Hd & Wd & hop & seg & plen & ps & P & E). split; [exact S|]. rewrite E.
    unfold phrx_icmp6, on_parsed, rbind' at 1 2 3, rlift at 1 2, rgets at 1. rewrite P, B.
    assert (Ea : my_addrs n1 = my_addrs n) by (unfold my_addrs; destruct S as (St & _); rewrite St; reflexivity). rewrite Ea, O.
    destruct (a_cand6 (my_addrs n)) as [c|]; [|reflexivity]. destruct (Z.eqb_spec target c); [congruence|reflexivity].
  - destruct (icmp6_run _ _ _ _ _ _ I W K) as (S & Hs & Hd & Wd & hop & seg & plen & ps & P & E). split; [exact S|]. rewrite E.
    unfold phrx_icmp6, on_parsed, rbind' at 1 2 3, rlift at 1 2, rgets at 1. rewrite P, B. reflexivity.
Qed.
