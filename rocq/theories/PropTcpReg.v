(** C106: what bind(), connect() and listen() of TCP sockets answer and register. *)
From Verif Require Import Base BaseLemmas AddrModel TcpModel StackModel StackRxModel UdpApiModel SpecUdpApi SessModel TcpApiModel SpecTcpApi TcpApiProofs TcpApiProofs2 SpecTcpReg TcpRegProofs.

(** the answer, and what changed, in every case; nothing when there was an error *)
Theorem C106_bind : forall ops w0 w c i text port, history ops w0 w -> (i < tw_nsock w)%nat ->
  bind_outcome i text port w (fst (top_do (TBind c i text port) w)) (snd (top_do (TBind c i text port) w)).
Proof. intros ops w0 w c i text port H L. apply bind_outcomes; [apply (history_inv ops w0 w H)|exact L]. Qed.
Theorem C106_connect : forall w c i text rport iss, (i < tw_nsock w)%nat ->
  connect_outcome i text rport w (fst (top_do (TConnect c i text rport iss) w)) (snd (top_do (TConnect c i text rport iss) w)).
Proof. intros w c i text rport iss L. apply connect_outcomes. exact L. Qed.
Theorem C106_listen : forall w i iss, (i < tw_nsock w)%nat -> let w' := fst (top_do (TListen i iss) w) in
  snd (top_do (TListen i iss) w) = TNone /\ rebound i (local_ends (tw_sock w i)) (remote_ends (tw_sock w i)) w w' /\ opened i LISTEN w w'.
Proof. intros w i iss L. apply listen_outcome. exact L. Qed.

(** in full: no other socket loses its place in the table *)
Definition C106_others_statement : Prop := forall ops w0 w i o, history ops w0 w -> (i < tw_nsock w)%nat -> reg_call i o ->
  others_kept i w (fst (top_do o w)).
(** false of all three *)
Definition ex_addrs : addrs :=
  {| a_mac := 2; a_mac_mcast := []; a_host4 := [{| h_addr := 0x0A000001; h_net := {| n_addr := 0x0A000000; n_mask := 0xFF000000 |}; h_gw := None |}];
     a_mcast4 := []; a_host6 := []; a_mcast6 := []; a_cand4 := []; a_cand6 := None; a_sup4 := true; a_sup6 := true |}.
Definition ex_world : tworld :=
  {| tw_table := []; tw_addrs := ex_addrs; tw_sock := fun _ => new_tcp Fam4; tw_nsock := 0;
     tw_sess := fun _ => new_session (A4 0) 0 (A4 0) 0 0 true []; tw_owner := fun _ => 0%nat; tw_nsess := 0; tw_close := fun _ => None |}.
Lemma ex_fresh : fresh_tcp ex_world.
Proof. repeat split. intros k i []. Qed.
Definition ex_syn : tmd :=
  {| d_lip := A4 0x0A000001; d_lport := 80; d_rip := A4 0x0A000002; d_rport := 1000; d_syn := true; d_ack := false; d_fin := false; d_rst := false;
     d_seq := 500; d_ackn := 0; d_win := 1000; d_wscale := None; d_mss := 1460; d_data := [] |}.
(** the listening socket 0 connects to where socket 1, its connection, came from *)
Definition ex_took : list top := [TSocket Fam4; TBind 0 0 (Some 0x0A000001) 80; TListen 0 100; TSegment ex_syn 200].
(** sockets that were not bound share the endpoints 0.0.0.0, port 0 *)
Definition ex_unbound : list top := [TSocket Fam4; TSocket Fam4; TListen 0 100].
Theorem C106_others_refuted : ~ C106_others_statement /\
  (let w := top_run ex_took ex_world in let o := TConnect 0 0 (Some 0x0A000002) 1000 300 in
   snd (top_do o w) = TNone /\ sock_get (segment_key ex_syn) (tw_table w) = Some 1%nat /\ sock_get (segment_key ex_syn) (tw_table (fst (top_do o w))) = Some 0%nat) /\
  (let w := top_run ex_unbound ex_world in let k := tcp_key (tw_sock w 0) in
   sock_get k (tw_table w) = Some 0%nat /\
   sock_get k (tw_table (fst (top_do (TBind 0 1 (Some 0x0A000001) 80) w))) = None /\
   sock_get k (tw_table (fst (top_do (TListen 1 300) w))) = Some 1%nat).
Proof.
  split; [|vm_compute; auto 10].
  intros F. specialize (F ex_unbound ex_world _ 1%nat (TListen 1 300) (conj ex_fresh eq_refl)).
  assert (L : (1 < tw_nsock (top_run ex_unbound ex_world))%nat) by (vm_compute; auto).
  specialize (F L (or_intror (or_intror (ex_intro _ 300 eq_refl))) (tcp_key (new_tcp Fam4)) 0%nat ltac:(discriminate) ltac:(vm_compute; reflexivity)).
  vm_compute in F. discriminate F.
Qed.
(** missing: a socket whose endpoints, old or new, another one is registered under.  A socket
    that gets its port from bind() or connect() is not one for its new endpoints *)
Theorem C106_others_partial : forall ops w0 w i o, history ops w0 w -> (i < tw_nsock w)%nat -> reg_call i o ->
  own_key w i (tcp_key (tw_sock w i)) ->
  ((exists c text port iss, o = TConnect c i text port iss) -> is_bound (tw_sock w i) -> own_key w i (tcp_key (tw_sock (fst (top_do o w)) i))) ->
  others_kept i w (fst (top_do o w)).
Proof.
  intros ops w0 w i o H L C O N. destruct C as [(c & text & port & ->)|[(c & text & port & iss & ->)|(iss & ->)]].
  - apply bind_others; [apply (history_inv ops w0 w H)|exact L|exact O].
  - apply connect_others; [exact L|exact O|]. apply N. eexists _, _, _, _. reflexivity.
  - apply listen_others; [exact L|exact O].
Qed.

Example C106_ex_bind : let w := top_run [TSocket Fam4; TBind 0 0 (Some 0x0A000001) 80; TSocket Fam4] ex_world in
  ~ is_bound (tw_sock w 1) /\ may_bind w Fam4 0x0A000001 /\ taken w (A4 0) 80 /\
  snd (top_do (TBind 0 1 (Some 0) 80) w) = TErr (OsError 98) /\ snd (top_do (TBind 0 1 (Some 0x0A000009) 81) w) = TErr (OsError 99) /\
  snd (top_do (TBind 0 1 None 81) w) = TErr GaiError /\ snd (top_do (TBind 0 1 (Some 0) 65536) w) = TErr OverflowErr /\
  snd (top_do (TBind 0 0 (Some 0) 81) w) = TErr (OsError 22) /\ snd (top_do (TBind 0 1 (Some 0) 81) w) = TNone /\
  own_key w 1 (tcp_key (tw_sock w 1)).
Proof.
  cbv zeta. split; [vm_compute; intros [H _]; apply H; reflexivity|]. split; [right; left; reflexivity|]. split.
  { eexists _, 0%nat. split; [left; reflexivity|]. split; [reflexivity|]. split; [reflexivity|]. split; [reflexivity|]. right. right. left. reflexivity. }
  do 6 (split; [vm_compute; reflexivity|]). intros x G. vm_compute in G. discriminate G.
Qed.
Example C106_ex_connect : let w := top_run [TSocket Fam4; TBind 0 0 (Some 0) 8000] ex_world in
  snd (top_do (TConnect 0 0 (Some 0x0A000002) 80 100) w) = TNone /\
  ends_at (tw_sock (fst (top_do (TConnect 0 0 (Some 0x0A000002) 80 100) w)) 0) = (A4 0x0A000001, 8000, A4 0x0A000002, 80) /\
  snd (top_do (TConnect 0 0 (Some 0) 80 100) w) = TErr ConnRefused /\ snd (top_do (TConnect 0 0 (Some 0x0A000002) (-1) 100) w) = TErr OverflowErr.
Proof. vm_compute. auto. Qed.

Print Assumptions C106_bind.
Print Assumptions C106_connect.
Print Assumptions C106_listen.
Print Assumptions C106_others_refuted.
Print Assumptions C106_others_partial.
