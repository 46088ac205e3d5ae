(** C105: equality, hashes and copies of addresses, masks, networks and hosts. *)
From Verif Require Import Base BaseLemmas AddrModel AddrProofs SpecAddr IpTextModel SpecIpText EqModel SpecEq EqProofs.

(** == holds exactly between objects of one class, version and value *)
Theorem C105_equality : forall o p, good o -> good p -> (obj_eq o p = true <-> same o p).
Proof. exact obj_eq_iff. Qed.
(** "equal objects have equal hashes" *)
Definition C105_hash_statement : Prop := forall o p, good o -> good p -> obj_eq o p = true -> obj_hash o = obj_hash p.
(** false for hosts given a network of which their address is not *)
Theorem C105_hash_refuted : ~ C105_hash_statement.
Proof.
  intros F.
  pose (w := {| n_addr := 0xC0A80000; n_mask := 0xFFFFFF00 |}). pose (w' := {| n_addr := 0x0A000000; n_mask := 0xFFFFFF00 |}).
  specialize (F (OHost false (host_pair 0x0A000001 w)) (OHost false (host_pair 0x0A000001 w'))).
  assert (good (OHost false (host_pair 0x0A000001 w))) as G.
  { split; [vm_compute; split; congruence|]. exists 24. split; [cbn; lia|]. split; [reflexivity|]. split; [vm_compute; split; congruence|reflexivity]. }
  assert (good (OHost false (host_pair 0x0A000001 w'))) as G'.
  { split; [vm_compute; split; congruence|]. exists 24. split; [cbn; lia|]. split; [reflexivity|]. split; [vm_compute; split; congruence|reflexivity]. }
  specialize (F G G' ltac:(vm_compute; reflexivity)). vm_compute in F. discriminate F.
Qed.
(** missing: such hosts *)
Theorem C105_hash_partial : forall o p, good o -> good p -> at_home o -> at_home p -> obj_eq o p = true -> obj_hash o = obj_hash p.
Proof. exact hash_home. Qed.
(** "a copy is the object it was made of, or at least equal to it" *)
Definition C105_copy_statement : Prop := forall o, good o -> obj_copy o = o.
(** false: a copied host has no gateway *)
Theorem C105_copy_refuted : ~ C105_copy_statement.
Proof.
  intros F. pose (h := {| h_addr := 0x0A000001; h_net := {| n_addr := 0x0A000000; n_mask := 0xFF000000 |}; h_gw := Some 0x0A0000FE |}).
  specialize (F (OHost false h)). assert (good (OHost false h)) as G.
  { split; [vm_compute; split; congruence|]. exists 8. split; [cbn; lia|]. split; [reflexivity|]. split; [vm_compute; split; congruence|reflexivity]. }
  specialize (F G). discriminate F.
Qed.
Theorem C105_copy_partial : forall o, good o ->
  (match o with OHost _ h => h_gw h = None | _ => True end -> obj_copy o = o) /\
  obj_eq (obj_copy o) o = true /\ obj_hash (obj_copy o) = obj_hash o /\ good (obj_copy o).
Proof.
  intros o G. assert (C : match o with OHost _ _ => True | _ => obj_copy o = o end).
  { destruct o as [a|v a|v m|v w|v h]; auto. cbn in *. rewrite (net_land v w G). destruct w; reflexivity. }
  assert (R : forall o, obj_eq o o = true). { intros x. unfold obj_eq. apply IpText5.text_eqb_spec. reflexivity. }
  destruct o as [a|v a|v m|v w|v h]; try (rewrite C; auto).
  split; [|split; [|split; [reflexivity|exact G]]].
  - intros E. cbn. destruct h; cbn in *; congruence.
  - apply (R (OHost v h)).
Qed.
(** equality says nothing about gateways *)
Theorem C105_gateway_refuted : ~ (forall v h h', good (OHost v h) -> good (OHost v h') -> obj_eq (OHost v h) (OHost v h') = true -> h_gw h = h_gw h').
Proof.
  intros F. pose (w := {| n_addr := 0x0A000000; n_mask := 0xFF000000 |}).
  assert (G : forall g, good (OHost false {| h_addr := 0x0A000001; h_net := w; h_gw := g |})).
  { intros g. split; [vm_compute; split; congruence|]. exists 8. split; [cbn; lia|]. split; [reflexivity|]. split; [vm_compute; split; congruence|reflexivity]. }
  specialize (F false _ _ (G (Some 0x0A0000FE)) (G None) ltac:(vm_compute; reflexivity)). discriminate F.
Qed.

Example C105_ex : let h := host_pair 0x0A000001 {| n_addr := 0x0A000000; n_mask := 0xFF000000 |} in
  good (OHost false h) /\ at_home (OHost false h) /\ obj_repr (OHost false h) = lit "Ip4Host('10.0.0.1/8')" /\
  obj_eq (OHost false h) (ONet false (h_net h)) = false /\ obj_hash (OHost false h) = Z.lxor 0x0A000001 0xF5000000.
Proof.
  cbv zeta. split; [|vm_compute; auto].
  split; [vm_compute; split; congruence|]. exists 8. split; [cbn; lia|]. split; [reflexivity|]. split; [vm_compute; split; congruence|reflexivity].
Qed.
Example C105_ex_mask : good (OMask true (prefix_mask 128 64)) /\ obj_hash (OMask true (prefix_mask 128 64)) = (2 ^ 128 - 2 ^ 64) mod (2 ^ 61 - 1).
Proof. split; [exists 64; split; [cbn; lia|reflexivity]|vm_compute; reflexivity]. Qed.

Print Assumptions C105_equality.
Print Assumptions C105_hash_refuted.
Print Assumptions C105_hash_partial.
Print Assumptions C105_copy_refuted.
Print Assumptions C105_copy_partial.
Print Assumptions C105_gateway_refuted.
