(** Pseudo-header sums and transport checksums. *)
From Verif Require Import BaseLemmas BitLemmas CodecModel CksumModel AddrModel AddrProofs
  SpecCksum CksumProofs SpecWire Ip4Model Ip4Proofs Ip6Model EtherProofs CodecLemmas.

(** [ps] is the pseudo-header sum the code computes for the pseudo header
    [pseudo] of an IPv4 or an IPv6 packet *)
Definition pshdr_for (pseudo : bytes) (ps : Z) : Prop :=
  (exists src dst proto len, 0 <= src < 2 ^ 32 /\ 0 <= dst < 2 ^ 32 /\ 0 <= proto < 256 /\
     0 <= len < 65536 /\ pseudo = ip4_pseudo src dst proto len /\ ip4_pshdr_sum src dst proto len = Ok ps) \/
  (exists src dst len next, 0 <= src < 2 ^ 128 /\ 0 <= dst < 2 ^ 128 /\ 0 <= next < 256 /\
     0 <= len < 65536 /\ pseudo = ip6_pseudo src dst len next /\ ip6_pshdr_sum src dst len next = Ok ps).

Lemma ip6_pshdr_ok src dst dlen next :
  0 <= src < 2 ^ 128 -> 0 <= dst < 2 ^ 128 ->
  0 <= next < 256 -> 0 <= dlen < 2 ^ 32 ->
  ip6_pshdr_sum src dst dlen next = Ok (word_sum 8 5 (ip6_pseudo src dst dlen next)).
Proof.
  intros Hs Hd H1 H2. unfold ip6_pshdr_sum, ip6_pseudo. rewrite !ip6_bytes_enc by auto.
  assert (E : pack [FB (be_enc 16 src); FB (be_enc 16 dst); FI 4 dlen; FI 1 0; FI 1 0; FI 1 0; FI 1 next]
          = Ok (be_enc 16 src ++ be_enc 16 dst ++ be_enc 4 dlen ++ [0; 0; 0] ++ [next])).
  { cbn [app]. packs. }
  rewrite E. reflexivity.
Qed.

Lemma word_sum_bound w n data : wf_bytes data ->
  0 <= word_sum w n data <= Z.of_nat n * (256 ^ Z.of_nat w - 1).
Proof.
  revert data; induction n as [|n IH]; intros data H; [cbn; lia|].
  cbn [word_sum]. specialize (IH (skipn w data) (wf_skipn _ _ H)).
  pose proof (be_bound (firstn w data) (wf_firstn _ _ H)) as B.
  assert (256 ^ zlen (firstn w data) <= 256 ^ Z.of_nat w).
  { apply Z.pow_le_mono_r; [lia|]. unfold zlen. rewrite firstn_length. lia. }
  nia.
Qed.

Lemma pseudo4_wf src dst proto len : 0 <= proto < 256 -> wf_bytes (ip4_pseudo src dst proto len).
Proof.
  intros. unfold ip4_pseudo. rewrite !wf_app. repeat match goal with |- _ /\ _ => split end;
  try apply be_enc_wf; repeat constructor; unfold is_byte; lia.
Qed.
Lemma pseudo6_wf src dst len next : 0 <= next < 256 -> wf_bytes (ip6_pseudo src dst len next).
Proof.
  intros. unfold ip6_pseudo. rewrite !wf_app. repeat match goal with |- _ /\ _ => split end;
  try apply be_enc_wf; repeat constructor; unfold is_byte; lia.
Qed.

Lemma pshdr_facts pseudo ps : pshdr_for pseudo ps ->
  wf_bytes pseudo /\ oeq ps (words16 pseudo) /\ 0 <= ps < 2 ^ 67 /\
  ((length pseudo = 2 * 6)%nat /\ ps < 2 ^ 34 \/ (length pseudo = 2 * 20)%nat).
Proof.
  intros [(src & dst & proto & len & A & B & C & D & -> & E)|(src & dst & len & next & A & B & C & D & -> & E)].
  - rewrite ip4_pshdr_ok in E by auto. assert (ps = word_sum 4 3 (ip4_pseudo src dst proto len)) as -> by congruence. clear E.
    pose proof (pseudo4_wf src dst proto len C) as W.
    assert (L : length (ip4_pseudo src dst proto len) = 12%nat).
    { pose proof (be_enc_length 4 src). reflexivity. }
    pose proof (word_sum_bound 4 3 _ W) as Bd. change (Z.of_nat 3 * (256 ^ Z.of_nat 4 - 1)) with 12884901885 in Bd.
    split; [exact W|]. split.
    + pose proof (word_sum_words16 4 2 3 _ eq_refl (Nat.eq_le_incl _ _ (eq_sym L)) W) as O.
      change (3 * 4)%nat with 12%nat in O. rewrite <- L in O. rewrite firstn_all in O. exact O.
    + clear - Bd L. split; [lia|]. left. split; [rewrite L; reflexivity|lia].
  - rewrite ip6_pshdr_ok in E by lia. assert (ps = word_sum 8 5 (ip6_pseudo src dst len next)) as -> by congruence. clear E.
    pose proof (pseudo6_wf src dst len next C) as W.
    assert (L : length (ip6_pseudo src dst len next) = 40%nat) by reflexivity.
    pose proof (word_sum_bound 8 5 _ W) as Bd. change (Z.of_nat 5 * (256 ^ Z.of_nat 8 - 1)) with 92233720368547758075 in Bd.
    split; [exact W|]. split.
    + pose proof (word_sum_words16 8 4 5 _ eq_refl (Nat.eq_le_incl _ _ (eq_sym L)) W) as O.
      change (5 * 8)%nat with 40%nat in O. rewrite <- L in O. rewrite firstn_all in O. exact O.
    + clear - Bd L. split; [lia|]. right. rewrite L. reflexivity.
Qed.

(** adding the sum of the pseudo header = prepending the pseudo header *)
Lemma pshdr_words pseudo ps seg : pshdr_for pseudo ps -> wf_bytes seg ->
  ones_sum (words16 seg + ps) = ones_sum (words16 (pseudo ++ seg) + 0).
Proof.
  intros H W. destruct (pshdr_facts _ _ H) as (Wp & O & _ & L).
  assert (E : words16 (pseudo ++ seg) = words16 pseudo + words16 seg).
  { destruct L as [[L _]|L]; [apply (words16_app _ _ 6 L)|apply (words16_app _ _ 20 L)]. }
  rewrite E. apply oeq_ones. rewrite Z.add_0_r, (Z.add_comm (words16 pseudo)).
  apply oeq_add; auto. apply oeq_refl. apply words16_nonneg; auto.
Qed.

Lemma pshdr_rfc pseudo ps seg : pshdr_for pseudo ps -> wf_bytes seg ->
  rfc1071 seg ps = rfc1071 (pseudo ++ seg) 0.
Proof. intros. unfold rfc1071. rewrite (pshdr_words pseudo) by auto. reflexivity. Qed.

Lemma pshdr_verifies pseudo ps seg : pshdr_for pseudo ps -> wf_bytes seg ->
  (rfc1071_verifies seg ps <-> rfc1071_verifies (pseudo ++ seg) 0).
Proof. intros. unfold rfc1071_verifies. rewrite (pshdr_words pseudo) by auto. reflexivity. Qed.

Lemma pshdr_cksum_check pseudo ps seg : pshdr_for pseudo ps -> wf_bytes seg -> zlen seg < 2 ^ 32 ->
  (inet_cksum seg ps = 0 <-> rfc1071_verifies (pseudo ++ seg) 0).
Proof.
  intros H W L. destruct (pshdr_facts _ _ H) as (_ & _ & B & _).
  rewrite cksum_verify by auto. apply pshdr_verifies; auto.
Qed.

(** the checksums the code computes right: all but 0xFFFE, and for a segment of
    20 bytes over IPv6 all up to 0xFFDF *)
Definition cksum_lucky (pseudo seg0 : bytes) : Prop :=
  (zlen seg0 <> 20 /\ rfc1071 (pseudo ++ seg0) 0 <> 0xFFFE) \/
  (zlen seg0 = 20 /\ (zlen pseudo = 12 \/ rfc1071 (pseudo ++ seg0) 0 <= 0xFFDF)).

Lemma lucky_cksum pseudo ps seg0 : pshdr_for pseudo ps -> wf_bytes seg0 -> zlen seg0 < 2 ^ 32 ->
  cksum_lucky pseudo seg0 -> inet_cksum seg0 ps = rfc1071 (pseudo ++ seg0) 0.
Proof.
  intros H W L K. destruct (pshdr_facts _ _ H) as (_ & _ & B & Lp).
  rewrite <- (pshdr_rfc pseudo ps) by auto. unfold cksum_lucky in K.
  rewrite <- (pshdr_rfc pseudo ps) in K by auto.
  destruct K as [[K1 K2]|[K1 K2]].
  - apply cksum_gen_not20; auto.
  - destruct Lp as [[Lp Lb]|Lp].
    + apply cksum_gen_20; auto; lia.
    + destruct K2 as [K2|K2]; [unfold zlen in K2; lia|].
      destruct (cksum_gen seg0 ps W B L) as [E|[_ E]]; auto. lia.
Qed.

(** filling a zeroed checksum field at an even position makes the segment verify *)
Lemma fill_verifies pseudo ps a b k : pshdr_for pseudo ps -> wf_bytes a -> wf_bytes b ->
  length a = (2 * k)%nat ->
  rfc1071_verifies (pseudo ++ a ++ be_enc 2 (rfc1071 (pseudo ++ a ++ [0; 0] ++ b) 0) ++ b) 0.
Proof.
  intros H Wa Wb L. destruct (pshdr_facts _ _ H) as (Wp & _ & _ & Lp).
  rewrite (app_assoc pseudo a ([0; 0] ++ b)), (app_assoc pseudo a (be_enc _ _ ++ b)).
  assert (exists j, length (pseudo ++ a) = (2 * j)%nat) as [j Lj].
  { rewrite app_length. destruct Lp as [[Lp _]|Lp]; [exists (6 + k)%nat|exists (20 + k)%nat]; lia. }
  apply (rfc_fill (pseudo ++ a) b 0 j); auto; [|lia]. rewrite wf_app; auto.
Qed.
