(** Properties C01-C04: the Internet checksum. *)
From Verif Require Import BaseLemmas CksumModel SpecCksum CksumProofs.

(** C01: verification reports "good" exactly when RFC 1071 says so. *)
Theorem C01_verify_exact : forall (data : bytes) (init : Z),
  wf_bytes data -> zlen data < 2 ^ 32 -> 0 <= init < 2 ^ 67 ->
  (inet_cksum data init = 0 <-> rfc1071_verifies data init).
Proof. intros d i H1 H2 H3. exact (cksum_verify d i H1 H3 H2). Qed.
Print Assumptions C01_verify_exact.

Example C01_example :
  let hdr := [69; 0; 0; 115; 0; 0; 64; 0; 64; 17; 184; 97; 192; 168; 0; 1; 192; 168; 0; 199] in
  wf_bytes hdr /\ rfc1071_verifies hdr 0 /\ ~ rfc1071_verifies (1 :: hdr) 5.
Proof.
  cbv zeta; split; [apply wf_bytesb_ok; vm_compute; reflexivity|].
  split; [vm_compute; reflexivity|]. unfold rfc1071_verifies; vm_compute; discriminate.
Qed.

(** C02: the full statement "inet_cksum data init = rfc1071 data init" is
    false: the last end-around carry is not propagated. *)
Theorem C02_generation_refuted : exists data init,
  wf_bytes data /\ 0 <= init /\ inet_cksum data init <> rfc1071 data init.
Proof.
  exists [255; 255; 255; 255; 255; 255; 0; 1], 0.
  split; [apply wf_bytesb_ok; vm_compute; reflexivity|]. split; [lia|]. vm_compute; discriminate.
Qed.
Print Assumptions C02_generation_refuted.

(** C02, what does hold.  The value is the RFC one, or one too large; the
    latter only for RFC values above 0xFFDF. *)
Theorem C02_generation_partial : forall data init,
  wf_bytes data -> zlen data < 2 ^ 32 -> 0 <= init < 2 ^ 67 ->
  inet_cksum data init = rfc1071 data init \/
  (inet_cksum data init = rfc1071 data init + 1 /\ 65503 < rfc1071 data init < 65535).
Proof. intros d i H1 H2 H3. exact (cksum_gen d i H1 H3 H2). Qed.
Print Assumptions C02_generation_partial.

(** ... and for blocks of any length but 20 only for the RFC value 0xFFFE. *)
Theorem C02_generation_not20_partial : forall data init,
  wf_bytes data -> zlen data < 2 ^ 32 -> 0 <= init < 2 ^ 67 -> zlen data <> 20 ->
  rfc1071 data init <> 65534 -> inet_cksum data init = rfc1071 data init.
Proof. intros d i H1 H2 H3. exact (cksum_gen_not20 d i H1 H3 H2). Qed.
Print Assumptions C02_generation_not20_partial.

Example C02_example :
  let d := [1; 2; 3; 4; 5; 6; 7; 8; 9; 10; 11] in
  wf_bytes d /\ zlen d <> 20 /\ rfc1071 d 70000 <> 65534 /\
  inet_cksum d 70000 = 51824.
Proof.
  cbv zeta; split; [apply wf_bytesb_ok; vm_compute; reflexivity|].
  repeat split; vm_compute; try reflexivity; discriminate.
Qed.

(** C03: a 20-byte IPv4 header gets the RFC checksum, and verifies once that
    checksum is filled into its checksum field (bytes 10 and 11). *)
Theorem C03_ip4_header : forall a b,
  wf_bytes a -> wf_bytes b -> zlen a = 10 -> zlen b = 8 ->
  let c := inet_cksum (a ++ [0; 0] ++ b) 0 in
  c = rfc1071 (a ++ [0; 0] ++ b) 0 /\
  rfc1071_verifies (a ++ be_enc 2 c ++ b) 0 /\
  inet_cksum (a ++ be_enc 2 c ++ b) 0 = 0.
Proof. exact ip4_header_cksum. Qed.
Print Assumptions C03_ip4_header.

(** C04: in a block that verifies, replacing one byte is detected. *)
Theorem C04_single_byte : forall a x y b init,
  wf_bytes (a ++ x :: b) -> is_byte y -> x <> y -> 0 <= init < 2 ^ 67 ->
  zlen (a ++ x :: b) < 2 ^ 32 ->
  inet_cksum (a ++ x :: b) init = 0 -> inet_cksum (a ++ y :: b) init <> 0.
Proof. exact single_byte_detected. Qed.
Print Assumptions C04_single_byte.

Example C04_example :
  let a := [69; 0; 0; 115; 0; 0; 64; 0; 64; 17; 184; 97; 192; 168; 0; 1; 192; 168; 0] in
  wf_bytes (a ++ 199 :: []) /\ inet_cksum (a ++ 199 :: []) 0 = 0 /\
  inet_cksum (a ++ 200 :: []) 0 = 65534.
Proof.
  cbv zeta; split; [apply wf_bytesb_ok; vm_compute; reflexivity|].
  split; vm_compute; reflexivity.
Qed.
