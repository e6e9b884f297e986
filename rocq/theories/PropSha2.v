(** Properties C04, C05. Specification: Sha2Spec.v (FIPS 180-4). [old] is whatever the context's block
    buffer contained when init was called. *)
From Verif Require Import Bytes Words Sha2Spec Sha2Model Sha2Proof.

Theorem C04_sha256_streaming : forall old ms, length old = 64%nat ->
  Z.of_nat (length (concat ms)) < 2 ^ 61 ->
  sha2_final cfg256 8 (sha2_updates cfg256 (sha2_init sha256_iv old) ms) = SHA256 (concat ms).
Proof. exact sha256_streaming. Qed.
Print Assumptions C04_sha256_streaming.

(** SHA-256("abc") cut as "ab", "", "c". *)
Example C04_case :
  sha2_final cfg256 8 (sha2_updates cfg256 (sha2_init sha256_iv (repeat 170 64)) [[97; 98]; []; [99]]) =
  [0xba;0x78;0x16;0xbf;0x8f;0x01;0xcf;0xea;0x41;0x41;0x40;0xde;0x5d;0xae;0x22;0x23;
   0xb0;0x03;0x61;0xa3;0x96;0x17;0x7a;0x9c;0xb4;0x10;0xff;0x61;0xf2;0x00;0x15;0xad].
Proof. vm_compute. reflexivity. Qed.

Theorem C05_sha512_streaming : forall old ms, length old = 128%nat ->
  Z.of_nat (length (concat ms)) < 2 ^ 61 ->
  sha2_final cfg512 8 (sha2_updates cfg512 (sha2_init sha512_iv old) ms) = SHA512 (concat ms).
Proof. exact sha512_streaming. Qed.
Print Assumptions C05_sha512_streaming.

Theorem C05_sha384_streaming : forall old ms, length old = 128%nat ->
  Z.of_nat (length (concat ms)) < 2 ^ 61 ->
  sha2_final cfg512 6 (sha2_updates cfg512 (sha2_init sha384_iv old) ms) = SHA384 (concat ms).
Proof. exact sha384_streaming. Qed.
Print Assumptions C05_sha384_streaming.

(** The library's own known answer: SHA-512(7F AD 12) [sha512.c: 62-71], first 8 bytes. *)
Example C05_case :
  firstn 8 (sha2_final cfg512 8 (sha2_updates cfg512 (sha2_init sha512_iv (repeat 85 128)) [[0x7f]; [0xad; 0x12]])) =
  [0x53; 0x35; 0x98; 0xe5; 0x29; 0x49; 0x18; 0xa0].
Proof. vm_compute. reflexivity. Qed.
(** A message whose padding needs a second block. *)
Example C05_case2 : length (concat [repeat 1 120]) = 120%nat /\
  sha2_final cfg512 6 (sha2_updates cfg512 (sha2_init sha384_iv (zeros 128)) [repeat 1 120]) =
  SHA384 (repeat 1 120).
Proof. split; [reflexivity|vm_compute; reflexivity]. Qed.
