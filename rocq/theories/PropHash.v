(** Properties C01, C02, C03, C08. Specification: KeccakSpec.v, SpongeSpec.v, Fips202.v. *)
From Verif Require Import Bytes Words KeccakModel KeccakSpec SpongeSpec Sha3Model Fips202 KeccakBytes
  KeccakProof Sha3Top.


(** ** C03: the permutation code is Keccak-f[1600]. *)
Theorem C03_keccak_permutation : forall b, length b = 200%nat -> bytes b ->
  permB b = keccak_f_bytes b.
Proof. intros b Hl Hb. exact (permB_spec b (conj Hl Hb)). Qed.
Print Assumptions C03_keccak_permutation.

(** Non-trivial instance: the permutation of the zero state, first lane F1258F7940E1DDE7. *)
Example C03_case : firstn 8 (permB (zeros 200)) = [231; 221; 225; 64; 121; 143; 37; 241].
Proof. vm_compute. reflexivity. Qed.

(** ** C01: streaming = FIPS 202, for the fixed length functions and the XOFs. *)
Theorem C01_sha3_streaming : forall a d,
  In (a, d) [(alg_sha3_224, 28%nat); (alg_sha3_256, 32%nat); (alg_sha3_384, 48%nat); (alg_sha3_512, 64%nat)] ->
  forall ms, Forall bytes ms -> Z.of_nat (length (concat ms)) < 2 ^ 64 ->
  fst (keccak_squeeze permB (keccak_updates permB (keccak_init a) ms)) = SHA3 d (concat ms).
Proof.
  intros a d H ms Hb Hl. rewrite (sha3_family_final a ms) by
    (auto; unfold algs; cbn in H |- *; intuition congruence).
  cbn in H. repeat (destruct H as [H|H]; [injection H as <- <-; reflexivity|]). destruct H.
Qed.
Print Assumptions C01_sha3_streaming.

Theorem C01_xof_streaming : forall ms n, Forall bytes ms -> Z.of_nat (length (concat ms)) < 2 ^ 64 ->
  fst (xof_read permB (keccak_updates permB (keccak_init alg_shake128) ms) n) = SHAKE128 (concat ms) n /\
  fst (xof_read permB (keccak_updates permB (keccak_init alg_shake256) ms) n) = SHAKE256 (concat ms) n /\
  fst (xof_read permB (keccak_updates permB (keccak_init alg_cshake128) ms) n) = keccak_c 32 4 (concat ms) 0 n /\
  fst (xof_read permB (keccak_updates permB (keccak_init alg_cshake256) ms) n) = keccak_c 64 4 (concat ms) 0 n.
Proof. exact xof_streaming. Qed.
Print Assumptions C01_xof_streaming.

(** SHA3-256("abc") cut as "a", "", "bc". *)
Example C01_case :
  fst (keccak_squeeze permB (keccak_updates permB (keccak_init alg_sha3_256) [[97]; []; [98; 99]])) =
  [0x3a;0x98;0x5d;0xa7;0x4f;0xe2;0x25;0xb2;0x04;0x5c;0x17;0x2d;0x6b;0xd3;0x90;0xbd;
   0x85;0x5f;0x08;0x6e;0x3e;0x9d;0x52;0x5b;0x46;0xbf;0xe2;0x45;0x11;0x43;0x15;0x32].
Proof. vm_compute. reflexivity. Qed.
Example C01_case_hyp : Forall bytes [[97]; []; [98; 99]] /\
  Z.of_nat (length (concat [[97]; []; [98; 99]])) < 2 ^ 64.
Proof. split; [repeat constructor; unfold byte; lia|vm_compute; reflexivity]. Qed.

(** ** C02: one output stream. [keccak_c cap suf m p n] is the n bytes of the stream from position p. *)
Theorem C02_xof_one_stream : forall a cap, In (a, cap)
    [(alg_shake128, 32%nat); (alg_shake256, 64%nat); (alg_cshake128, 32%nat); (alg_cshake256, 64%nat)] ->
  forall ms ns, Forall bytes ms -> Z.of_nat (length (concat ms)) < 2 ^ 64 ->
  let outs := fst (xof_reads permB (keccak_updates permB (keccak_init a) ms) ns) in
  concat outs = keccak_c cap (a_padding a) (concat ms) 0 (list_sum ns) /\
  map (@length Z) outs = ns.
Proof.
  intros a cap H ms ns Hb Hl.
  destruct (sha3_family_reads a ms ns) as [E1 E2]; auto.
  { unfold algs; cbn in H |- *; intuition congruence. }
  split; auto. cbn zeta. rewrite E1.
  cbn in H. repeat (destruct H as [H|H]; [injection H as <- <-; reflexivity|]). destruct H.
Qed.
Print Assumptions C02_xof_one_stream.

Example C02_case : fst (xof_reads permB (keccak_updates permB (keccak_init alg_shake128) [[]]) [2; 0; 3]%nat)
  = [[0x7f; 0x9c]; []; [0x2b; 0xa4; 0xe8]].
Proof. vm_compute. reflexivity. Qed.

(** ** C08 is false: data absorbed after a partial read is XORed into the old output stream. *)
Theorem C08_absorb_after_read_is_xor : forall a m p x k, In a algs -> bytes m ->
  Z.of_nat (length m + length x) < 2 ^ 64 ->
  (0 < p mod a_r a)%nat -> (length m mod a_r a + length x < a_r a)%nat -> (k <= a_r a - p mod a_r a)%nat ->
  let c := snd (xof_read permB (keccak_absorb permB (keccak_init a) m) p) in
  fst (xof_read permB (keccak_absorb permB c x) k) =
  xorl (sponge keccak_f_bytes 200 (a_r a) (a_padding a) m p k)
    (slice (xor_at (xor_at (xor_at (zeros 200) (length m mod a_r a) x)
                      (length m mod a_r a + length x) [a_padding a]) (a_r a - 1) [128])
       (p mod a_r a) k).
Proof. exact sha3_after_squeeze. Qed.
Print Assumptions C08_absorb_after_read_is_xor.

(** Witness: SHAKE256, nothing absorbed, one byte read, 100 new bytes x absorbed: the next 99 bytes
    are the old stream XOR x[1..99]. *)
Theorem C08_refuted : exists m p k, forall x, length x = 100%nat -> bytes x ->
  let c := snd (xof_read permB (keccak_absorb permB (keccak_init alg_shake256) m) p) in
  fst (xof_read permB (keccak_absorb permB c x) k) =
  xorl (keccak_c 64 31 m p k) (slice x 1 k) /\ k = 99%nat.
Proof. exact c08_witness. Qed.
Print Assumptions C08_refuted.
