(** Properties C09 - C13. Specification: KmacSpec.v (SP 800-185) over Fips202.v. *)
From Verif Require Import Bytes Words Sha3Model KeccakBytes Fips202 KmacSpec KmacModel KmacProof.

(** ** C09: the encodings. *)
Theorem C09_encodings : forall x, 0 <= x < 2 ^ 64 ->
  lc_left_encode x = left_encode x /\ k_right_encode x = right_encode x.
Proof. intros x Hx. exact (conj (left_encode_ok x Hx) (right_encode_ok x Hx)). Qed.
Print Assumptions C09_encodings.

Theorem C09_prefix_free : forall x y a b, 0 <= x < 2 ^ 64 -> 0 <= y < 2 ^ 64 ->
  lc_left_encode x ++ a = lc_left_encode y ++ b -> x = y /\ a = b.
Proof. intros x y a b Hx Hy. rewrite !left_encode_ok by auto. exact (left_encode_inj x y a b Hx Hy). Qed.
Print Assumptions C09_prefix_free.

Theorem C09_suffix_free : forall x y a b, 0 <= x < 2 ^ 64 -> 0 <= y < 2 ^ 64 ->
  a ++ k_right_encode x = b ++ k_right_encode y -> x = y /\ a = b.
Proof. intros x y a b Hx Hy. rewrite !right_encode_ok by auto. exact (right_encode_inj x y a b Hx Hy). Qed.
Print Assumptions C09_suffix_free.

(** What lc_cshake_init absorbs determines N and S. *)
Theorem C09_bytepad_unambiguous : forall N S N' S' w,
  8 * Z.of_nat (length N) < 2 ^ 64 -> 8 * Z.of_nat (length S) < 2 ^ 64 ->
  8 * Z.of_nat (length N') < 2 ^ 64 -> 8 * Z.of_nat (length S') < 2 ^ 64 ->
  bytepad (encode_string N ++ encode_string S) w = bytepad (encode_string N' ++ encode_string S') w ->
  N = N' /\ S = S'.
Proof. exact bytepad_inj. Qed.
Print Assumptions C09_bytepad_unambiguous.
Example C09_case : lc_left_encode 0 = [1; 0] /\ lc_left_encode 255 = [1; 255] /\ lc_left_encode 256 = [2; 1; 0] /\
  k_right_encode (2 ^ 64 - 1) = [255; 255; 255; 255; 255; 255; 255; 255; 8].
Proof. repeat split. Qed.

(** ** C10: cSHAKE. Any split of X, any sequence of output reads, any earlier content of the context (only
    its algorithm pointer must be one of the two cSHAKE algorithms). *)
Theorem C10_cshake : forall h N S xs ns, In (hc_alg h) [alg_cshake128; alg_cshake256] ->
  bytes N -> bytes S -> Forall bytes xs ->
  Z.of_nat (length N) < 2 ^ 61 -> Z.of_nat (length S) < 2 ^ 61 ->
  Z.of_nat (length (bytepad (encode_string N ++ encode_string S) (a_r (hc_alg h)) ++ concat xs)) < 2 ^ 64 ->
  let outs := fst (hh_reads (hh_updates (cshake_init permB h N S) xs) ns) in
  concat outs = cSHAKE (200 - a_r (hc_alg h)) (concat xs) 0 (list_sum ns) N S /\ map (@length Z) outs = ns.
Proof. exact cshake_ok. Qed.
Print Assumptions C10_cshake.

Definition email : list Z := [69; 109; 97; 105; 108; 32; 83; 105; 103; 110; 97; 116; 117; 114; 101].
(** SP 800-185 sample #1: cSHAKE128(00010203, 256, "", "Email Signature"), read as 5 + 0 + 27 bytes. *)
Example C10_case :
  concat (fst (hh_reads (hh_updates (cshake_init permB (mkH alg_cshake128 (keccak_init alg_cshake128)) [] email)
     [[0; 1]; [2; 3]]) [5; 0; 27]%nat)) =
  [0xC1;0xC3;0x69;0x25;0xB6;0x40;0x9A;0x04;0xF1;0xB5;0x04;0xFC;0xBC;0xA9;0xD8;0x2B;
   0x40;0x17;0x27;0x7C;0xB5;0xED;0x2B;0x20;0x65;0xFC;0x1D;0x38;0x14;0xD5;0xAA;0xF5].
Proof. vm_compute. reflexivity. Qed.

(** ** C11: re-initialisation forgets the past, is false: after an lc_cshake_init without N and S the context
    is permanently a SHAKE context, and a later lc_cshake_init with N or S computes something that is not
    cSHAKE(N, S). *)
Theorem C11_refuted : exists h0 N S, In (hc_alg h0) [alg_cshake128; alg_cshake256] /\
  fst (hh_xof permB (cshake_init permB (cshake_init permB h0 [] []) N S) 32) <>
  fst (hh_xof permB (cshake_init permB h0 N S) 32).
Proof.
  exists (mkH alg_cshake256 (keccak_init alg_cshake256)), [], email. split; [cbn; auto|].
  vm_compute. discriminate.
Qed.
Print Assumptions C11_refuted.

(** It does hold as long as the algorithm pointer was not replaced. Missing: contexts that were initialised
    with empty N and S before. *)
Theorem C11_cshake_reinit_partial : forall h h' N S, hc_alg h = hc_alg h' ->
  cshake_init permB h N S = cshake_init permB h' N S.
Proof.
  intros h h' N S H. unfold cshake_init, hh_init, hh_blocksize. rewrite H. reflexivity.
Qed.
Print Assumptions C11_cshake_reinit_partial.
Example C11_case_hyp : hc_alg (hh_updates (cshake_init permB (mkH alg_cshake256 (keccak_init alg_cshake256)) [1] []) [[7]]) =
  hc_alg (mkH alg_cshake256 (keccak_init alg_cshake256)).
Proof. reflexivity. Qed.

(** ** C12: KMAC and KMACXOF. *)
Theorem C12_kmac : forall c K S xs n, In (hc_alg (km_h c)) [alg_cshake128; alg_cshake256] ->
  bytes K -> bytes S -> Forall bytes xs ->
  Z.of_nat (length K) < 2 ^ 61 -> Z.of_nat (length S) < 2 ^ 61 -> (4 <= n)%nat -> Z.of_nat n < 2 ^ 61 ->
  Z.of_nat (length (kmac_prefix (hc_alg (km_h c)) K S ++ concat xs)) + 9 < 2 ^ 64 ->
  fst (kmac_final permB (kmac_updates permB (kmac_init permB c K S) xs) n) =
  KMAC (200 - a_r (hc_alg (km_h c))) K (concat xs) n S.
Proof. exact kmac_ok. Qed.
Print Assumptions C12_kmac.

Theorem C12_kmacxof : forall c K S xs ns, In (hc_alg (km_h c)) [alg_cshake128; alg_cshake256] ->
  bytes K -> bytes S -> Forall bytes xs ->
  Z.of_nat (length K) < 2 ^ 61 -> Z.of_nat (length S) < 2 ^ 61 ->
  Z.of_nat (length (kmac_prefix (hc_alg (km_h c)) K S ++ concat xs)) + 9 < 2 ^ 64 ->
  let outs := fst (kmac_xof_reads permB (kmac_updates permB (kmac_init permB c K S) xs) ns) in
  concat outs = KMACXOF (200 - a_r (hc_alg (km_h c))) K (concat xs) 0 (list_sum ns) S /\
  map (@length Z) outs = ns.
Proof. exact kmacxof_ok. Qed.
Print Assumptions C12_kmacxof.

(** The public final functions do nothing at all for fewer than 4 bytes. *)
Theorem C12_short_mac_writes_nothing : forall c n, (n < 4)%nat ->
  kmac_final permB c n = ([], c) /\ kmac_final_xof permB c n = ([], c).
Proof.
  intros c n Hn. unfold kmac_final, kmac_final_xof.
  rewrite (proj2 (Nat.leb_gt 4 n)) by lia. auto.
Qed.
Print Assumptions C12_short_mac_writes_nothing.

Definition ctx128 (shadow : option kctx) : kmctx := mkKM (mkH alg_cshake128 (keccak_init alg_cshake128)) shadow true.
(** SP 800-185 KMAC sample #1. *)
Example C12_case :
  fst (kmac_final permB (kmac_updates permB (kmac_init permB (ctx128 None) (map Z.of_nat (seq 64 32)) [])
      [[0]; [1; 2; 3]]) 32) =
  [0xE5;0x78;0x0B;0x0D;0x3E;0xA6;0xF7;0xD3;0xA4;0x29;0xC5;0x70;0x6A;0xA4;0x3A;0x00;
   0xFA;0xDB;0xD7;0xD4;0x96;0x28;0x83;0x9E;0x31;0x87;0x24;0x3F;0x45;0x6E;0xE1;0x4E].
Proof. vm_compute. reflexivity. Qed.

(** ** C13: reinit after any sequence of operations restores the state lc_kmac_init left (context allocated
    with the reinit flag). *)
Theorem C13_kmac_reinit : forall c K S ops sh, km_shadow c = Some sh ->
  kmac_reinit (fold_left kstep ops (kmac_init permB c K S)) = kmac_init permB c K S.
Proof. exact kmac_reinit_ok. Qed.
Print Assumptions C13_kmac_reinit.
Example C13_case :
  let c := kmac_init permB (ctx128 (Some (keccak_init alg_cshake128))) [1; 2] [3] in
  fold_left kstep [KUpd [4]; KXof 5; KFin 8; KXofInt 1] c <> c.
Proof. vm_compute. discriminate. Qed.
