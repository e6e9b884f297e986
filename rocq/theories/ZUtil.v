(** Arithmetic facts about bit operations used by several files. *)
From Verif Require Import Bytes.

Lemma testbit_above : forall y n k, 0 <= y < 2 ^ n -> n <= k -> Z.testbit y k = false.
Proof.
  intros y n k Hy Hk. destruct (Z.lt_ge_cases n 0).
  - rewrite Z.pow_neg_r in Hy by lia. lia.
  - rewrite <- (Z.mod_small y (2 ^ n)) by lia. apply Z.mod_pow2_bits_high. lia.
Qed.

Lemma land_mul_pow2 : forall x y n, 0 <= n -> 0 <= y < 2 ^ n -> Z.land (x * 2 ^ n) y = 0.
Proof.
  intros x y n Hn Hy. apply Z.bits_inj_0. intros k. rewrite Z.land_spec. destruct (Z.ltb_spec k n).
  - rewrite Z.mul_pow2_bits_low by lia. reflexivity.
  - rewrite (testbit_above y n k) by lia. apply andb_false_r.
Qed.

Lemma lor_mul_pow2 : forall x y n, 0 <= n -> 0 <= y < 2 ^ n -> Z.lor (x * 2 ^ n) y = x * 2 ^ n + y.
Proof.
  intros x y n Hn Hy. pose proof (land_mul_pow2 x y n Hn Hy) as E.
  rewrite <- Z.lxor_lor, <- Z.add_nocarry_lxor; auto.
Qed.
