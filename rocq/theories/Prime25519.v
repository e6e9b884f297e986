(** * 2^255-19 is prime *)
From Coq Require Import ZArith Znumtheory List.
From Verif Require Import X25519Spec Pocklington PrimeCert.
Open Scope Z_scope.

Lemma prime_1923133 : prime 1923133. Proof. apply (trial_ok 1923133 1386). vm_compute. reflexivity. Qed.
Lemma prime_75707 : prime 75707. Proof. apply (trial_ok 75707 275). vm_compute. reflexivity. Qed.
Lemma prime_8574133 : prime 8574133. Proof. apply (trial_ok 8574133 2928). vm_compute. reflexivity. Qed.
Lemma prime_127 : prime 127. Proof. apply (trial_ok 127 11). vm_compute. reflexivity. Qed.
Lemma prime_q3 : prime n_q3.
Proof.
  apply (pock2 n_q3 8574133 127 full_q3 part_q3_0 inv_q3_0 part_q3_1 inv_q3_1 prime_8574133 prime_127);
    vm_compute; reflexivity.
Qed.
Lemma prime_q2 : prime n_q2.
Proof.
  apply (pock2 n_q2 n_q3 75707 full_q2 part_q2_0 inv_q2_0 part_q2_1 inv_q2_1 prime_q3 prime_75707);
    vm_compute; reflexivity.
Qed.
Lemma prime_q1 : prime n_q1.
Proof.
  apply (pock2 n_q1 n_q2 1923133 full_q1 part_q1_0 inv_q1_0 part_q1_1 inv_q1_1 prime_q2 prime_1923133);
    vm_compute; reflexivity.
Qed.
Lemma prime_np : prime n_p.
Proof.
  apply (pock1 n_p n_q1 full_p part_p_0 inv_p_0 prime_q1); vm_compute; reflexivity.
Qed.
Theorem prime_p25519 : prime p25519.
Proof. change p25519 with (2 ^ 255 - 19). replace (2 ^ 255 - 19) with n_p by (vm_compute; reflexivity). exact prime_np. Qed.
Print Assumptions prime_p25519.
