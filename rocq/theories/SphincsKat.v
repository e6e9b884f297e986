(** The SLH-DSA-SHAKE-128s vector of the library's test [slh-dsa/tests/sphincs_tester_vectors_shake_128s.h] run through the
    model: the randomizer of the signature and the verdict, computed while this file is compiled. Key generation and the rest of
    signing take some 10^5 permutations and are not run. *)
From Verif Require Import Bytes UtilModel SphincsModel SphincsApiModel DilithiumKat SlhVectors.

Definition kat_ctx : spctx := mkSC None None [] true.
(** R = the first 16 bytes of the signature *)
Definition kat_R : True := ltac:(evaluates
  (let '(r, R) := gen_message_random SHAKE_128s (slice slh_sk 16 16) (slice slh_sk 32 16) slh_msg kat_ctx in (r =? 0) && eq_list R (firstn 16 slh_sig))).
(** the key pair of the vector belongs together *)
Definition kat_sizes : True := ltac:(evaluates
  ((length slh_pk =? sp_pk SHAKE_128s)%nat && (length slh_sk =? sp_sk SHAKE_128s)%nat && (length slh_sig =? sp_sig SHAKE_128s)%nat && eq_list (skipn 32 slh_sk) slh_pk)).
Definition kat_verify : True := ltac:(evaluates (sp_verify_ctx SHAKE_128s 0 0 slh_sig kat_ctx slh_msg slh_pk =? 0)).
