(** The model of ml-dsa/src run on the self-test vectors of the library (dilithium_selftest.c, dilithium_selftest_vector_*.h).
    The evaluations happen when this file is compiled: a definition below exists only if the comparison gave true.
    They test the model, no theorem depends on them. *)
From Verif Require Import Bytes Words KeccakModel KeccakBytes Sha3Model UtilModel DilithiumModel DilithiumVectors.
Require Import List ZArith. Import ListNotations. Open Scope Z_scope.

Fixpoint eq_list (a b : list Z) : bool :=
  match a, b with [], [] => true | x :: a', y :: b' => (x =? y) && eq_list a' b' | _, _ => false end.
Ltac evaluates b := let r := eval vm_compute in b in match r with true => exact I end.
(** [dilithium_selftest.c: 48-57] the seed of key generation is what the self-test RNG delivers after 64 bytes: bytes 64 to 95
    of SHAKE128 of the empty string *)
Definition kat_seed : list Z := skipn 64 (fst (xof_read permB (keccak_updates permB (keccak_init alg_shake128) []) 96)).
Definition keygen_is (P : dparam) (pk sk : list Z) : bool :=
  match d_keypair_from_seed 4 P kat_seed with Some (r, p, s) => (r =? 0) && eq_list p pk && eq_list s sk | None => false end.
(** [dilithium_selftest.c: 92-95] without randomness *)
Definition sign_is (rounds : nat) (P : dparam) (m sk sg : list Z) : bool :=
  match d_sign rounds 4 P m sk None with Some (r, s) => (r =? 0) && eq_list s sg | None => false end.
(** [dilithium_selftest.c: 130-132] *)
Definition verify_is (r : Z) (P : dparam) (m pk sg : list Z) : bool :=
  match d_verify 0 0 4 P sg m pk with Some r' => r' =? r | None => false end.

Definition keygen_44 : True := ltac:(evaluates (keygen_is ML_DSA_44 dv44_pk dv44_sk)).
Definition verify_44 : True := ltac:(evaluates (verify_is 0 ML_DSA_44 dv44_m dv44_pk dv44_sig)).
Definition sign_44 : True := ltac:(evaluates (sign_is 20 ML_DSA_44 dv44_m dv44_sk dv44_sig)).
Definition keygen_65 : True := ltac:(evaluates (keygen_is ML_DSA_65 dv65_pk dv65_sk)).
Definition verify_65 : True := ltac:(evaluates (verify_is 0 ML_DSA_65 dv65_m dv65_pk dv65_sig)).
Definition keygen_87 : True := ltac:(evaluates (keygen_is ML_DSA_87 dv87_pk dv87_sk)).
Definition verify_87 : True := ltac:(evaluates (verify_is 0 ML_DSA_87 dv87_m dv87_pk dv87_sig)).
