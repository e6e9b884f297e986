(** * C104: arithmetic modulo the group order of Ed25519, and the canonicity tests

    The claims use only [le], [to_le] (value of a byte string and back),
    [decode_u] and [p25519] of X25519Spec.v and the number [ell] below. *)
From Coq Require Import ZArith List Lia Bool.
From Verif Require Import X25519Spec Curve25519Proof Curve25519Bytes ScModel ScProof ScTop ScCanon.
Import ListNotations.
Open Scope Z_scope.

(** the order of the base point, RFC 8032 section 5.1 *)
Definition ell : Z := 2 ^ 252 + 27742317777372353535851937790883648493.
Lemma ell_eq : L25519 = ell. Proof. reflexivity. Qed.

Lemma to_le_length : forall n v, length (to_le n v) = n.
Proof. induction n as [|n IH]; intros v; cbn [to_le length]; [reflexivity|]. now rewrite IH. Qed.
Lemma to_le_bytes : forall n v, Forall byteZ (to_le n v).
Proof.
  induction n as [|n IH]; intros v; cbn [to_le]; constructor; [|apply IH].
  apply (Z.mod_pos_bound v 256). reflexivity.
Qed.
Lemma le_to_le : forall n v, 0 <= v < 256 ^ Z.of_nat n -> le (to_le n v) = v.
Proof.
  induction n as [|n IH]; intros v H; cbn [to_le le]; [change (256 ^ Z.of_nat 0) with 1 in H; lia|].
  rewrite Nat2Z.inj_succ, Z.pow_succ_r in H by lia. rewrite IH.
  - rewrite Z.add_comm. symmetry. apply Z.div_mod. discriminate.
  - split; [apply Z.div_pos; lia|apply Z.div_lt_upper_bound; lia].
Qed.

(** sc25519_reduce of any 64 bytes: no 64-bit overflow at any step, and the
    32 bytes written are the canonical encoding of the value modulo [ell] *)
Theorem C104_reduce : forall s, length s = 64%nat -> Forall byteZ s ->
  sc_reduce s = Some (to_le 32 (le s mod ell)).
Proof. intros. rewrite <- ell_eq. now apply sc_reduce_ok. Qed.
Print Assumptions C104_reduce.

(** sc25519_muladd of any three 32-byte strings, reduced or not *)
Theorem C104_muladd : forall a b c,
  length a = 32%nat -> Forall byteZ a -> length b = 32%nat -> Forall byteZ b -> length c = 32%nat -> Forall byteZ c ->
  sc_muladd a b c = Some (to_le 32 ((le a * le b + le c) mod ell)).
Proof. intros. rewrite <- ell_eq. now apply sc_muladd_ok. Qed.
Print Assumptions C104_muladd.

(** sc25519_mul *)
Theorem C104_mul : forall a b,
  length a = 32%nat -> Forall byteZ a -> length b = 32%nat -> Forall byteZ b ->
  sc_mul a b = Some (to_le 32 ((le a * le b) mod ell)).
Proof. intros. rewrite <- ell_eq. now apply sc_mul_ok. Qed.
Print Assumptions C104_mul.

(** sc25519_is_canonical answers 1 exactly for encodings below [ell] *)
Theorem C104_canonical_scalar : forall s, length s = 32%nat -> Forall byteZ s ->
  (sc_is_canonical s = 1 <-> le s < ell) /\ (sc_is_canonical s = 0 <-> ell <= le s).
Proof.
  intros s L H. rewrite (sc_canonical_ok s L H), ell_eq.
  destruct (Z.ltb_spec (le s) ell); split; split; intros; try reflexivity; try discriminate; lia.
Qed.
Print Assumptions C104_canonical_scalar.

(** ge25519_is_canonical answers 1 exactly when the y coordinate, without the
    sign bit, is below the field prime *)
Theorem C104_canonical_point : forall s, length s = 32%nat -> Forall byteZ s ->
  (ge_is_canonical s = 1 <-> le s mod 2 ^ 255 < 2 ^ 255 - 19) /\ (ge_is_canonical s = 0 <-> 2 ^ 255 - 19 <= le s mod 2 ^ 255).
Proof.
  intros s L H. rewrite (ge_canonical_ok s L H). change (decode_u s) with (le s mod 2 ^ 255).
  change p25519 with (2 ^ 255 - 19).
  destruct (Z.ltb_spec (le s mod 2 ^ 255) (2 ^ 255 - 19)); split; split; intros; try reflexivity; try discriminate; lia.
Qed.
Print Assumptions C104_canonical_point.

(** the two canonicity tests accept what the arithmetic writes *)
Theorem C104_output_canonical : forall a b c s,
  length a = 32%nat -> Forall byteZ a -> length b = 32%nat -> Forall byteZ b -> length c = 32%nat -> Forall byteZ c ->
  sc_muladd a b c = Some s -> sc_is_canonical s = 1.
Proof.
  intros a b c s La Ha Lb Hb Lc Hc E. rewrite (C104_muladd a b c La Ha Lb Hb Lc Hc) in E.
  assert (R : 0 <= (le a * le b + le c) mod ell < ell) by (apply Z.mod_pos_bound; reflexivity).
  assert (E' : s = to_le 32 ((le a * le b + le c) mod ell)) by congruence. subst s.
  apply C104_canonical_scalar.
  - apply to_le_length.
  - apply to_le_bytes.
  - rewrite le_to_le; [lia|]. split; [lia|]. apply Z.lt_trans with ell; [lia|reflexivity].
Qed.
Print Assumptions C104_output_canonical.

(** the extreme inputs are covered: every byte 255 *)
Example C104_ex : length (repeat 255 64) = 64%nat /\ Forall byteZ (repeat 255 64) /\
  length (repeat 255 32) = 32%nat /\ Forall byteZ (repeat 255 32) /\
  sc_reduce (repeat 255 64) = Some (to_le 32 ((2 ^ 512 - 1) mod ell)) /\
  sc_muladd (repeat 255 32) (repeat 255 32) (repeat 255 32) = Some (to_le 32 ((2 ^ 256 - 1) * 2 ^ 256 mod ell)) /\
  sc_is_canonical (to_le 32 (ell - 1)) = 1 /\ sc_is_canonical (to_le 32 ell) = 0 /\
  ge_is_canonical (to_le 32 (2 ^ 255 - 20)) = 1 /\ ge_is_canonical (to_le 32 (2 ^ 255 - 19)) = 0.
Proof.
  assert (F : forall n, Forall byteZ (repeat 255 n)).
  { induction n; cbn [repeat]; constructor; [unfold byteZ; lia|assumption]. }
  split; [reflexivity|]. split; [apply F|]. split; [reflexivity|]. split; [apply F|].
  repeat split; reflexivity.
Qed.
