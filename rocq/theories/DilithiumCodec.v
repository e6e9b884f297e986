(** Serialisation of ml-dsa/src/dilithium_poly.c against FIPS 204. *)
From Verif Require Import Bytes Words ZUtil KeccakBytes PolyRing NttSim KyberModel KyberSpec KyberCodec KyberCodec2 DilithiumModel DilithiumSpec.
Require Import Lia.

(** a byte made of one or two u8 parts *)
Ltac byte' := bitwise 8; repeat rewrite Z.lor_spec; repeat rewrite u8_high by assumption; reflexivity.

Lemma eta2_pk_ok : forall t, length t = 8%nat -> Forall (fun x => 0 <= x < 2 ^ Z.of_nat 3) t -> eta2_pk t = encG 3 3 t.
Proof. intros t L H. do 8 listn L t. destruct t; [|cbn in L; lia]. do 8 f_inv H. nats. cbn [eta2_pk]. cons_eq; byte'. Qed.

Lemma eta4_pk_ok : forall t, length t = 2%nat -> Forall (fun x => 0 <= x < 2 ^ Z.of_nat 4) t -> eta4_pk t = encG 4 1 t.
Proof. intros t L H. do 2 listn L t. destruct t; [|cbn in L; lia]. do 2 f_inv H. nats. cbn [eta4_pk]. cons_eq; byte'. Qed.

Lemma t1_pk_ok : forall t, length t = 4%nat -> Forall (fun x => 0 <= x < 2 ^ Z.of_nat 10) t -> t1_pk t = encG 10 5 t.
Proof. intros t L H. do 4 listn L t. destruct t; [|cbn in L; lia]. do 4 f_inv H. nats. cbn [t1_pk]. cons_eq; byte'. Qed.

Lemma t0_pk_ok : forall t, length t = 8%nat -> Forall (fun x => 0 <= x < 2 ^ Z.of_nat 13) t -> t0_pk t = encG 13 13 t.
Proof. intros t L H. do 8 listn L t. destruct t; [|cbn in L; lia]. do 8 f_inv H. nats. cbn [t0_pk]. cons_eq; byte'. Qed.

Lemma z17_pk_ok : forall t, length t = 4%nat -> Forall (fun x => 0 <= x < 2 ^ Z.of_nat 18) t -> z17_pk t = encG 18 9 t.
Proof. intros t L H. do 4 listn L t. destruct t; [|cbn in L; lia]. do 4 f_inv H. nats. cbn [z17_pk]. cons_eq; byte'. Qed.

Lemma z19_pk_ok : forall t, length t = 2%nat -> Forall (fun x => 0 <= x < 2 ^ Z.of_nat 20) t -> z19_pk t = encG 20 5 t.
Proof. intros t L H. do 2 listn L t. destruct t; [|cbn in L; lia]. do 2 f_inv H. nats. cbn [z19_pk]. cons_eq; byte'. Qed.

Lemma w88_pk_ok : forall t, length t = 4%nat -> Forall (fun x => 0 <= x < 2 ^ Z.of_nat 6) t -> w88_pk t = encG 6 3 t.
Proof. intros t L H. do 4 listn L t. destruct t; [|cbn in L; lia]. do 4 f_inv H. nats. cbn [w88_pk]. cons_eq; byte'. Qed.

Lemma w32_pk_ok : forall t, length t = 2%nat -> Forall (fun x => 0 <= x < 2 ^ Z.of_nat 4) t -> w32_pk t = encG 4 1 t.
Proof. intros t L H. do 2 listn L t. destruct t; [|cbn in L; lia]. do 2 f_inv H. nats. cbn [w32_pk]. cons_eq; byte'. Qed.

Lemma eta2_up_ok : forall b, length b = 3%nat -> bytes b -> eta2_up b = decG 3 8 b.
Proof. intros b L H. do 3 listn L b. destruct b; [|cbn in L; lia]. unfold bytes, byte in H. do 3 b_inv H. nats. cbn [eta2_up]. cons_eq; masked 3. Qed.

Lemma eta4_up_ok : forall b, length b = 1%nat -> bytes b -> eta4_up b = decG 4 2 b.
Proof. intros b L H. do 1 listn L b. destruct b; [|cbn in L; lia]. unfold bytes, byte in H. do 1 b_inv H. nats. cbn [eta4_up]. cons_eq. masked 4. bitwise 4. rewrite Z.shiftr_spec by lia. apply A. lia. Qed.

Lemma t1_up_ok : forall b, length b = 5%nat -> bytes b -> t1_up b = decG 10 4 b.
Proof. intros b L H. do 5 listn L b. destruct b; [|cbn in L; lia]. unfold bytes, byte in H. do 5 b_inv H. nats. cbn [t1_up]. cons_eq; masked 10. Qed.

Lemma t0_up_ok : forall b, length b = 13%nat -> bytes b -> t0_up b = decG 13 8 b.
Proof. intros b L H. do 13 listn L b. destruct b; [|cbn in L; lia]. unfold bytes, byte in H. do 13 b_inv H. nats. cbn [t0_up]. cons_eq; masked 13. Qed.

Lemma z17_up_ok : forall b, length b = 9%nat -> bytes b -> z17_up b = decG 18 4 b.
Proof. intros b L H. do 9 listn L b. destruct b; [|cbn in L; lia]. unfold bytes, byte in H. do 9 b_inv H. nats. cbn [z17_up]. cons_eq; masked 18. Qed.

Lemma z19_up_ok : forall b, length b = 5%nat -> bytes b -> z19_up b = decG 20 2 b.
Proof. intros b L H. do 5 listn L b. destruct b; [|cbn in L; lia]. unfold bytes, byte in H. do 5 b_inv H. nats. cbn [z19_up]. cons_eq; masked 20. Qed.
