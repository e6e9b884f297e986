(** * Curve25519Proof: the 51-bit limb arithmetic and the ladder compute modulo p *)
From Coq Require Import ZArith List Bool Lia Ring.
From Verif Require ZUtil.
From Verif Require Import Curve25519Model X25519Spec.
Import ListNotations.
Open Scope Z_scope.

Local Notation B51 := 2251799813685248.
Local Notation P := 57896044618658097711785492504343953926634992332820282019728792003956564819949.

Lemma p25519_eq : p25519 = P.
Proof. reflexivity. Qed.

(** the number five limbs stand for *)
Definition val (f : fe) : Z :=
  let '(f0, f1, f2, f3, f4) := f in
  f0 + B51 * f1 + B51 * B51 * f2 + B51 * B51 * B51 * f3 + B51 * B51 * B51 * B51 * f4.
Definition bnd (b : Z) (f : fe) : Prop :=
  let '(f0, f1, f2, f3, f4) := f in
  0 <= f0 < b /\ 0 <= f1 < b /\ 0 <= f2 < b /\ 0 <= f3 < b /\ 0 <= f4 < b.
Local Notation T52 := 4503599627370496.
Local Notation T53 := 9007199254740992.
Local Notation T54 := 18014398509481984.
Definition tight : fe -> Prop := bnd T52.

Lemma bnd_le : forall a b f, a <= b -> bnd a f -> bnd b f.
Proof. intros a b [[[[? ?] ?] ?] ?] H; cbn; lia. Qed.

Definition cong (a b : Z) : Prop := exists k, a = b + k * P.

Lemma cong_mod : forall a b, cong a b <-> a mod p25519 = b mod p25519.
Proof.
  rewrite p25519_eq. intros a b. split.
  - intros [k ->]. apply Z.mod_add. lia.
  - intros H. exists (a / P - b / P).
    pose proof (Z.div_mod a P ltac:(lia)). pose proof (Z.div_mod b P ltac:(lia)). lia.
Qed.
Lemma cong_refl : forall a, cong a a.
Proof. intros a. exists 0. lia. Qed.
Lemma cong_sym : forall a b, cong a b -> cong b a.
Proof. intros a b [k ->]. exists (- k). ring. Qed.
Lemma cong_trans : forall a b c, cong a b -> cong b c -> cong a c.
Proof. intros a b c [k ->] [l ->]. exists (k + l). ring. Qed.
Lemma cong_add : forall a b c d, cong a b -> cong c d -> cong (a + c) (b + d).
Proof. intros a b c d [k ->] [l ->]. exists (k + l). ring. Qed.
Lemma cong_sub : forall a b c d, cong a b -> cong c d -> cong (a - c) (b - d).
Proof. intros a b c d [k ->] [l ->]. exists (k - l). ring. Qed.
Lemma cong_mul : forall a b c d, cong a b -> cong c d -> cong (a * c) (b * d).
Proof. intros a b c d [k ->] [l ->]. exists (k * d + b * l + k * l * P). ring. Qed.
Lemma cong_m : forall a, cong (a mod p25519) a.
Proof. intros a. apply cong_mod. apply Z.mod_mod. rewrite p25519_eq; lia. Qed.

Lemma msk_mod : forall x, msk x = x mod B51.
Proof. intros x. unfold msk. change 2251799813685247 with (Z.ones 51). now rewrite Z.land_ones by lia. Qed.
Lemma shr_div : forall x, shr51 x = x / B51.
Proof. intros x. unfold shr51. now rewrite Z.shiftr_div_pow2 by lia. Qed.
Lemma u64_id : forall x, 0 <= x < 18446744073709551616 -> u64 x = x.
Proof. intros. now apply Z.mod_small. Qed.
Lemma u128_id : forall x, 0 <= x < 340282366920938463463374607431768211456 -> u128 x = x.
Proof. intros. now apply Z.mod_small. Qed.
Lemma mod_u64 : forall x, u64 x mod B51 = x mod B51.
Proof.
  intros x. unfold u64. symmetry. apply Znumtheory.Zmod_div_mod; try lia.
  exists 8192. reflexivity.
Qed.

Lemma div_spec : forall x, exists q r, x / B51 = q /\ x mod B51 = r /\ x = B51 * q + r /\ 0 <= r < B51.
Proof.
  intros x. exists (x / B51), (x mod B51). repeat split; try reflexivity.
  - apply Z.div_mod; lia.
  - apply Z.mod_pos_bound; lia.
  - apply Z.mod_pos_bound; lia.
Qed.

Ltac split_div x q r :=
  let E1 := fresh "Eq" in let E2 := fresh "Er" in let E := fresh "E" in let Hr := fresh "Hr" in
  destruct (div_spec x) as (q & r & E1 & E2 & E & Hr); rewrite ?E1, ?E2; clear E1 E2.

Lemma carry_ok : forall r0 r1 r2 r3 r4,
  0 <= r0 < 25961484292674138142652481646100480 -> 0 <= r1 < 25961484292674138142652481646100480 ->
  0 <= r2 < 25961484292674138142652481646100480 -> 0 <= r3 < 25961484292674138142652481646100480 ->
  0 <= r4 <= 1622592768292133633915780102881280 ->
  tight (fe_carry r0 r1 r2 r3 r4) /\
  cong (val (fe_carry r0 r1 r2 r3 r4))
       (r0 + B51 * r1 + B51 * B51 * r2 + B51 * B51 * B51 * r3 + B51 * B51 * B51 * B51 * r4).
Proof.
  intros r0 r1 r2 r3 r4 H0 H1 H2 H3 H4. unfold fe_carry.
  rewrite ?msk_mod, ?shr_div, ?mod_u64.
  split_div r0 c0 a0.
  rewrite (u64_id c0) by lia. rewrite (u128_id (r1 + c0)) by lia.
  split_div (r1 + c0) c1 a1.
  rewrite (u64_id c1) by lia. rewrite (u128_id (r2 + c1)) by lia.
  split_div (r2 + c1) c2 a2.
  rewrite (u64_id c2) by lia. rewrite (u128_id (r3 + c2)) by lia.
  split_div (r3 + c2) c3 a3.
  rewrite (u64_id c3) by lia. rewrite (u128_id (r4 + c3)) by lia.
  split_div (r4 + c3) c4 a4.
  rewrite (u64_id c4) by lia. rewrite (u64_id (a0 + 19 * c4)) by lia.
  split_div (a0 + 19 * c4) d0 b0.
  rewrite (u64_id (a1 + d0)) by lia.
  split_div (a1 + d0) d1 b1.
  rewrite (u64_id (a2 + d1)) by lia.
  split.
  - cbn. lia.
  - exists (- c4). cbn [val]. lia.
Qed.

(** ** products *)
Lemma prod_bnd : forall a b, 0 <= a < T54 -> 0 <= b < T54 -> 0 <= a * b <= 324518553658426726783156020576256.
Proof.
  intros a b Ha Hb. split; [apply Z.mul_nonneg_nonneg; lia|].
  apply Z.le_trans with (18014398509481983 * 18014398509481983); [apply Z.mul_le_mono_nonneg; lia|lia].
Qed.

Lemma mul_ok : forall f g, bnd T54 f -> bnd T54 g ->
  tight (fe_mul f g) /\ cong (val (fe_mul f g)) (val f * val g).
Proof.
  intros [[[[f0 f1] f2] f3] f4] [[[[g0 g1] g2] g3] g4] (F0 & F1 & F2 & F3 & F4) (G0 & G1 & G2 & G3 & G4).
  unfold fe_mul.
  rewrite (u128_id (19 * f1)), (u128_id (19 * f2)), (u128_id (19 * f3)), (u128_id (19 * f4)) by lia.
  rewrite <- !Z.mul_assoc.
  pose proof (prod_bnd f0 g0 F0 G0). pose proof (prod_bnd f0 g1 F0 G1). pose proof (prod_bnd f0 g2 F0 G2).
  pose proof (prod_bnd f0 g3 F0 G3). pose proof (prod_bnd f0 g4 F0 G4).
  pose proof (prod_bnd f1 g0 F1 G0). pose proof (prod_bnd f1 g1 F1 G1). pose proof (prod_bnd f1 g2 F1 G2).
  pose proof (prod_bnd f1 g3 F1 G3). pose proof (prod_bnd f1 g4 F1 G4).
  pose proof (prod_bnd f2 g0 F2 G0). pose proof (prod_bnd f2 g1 F2 G1). pose proof (prod_bnd f2 g2 F2 G2).
  pose proof (prod_bnd f2 g3 F2 G3). pose proof (prod_bnd f2 g4 F2 G4).
  pose proof (prod_bnd f3 g0 F3 G0). pose proof (prod_bnd f3 g1 F3 G1). pose proof (prod_bnd f3 g2 F3 G2).
  pose proof (prod_bnd f3 g3 F3 G3). pose proof (prod_bnd f3 g4 F3 G4).
  pose proof (prod_bnd f4 g0 F4 G0). pose proof (prod_bnd f4 g1 F4 G1). pose proof (prod_bnd f4 g2 F4 G2).
  pose proof (prod_bnd f4 g3 F4 G3). pose proof (prod_bnd f4 g4 F4 G4).
  assert (Hv : cong (f0 * g0 + 19 * (f1 * g4) + 19 * (f2 * g3) + 19 * (f3 * g2) + 19 * (f4 * g1) +
      B51 * (f0 * g1 + f1 * g0 + 19 * (f2 * g4) + 19 * (f3 * g3) + 19 * (f4 * g2)) +
      B51 * B51 * (f0 * g2 + f1 * g1 + f2 * g0 + 19 * (f3 * g4) + 19 * (f4 * g3)) +
      B51 * B51 * B51 * (f0 * g3 + f1 * g2 + f2 * g1 + f3 * g0 + 19 * (f4 * g4)) +
      B51 * B51 * B51 * B51 * (f0 * g4 + f1 * g3 + f2 * g2 + f3 * g1 + f4 * g0))
      (val (f0, f1, f2, f3, f4) * val (g0, g1, g2, g3, g4))).
  { exists (- (f1 * g4 + f2 * g3 + f3 * g2 + f4 * g1 + B51 * (f2 * g4 + f3 * g3 + f4 * g2) +
         B51 * B51 * (f3 * g4 + f4 * g3) + B51 * B51 * B51 * (f4 * g4))). cbn [val]. ring. }
  clear F0 F1 F2 F3 F4 G0 G1 G2 G3 G4.
  generalize dependent (val (f0, f1, f2, f3, f4) * val (g0, g1, g2, g3, g4)). intros w Hw.
  generalize dependent (f0 * g0). intros p00. generalize dependent (f0 * g1). intros p01.
  generalize dependent (f0 * g2). intros p02. generalize dependent (f0 * g3). intros p03.
  generalize dependent (f0 * g4). intros p04.
  generalize dependent (f1 * g0). intros p10. generalize dependent (f1 * g1). intros p11.
  generalize dependent (f1 * g2). intros p12. generalize dependent (f1 * g3). intros p13.
  generalize dependent (f1 * g4). intros p14.
  generalize dependent (f2 * g0). intros p20. generalize dependent (f2 * g1). intros p21.
  generalize dependent (f2 * g2). intros p22. generalize dependent (f2 * g3). intros p23.
  generalize dependent (f2 * g4). intros p24.
  generalize dependent (f3 * g0). intros p30. generalize dependent (f3 * g1). intros p31.
  generalize dependent (f3 * g2). intros p32. generalize dependent (f3 * g3). intros p33.
  generalize dependent (f3 * g4). intros p34.
  generalize dependent (f4 * g0). intros p40. generalize dependent (f4 * g1). intros p41.
  generalize dependent (f4 * g2). intros p42. generalize dependent (f4 * g3). intros p43.
  generalize dependent (f4 * g4). intros p44.
  intros. rewrite !u128_id by lia.
  match goal with |- tight (fe_carry ?a ?b ?c ?d ?e) /\ _ =>
    destruct (carry_ok a b c d e) as [Ht Hc]; try lia end.
  split; [exact Ht|]. eapply cong_trans; [exact Hc|exact Hw].
Qed.

Lemma sq_ok : forall f, bnd T54 f -> tight (fe_sq f) /\ cong (val (fe_sq f)) (val f * val f).
Proof.
  intros [[[[f0 f1] f2] f3] f4] (F0 & F1 & F2 & F3 & F4).
  unfold fe_sq. rewrite !Z.shiftl_mul_pow2 by lia. change (2 ^ 1) with 2.
  rewrite (Z.mul_comm f0 2), (Z.mul_comm f1 2).
  rewrite (u128_id (2 * f0)), (u128_id (2 * f1)), (u128_id (38 * f1)), (u128_id (38 * f2)),
    (u128_id (38 * f3)), (u128_id (19 * f3)), (u128_id (19 * f4)) by lia.
  rewrite <- !Z.mul_assoc.
  pose proof (prod_bnd f0 f0 F0 F0). pose proof (prod_bnd f0 f1 F0 F1). pose proof (prod_bnd f0 f2 F0 F2).
  pose proof (prod_bnd f0 f3 F0 F3). pose proof (prod_bnd f0 f4 F0 F4).
  pose proof (prod_bnd f1 f1 F1 F1). pose proof (prod_bnd f1 f2 F1 F2).
  pose proof (prod_bnd f1 f3 F1 F3). pose proof (prod_bnd f1 f4 F1 F4).
  pose proof (prod_bnd f2 f2 F2 F2). pose proof (prod_bnd f2 f3 F2 F3). pose proof (prod_bnd f2 f4 F2 F4).
  pose proof (prod_bnd f3 f3 F3 F3). pose proof (prod_bnd f3 f4 F3 F4). pose proof (prod_bnd f4 f4 F4 F4).
  assert (Hv : cong (f0 * f0 + 38 * (f1 * f4) + 38 * (f2 * f3) +
      B51 * (2 * (f0 * f1) + 38 * (f2 * f4) + 19 * (f3 * f3)) +
      B51 * B51 * (2 * (f0 * f2) + f1 * f1 + 38 * (f3 * f4)) +
      B51 * B51 * B51 * (2 * (f0 * f3) + 2 * (f1 * f2) + 19 * (f4 * f4)) +
      B51 * B51 * B51 * B51 * (2 * (f0 * f4) + 2 * (f1 * f3) + f2 * f2))
      (val (f0, f1, f2, f3, f4) * val (f0, f1, f2, f3, f4))).
  { exists (- (2 * (f1 * f4) + 2 * (f2 * f3) + B51 * (2 * (f2 * f4) + f3 * f3) +
         B51 * B51 * (2 * (f3 * f4)) + B51 * B51 * B51 * (f4 * f4))). cbn [val]. ring. }
  clear F0 F1 F2 F3 F4.
  generalize dependent (val (f0, f1, f2, f3, f4) * val (f0, f1, f2, f3, f4)). intros w Hw.
  generalize dependent (f0 * f0). intros p00. generalize dependent (f0 * f1). intros p01.
  generalize dependent (f0 * f2). intros p02. generalize dependent (f0 * f3). intros p03.
  generalize dependent (f0 * f4). intros p04. generalize dependent (f1 * f1). intros p11.
  generalize dependent (f1 * f2). intros p12. generalize dependent (f1 * f3). intros p13.
  generalize dependent (f1 * f4). intros p14. generalize dependent (f2 * f2). intros p22.
  generalize dependent (f2 * f3). intros p23. generalize dependent (f2 * f4). intros p24.
  generalize dependent (f3 * f3). intros p33. generalize dependent (f3 * f4). intros p34.
  generalize dependent (f4 * f4). intros p44.
  intros. rewrite !u128_id by lia.
  match goal with |- tight (fe_carry ?a ?b ?c ?d ?e) /\ _ =>
    destruct (carry_ok a b c d e) as [Ht Hc]; try lia end.
  split; [exact Ht|]. eapply cong_trans; [exact Hc|exact Hw].
Qed.

Lemma add_ok : forall f g, tight f -> tight g ->
  bnd T53 (fe_add f g) /\ val (fe_add f g) = val f + val g.
Proof.
  intros [[[[f0 f1] f2] f3] f4] [[[[g0 g1] g2] g3] g4] (F0 & F1 & F2 & F3 & F4) (G0 & G1 & G2 & G3 & G4).
  unfold fe_add. rewrite !u64_id by lia. split; [cbn; lia|cbn [val]; ring].
Qed.

Lemma sub_ok : forall f g, tight f -> bnd T54 g ->
  bnd T54 (fe_sub f g) /\ cong (val (fe_sub f g)) (val f - val g).
Proof.
  intros [[[[f0 f1] f2] f3] f4] [[[[h0 h1] h2] h3] h4] (F0 & F1 & F2 & F3 & F4) (G0 & G1 & G2 & G3 & G4).
  unfold fe_sub. rewrite ?msk_mod, ?shr_div.
  split_div h0 c0 a0. rewrite (u64_id (h1 + c0)) by lia.
  split_div (h1 + c0) c1 a1. rewrite (u64_id (h2 + c1)) by lia.
  split_div (h2 + c1) c2 a2. rewrite (u64_id (h3 + c2)) by lia.
  split_div (h3 + c2) c3 a3. rewrite (u64_id (h4 + c3)) by lia.
  split_div (h4 + c3) c4 a4. rewrite (u64_id (a0 + 19 * c4)) by lia.
  rewrite !u64_id by lia. split; [cbn [bnd]; lia|].
  exists (2 + c4). cbn [val]. lia.
Qed.

Lemma mul32_ok : forall f, bnd T54 f ->
  tight (fe_mul32 f 121666) /\ cong (val (fe_mul32 f 121666)) (val f * 121666).
Proof.
  intros [[[[f0 f1] f2] f3] f4] (F0 & F1 & F2 & F3 & F4).
  unfold fe_mul32. rewrite ?msk_mod, ?shr_div, ?mod_u64.
  rewrite (u128_id (f0 * 121666)) by lia.
  split_div (f0 * 121666) c0 a0. rewrite (u64_id c0) by lia. rewrite (u128_id (f1 * 121666 + c0)) by lia.
  split_div (f1 * 121666 + c0) c1 a1. rewrite (u64_id c1) by lia. rewrite (u128_id (f2 * 121666 + c1)) by lia.
  split_div (f2 * 121666 + c1) c2 a2. rewrite (u64_id c2) by lia. rewrite (u128_id (f3 * 121666 + c2)) by lia.
  split_div (f3 * 121666 + c2) c3 a3. rewrite (u64_id c3) by lia. rewrite (u128_id (f4 * 121666 + c3)) by lia.
  split_div (f4 * 121666 + c3) c4 a4. rewrite (u64_id c4) by lia. rewrite (u64_id (c4 * 19)) by lia.
  rewrite (u64_id (a0 + c4 * 19)) by lia. split; [unfold tight; cbn [bnd]; lia|].
  exists (- c4). cbn [val]. lia.
Qed.

Lemma cswap_ok : forall f g (b : bool), tight f -> tight g ->
  fe_cswap f g (if b then 1 else 0) = if b then (g, f) else (f, g).
Proof.
  assert (L : forall f g, 0 <= f < T52 -> 0 <= g < T52 ->
            cswap_limb (u64 (-1)) f g = (g, f)).
  { intros f g Hf Hg. unfold cswap_limb.
    change (u64 (-1)) with (Z.ones 64).
    assert (0 <= Z.lxor f g) by (apply Z.lxor_nonneg; lia).
    rewrite Z.land_ones by lia.
    rewrite Z.mod_small.
    - f_equal; [now rewrite <- Z.lxor_assoc, Z.lxor_nilpotent, Z.lxor_0_l|].
      rewrite (Z.lxor_comm f g). now rewrite <- Z.lxor_assoc, Z.lxor_nilpotent, Z.lxor_0_l.
    - split; [assumption|].
      destruct (Z.eq_dec (Z.lxor f g) 0) as [E|E]; [rewrite E; reflexivity|].
      apply Z.log2_lt_pow2; [lia|].
      eapply Z.le_lt_trans; [apply Z.log2_lxor; lia|].
      assert (D : forall x, 0 <= x < T52 -> Z.log2 x < 64).
      { intros x Hx. destruct (Z.eq_dec x 0) as [->|N]; [reflexivity|].
        apply Z.log2_lt_pow2; [lia|]. change (2 ^ 64) with 18446744073709551616. lia. }
      pose proof (D f Hf). pose proof (D g Hg). lia. }
  assert (N : forall f g, cswap_limb (u64 (-0)) f g = (f, g)).
  { intros f g. unfold cswap_limb. change (u64 (-0)) with 0. now rewrite Z.land_0_r, !Z.lxor_0_r. }
  intros [[[[f0 f1] f2] f3] f4] [[[[g0 g1] g2] g3] g4] b (F0 & F1 & F2 & F3 & F4) (G0 & G1 & G2 & G3 & G4).
  unfold fe_cswap. destruct b.
  - change (- (1)) with (-1). now rewrite !L by assumption.
  - now rewrite !N.
Qed.

(** ** limbs standing for a residue *)
Definition crel (f : fe) (a : Z) : Prop := tight f /\ cong (val f) a.
Definition lrel (f : fe) (a : Z) : Prop := bnd T54 f /\ cong (val f) a.

Lemma crel_l : forall f a, crel f a -> lrel f a.
Proof. intros f a [H C]. split; [revert H; apply bnd_le; lia|exact C]. Qed.
Lemma crel_cong : forall f a b, crel f a -> cong a b -> crel f b.
Proof. intros f a b [H C] E. split; [exact H|]. eapply cong_trans; eauto. Qed.

Lemma c_add : forall f g a b, crel f a -> crel g b -> lrel (fe_add f g) (add a b).
Proof.
  intros f g a b [Hf Cf] [Hg Cg]. destruct (add_ok f g Hf Hg) as [H V].
  split; [revert H; apply bnd_le; lia|]. rewrite V. unfold add.
  eapply cong_trans; [apply cong_add; eassumption|]. apply cong_sym, cong_m.
Qed.
Lemma c_sub : forall f g a b, crel f a -> lrel g b -> lrel (fe_sub f g) (sub a b).
Proof.
  intros f g a b [Hf Cf] [Hg Cg]. destruct (sub_ok f g Hf Hg) as [H V].
  split; [exact H|]. unfold sub.
  eapply cong_trans; [exact V|]. eapply cong_trans; [apply cong_sub; eassumption|]. apply cong_sym, cong_m.
Qed.
Lemma c_mul : forall f g a b, lrel f a -> lrel g b -> crel (fe_mul f g) (mul a b).
Proof.
  intros f g a b [Hf Cf] [Hg Cg]. destruct (mul_ok f g Hf Hg) as [H V].
  split; [exact H|]. unfold mul.
  eapply cong_trans; [exact V|]. eapply cong_trans; [apply cong_mul; eassumption|]. apply cong_sym, cong_m.
Qed.
Lemma c_sq : forall f a, lrel f a -> crel (fe_sq f) (mul a a).
Proof.
  intros f a [Hf Cf]. destruct (sq_ok f Hf) as [H V].
  split; [exact H|]. unfold mul.
  eapply cong_trans; [exact V|]. eapply cong_trans; [apply cong_mul; eassumption|]. apply cong_sym, cong_m.
Qed.
Lemma c_mul32 : forall f a, lrel f a -> crel (fe_mul32 f 121666) (mul 121666 a).
Proof.
  intros f a [Hf Cf]. destruct (mul32_ok f Hf) as [H V].
  split; [exact H|]. unfold mul. rewrite (Z.mul_comm 121666 a).
  eapply cong_trans; [exact V|].
  eapply cong_trans; [apply cong_mul; [exact Cf|apply cong_refl]|]. apply cong_sym, cong_m.
Qed.

(** ** fe25519_invert raises to the power p - 2 *)
Lemma cong_pow : forall a b n, cong a b -> cong (a ^ n) (b ^ n).
Proof.
  intros a b n H. destruct (Z.neg_nonneg_cases n) as [N|N].
  - rewrite !Z.pow_neg_r by assumption. apply cong_refl.
  - revert n N. apply (natlike_ind (fun n => cong (a ^ n) (b ^ n))).
    + rewrite !Z.pow_0_r. apply cong_refl.
    + intros n N IH. rewrite !Z.pow_succ_r by assumption. now apply cong_mul.
Qed.

Definition pw (z n : Z) (f : fe) : Prop := 0 <= n /\ tight f /\ cong (val f) (z ^ n).

Lemma pw_mul : forall z n m f g, pw z n f -> pw z m g -> pw z (n + m) (fe_mul f g).
Proof.
  intros z n m f g (Hn & Tf & Cf) (Hm & Tg & Cg). split; [lia|].
  destruct (mul_ok f g) as [H V]; try (eapply bnd_le; [|eassumption]; lia).
  split; [exact H|]. rewrite Z.pow_add_r by assumption.
  eapply cong_trans; [exact V|]. now apply cong_mul.
Qed.
Lemma pw_sq : forall z n f, pw z n f -> pw z (2 * n) (fe_sq f).
Proof.
  intros z n f (Hn & Tf & Cf). split; [lia|].
  destruct (sq_ok f) as [H V]; try (eapply bnd_le; [|eassumption]; lia).
  split; [exact H|]. replace (2 * n) with (n + n) by lia. rewrite Z.pow_add_r by assumption.
  eapply cong_trans; [exact V|]. now apply cong_mul.
Qed.
Lemma pw_sqn : forall k z n f, pw z n f -> pw z (2 ^ Z.of_nat k * n) (fe_sqn k f).
Proof.
  induction k as [|k IH]; intros z n f H.
  - cbn [fe_sqn]. change (2 ^ Z.of_nat 0) with 1. now rewrite Z.mul_1_l.
  - cbn [fe_sqn]. apply pw_sq in H. apply IH in H.
    rewrite Nat2Z.inj_succ, Z.pow_succ_r by lia.
    replace (2 * 2 ^ Z.of_nat k * n) with (2 ^ Z.of_nat k * (2 * n)) by ring. exact H.
Qed.

Lemma invert_ok : forall f a, crel f a -> crel (fe_invert f) (a ^ (p25519 - 2)).
Proof.
  intros f a [Tf Cf].
  assert (H1 : pw a 1 f) by (repeat split; [lia|exact Tf|rewrite Z.pow_1_r; exact Cf]).
  assert (G : exists n, n = p25519 - 2 /\ pw a n (fe_invert f)).
  { unfold fe_invert. eexists. split; cycle 1.
    - repeat first [exact H1 | apply pw_mul | apply pw_sqn | apply pw_sq].
    - vm_compute. reflexivity. }
  destruct G as (n & -> & _ & H & C). split; assumption.
Qed.

(** ** the ladder *)
Definition srel (s : lstate) (S : ladder_state) : Prop :=
  let '(x2, z2, x3, z3, w) := s in
  let '(X2, Z2, X3, Z3, W) := S in
  crel x2 X2 /\ crel z2 Z2 /\ crel x3 X3 /\ crel z3 Z3 /\ w = (if W then 1 else 0).

Lemma swap_rel : forall f g a b (w : bool), crel f a -> crel g b ->
  exists f' g', fe_cswap f g (if w then 1 else 0) = (f', g') /\
    crel f' (fst (cswap w a b)) /\ crel g' (snd (cswap w a b)).
Proof.
  intros f g a b w Hf Hg. rewrite (cswap_ok f g w (proj1 Hf) (proj1 Hg)).
  destruct w; cbn; eauto.
Qed.

Lemma step_rel : forall t x1 X1 pos s S (kt : bool),
  Z.land (Z.shiftr (nth (pos / 8) t 0) (Z.of_nat (pos mod 8))) 1 = (if kt then 1 else 0) ->
  crel x1 X1 -> srel s S -> srel (ladder_step t x1 pos s) (round X1 kt S).
Proof.
  intros t x1 X1 pos [[[[x2 z2] x3] z3] w] [[[[X2 Z2] X3] Z3] W] kt Hb H1 (A2 & B2 & A3 & B3 & Hw).
  unfold ladder_step, round. rewrite Hb. subst w.
  replace (Z.lxor (if W then 1 else 0) (if kt then 1 else 0)) with (if xorb W kt then 1 else 0)
    by (destruct W, kt; reflexivity).
  destruct (swap_rel x2 x3 X2 X3 (xorb W kt) A2 A3) as (x2' & x3' & -> & A2' & A3').
  destruct (swap_rel z2 z3 Z2 Z3 (xorb W kt) B2 B3) as (z2' & z3' & -> & B2' & B3').
  destruct (cswap (xorb W kt) X2 X3) as [X2' X3']. destruct (cswap (xorb W kt) Z2 Z3) as [Z2' Z3'].
  cbn [fst snd] in *. clear A2 B2 A3 B3 Hb W X2 X3 Z2 Z3 x2 x3 z2 z3.
  pose proof (c_add _ _ _ _ A2' B2') as Ha.
  pose proof (c_sub _ _ _ _ A2' (crel_l _ _ B2')) as Hbb.
  pose proof (c_sq _ _ Ha) as Haa. pose proof (c_sq _ _ Hbb) as Hb2.
  pose proof (c_sub _ _ _ _ Haa (crel_l _ _ Hb2)) as He.
  pose proof (c_mul _ _ _ _ (c_sub _ _ _ _ A3' (crel_l _ _ B3')) Ha) as Hda.
  pose proof (c_mul _ _ _ _ (c_add _ _ _ _ A3' B3') Hbb) as Hcb.
  pose proof (c_sq _ _ (c_add _ _ _ _ Hda Hcb)) as Hx3.
  pose proof (c_mul _ _ _ _ (crel_l _ _ (c_sq _ _ (c_sub _ _ _ _ Hda (crel_l _ _ Hcb)))) (crel_l _ _ H1)) as Hz3.
  pose proof (c_mul _ _ _ _ (c_add _ _ _ _ (c_mul32 _ _ He) Hb2) He) as Hz2.
  unfold srel. split; [now apply c_mul; apply crel_l|].
  split; [|split; [exact Hx3|split; [|reflexivity]]].
  - eapply crel_cong; [exact Hz2|].
    set (AA := mul (add X2' Z2') (add X2' Z2')) in *. set (BB := mul (sub X2' Z2') (sub X2' Z2')) in *.
    set (E := sub AA BB) in *. assert (CE : cong E (AA - BB)) by apply cong_m.
    clearbody E. clearbody AA BB. clear - CE.
    unfold mul, add, a24. apply cong_trans with ((121666 * E + BB) * E).
    + eapply cong_trans; [apply cong_m|]. apply cong_mul; [|apply cong_refl].
      eapply cong_trans; [apply cong_m|]. apply cong_add; [apply cong_m|apply cong_refl].
    + apply cong_sym. eapply cong_trans; [apply cong_m|]. rewrite (Z.mul_comm E).
      apply cong_mul; [|apply cong_refl]. eapply cong_trans; [apply cong_m|].
      eapply cong_trans; [apply cong_add; [apply cong_refl|apply cong_m]|].
      destruct CE as [k Hk]. exists (- k).
      assert (AA = E + BB - k * P) as -> by lia. ring.
  - unfold mul at 1. unfold mul at 1 in Hz3. rewrite (Z.mul_comm X1). exact Hz3.
Qed.

Lemma ladder_rel : forall t k x1 X1,
  (forall pos, (pos < 255)%nat ->
     Z.land (Z.shiftr (nth (pos / 8) t 0) (Z.of_nat (pos mod 8))) 1 =
     if Z.testbit k (Z.of_nat pos) then 1 else 0) ->
  crel x1 X1 ->
  forall n s S, (n <= 255)%nat -> srel s S -> srel (ladder t x1 n s) (rounds X1 k n S).
Proof.
  intros t k x1 X1 Hb H1. induction n as [|n IH]; intros s S Hn Hs; [exact Hs|].
  cbn [ladder rounds]. apply IH; [lia|]. apply step_rel; [apply Hb; lia|exact H1|exact Hs].
Qed.

(** ** bytes *)
Definition byteZ (b : Z) : Prop := 0 <= b < 256.

Lemma le_nonneg : forall l, Forall byteZ l -> 0 <= le l < 256 ^ Z.of_nat (length l).
Proof.
  induction 1 as [|b l Hb Hl IH]; [cbn; lia|].
  cbn [le length]. rewrite Nat2Z.inj_succ, Z.pow_succ_r by lia. unfold byteZ in Hb. lia.
Qed.
Lemma le_app : forall a b, le (a ++ b) = le a + 256 ^ Z.of_nat (length a) * le b.
Proof.
  induction a as [|x a IH]; intros b; [cbn [app le length]; change (256 ^ Z.of_nat 0) with 1; lia|].
  cbn [app le length]. rewrite IH, Nat2Z.inj_succ, Z.pow_succ_r by lia. ring.
Qed.

Lemma lor_disj : forall a b n, 0 <= n -> 0 <= a < 2 ^ n -> Z.lor a (b * 2 ^ n) = a + b * 2 ^ n.
Proof. intros a b n Hn Ha. rewrite Z.lor_comm, ZUtil.lor_mul_pow2 by assumption. lia. Qed.


Lemma skipn_nth : forall n (s : list Z), (n < length s)%nat -> skipn n s = nth n s 0 :: skipn (S n) s.
Proof.
  induction n as [|n IH]; intros [|x s] H; cbn [length] in H; try lia; [reflexivity|].
  cbn [skipn nth]. rewrite IH by lia. reflexivity.
Qed.

Lemma ld_go : forall s i m j, Forall byteZ s ->
  fold_right (fun k a => Z.lor (ld8 s i k) a) 0 (seq j m) =
  2 ^ (8 * Z.of_nat j) * le (firstn m (skipn (i + j) s)).
Proof.
  intros s i m j Hs. revert j. induction m as [|m IH]; intros j; [cbn [seq fold_right firstn le]; lia|].
  cbn [seq fold_right]. rewrite IH. unfold ld8.
  rewrite Z.shiftl_mul_pow2 by lia.
  replace (8 * Z.of_nat (Datatypes.S j)) with (8 * Z.of_nat j + 8) by lia.
  rewrite Z.pow_add_r by lia.
  destruct (Nat.lt_ge_cases (i + j) (length s)) as [L|L].
  - rewrite (skipn_nth (i + j) s L). replace (i + Datatypes.S j)%nat with (Datatypes.S (i + j)) by lia.
    cbn [firstn le]. set (b := nth (i + j) s 0). set (X := le _).
    assert (Hb : byteZ b) by (apply (proj1 (Forall_forall _ _) Hs); apply nth_In; exact L).
    unfold byteZ in Hb.
    replace (2 ^ (8 * Z.of_nat j) * 2 ^ 8 * X) with (X * 2 ^ 8 * 2 ^ (8 * Z.of_nat j)) by ring.
    rewrite <- !Z.shiftl_mul_pow2 by lia. rewrite <- Z.shiftl_lor.
    rewrite (Z.shiftl_mul_pow2 X) by lia. rewrite lor_disj by lia.
    rewrite Z.shiftl_mul_pow2 by lia. change (2 ^ 8) with 256. ring.
  - rewrite (nth_overflow s) by lia. rewrite !(skipn_all2 s) by lia. rewrite !firstn_nil. cbn [le].
    rewrite Z.mul_0_l, !Z.mul_0_r. reflexivity.
Qed.

Lemma Forall_firstn : forall n (s : list Z), Forall byteZ s -> Forall byteZ (firstn n s).
Proof. intros n s H. rewrite <- (firstn_skipn n s) in H. apply Forall_app in H. apply H. Qed.
Lemma Forall_skipn : forall n (s : list Z), Forall byteZ s -> Forall byteZ (skipn n s).
Proof. intros n s H. rewrite <- (firstn_skipn n s) in H. apply Forall_app in H. apply H. Qed.

Lemma ld64_le : forall s i, Forall byteZ s -> (i + 8 <= length s)%nat ->
  ld64 s i = le s / 2 ^ (8 * Z.of_nat i) mod 2 ^ 64.
Proof.
  intros s i Hs Hl. unfold ld64. rewrite ld_go by assumption. rewrite Nat.add_0_r.
  change (2 ^ (8 * Z.of_nat 0)) with 1. rewrite Z.mul_1_l.
  rewrite <- (firstn_skipn i s) at 2. rewrite le_app, firstn_length, Nat.min_l by lia.
  change 256 with (2 ^ 8). rewrite <- Z.pow_mul_r by lia.
  assert (H1 : Forall byteZ (firstn i s)) by now apply Forall_firstn.
  assert (H2 : Forall byteZ (skipn i s)) by now apply Forall_skipn.
  pose proof (le_nonneg _ H1) as B1. rewrite firstn_length, Nat.min_l in B1 by lia.
  change 256 with (2 ^ 8) in B1. rewrite <- Z.pow_mul_r in B1 by lia.
  rewrite (Z.mul_comm (2 ^ _)), Z.div_add by (apply Z.pow_nonzero; lia).
  rewrite Z.div_small by assumption. rewrite Z.add_0_l.
  rewrite <- (firstn_skipn 8 (skipn i s)) at 2. rewrite le_app.
  rewrite firstn_length, skipn_length, Nat.min_l by lia.
  change (256 ^ Z.of_nat 8) with (2 ^ 64). rewrite (Z.mul_comm (2 ^ 64)), Z.mod_add by lia.
  symmetry. apply Z.mod_small.
  pose proof (le_nonneg (firstn 8 (skipn i s)) (Forall_firstn 8 _ H2)) as B2.
  rewrite firstn_length, skipn_length, Nat.min_l in B2 by lia. exact B2.
Qed.

Lemma limb_le : forall V a b, 0 <= a -> 0 <= b <= 13 ->
  msk (Z.shiftr (V / 2 ^ a mod 2 ^ 64) b) = V / 2 ^ (a + b) mod B51.
Proof.
  intros V a b Ha Hb. unfold msk. change 2251799813685247 with (Z.ones 51).
  change B51 with (2 ^ 51). rewrite <- (Z.land_ones _ 51) by lia.
  apply Z.bits_inj'. intros n Hn. rewrite !Z.land_spec.
  destruct (Z.ltb_spec n 51) as [L|L].
  - rewrite !Z.ones_spec_low by lia. rewrite !andb_true_r.
    rewrite Z.shiftr_spec by lia. rewrite Z.mod_pow2_bits_low by lia.
    rewrite !Z.div_pow2_bits by lia. apply (f_equal (Z.testbit V)). lia.
  - rewrite !Z.ones_spec_high by lia. now rewrite !andb_false_r.
Qed.

Lemma frombytes_ok : forall s, length s = 32%nat -> Forall byteZ s ->
  tight (fe_frombytes s) /\ val (fe_frombytes s) = decode_u s.
Proof.
  intros s L Hs. unfold fe_frombytes. rewrite !ld64_le by (assumption || lia).
  pose proof (limb_le (le s) (8 * Z.of_nat 0) 0 ltac:(lia) ltac:(lia)) as L0.
  rewrite Z.shiftr_0_r in L0. rewrite L0, !limb_le by lia.
  change (8 * Z.of_nat 0 + 0) with 0. change (8 * Z.of_nat 6 + 3) with 51.
  change (8 * Z.of_nat 12 + 6) with 102. change (8 * Z.of_nat 19 + 1) with 153.
  change (8 * Z.of_nat 24 + 12) with 204.
  change (2 ^ 0) with 1. rewrite Z.div_1_r.
  change (2 ^ 102) with (2 ^ 51 * 2 ^ 51). change (2 ^ 153) with (2 ^ 51 * 2 ^ 51 * 2 ^ 51).
  change (2 ^ 204) with (2 ^ 51 * 2 ^ 51 * 2 ^ 51 * 2 ^ 51). change (2 ^ 51) with B51.
  rewrite <- !Z.div_div by lia.
  unfold decode_u. generalize (le s). intros V.
  pose proof (Z.div_mod V (2 ^ 255) ltac:(lia)) as D. pose proof (Z.mod_pos_bound V (2 ^ 255) ltac:(lia)) as M.
  change (2 ^ 255) with 57896044618658097711785492504343953926634992332820282019728792003956564819968 in *.
  split_div V q0 a0. split_div q0 q1 a1. split_div q1 q2 a2. split_div q2 q3 a3. split_div q3 q4 a4.
  split; [unfold tight; cbn [bnd]; lia|]. cbn [val]. lia.
Qed.

(** ** fe25519_reduce gives the canonical limbs *)
Lemma round1 : forall f, tight f ->
  let '(t0, t1, t2, t3, t4) := red_round f in
  (0 <= t0 < B51 + 57 /\ 0 <= t1 < B51 /\ 0 <= t2 < B51 /\ 0 <= t3 < B51 /\ 0 <= t4 < B51) /\
  cong (val (t0, t1, t2, t3, t4)) (val f).
Proof.
  intros [[[[h0 h1] h2] h3] h4] (G0 & G1 & G2 & G3 & G4).
  unfold red_round. rewrite ?msk_mod, ?shr_div.
  split_div h0 c0 a0. rewrite (u128_id (h1 + c0)) by lia.
  split_div (h1 + c0) c1 a1. rewrite (u128_id (h2 + c1)) by lia.
  split_div (h2 + c1) c2 a2. rewrite (u128_id (h3 + c2)) by lia.
  split_div (h3 + c2) c3 a3. rewrite (u128_id (h4 + c3)) by lia.
  split_div (h4 + c3) c4 a4. rewrite (u128_id (a0 + 19 * c4)) by lia.
  split; [lia|]. exists (- c4). cbn [val]. lia.
Qed.

Lemma round2 : forall t0 t1 t2 t3 t4,
  0 <= t0 < B51 + 57 /\ 0 <= t1 < B51 /\ 0 <= t2 < B51 /\ 0 <= t3 < B51 /\ 0 <= t4 < B51 ->
  let r := red_round (t0, t1, t2, t3, t4) in
  bnd B51 r /\ cong (val r) (val (t0, t1, t2, t3, t4)).
Proof.
  intros h0 h1 h2 h3 h4 (G0 & G1 & G2 & G3 & G4). cbn zeta.
  unfold red_round. rewrite ?msk_mod, ?shr_div.
  split_div h0 c0 a0. rewrite (u128_id (h1 + c0)) by lia.
  split_div (h1 + c0) c1 a1. rewrite (u128_id (h2 + c1)) by lia.
  split_div (h2 + c1) c2 a2. rewrite (u128_id (h3 + c2)) by lia.
  split_div (h3 + c2) c3 a3. rewrite (u128_id (h4 + c3)) by lia.
  split_div (h4 + c3) c4 a4. rewrite (u128_id (a0 + 19 * c4)) by lia.
  split; [cbn [bnd]; lia|]. exists (- c4). cbn [val]. lia.
Qed.

Lemma last_ok : forall f, bnd B51 f ->
  bnd B51 (red_last (red_round (red_add19 f))) /\
  val (red_last (red_round (red_add19 f))) = val f mod p25519.
Proof.
  intros [[[[h0 h1] h2] h3] h4] (G0 & G1 & G2 & G3 & G4).
  unfold red_add19. rewrite (u128_id (h0 + 19)) by lia.
  unfold red_round. rewrite ?msk_mod, ?shr_div.
  split_div (h0 + 19) c0 a0. rewrite (u128_id (h1 + c0)) by lia.
  split_div (h1 + c0) c1 a1. rewrite (u128_id (h2 + c1)) by lia.
  split_div (h2 + c1) c2 a2. rewrite (u128_id (h3 + c2)) by lia.
  split_div (h3 + c2) c3 a3. rewrite (u128_id (h4 + c3)) by lia.
  split_div (h4 + c3) c4 a4. rewrite (u128_id (a0 + 19 * c4)) by lia.
  assert (Hm : val (h0, h1, h2, h3, h4) mod p25519 =
    val (a0 + 19 * c4, a1, a2, a3, a4) - 19).
  { rewrite p25519_eq. symmetry. apply (Z.mod_unique_pos _ P c4); cbn [val]; lia. }
  assert (R : 0 <= a0 + 19 * c4 < B51 + 20) by lia.
  assert (V : 19 <= val (a0 + 19 * c4, a1, a2, a3, a4) < P + 19)
    by (assert (0 <= val (h0, h1, h2, h3, h4) mod p25519 < p25519) by (apply Z.mod_pos_bound; rewrite p25519_eq; lia);
        rewrite p25519_eq in *; lia).
  assert (A : 0 <= a1 < B51 /\ 0 <= a2 < B51 /\ 0 <= a3 < B51 /\ 0 <= a4 < B51) by (repeat split; lia).
  rewrite Hm. clear - R V A.
  generalize dependent (a0 + 19 * c4). intros e0 R V.
  unfold red_last. rewrite ?msk_mod, ?shr_div.
  change (2251799813685248 - 19) with 2251799813685229. change (2251799813685248 - 1) with 2251799813685247.
  rewrite (u128_id (e0 + _)), (u128_id (a1 + _)), (u128_id (a2 + _)), (u128_id (a3 + _)), (u128_id (a4 + _)) by lia.
  split_div (e0 + 2251799813685229) c0 b0. rewrite (u128_id (_ + c0)) by lia.
  split_div (a1 + 2251799813685247 + c0) c1 b1. rewrite (u128_id (_ + c1)) by lia.
  split_div (a2 + 2251799813685247 + c1) c2 b2. rewrite (u128_id (_ + c2)) by lia.
  split_div (a3 + 2251799813685247 + c2) c3 b3. rewrite (u128_id (_ + c3)) by lia.
  split_div (a4 + 2251799813685247 + c3) c5 b4.
  rewrite !u64_id by lia. cbn [val] in *. split; [cbn [bnd]; lia|]. cbn [val]. lia.
Qed.

Lemma reduce_ok : forall f a, crel f a ->
  bnd B51 (fe_reduce f) /\ val (fe_reduce f) = a mod p25519.
Proof.
  intros f a [T C]. unfold fe_reduce. pose proof (round1 f T) as R1.
  destruct (red_round f) as [[[[t0 t1] t2] t3] t4]. destruct R1 as [B1 C1].
  destruct (round2 _ _ _ _ _ B1) as [B2 C2].
  destruct (last_ok _ B2) as [B3 V]. split; [exact B3|]. rewrite V.
  apply cong_mod. eapply cong_trans; [exact C2|]. eapply cong_trans; [exact C1|exact C].
Qed.
