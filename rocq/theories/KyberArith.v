(** Reductions of kyber_reduce.h. *)
From Verif Require Import Bytes KyberModel KyberSpec.
Require Import Lia.

Lemma s16_range : forall x, -32768 <= s16 x <= 32767.
Proof. intros. unfold s16. pose proof (Z.mod_pos_bound (x + 32768) 65536). lia. Qed.
Lemma s16_id : forall x, -32768 <= x <= 32767 -> s16 x = x.
Proof. intros. unfold s16. rewrite Z.mod_small; lia. Qed.
Lemma s16_cong : forall x, s16 x mod 65536 = x mod 65536.
Proof.
  intros. unfold s16. rewrite Zminus_mod_idemp_l. f_equal. lia.
Qed.
Lemma s16_div : forall x, exists k, s16 x = x + k * 65536.
Proof.
  intros. unfold s16. pose proof (Z.div_mod (x + 32768) 65536). exists (- ((x + 32768) / 65536)). lia.
Qed.

(** the difference whose high half is the result, an exact multiple of 2^16 *)
Lemma mont_exact : forall a, exists m, a - s16 (s16 a * -3327) * KQ = m * 65536.
Proof.
  intros. destruct (s16_div a) as [k1 E1]. destruct (s16_div (s16 a * -3327)) as [k2 E2].
  rewrite E2, E1. unfold KQ. exists (a * 169 + k1 * 11075583 - k2 * 3329). lia.
Qed.

Lemma mont_ok : forall a, -109084672 <= a <= 109084671 ->
  exists m, a - s16 (s16 a * -3327) * KQ = m * 65536 /\ -3328 <= m <= 3328 /\ montgomery_reduce a = m.
Proof.
  intros a H. destruct (mont_exact a) as [m E]. exists m. split; auto.
  pose proof (s16_range (s16 a * -3327)). unfold KQ in *. assert (-3328 <= m <= 3328) by lia. split; auto.
  unfold montgomery_reduce, KQ. cbv zeta. rewrite E, Z.shiftr_div_pow2 by lia. change (2 ^ 16) with 65536.
  rewrite Z.div_mul by lia. apply s16_id. lia.
Qed.

Lemma mont_mod : forall a, -109084672 <= a <= 109084671 -> (montgomery_reduce a * 65536) mod q = a mod q.
Proof.
  intros a H. destruct (mont_ok a H) as [m [E [_ ->]]]. rewrite <- E. unfold KQ, q.
  replace (a - s16 (s16 a * -3327) * 3329) with (a + - s16 (s16 a * -3327) * 3329) by lia. apply Z_mod_plus_full.
Qed.
Lemma mont_range : forall a, -109084672 <= a <= 109084671 -> -3328 <= montgomery_reduce a <= 3328.
Proof. intros a H. destruct (mont_ok a H) as [m [E [R ->]]]. auto. Qed.

(** 169 = 2^-16 mod q *)
Lemma mont_inv : forall a, -109084672 <= a <= 109084671 -> montgomery_reduce a mod q = (169 * a) mod q.
Proof.
  intros a H. pose proof (mont_mod a H) as E.
  rewrite Z.mul_mod, <- E, <- Z.mul_mod by (unfold q; lia).
  replace (169 * (montgomery_reduce a * 65536)) with (montgomery_reduce a + montgomery_reduce a * 3327 * q) by (unfold q; lia).
  rewrite Z_mod_plus_full. reflexivity.
Qed.

(** evaluation over an interval *)
Fixpoint zall (f : Z -> bool) (lo : Z) (n : nat) : bool :=
  match n with O => true | S n' => f lo && zall f (lo + 1) n' end.
Lemma zall_ok : forall f n lo, zall f lo n = true -> forall x, lo <= x < lo + Z.of_nat n -> f x = true.
Proof.
  induction n; intros lo H x Hx. lia. cbn [zall] in H. apply andb_prop in H. destruct H as [H1 H2].
  destruct (Z.eq_dec x lo) as [->|]; auto. apply (IHn (lo + 1)); auto. lia.
Qed.
Lemma cmod_range : forall a, -1664 <= cmod a <= 1664.
Proof. intros. unfold cmod, q. pose proof (Z.mod_pos_bound (a + 1664) 3329). lia. Qed.
Lemma cmod_mod : forall a, cmod a mod q = a mod q.
Proof. intros. unfold cmod. rewrite Zminus_mod_idemp_l. f_equal. lia. Qed.
Lemma cmod_unique : forall a b, a mod q = b mod q -> -1664 <= b <= 1664 -> cmod a = b.
Proof.
  intros a b E H. unfold cmod. rewrite Z.add_mod, E, <- Z.add_mod by (unfold q; lia). rewrite Z.mod_small. lia. unfold q. lia.
Qed.
Lemma s16_sub : forall a b, s16 (a - s16 b) = s16 (a - b).
Proof.
  intros a b. destruct (s16_div b) as [k ->]. unfold s16. replace (a - (b + k * 65536) + 32768) with (a - b + 32768 + (- k) * 65536) by lia.
  rewrite Z.mod_add by lia. reflexivity.
Qed.
Lemma barrett_v_eq : barrett_v = 20159.
Proof. reflexivity. Qed.
(** 20159 q = 2^26 + 447 *)
Lemma barrett_ok : forall a, -32768 <= a <= 32767 -> barrett_reduce a = cmod a.
Proof.
  intros a H. unfold barrett_reduce. rewrite barrett_v_eq. rewrite Z.shiftr_div_pow2 by lia.
  change (2 ^ 26) with 67108864. change (2 ^ 25) with 33554432. unfold KQ.
  pose proof (Z.div_mod (20159 * a + 33554432) 67108864 ltac:(lia)) as D.
  pose proof (Z.mod_pos_bound (20159 * a + 33554432) 67108864 ltac:(lia)) as B.
  set (t := (20159 * a + 33554432) / 67108864) in *. set (r := (20159 * a + 33554432) mod 67108864) in *. clearbody t r.
  assert (T : -10 <= t <= 10) by lia. rewrite (s16_id t) by lia.
  assert (R : -1664 <= a - t * 3329 <= 1664) by lia.
  symmetry.
  rewrite (s16_sub a (t * 3329)). rewrite s16_id by lia.
  apply cmod_unique; [|exact R]. unfold q. replace (a - t * 3329) with (a + (- t) * 3329) by lia. rewrite Z.mod_add by lia. reflexivity.
Qed.
Lemma barrett_mod : forall a, -32768 <= a <= 32767 -> barrett_reduce a mod q = a mod q.
Proof. intros. rewrite barrett_ok; auto. apply cmod_mod. Qed.
Lemma barrett_range : forall a, -32768 <= a <= 32767 -> -1664 <= barrett_reduce a <= 1664.
Proof. intros. rewrite barrett_ok; auto. apply cmod_range. Qed.

(** fqmul *)
Lemma fqmul_mod : forall a b, -109084672 <= a * b <= 109084671 -> fqmul a b mod q = (169 * (a * b)) mod q.
Proof. intros. apply mont_inv. auto. Qed.
Lemma fqmul_range : forall a b, -109084672 <= a * b <= 109084671 -> -3328 <= fqmul a b <= 3328.
Proof. intros. apply mont_range. auto. Qed.
Lemma prod_bound : forall a b A B, - A <= a <= A -> - B <= b <= B -> - (A * B) <= a * b <= A * B.
Proof. intros. nia. Qed.
