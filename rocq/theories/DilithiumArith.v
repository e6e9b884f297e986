(** Reductions of dilithium_reduce.h and rounding of dilithium_rounding.c. *)
From Verif Require Import Bytes KyberArith DilithiumModel DilithiumSpec.
Require Import Lia.

Lemma dq_pos : 0 < dq.
Proof. reflexivity. Qed.
Lemma s32_range : forall x, -2147483648 <= s32 x <= 2147483647.
Proof. intros. unfold s32. pose proof (Z.mod_pos_bound (x + 2147483648) 4294967296). lia. Qed.
Lemma s32_id : forall x, -2147483648 <= x <= 2147483647 -> s32 x = x.
Proof. intros. unfold s32. rewrite Z.mod_small; lia. Qed.
Lemma s32_div : forall x, exists k, s32 x = x + k * 4294967296.
Proof.
  intros. unfold s32. pose proof (Z.div_mod (x + 2147483648) 4294967296). exists (- ((x + 2147483648) / 4294967296)). lia.
Qed.

(** ** montgomery_reduce *)
Lemma dmont_exact : forall a, exists m, a - s32 (s32 a * 58728449) * DQ = m * 4294967296.
Proof.
  intros. destruct (s32_div a) as [k1 E1]. destruct (s32_div (s32 a * 58728449)) as [k2 E2].
  rewrite E2, E1. unfold DQ. exists (- a * 114592 - k1 * 492168892383233 - k2 * 8380417). lia.
Qed.
Lemma dmont_ok : forall a, -17996808470921216 <= a < 17996808470921216 ->
  exists m, a - s32 (s32 a * 58728449) * DQ = m * 4294967296 /\ -8380417 < m < 8380417 /\ d_mont a = m.
Proof.
  intros a H. destruct (dmont_exact a) as [m E]. exists m. split; auto.
  pose proof (s32_range (s32 a * 58728449)). unfold DQ in *. assert (-8380417 < m < 8380417) by lia. split; auto.
  unfold d_mont, DQ. cbv zeta. rewrite E, Z.shiftr_div_pow2 by lia. change (2 ^ 32) with 4294967296.
  rewrite Z.div_mul by lia. apply s32_id. lia.
Qed.
Lemma dmont_mod : forall a, -17996808470921216 <= a < 17996808470921216 -> (d_mont a * 2 ^ 32) mod dq = a mod dq.
Proof.
  intros a H. destruct (dmont_ok a H) as [m [E [_ ->]]]. change (2 ^ 32) with 4294967296. rewrite <- E. unfold DQ, dq.
  replace (a - s32 (s32 a * 58728449) * 8380417) with (a + - s32 (s32 a * 58728449) * 8380417) by lia. apply Z_mod_plus_full.
Qed.
Lemma dmont_range : forall a, -17996808470921216 <= a < 17996808470921216 -> -8380417 < d_mont a < 8380417.
Proof. intros a H. destruct (dmont_ok a H) as [m [E [R ->]]]. auto. Qed.
(** 8265825 = 2^-32 mod q *)
Lemma dmont_inv : forall a, -17996808470921216 <= a < 17996808470921216 -> d_mont a mod dq = (8265825 * a) mod dq.
Proof.
  intros a H. pose proof (dmont_mod a H) as E. change (2 ^ 32) with 4294967296 in E.
  rewrite Z.mul_mod, <- E, <- Z.mul_mod by (unfold dq; lia).
  replace (8265825 * (d_mont a * 4294967296)) with (d_mont a + d_mont a * 4236238847 * dq) by (unfold dq; lia).
  rewrite Z_mod_plus_full. reflexivity.
Qed.

(** ** reduce32, caddq, freeze *)
Lemma dreduce_ok : forall a, -2147483648 <= a <= 2143289343 ->
  exists t, d_reduce32 a = a - t * 8380417 /\ -256 <= t <= 255 /\ t * 8388608 - 4194304 <= a <= t * 8388608 + 4194303.
Proof.
  intros a H. unfold d_reduce32, DQ. cbv zeta. rewrite (s32_id (a + 4194304)) by lia.
  rewrite Z.shiftr_div_pow2 by lia. change (2 ^ 23) with 8388608.
  set (t := (a + 4194304) / 8388608). exists t.
  pose proof (Z.div_mod (a + 4194304) 8388608 ltac:(lia)). pose proof (Z.mod_pos_bound (a + 4194304) 8388608 ltac:(lia)). fold t in H0.
  assert (-256 <= t <= 255) by lia. rewrite (s32_id (t * 8380417)) by lia. split. apply s32_id. lia. lia.
Qed.
Lemma dreduce_mod : forall a, -2147483648 <= a <= 2143289343 -> d_reduce32 a mod dq = a mod dq.
Proof.
  intros a H. destruct (dreduce_ok a H) as [t [-> _]]. unfold dq. replace (a - t * 8380417) with (a + (-t) * 8380417) by lia.
  apply Z_mod_plus_full.
Qed.
Lemma dreduce_range : forall a, -2147483648 <= a <= 2143289343 -> -6283009 <= d_reduce32 a <= 6283008.
Proof. intros a H. destruct (dreduce_ok a H) as [t [-> [B C]]]. lia. Qed.
Lemma dcaddq_ok : forall a, -2147483648 <= a <= 2147483647 -> d_caddq a = if a <? 0 then a + 8380417 else a.
Proof.
  intros a H. unfold d_caddq, DQ. destruct (Z.ltb_spec a 0).
  - replace (Z.shiftr a 31) with (-1). rewrite Z.land_m1_l. apply s32_id. lia.
    rewrite Z.shiftr_div_pow2 by lia. change (2 ^ 31) with 2147483648.
    apply Z.div_unique with (a + 2147483648); lia.
  - replace (Z.shiftr a 31) with 0. rewrite Z.land_0_l, Z.add_0_r. apply s32_id. lia.
    rewrite Z.shiftr_div_pow2 by lia. symmetry. apply Z.div_small. lia.
Qed.
Lemma dcaddq_mod : forall a, -2147483648 <= a <= 2147483647 -> d_caddq a mod dq = a mod dq.
Proof.
  intros a H. rewrite dcaddq_ok by auto. destruct (a <? 0); auto. replace (a + 8380417) with (a + 1 * dq) by (unfold dq; lia).
  apply Z_mod_plus_full.
Qed.
(** a residue above -q is made nonnegative *)
Lemma dcaddq_small : forall a, -8380417 < a < 8380417 -> d_caddq a = a mod dq.
Proof.
  intros a H. assert (E := dcaddq_mod a ltac:(lia)). rewrite <- E. symmetry. apply Z.mod_small.
  rewrite dcaddq_ok by lia. unfold dq. destruct (Z.ltb_spec a 0); lia.
Qed.
Lemma dfreeze_ok : forall a, -2147483648 <= a <= 2143289343 -> d_freeze a = a mod dq.
Proof.
  intros a H. unfold d_freeze. pose proof (dreduce_range a H). rewrite dcaddq_small by lia. apply dreduce_mod. auto.
Qed.

(** ** power2round *)
Lemma mods_range : forall m alpha, 0 < alpha -> - alpha < 2 * mods m alpha <= alpha.
Proof.
  intros m al H. unfold mods. cbv zeta. pose proof (Z.mod_pos_bound m al H).
  pose proof (Z.div_mod al 2 ltac:(lia)). pose proof (Z.mod_pos_bound al 2 ltac:(lia)). destruct (Z.ltb_spec (al / 2) (m mod al)); lia.
Qed.
Lemma mods_div : forall m alpha, 0 < alpha -> exists k, m = k * alpha + mods m alpha.
Proof.
  intros m al H. unfold mods. cbv zeta. pose proof (Z.div_mod m al ltac:(lia)).
  destruct (al / 2 <? m mod al). exists (m / al + 1). lia. exists (m / al). lia.
Qed.
Lemma mods_unique : forall m alpha r k, 0 < alpha -> m = k * alpha + r -> - alpha < 2 * r <= alpha -> mods m alpha = r.
Proof.
  intros m al r k H E R. destruct (mods_div m al H) as [k' E']. pose proof (mods_range m al H).
  assert (A : (k - k') * al = mods m al - r) by lia. assert (k - k' = 0) by nia. nia.
Qed.
Lemma dpower2round_ok : forall a, 0 <= a < 8380417 -> d_power2round a = Power2Round a.
Proof.
  intros a H. unfold d_power2round, Power2Round. cbv zeta. rewrite (Z.mod_small a dq) by (unfold dq; lia).
  rewrite (s32_id (a + 4096)), (s32_id (a + 4096 - 1)) by lia.
  rewrite Z.shiftr_div_pow2, Z.shiftl_mul_pow2 by lia. change (2 ^ 13) with 8192.
  set (t := (a + 4096 - 1) / 8192).
  pose proof (Z.div_mod (a + 4096 - 1) 8192 ltac:(lia)). pose proof (Z.mod_pos_bound (a + 4096 - 1) 8192 ltac:(lia)). fold t in H0.
  rewrite (s32_id (t * 8192)), (s32_id (a - t * 8192)) by lia.
  rewrite (mods_unique a 8192 (a - t * 8192) t) by lia. f_equal. replace (a - (a - t * 8192)) with (t * 8192) by lia.
  rewrite Z.div_mul; lia.
Qed.
(** the two parts: a = a1 2^13 + a0 *)
Lemma dpower2round_eq : forall a, 0 <= a < 8380417 ->
  a = fst (d_power2round a) * 8192 + snd (d_power2round a) /\ -4096 < snd (d_power2round a) <= 4096 /\ 0 <= fst (d_power2round a) < 1024.
Proof.
  intros a H. rewrite dpower2round_ok by auto. unfold Power2Round. cbv zeta. rewrite (Z.mod_small a dq) by (unfold dq; lia).
  cbn [fst snd]. change (2 ^ 13) with 8192. destruct (mods_div a 8192 ltac:(lia)) as [k E]. pose proof (mods_range a 8192 ltac:(lia)).
  replace (a - mods a 8192) with (k * 8192) by lia. rewrite Z.div_mul by lia. lia.
Qed.

(** ** decompose *)
(** 1025 * 4092 = 2^22 - 4 and 11275 * 1488 = 2^24 - 16 *)
Lemma dec32_c : forall c, 0 <= c <= 65473 -> Z.shiftr (c * 1025 + 2097152) 22 = (c + 2045) / 4092.
Proof.
  intros c H. rewrite Z.shiftr_div_pow2 by lia. change (2 ^ 22) with 4194304. symmetry.
  pose proof (Z.div_mod (c * 1025 + 2097152) 4194304 ltac:(lia)). pose proof (Z.mod_pos_bound (c * 1025 + 2097152) 4194304 ltac:(lia)).
  pose proof (Z.div_mod (c + 2045) 4092 ltac:(lia)). pose proof (Z.mod_pos_bound (c + 2045) 4092 ltac:(lia)). lia.
Qed.
Lemma dec88_c : forall c, 0 <= c <= 65473 -> Z.shiftr (c * 11275 + 8388608) 24 = (c + 743) / 1488.
Proof.
  intros c H. rewrite Z.shiftr_div_pow2 by lia. change (2 ^ 24) with 16777216. symmetry.
  pose proof (Z.div_mod (c * 11275 + 8388608) 16777216 ltac:(lia)). pose proof (Z.mod_pos_bound (c * 11275 + 8388608) 16777216 ltac:(lia)).
  pose proof (Z.div_mod (c + 743) 1488 ltac:(lia)). pose proof (Z.mod_pos_bound (c + 743) 1488 ltac:(lia)). lia.
Qed.

(** what both variants compute: a1 = ceil((a - g2) / 2 g2), 0 instead of (q - 1) / 2 g2 *)
Definition dec_of (g2 m a : Z) : Z * Z :=
  let r := (a + g2 - 1) / (2 * g2) in
  if r =? m then (0, a - dq) else (r, a - r * (2 * g2)).
Lemma decompose32 : forall a, 0 <= a < 8380417 -> d_decompose 261888 a = dec_of 261888 16 a.
Proof.
  intros a H. unfold d_decompose, dec_of. change (261888 =? (DQ - 1) / 32) with true. change ((DQ - 1) / 2) with 4190208. unfold DQ. cbv zeta iota.
  rewrite (s32_id (a + 127)) by lia. rewrite (Z.shiftr_div_pow2 (a + 127)) by lia. change (2 ^ 7) with 128.
  set (c := (a + 127) / 128).
  pose proof (Z.div_mod (a + 127) 128 ltac:(lia)) as E1. pose proof (Z.mod_pos_bound (a + 127) 128 ltac:(lia)) as E2. fold c in E1.
  rewrite (s32_id (c * 1025)), (s32_id (c * 1025 + 2097152)) by lia.
  rewrite dec32_c by lia.
  replace ((a + 261888 - 1) / (2 * 261888)) with ((c + 2045) / 4092).
  2: { pose proof (Z.div_mod (c + 2045) 4092 ltac:(lia)). pose proof (Z.mod_pos_bound (c + 2045) 4092 ltac:(lia)).
       apply Z.div_unique with (a + 261888 - 1 - 523776 * ((c + 2045) / 4092)); lia. }
  set (r := (c + 2045) / 4092).
  pose proof (Z.div_mod (c + 2045) 4092 ltac:(lia)) as E3. pose proof (Z.mod_pos_bound (c + 2045) 4092 ltac:(lia)) as E4. fold r in E3.
  assert (R : 0 <= r <= 16) by lia.
  change 15 with (Z.ones 4). rewrite Z.land_ones by lia. change (2 ^ 4) with 16.
  destruct (Z.eqb_spec r 16) as [->|N].
  - change (16 mod 16) with 0. change (s32 (0 * 2)) with 0. cbn [Z.mul]. change (s32 0) with 0. rewrite Z.sub_0_r.
    rewrite (s32_id a) by lia. rewrite (s32_id (4190208 - a)) by lia.
    replace (Z.shiftr (4190208 - a) 31) with (-1).
    2: { rewrite Z.shiftr_div_pow2 by lia. change (2 ^ 31) with 2147483648. apply Z.div_unique with (4190208 - a + 2147483648); lia. }
    rewrite Z.land_m1_l. rewrite s32_id by lia. unfold dq. f_equal. 
  - rewrite (Z.mod_small r 16) by lia. rewrite (s32_id (r * 2)), (s32_id (r * 2 * 261888)) by lia.
    rewrite (s32_id (a - r * 2 * 261888)) by lia. rewrite (s32_id (4190208 - _)) by lia.
    replace (Z.shiftr (4190208 - (a - r * 2 * 261888)) 31) with 0.
    2: { rewrite Z.shiftr_div_pow2 by lia. symmetry. apply Z.div_small. lia. }
    rewrite Z.land_0_l, Z.sub_0_r, s32_id by lia. f_equal. lia.
Qed.
Lemma decompose88 : forall a, 0 <= a < 8380417 -> d_decompose 95232 a = dec_of 95232 44 a.
Proof.
  intros a H. unfold d_decompose, dec_of. change (95232 =? (DQ - 1) / 32) with false. change ((DQ - 1) / 2) with 4190208. unfold DQ. cbv zeta iota.
  rewrite (s32_id (a + 127)) by lia. rewrite (Z.shiftr_div_pow2 (a + 127)) by lia. change (2 ^ 7) with 128.
  set (c := (a + 127) / 128).
  pose proof (Z.div_mod (a + 127) 128 ltac:(lia)) as E1. pose proof (Z.mod_pos_bound (a + 127) 128 ltac:(lia)) as E2. fold c in E1.
  rewrite (s32_id (c * 11275)), (s32_id (c * 11275 + 8388608)) by lia.
  rewrite dec88_c by lia.
  replace ((a + 95232 - 1) / (2 * 95232)) with ((c + 743) / 1488).
  2: { pose proof (Z.div_mod (c + 743) 1488 ltac:(lia)). pose proof (Z.mod_pos_bound (c + 743) 1488 ltac:(lia)).
       apply Z.div_unique with (a + 95232 - 1 - 190464 * ((c + 743) / 1488)); lia. }
  set (r := (c + 743) / 1488).
  pose proof (Z.div_mod (c + 743) 1488 ltac:(lia)) as E3. pose proof (Z.mod_pos_bound (c + 743) 1488 ltac:(lia)) as E4. fold r in E3.
  assert (R : 0 <= r <= 44) by lia.
  destruct (Z.eqb_spec r 44) as [->|N].
  - change (Z.lxor 44 (Z.land (Z.shiftr (s32 (43 - 44)) 31) 44)) with 0. change (s32 (0 * 2)) with 0. cbn [Z.mul]. change (s32 0) with 0. rewrite Z.sub_0_r.
    rewrite (s32_id a) by lia. rewrite (s32_id (4190208 - a)) by lia.
    replace (Z.shiftr (4190208 - a) 31) with (-1).
    2: { rewrite Z.shiftr_div_pow2 by lia. change (2 ^ 31) with 2147483648. apply Z.div_unique with (4190208 - a + 2147483648); lia. }
    rewrite Z.land_m1_l. rewrite s32_id by lia. unfold dq. f_equal.
  - rewrite (s32_id (43 - r)) by lia. replace (Z.shiftr (43 - r) 31) with 0.
    2: { rewrite Z.shiftr_div_pow2 by lia. symmetry. apply Z.div_small. lia. }
    rewrite Z.land_0_l, Z.lxor_0_r. rewrite (s32_id (r * 2)), (s32_id (r * 2 * 95232)) by lia.
    rewrite (s32_id (a - r * 2 * 95232)) by lia. rewrite (s32_id (4190208 - _)) by lia.
    replace (Z.shiftr (4190208 - (a - r * 2 * 95232)) 31) with 0.
    2: { rewrite Z.shiftr_div_pow2 by lia. symmetry. apply Z.div_small. lia. }
    rewrite Z.land_0_l, Z.sub_0_r, s32_id by lia. f_equal. lia.
Qed.
(** the two values of gamma2 *)
Definition is_g2 (g2 m : Z) : Prop := (g2 = 95232 /\ m = 44) \/ (g2 = 261888 /\ m = 16).
Lemma is_g2_m : forall g2 m, is_g2 g2 m -> m * (2 * g2) = dq - 1 /\ 1 < m /\ 0 < g2.
Proof. intros g2 m [[-> ->]|[-> ->]]; unfold dq; lia. Qed.
Lemma ddecompose_of : forall g2 m a, is_g2 g2 m -> 0 <= a < 8380417 -> d_decompose g2 a = dec_of g2 m a.
Proof. intros g2 m a [[-> ->]|[-> ->]] H. apply decompose88; auto. apply decompose32; auto. Qed.
Lemma Decompose_of : forall g2 m a, is_g2 g2 m -> 0 <= a < 8380417 -> Decompose g2 a = dec_of g2 m a.
Proof.
  intros g2 m a G H. destruct (is_g2_m _ _ G) as [E [E1 E0]]. unfold Decompose, dec_of. cbv zeta.
  rewrite (Z.mod_small a dq) by (unfold dq; lia).
  set (r := (a + g2 - 1) / (2 * g2)).
  pose proof (Z.div_mod (a + g2 - 1) (2 * g2) ltac:(lia)) as D. pose proof (Z.mod_pos_bound (a + g2 - 1) (2 * g2) ltac:(lia)). fold r in D.
  rewrite (mods_unique a (2 * g2) (a - r * (2 * g2)) r) by lia.
  replace (a - (a - r * (2 * g2))) with (r * (2 * g2)) by lia.
  destruct (Z.eqb_spec r m) as [->|N].
  - rewrite E, Z.eqb_refl. f_equal. lia.
  - destruct (Z.eqb_spec (r * (2 * g2)) (dq - 1)) as [F|F]. exfalso. apply N. nia.
    rewrite Z.div_mul by lia. reflexivity.
Qed.
Lemma ddecompose_ok : forall g2 m a, is_g2 g2 m -> 0 <= a < 8380417 -> d_decompose g2 a = Decompose g2 a.
Proof. intros g2 m a G H. rewrite (ddecompose_of g2 m), (Decompose_of g2 m); auto. Qed.

(** ** high and low parts *)
Definition dec_pair (g2 m r1 r0 : Z) : Prop := 0 <= r1 < m /\ ((- g2 < r0 <= g2) \/ (r1 = 0 /\ r0 = - g2)).
Lemma dec_of_pair : forall g2 m a, is_g2 g2 m -> 0 <= a < 8380417 ->
  dec_pair g2 m (fst (dec_of g2 m a)) (snd (dec_of g2 m a)) /\
  a = (fst (dec_of g2 m a) * (2 * g2) + snd (dec_of g2 m a)) mod dq.
Proof.
  intros g2 m a G H. destruct (is_g2_m _ _ G) as [E [E1 E0]]. unfold dec_of, dec_pair. cbv zeta.
  set (r := (a + g2 - 1) / (2 * g2)).
  pose proof (Z.div_mod (a + g2 - 1) (2 * g2) ltac:(lia)) as D. pose proof (Z.mod_pos_bound (a + g2 - 1) (2 * g2) ltac:(lia)). fold r in D.
  assert (R : 0 <= r <= m) by (clearbody r; destruct G as [[-> ->]|[-> ->]]; lia).
  destruct (Z.eqb_spec r m) as [->|N]; cbn [fst snd].
  - split. { unfold dq in *. lia. } rewrite Z.mul_0_l, Z.add_0_l. replace (a - dq) with (a + (-1) * dq) by lia.
    rewrite Z_mod_plus_full, Z.mod_small; auto.
  - split. lia. replace (r * (2 * g2) + (a - r * (2 * g2))) with a by lia. rewrite Z.mod_small; auto.
Qed.
Lemma dec_unique : forall g2 m r1 r0, is_g2 g2 m -> dec_pair g2 m r1 r0 ->
  dec_of g2 m ((r1 * (2 * g2) + r0) mod dq) = (r1, r0).
Proof.
  intros g2 m r1 r0 G [R1 R0]. destruct (is_g2_m _ _ G) as [E [E1 E0]]. unfold dec_of. cbv zeta.
  destruct (Z.lt_ge_cases (r1 * (2 * g2) + r0) 0) as [N|N].
  - assert (r1 = 0) by nia. subst r1. rewrite Z.mul_0_l, Z.add_0_l in *.
    replace (r0 mod dq) with (r0 + dq).
    2: { symmetry. rewrite <- (Z_mod_plus_full r0 1 dq), Z.mul_1_l. apply Z.mod_small. unfold dq in *. destruct G as [[-> ->]|[-> ->]]; lia. }
    replace ((r0 + dq + g2 - 1) / (2 * g2)) with m.
    2: { apply Z.div_unique with (r0 + g2); lia. }
    rewrite Z.eqb_refl. f_equal. lia.
  - rewrite Z.mod_small by nia. replace ((r1 * (2 * g2) + r0 + g2 - 1) / (2 * g2)) with r1.
    2: { apply Z.div_unique with (r0 + g2 - 1); lia. }
    destruct (Z.eqb_spec r1 m); [lia|]. f_equal. lia.
Qed.

(** ** use_hint *)
Lemma land_15 : forall x, Z.land x 15 = x mod 16.
Proof. intros. change 15 with (Z.ones 4). apply Z.land_ones. lia. Qed.
Lemma duse_hint_ok : forall g2 m a h, is_g2 g2 m -> 0 <= a < 8380417 -> h = 0 \/ h = 1 -> d_use_hint g2 a h = UseHint g2 h a.
Proof.
  intros g2 m a h G H Hh. unfold d_use_hint, UseHint. rewrite (ddecompose_ok g2 m) by auto.
  pose proof (dec_of_pair g2 m a G H) as [[P _] _]. rewrite <- Decompose_of in P by auto.
  destruct (Decompose g2 a) as [r1 r0]. cbn [fst] in P. destruct Hh as [-> | ->]; cbn [Z.eqb andb]. reflexivity.
  change (Pos.eqb 1 1) with true. cbn [andb].
  destruct G as [[-> ->]|[-> ->]].
  - change (95232 =? (DQ - 1) / 32) with false. change ((dq - 1) / (2 * 95232)) with 44. cbv iota.
    destruct (Z.ltb_spec 0 r0).
    + destruct (Z.eqb_spec r1 43) as [->|]. reflexivity. rewrite Z.mod_small; lia.
    + destruct (Z.leb_spec r0 0); [|lia]. destruct (Z.eqb_spec r1 0) as [->|]. reflexivity. rewrite Z.mod_small; lia.
  - change (261888 =? (DQ - 1) / 32) with true. change ((dq - 1) / (2 * 261888)) with 16. cbv iota. rewrite !land_15.
    destruct (Z.ltb_spec 0 r0). reflexivity. destruct (Z.leb_spec r0 0); [|lia]. reflexivity.
Qed.
(** recovery: w1 2 gamma2 + a0 has the high part w1 once the hint is applied *)
Lemma duse_make : forall g2 m w1 a0, is_g2 g2 m -> 0 <= w1 < m -> - (2 * g2) <= a0 <= 2 * g2 -> (a0 = - (2 * g2) -> w1 = 0) ->
  let a := (w1 * (2 * g2) + a0) mod dq in
  d_make_hint g2 a0 w1 = (if HighBits g2 a =? w1 then 0 else 1) /\ UseHint g2 (d_make_hint g2 a0 w1) a = w1.
Proof.
  intros g2 m w1 a0 G W A A2 a. destruct (is_g2_m _ _ G) as [E [E1 E0]].
  assert (Em : (dq - 1) / (2 * g2) = m) by (rewrite <- E; apply Z.div_mul; lia).
  assert (Ra : 0 <= a < 8380417) by (apply (Z.mod_pos_bound _ dq); reflexivity).
  assert (KEY : forall r1 r0 h, dec_pair g2 m r1 r0 -> (exists k, w1 * (2 * g2) + a0 = r1 * (2 * g2) + r0 + k * dq) ->
     d_make_hint g2 a0 w1 = h -> ((h = 0 /\ r1 = w1) \/ (h = 1 /\ 0 < r0 /\ r1 <> w1 /\ (r1 + 1) mod m = w1) \/ (h = 1 /\ r0 <= 0 /\ r1 <> w1 /\ (r1 - 1) mod m = w1)) ->
     d_make_hint g2 a0 w1 = (if HighBits g2 a =? w1 then 0 else 1) /\ UseHint g2 (d_make_hint g2 a0 w1) a = w1).
  { intros r1 r0 h P [k K] Eh C. rewrite Eh.
    assert (D : Decompose g2 a = (r1, r0)).
    { rewrite (Decompose_of g2 m a G Ra). unfold a. rewrite K, Z_mod_plus_full. apply dec_unique; auto. }
    unfold HighBits, UseHint. rewrite D, Em. cbn [fst].
    destruct C as [[-> ->]|[[-> [C1 [C2 C3]]]|[-> [C1 [C2 C3]]]]].
    - rewrite Z.eqb_refl. split; reflexivity.
    - destruct (Z.eqb_spec r1 w1); [lia|]. cbn [Z.eqb]. change (Pos.eqb 1 1) with true. destruct (Z.ltb_spec 0 r0); [|lia]. split; auto.
    - destruct (Z.eqb_spec r1 w1); [lia|]. cbn [Z.eqb]. change (Pos.eqb 1 1) with true. destruct (Z.ltb_spec 0 r0); [lia|].
      destruct (Z.leb_spec r0 0); [|lia]. split; auto. }
  assert (MH : d_make_hint g2 a0 w1 = if (g2 <? a0) || (a0 <? - g2) || ((a0 =? - g2) && negb (w1 =? 0)) then 1 else 0) by reflexivity.
  destruct (Z.lt_ge_cases g2 a0) as [C1|C1].
  - assert (HH : d_make_hint g2 a0 w1 = 1). { rewrite MH. destruct (Z.ltb_spec g2 a0); [reflexivity|lia]. }
    destruct (Z.eq_dec w1 (m - 1)) as [->|N].
    + apply (KEY 0 (a0 - 2 * g2 - 1) 1); auto. split; [lia|]. unfold dq in *. lia. exists 1. lia.
      right; right. split; auto. split. lia. split. lia. replace (0 - 1) with (m - 1 + (-1) * m) by lia. rewrite Z_mod_plus_full. apply Z.mod_small. lia.
    + apply (KEY (w1 + 1) (a0 - 2 * g2) 1); auto. split; lia. exists 0. lia.
      right; right. split; auto. split. lia. split. lia. rewrite Z.mod_small; lia.
  - destruct (Z.lt_ge_cases a0 (- g2)) as [C2|C2].
    + assert (HH : d_make_hint g2 a0 w1 = 1).
      { rewrite MH. destruct (Z.ltb_spec a0 (- g2)); [|lia]. rewrite orb_true_r. reflexivity. }
      destruct (Z.eq_dec w1 0) as [->|N].
      * apply (KEY (m - 1) (a0 + 2 * g2 + 1) 1); auto. split; lia. exists (-1). lia.
        right; left. split; auto. split. lia. split. lia. replace (m - 1 + 1) with (0 + 1 * m) by lia. rewrite Z_mod_plus_full. apply Z.mod_small. lia.
      * apply (KEY (w1 - 1) (a0 + 2 * g2) 1); auto. split; lia. exists 0. lia.
        right; left. split; auto. split. lia. split. lia. rewrite Z.mod_small; lia.
    + destruct (Z.eq_dec a0 (- g2)) as [Eq|N].
      * destruct (Z.eq_dec w1 0) as [->|N].
        -- apply (KEY 0 a0 0); auto. split; lia. exists 0. lia. rewrite MH. rewrite andb_false_r.
           destruct (Z.ltb_spec g2 a0); [lia|]. destruct (Z.ltb_spec a0 (- g2)); [lia|]. reflexivity.
        -- apply (KEY (w1 - 1) (a0 + 2 * g2) 1); auto. split; lia. exists 0. lia.
           rewrite MH. destruct (Z.eqb_spec a0 (- g2)); [|lia]. destruct (Z.eqb_spec w1 0); [lia|]. rewrite orb_true_r. reflexivity.
           right; left. split; auto. split. lia. split. lia. rewrite Z.mod_small; lia.
      * apply (KEY w1 a0 0); auto. split; lia. exists 0. lia. rewrite MH.
        destruct (Z.ltb_spec g2 a0); [lia|]. destruct (Z.ltb_spec a0 (- g2)); [lia|]. destruct (Z.eqb_spec a0 (- g2)); [lia|]. reflexivity.
Qed.
