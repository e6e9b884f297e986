(** * Curve25519Bytes: encodings, clamping, the small-order list, and the whole
    of crypto_scalarmult_curve25519_c *)
From Coq Require Import ZArith List Bool Lia.
From Verif Require ZUtil.
From Verif Require Import Curve25519Model X25519Spec Curve25519Proof.
Import ListNotations.
Open Scope Z_scope.

Local Notation B51 := 2251799813685248.
Local Notation W64 := 18446744073709551616.

(** ** storing *)
Lemma to_le_app : forall n m v, to_le (n + m) v = to_le n v ++ to_le m (v / 256 ^ Z.of_nat n).
Proof.
  induction n as [|n IH]; intros m v.
  - cbn [Nat.add to_le app]. change (256 ^ Z.of_nat 0) with 1. now rewrite Z.div_1_r.
  - cbn [Nat.add to_le app]. rewrite IH, Nat2Z.inj_succ, Z.pow_succ_r by lia.
    rewrite Z.div_div by lia. reflexivity.
Qed.
Lemma to_le_mod : forall n v, to_le n (v mod 256 ^ Z.of_nat n) = to_le n v.
Proof.
  induction n as [|n IH]; intros v; [reflexivity|].
  cbn [to_le]. rewrite Nat2Z.inj_succ, Z.pow_succ_r by lia.
  rewrite Z.rem_mul_r by lia.
  assert (H : v mod 256 + 256 * (v / 256 mod 256 ^ Z.of_nat n) =
              v mod 256 + (v / 256 mod 256 ^ Z.of_nat n) * 256) by ring.
  rewrite H, Z.mod_add, Z.mod_mod, Z.div_add, (Z.div_small (v mod 256)) by (lia || apply Z.mod_pos_bound; lia).
  rewrite Z.add_0_l, IH. reflexivity.
Qed.
Lemma st64_le : forall v, st64 v = to_le 8 v.
Proof.
  intros v. unfold st64. cbn [seq map to_le].
  rewrite !Z.shiftr_div_pow2 by lia. rewrite !Z.div_div by lia.
  change (2 ^ (8 * Z.of_nat 0)) with 1. rewrite Z.div_1_r. reflexivity.
Qed.

Lemma word_eq : forall a b n m, 0 <= n <= 64 -> m = 64 - n -> 0 <= a < 2 ^ n -> 0 <= b ->
  Z.lor a (u64 (Z.shiftl b n)) = a + 2 ^ n * (b mod 2 ^ m).
Proof.
  intros a b n m Hn -> Ha Hb. unfold u64. change W64 with (2 ^ 64).
  rewrite Z.shiftl_mul_pow2 by lia.
  replace (2 ^ 64) with (2 ^ (64 - n) * 2 ^ n) by (rewrite <- Z.pow_add_r by lia; f_equal; lia).
  rewrite Z.mul_mod_distr_r by (apply Z.pow_nonzero; lia).
  rewrite lor_disj by lia. ring.
Qed.

Lemma tobytes_ok : forall f a, crel f a -> fe_tobytes f = encode_u a.
Proof.
  intros f a H. unfold fe_tobytes, encode_u. destruct (reduce_ok f a H) as [B V].
  rewrite <- V. clear V H. destruct (fe_reduce f) as [[[[t0 t1] t2] t3] t4].
  destruct B as (B0 & B1 & B2 & B3 & B4).
  set (V := val (t0, t1, t2, t3, t4)).
  rewrite (to_le_app 8 24), (to_le_app 8 16), (to_le_app 8 8).
  change (256 ^ Z.of_nat 8) with W64.
  rewrite !st64_le.
  rewrite <- (to_le_mod 8 V), <- (to_le_mod 8 (V / W64)), <- (to_le_mod 8 (V / W64 / W64)),
    <- (to_le_mod 8 (V / W64 / W64 / W64)).
  change (256 ^ Z.of_nat 8) with W64.
  rewrite !Z.shiftr_div_pow2 by lia.
  change (2 ^ 13) with 8192. change (2 ^ 26) with 67108864. change (2 ^ 39) with 549755813888.
  rewrite (word_eq t0 t1 51 13) by (change (2 ^ 51) with B51; lia).
  assert (D1 : 0 <= t1 / 8192 < 2 ^ 38) by (split; [apply Z.div_pos; lia|apply Z.div_lt_upper_bound; lia]).
  assert (D2 : 0 <= t2 / 67108864 < 2 ^ 25) by (split; [apply Z.div_pos; lia|apply Z.div_lt_upper_bound; lia]).
  assert (D3 : 0 <= t3 / 549755813888 < 2 ^ 12) by (split; [apply Z.div_pos; lia|apply Z.div_lt_upper_bound; lia]).
  rewrite (word_eq _ t2 38 26), (word_eq _ t3 25 39), (word_eq _ t4 12 52) by lia.
  change (2 ^ 13) with 8192. change (2 ^ 26) with 67108864. change (2 ^ 39) with 549755813888.
  change (2 ^ 52) with 4503599627370496. change (2 ^ 51) with B51. change (2 ^ 38) with 274877906944 in *.
  change (2 ^ 25) with 33554432 in *. change (2 ^ 12) with 4096 in *.
  rewrite (Z.mod_small t4) by lia.
  pose proof (Z.div_mod t1 8192 ltac:(lia)) as E1. pose proof (Z.mod_pos_bound t1 8192 ltac:(lia)) as M1.
  pose proof (Z.div_mod t2 67108864 ltac:(lia)) as E2. pose proof (Z.mod_pos_bound t2 67108864 ltac:(lia)) as M2.
  pose proof (Z.div_mod t3 549755813888 ltac:(lia)) as E3. pose proof (Z.mod_pos_bound t3 549755813888 ltac:(lia)) as M3.
  generalize dependent (t1 / 8192). intros q1 D1 E1. generalize dependent (t1 mod 8192). intros r1 E1 M1.
  generalize dependent (t2 / 67108864). intros q2 D2 E2. generalize dependent (t2 mod 67108864). intros r2 E2 M2.
  generalize dependent (t3 / 549755813888). intros q3 D3 E3. generalize dependent (t3 mod 549755813888). intros r3 E3 M3.
  set (w0 := t0 + B51 * r1). set (w1 := q1 + 274877906944 * r2). set (w2 := q2 + 33554432 * r3).
  set (w3 := q3 + 4096 * t4).
  assert (H0 : 0 <= w0 < W64) by (unfold w0; lia). assert (H1 : 0 <= w1 < W64) by (unfold w1; lia).
  assert (H2 : 0 <= w2 < W64) by (unfold w2; lia). assert (H3 : 0 <= w3 < W64) by (unfold w3; lia).
  assert (EV : V = w0 + W64 * (w1 + W64 * (w2 + W64 * w3))) by (unfold V, w0, w1, w2, w3; cbn [val]; lia).
  clearbody w0 w1 w2 w3. rewrite EV. clear - H0 H1 H2 H3.
  assert (S : forall w r, 0 <= w < W64 -> (w + W64 * r) mod W64 = w /\ (w + W64 * r) / W64 = r).
  { intros w r Hw. rewrite Z.mul_comm, Z.mod_add, Z.div_add, Z.mod_small, Z.div_small by lia. lia. }
  rewrite (proj1 (S w0 _ H0)), (proj2 (S w0 _ H0)), (proj1 (S w1 _ H1)), (proj2 (S w1 _ H1)),
    (proj1 (S w2 _ H2)), (proj2 (S w2 _ H2)), (Z.mod_small w3) by lia.
  reflexivity.
Qed.

(** ** the scalar *)
Lemma le_testbit : forall l i, Forall byteZ l ->
  Z.testbit (le l) (Z.of_nat i) = Z.testbit (nth (i / 8) l 0) (Z.of_nat (i mod 8)).
Proof.
  induction l as [|b l IH]; intros i H; [cbn [le]; now rewrite nth_overflow, !Z.bits_0 by (cbn; lia)|].
  inversion H as [|? ? Hb Hl]; subst. cbn [le].
  replace (b + 256 * le l) with (Z.lor b (le l * 2 ^ 8))
    by (rewrite lor_disj by (unfold byteZ in Hb; lia); change (2 ^ 8) with 256; ring).
  rewrite Z.lor_spec. destruct (Nat.lt_ge_cases i 8) as [L|L].
  - rewrite Nat.div_small, Nat.mod_small by assumption. cbn [nth].
    rewrite Z.mul_pow2_bits_low by lia. apply orb_false_r.
  - rewrite (ZUtil.testbit_above b 8) by (unfold byteZ in Hb; lia). rewrite orb_false_l.
    rewrite Z.mul_pow2_bits by lia.
    replace (Z.of_nat i - 8) with (Z.of_nat (i - 8)) by lia. rewrite IH by assumption.
    replace i with (i - 8 + 1 * 8)%nat at 3 4 by lia.
    rewrite Nat.div_add, Nat.mod_add by lia. rewrite Nat.add_1_r. reflexivity.
Qed.

Lemma land1 : forall x n, 0 <= n -> Z.land (Z.shiftr x n) 1 = if Z.testbit x n then 1 else 0.
Proof.
  intros x n Hn. change 1 with (Z.ones 1) at 1. rewrite Z.land_ones by lia. change (2 ^ 1) with 2.
  rewrite <- (Z.bit0_mod (Z.shiftr x n)), Z.shiftr_spec by lia. rewrite Z.add_0_l. now destruct (Z.testbit x n).
Qed.

Lemma split32 : forall n : list Z, length n = 32%nat ->
  exists a m z, n = a :: m ++ [z] /\ length m = 30%nat.
Proof.
  intros [|a n] H; [discriminate|]. cbn in H.
  destruct (@exists_last _ n) as (m & z & ->); [intros ->; discriminate|].
  exists a, m, z. split; [reflexivity|]. rewrite app_length in H. cbn in H. lia.
Qed.

Lemma byte_cases : forall (Q : Z -> bool), forallb (fun i => Q (Z.of_nat i)) (seq 0 256) = true ->
  forall b, byteZ b -> Q b = true.
Proof.
  intros Q H b Hb. unfold byteZ in Hb. rewrite <- (Z2Nat.id b) by lia.
  apply (proj1 (forallb_forall _ _) H). apply in_seq. lia.
Qed.

Lemma clamp_ok : forall n, length n = 32%nat -> Forall byteZ n ->
  le (clamp n) = decode_scalar n /\ Forall byteZ (clamp n).
Proof.
  intros n L H. destruct (split32 n L) as (a & m & z & -> & Lm).
  inversion H as [|? ? Ha H']; subst. apply Forall_app in H'. destruct H' as [Hm Hz].
  inversion Hz as [|? ? Hz' _]; subst. clear H Hz.
  unfold clamp. cbn [nth skipn]. rewrite firstn_app, firstn_all2 by lia.
  rewrite Lm. cbn [Nat.sub firstn]. rewrite app_nil_r.
  rewrite app_nth2 by lia. rewrite Lm. cbn [Nat.sub nth].
  assert (A : Z.land a 248 = a / 8 * 8).
  { apply Z.eqb_eq. apply (byte_cases (fun a => Z.land a 248 =? a / 8 * 8)); [vm_compute; reflexivity|exact Ha]. }
  assert (Z' : Z.lor (Z.land z 127) 64 = z mod 64 + 64).
  { apply Z.eqb_eq. apply (byte_cases (fun z => Z.lor (Z.land z 127) 64 =? z mod 64 + 64)); [vm_compute; reflexivity|exact Hz']. }
  rewrite A, Z'. unfold byteZ in *.
  pose proof (Z.div_mod a 8 ltac:(lia)) as Ea. pose proof (Z.mod_pos_bound a 8 ltac:(lia)) as Ma.
  pose proof (Z.div_mod z 64 ltac:(lia)) as Ez. pose proof (Z.mod_pos_bound z 64 ltac:(lia)) as Mz.
  pose proof (le_nonneg m Hm) as Bm. rewrite Lm in Bm.
  split.
  - unfold decode_scalar. cbn [le]. rewrite !le_app, Lm. cbn [le].
    change (256 ^ Z.of_nat 30) with 1766847064778384329583297500742918515827483896875618958121606201292619776 in *.
    change (2 ^ 254) with (64 * 452312848583266388373324160190187140051835877600158453279131187530910662656).
    assert (E : (a + 256 * (le m + 1766847064778384329583297500742918515827483896875618958121606201292619776 * (z + 256 * 0)))
       mod (64 * 452312848583266388373324160190187140051835877600158453279131187530910662656) =
       8 * (a / 8 + 32 * (le m + 1766847064778384329583297500742918515827483896875618958121606201292619776 * (z mod 64))) + a mod 8).
    { symmetry. apply (Z.mod_unique_pos _ _ (z / 64)); lia. }
    rewrite E. rewrite (Z.mul_comm 8), Z.div_add_l by lia. rewrite (Z.div_small (a mod 8)) by lia. lia.
  - constructor; [lia|]. apply Forall_app. split; [exact Hm|]. constructor; [lia|constructor].
Qed.

Lemma clamp_bit : forall n pos, length n = 32%nat -> Forall byteZ n ->
  Z.land (Z.shiftr (nth (pos / 8) (clamp n) 0) (Z.of_nat (pos mod 8))) 1 =
  if Z.testbit (decode_scalar n) (Z.of_nat pos) then 1 else 0.
Proof.
  intros n pos L H. destruct (clamp_ok n L H) as [E B]. rewrite land1 by lia.
  now rewrite <- E, le_testbit by exact B.
Qed.

(** ** has_small_order *)
Lemma fold_lor_zero : forall l a, 0 <= a -> Forall (fun x => 0 <= x) l ->
  (fold_left Z.lor l a = 0 <-> a = 0 /\ Forall (fun x => x = 0) l).
Proof.
  induction l as [|x l IH]; intros a Ha H; cbn [fold_left].
  - intuition.
  - inversion H; subst. rewrite IH by (try assumption; apply Z.lor_nonneg; lia).
    rewrite Z.lor_eq_0_iff. split.
    + intros [[-> ->] F]. auto.
    + intros [-> F]. inversion F; subst. auto.
Qed.
Lemma byte_lor : forall x y, byteZ x -> byteZ y -> byteZ (Z.lor x y).
Proof.
  intros x y Hx Hy. unfold byteZ in *. assert (0 <= Z.lor x y) by (apply Z.lor_nonneg; lia).
  split; [assumption|].
  assert (E : Z.lor x y = Z.lor x y mod 2 ^ 8).
  { apply Z.bits_inj'. intros n Hn. destruct (Z.ltb_spec n 8).
    - now rewrite Z.mod_pow2_bits_low by lia.
    - rewrite Z.mod_pow2_bits_high, Z.lor_spec, (ZUtil.testbit_above x 8), (ZUtil.testbit_above y 8) by lia. reflexivity. }
  rewrite E. apply Z.mod_pos_bound. reflexivity.
Qed.
Lemma fold_lor_byte : forall l a, byteZ a -> Forall byteZ l -> byteZ (fold_left Z.lor l a).
Proof.
  induction l as [|x l IH]; intros a Ha H; [exact Ha|]. inversion H; subst. cbn [fold_left].
  apply IH; [now apply byte_lor|assumption].
Qed.
Lemma byte_lxor : forall x y, byteZ x -> byteZ y -> byteZ (Z.lxor x y).
Proof.
  intros x y Hx Hy. unfold byteZ in *. assert (0 <= Z.lxor x y) by (apply Z.lxor_nonneg; lia).
  split; [assumption|].
  assert (E : Z.lxor x y = Z.lxor x y mod 2 ^ 8).
  { apply Z.bits_inj'. intros n Hn. destruct (Z.ltb_spec n 8).
    - now rewrite Z.mod_pow2_bits_low by lia.
    - rewrite Z.mod_pow2_bits_high, Z.lxor_spec, (ZUtil.testbit_above x 8), (ZUtil.testbit_above y 8) by lia. reflexivity. }
  rewrite E. apply Z.mod_pos_bound. reflexivity.
Qed.

Definition maskb (s : list Z) : list Z := firstn 31 s ++ [Z.land (nth 31 s 0) 127].

Lemma maskb_ok : forall s, length s = 32%nat -> Forall byteZ s ->
  le (maskb s) = decode_u s /\ Forall byteZ (maskb s) /\ length (maskb s) = 32%nat.
Proof.
  intros s L H.
  assert (E : s = firstn 31 s ++ [nth 31 s 0]).
  { rewrite <- (firstn_skipn 31 s) at 1. rewrite skipn_nth by lia. now rewrite skipn_all2 by lia. }
  assert (Hz : byteZ (nth 31 s 0)) by (apply (proj1 (Forall_forall _ _) H), nth_In; lia).
  assert (Lf : length (firstn 31 s) = 31%nat) by (rewrite firstn_length; lia).
  unfold maskb. set (z := nth 31 s 0) in *.
  assert (Hf : Forall byteZ (firstn 31 s)) by now apply Forall_firstn.
  assert (M : Z.land z 127 = z mod 128) by (change 127 with (Z.ones 7); now rewrite Z.land_ones by lia).
  unfold byteZ in Hz. rewrite M.
  pose proof (Z.div_mod z 128 ltac:(lia)) as Ez. pose proof (Z.mod_pos_bound z 128 ltac:(lia)) as Mz.
  split; [|split].
  - unfold decode_u. rewrite E at 2. rewrite !le_app, Lf. cbn [le].
    pose proof (le_nonneg _ Hf) as B. rewrite Lf in B.
    generalize dependent (le (firstn 31 s)). intros v B.
    change (256 ^ Z.of_nat 31) with 452312848583266388373324160190187140051835877600158453279131187530910662656 in *.
    change (2 ^ 255) with (128 * 452312848583266388373324160190187140051835877600158453279131187530910662656).
    apply (Z.mod_unique_pos _ _ (z / 128)); lia.
  - apply Forall_app. split; [exact Hf|]. constructor; [unfold byteZ; lia|constructor].
  - rewrite app_length, Lf. reflexivity.
Qed.

Lemma le_inj : forall a b, length a = length b -> Forall byteZ a -> Forall byteZ b -> le a = le b -> a = b.
Proof.
  induction a as [|x a IH]; intros [|y b] L Ha Hb E; try discriminate; [reflexivity|].
  inversion Ha; subst. inversion Hb; subst. cbn [le] in E. unfold byteZ in *. cbn in L.
  assert (x = y /\ le a = le b) as [-> E'] by lia. f_equal. apply IH; auto.
Qed.

Lemma differs_eq : forall s b, length s = 32%nat -> length b = 32%nat -> Forall byteZ s -> Forall byteZ b ->
  byteZ (differs s b) /\ (differs s b = 0 <-> decode_u s = le b).
Proof.
  intros s b Ls Lb Hs Hb.
  assert (N : forall l j, Forall byteZ l -> byteZ (nth j l 0)).
  { intros l j Hl. destruct (Nat.lt_ge_cases j (length l)).
    - now apply (proj1 (Forall_forall _ _) Hl), nth_In.
    - rewrite nth_overflow by assumption. unfold byteZ. lia. }
  destruct (maskb_ok s Ls Hs) as (<- & Hm & Lm).
  assert (ND : forall j, (j < 31)%nat -> nth j (maskb s) 0 = nth j s 0).
  { intros j Hj. unfold maskb. rewrite app_nth1 by (rewrite firstn_length; lia).
    rewrite <- (firstn_skipn 31 s) at 2. now rewrite app_nth1 by (rewrite firstn_length; lia). }
  assert (NL : nth 31 (maskb s) 0 = Z.land (nth 31 s 0) 127).
  { unfold maskb. rewrite app_nth2; rewrite firstn_length, Ls; [reflexivity|cbn; lia]. }
  assert (FB : Forall byteZ (map (fun j => Z.lxor (nth j s 0) (nth j b 0)) (seq 0 31) ++
     [Z.lxor (Z.land (nth 31 s 0) 127) (nth 31 b 0)])).
  { apply Forall_app. split.
    - apply Forall_forall. intros x Hx. apply in_map_iff in Hx. destruct Hx as (j & <- & _). apply byte_lxor; auto.
    - constructor; [|constructor]. apply byte_lxor; [rewrite <- NL|]; auto. }
  split; [unfold differs; apply fold_lor_byte; [unfold byteZ; lia|exact FB]|].
  unfold differs. rewrite fold_lor_zero; [|lia|revert FB; apply Forall_impl; unfold byteZ; lia].
  rewrite Forall_app. split.
  - intros [_ [F1 F2]]. apply f_equal. apply (nth_ext _ _ 0 0); [lia|].
    intros j Hj. rewrite Lm in Hj. destruct (Nat.eq_dec j 31) as [->|Nj].
    + rewrite NL. inversion F2; subst. now apply Z.lxor_eq.
    + rewrite ND by lia. apply Z.lxor_eq. apply (proj1 (Forall_forall _ _) F1).
      apply in_map_iff. exists j. split; [reflexivity|apply in_seq; lia].
  - intros E. apply le_inj in E; [|lia|assumption|assumption]. subst b. split; [reflexivity|]. split.
    + apply Forall_forall. intros x Hx. apply in_map_iff in Hx. destruct Hx as (j & <- & Hj). apply in_seq in Hj.
      rewrite ND by lia. apply Z.lxor_nilpotent.
    + constructor; [|constructor]. rewrite NL. apply Z.lxor_nilpotent.
Qed.

Lemma fold_bit : forall (g : list Z -> Z) l a,
  Z.testbit (fold_left (fun k b => Z.lor k (g b)) l a) 8 = Z.testbit a 8 || existsb (fun b => Z.testbit (g b) 8) l.
Proof.
  intros g. induction l as [|x l IH]; intros a; cbn [fold_left existsb]; [now rewrite orb_false_r|].
  rewrite IH, Z.lor_spec. now rewrite orb_assoc.
Qed.

Lemma blocklist_ok : Forall (fun b => length b = 32%nat /\ Forall byteZ b) blocklist.
Proof.
  repeat (constructor; [split; [reflexivity|repeat (constructor; [unfold byteZ; lia|]); constructor]|]).
  constructor.
Qed.

Lemma small_ok : forall s, length s = 32%nat -> Forall byteZ s ->
  has_small_order s = if existsb (fun b => decode_u s =? le b) blocklist then 1 else 0.
Proof.
  intros s L H. unfold has_small_order. rewrite land1 by lia. rewrite fold_bit.
  change (Z.testbit 0 8) with false. rewrite orb_false_l.
  assert (E : existsb (fun b => Z.testbit ((differs s b - 1) mod 4294967296) 8) blocklist =
              existsb (fun b => decode_u s =? le b) blocklist).
  { pose proof blocklist_ok as B. revert B. generalize blocklist as bl.
    induction bl as [|b bl IH]; intros B; [reflexivity|]. inversion B as [|? ? [Lb Hb] B']; subst.
    cbn [existsb]. rewrite IH by assumption. f_equal.
    destruct (differs_eq s b L Lb H Hb) as [R Q]. unfold byteZ in R.
    destruct (Z.eqb_spec (decode_u s) (le b)) as [E|E].
    - rewrite (proj2 Q E). reflexivity.
    - assert (differs s b <> 0) by tauto.
      rewrite Z.mod_small by lia. apply (ZUtil.testbit_above _ 8); lia. }
  now rewrite E.
Qed.

Lemma scalarmult_ok : forall n p, length n = 32%nat -> Forall byteZ n -> length p = 32%nat -> Forall byteZ p ->
  scalarmult n p = if existsb (fun b => decode_u p =? le b) blocklist then (-1, None)
                   else (0, Some (x25519 n p)).
Proof.
  intros n p Ln Hn Lp Hp. unfold scalarmult. rewrite (small_ok p Lp Hp).
  destruct (existsb _ blocklist); [reflexivity|]. cbn [negb Z.eqb].
  destruct (frombytes_ok p Lp Hp) as [T V].
  assert (C1 : crel (fe_frombytes p) (decode_u p)) by (split; [exact T|rewrite V; apply cong_refl]).
  assert (One : crel fe_1 1) by (split; [unfold tight, fe_1; cbn [bnd]; lia|apply cong_refl]).
  assert (Zero : crel fe_0 0) by (split; [unfold tight, fe_0; cbn [bnd]; lia|apply cong_refl]).
  pose proof (ladder_rel (clamp n) (decode_scalar n) (fe_frombytes p) (decode_u p)
     (fun pos _ => clamp_bit n pos Ln Hn) C1 255 (fe_1, fe_0, fe_frombytes p, fe_1, 0)
     (1, 0, decode_u p mod p25519, 1, false) (le_n _)) as R.
  unfold x25519, X25519.
  destruct (ladder (clamp n) (fe_frombytes p) 255 (fe_1, fe_0, fe_frombytes p, fe_1, 0)) as [[[[x2 z2] x3] z3] w].
  destruct (rounds (decode_u p) (decode_scalar n) 255 (1, 0, decode_u p mod p25519, 1, false)) as [[[[X2 Z2] X3] Z3] W].
  destruct R as (A2 & B2 & A3 & B3 & ->).
  { repeat split; try apply One; try apply Zero; try apply C1; auto.
    eapply cong_trans; [apply C1|]. apply cong_sym, cong_m. }
  destruct (swap_rel x2 x3 X2 X3 W A2 A3) as (x2' & x3' & -> & A2' & _).
  destruct (swap_rel z2 z3 Z2 Z3 W B2 B3) as (z2' & z3' & -> & B2' & _).
  destruct (cswap W X2 X3) as [X2' X3']. destruct (cswap W Z2 Z3) as [Z2' Z3']. cbn [fst snd] in *.
  f_equal. f_equal. apply tobytes_ok. apply c_mul; [now apply crel_l|]. apply crel_l. now apply invert_ok.
Qed.
