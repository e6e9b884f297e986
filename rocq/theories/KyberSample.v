(** Centred binomial and rejection sampling of ml-kem/src against Algorithms 7 and 8 of FIPS 203. *)
From Verif Require Import Bytes Words ZUtil SpongeSpec KeccakSpec Fips202 KeccakModel Sha3Model KeccakBytes Sha3Proof Sha3Top HashIface DrbgProof PolyRing NttSim KyberModel KyberSpec KyberArith KyberNtt KyberNttModel KyberCodec KyberCodec2.
Require Import Lia.

(** ** sums of bit fields *)
Fixpoint zipand (l m : list bool) : list bool :=
  match l, m with a :: l', b :: m' => (a && b) :: zipand l' m' | _, _ => [] end.
Lemma land_val_bits : forall l m, Z.land (val_bits l) (val_bits m) = val_bits (zipand l m).
Proof.
  induction l as [|a l IH]; intros [|b m]; cbn [zipand val_bits]; rewrite ?Z.land_0_l, ?Z.land_0_r; auto.
  rewrite <- IH. apply Z.bits_inj'. intros n Hn. rewrite Z.land_spec.
  destruct (Z.eq_dec n 0) as [->|].
  - rewrite (Z.add_comm (Z.b2z a)), (Z.add_comm (Z.b2z b)), (Z.add_comm (Z.b2z (a && b))), !Z.testbit_0_r. reflexivity.
  - rewrite (Z.add_comm (Z.b2z a)), (Z.add_comm (Z.b2z b)), (Z.add_comm (Z.b2z (a && b))).
    replace n with (Z.succ (n - 1)) by lia. rewrite !Z.testbit_succ_r, Z.land_spec by lia. reflexivity.
Qed.
Lemma shiftr_val_bits : forall b l, Z.shiftr (val_bits (b :: l)) 1 = val_bits l.
Proof.
  intros. cbn [val_bits]. rewrite Z.shiftr_div_pow2 by lia. change (2 ^ 1) with 2.
  symmetry. apply (Z.div_unique _ 2 _ (Z.b2z b)). destruct b; cbn; lia. lia.
Qed.
Fixpoint dval (w : Z) (l : list Z) : Z := match l with [] => 0 | x :: l' => x + w * dval w l' end.
Lemma dval_range : forall w l, 0 < w -> Forall (fun x => 0 <= x < w) l -> 0 <= dval w l < w ^ Z.of_nat (length l).
Proof.
  intros w l Hw H. induction H; cbn [dval length]. cbn. lia. rewrite Nat2Z.inj_succ, Z.pow_succ_r by lia. nia.
Qed.
Lemma dval_digit : forall w l i, 0 < w -> Forall (fun x => 0 <= x < w) l -> (dval w l / w ^ Z.of_nat i) mod w = nth i l 0.
Proof.
  intros w l i Hw H. revert i. induction H; intros i; cbn [dval].
  - rewrite Z.div_0_l, Z.mod_0_l by (try apply Z.pow_nonzero; lia). destruct i; reflexivity.
  - destruct i.
    + change (w ^ Z.of_nat 0) with 1. rewrite Z.div_1_r. cbn [nth]. rewrite Z.mul_comm, Z_mod_plus_full. apply Z.mod_small. auto.
    + rewrite Nat2Z.inj_succ, Z.pow_succ_r by lia. rewrite <- Z.div_div by (try apply Z.pow_pos_nonneg; lia).
      rewrite Z.mul_comm, Z.div_add by lia. rewrite (Z.div_small x w) by auto. cbn [nth]. apply IHForall.
Qed.
Lemma digit_land : forall k w l i, 0 < k -> w = 2 ^ k -> Forall (fun x => 0 <= x < w) l ->
  Z.land (Z.shiftr (dval w l) (k * Z.of_nat i)) (w - 1) = nth i l 0.
Proof.
  intros k w l i Hk -> H. replace (2 ^ k - 1) with (Z.ones k) by (rewrite Z.ones_equiv; lia).
  rewrite Z.land_ones, Z.shiftr_div_pow2, Z.pow_mul_r by lia. apply dval_digit; auto. apply Z.pow_pos_nonneg; lia.
Qed.

Lemma le_val_bits : forall B, bytes B -> le_val B = val_bits (map (fun n => fbit 8 B n) (seq 0 (8 * length B))).
Proof.
  intros B H. apply Z.bits_inj'. intros n Hn. rewrite testbit_val_bits by auto. rewrite testbit_le_val by auto.
  assert (E : Z.to_nat (n / 8) = (Z.to_nat n / 8)%nat) by (rewrite Z2Nat.inj_div by lia; reflexivity).
  rewrite E. destruct (Nat.lt_ge_cases (Z.to_nat n) (8 * length B)).
  - rewrite nth_map_seqA by auto. cbn [Nat.add]. unfold fbit. f_equal.
    rewrite Nat2Z.inj_mod, Z2Nat.id by lia. reflexivity.
  - rewrite (nth_overflow (map _ _)) by (rewrite map_length, seq_length; auto).
    rewrite nth_overflow. apply Z.testbit_0_l. apply Nat.div_le_lower_bound; lia.
Qed.

Definition cbdG (eta n : nat) (B : list Z) : list Z :=
  map (fun i => zsum eta (fun j => Z.b2z (fbit 8 B (2 * i * eta + j))) - zsum eta (fun j => Z.b2z (fbit 8 B (2 * i * eta + eta + j)))) (seq 0 n).
Lemma cbdG_app : forall eta n n' F G, (2 * n * eta = 8 * length F)%nat -> cbdG eta (n + n') (F ++ G) = cbdG eta n F ++ cbdG eta n' G.
Proof.
  intros eta n n' F G HF. unfold cbdG. rewrite seq_app, map_app. f_equal.
  - apply map_ext_in. intros k Hk. apply in_seq in Hk. f_equal; apply zsum_ext; intros j Hj; rewrite fbit_app_l; try lia; nia.
  - rewrite seq_shift_map. apply map_ext. intros k. f_equal; apply zsum_ext; intros j Hj.
    + replace (2 * (0 + n + k) * eta + j)%nat with (8 * length F + (2 * k * eta + j))%nat by lia. rewrite fbit_app_r by lia. reflexivity.
    + replace (2 * (0 + n + k) * eta + eta + j)%nat with (8 * length F + (2 * k * eta + eta + j))%nat by lia. rewrite fbit_app_r by lia. reflexivity.
Qed.
Lemma cbd_chunks : forall eta n pb gr, (0 < pb)%nat -> (2 * n * eta = 8 * pb)%nat ->
  (forall t, length t = pb -> bytes t -> gr t = cbdG eta n t) ->
  forall m F, length F = (pb * m)%nat -> bytes F -> flat_map gr (full_chunks pb F) = cbdG eta (n * m) F.
Proof.
  intros eta n pb gr Hp E H. induction m; intros F L HF.
  - destruct F; [|cbn in L; lia]. replace (n * 0)%nat with 0%nat by lia. reflexivity.
  - rewrite <- (firstn_skipn pb F) in *. assert (L1 : length (firstn pb F) = pb) by (rewrite firstn_length; rewrite app_length, firstn_length, skipn_length in L; lia).
    apply Forall_app in HF. destruct HF as [H1 H2]. rewrite app_length, L1 in L.
    destruct (full_chunks_cons pb (firstn pb F) (skipn pb F) Hp L1) as [C _]. rewrite C. cbn [flat_map].
    rewrite H, IHm by (auto; lia). replace (n * S m)%nat with (n + n * m)%nat by lia. rewrite cbdG_app; auto. lia.
Qed.

Definition m5 : list bool := [true; false; true; false; true; false; true; false; true; false; true; false; true; false; true; false;
  true; false; true; false; true; false; true; false; true; false; true; false; true; false; true; false].
Lemma b2z_range : forall b, 0 <= Z.b2z b <= 1.
Proof. destruct b; cbn; lia. Qed.

Section Abs2.
  Variables b0 b1 b2 b3 b4 b5 b6 b7 b8 b9 b10 b11 b12 b13 b14 b15 b16 b17 b18 b19 b20 b21 b22 b23 b24 b25 b26 b27 b28 b29 b30 b31 : bool.
  Definition t32 := val_bits [b0;b1;b2;b3;b4;b5;b6;b7;b8;b9;b10;b11;b12;b13;b14;b15;b16;b17;b18;b19;b20;b21;b22;b23;b24;b25;b26;b27;b28;b29;b30;b31].
  Definition dig2 : list Z := [Z.b2z b0 + Z.b2z b1; Z.b2z b2 + Z.b2z b3; Z.b2z b4 + Z.b2z b5; Z.b2z b6 + Z.b2z b7;
    Z.b2z b8 + Z.b2z b9; Z.b2z b10 + Z.b2z b11; Z.b2z b12 + Z.b2z b13; Z.b2z b14 + Z.b2z b15;
    Z.b2z b16 + Z.b2z b17; Z.b2z b18 + Z.b2z b19; Z.b2z b20 + Z.b2z b21; Z.b2z b22 + Z.b2z b23;
    Z.b2z b24 + Z.b2z b25; Z.b2z b26 + Z.b2z b27; Z.b2z b28 + Z.b2z b29; Z.b2z b30 + Z.b2z b31].
  Lemma dig2_range : Forall (fun x => 0 <= x < 4) dig2.
  Proof. unfold dig2. repeat (apply Forall_cons; [match goal with |- 0 <= Z.b2z ?a + Z.b2z ?b < 4 => pose proof (b2z_range a); pose proof (b2z_range b); lia end|]). constructor. Qed.
  Lemma t32_sum : Z.land t32 0x55555555 + Z.land (Z.shiftr t32 1) 0x55555555 = dval 4 dig2.
  Proof.
    unfold t32. rewrite shiftr_val_bits. change 0x55555555 with (val_bits m5). rewrite !land_val_bits.
    unfold m5, dig2. cbn [zipand]. rewrite ?andb_true_r, ?andb_false_r. cbn [val_bits dval Z.b2z]. lia.
  Qed.
End Abs2.

Lemma cbd2_group_ok : forall t, length t = 4%nat -> bytes t -> cbd2_group t = cbdG 2 8 t.
Proof.
  intros t L H. unfold cbd2_group. cbv zeta. rewrite le_val_bits by auto. rewrite L.
  set (f := fun n => fbit 8 t n). change (8 * 4)%nat with 32%nat.
  change (val_bits (map f (seq 0 32))) with (t32 (f 0%nat) (f 1%nat) (f 2%nat) (f 3%nat) (f 4%nat) (f 5%nat) (f 6%nat) (f 7%nat) (f 8%nat) (f 9%nat) (f 10%nat) (f 11%nat)
   (f 12%nat) (f 13%nat) (f 14%nat) (f 15%nat) (f 16%nat) (f 17%nat) (f 18%nat) (f 19%nat) (f 20%nat) (f 21%nat) (f 22%nat) (f 23%nat) (f 24%nat) (f 25%nat) (f 26%nat) (f 27%nat)
   (f 28%nat) (f 29%nat) (f 30%nat) (f 31%nat)).
  rewrite t32_sum. match goal with |- context [dval 4 ?l] => set (D := l); assert (R : Forall (fun x => 0 <= x < 4) D) by apply dig2_range end.
  assert (U : u32 (dval 4 D) = dval 4 D).
  { unfold u32. apply Z.mod_small. pose proof (dval_range 4 D ltac:(lia) R). change (4 ^ Z.of_nat (length D)) with 4294967296 in H0. auto. }
  rewrite U. unfold cbdG. apply map_ext_in. intros j Hj. apply in_seq in Hj.
  replace (4 * Z.of_nat j + 0) with (2 * Z.of_nat (2 * j)) by lia. replace (4 * Z.of_nat j + 2) with (2 * Z.of_nat (2 * j + 1)) by lia.
  change 3 with (4 - 1). rewrite !(digit_land 2 4 D) by (auto; lia).
  assert (C : (j = 0 \/ j = 1 \/ j = 2 \/ j = 3 \/ j = 4 \/ j = 5 \/ j = 6 \/ j = 7)%nat) by lia.
  repeat (destruct C as [->|C]; [reflexivity|]). subst j. reflexivity.
Qed.

Section Abs3.
  Variables b0 b1 b2 b3 b4 b5 b6 b7 b8 b9 b10 b11 b12 b13 b14 b15 b16 b17 b18 b19 b20 b21 b22 b23 : bool.
  Definition t24 := val_bits [b0;b1;b2;b3;b4;b5;b6;b7;b8;b9;b10;b11;b12;b13;b14;b15;b16;b17;b18;b19;b20;b21;b22;b23].
  Definition m9 : list bool := [true; false; false; true; false; false; true; false; false; true; false; false; true; false; false; true; false; false;
    true; false; false; true; false; false].
  Definition dig3 : list Z := [Z.b2z b0 + Z.b2z b1 + Z.b2z b2; Z.b2z b3 + Z.b2z b4 + Z.b2z b5; Z.b2z b6 + Z.b2z b7 + Z.b2z b8; Z.b2z b9 + Z.b2z b10 + Z.b2z b11;
    Z.b2z b12 + Z.b2z b13 + Z.b2z b14; Z.b2z b15 + Z.b2z b16 + Z.b2z b17; Z.b2z b18 + Z.b2z b19 + Z.b2z b20; Z.b2z b21 + Z.b2z b22 + Z.b2z b23].
  Lemma dig3_range : Forall (fun x => 0 <= x < 8) dig3.
  Proof. unfold dig3. repeat (apply Forall_cons; [match goal with |- 0 <= Z.b2z ?a + Z.b2z ?b + Z.b2z ?c < 8 => pose proof (b2z_range a); pose proof (b2z_range b); pose proof (b2z_range c); lia end|]). constructor. Qed.
  Lemma shiftr2 : forall b c l, Z.shiftr (val_bits (b :: c :: l)) 2 = val_bits l.
  Proof. intros. change 2 with (1 + 1). rewrite <- Z.shiftr_shiftr by lia. rewrite !shiftr_val_bits. reflexivity. Qed.
  Lemma t24_sum : Z.land t24 0x00249249 + Z.land (Z.shiftr t24 1) 0x00249249 + Z.land (Z.shiftr t24 2) 0x00249249 = dval 8 dig3.
  Proof.
    unfold t24. rewrite shiftr2, shiftr_val_bits. change 0x00249249 with (val_bits m9). rewrite !land_val_bits.
    unfold m9, dig3. cbn [zipand]. rewrite ?andb_true_r, ?andb_false_r. cbn [val_bits dval Z.b2z]. lia.
  Qed.
End Abs3.
Lemma land_le : forall a m, 0 <= a -> 0 <= m -> 0 <= Z.land a m <= m.
Proof.
  intros. split. apply Z.land_nonneg. lia.
  assert (E := Z.land_ldiff). rewrite (Z.land_comm a m).
  assert (F : m = Z.lor (Z.land m a) (Z.ldiff m a)). { apply Z.bits_inj'. intros n Hn. rewrite Z.lor_spec, Z.land_spec, Z.ldiff_spec. destruct (Z.testbit m n), (Z.testbit a n); reflexivity. }
  assert (G : Z.land (Z.land m a) (Z.ldiff m a) = 0). { apply Z.bits_inj'. intros n Hn. rewrite !Z.land_spec, Z.ldiff_spec, Z.testbit_0_l. destruct (Z.testbit m n), (Z.testbit a n); reflexivity. }
  rewrite <- Z.lxor_lor in F by auto. rewrite <- Z.add_nocarry_lxor in F by auto.
  assert (0 <= Z.ldiff m a) by (apply Z.ldiff_nonneg; lia). lia.
Qed.
Lemma cbd3_group_ok : forall t, length t = 3%nat -> bytes t -> cbd3_group t = cbdG 3 4 t.
Proof.
  intros t L H. unfold cbd3_group. cbv zeta.
  assert (NN : 0 <= le_val t) by (rewrite le_val_bits by auto; apply val_bits_range).
  assert (U1 : u32 (Z.land (le_val t) 0x00249249 + Z.land (Z.shiftr (le_val t) 1) 0x00249249) = Z.land (le_val t) 0x00249249 + Z.land (Z.shiftr (le_val t) 1) 0x00249249).
  { unfold u32. apply Z.mod_small. pose proof (land_le (le_val t) 0x00249249 NN ltac:(lia)).
    pose proof (land_le (Z.shiftr (le_val t) 1) 0x00249249 ltac:(apply Z.shiftr_nonneg; auto) ltac:(lia)). lia. }
  rewrite U1. clear U1 NN. rewrite le_val_bits by auto. rewrite L.
  set (f := fun n => fbit 8 t n). change (8 * 3)%nat with 24%nat.
  change (val_bits (map f (seq 0 24))) with (t24 (f 0%nat) (f 1%nat) (f 2%nat) (f 3%nat) (f 4%nat) (f 5%nat) (f 6%nat) (f 7%nat) (f 8%nat) (f 9%nat) (f 10%nat) (f 11%nat)
   (f 12%nat) (f 13%nat) (f 14%nat) (f 15%nat) (f 16%nat) (f 17%nat) (f 18%nat) (f 19%nat) (f 20%nat) (f 21%nat) (f 22%nat) (f 23%nat)).
  rewrite t24_sum. match goal with |- context [dval 8 ?l] => set (D := l); assert (R : Forall (fun x => 0 <= x < 8) D) by apply dig3_range end.
  assert (U : u32 (dval 8 D) = dval 8 D).
  { unfold u32. apply Z.mod_small. pose proof (dval_range 8 D ltac:(lia) R). change (8 ^ Z.of_nat (length D)) with 16777216 in H0. lia. }
  rewrite U. unfold cbdG. apply map_ext_in. intros j Hj. apply in_seq in Hj.
  replace (6 * Z.of_nat j + 0) with (3 * Z.of_nat (2 * j)) by lia. replace (6 * Z.of_nat j + 3) with (3 * Z.of_nat (2 * j + 1)) by lia.
  change 7 with (8 - 1). rewrite !(digit_land 3 8 D) by (auto; lia).
  assert (C : (j = 0 \/ j = 1 \/ j = 2 \/ j = 3)%nat) by lia.
  repeat (destruct C as [->|C]; [reflexivity|]). subst j. reflexivity.
Qed.

Lemma cbdG_within : forall eta n B, within (Z.of_nat eta) (cbdG eta n B).
Proof.
  intros. apply Forall_map. apply Forall_forall. intros i _.
  assert (S : forall k f, (forall j, 0 <= f j <= 1) -> 0 <= zsum k f <= Z.of_nat k).
  { induction k; intros f Hf; cbn [zsum]. lia. specialize (IHk f Hf). specialize (Hf k). lia. }
  pose proof (S eta (fun j => Z.b2z (fbit 8 B (2 * i * eta + j))) (fun j => b2z_range _)).
  pose proof (S eta (fun j => Z.b2z (fbit 8 B (2 * i * eta + eta + j))) (fun j => b2z_range _)). lia.
Qed.
Lemma cbdG_sample : forall eta B, M q (cbdG eta 256 B) = SamplePolyCBD eta B.
Proof. intros. unfold M, cbdG, SamplePolyCBD. rewrite map_map. reflexivity. Qed.
Theorem poly_cbd_ok : forall eta B, In eta [2%nat; 3%nat] -> bytes B -> length B = (64 * eta)%nat ->
  poly_cbd eta B = cbdG eta 256 B /\ M q (poly_cbd eta B) = SamplePolyCBD eta B /\ polyw 3 (poly_cbd eta B).
Proof.
  intros eta B He Hb L.
  assert (E : poly_cbd eta B = cbdG eta 256 B).
  { destruct He as [<-|[<-|[]]]; unfold poly_cbd; cbn [Nat.eqb].
    - exact (cbd_chunks 2 8 4 cbd2_group ltac:(lia) eq_refl cbd2_group_ok 32 B L Hb).
    - exact (cbd_chunks 3 4 3 cbd3_group ltac:(lia) eq_refl cbd3_group_ok 64 B L Hb). }
  split; auto. rewrite E. split. apply cbdG_sample. split. unfold cbdG. rewrite map_length. apply seq_length.
  apply (within_weaken (Z.of_nat eta)). destruct He as [<-|[<-|[]]]; lia. apply cbdG_within.
Qed.

(** ** rejection sampling *)
Lemma cand0 : forall b0 b1, byte b0 -> byte b1 -> Z.land (Z.lor (Z.shiftr b0 0) (u16 (Z.shiftl b1 8))) 4095 = b0 + 256 * (b1 mod 16).
Proof.
  intros b0 b1 H0 H1. unfold byte in *. rewrite Z.shiftr_0_r, Z.shiftl_mul_pow2 by lia. change (2 ^ 8) with 256.
  unfold u16. rewrite Z.mod_small by lia. change 4095 with (Z.ones 12). rewrite Z.land_ones by lia.
  replace (Z.lor b0 (b1 * 256)) with (b1 * 256 + b0) by (rewrite Z.lor_comm; symmetry; apply (lor_mul_pow2 b1 b0 8); cbn; lia). change (2 ^ 12) with 4096.
  pose proof (Z.div_mod b1 16 ltac:(lia)). pose proof (Z.mod_pos_bound b1 16 ltac:(lia)).
  symmetry. apply (Z.mod_unique _ _ (b1 / 16)). lia. lia.
Qed.
Lemma cand1 : forall b1 b2, byte b1 -> byte b2 -> Z.land (Z.lor (Z.shiftr b1 4) (u16 (Z.shiftl b2 4))) 4095 = b1 / 16 + 16 * b2.
Proof.
  intros b0 b1 H0 H1. unfold byte in *. rewrite Z.shiftr_div_pow2, Z.shiftl_mul_pow2 by lia. change (2 ^ 4) with 16.
  unfold u16. rewrite Z.mod_small by lia. change 4095 with (Z.ones 12). rewrite Z.land_ones by lia.
  assert (0 <= b0 / 16 < 16) by (split; [apply Z.div_pos|apply Z.div_lt_upper_bound]; lia).
  replace (Z.lor (b0 / 16) (b1 * 16)) with (b1 * 16 + b0 / 16) by (rewrite Z.lor_comm; symmetry; apply (lor_mul_pow2 b1 (b0 / 16) 4); cbn; lia). change (2 ^ 12) with 4096.
  rewrite Z.mod_small by lia. lia.
Qed.
Lemma rej_uniform_ok : forall n len buf, (length buf <= n)%nat -> bytes buf -> rej_uniform len buf = firstn len (accepted buf).
Proof.
  induction n; intros len buf L H.
  - destruct buf; [|cbn in L; lia]. destruct len; reflexivity.
  - destruct len as [|len]. destruct buf; reflexivity.
    destruct buf as [|b0 [|b1 [|b2 buf]]]; try reflexivity. cbn [length] in L.
    pose proof (Forall_inv H) as H0. apply Forall_inv_tail in H. pose proof (Forall_inv H) as H1. apply Forall_inv_tail in H.
    pose proof (Forall_inv H) as H2. apply Forall_inv_tail in H.
    cbn [rej_uniform]. cbv zeta. rewrite cand0, cand1 by auto. unfold accepted. cbn [candidates filter].
    fold (accepted buf). change KQ with q.
    destruct (b0 + 256 * (b1 mod 16) <? q).
    + cbn [length app firstn]. replace (S len - 1)%nat with len by lia.
      destruct (b1 / 16 + 16 * b2 <? q).
      * destruct len as [|len]; cbn [Nat.ltb Nat.leb andb app length firstn]. rewrite Nat.sub_0_r. f_equal. destruct buf; reflexivity.
        f_equal. f_equal. replace (S len - 1)%nat with len by lia. apply IHn; auto; lia.
      * rewrite andb_false_r. cbn [length app]. rewrite Nat.sub_0_r. f_equal. apply IHn; auto; lia.
    + cbn [length app]. rewrite Nat.sub_0_r. cbn [Nat.ltb Nat.leb andb].
      destruct (b1 / 16 + 16 * b2 <? q).
      * cbn [length app firstn]. f_equal. replace (S len - 1)%nat with len by lia. apply IHn; auto; lia.
      * cbn [length app]. rewrite Nat.sub_0_r. apply IHn; auto; lia.
Qed.
Lemma candidates_app : forall n a b, length a = (3 * n)%nat -> candidates (a ++ b) = candidates a ++ candidates b.
Proof.
  induction n; intros a b L. destruct a; [reflexivity|cbn in L; lia].
  destruct a as [|a0 [|a1 [|a2 a]]]; cbn [length] in L; try lia. cbn [app candidates]. rewrite IHn by lia. reflexivity.
Qed.
Lemma accepted_app : forall n a b, length a = (3 * n)%nat -> accepted (a ++ b) = accepted a ++ accepted b.
Proof. intros. unfold accepted. rewrite (candidates_app n) by auto. apply filter_app. Qed.

Opaque xof_read.
Definition outs (c : kctx) (j : nat) : list (list Z) := fst (xof_reads permB c (repeat 168%nat j)).
Definition good (c : kctx) : Prop := forall j, bytes (concat (outs c j)) /\ map (@length Z) (outs c j) = repeat 168%nat j.
Lemma outs_S : forall c j, outs c (S j) = fst (xof_read permB c 168) :: outs (snd (xof_read permB c 168)) j.
Proof.
  intros. unfold outs. cbn [repeat xof_reads]. destruct (xof_read permB c 168) as [o c']. cbn [fst snd].
  destruct (xof_reads permB c' (repeat 168%nat j)). reflexivity.
Qed.
Lemma good_step : forall c, good c -> good (snd (xof_read permB c 168)) /\
  bytes (fst (xof_read permB c 168)) /\ length (fst (xof_read permB c 168)) = 168%nat.
Proof.
  intros c H. unfold good in H at 1.
  assert (W : forall j, outs c (S j) = fst (xof_read permB c 168) :: outs (snd (xof_read permB c 168)) j) by (apply outs_S).
  set (o := fst (xof_read permB c 168)) in *. set (c' := snd (xof_read permB c 168)) in *. clearbody o c'.
  assert (V : forall j, bytes (concat (o :: outs c' j)) /\ map (@length Z) (o :: outs c' j) = repeat 168%nat (S j)).
  { intros j. rewrite <- W. apply H. }
  clear H W. cbn [concat map repeat] in V.
  split; [|split].
  - intros j. destruct (V j) as [H1 H2]. apply Forall_app in H1. injection H2 as _ H2. split; auto. apply H1.
  - destruct (V 0%nat) as [H1 _]. apply Forall_app in H1. apply H1.
  - destruct (V 0%nat) as [_ H1]. injection H1 as H1; exact H1.
Qed.
Lemma firstn_absorb : forall n (a b : list Z), firstn n (firstn n a ++ b) = firstn n (a ++ b).
Proof.
  intros. destruct (Nat.le_gt_cases n (length a)).
  - rewrite !firstn_app, firstn_firstn, Nat.min_id. rewrite firstn_length. f_equal. f_equal. lia.
  - rewrite (firstn_all2 (n:=n) a) by lia. reflexivity.
Qed.
Lemma gen_refill_step : forall c buf r, good c -> (length buf mod 3 = 0)%nat -> (length r <= 256)%nat ->
  let buf' := skipn (length buf - length buf mod 3) buf ++ fst (xof_read permB c 168) in
  (length buf' mod 3 = 0)%nat /\ r ++ rej_uniform (256 - length r) buf' = firstn 256 (r ++ accepted (fst (xof_read permB c 168))).
Proof.
  intros c buf r G Hb Hr. cbv zeta. rewrite Hb, Nat.sub_0_r, skipn_all. cbn [app].
  destruct (good_step c G) as (_ & B & L). split. rewrite L. reflexivity.
  rewrite (rej_uniform_ok 168) by (auto; lia). rewrite firstn_app, (firstn_all2 r) by lia. reflexivity.
Qed.
Lemma gen_refill_sound : forall fuel c buf r r', good c -> (length buf mod 3 = 0)%nat -> (length r <= 256)%nat ->
  gen_refill fuel c buf r = Some r' -> exists j, r' = firstn 256 (r ++ accepted (concat (outs c j))) /\ length r' = 256%nat.
Proof.
  induction fuel; intros c buf r r' G Hb Hr H; cbn [gen_refill] in H; destruct (Nat.ltb_spec (length r) 256).
  - discriminate.
  - injection H as <-. exists 0%nat. cbn [outs]. unfold outs. cbn [repeat xof_reads fst concat]. unfold accepted. cbn [candidates filter].
    rewrite app_nil_r. rewrite firstn_all2 by lia. split; auto. lia.
  - cbv zeta in H. pose proof (gen_refill_step c buf r G Hb Hr) as (S1 & S2). destruct (good_step c G) as (G' & B & L).
    destruct (xof_read permB c 168) as [o c'] eqn:E. cbn [fst snd] in *.
    rewrite S2 in H. apply IHfuel in H; auto; [|rewrite firstn_length; lia].
    destruct H as (j & -> & L'). exists (S j). split; auto. rewrite firstn_absorb, <- app_assoc. rewrite outs_S, E. cbn [fst snd concat].
    rewrite (accepted_app 56) by auto. reflexivity.
  - injection H as <-. exists 0%nat. unfold outs. cbn [repeat xof_reads fst concat]. unfold accepted. cbn [candidates filter].
    rewrite app_nil_r. rewrite firstn_all2 by lia. split; auto. lia.
Qed.
Lemma gen_refill_complete : forall fuel c buf r j, good c -> (length buf mod 3 = 0)%nat -> (length r <= 256)%nat ->
  (256 <= length (r ++ accepted (concat (outs c j))))%nat -> (j <= fuel)%nat -> exists r', gen_refill fuel c buf r = Some r'.
Proof.
  induction fuel; intros c buf r j G Hb Hr H Hj; cbn [gen_refill]; destruct (Nat.ltb_spec (length r) 256); eauto.
  - assert (j = 0)%nat by lia. subst j. exfalso. unfold outs in H. cbn [repeat xof_reads fst concat] in H. unfold accepted in H. cbn [candidates filter] in H.
    rewrite app_nil_r in H. lia.
  - destruct j as [|j].
    { exfalso. unfold outs in H. cbn [repeat xof_reads fst concat] in H. unfold accepted in H. cbn [candidates filter] in H. rewrite app_nil_r in H. lia. }
    cbv zeta. pose proof (gen_refill_step c buf r G Hb Hr) as (S1 & S2). destruct (good_step c G) as (G' & B & L).
    rewrite outs_S in H. destruct (xof_read permB c 168) as [o c'] eqn:E. cbn [fst snd concat] in *.
    rewrite S2. apply (IHfuel c' _ _ j); auto; try lia. rewrite firstn_length; lia.
    rewrite (accepted_app 56) in H by auto. rewrite app_length, firstn_length. rewrite !app_length in *. lia.
Qed.

Lemma accepted_range : forall B, bytes B -> Forall (fun x => 0 <= x < q) (accepted B).
Proof.
  intros B H. apply Forall_forall. intros x Hx. apply filter_In in Hx. destruct Hx as [Hx Hq]. apply Z.ltb_lt in Hq. split; [|lia].
  assert (C : forall n B, (length B <= n)%nat -> bytes B -> In x (candidates B) -> 0 <= x).
  { clear. induction n; intros B L H Hx. destruct B; [destruct Hx|cbn in L; lia].
    destruct B as [|b0 [|b1 [|b2 B]]]; try destruct Hx. 
    - subst. pose proof (Forall_inv H). pose proof (Forall_inv (Forall_inv_tail H)). unfold byte in *. pose proof (Z.mod_pos_bound b1 16). lia.
    - pose proof (Forall_inv (Forall_inv_tail H)). pose proof (Forall_inv (Forall_inv_tail (Forall_inv_tail H))). unfold byte in *.
      destruct H0 as [<-|H0]. pose proof (Z.div_pos b1 16). lia. apply (IHn B); auto. cbn in L; lia. exact (Forall_inv_tail (Forall_inv_tail (Forall_inv_tail H))). }
  exact (C _ B (le_n _) H Hx).
Qed.

Lemma SHAKE128_len : forall m n, length (SHAKE128 m n) = n.
Proof. intros. unfold SHAKE128, keccak_c, sponge. rewrite map_length. apply seq_length. Qed.
Lemma SHAKE256_len : forall m n, length (SHAKE256 m n) = n.
Proof. intros. unfold SHAKE256, keccak_c, sponge. rewrite map_length. apply seq_length. Qed.
Lemma SHA3_len : forall d m, length (SHA3 d m) = d.
Proof. intros. unfold SHA3, keccak_c, sponge. rewrite map_length. apply seq_length. Qed.
Lemma SHAKE128_bytes : forall m n, bytes m -> bytes (SHAKE128 m n).
Proof. intros. apply sponge_bytes; auto. lia. unfold byte; lia. Qed.
Lemma SHAKE256_bytes : forall m n, bytes m -> bytes (SHAKE256 m n).
Proof. intros. apply sponge_bytes; auto. lia. unfold byte; lia. Qed.
Lemma SHA3_bytes : forall d m, (d < 100)%nat -> bytes m -> bytes (SHA3 d m).
Proof. intros. apply sponge_bytes; auto. lia. unfold byte; lia. Qed.
Lemma SHAKE128_prefix : forall m a b, SHAKE128 m (a + b) = SHAKE128 m a ++ keccak_c 32 31 m a b.
Proof. intros. unfold SHAKE128, keccak_c, sponge. rewrite seq_app, map_app. reflexivity. Qed.
Lemma stream_mono : forall m a b, (a <= b)%nat -> exists t, accepted (SHAKE128 m (3 * b)) = accepted (SHAKE128 m (3 * a)) ++ t.
Proof.
  intros m a b H. replace (3 * b)%nat with (3 * a + 3 * (b - a))%nat by lia. rewrite SHAKE128_prefix.
  rewrite (accepted_app a) by apply SHAKE128_len. eauto.
Qed.
Theorem SampleNTT_unique : forall B a a', SampleNTT B a -> SampleNTT B a' -> a = a'.
Proof.
  intros B a a' [L [n E]] [L' [n' E']].
  assert (W : forall n n' a a', (n <= n')%nat -> length a = 256%nat -> firstn 256 (accepted (SHAKE128 B (3 * n))) = a ->
    firstn 256 (accepted (SHAKE128 B (3 * n'))) = a' -> a = a').
  { clear. intros n n' a a' H L E E'. destruct (stream_mono B n n' H) as [t T]. rewrite T in E'. rewrite firstn_app in E'.
    rewrite <- E in L. rewrite firstn_length in L. replace (256 - length (accepted (SHAKE128 B (3 * n))))%nat with 0%nat in E' by lia.
    cbn [firstn] in E'. rewrite app_nil_r in E'. rewrite <- E, <- E'. reflexivity. }
  destruct (Nat.le_ge_cases n n'). eapply (W n n'); eauto. symmetry. eapply (W n' n); eauto.
Qed.
Lemma Forall_firstn : forall (A : Type) (P : A -> Prop) n l, Forall P l -> Forall P (firstn n l).
Proof. intros A P n l H. revert n. induction H; intros [|n]; cbn [firstn]; auto. Qed.
Lemma SampleNTT_range : forall B a, bytes B -> SampleNTT B a -> Rq a.
Proof.
  intros B a H [L [n E]]. split; auto. rewrite <- E. apply Forall_firstn. apply accepted_range. apply SHAKE128_bytes. auto.
Qed.

Section Gen.
  Variables (seed : list Z) (x y : Z).
  Hypothesis Hs : bytes seed.
  Hypothesis Hl : length seed = 32%nat.
  Hypothesis Hx : byte x.
  Hypothesis Hy : byte y.
  Let ms : list (list Z) := [seed; [x]; [y]].
  Let B : list Z := seed ++ [x] ++ [y].
  Lemma ms_bytes : Forall bytes ms.
  Proof. repeat apply Forall_cons; auto. Qed.
  Lemma ms_cat : concat ms = B.
  Proof. reflexivity. Qed.
  Lemma B_bytes : bytes B.
  Proof. rewrite <- ms_cat. apply bytes_concat. apply ms_bytes. Qed.
  Lemma ms_len : Z.of_nat (length (concat ms)) < 2 ^ 64.
  Proof. rewrite ms_cat. unfold B. rewrite !app_length, Hl. cbn. lia. Qed.
  Let r := xof_read permB (keccak_updates permB (keccak_init alg_shake128) ms) 504.
  Lemma first_reads : forall j, fst r ++ concat (outs (snd r) j) = SHAKE128 B (504 + 168 * j) /\
    length (fst r) = 504%nat /\ map (@length Z) (outs (snd r) j) = repeat 168%nat j.
  Proof.
    intros j. destruct (sha3_family_reads alg_shake128 ms (504%nat :: repeat 168%nat j)) as [E1 E2].
    { cbn; auto 10. } { apply ms_bytes. } { apply ms_len. }
    cbn [xof_reads] in E1, E2. fold r in E1, E2. destruct r as [o c]. cbn [fst snd]. unfold outs.
    destruct (xof_reads permB c (repeat 168%nat j)) as [os c2]. cbn [fst map concat] in *.
    rewrite E1. injection E2 as H1 H2. split; [|auto]. rewrite ms_cat. unfold SHAKE128, keccak_c.
    change (a_r alg_shake128) with (200 - 32)%nat. change (a_padding alg_shake128) with 31.
    apply (f_equal (sponge keccak_f_bytes 200 (200 - 32) 31 B 0)). cbn [list_sum fold_right]. 
    replace (fold_right Nat.add 0%nat (repeat 168%nat j)) with (168 * j)%nat; auto.
    clear. induction j; cbn [repeat fold_right]; lia.
  Qed.
  Lemma good_r : good (snd r) /\ bytes (fst r) /\ length (fst r) = 504%nat.
  Proof.
    split; [|split].
    - intros j. destruct (first_reads j) as (E & _ & L). split; auto.
      assert (H : bytes (fst r ++ concat (outs (snd r) j))) by (rewrite E; apply SHAKE128_bytes, B_bytes).
      apply Forall_app in H. apply H.
    - destruct (first_reads 0) as (E & _ & _).
      assert (H : bytes (fst r ++ concat (outs (snd r) 0))) by (rewrite E; apply SHAKE128_bytes, B_bytes).
      apply Forall_app in H. apply H.
    - apply (first_reads 0).
  Qed.
  Lemma acc_eq : forall j, accepted (fst r) ++ accepted (concat (outs (snd r) j)) = accepted (SHAKE128 B (3 * (168 + 56 * j))).
  Proof.
    intros j. rewrite <- (accepted_app 168) by (destruct good_r as (_ & _ & ->); reflexivity).
    destruct (first_reads j) as (E & _). rewrite E. apply (f_equal (fun n => accepted (SHAKE128 B n))). lia.
  Qed.
  Lemma gen_entry_eq : forall fuel, gen_entry fuel seed x y = gen_refill fuel (snd r) (fst r) (firstn 256 (accepted (fst r))).
  Proof.
    intros. unfold gen_entry. fold ms. fold r. destruct good_r as (_ & Hb & L).
    rewrite <- (rej_uniform_ok 504 256 (fst r)) by (auto; lia). destruct r. reflexivity.
  Qed.
  Theorem gen_entry_sound : forall fuel a, gen_entry fuel seed x y = Some a -> SampleNTT B a.
  Proof.
    intros fuel a H. rewrite gen_entry_eq in H. destruct good_r as (G & Hb & L).
    apply gen_refill_sound in H; auto. 2: rewrite L; reflexivity. 2: rewrite firstn_length; lia.
    destruct H as (j & -> & La). split; auto. rewrite firstn_absorb, acc_eq. eauto.
  Qed.
  Theorem gen_entry_complete : forall a, SampleNTT B a -> exists f0, forall fuel, (f0 <= fuel)%nat -> gen_entry fuel seed x y = Some a.
  Proof.
    intros a Ha. destruct good_r as (G & Hb & L). pose proof Ha as [La [n E]].
    exists n. intros fuel Hf.
    assert (C : exists r', gen_entry fuel seed x y = Some r').
    { rewrite gen_entry_eq. apply (gen_refill_complete fuel _ _ _ n); auto. rewrite L; reflexivity. rewrite firstn_length; lia.
      rewrite app_length, firstn_length.
      destruct (stream_mono B n (168 + 56 * n) ltac:(lia)) as [t T]. rewrite <- acc_eq in T.
      apply (f_equal (@length Z)) in T. rewrite !app_length in T. rewrite <- E, firstn_length in La. lia. }
    destruct C as [r' C]. rewrite C. apply f_equal. eapply SampleNTT_unique; [|exact Ha]. eapply gen_entry_sound. exact C.
  Qed.
End Gen.
