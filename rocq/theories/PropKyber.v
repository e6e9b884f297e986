(** Properties C46 - C53 and C64 - C66: ML-KEM. KyberSpec.v is FIPS 203 written down without the code; [M q] reduces every
    coefficient modulo q, [polyw B f]: f has 256 coefficients of absolute value at most B. *)
From Verif Require Import Bytes ZUtil Words Sha3Model KeccakBytes HashIface KmacSpec KmacModel KmacProof XofDrngProof UtilModel UtilProof Fips202 PolyRing NttLoop NttSim
  KyberModel KyberSpec KyberArith KyberNtt KyberNttModel KyberCodec KyberCodec2 KyberSample KyberVec KyberPke KyberKem KyberNoise KyberKexModel KyberKexProof
  AeadEtmModel AeadEtmTop.
Import ListNotations.

(** the three parameter sets *)
Definition kyber_params : list kparams := [kyber512; kyber768; kyber1024].
(** int32_t and int16_t *)
Definition int32 (x : Z) : Prop := - 2 ^ 31 <= x < 2 ^ 31.
Definition int16 (x : Z) : Prop := - 2 ^ 15 <= x < 2 ^ 15.

(** ** C46 *)
Lemma pos32_ok : forall c, -3328 <= c <= 3328 -> pos32 c = c mod q.
Proof.
  intros c H. assert (E := zall_ok _ _ _ comp_chk c ltac:(rewrite Z2Nat.id; lia)). cbv beta in E.
  repeat rewrite Bool.andb_true_iff in E. rewrite !Z.eqb_eq in E. tauto.
Qed.
(** documented domain -q 2^15 .. q 2^15 - 1 [kyber_reduce.h: 41-42] *)
Theorem C46_montgomery : forall a, - 3329 * 2 ^ 15 <= a < 3329 * 2 ^ 15 ->
  (montgomery_reduce a * 2 ^ 16) mod 3329 = a mod 3329 /\ - 3329 < montgomery_reduce a < 3329.
Proof.
  intros a H. assert (R : -109084672 <= a <= 109084671) by lia. split. apply (mont_mod a R). pose proof (mont_range a R). lia.
Qed.
Print Assumptions C46_montgomery.
(** every int expression of the function is in range, the final conversion to int16_t keeps the value *)
Theorem C46_montgomery_no_overflow : forall a, - 3329 * 2 ^ 15 <= a < 3329 * 2 ^ 15 ->
  int32 a /\ int32 (s16 a * -3327) /\
  let t := s16 (s16 a * -3327) in int16 t /\ int32 (t * 3329) /\ int32 (a - t * 3329) /\ int16 (Z.shiftr (a - t * 3329) 16).
Proof.
  intros a H. assert (R : -109084672 <= a <= 109084671) by lia. destruct (mont_ok a R) as (m & E & B & _). cbv zeta. unfold int32, int16.
  pose proof (s16_range a). pose proof (s16_range (s16 a * -3327)). unfold KQ in E. rewrite E, Z.shiftr_div_pow2, Z.div_mul by lia. lia.
Qed.
Print Assumptions C46_montgomery_no_overflow.
Theorem C46_barrett : forall a, int16 a -> barrett_reduce a mod 3329 = a mod 3329 /\ - 1664 <= barrett_reduce a <= 1664.
Proof. intros a H. unfold int16 in H. split. apply (barrett_mod a); lia. apply barrett_range; lia. Qed.
Print Assumptions C46_barrett.
Theorem C46_barrett_no_overflow : forall a, int16 a ->
  int32 (20159 * a + 2 ^ 25) /\
  let t := Z.shiftr (20159 * a + 2 ^ 25) 26 in int16 t /\ int32 (t * 3329) /\ int32 (a - s16 (t * 3329)).
Proof.
  intros a H. unfold int16, int32 in *. cbv zeta. rewrite Z.shiftr_div_pow2 by lia. pose proof (s16_range ((20159 * a + 2 ^ 25) / 2 ^ 26 * 3329)).
  assert (-10 <= (20159 * a + 2 ^ 25) / 2 ^ 26 <= 10) by (split; [apply Z.div_le_lower_bound|apply Z.lt_succ_r, Z.div_lt_upper_bound]; lia). lia.
Qed.
Print Assumptions C46_barrett_no_overflow.
(** the conditional addition of q, for the int32_t and the uint16_t variant *)
Theorem C46_conditional : forall c, -3329 <= c <= 3328 ->
  pos32 c = (if c <? 0 then c + 3329 else c) /\ pos16 c = (if c <? 0 then c + 3329 else c) /\
  (-3329 < c -> pos32 c = c mod 3329).
Proof.
  intros c H. assert (D : c = -3329 \/ -3328 <= c <= 3328) by lia. destruct D as [-> |D]. cbv. repeat split; intros; discriminate || reflexivity.
  assert (P := pos32_ok c D). assert (P2 := pos16_ok c D).
  assert (X : c mod q = if c <? 0 then c + 3329 else c).
  { unfold q. destruct (Z.ltb_spec c 0). rewrite <- (Z.mod_small (c + 3329) 3329) by lia. rewrite <- (Z_mod_plus_full c 1 3329). f_equal. apply Z.mod_small; lia. }
  rewrite P, P2. split; [|split]; auto.
Qed.
Print Assumptions C46_conditional.
(** the product and its callers: any product of two int16_t below q 2^15 in absolute value *)
Theorem C46_fqmul : forall a b, int16 a -> int16 b -> - 3329 * 2 ^ 15 <= a * b < 3329 * 2 ^ 15 ->
  int32 (a * b) /\ (fqmul a b * 2 ^ 16) mod 3329 = (a * b) mod 3329 /\ - 3329 < fqmul a b < 3329.
Proof. intros a b Ha Hb H. destruct (C46_montgomery (a * b) H) as [E R]. split. unfold int32. lia. split; auto. Qed.
Print Assumptions C46_fqmul.
Example C46_ex : montgomery_reduce 109084671 = 3160 /\ montgomery_reduce (-109084672) = 0 /\ montgomery_reduce 65536 = 1 /\
  barrett_reduce 32767 = -523 /\ barrett_reduce (-32768) = 522 /\ pos32 (-3328) = 1 /\ pos16 (-1) = 3328 /\ fqmul 32767 3328 = 1833.
Proof. vm_compute. auto 10. Qed.

(** ** C47 *)
Lemma invntt_P169 : forall f D, polyw 16383 f -> M q f = P169 D -> length D = 256%nat -> M q (kyber_invntt f) = NTTinv D.
Proof.
  intros f D W E L. destruct (kyber_invntt_ok f W) as [E' _]. rewrite E'. rewrite (NTTinv_M f (pscale 169 D)) by exact E.
  rewrite NTTinv_pscale, pscale_M2, pscale_1 by reflexivity. apply M_NTTinv.
Qed.
(** [Rmul] is the product in Z_q[X]/(X^256+1), see [C47_Rmul]. *)
Theorem C47_ring_product : forall a b, polyw 3328 a -> polyw 3328 b ->
  M q (poly_invntt_tomont (poly_basemul_montgomery (poly_ntt a) (poly_ntt b))) = Rmul a b /\
  polyw 3328 (poly_invntt_tomont (poly_basemul_montgomery (poly_ntt a) (poly_ntt b))).
Proof.
  intros a b Ha Hb. destruct (poly_ntt_ok a Ha) as [A1 A2]. destruct (poly_ntt_ok b Hb) as [B1 B2].
  destruct (rp_basemul 1664 1664 (poly_ntt a) (NTT a) (poly_ntt b) (NTT b) ltac:(lia) ltac:(lia) ltac:(lia) (conj A2 A1) (conj B2 B1)) as [W E].
  assert (W' : polyw 16383 (poly_basemul_montgomery (poly_ntt a) (poly_ntt b))) by (apply (polyw_weaken 6656); auto; lia).
  destruct (kyber_invntt_ok _ W') as [_ W2]. split; auto. unfold poly_invntt_tomont. rewrite (invntt_P169 _ _ W' E).
  - rewrite NTTinv_mul; auto. apply Ha. apply Hb.
  - unfold MultiplyNTTs. rewrite map_length. apply seq_length.
Qed.
Print Assumptions C47_ring_product.
(** the coefficients of [Rmul], by definition of the ring: X^256 = -1 *)
Theorem C47_Rmul : forall a b n, (n < 256)%nat -> length a = 256%nat -> length b = 256%nat ->
  nth n (Rmul a b) 0 = (zsum 256 (fun i => if (i <=? n)%nat then nth i a 0 * nth (n - i) b 0 else - (nth i a 0 * nth (256 + n - i) b 0))) mod 3329.
Proof. intros a b n Hn La Lb. unfold Rmul. rewrite nth_M. change q with 3329. f_equal.
  unfold conv. rewrite nth_map_seq by auto. cbn [Nat.add]. apply zsum_ext. intros i Hi. destruct (i <=? n)%nat; lia.
Qed.
Print Assumptions C47_Rmul.
(** the forward transform is the one of FIPS 203, its inverse inverts it up to the factor 2^16 *)
Theorem C47_inverse : forall f, polyw 3328 f ->
  M q (poly_ntt f) = NTT f /\ M q (poly_invntt_tomont (poly_ntt f)) = M q (pscale (2 ^ 16) f).
Proof.
  intros f Hf. destruct (poly_ntt_ok f Hf) as [E W]. split; auto.
  assert (W' : polyw 16383 (poly_ntt f)) by (apply (polyw_weaken 1664); auto; lia). destruct (kyber_invntt_ok _ W') as [E2 _].
  unfold poly_invntt_tomont. rewrite E2. change (2 ^ 16) with 65536. apply M_pscale. exact q_pos. auto.
  rewrite M_NTTinv. rewrite (NTTinv_M (poly_ntt f) (NTT f)). apply NTTinv_NTT. apply Hf. rewrite E. symmetry. apply M_NTT.
Qed.
Print Assumptions C47_inverse.
(** no int16_t store of the transforms truncates: the loops over unbounded integers give the same *)
Theorem C47_no_overflow : forall f, (polyw 3328 f -> kyber_ntt f = loop_down k_ct_int kzeta S 256 256 2 128 1 f) /\
  (polyw 16383 f -> kyber_invntt f = map (fun x => fqmul x 1441) (loop_up k_gs_int kzeta pred 256 256 256 2 127 f)).
Proof. intros f. split. apply kyber_ntt_nowrap. apply kyber_invntt_nowrap. Qed.
Print Assumptions C47_no_overflow.
(** (1 + X) * X^255 = X^255 - 1 *)
Example C47_ex :
  let a := 1 :: 1 :: zeros 254 in let b := zeros 255 ++ [1] in
  polyw 3328 a /\ polyw 3328 b /\
  M q (poly_invntt_tomont (poly_basemul_montgomery (poly_ntt a) (poly_ntt b))) = 3328 :: zeros 254 ++ [1].
Proof.
  cbv zeta. split; [|split].
  - split. reflexivity. unfold within. apply Forall_forall. intros x Hx. cbn [In] in Hx. destruct Hx as [<-|[<-|Hx]]; try lia. unfold zeros in Hx. apply repeat_spec in Hx. lia.
  - split. reflexivity. unfold within. apply Forall_app. split. apply Forall_forall. intros x Hx. unfold zeros in Hx. apply repeat_spec in Hx. lia. repeat constructor; lia.
  - vm_compute. reflexivity.
Qed.

(** ** C48 *)
(** on the whole range of coefficients, for every d that is used; [Compress d x] = round(2^d/q x) mod 2^d with halves up *)
Theorem C48_compress : forall c, -3328 <= c <= 3328 ->
  comp4 c = Compress 4 (c mod q) /\ comp5 c = Compress 5 (c mod q) /\ comp10 c = Compress 10 (c mod q) /\
  comp11 c = Compress 11 (c mod q).
Proof. intros c H. pose proof (comp_all c H). tauto. Qed.
Print Assumptions C48_compress.
Theorem C48_compress_message : forall c, -1664 <= c <= 1664 -> tomsg_bit c = Compress 1 (c mod q).
Proof. exact tomsg_bit_ok. Qed.
Print Assumptions C48_compress_message.
Theorem C48_poly : forall dv a, In dv [4%nat; 5%nat] -> polyw 3328 a ->
  poly_compress dv a = ByteEncode dv (map (Compress (Z.of_nat dv)) (M q a)).
Proof. exact poly_compress_ok. Qed.
Print Assumptions C48_poly.
Theorem C48_polyvec : forall du a, In du [10%nat; 11%nat] -> polyw 3328 a ->
  polyc du a = ByteEncode du (map (Compress (Z.of_nat du)) (M q a)).
Proof. exact polyc_ok. Qed.
Print Assumptions C48_polyvec.
Theorem C48_decompress : forall d b, bytes b -> length b = (32 * d)%nat ->
  (In d [4%nat; 5%nat] -> poly_decompress d b = map (Decompress (Z.of_nat d)) (ByteDecode d b)) /\
  (In d [10%nat; 11%nat] -> polyd d b = map (Decompress (Z.of_nat d)) (ByteDecode d b)).
Proof. intros d b Hb L. split; intros Hd. apply poly_decompress_ok; auto. apply polyd_ok; auto. Qed.
Print Assumptions C48_decompress.
(** the error, as the distance modulo q; round(q/2^(d+1)) = floor((q + 2^d) / 2^(d+1)) *)
Theorem C48_error : forall d x, In d [1; 4; 5; 10; 11] -> 0 <= x < 3329 ->
  Z.abs (cmod (Decompress d (Compress d x) - x)) <= (3329 + 2 ^ d) / 2 ^ (d + 1).
Proof.
  intros d x Hd Hx. pose proof (compress_error d x Hd Hx) as E. unfold Bq, q in E.
  replace (2 ^ (d + 1)) with (2 * 2 ^ d). exact E. rewrite Z.pow_add_r by (destruct Hd as [<-|[<-|[<-|[<-|[<-|[]]]]]]; lia). lia.
Qed.
Print Assumptions C48_error.
(** through the code: compressing and decompressing a polynomial moves each coefficient by at most that much *)
Theorem C48_code_error : forall d a i, In d [4%nat; 5%nat] \/ In d [10%nat; 11%nat] -> polyw 3328 a -> (i < 256)%nat ->
  let b := if (d <=? 5)%nat then poly_decompress d (poly_compress d a) else polyd d (polyc d a) in
  Z.abs (cmod (nth i b 0 - nth i a 0)) <= (3329 + 2 ^ Z.of_nat d) / 2 ^ (Z.of_nat d + 1).
Proof.
  intros d a i Hd Ha Hi. cbv zeta.
  assert (E : (if (d <=? 5)%nat then poly_decompress d (poly_compress d a) else polyd d (polyc d a)) =
    map (fun x => Decompress (Z.of_nat d) (Compress (Z.of_nat d) x)) (M q a)).
  { assert (D0 : (0 < d)%nat) by (destruct Hd as [Hd|Hd]; destruct Hd as [<-|[<-|[]]]; lia).
    assert (LE : forall F, bytes (ByteEncode d F) /\ length (ByteEncode d F) = (32 * d)%nat).
    { intros F. split. apply bytes_ByteEncode. unfold ByteEncode. rewrite map_length. apply seq_length. }
    assert (BD : ByteDecode d (ByteEncode d (map (Compress (Z.of_nat d)) (M q a))) = map (Compress (Z.of_nat d)) (M q a)).
    { apply ByteDecode_Encode; auto. rewrite map_length, length_M. apply Ha. apply Forall_Compress. lia. }
    destruct Hd as [Hd|Hd].
    - replace (d <=? 5)%nat with true by (destruct Hd as [<-|[<-|[]]]; reflexivity). rewrite poly_compress_ok by auto.
      rewrite poly_decompress_ok; auto; try apply LE. rewrite BD, map_map. reflexivity.
    - replace (d <=? 5)%nat with false by (destruct Hd as [<-|[<-|[]]]; reflexivity). rewrite polyc_ok by auto.
      rewrite polyd_ok; auto; try apply LE. rewrite BD, map_map. reflexivity. }
  rewrite E. destruct Ha as [La _].
  rewrite (nth_indep _ 0 ((fun x => Decompress (Z.of_nat d) (Compress (Z.of_nat d) x)) 0)) by (rewrite map_length, length_M; lia).
  rewrite (map_nth (fun x => Decompress (Z.of_nat d) (Compress (Z.of_nat d) x))), nth_M.
  set (x := nth i a 0 mod q). assert (Hx : 0 <= x < 3329) by (apply Z.mod_pos_bound; reflexivity).
  replace (cmod (Decompress (Z.of_nat d) (Compress (Z.of_nat d) x) - nth i a 0)) with (cmod (Decompress (Z.of_nat d) (Compress (Z.of_nat d) x) - x)).
  - apply C48_error; auto. destruct Hd as [Hd|Hd]; destruct Hd as [<-|[<-|[]]]; cbn; auto 10.
  - unfold cmod. f_equal. unfold x. rewrite <- (Z.add_mod_idemp_l (_ - nth i a 0)), <- (Z.add_mod_idemp_l (_ - nth i a 0 mod q)) by (unfold q; lia).
    rewrite Zminus_mod_idemp_r. reflexivity.
Qed.
Print Assumptions C48_code_error.
Example C48_ex : comp10 1664 = 512 /\ decomp10 512 = 1665 /\ comp4 (-1) = 0 /\ comp11 (-3328) = 1 /\ (3329 + 2 ^ 4) / 2 ^ 5 = 104 /\
  Compress 4 104 = 0 /\ Compress 4 105 = 1.
Proof. vm_compute. auto 10. Qed.

(** ** C49 *)
Theorem C49_tobytes_frombytes : forall a, Rq a -> poly_frombytes (poly_tobytes a) = a.
Proof.
  intros a [L R]. assert (W : polyw 3328 a). { split; auto. unfold within. eapply Forall_impl; [|exact R]. cbv beta. unfold q. intros. lia. }
  rewrite poly_tobytes_ok by auto. rewrite poly_frombytes_ok. 2: apply bytes_ByteEncode. 2: unfold ByteEncode; rewrite map_length; apply seq_length.
  assert (E : M q a = a). { unfold M. rewrite <- (map_id a) at 2. apply map_ext_in. intros x Hx. rewrite Forall_forall in R. apply Z.mod_small. apply R; auto. }
  rewrite E. apply ByteDecode_Encode; auto. lia. eapply Forall_impl; [|exact R]. cbv beta. unfold q. cbn. intros. lia.
Qed.
Print Assumptions C49_tobytes_frombytes.
(** every 384 byte string is the encoding of what it decodes to, also when that is not reduced *)
Theorem C49_frombytes_tobytes : forall b, bytes b -> length b = 384%nat -> poly_tobytes (poly_frombytes b) = b.
Proof.
  intros b Hb L. rewrite poly_frombytes_ok by auto. rewrite poly_tobytes_12. apply ByteEncode_Decode; auto. lia. apply length_ByteDecode. apply (ByteDecode_range 12).
Qed.
Print Assumptions C49_frombytes_tobytes.
Theorem C49_message : forall m, bytes m -> length m = 32%nat -> poly_tomsg (poly_reduce (poly_frommsg m)) = m.
Proof.
  intros m Hm L. rewrite poly_frommsg_ok by auto.
  assert (RP : rp 3328 (map (Decompress 1) (ByteDecode 1 m)) (map (Decompress 1) (ByteDecode 1 m))).
  { apply Decompress_rp. left. reflexivity. apply length_ByteDecode. apply (ByteDecode_range 1). }
  destruct (rp_reduce 3328 _ _ ltac:(lia) RP) as [W E].
  rewrite poly_tomsg_ok by auto. rewrite E, map_map.
  transitivity (ByteEncode 1 (ByteDecode 1 m)). 2: apply ByteEncode_Decode; auto.
  apply f_equal. transitivity (map (fun x => x) (ByteDecode 1 m)); [|apply map_id]. apply map_ext_in. intros x Hx.
  pose proof (ByteDecode_range 1 m) as R. rewrite Forall_forall in R. specialize (R x Hx). change (2 ^ Z.of_nat 1) with 2 in R.
  assert (x = 0 \/ x = 1) as [->| ->] by lia; reflexivity.
Qed.
Print Assumptions C49_message.
(** REFUTED: the modulus check accepts every byte string of the right length. FIPS 203, Section 7.2 requires that
    ByteEncode(ByteDecode(ek) mod q) = ek. *)
Theorem C49_modulus_check_refuted : forall ad1 ad2 p, In p kyber_params ->
  (forall pk, bytes pk -> length pk = pkbytes p -> kyber_kem_iv_pk_modulus ad1 ad2 pk (polyvec_frombytes (kk p) pk) (skipn (384 * kk p) pk) = 0) /\
  exists pk, bytes pk /\ length pk = pkbytes p /\ ~ Forall (Forall (fun x => 0 <= x < 3329)) (vdecode (kk p) 12 pk) /\
    kyber_kem_iv_pk_modulus ad1 ad2 pk (polyvec_frombytes (kk p) pk) (skipn (384 * kk p) pk) = 0.
Proof.
  intros ad1 ad2 p Hp. assert (A : forall pk, bytes pk -> length pk = pkbytes p -> kyber_kem_iv_pk_modulus ad1 ad2 pk (polyvec_frombytes (kk p) pk) (skipn (384 * kk p) pk) = 0).
  { intros pk H L. apply modulus_check_zero; auto. }
  split; auto. exists (repeat 255 (pkbytes p)).
  assert (B : bytes (repeat 255 (pkbytes p))). { apply Forall_forall. intros x Hx. apply repeat_spec in Hx. subst. unfold byte. lia. }
  assert (L : length (repeat 255 (pkbytes p)) = pkbytes p) by apply repeat_length.
  split; auto. split; auto. split; auto. intros F.
  assert (K : (1 <= kk p <= 4)%nat) by (apply kyber_kok; auto).
  assert (N : nth 0 (nth 0 (vdecode (kk p) 12 (repeat 255 (pkbytes p))) []) 0 = 4095).
  { unfold vdecode. rewrite nth_map_seq_gen by lia. destruct Hp as [<-|[<-|[<-|[]]]]; vm_compute; reflexivity. }
  assert (L0 : length (vdecode (kk p) 12 (repeat 255 (pkbytes p))) = kk p) by (unfold vdecode; rewrite map_length; apply seq_length).
  rewrite Forall_forall in F. specialize (F (nth 0 (vdecode (kk p) 12 (repeat 255 (pkbytes p))) []) ltac:(apply nth_In; lia)).
  rewrite Forall_forall in F. specialize (F 4095). rewrite <- N in F. assert (0 <= nth 0 (nth 0 (vdecode (kk p) 12 (repeat 255 (pkbytes p))) []) 0 < 3329).
  { apply F. apply nth_In. unfold vdecode. rewrite nth_map_seq_gen by lia. rewrite length_ByteDecode. lia. }
  rewrite N in H. lia.
Qed.
Print Assumptions C49_modulus_check_refuted.
Example C49_ex : poly_tobytes (3328 :: 1 :: zeros 254) = [0; 29; 0] ++ zeros 381 /\ poly_frombytes ([0; 29; 0] ++ zeros 381) = 3328 :: 1 :: zeros 254 /\
  poly_tomsg (poly_reduce (poly_frommsg (repeat 165 32))) = repeat 165 32 /\
  poly_tobytes (poly_frombytes (repeat 255 384)) = repeat 255 384 /\ nth 0 (poly_frombytes (repeat 255 384)) 0 = 4095.
Proof. vm_compute. auto 10. Qed.
