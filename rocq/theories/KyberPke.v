(** kyber_indcpa.c against K-PKE of FIPS 203. *)
From Verif Require Import Bytes Words ZUtil SpongeSpec KeccakSpec Fips202 KeccakModel Sha3Model KeccakBytes Sha3Proof Sha3Top HashIface DrbgProof UtilModel UtilProof PolyRing NttSim KyberModel KyberSpec KyberArith KyberNtt KyberNttModel KyberCodec KyberCodec2 KyberSample KyberVec.
Require Import Lia.

Definition kok (p : kparams) : Prop :=
  (1 <= kk p <= 4)%nat /\ In (keta1 p) [2%nat; 3%nat] /\ In (kdu p) [10%nat; 11%nat] /\ In (kdv p) [4%nat; 5%nat].
Lemma kyber_kok : forall p, In p [kyber512; kyber768; kyber1024] -> kok p.
Proof. intros p [<-|[<-|[<-|[]]]]; unfold kok; cbn; intuition lia. Qed.

(** ** vectors *)
Lemma vR_map : forall B C (g G : list Z -> list Z) v V, (forall f F, rp B f F -> rp C (g f) (G F)) -> vR B v V -> vR C (map g v) (map G V).
Proof. intros B C g G v V H HV. induction HV; cbn [map]; constructor; auto. Qed.
Lemma vR_seq : forall B (g G : nat -> list Z) l, (forall i, In i l -> rp B (g i) (G i)) -> vR B (map g l) (map G l).
Proof. intros B g G l H. induction l; cbn [map]; constructor. apply H; left; auto. apply IHl. intros; apply H; right; auto. Qed.
Lemma vR_len : forall B v V, vR B v V -> length v = length V.
Proof. intros B v V H. induction H; cbn [length]; congruence. Qed.
Lemma vR_weaken : forall B C v V, B <= C -> vR B v V -> vR C v V.
Proof. intros B C v V H HV. induction HV; constructor; auto. eapply rp_weaken; eauto. Qed.
Fixpoint zadd (a b : list (list Z)) : list (list Z) :=
  match a, b with x :: a', y :: b' => Radd x y :: zadd a' b' | _, _ => [] end.
Lemma vadd_zadd : forall k a b, length a = k -> length b = k -> vadd k a b = zadd a b.
Proof.
  induction k; intros a b La Lb. destruct a; [reflexivity|cbn in La; lia].
  destruct a as [|x a]; [cbn in La; lia|]. destruct b as [|y b]; [cbn in Lb; lia|]. unfold vadd. cbn [seq map nth zadd]. f_equal.
  rewrite <- seq_shift, map_map. cbn [nth]. apply IHk; cbn in *; lia.
Qed.
Lemma vR_add : forall k B C a A b BB, B + C <= 32767 -> vR B a A -> vR C b BB -> length a = k -> length b = k -> vR (B + C) (polyvec_add a b) (vadd k A BB).
Proof.
  intros k B C a A b BB H Ha Hb La Lb. rewrite vadd_zadd by (rewrite <- (vR_len _ _ _ Ha) + rewrite <- (vR_len _ _ _ Hb); auto).
  clear La Lb. revert b BB Hb. induction Ha; intros b BB Hb; [constructor|]. destruct Hb; [constructor|]. cbn [polyvec_add zadd]. constructor.
  apply rp_add; auto. apply IHHa; auto.
Qed.
Lemma length_polyvec_add : forall a b, length a = length b -> length (polyvec_add a b) = length a.
Proof. induction a; intros [|y b] L; cbn in *; auto; lia. Qed.
Lemma vR_tobytes : forall v V, vR 3328 v V -> polyvec_tobytes v = flat_map (ByteEncode 12) V.
Proof. intros v V H. unfold polyvec_tobytes. induction H as [|f F v V [W E] H IH]; cbn [flat_map]; auto. rewrite IH, (poly_tobytes_ok f W), E. reflexivity. Qed.
Lemma vR_compress : forall du v V, In du [10%nat; 11%nat] -> vR 3328 v V ->
  polyvec_compress du v = flat_map (fun p => ByteEncode du (map (Compress (Z.of_nat du)) p)) V.
Proof. intros du v V Hd H. unfold polyvec_compress. induction H as [|f F v V [W E] H IH]; cbn [flat_map]; auto. rewrite IH, (polyc_ok du f Hd W), E. reflexivity. Qed.
Lemma Rq_rp : forall f, Rq f -> rp 3328 f f.
Proof.
  intros f [L H]. split. split; auto. eapply Forall_impl; [|exact H]. unfold q. cbv beta. lia.
  unfold M. rewrite <- (map_id f) at 2. apply map_ext_in. intros x Hx. rewrite Forall_forall in H. apply Z.mod_small. auto.
Qed.
Lemma row_vR : forall row, Forall Rq row -> vR 3328 row row.
Proof. intros row H. induction H; constructor; auto. apply Rq_rp; auto. Qed.
Lemma vR_noise : forall k eta s st, In eta [2%nat; 3%nat] -> bytes s -> length s = 32%nat -> (st + k <= 8)%nat ->
  vR 3 (map (fun i => poly_getnoise eta s (st + i)) (seq 0 k)) (noise k eta s st).
Proof. intros. unfold noise. apply (vR_seq 3 (fun i => poly_getnoise eta s (st + i)) (fun i => SamplePolyCBD eta (PRF eta s (st + i)))). intros i Hi. apply in_seq in Hi. apply getnoise_ok; auto. lia. Qed.

Lemma k_sha3_512_ok : forall ms, Forall bytes ms -> Z.of_nat (length (concat ms)) < 2 ^ 64 -> k_sha3_512 ms = SHA3 64 (concat ms).
Proof. intros ms H L. unfold k_sha3_512. rewrite (sha3_family_final alg_sha3_512); auto. cbn; auto 10. Qed.
Lemma k_sha3_256_ok : forall ms, Forall bytes ms -> Z.of_nat (length (concat ms)) < 2 ^ 64 -> k_sha3_256 ms = SHA3 32 (concat ms).
Proof. intros ms H L. unfold k_sha3_256. rewrite (sha3_family_final alg_sha3_256); auto. cbn; auto 10. Qed.

(** ** key generation *)
Lemma Gh_ok : forall m, bytes m -> bytes (Gh m) /\ length (Gh m) = 64%nat.
Proof. intros. split. apply SHA3_bytes; auto. lia. apply SHA3_len. Qed.
Lemma rho_ok : forall k d, (k < 256)%nat -> bytes d -> bytes (KPKE_rho k d) /\ length (KPKE_rho k d) = 32%nat /\ bytes (KPKE_sigma k d) /\ length (KPKE_sigma k d) = 32%nat.
Proof.
  intros k d Hk Hd. assert (B : bytes (d ++ [Z.of_nat k])). { apply bytes_app; auto. constructor. unfold byte; lia. constructor. }
  destruct (Gh_ok _ B) as [H1 H2]. unfold KPKE_rho, KPKE_sigma. rewrite firstn_length, skipn_length, H2.
  repeat split; try lia. apply bytes_firstn; auto. apply bytes_skipn; auto.
Qed.
Theorem indcpa_keypair_ok : forall fuel p d A, kok p -> bytes d -> length d = 32%nat ->
  is_matrix (kk p) (KPKE_rho (kk p) d) A -> gen_matrix fuel (kk p) (KPKE_rho (kk p) d) false = Some A ->
  indcpa_keypair fuel p d = Some (KPKE_KeyGen (kk p) (keta1 p) A d).
Proof.
  intros fuel p d A (Hk & He & _ & _) Hd Ld HA G. unfold indcpa_keypair.
  assert (B : bytes [Z.of_nat (kk p)]) by (constructor; [unfold byte; lia|constructor]).
  assert (E : k_sha3_512 [d; [Z.of_nat (kk p)]] = Gh (d ++ [Z.of_nat (kk p)])).
  { rewrite k_sha3_512_ok. cbn [concat]. rewrite app_nil_r. reflexivity. exact (Forall_cons _ Hd (Forall_cons _ B (Forall_nil _))). cbn [concat]. rewrite !app_length, Ld. cbn. lia. }
  rewrite E. fold (KPKE_rho (kk p) d). fold (KPKE_sigma (kk p) d). rewrite G.
  destruct (rho_ok (kk p) d ltac:(lia) Hd) as (R1 & R2 & S1 & S2).
  pose proof (vR_noise (kk p) (keta1 p) (KPKE_sigma (kk p) d) 0 He S1 S2 ltac:(lia)) as Hs.
  pose proof (vR_noise (kk p) (keta1 p) (KPKE_sigma (kk p) d) (kk p) He S1 S2 ltac:(lia)) as Hn.
  cbn [Nat.add] in Hs. unfold polyvec_ntt.
  apply (vR_weaken 3 3328) in Hs; [|lia]. apply (vR_weaken 3 3328) in Hn; [|lia].
  apply (vR_map 3328 1664 poly_ntt NTT) in Hs; [|exact rp_ntt]. apply (vR_map 3328 1664 poly_ntt NTT) in Hn; [|exact rp_ntt].
  unfold KPKE_KeyGen.
  match type of Hs with vR _ ?a ?b => set (s := a) in *; set (ss := b) in * end.
  match type of Hn with vR _ ?a ?b => set (e := a) in *; set (ee := b) in * end.
  assert (Ls : length s = kk p) by (unfold s; rewrite !map_length; apply seq_length).
  assert (Le : length e = kk p) by (unfold e; rewrite !map_length; apply seq_length).
  clearbody s ss e ee.
  assert (T : vR 3328 (map (fun row => poly_tomont (polyvec_basemul_acc_montgomery row s)) A) (map (fun row => dotNTT row ss) A)).
  { pose proof (is_matrix_Rq (kk p) _ ltac:(lia) R1 R2 A HA) as HR. clear - HR Hs Ls Hk. induction HR as [|row A [L HR] _ IH]; cbn [map]; constructor; auto.
    rewrite <- M_dot. apply rp_tomont. apply (rp_acc 3328 1664); auto; try lia. apply row_vR; auto. }
  assert (LA : length A = kk p) by apply HA.
  assert (T2 := vR_add (kk p) 3328 1664 _ _ _ _ ltac:(lia) T Hn ltac:(rewrite map_length; auto) Le).
  apply (vR_map _ 1664 poly_reduce (fun x => x)) in T2; [|intros; apply (rp_reduce (3328 + 1664)); auto; lia]. rewrite map_id in T2.
  apply (vR_weaken 1664 3328) in T2; [|lia]. apply (vR_weaken 1664 3328) in Hs; [|lia].
  unfold pack_pk. rewrite <- (vR_tobytes _ _ Hs). rewrite <- (vR_tobytes _ _ T2). reflexivity.
Qed.

(** ** pieces *)
Lemma cut_piece : forall k n a, cut k n a = map (fun i => piece n i a) (seq 0 k).
Proof.
  induction k; intros n a; cbn [cut seq map]; auto. f_equal. unfold piece. rewrite Nat.mul_0_r. reflexivity.
  rewrite IHk, <- seq_shift, map_map. apply map_ext. intros i. unfold piece. rewrite skipn_skipn'. f_equal. f_equal. lia.
Qed.
Lemma piece_ok : forall n i k a, bytes a -> (i < k)%nat -> (n * k <= length a)%nat -> bytes (piece n i a) /\ length (piece n i a) = n.
Proof. intros n i k a H Hi L. unfold piece. split. apply bytes_firstn, bytes_skipn; auto. rewrite firstn_length, skipn_length. nia. Qed.
Lemma cut_cat : forall k n a, (n * k <= length a)%nat -> concat (cut k n a) ++ skipn (n * k) a = a.
Proof.
  induction k; intros n a L; cbn [cut concat]. rewrite Nat.mul_0_r. reflexivity.
  rewrite <- app_assoc. replace (n * S k)%nat with (n * k + n)%nat by lia. rewrite <- (skipn_skipn' n (n * k)) || idtac.
  replace (skipn (n * k + n) a) with (skipn (n * k) (skipn n a)) by (rewrite skipn_skipn'; f_equal; lia).
  rewrite IHk. apply firstn_skipn. rewrite skipn_length. lia.
Qed.
Lemma frombytes_vR : forall k a, bytes a -> (384 * k <= length a)%nat -> vR 4095 (polyvec_frombytes k a) (map (M q) (vdecode k 12 a)).
Proof.
  intros k a H L. unfold polyvec_frombytes, vdecode. rewrite cut_piece, !map_map. apply vR_seq. intros i Hi. apply in_seq in Hi.
  destruct (piece_ok 384 i k a H ltac:(lia) L) as [B Lp]. rewrite poly_frombytes_ok by auto. split; [|reflexivity].
  split. apply length_ByteDecode. eapply Forall_impl; [|apply (ByteDecode_range 12)]. cbn. lia.
Qed.
Lemma pack_unpack : forall k pk, bytes pk -> length pk = (384 * k + 32)%nat -> pack_pk (polyvec_frombytes k pk) (skipn (384 * k) pk) = pk.
Proof.
  intros k pk H L. unfold pack_pk. transitivity (concat (cut k 384 pk) ++ skipn (384 * k) pk). 2: apply cut_cat; lia.
  f_equal. unfold polyvec_tobytes, polyvec_frombytes. rewrite cut_piece.
  assert (F : Forall (fun t => bytes t /\ length t = 384%nat) (map (fun i => piece 384 i pk) (seq 0 k))).
  { apply Forall_map. apply Forall_forall. intros i Hi. apply in_seq in Hi. apply (piece_ok 384 i k); auto; lia. }
  induction F as [|t l [B Lt] F IH]; cbn [map flat_map concat]; auto. rewrite IH. f_equal.
  rewrite poly_frombytes_ok by auto. rewrite poly_tobytes_12. apply ByteEncode_Decode; auto. lia. apply length_ByteDecode. apply (ByteDecode_range 12).
Qed.

Lemma modulus_check_zero : forall ad1 ad2 k pk, bytes pk -> length pk = (384 * k + 32)%nat ->
  kyber_kem_iv_pk_modulus ad1 ad2 pk (polyvec_frombytes k pk) (skipn (384 * k) pk) = 0.
Proof.
  intros ad1 ad2 k pk H L. unfold kyber_kem_iv_pk_modulus. rewrite pack_unpack by auto.
  destruct (memcmp_spec ad1 pk ad2 pk H H) as [E _]. rewrite (proj2 E eq_refl). reflexivity.
Qed.
Lemma transpose_Rq : forall k A, length A = k -> Forall (fun row => length row = k /\ Forall Rq row) A ->
  Forall (fun row => length row = k /\ Forall Rq row) (transpose k A).
Proof.
  intros k A L H. apply Forall_map. apply Forall_forall. intros j Hj. apply in_seq in Hj. split. rewrite map_length. apply seq_length.
  apply Forall_map. apply Forall_forall. intros i Hi. apply in_seq in Hi. rewrite Forall_forall in H.
  destruct (H (nth i A [])) as [Lr HR]. apply nth_In. lia. rewrite Forall_forall in HR. apply HR. apply nth_In. lia.
Qed.
Lemma rows_acc : forall k A s ss, (1 <= k <= 4)%nat -> Forall (fun row => length row = k /\ Forall Rq row) A -> vR 1664 s ss -> length s = k ->
  vR 3328 (map poly_invntt_tomont (map (fun row => polyvec_basemul_acc_montgomery row s) A)) (map (fun row => NTTinv (dotNTT row ss)) A).
Proof.
  intros k A s ss Hk HR Hs Ls. induction HR as [|row A [L HR] _ IH]; cbn [map]; constructor; auto.
  apply rp_invntt. apply length_dot. apply (rp_acc 3328 1664); auto; try lia. apply row_vR; auto.
Qed.
Lemma Decompress_rp : forall d F, In d [1; 4; 5; 10; 11] -> length F = 256%nat -> Forall (fun x => 0 <= x < 2 ^ d) F ->
  rp 3328 (map (Decompress d) F) (map (Decompress d) F).
Proof.
  intros d F Hd L H. apply Rq_rp. split. rewrite map_length; auto. apply Forall_map. eapply Forall_impl; [|exact H].
  intros a Ha. cbv beta in *. pose proof (Decompress_range d a Hd Ha). unfold q. lia.
Qed.
Theorem indcpa_enc_ok : forall ad1 ad2 fuel p m pk coins A, kok p -> bytes m -> length m = 32%nat -> bytes pk -> length pk = (384 * kk p + 32)%nat ->
  bytes coins -> length coins = 32%nat -> is_matrix (kk p) (ek_rho (kk p) pk) A ->
  gen_matrix fuel (kk p) (ek_rho (kk p) pk) true = Some (transpose (kk p) A) ->
  indcpa_enc ad1 ad2 fuel p m pk coins = Some (0, KPKE_Encrypt (kk p) (keta1 p) (kdu p) (kdv p) A pk m coins).
Proof.
  intros ad1 ad2 fuel p m pk coins A (Hk & He & Hdu & Hdv) Hm Lm Hpk Lpk Hr Lr HA G. unfold indcpa_enc.
  fold (ek_rho (kk p) pk). unfold ek_rho at 1. rewrite modulus_check_zero by auto. cbn [Z.eqb negb]. rewrite G.
  assert (R1 : bytes (ek_rho (kk p) pk)) by (apply bytes_skipn; auto).
  assert (R2 : length (ek_rho (kk p) pk) = 32%nat) by (unfold ek_rho; rewrite skipn_length; lia).
  pose proof (vR_noise (kk p) (keta1 p) coins 0 He Hr Lr ltac:(lia)) as Hs.
  pose proof (vR_noise (kk p) 2 coins (kk p) ltac:(cbn; auto) Hr Lr ltac:(lia)) as Hn.
  pose proof (getnoise_ok 2 coins (2 * kk p) ltac:(cbn; auto) Hr Lr ltac:(lia)) as Hn2.
  cbn [Nat.add] in Hs. unfold polyvec_ntt, polyvec_invntt_tomont, polyvec_reduce.
  apply (vR_weaken 3 3328) in Hs; [|lia].
  apply (vR_map 3328 1664 poly_ntt NTT) in Hs; [|exact rp_ntt].
  unfold KPKE_Encrypt.
  match type of Hs with vR _ ?a ?b => set (s := a) in *; set (ss := b) in * end.
  match type of Hn with vR _ ?a ?b => set (e := a) in *; set (ee := b) in * end.
  match type of Hn2 with rp _ ?a ?b => set (e2 := a) in *; set (ee2 := b) in * end.
  assert (Ls : length s = kk p) by (unfold s; rewrite !map_length; apply seq_length).
  assert (Le : length e = kk p) by (unfold e; rewrite !map_length; apply seq_length).
  clearbody s ss e ee e2 ee2.
  assert (LA : length A = kk p) by apply HA.
  assert (T := rows_acc (kk p) (transpose (kk p) A) s ss Hk (transpose_Rq _ A LA (is_matrix_Rq (kk p) _ ltac:(lia) R1 R2 A HA)) Hs Ls).
  assert (T2 := vR_add (kk p) 3328 3 _ _ _ _ ltac:(lia) T Hn ltac:(rewrite !map_length; apply length_transpose) Le).
  apply (vR_map _ 1664 poly_reduce (fun x => x)) in T2; [|intros; apply (rp_reduce (3328 + 3)); auto; lia]. rewrite map_id in T2.
  apply (vR_weaken 1664 3328) in T2; [|lia].
  rewrite (vR_compress (kdu p) _ _ Hdu T2).
  pose proof (frombytes_vR (kk p) pk Hpk ltac:(lia)) as HT.
  assert (V := rp_acc 4095 1664 _ _ _ _ ltac:(lia) ltac:(lia) ltac:(lia) HT Hs).
  assert (Lt : length (polyvec_frombytes (kk p) pk) = kk p) by (unfold polyvec_frombytes; rewrite cut_piece, !map_length; apply seq_length).
  specialize (V ltac:(lia) ltac:(lia)).
  apply rp_invntt in V; [|apply length_dot].
  apply (fun H => rp_add 3328 3 _ _ _ _ H Hn2 ltac:(lia)) in V.
  assert (Mu : rp 3328 (poly_frommsg m) (map (Decompress 1) (ByteDecode 1 m))).
  { rewrite poly_frommsg_ok by auto. apply Decompress_rp. cbn; auto. apply length_ByteDecode. apply (ByteDecode_range 1). }
  apply (fun H => rp_add (3328 + 3) 3328 _ _ _ _ H Mu ltac:(lia)) in V.
  apply (rp_reduce (3328 + 3 + 3328)) in V; [|lia]. apply (rp_weaken 1664 3328) in V; [|lia].
  destruct V as [W E]. rewrite (poly_compress_ok (kdv p) _ Hdv W), E. reflexivity.
Qed.
Theorem indcpa_dec_ok : forall p c sk, kok p -> bytes c -> length c = ctbytes p -> bytes sk -> length sk = cpaskbytes p ->
  indcpa_dec p c sk = KPKE_Decrypt (kk p) (kdu p) (kdv p) sk c /\ bytes (indcpa_dec p c sk) /\ length (indcpa_dec p c sk) = 32%nat.
Proof.
  intros p c sk (Hk & He & Hdu & Hdv) Hc Lc Hsk Lsk. unfold ctbytes, cpaskbytes in *.
  assert (E : indcpa_dec p c sk = KPKE_Decrypt (kk p) (kdu p) (kdv p) sk c).
  { unfold indcpa_dec, KPKE_Decrypt.
    pose proof (frombytes_vR (kk p) sk Hsk ltac:(lia)) as HT.
    assert (Hu : vR 3328 (polyvec_decompress (kk p) (kdu p) c) (map (fun p0 => map (Decompress (Z.of_nat (kdu p))) p0) (vdecode (kk p) (kdu p) c))).
    { unfold polyvec_decompress, vdecode. rewrite cut_piece, !map_map. apply vR_seq. intros i Hi. apply in_seq in Hi.
      destruct (piece_ok (32 * kdu p) i (kk p) c Hc ltac:(lia) ltac:(lia)) as [B Lp]. rewrite (polyd_ok (kdu p)) by auto.
      apply Decompress_rp. destruct Hdu as [<-|[<-|[]]]; cbn; auto 10. apply length_ByteDecode. apply ByteDecode_range. }
    apply (vR_map 3328 1664 poly_ntt NTT) in Hu; [|exact rp_ntt].
    assert (Hv : rp 3328 (poly_decompress (kdv p) (skipn (32 * kdu p * kk p) c)) (map (Decompress (Z.of_nat (kdv p))) (ByteDecode (kdv p) (skipn (32 * kdu p * kk p) c)))).
    { rewrite (poly_decompress_ok (kdv p)); auto. apply Decompress_rp. destruct Hdv as [<-|[<-|[]]]; cbn; auto 10. apply length_ByteDecode. apply ByteDecode_range.
      apply bytes_skipn; auto. rewrite skipn_length. lia. }
    fold (polyvec_ntt (polyvec_decompress (kk p) (kdu p) c)) in Hu.
    assert (V := rp_acc 4095 1664 _ _ _ _ ltac:(lia) ltac:(lia) ltac:(lia) HT Hu).
    assert (Lt : length (polyvec_frombytes (kk p) sk) = kk p) by (unfold polyvec_frombytes; rewrite cut_piece, !map_length; apply seq_length).
    assert (Lu : length (polyvec_ntt (polyvec_decompress (kk p) (kdu p) c)) = kk p) by (unfold polyvec_ntt, polyvec_decompress; rewrite cut_piece, !map_length; apply seq_length).
    specialize (V ltac:(lia) ltac:(lia)).
    apply rp_invntt in V; [|apply length_dot].
    assert (S := rp_sub 3328 3328 _ _ _ _ Hv V ltac:(lia)). apply rp_reduce in S; [|lia]. destruct S as [W E].
    rewrite (poly_tomsg_ok _ W), E. reflexivity. }
  rewrite E. split; auto. unfold KPKE_Decrypt. split. apply bytes_ByteEncode. apply length_ByteEncode.
Qed.
