(** Compression, message and key encoding, CBD and rejection sampling, polynomial level. *)
From Verif Require Import Bytes Words ZUtil KeccakBytes PolyRing NttSim KyberModel KyberSpec KyberArith KyberNtt KyberNttModel KyberCodec.
Require Import Lia.

(** ** coefficients, by evaluation over the whole domain *)
Lemma comp_chk : zall (fun c => (comp4 c =? Compress 4 (c mod q)) && (comp5 c =? Compress 5 (c mod q))
  && (comp10 c =? Compress 10 (c mod q)) && (comp11 c =? Compress 11 (c mod q)) && (pos16 c =? c mod q) && (pos32 c =? c mod q)) (-3328) (Z.to_nat 6657) = true.
Proof. vm_compute. reflexivity. Qed.
Lemma tomsg_chk : zall (fun c => tomsg_bit c =? Compress 1 (c mod q)) (-1664) (Z.to_nat 3329) = true.
Proof. vm_compute. reflexivity. Qed.
Lemma decomp4_chk : zall (fun c => decomp4 c =? Decompress 4 c) 0 16 = true.
Proof. vm_compute. reflexivity. Qed.
Lemma decomp5_chk : zall (fun c => decomp5 c =? Decompress 5 c) 0 32 = true.
Proof. vm_compute. reflexivity. Qed.
Lemma decomp10_chk : zall (fun c => decomp10 c =? Decompress 10 c) 0 (Z.to_nat 1024) = true.
Proof. vm_compute. reflexivity. Qed.
Lemma decomp11_chk : zall (fun c => decomp11 c =? Decompress 11 c) 0 (Z.to_nat 2048) = true.
Proof. vm_compute. reflexivity. Qed.

Lemma comp_all : forall c, -3328 <= c <= 3328 ->
  comp4 c = Compress 4 (c mod q) /\ comp5 c = Compress 5 (c mod q) /\ comp10 c = Compress 10 (c mod q) /\
  comp11 c = Compress 11 (c mod q) /\ pos16 c = c mod q.
Proof.
  intros c H. assert (E := zall_ok _ _ _ comp_chk c ltac:(rewrite Z2Nat.id; lia)). cbv beta in E.
  repeat rewrite Bool.andb_true_iff in E. rewrite !Z.eqb_eq in E. tauto.
Qed.
Lemma comp4_ok : forall c, -3328 <= c <= 3328 -> comp4 c = Compress 4 (c mod q).
Proof. intros c H. destruct (comp_all c H) as [A [B [C [D E]]]]. exact A. Qed.
Lemma comp5_ok : forall c, -3328 <= c <= 3328 -> comp5 c = Compress 5 (c mod q).
Proof. intros c H. destruct (comp_all c H) as [A [B [C [D E]]]]. exact B. Qed.
Lemma comp10_ok : forall c, -3328 <= c <= 3328 -> comp10 c = Compress 10 (c mod q).
Proof. intros c H. destruct (comp_all c H) as [A [B [C [D E]]]]. exact C. Qed.
Lemma comp11_ok : forall c, -3328 <= c <= 3328 -> comp11 c = Compress 11 (c mod q).
Proof. intros c H. destruct (comp_all c H) as [A [B [C [D E]]]]. exact D. Qed.
Lemma pos16_ok : forall c, -3328 <= c <= 3328 -> pos16 c = c mod q.
Proof. intros c H. destruct (comp_all c H) as [A [B [C [D E]]]]. exact E. Qed.
Lemma tomsg_bit_ok : forall c, -1664 <= c <= 1664 -> tomsg_bit c = Compress 1 (c mod q).
Proof. intros c H. apply Z.eqb_eq. apply (zall_ok _ _ _ tomsg_chk). rewrite Z2Nat.id; lia. Qed.
Lemma decomp4_ok : forall c, 0 <= c < 16 -> decomp4 c = Decompress 4 c.
Proof. intros c H. apply Z.eqb_eq. apply (zall_ok _ _ _ decomp4_chk). cbn. lia. Qed.
Lemma decomp5_ok : forall c, 0 <= c < 32 -> decomp5 c = Decompress 5 c.
Proof. intros c H. apply Z.eqb_eq. apply (zall_ok _ _ _ decomp5_chk). cbn. lia. Qed.
Lemma decomp10_ok : forall c, 0 <= c < 1024 -> decomp10 c = Decompress 10 c.
Proof. intros c H. apply Z.eqb_eq. apply (zall_ok _ _ _ decomp10_chk). rewrite Z2Nat.id; lia. Qed.
Lemma decomp11_ok : forall c, 0 <= c < 2048 -> decomp11 c = Decompress 11 c.
Proof. intros c H. apply Z.eqb_eq. apply (zall_ok _ _ _ decomp11_chk). rewrite Z2Nat.id; lia. Qed.

Lemma Compress_range : forall d x, 0 <= d -> 0 <= Compress d x < 2 ^ d.
Proof. intros. unfold Compress. apply Z.mod_pos_bound. apply Z.pow_pos_nonneg; lia. Qed.
Lemma Decompress_range : forall d y, In d [1; 4; 5; 10; 11] -> 0 <= y < 2 ^ d -> 0 <= Decompress d y <= 3328.
Proof.
  intros d y H Hy. unfold Decompress, q. cbn [In] in H.
  destruct H as [<-|[<-|[<-|[<-|[<-|[]]]]]];
  [change (2 ^ 1) with 2 in * | change (2 ^ 4) with 16 in * | change (2 ^ 5) with 32 in * | change (2 ^ 10) with 1024 in * | change (2 ^ 11) with 2048 in *];
  (split; [apply Z.div_pos; lia | apply Z.lt_succ_r; apply Z.div_lt_upper_bound; lia]).
Qed.

(** error of compression: |x - Decompress_d(Compress_d x)| centred is at most round(q / 2^(d+1)) *)
Definition Bq (d : Z) : Z := (q + 2 ^ d) / (2 * 2 ^ d).
Definition err_check (d x : Z) : bool := Z.abs (cmod (Decompress d (Compress d x) - x)) <=? Bq d.
Lemma err_chk : forallb (fun d => zall (err_check d) 0 (Z.to_nat 3329)) [1; 4; 5; 10; 11] = true.
Proof. vm_compute. reflexivity. Qed.
Lemma compress_error : forall d x, In d [1; 4; 5; 10; 11] -> 0 <= x < q -> Z.abs (cmod (Decompress d (Compress d x) - x)) <= Bq d.
Proof.
  intros d x Hd Hx. pose proof err_chk as E. rewrite forallb_forall in E. specialize (E d Hd).
  apply Z.leb_le. apply (zall_ok _ _ _ E). unfold q in Hx. rewrite Z2Nat.id; lia.
Qed.

(** ** polynomials *)
Lemma map_M : forall (f g : Z -> Z) l, within 3328 l -> (forall c, -3328 <= c <= 3328 -> f c = g (c mod q)) -> map f l = map g (M q l).
Proof. intros f g l W H. unfold M. rewrite map_map. apply map_ext_in. intros x Hx. unfold within in W. rewrite Forall_forall in W. apply H. apply W. auto. Qed.
Lemma Forall_Compress : forall d l, 0 <= d -> Forall (fun x => 0 <= x < 2 ^ d) (map (Compress d) l).
Proof. intros. apply Forall_map. apply Forall_forall. intros. apply Compress_range. auto. Qed.

Lemma ByteEncode_encG : forall d F, ByteEncode d F = encG d (32 * d) F.
Proof. reflexivity. Qed.
Lemma ByteDecode_decG : forall d F, ByteDecode d F = decG d 256 F.
Proof. reflexivity. Qed.

Theorem poly_compress_ok : forall dv a, In dv [4%nat; 5%nat] -> polyw 3328 a ->
  poly_compress dv a = ByteEncode dv (map (Compress (Z.of_nat dv)) (M q a)).
Proof.
  intros dv a H [L W]. rewrite ByteEncode_encG. unfold poly_compress.
  destruct H as [<-|[<-|[]]]; cbn [Nat.eqb].
  - rewrite (map_M comp4 (Compress 4) a W comp4_ok).
    refine (enc_chunks 4 8 4 pack4 _ _ eq_refl pack4_ok 32 _ _ _); try lia. rewrite map_length, length_M. exact L.
    apply Forall_Compress. lia.
  - rewrite (map_M comp5 (Compress 5) a W comp5_ok).
    refine (enc_chunks 5 8 5 pack5 _ _ eq_refl pack5_ok 32 _ _ _); try lia. rewrite map_length, length_M. exact L.
    apply Forall_Compress. lia.
Qed.
Theorem polyc_ok : forall du a, In du [10%nat; 11%nat] -> polyw 3328 a ->
  polyc du a = ByteEncode du (map (Compress (Z.of_nat du)) (M q a)).
Proof.
  intros dv a H [L W]. rewrite ByteEncode_encG. unfold polyc.
  destruct H as [<-|[<-|[]]]; cbn [Nat.eqb].
  - rewrite (map_M comp10 (Compress 10) a W comp10_ok).
    refine (enc_chunks 10 4 5 pack10 _ _ eq_refl pack10_ok 64 _ _ _); try lia. rewrite map_length, length_M. exact L.
    apply Forall_Compress. lia.
  - rewrite (map_M comp11 (Compress 11) a W comp11_ok).
    refine (enc_chunks 11 8 11 pack11 _ _ eq_refl pack11_ok 32 _ _ _); try lia. rewrite map_length, length_M. exact L.
    apply Forall_Compress. lia.
Qed.

Lemma decG_range : forall d m B, Forall (fun x => 0 <= x < 2 ^ Z.of_nat d) (decG d m B).
Proof.
  intros. apply Forall_map. apply Forall_forall. intros i _.
  pose proof (val_bits_range (map (fun j => fbit 8 B (d * i + j)) (seq 0 d))). rewrite map_length, seq_length in H. auto.
Qed.
Lemma length_decG : forall d m B, length (decG d m B) = m.
Proof. intros. unfold decG. rewrite map_length. apply seq_length. Qed.
Lemma length_encG : forall d m B, length (encG d m B) = m.
Proof. intros. unfold encG. rewrite map_length. apply seq_length. Qed.
Lemma bytes_encG : forall d m B, bytes (encG d m B).
Proof.
  intros. apply Forall_map. apply Forall_forall. intros i _.
  pose proof (val_bits_range (map (fun j => fbit d B (8 * i + j)) (seq 0 8))). rewrite map_length, seq_length in H. exact H.
Qed.
Lemma map_in_range : forall (f g : Z -> Z) d l, Forall (fun x => 0 <= x < 2 ^ d) l -> (forall c, 0 <= c < 2 ^ d -> f c = g c) -> map f l = map g l.
Proof. intros f g d l H E. apply map_ext_in. intros x Hx. rewrite Forall_forall in H. auto. Qed.

Lemma via_mask : forall (g : Z -> Z) m, (forall t, g t = g (Z.land t m)) -> forall l l', map (fun t => Z.land t m) l = l' -> map g l = map g l'.
Proof. intros g m H l l' <-. rewrite map_map. apply map_ext. auto. Qed.

Theorem poly_decompress_ok : forall dv b, In dv [4%nat; 5%nat] -> bytes b -> length b = (32 * dv)%nat ->
  poly_decompress dv b = map (Decompress (Z.of_nat dv)) (ByteDecode dv b).
Proof.
  intros dv b H Hb L. rewrite ByteDecode_decG. unfold poly_decompress.
  destruct H as [<-|[<-|[]]]; cbn [Nat.eqb].
  - refine (dec_chunks 4 2 1 decomp4 (Decompress 4) unpack4 _ eq_refl _ 128 b L Hb). lia.
    intros t Lt Ht. rewrite unpack4_ok by auto. apply (map_in_range _ _ 4). apply (decG_range 4). exact decomp4_ok.
  - refine (dec_chunks 5 8 5 decomp5 (Decompress 5) unpack5 _ eq_refl _ 32 b L Hb). lia.
    intros t Lt Ht. rewrite (via_mask decomp5 31) with (l' := decG 5 8 t) by
      (try apply unpack5_ok; auto; intros; unfold decomp5; rewrite <- Z.land_assoc; reflexivity).
    apply (map_in_range _ _ 5). apply (decG_range 5). exact decomp5_ok.
Qed.
Theorem polyd_ok : forall du b, In du [10%nat; 11%nat] -> bytes b -> length b = (32 * du)%nat ->
  polyd du b = map (Decompress (Z.of_nat du)) (ByteDecode du b).
Proof.
  intros dv b H Hb L. rewrite ByteDecode_decG. unfold polyd.
  destruct H as [<-|[<-|[]]]; cbn [Nat.eqb].
  - refine (dec_chunks 10 4 5 decomp10 (Decompress 10) unpack10 _ eq_refl _ 64 b L Hb). lia.
    intros t Lt Ht. rewrite (via_mask decomp10 1023) with (l' := decG 10 4 t) by
      (try apply unpack10_ok; auto; intros; unfold decomp10; rewrite <- Z.land_assoc; reflexivity).
    apply (map_in_range _ _ 10). apply (decG_range 10). exact decomp10_ok.
  - refine (dec_chunks 11 8 11 decomp11 (Decompress 11) unpack11 _ eq_refl _ 32 b L Hb). lia.
    intros t Lt Ht. rewrite (via_mask decomp11 2047) with (l' := decG 11 8 t) by
      (try apply unpack11_ok; auto; intros; unfold decomp11; rewrite <- Z.land_assoc; reflexivity).
    apply (map_in_range _ _ 11). apply (decG_range 11). exact decomp11_ok.
Qed.

Lemma M_range12 : forall a, Forall (fun x => 0 <= x < 2 ^ Z.of_nat 12) (M q a).
Proof. intros. apply Forall_map. apply Forall_forall. intros x _. pose proof (Z.mod_pos_bound x q). change (2 ^ Z.of_nat 12) with 4096. unfold q in *. lia. Qed.
Theorem poly_tobytes_ok : forall a, polyw 3328 a -> poly_tobytes a = ByteEncode 12 (M q a).
Proof.
  intros a [L W]. rewrite ByteEncode_encG. unfold poly_tobytes.
  rewrite (map_M pos16 (fun x => x) a W pos16_ok). rewrite map_id.
  refine (enc_chunks 12 2 3 pack12 _ _ eq_refl pack12_ok 128 _ _ _); try lia. rewrite length_M. exact L. apply M_range12.
Qed.
Theorem poly_frombytes_ok : forall b, bytes b -> length b = 384%nat -> poly_frombytes b = ByteDecode 12 b.
Proof.
  intros b Hb L. rewrite ByteDecode_decG. unfold poly_frombytes.
  rewrite <- (map_id (flat_map _ _)), <- (map_id (decG 12 256 b)).
  refine (dec_chunks 12 2 3 (fun x => x) (fun x => x) unpack12 _ eq_refl _ 128 b L Hb). lia.
  intros t Lt Ht. rewrite unpack12_ok; auto.
Qed.
(** tobytes of any 12 bit coefficients, reduced or not *)
Lemma pos16_12_chk : zall (fun c => pos16 c =? c) 0 (Z.to_nat 4096) = true.
Proof. vm_compute. reflexivity. Qed.
Lemma pos16_12 : forall c, 0 <= c < 4096 -> pos16 c = c.
Proof.
  intros c H. apply Z.eqb_eq. apply (zall_ok _ _ _ pos16_12_chk). rewrite Z2Nat.id; lia.
Qed.
Lemma poly_tobytes_12 : forall a, length a = 256%nat -> Forall (fun x => 0 <= x < 2 ^ Z.of_nat 12) a -> poly_tobytes a = ByteEncode 12 a.
Proof.
  intros a L H. rewrite ByteEncode_encG. unfold poly_tobytes.
  rewrite (map_in_range pos16 (fun x => x) 12 a H), map_id by (exact pos16_12).
  refine (enc_chunks 12 2 3 pack12 _ _ eq_refl pack12_ok 128 _ _ _); try lia. auto.
Qed.

(** encode and decode are inverse *)
Lemma decG_encG : forall d pb m F, (0 < d)%nat -> length F = m -> (d * m = 8 * pb)%nat -> Forall (fun x => 0 <= x < 2 ^ Z.of_nat d) F ->
  decG d m (encG d pb F) = F.
Proof.
  intros d pb m F Hd L E H. apply nth_ext0. rewrite length_decG; auto. intros i Hi. rewrite length_decG in Hi.
  unfold decG. rewrite (nth_map_seqA (fun i => val_bits (map (fun j => fbit 8 (encG d pb F) (d * i + j)) (seq 0 d)))) by auto. cbn [Nat.add].
  transitivity (val_bits (map (fun j => Z.testbit (nth i F 0) (Z.of_nat j)) (seq 0 d))).
  - f_equal. apply map_ext_in. intros j Hj. apply in_seq in Hj. unfold fbit at 1.
    set (n := (d * i + j)%nat). assert (Hn : (n < 8 * pb)%nat) by (unfold n; nia).
    assert (Hk : (n / 8 < pb)%nat) by (apply Nat.div_lt_upper_bound; lia).
    unfold encG. rewrite (nth_map_seqA (fun k => val_bits (map (fun j => fbit d F (8 * k + j)) (seq 0 8)))) by auto. cbn [Nat.add].
    rewrite testbit_val_bits, Nat2Z.id by lia. pose proof (Nat.mod_upper_bound n 8 ltac:(lia)).
    rewrite nth_map_seqA by auto. cbn [Nat.add]. rewrite <- (Nat.div_mod n 8) by lia.
    unfold fbit, n. replace (d * i + j)%nat with (j + i * d)%nat by lia.
    rewrite Nat.div_add, Nat.mod_add, Nat.div_small, Nat.mod_small by lia. reflexivity.
  - apply val_bits_of. rewrite Forall_forall in H. apply H. apply nth_In. lia.
Qed.
Lemma encG_decG : forall d pb m B, (0 < d)%nat -> length B = pb -> (d * m = 8 * pb)%nat -> bytes B -> encG d pb (decG d m B) = B.
Proof.
  intros d pb m B Hd L E H. apply nth_ext0. rewrite length_encG; auto. intros k Hk. rewrite length_encG in Hk.
  unfold encG. rewrite (nth_map_seqA (fun k => val_bits (map (fun j => fbit d (decG d m B) (8 * k + j)) (seq 0 8)))) by auto. cbn [Nat.add].
  transitivity (val_bits (map (fun j => Z.testbit (nth k B 0) (Z.of_nat j)) (seq 0 8))).
  - f_equal. apply map_ext_in. intros j Hj. apply in_seq in Hj. unfold fbit at 1.
    set (n := (8 * k + j)%nat). assert (Hn : (n < d * m)%nat) by (unfold n; nia).
    assert (Hi : (n / d < m)%nat) by (apply Nat.div_lt_upper_bound; lia).
    unfold decG. rewrite (nth_map_seqA (fun i => val_bits (map (fun j => fbit 8 B (d * i + j)) (seq 0 d)))) by auto. cbn [Nat.add].
    rewrite testbit_val_bits, Nat2Z.id by lia. pose proof (Nat.mod_upper_bound n d ltac:(lia)).
    rewrite nth_map_seqA by auto. cbn [Nat.add]. rewrite <- (Nat.div_mod n d) by lia.
    unfold fbit, n. replace (8 * k + j)%nat with (j + k * 8)%nat by lia.
    rewrite Nat.div_add, Nat.mod_add, Nat.div_small, Nat.mod_small by lia. reflexivity.
  - apply val_bits_of. assert (byte (nth k B 0)). { unfold bytes in H. rewrite Forall_forall in H. apply H. apply nth_In. lia. }
    exact H0.
Qed.
Lemma ByteDecode_Encode : forall d F, (0 < d)%nat -> length F = 256%nat -> Forall (fun x => 0 <= x < 2 ^ Z.of_nat d) F -> ByteDecode d (ByteEncode d F) = F.
Proof. intros. rewrite ByteDecode_decG, ByteEncode_encG. apply decG_encG; auto. lia. Qed.
Lemma ByteEncode_Decode : forall d B, (0 < d)%nat -> length B = (32 * d)%nat -> bytes B -> ByteEncode d (ByteDecode d B) = B.
Proof. intros. rewrite ByteDecode_decG, ByteEncode_encG. apply encG_decG; auto. lia. Qed.
Lemma length_ByteEncode : forall d F, length (ByteEncode d F) = (32 * d)%nat.
Proof. intros. rewrite ByteEncode_encG. apply length_encG. Qed.
Lemma length_ByteDecode : forall d F, length (ByteDecode d F) = 256%nat.
Proof. intros. rewrite ByteDecode_decG. apply length_decG. Qed.
Lemma bytes_ByteEncode : forall d F, bytes (ByteEncode d F).
Proof. intros. rewrite ByteEncode_encG. apply bytes_encG. Qed.
Lemma ByteDecode_range : forall d B, Forall (fun x => 0 <= x < 2 ^ Z.of_nat d) (ByteDecode d B).
Proof. intros. rewrite ByteDecode_decG. apply decG_range. Qed.

(** ** messages *)
Definition msg1 (t : list Z) : list Z := [fold_left (fun acc p => Z.lor acc (u8 (Z.shiftl (fst p) (snd p)))) (combine t [0;1;2;3;4;5;6;7]) 0].
Lemma msg1_ok : forall t, length t = 8%nat -> Forall (fun x => 0 <= x < 2 ^ Z.of_nat 1) t -> msg1 t = encG 1 1 t.
Proof.
  intros t L H. do 8 listn L t. destruct t; [|cbn in L; lia]. do 8 f_inv H. nats. unfold msg1. cbn [combine fold_left fst snd].
  cons_eq. bitwise 8. rewrite !Z.lor_spec, !u8_high, Z.testbit_0_l by auto. reflexivity.
Qed.
Lemma full_chunks_map : forall (f : Z -> Z) n m l, (0 < n)%nat -> length l = (n * m)%nat -> full_chunks n (map f l) = map (map f) (full_chunks n l).
Proof.
  intros f n m l Hn. revert l. induction m; intros l L.
  - destruct l; [|cbn in L; lia]. reflexivity.
  - rewrite <- (firstn_skipn n l) in *. set (a := firstn n l) in *. set (b := skipn n l) in *.
    assert (La : length a = n). { unfold a. rewrite firstn_length. unfold a, b in L. rewrite firstn_skipn in L. lia. }
    rewrite app_length, La in L. rewrite map_app.
    destruct (full_chunks_cons n a b Hn La) as [-> _].
    destruct (full_chunks_cons n (map f a) (map f b) Hn ltac:(rewrite map_length; auto)) as [-> _].
    cbn [map]. f_equal. apply IHm. lia.
Qed.
Theorem poly_tomsg_ok : forall a, polyw 1664 a -> poly_tomsg a = ByteEncode 1 (map (Compress 1) (M q a)).
Proof.
  intros a [L W]. rewrite ByteEncode_encG.
  assert (E : map tomsg_bit a = map (Compress 1) (M q a)).
  { unfold M. rewrite map_map. apply map_ext_in. intros x Hx. unfold within in W. rewrite Forall_forall in W. apply tomsg_bit_ok. apply W. auto. }
  rewrite <- E. replace (32 * 1)%nat with (1 * 32)%nat by lia.
  rewrite <- (enc_chunks 1 8 1 msg1 ltac:(lia) ltac:(lia) eq_refl msg1_ok 32).
  - rewrite (full_chunks_map tomsg_bit 8 32) by (auto; lia). unfold poly_tomsg.
    assert (F := full_chunks_len 8 a ltac:(lia)). induction F as [|c cs Hc F IH]. reflexivity.
    cbn [map flat_map]. rewrite IH. clear - Hc. do 8 listn Hc c. destruct c; [|cbn in Hc; lia]. reflexivity.
  - rewrite map_length. exact L.
  - rewrite E. apply (Forall_Compress 1). lia.
Qed.
Lemma frommsg_chk : zall (fun b => if list_eq_dec Z.eq_dec (frommsg_byte b) (map (Decompress 1) (decG 1 8 [b])) then true else false) 0 256 = true.
Proof. vm_compute. reflexivity. Qed.
Lemma frommsg_byte_ok : forall b, byte b -> frommsg_byte b = map (Decompress 1) (decG 1 8 [b]).
Proof.
  intros b H. assert (E := zall_ok _ _ _ frommsg_chk b ltac:(exact H)). cbv beta in E.
  destruct (list_eq_dec Z.eq_dec (frommsg_byte b) (map (Decompress 1) (decG 1 8 [b]))); [auto|discriminate].
Qed.
Theorem poly_frommsg_ok : forall m, bytes m -> length m = 32%nat -> poly_frommsg m = map (Decompress 1) (ByteDecode 1 m).
Proof.
  intros m Hm L. rewrite ByteDecode_decG. unfold poly_frommsg.
  assert (G : forall n l, length l = n -> bytes l -> flat_map frommsg_byte l = map (Decompress 1) (decG 1 (8 * n) l)).
  { induction n; intros [|b l] Hl Hb; cbn [length] in Hl; try lia. reflexivity.
    cbn [flat_map]. rewrite (frommsg_byte_ok b (Forall_inv Hb)), (IHn l) by (try lia; apply (Forall_inv_tail Hb)).
    replace (8 * S n)%nat with (8 + 8 * n)%nat by lia. change (b :: l) with ([b] ++ l). rewrite decG_app, map_app; auto. }
  rewrite (G 32%nat); auto.
Qed.
