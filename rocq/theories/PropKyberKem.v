(** Properties C50 - C53 and C64 - C66: the ML-KEM mechanism, the key exchange and the hybrid. KyberSpec.v is FIPS 203
    written down without the code. [kyber_enc], [kyber_dec] take a bound for the rejection sampling loop and return [None]
    when it does not suffice; by the [_total] theorems enough fuel exists whenever SampleNTT is defined. *)
From Verif Require Import Bytes ZUtil Words Sha3Model KeccakBytes HashIface KmacSpec KmacModel KmacProof XofDrngProof UtilModel UtilProof Fips202 PolyRing NttLoop NttSim
  KyberModel KyberSpec KyberArith KyberNtt KyberNttModel KyberCodec KyberCodec2 KyberSample KyberVec KyberPke KyberKem KyberNoise KyberKexModel KyberKexProof KyberVectors KyberKat KyberLowNoise
  AeadEtmModel AeadEtmTop PropAead PropKyber.
Import ListNotations.

(** ** C64: the code computes FIPS 203 *)
Theorem C64_keygen : forall p seed fuel r, In p kyber_params -> bytes seed -> length seed = 64%nat ->
  kyber_keypair_from_seed fuel p seed = Some r ->
  exists A, is_matrix (kk p) (KPKE_rho (kk p) (firstn 32 seed)) A /\
    r = (0, fst (KEM_KeyGen (kk p) (keta1 p) A (firstn 32 seed) (skipn 32 seed)), snd (KEM_KeyGen (kk p) (keta1 p) A (firstn 32 seed) (skipn 32 seed))).
Proof. intros p seed fuel r Hp Hs Ls. apply keypair_sound; auto. apply kyber_kok; auto. Qed.
Print Assumptions C64_keygen.
Theorem C64_keygen_total : forall p seed A, In p kyber_params -> bytes seed -> length seed = 64%nat ->
  is_matrix (kk p) (KPKE_rho (kk p) (firstn 32 seed)) A -> exists f0, forall fuel, (f0 <= fuel)%nat ->
  kyber_keypair_from_seed fuel p seed =
    Some (0, fst (KEM_KeyGen (kk p) (keta1 p) A (firstn 32 seed) (skipn 32 seed)), snd (KEM_KeyGen (kk p) (keta1 p) A (firstn 32 seed) (skipn 32 seed))).
Proof. intros p seed A Hp Hs Ls. apply keypair_complete; auto. apply kyber_kok; auto. Qed.
Print Assumptions C64_keygen_total.
Theorem C64_encaps : forall ad1 ad2 p pk m fuel r, In p kyber_params -> bytes pk -> length pk = pkbytes p -> bytes m -> length m = 32%nat ->
  kyber_enc ad1 ad2 fuel p pk m = Some r ->
  exists A, is_matrix (kk p) (ek_rho (kk p) pk) A /\
    r = (0, snd (KEM_Encaps (kk p) (keta1 p) (kdu p) (kdv p) A pk m), fst (KEM_Encaps (kk p) (keta1 p) (kdu p) (kdv p) A pk m)).
Proof. intros ad1 ad2 p pk m fuel r Hp Hpk Lpk Hm Lm. apply enc_sound; auto. apply kyber_kok; auto. Qed.
Print Assumptions C64_encaps.
Theorem C64_encaps_total : forall ad1 ad2 p pk m A, In p kyber_params -> bytes pk -> length pk = pkbytes p -> bytes m -> length m = 32%nat ->
  is_matrix (kk p) (ek_rho (kk p) pk) A -> exists f0, forall fuel, (f0 <= fuel)%nat ->
  kyber_enc ad1 ad2 fuel p pk m =
    Some (0, snd (KEM_Encaps (kk p) (keta1 p) (kdu p) (kdv p) A pk m), fst (KEM_Encaps (kk p) (keta1 p) (kdu p) (kdv p) A pk m)).
Proof. intros ad1 ad2 p pk m A Hp Hpk Lpk Hm Lm HA. apply enc_complete; auto. apply kyber_kok; auto. Qed.
Print Assumptions C64_encaps_total.
Theorem C64_decaps : forall ad1 ad2 p sk ct fuel r, In p kyber_params -> bytes sk -> length sk = skbytes p -> bytes ct -> length ct = ctbytes p ->
  sk_hpk p sk = Hh (sk_pk p sk) -> kyber_dec ad1 ad2 fuel p ct sk = Some r ->
  exists A, is_matrix (kk p) (ek_rho (kk p) (sk_pk p sk)) A /\ r = (0, KEM_Decaps (kk p) (keta1 p) (kdu p) (kdv p) A sk ct).
Proof. intros ad1 ad2 p sk ct fuel r Hp Hsk Lsk Hct Lct Hh. apply dec_sound; auto. apply kyber_kok; auto. Qed.
Print Assumptions C64_decaps.
Theorem C64_decaps_total : forall ad1 ad2 p sk ct A, In p kyber_params -> bytes sk -> length sk = skbytes p -> bytes ct -> length ct = ctbytes p ->
  sk_hpk p sk = Hh (sk_pk p sk) -> is_matrix (kk p) (ek_rho (kk p) (sk_pk p sk)) A -> exists f0, forall fuel, (f0 <= fuel)%nat ->
  kyber_dec ad1 ad2 fuel p ct sk = Some (0, KEM_Decaps (kk p) (keta1 p) (kdu p) (kdv p) A sk ct).
Proof. intros ad1 ad2 p sk ct A Hp Hsk Lsk Hct Lct Hh HA. apply dec_complete; auto. apply kyber_kok; auto. Qed.
Print Assumptions C64_decaps_total.
(** the matrix is unique, so the specification is a partial function *)
Theorem C64_matrix_unique : forall k rho A B, is_matrix k rho A -> is_matrix k rho B -> A = B.
Proof. exact is_matrix_unique. Qed.
Print Assumptions C64_matrix_unique.
(** a decapsulation key whose hash does not match is refused, nothing is computed *)
Theorem C64_decaps_bad_key : forall ad1 ad2 p sk ct fuel, In p kyber_params -> bytes sk -> length sk = skbytes p -> bytes ct -> length ct = ctbytes p ->
  sk_hpk p sk <> Hh (sk_pk p sk) -> kyber_dec ad1 ad2 fuel p ct sk = Some (EINVAL, []).
Proof. intros ad1 ad2 p sk ct fuel Hp Hsk Lsk Hct Lct. apply dec_badsk; auto. apply kyber_kok; auto. Qed.
Print Assumptions C64_decaps_bad_key.

Lemma forallb_eq_refl : forall l, forallb (fun p => fst p =? snd p) (combine l l) = true.
Proof. intros l. induction l as [|a l IH]. reflexivity. cbn [combine forallb fst snd]. rewrite Z.eqb_refl. exact IH. Qed.
Lemma kat512_ct_diff : forallb (fun p => fst p =? snd p) (combine v512_ct1 v512_ct) = false.
Proof. vm_cast_no_check (eq_refl false). Qed.
(** the known answers; those of ML-KEM-768, ML-KEM-1024 and the rejected ciphertexts are evaluated in KyberKat.v *)
Example C64_ex : kyber_keypair_from_seed 3 kyber512 v_seed = Some (0, v512_pk, v512_sk) /\
  kyber_enc 0 0 3 kyber512 v512_pk v_m = Some (0, v512_ct, v512_ss) /\
  kyber_dec 0 0 3 kyber512 v512_ct v512_sk = Some (0, v512_ss) /\ v512_ct1 <> v512_ct.
Proof.
  refine (conj kat512_key (conj kat512_enc (conj kat512_dec _))). intros H.
  generalize kat512_ct_diff. rewrite H. intros E. rewrite forallb_eq_refl in E. discriminate E.
Qed.

(** ** C50 *)
(** [m'] is what the ciphertext decrypts to, [K] the secret of encapsulating it, [c'] the re-encryption *)
Theorem C50 : forall ad1 ad2 p sk ct fuel ret out, In p kyber_params -> bytes sk -> length sk = skbytes p -> bytes ct -> length ct = ctbytes p ->
  sk_hpk p sk = SHA3 32 (sk_pk p sk) -> kyber_dec ad1 ad2 fuel p ct sk = Some (ret, out) ->
  ret = 0 /\ exists A, is_matrix (kk p) (ek_rho (kk p) (sk_pk p sk)) A /\
    let m' := KPKE_Decrypt (kk p) (kdu p) (kdv p) (firstn (384 * kk p) sk) ct in
    let (K, c') := KEM_Encaps (kk p) (keta1 p) (kdu p) (kdv p) A (sk_pk p sk) m' in
    (ct = c' -> out = K) /\ (ct <> c' -> out = SHAKE256 (sk_z p sk ++ ct) 32).
Proof.
  intros ad1 ad2 p sk ct fuel ret out Hp Hsk Lsk Hct Lct HH HD.
  destruct (C64_decaps ad1 ad2 p sk ct fuel _ Hp Hsk Lsk Hct Lct HH HD) as (A & HA & E).
  assert (E1 : ret = 0) by congruence. assert (E2 : out = KEM_Decaps (kk p) (keta1 p) (kdu p) (kdv p) A sk ct) by congruence.
  split; auto. exists A. split; auto. cbv zeta. unfold KEM_Encaps. rewrite (decaps_eq p sk ct Lsk Lct) in E2. cbv zeta in E2.
  unfold cpaskbytes in E2. fold (Hh (sk_pk p sk)) in HH. rewrite HH in E2.
  destruct (list_eq_dec Z.eq_dec ct _) as [e|n] in E2; split; intros H; auto; contradiction.
Qed.
Print Assumptions C50.
(** with two ciphertexts that differ in acceptance the return code is the same: always 0 *)
Theorem C50_return_code : forall ad1 ad2 p sk ct1 ct2 fuel r1 r2, In p kyber_params -> bytes sk -> length sk = skbytes p ->
  bytes ct1 -> length ct1 = ctbytes p -> bytes ct2 -> length ct2 = ctbytes p ->
  kyber_dec ad1 ad2 fuel p ct1 sk = Some r1 -> kyber_dec ad1 ad2 fuel p ct2 sk = Some r2 -> fst r1 = fst r2.
Proof.
  intros ad1 ad2 p sk ct1 ct2 fuel [r1 o1] [r2 o2] Hp Hsk Lsk H1 L1 H2 L2 D1 D2. cbn [fst].
  destruct (list_eq_dec Z.eq_dec (sk_hpk p sk) (Hh (sk_pk p sk))) as [e|n].
  - destruct (C50 ad1 ad2 p sk ct1 fuel r1 o1 Hp Hsk Lsk H1 L1 e D1) as [-> _]. destruct (C50 ad1 ad2 p sk ct2 fuel r2 o2 Hp Hsk Lsk H2 L2 e D2) as [-> _]. reflexivity.
  - rewrite (C64_decaps_bad_key ad1 ad2 p sk ct1 fuel Hp Hsk Lsk H1 L1 n) in D1. rewrite (C64_decaps_bad_key ad1 ad2 p sk ct2 fuel Hp Hsk Lsk H2 L2 n) in D2. congruence.
Qed.
Print Assumptions C50_return_code.
(** the rejected secret of the vector is SHAKE256(z || ct) *)
Example C50_ex : sk_hpk kyber512 v512_sk = SHA3 32 (sk_pk kyber512 v512_sk) /\ v512_ss1 = SHAKE256 (sk_z kyber512 v512_sk ++ v512_ct1) 32.
Proof.
  destruct kat512_shape as (S1 & S2 & S3 & S4 & P1 & P2 & K1 & K2 & C1 & C2 & D1 & D2). split.
  - destruct (list_eq_dec Z.eq_dec (sk_hpk kyber512 v512_sk) (Hh (sk_pk kyber512 v512_sk))) as [e|n]; [exact e|].
    pose proof (C64_decaps_bad_key 0 0 kyber512 v512_sk v512_ct 3 (or_introl eq_refl) K1 K2 C1 C2 n) as B. rewrite kat512_dec in B. discriminate B.
  - rewrite <- kat512_rkprf. unfold kyber_shake256_rkprf.
    destruct (sk_shape kyber512 v512_sk v512_ct1 K1 K2 D2) as (_ & _ & _ & _ & Z1 & Z2 & _).
    apply kdf2_ok; [exact Z1|exact D1|]. rewrite Z2, D2. unfold ctbytes, kyber512, kk, kdu, kdv. lia.
Qed.

(** ** C51 *)
(** if the public key encryption decrypts correctly *)
Theorem C51_if_pke_correct : forall ad1 ad2 p fuel sk m ct ss, In p kyber_params -> bytes sk -> length sk = skbytes p ->
  sk_hpk p sk = SHA3 32 (sk_pk p sk) -> bytes m -> length m = 32%nat ->
  kyber_enc ad1 ad2 fuel p (sk_pk p sk) m = Some (0, ct, ss) ->
  KPKE_Decrypt (kk p) (kdu p) (kdv p) (firstn (384 * kk p) sk) ct = m ->
  kyber_dec ad1 ad2 fuel p ct sk = Some (0, ss).
Proof. intros ad1 ad2 p fuel sk m ct ss Hp. apply kem_pke_agree. apply kyber_kok; auto. Qed.
Print Assumptions C51_if_pke_correct.
(** it does when every coefficient of the error term is below q/4 in absolute value, that is at most 831 *)
Theorem C51_pke_correct : forall p A d m r, In p kyber_params -> length A = kk p -> Forall (fun row => length row = kk p) A -> bytes m -> length m = 32%nat ->
  Forall (fun x => -831 <= cmod x <= 831) (KPKE_noise (kk p) (keta1 p) (kdu p) (kdv p) A d m r) ->
  KPKE_Decrypt (kk p) (kdu p) (kdv p) (snd (KPKE_KeyGen (kk p) (keta1 p) A d))
    (KPKE_Encrypt (kk p) (keta1 p) (kdu p) (kdv p) A (fst (KPKE_KeyGen (kk p) (keta1 p) A d)) m r) = m.
Proof.
  intros p A d m r Hp LA HA Hm Lm HN. destruct (kyber_kok p Hp) as (K & _ & Hdu & Hdv). apply pke_correct; auto. lia.
Qed.
Print Assumptions C51_pke_correct.
(** together: for every seed and message of low noise *)
Theorem C51 : forall ad1 ad2 p seed m f1 f2 pk sk ct ss, In p kyber_params -> bytes seed -> length seed = 64%nat -> bytes m -> length m = 32%nat ->
  low_noise p (firstn 32 seed) m ->
  kyber_keypair_from_seed f1 p seed = Some (0, pk, sk) ->
  kyber_enc ad1 ad2 f2 p pk m = Some (0, ct, ss) ->
  kyber_dec ad1 ad2 f2 p ct sk = Some (0, ss).
Proof. intros ad1 ad2 p seed m f1 f2 pk sk ct ss Hp. apply kem_agree. apply kyber_kok; auto. Qed.
Print Assumptions C51.
(** the bound is sharp: an error of 832 turns a 1 into a 0 *)
Example C51_sharp : Compress 1 (Decompress 1 1 + 832) = 0 /\ Compress 1 (Decompress 1 1 - 832) = 1 /\ Compress 1 (Decompress 1 1 + 831) = 1 /\
  Compress 1 (Decompress 1 0 + 832) = 0 /\ Compress 1 (Decompress 1 0 + 833) = 1.
Proof. vm_compute. auto 10. Qed.
(** the seed and the message of the vector satisfy all hypotheses (the error term is computed in KyberLowNoise.v) *)
Example C51_ex : low_noise kyber512 (firstn 32 v_seed) v_m /\ kyber_keypair_from_seed 3 kyber512 v_seed = Some (0, v512_pk, v512_sk) /\
  kyber_enc 0 0 3 kyber512 v512_pk v_m = Some (0, v512_ct, v512_ss).
Proof. exact (conj v512_low_noise (conj kat512_key kat512_enc)). Qed.

(** ** C52 *)
(** [res]: outcome of a call, [rret v] = return code 0 and the outputs v. Ephemeral keys, messages and long-term keys
    arbitrary (with low noise, see C51). *)
Theorem C52_uake : forall ad1 ad2 p fuel n nonce seed_r f_r pk_r sk_r seed_e m_i m_r pk_e ct_i tk sk_e ct_r ss_r, In p kyber_params ->
  rnd64 seed_r -> rnd64 seed_e -> rnd32 m_i -> rnd32 m_r ->
  low_noise p (firstn 32 seed_r) m_i -> low_noise p (firstn 32 seed_e) m_r ->
  kyber_keypair_from_seed f_r p seed_r = Some (0, pk_r, sk_r) ->
  kex_initiator_init ad1 ad2 fuel p seed_e m_i pk_r = rret (pk_e, ct_i, tk, sk_e) ->
  kex_uake_responder_ss ad1 ad2 fuel p n nonce pk_e ct_i sk_r m_r = rret (ct_r, ss_r) ->
  kex_uake_initiator_ss ad1 ad2 fuel p n nonce ct_r tk sk_e = rret ss_r.
Proof. intros ad1 ad2 p fuel n nonce seed_r f_r pk_r sk_r seed_e m_i m_r pk_e ct_i tk sk_e ct_r ss_r Hp. apply uake_agree. apply kyber_kok; auto. Qed.
Print Assumptions C52_uake.
Theorem C52_ake : forall ad1 ad2 p fuel n nonce seed_r f_r pk_r sk_r seed_i f_i pk_i sk_i seed_e m_i m1 m2 pk_e ct_i tk sk_e c1 c2 ss_r, In p kyber_params ->
  rnd64 seed_r -> rnd64 seed_i -> rnd64 seed_e -> rnd32 m_i -> rnd32 m1 -> rnd32 m2 ->
  low_noise p (firstn 32 seed_r) m_i -> low_noise p (firstn 32 seed_e) m1 -> low_noise p (firstn 32 seed_i) m2 ->
  kyber_keypair_from_seed f_r p seed_r = Some (0, pk_r, sk_r) ->
  kyber_keypair_from_seed f_i p seed_i = Some (0, pk_i, sk_i) ->
  kex_initiator_init ad1 ad2 fuel p seed_e m_i pk_r = rret (pk_e, ct_i, tk, sk_e) ->
  kex_ake_responder_ss ad1 ad2 fuel p n nonce pk_e ct_i sk_r pk_i m1 m2 = rret (c1, c2, ss_r) ->
  kex_ake_initiator_ss ad1 ad2 fuel p n nonce c1 c2 tk sk_e sk_i = rret ss_r.
Proof. intros ad1 ad2 p fuel n nonce seed_r f_r pk_r sk_r seed_i f_i pk_i sk_i seed_e m_i m1 m2 pk_e ct_i tk sk_e c1 c2 ss_r Hp. apply ake_agree. apply kyber_kok; auto. Qed.
Print Assumptions C52_ake.
(** the hybrid, for every X25519 that is a Diffie-Hellman function *)
Definition dh (x_sk x_pk : list Z -> list Z) (x_ss : list Z -> list Z -> Z * list Z) : Prop :=
  forall r1 r2, x_ss (x_pk (x_sk r1)) (x_sk r2) = x_ss (x_pk (x_sk r2)) (x_sk r1).
Theorem C52_hybrid_uake : forall ad1 ad2 p fuel x_sk x_pk x_ss n nonce seed_r rx_r f_r pk_r sk_r seed_e rx_e m_i rx_i m_r rx_m pk_e ct_i tk sk_e ct_r ss_r, In p kyber_params ->
  dh x_sk x_pk x_ss -> rnd64 seed_r -> rnd64 seed_e -> rnd32 m_i -> rnd32 m_r ->
  low_noise p (firstn 32 seed_r) m_i -> low_noise p (firstn 32 seed_e) m_r ->
  xkeypair f_r p x_sk x_pk seed_r rx_r = rret (pk_r, sk_r) ->
  xkex_initiator_init ad1 ad2 fuel p x_sk x_pk x_ss seed_e rx_e m_i rx_i pk_r = rret (pk_e, ct_i, tk, sk_e) ->
  xkex_uake_responder_ss ad1 ad2 fuel p x_sk x_pk x_ss n nonce pk_e ct_i sk_r m_r rx_m = rret (ct_r, ss_r) ->
  xkex_uake_initiator_ss ad1 ad2 fuel p x_ss n nonce ct_r tk sk_e = rret ss_r.
Proof.
  intros ad1 ad2 p fuel x_sk x_pk x_ss n nonce seed_r rx_r f_r pk_r sk_r seed_e rx_e m_i rx_i m_r rx_m pk_e ct_i tk sk_e ct_r ss_r Hp Hx.
  apply (hybrid_uake_agree ad1 ad2 fuel p (kyber_kok p Hp) x_sk x_pk x_ss Hx).
Qed.
Print Assumptions C52_hybrid_uake.
Theorem C52_hybrid_ake : forall ad1 ad2 p fuel x_sk x_pk x_ss n nonce seed_r rx_r f_r pk_r sk_r seed_i rx_s f_i pk_i sk_i seed_e rx_e m_i rx_i m1 rx1 m2 rx2 pk_e ct_i tk sk_e c1 c2 ss_r, In p kyber_params ->
  dh x_sk x_pk x_ss -> rnd64 seed_r -> rnd64 seed_i -> rnd64 seed_e -> rnd32 m_i -> rnd32 m1 -> rnd32 m2 ->
  low_noise p (firstn 32 seed_r) m_i -> low_noise p (firstn 32 seed_e) m1 -> low_noise p (firstn 32 seed_i) m2 ->
  xkeypair f_r p x_sk x_pk seed_r rx_r = rret (pk_r, sk_r) ->
  xkeypair f_i p x_sk x_pk seed_i rx_s = rret (pk_i, sk_i) ->
  xkex_initiator_init ad1 ad2 fuel p x_sk x_pk x_ss seed_e rx_e m_i rx_i pk_r = rret (pk_e, ct_i, tk, sk_e) ->
  xkex_ake_responder_ss ad1 ad2 fuel p x_sk x_pk x_ss n nonce pk_e ct_i sk_r pk_i m1 rx1 m2 rx2 = rret (c1, c2, ss_r) ->
  xkex_ake_initiator_ss ad1 ad2 fuel p x_ss n nonce c1 c2 tk sk_e sk_i = rret ss_r.
Proof.
  intros ad1 ad2 p fuel x_sk x_pk x_ss n nonce seed_r rx_r f_r pk_r sk_r seed_i rx_s f_i pk_i sk_i seed_e rx_e m_i rx_i m1 rx1 m2 rx2 pk_e ct_i tk sk_e c1 c2 ss_r Hp Hx.
  apply (hybrid_ake_agree ad1 ad2 fuel p (kyber_kok p Hp) x_sk x_pk x_ss Hx).
Qed.
Print Assumptions C52_hybrid_ake.
(** and the hybrid KEM itself *)
Theorem C52_hybrid_kem : forall ad1 ad2 p fuel x_sk x_pk x_ss f0 n seed rx pk sk m rx' ct ss, In p kyber_params ->
  dh x_sk x_pk x_ss -> rnd64 seed -> rnd32 m -> low_noise p (firstn 32 seed) m ->
  xkeypair f0 p x_sk x_pk seed rx = rret (pk, sk) ->
  xenc_kdf ad1 ad2 fuel p x_sk x_pk x_ss n pk m rx' = rret (ct, ss) ->
  xdec_kdf ad1 ad2 fuel p x_ss n ct sk = rret ss.
Proof.
  intros ad1 ad2 p fuel x_sk x_pk x_ss f0 n seed rx pk sk m rx' ct ss Hp Hx.
  apply (hybrid_kem_agree ad1 ad2 fuel p (kyber_kok p Hp) x_sk x_pk x_ss Hx).
Qed.
Print Assumptions C52_hybrid_kem.
(** the hypotheses are met: everyone uses the keys of the vector *)
Example C52_ex : forall n nonce,
  kex_initiator_init 0 0 3 kyber512 v_seed v_m v512_pk = rret (v512_pk, v512_ct, v512_ss, v512_sk) /\
  kex_uake_responder_ss 0 0 3 kyber512 n nonce v512_pk v512_ct v512_sk v_m = rret (v512_ct, kyber_kdf3 v512_ss v512_ss nonce n) /\
  kex_ake_responder_ss 0 0 3 kyber512 n nonce v512_pk v512_ct v512_sk v512_pk v_m v_m = rret (v512_ct, v512_ct, kyber_kdf4 v512_ss v512_ss v512_ss nonce n).
Proof.
  intros n nonce. unfold kex_initiator_init, kex_uake_responder_ss, kex_ake_responder_ss, r_keypair, r_enc, r_dec.
  rewrite kat512_key, kat512_enc, kat512_dec. cbn [Z.eqb]. unfold rret, rbind. exact (conj eq_refl (conj eq_refl eq_refl)).
Qed.
(** the derived secret depends on every shared secret and on the nonce in its own position *)
Lemma k_kmac_ok : forall K S xs n, bytes K -> bytes S -> Forall bytes xs -> Z.of_nat (length K) < 2 ^ 60 -> Z.of_nat (length S) < 2 ^ 60 ->
  Z.of_nat (length (concat xs)) < 2 ^ 61 -> (4 <= n)%nat -> Z.of_nat n < 2 ^ 61 -> k_kmac K S xs n = KMAC 64 K (concat xs) n S.
Proof.
  intros K S xs n HK HS Hx LK LS LX Hn Ln. unfold k_kmac. apply (kmac_ok km_stack K S xs n); auto; try lia.
  - right. left. reflexivity.
  - change (hc_alg (km_h km_stack)) with alg_cshake256. unfold kmac_prefix. change (a_r alg_cshake256) with 136%nat.
    rewrite !app_length. pose proof (length_bytepad136 (encode_string KMAC_N ++ encode_string S)) as H. rewrite app_length in H.
    pose proof (length_bytepad136 (encode_string K)).
    pose proof (length_encode_string KMAC_N ltac:(cbn; lia)). pose proof (length_encode_string K ltac:(lia)).
    pose proof (length_encode_string S ltac:(lia)). change (length KMAC_N) with 4%nat in *. lia.
Qed.
Lemma k_kmac_short : forall K S xs n, (n < 4)%nat -> k_kmac K S xs n = [].
Proof. intros K S xs n H. unfold k_kmac, kmac_final. destruct (Nat.leb_spec 4 n); [lia|reflexivity]. Qed.
Lemma lbl_ok : Forall (fun l => bytes l /\ (length l < 32)%nat) [lbl_ss; lbl_ss3; lbl_ss4; lbl_x; lbl_x3; lbl_x4].
Proof. repeat (apply Forall_cons; [split; [repeat constructor; unfold byte; lia|cbn; lia]|]). apply Forall_nil. Qed.
Ltac lbl := let H := fresh in pose proof lbl_ok as H; rewrite Forall_forall in H;
  match goal with |- bytes ?l => apply (H l) | |- Z.of_nat (length ?l) < _ => destruct (H l) as [_ ?]; [|lia] end; cbn [In]; auto 10.
Ltac kmk := rewrite k_kmac_ok; [cbn [concat]; rewrite app_nil_r; reflexivity | assumption | lbl | repeat (apply Forall_cons; [assumption|]); apply Forall_nil | lia | lbl
  | cbn [concat]; rewrite !app_length; cbn [length]; lia | assumption | assumption ].
(** what the two sides compute: KMAC256 keyed with the first secret over the others and the nonce *)
Theorem C52_kdf : forall a b c nonce n, bytes a -> bytes b -> bytes c -> bytes nonce -> length a = 32%nat -> length b = 32%nat -> length c = 32%nat ->
  Z.of_nat (length nonce) < 2 ^ 60 -> (4 <= n)%nat -> Z.of_nat n < 2 ^ 61 ->
  kyber_kdf3 a b nonce n = KMAC 64 a (b ++ nonce) n lbl_ss3 /\ kyber_kdf4 a b c nonce n = KMAC 64 a (b ++ c ++ nonce) n lbl_ss4.
Proof.
  intros a b c nonce n Ha Hb Hc Hn La Lb Lc Ln H4 Hn2. unfold kyber_kdf3, kyber_kdf4. split.
  - kmk.
  - kmk.
Qed.
Print Assumptions C52_kdf.

(** shapes of the outputs *)
Lemma ct_small : forall p, In p kyber_params -> Z.of_nat (ctbytes p) < 2 ^ 32.
Proof. intros p Hp. destruct (kyber_kok p Hp) as (Hk & _ & Hdu & Hdv). unfold ctbytes. destruct Hdu as [<-|[<-|[]]], Hdv as [<-|[<-|[]]]; lia. Qed.
Lemma enc_out : forall ad1 ad2 p fuel pk m ct ss, In p kyber_params -> bytes pk -> length pk = pkbytes p -> bytes m -> length m = 32%nat ->
  kyber_enc ad1 ad2 fuel p pk m = Some (0, ct, ss) -> bytes ct /\ Z.of_nat (length ct) < 2 ^ 32 /\ bytes ss /\ length ss = 32%nat.
Proof.
  intros ad1 ad2 p fuel pk m ct ss Hp Hpk Lpk Hm Lm HE. destruct (C64_encaps ad1 ad2 p pk m fuel _ Hp Hpk Lpk Hm Lm HE) as (A & HA & E).
  unfold KEM_Encaps in E. cbn [fst snd] in E. destruct (Hh_ok pk Hpk) as [H1 H2]. destruct (Gh_ok (m ++ Hh pk) (bytes_app _ _ Hm H1)) as [G1 G2].
  set (g := Gh (m ++ Hh pk)) in *. clearbody g.
  destruct (Encrypt_shape (kk p) (keta1 p) (kdu p) (kdv p) A pk m (skipn 32 g)) as [C1 C2].
  set (c := KPKE_Encrypt (kk p) (keta1 p) (kdu p) (kdv p) A pk m (skipn 32 g)) in *. clearbody c.
  assert (ct = c) by congruence. assert (ss = firstn 32 g) by congruence. subst ct ss.
  split; [exact C1|]. split; [rewrite C2; exact (ct_small p Hp)|]. split; [apply bytes_firstn; auto|rewrite firstn_length, G2; reflexivity].
Qed.
Lemma dec_out : forall ad1 ad2 p fuel sk ct ss, In p kyber_params -> bytes sk -> length sk = skbytes p -> bytes ct -> length ct = ctbytes p ->
  kyber_dec ad1 ad2 fuel p ct sk = Some (0, ss) -> bytes ss /\ length ss = 32%nat.
Proof.
  intros ad1 ad2 p fuel sk ct ss Hp Hsk Lsk Hct Lct HE.
  destruct (list_eq_dec Z.eq_dec (sk_hpk p sk) (Hh (sk_pk p sk))) as [e|n].
  2: { rewrite (C64_decaps_bad_key ad1 ad2 p sk ct fuel Hp Hsk Lsk Hct Lct n) in HE. discriminate HE. }
  destruct (C64_decaps ad1 ad2 p sk ct fuel _ Hp Hsk Lsk Hct Lct e HE) as (A & HA & E).
  assert (E2 : ss = KEM_Decaps (kk p) (keta1 p) (kdu p) (kdv p) A sk ct) by congruence. clear E. rewrite (decaps_eq p sk ct Lsk Lct) in E2. cbv zeta in E2.
  destruct (sk_shape p sk ct Hsk Lsk Lct) as (P1 & P2 & H1 & H2 & Z1 & Z2 & S1 & S2).
  destruct (indcpa_dec_ok p ct (firstn (cpaskbytes p) sk) (kyber_kok p Hp) Hct Lct S1 S2) as (E & M1 & M2). rewrite E in M1, M2.
  set (m' := KPKE_Decrypt (kk p) (kdu p) (kdv p) (firstn (cpaskbytes p) sk) ct) in *. clearbody m'.
  destruct (Gh_ok (m' ++ sk_hpk p sk) (bytes_app _ _ M1 H1)) as [G1 G2]. set (g := Gh (m' ++ sk_hpk p sk)) in *. clearbody g.
  destruct (list_eq_dec Z.eq_dec ct _) as [e1|n1] in E2; subst ss.
  - split; [apply bytes_firstn; auto|rewrite firstn_length, G2; reflexivity].
  - unfold Jh. split; [apply SHAKE256_bytes; apply bytes_app; [exact Z1|exact Hct]|apply SHAKE256_len].
Qed.
Lemma ss_kdf_ok : forall n ct ss, bytes ct -> Z.of_nat (length ct) < 2 ^ 32 -> bytes ss -> length ss = 32%nat -> (4 <= n)%nat -> Z.of_nat n < 2 ^ 61 ->
  kyber_ss_kdf n ct ss = KMAC 64 ss ct n lbl_ss.
Proof. intros n ct ss B1 L1 B2 L2 H4 Hn. unfold kyber_ss_kdf. kmk. Qed.
Lemma KMAC_shape : forall K X n S, bytes K -> bytes X -> bytes S -> Z.of_nat (length K) < 2 ^ 60 -> Z.of_nat (length S) < 2 ^ 60 -> Z.of_nat n < 2 ^ 61 ->
  bytes (KMAC 64 K X n S) /\ length (KMAC 64 K X n S) = n.
Proof.
  intros K X n S HK HX HS LK LS Ln. unfold KMAC. apply cSHAKE_ok; auto; try (cbn; lia); try lia.
  - apply bytes_app; [|apply bytes_app; auto; apply bytes_right_encode; lia].
    unfold bytepad. apply bytes_app; [|apply bytes_zeros].
    apply bytes_app; [apply bytes_left_encode; cbn; lia|]. apply bytes_encode_string; auto. lia.
  - repeat constructor; unfold byte; lia.
Qed.

(** ** C53 *)
(** What C53 asks: the secret of the hybrid KEM is KMAC256 keyed with both secrets. *)
Definition C53_claim : Prop := forall n ct ct_x ss ss_x, bytes ct -> bytes ct_x -> bytes ss -> bytes ss_x -> length ss = 32%nat -> length ss_x = 32%nat ->
  Z.of_nat (length ct) < 2 ^ 32 -> length ct_x = 32%nat -> (4 <= n)%nat -> Z.of_nat n < 2 ^ 61 ->
  kyber_x25519_ss_kdf n ct ct_x ss ss_x = KMAC 64 (ss ++ ss_x) (ct ++ ct_x) n lbl_x.
(** The key length handed to KMAC is that of the ML-KEM half: the X25519 secret has no influence at all. *)
Theorem C53_x25519_ignored : forall n ct ct_x ss ss_x ss_x', length ss = 32%nat ->
  kyber_x25519_ss_kdf n ct ct_x ss ss_x = kyber_x25519_ss_kdf n ct ct_x ss ss_x'.
Proof. intros n ct ct_x ss ss_x ss_x' L. unfold kyber_x25519_ss_kdf. rewrite !firstn_app, L, Nat.sub_diag, !firstn_O. reflexivity. Qed.
Print Assumptions C53_x25519_ignored.
(** hence whoever breaks ML-KEM alone has the hybrid secret: two X25519 key exchanges with different results, the same secret *)
Theorem C53_hybrid_secret_from_mlkem_alone : forall ad1 ad2 p fuel x_ss x_ss' n ct sk out, 
  In p kyber_params -> bytes (fst sk) -> length (fst sk) = skbytes p -> bytes (fst ct) -> length (fst ct) = ctbytes p -> (forall a b, fst (x_ss' a b) = 0) ->
  xdec_kdf ad1 ad2 fuel p x_ss n ct sk = rret out -> xdec_kdf ad1 ad2 fuel p x_ss' n ct sk = rret out.
Proof.
  intros ad1 ad2 p fuel x_ss x_ss' n ct sk out Hp K1 K2 C1 C2 H0 H. unfold xdec_kdf, xdec in *.
  destruct (r_dec ad1 ad2 fuel p (fst ct) (fst sk)) as [[r [s|]]|] eqn:E; cbn [rbind] in *; try discriminate.
  assert (Ls : length s = 32%nat). { apply (dec_out ad1 ad2 p fuel (fst sk) (fst ct) s Hp K1 K2 C1 C2). unfold r_dec in E. destruct (kyber_dec ad1 ad2 fuel p (fst ct) (fst sk)) as [[z s0]|]; [|discriminate].
    destruct (Z.eqb_spec z 0); [|discriminate]. unfold rret in E. congruence. }
  unfold r_xss in *. destruct (x_ss (snd ct) (snd sk)) as [z sx]. specialize (H0 (snd ct) (snd sk)). destruct (x_ss' (snd ct) (snd sk)) as [z' sx']. cbn [fst] in H0. subst z'.
  destruct (z =? 0); [|discriminate]. cbn [Z.eqb]. unfold rret, rbind in *. cbn [fst snd] in *. rewrite (C53_x25519_ignored n (fst ct) (snd ct) s sx' sx Ls). exact H.
Qed.
Print Assumptions C53_hybrid_secret_from_mlkem_alone.
Theorem C53_refuted : ~ C53_claim.
Proof.
  intros H. specialize (H 32%nat [] (zeros 32) (zeros 32) (zeros 32) (Forall_nil _) (bytes_zeros 32) (bytes_zeros 32) (bytes_zeros 32) eq_refl eq_refl eq_refl eq_refl).
  specialize (H ltac:(lia) ltac:(lia)).
  assert (E : KMAC 64 (zeros 32 ++ zeros 32) ([] ++ zeros 32) 32 lbl_x = k_kmac (zeros 32 ++ zeros 32) lbl_x [[] ++ zeros 32] 32).
  { symmetry. assert (B1 : bytes (zeros 32 ++ zeros 32)) by (apply bytes_app; apply bytes_zeros). assert (B2 : bytes ([] ++ zeros 32)) by (apply (bytes_zeros 32)).
    assert (L1 : length (zeros 32 ++ zeros 32) = 64%nat) by reflexivity. assert (L2 : length ([] ++ zeros 32) = 32%nat) by reflexivity.
    set (k := zeros 32 ++ zeros 32) in *. set (x := [] ++ zeros 32) in *. clearbody k x. assert (H4 : (4 <= 32)%nat) by lia. assert (Hn : Z.of_nat 32 < 2 ^ 61) by lia. kmk. }
  rewrite E in H. clear E.
  assert (N : (nth 0 (kyber_x25519_ss_kdf 32 [] (zeros 32) (zeros 32) (zeros 32)) 0 =? nth 0 (k_kmac (zeros 32 ++ zeros 32) lbl_x [[] ++ zeros 32] 32) 0) = false) by (vm_cast_no_check (eq_refl false)).
  rewrite H, Z.eqb_refl in N. discriminate N.
Qed.
Print Assumptions C53_refuted.
(** What holds: the KDF is KMAC256 keyed with the ML-KEM secret alone; and the 3-way and 4-way functions of the key exchange
    do use both secrets. *)
Theorem C53_partial : forall n ct ct_x ss ss_x, bytes ct -> bytes ct_x -> bytes ss -> length ss = 32%nat ->
  Z.of_nat (length ct) < 2 ^ 32 -> length ct_x = 32%nat -> (4 <= n)%nat -> Z.of_nat n < 2 ^ 61 ->
  kyber_x25519_ss_kdf n ct ct_x ss ss_x = KMAC 64 ss (ct ++ ct_x) n lbl_x.
Proof.
  intros n ct ct_x ss ss_x Hc Hx Hs Ls Lc Lx H4 Hn. unfold kyber_x25519_ss_kdf.
  rewrite firstn_app, Ls, Nat.sub_diag, firstn_O, app_nil_r, firstn_all2 by (rewrite Ls; apply le_n).
  assert (LL := app_length ct ct_x). assert (BB := bytes_app _ _ Hc Hx). set (x := ct ++ ct_x) in *. clearbody x. kmk.
Qed.
Print Assumptions C53_partial.
Definition half (s : list Z * list Z) : Prop := bytes (fst s) /\ bytes (snd s) /\ length (fst s) = 32%nat /\ length (snd s) = 32%nat.
Theorem C53_kex_kdf : forall s0 s1 s2 nonce n, half s0 -> half s1 -> half s2 -> bytes nonce -> Z.of_nat (length nonce) < 2 ^ 60 ->
  (4 <= n)%nat -> Z.of_nat n < 2 ^ 61 ->
  kyber_x25519_kdf3 s0 s1 nonce n = KMAC 64 (fst s0 ++ snd s0) ((fst s1 ++ snd s1) ++ nonce) n lbl_x3 /\
  kyber_x25519_kdf4 s0 s1 s2 nonce n = KMAC 64 (fst s0 ++ snd s0) ((fst s1 ++ snd s1) ++ (fst s2 ++ snd s2) ++ nonce) n lbl_x4.
Proof.
  intros s0 s1 s2 nonce n (A1 & A2 & A3 & A4) (B1 & B2 & B3 & B4) (C1 & C2 & C3 & C4) Hn Ln H4 Hn2.
  assert (BA := bytes_app _ _ A1 A2). assert (BB := bytes_app _ _ B1 B2). assert (BC := bytes_app _ _ C1 C2).
  assert (LA := app_length (fst s0) (snd s0)). assert (LB := app_length (fst s1) (snd s1)). assert (LC := app_length (fst s2) (snd s2)).
  unfold kyber_x25519_kdf3, kyber_x25519_kdf4.
  set (a := fst s0 ++ snd s0) in *. set (b := fst s1 ++ snd s1) in *. set (c := fst s2 ++ snd s2) in *. clearbody a b c. split.
  - kmk.
  - kmk.
Qed.
Print Assumptions C53_kex_kdf.
Example C53_ex : half (zeros 32, v512_ss) /\ kyber_x25519_ss_kdf 32 [] (zeros 32) v512_ss (zeros 32) = kyber_x25519_ss_kdf 32 [] (zeros 32) v512_ss v512_ss /\ v512_ss <> zeros 32.
Proof.
  assert (B : forall l, forallb (fun x => (0 <=? x) && (x <? 256)) l = true -> bytes l).
  { intros l H. apply Forall_forall. intros x Hx. rewrite forallb_forall in H. specialize (H x Hx). apply andb_prop in H. unfold byte. lia. }
  split. { split; [apply bytes_zeros|]. split; [apply B; vm_compute; reflexivity|]. split; vm_compute; reflexivity. }
  split; [apply C53_x25519_ignored; reflexivity|]. intros H. assert (E : nth 0 v512_ss 0 = nth 0 (zeros 32) 0) by (rewrite H; reflexivity). vm_compute in E. discriminate E.
Qed.

(** ** C65: secrets of requested length *)
Definition C65_claim : Prop := forall ad1 ad2 p fuel pk m n ct ss, In p kyber_params -> bytes pk -> length pk = pkbytes p -> bytes m -> length m = 32%nat ->
  Z.of_nat n < 2 ^ 61 -> kyber_enc ad1 ad2 fuel p pk m = Some (0, ct, ss) ->
  exists out, kyber_enc_kdf ad1 ad2 fuel p pk m n = Some (0, ct, out) /\ length out = n.
(** for 4 bytes and more: KMAC256 of the shared secret over the ciphertext *)
Theorem C65_partial : forall ad1 ad2 p fuel pk m n ct ss, In p kyber_params -> bytes pk -> length pk = pkbytes p -> bytes m -> length m = 32%nat ->
  (4 <= n)%nat -> Z.of_nat n < 2 ^ 61 -> kyber_enc ad1 ad2 fuel p pk m = Some (0, ct, ss) ->
  kyber_enc_kdf ad1 ad2 fuel p pk m n = Some (0, ct, KMAC 64 ss ct n lbl_ss) /\ length (KMAC 64 ss ct n lbl_ss) = n.
Proof.
  intros ad1 ad2 p fuel pk m n ct ss Hp Hpk Lpk Hm Lm H4 Hn HE. unfold kyber_enc_kdf. rewrite HE. cbn [Z.eqb].
  destruct (enc_out ad1 ad2 p fuel pk m ct ss Hp Hpk Lpk Hm Lm HE) as (B1 & L1 & B2 & L2).
  rewrite (ss_kdf_ok n ct ss B1 L1 B2 L2 H4 Hn). split; auto.
  apply KMAC_shape; auto; try lia. lbl. lbl.
Qed.
Print Assumptions C65_partial.
Theorem C65_dec_partial : forall ad1 ad2 p fuel sk ct n ss, In p kyber_params -> bytes sk -> length sk = skbytes p -> bytes ct -> length ct = ctbytes p ->
  (4 <= n)%nat -> Z.of_nat n < 2 ^ 61 -> kyber_dec ad1 ad2 fuel p ct sk = Some (0, ss) ->
  kyber_dec_kdf ad1 ad2 fuel p ct sk n = Some (0, KMAC 64 ss ct n lbl_ss).
Proof.
  intros ad1 ad2 p fuel sk ct n ss Hp Hsk Lsk Hct Lct H4 Hn HE. unfold kyber_dec_kdf. rewrite HE. cbn [Z.eqb].
  destruct (dec_out ad1 ad2 p fuel sk ct ss Hp Hsk Lsk Hct Lct HE) as (B2 & L2).
  assert (L1 := ct_small p Hp). rewrite <- Lct in L1. rewrite (ss_kdf_ok n ct ss Hct L1 B2 L2 H4 Hn). reflexivity.
Qed.
Print Assumptions C65_dec_partial.
(** a request of 1, 2 or 3 bytes reports success and writes nothing: the caller's buffer is the "secret" *)
Theorem C65_short : forall ad1 ad2 p fuel pk m n ct ss, (n < 4)%nat -> kyber_enc ad1 ad2 fuel p pk m = Some (0, ct, ss) ->
  kyber_enc_kdf ad1 ad2 fuel p pk m n = Some (0, ct, []).
Proof. intros ad1 ad2 p fuel pk m n ct ss H HE. unfold kyber_enc_kdf. rewrite HE. cbn [Z.eqb]. unfold kyber_ss_kdf. rewrite k_kmac_short by auto. reflexivity. Qed.
Print Assumptions C65_short.
Theorem C65_refuted : ~ C65_claim.
Proof.
  intros H. destruct kat512_shape as (S1 & S2 & S3 & S4 & P1 & P2 & _).
  destruct (H 0 0 kyber512 3%nat v512_pk v_m 3%nat v512_ct v512_ss (or_introl eq_refl) P1 P2 S3 S4 ltac:(lia) kat512_enc) as (out & E & L).
  rewrite (C65_short 0 0 kyber512 3 v512_pk v_m 3 v512_ct v512_ss ltac:(lia) kat512_enc) in E.
  assert (out = []) by congruence. subst out. discriminate L.
Qed.
Print Assumptions C65_refuted.
Example C65_ex : kyber_enc_kdf 0 0 3 kyber512 v512_pk v_m 16 = Some (0, v512_ct, KMAC 64 v512_ss v512_ct 16 lbl_ss).
Proof.
  destruct kat512_shape as (S1 & S2 & S3 & S4 & P1 & P2 & _).
  exact (proj1 (C65_partial 0 0 kyber512 3 v512_pk v_m 16 v512_ct v512_ss (or_introl eq_refl) P1 P2 S3 S4 ltac:(lia) ltac:(lia) kat512_enc)).
Qed.

(** ** C66: KyberIES with the cSHAKE256 AEAD of the library *)
Theorem C66 : forall ad1 ad2 p fuel s1 s2 seed f0 pk sk m pt aad buf stack p1 p2 ct c t, In p kyber_params ->
  cc_memory s1 -> cc_memory s2 -> bytes seed -> length seed = 64%nat -> bytes m -> length m = 32%nat -> low_noise p (firstn 32 seed) m ->
  bytes pt -> bytes aad -> Z.of_nat (length aad + length pt) < 2 ^ 61 -> (forall n, length (stack n) = n) ->
  kyber_keypair_from_seed f0 p seed = Some (0, pk, sk) ->
  ies_enc ad1 ad2 fuel p _ cc_setkey cc_encrypt s1 pk m pt aad buf = rret (ct, c, t) ->
  ies_dec ad1 ad2 fuel p _ cc_setkey (cc_decrypt stack p1 p2) s2 sk ct c aad t = rret pt.
Proof.
  intros ad1 ad2 p fuel s1 s2 seed f0 pk sk m pt aad buf stack p1 p2 ct c t Hp M1 M2 Hs Ls Hm Lm HN Hpt Ha HL Hst HK HE.
  destruct (keypair_shape p seed f0 pk sk (kyber_kok p Hp) Hs Ls HK) as (A & _ & _ & _ & _ & _ & _ & _ & _ & Bpk & Lpk & _).
  revert HE. apply (ies_agree ad1 ad2 fuel p (kyber_kok p Hp) _ cc_setkey cc_encrypt (cc_decrypt stack p1 p2) s1 s2 seed f0 pk sk m pt aad buf ct c t);
    [split; assumption|split; assumption|assumption|assumption| |].
  - intros key iv e1 Lk Li Bk Bi E1.
    destruct (C33_cshake s1 s2 key iv M1 M2 Bk Bi ltac:(lia) ltac:(lia)) as (e1' & e2 & E1' & E2 & RT).
    exists e2. split; [exact E2|]. assert (e1' = e1) by congruence. subst e1'.
    assert (X := RT aad [pt] buf stack p1 p2 (fst (cc_enc_stream e1 aad [pt] buf)) Ha (Forall_cons _ Hpt (Forall_nil _)) I I Hst).
    cbn [concat] in X. rewrite !app_nil_r in X. specialize (X HL eq_refl I). clear RT E1 E1' E2.
    unfold cc_enc_stream, cc_dec_stream, cc_encrypt, cc_decrypt, etm_encrypt_stream, etm_decrypt_stream, etm_encrypt, etm_decrypt in *.
    cbn [etm_encs etm_decs] in X |- *.
    destruct (etm_enc _ _ cc_crypt cs_ctx_update (etm_aad _ _ cs_ctx_update e1 aad) pt) as [c1 e3]. cbn [fst snd concat app etm_decs] in X |- *.
    destruct (etm_dec _ _ cc_crypt cs_ctx_update (etm_aad _ _ cs_ctx_update e2 aad) c1) as [p3 e4]. cbn [fst snd concat app] in X |- *.
    rewrite !app_nil_r in X. destruct X as (_ & X1 & X2). subst p3. rewrite X2. reflexivity.
  - intros ss c' EN. destruct (enc_out ad1 ad2 p fuel pk m c' ss Hp Bpk Lpk Hm Lm EN) as (B1 & L1 & B2 & L2).
    rewrite (ss_kdf_ok 48 c' ss B1 L1 B2 L2 ltac:(lia) ltac:(lia)). apply KMAC_shape; auto; try lia. lbl. lbl.
Qed.
Print Assumptions C66.
(** but encryption reports success whatever lc_aead_encrypt answered: an AEAD that refuses leaves the caller with return code 0
    and whatever the data buffer held *)
Theorem C66_enc_ignores_aead_error : forall ad1 ad2 p fuel (S : Type) setkey (s : S) pk m pt aad buf (junk : list Z) ct ss,
  kyber_enc ad1 ad2 fuel p pk m = Some (0, ct, ss) -> (forall s k i, setkey s k i = (0, s)) ->
  ies_enc ad1 ad2 fuel p S setkey (fun _ _ _ _ => (EINVAL, junk, buf)) s pk m pt aad buf = rret (ct, junk, buf).
Proof.
  intros ad1 ad2 p fuel S setkey s pk m pt aad buf junk ct ss HE HS. unfold ies_enc, r_enc_kdf, kyber_enc_kdf. rewrite HE. cbn [Z.eqb].
  unfold rret at 1, rbind at 1. unfold r_setkey. rewrite HS. reflexivity.
Qed.
Print Assumptions C66_enc_ignores_aead_error.
Lemma cc_setkey_0 : forall s k i, fst (cc_setkey s k i) = 0.
Proof. intros. unfold cc_setkey. destruct (hh_xof _ _ _). reflexivity. Qed.
Lemma ies_enc_at : forall fuel p pk m pt aad buf ct ss, kyber_enc 0 0 fuel p pk m = Some (0, ct, ss) ->
  exists c t, ies_enc 0 0 fuel p _ cc_setkey cc_encrypt cc0 pk m pt aad buf = rret (ct, c, t).
Proof.
  intros fuel p pk m pt aad buf ct ss H. unfold ies_enc, r_enc_kdf, kyber_enc_kdf. rewrite H. cbn [Z.eqb]. unfold rret at 1, rbind at 1. unfold r_setkey.
  generalize (kyber_ss_kdf 48 ct ss). intros k. generalize (cc_setkey_0 cc0 (firstn 32 k) (skipn 32 k)). generalize (cc_setkey cc0 (firstn 32 k) (skipn 32 k)).
  intros [z e] E. cbn [fst] in E. subst z. cbn [Z.eqb]. unfold rret at 1, rbind at 1. generalize (cc_encrypt e aad pt buf). intros [[z c] t]. exists c, t. reflexivity.
Qed.
Example C66_ex : (exists c t, ies_enc 0 0 3 kyber512 _ cc_setkey cc_encrypt cc0 v512_pk v_m [1; 2; 3] [4] (zeros 16) = rret (v512_ct, c, t)) /\ cc_memory cc0 /\
  low_noise kyber512 (firstn 32 v_seed) v_m.
Proof. split; [exact (ies_enc_at 3 kyber512 v512_pk v_m _ _ _ v512_ct v512_ss kat512_enc)|]. split; [split; reflexivity|exact v512_low_noise]. Qed.
