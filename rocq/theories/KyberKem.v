(** kyber_kem.c against ML-KEM of FIPS 203. *)
From Verif Require Import Bytes Words ZUtil SpongeSpec KeccakSpec Fips202 KeccakModel Sha3Model KeccakBytes Sha3Proof Sha3Top HashIface DrbgProof UtilModel UtilProof PolyRing NttSim KyberModel KyberSpec KyberArith KyberNtt KyberNttModel KyberCodec KyberCodec2 KyberSample KyberVec KyberPke.
Require Import Lia.

Lemma sha256_1 : forall m, bytes m -> Z.of_nat (length m) < 2 ^ 64 -> k_sha3_256 [m] = Hh m.
Proof.
  intros m H L. rewrite k_sha3_256_ok. cbn [concat]. rewrite app_nil_r. reflexivity. repeat constructor; auto.
  cbn [concat]. rewrite app_nil_r. auto.
Qed.
Lemma sha512_1 : forall m, bytes m -> Z.of_nat (length m) < 2 ^ 64 -> k_sha3_512 [m] = Gh m.
Proof.
  intros m H L. rewrite k_sha3_512_ok. cbn [concat]. rewrite app_nil_r. reflexivity. repeat constructor; auto.
  cbn [concat]. rewrite app_nil_r. auto.
Qed.
Lemma Hh_ok : forall m, bytes m -> bytes (Hh m) /\ length (Hh m) = 32%nat.
Proof. intros. split. apply SHA3_bytes; auto. lia. apply SHA3_len. Qed.

Lemma flat_len : forall (A : Type) (f : A -> list Z) n l, (forall x, length (f x) = n) -> length (flat_map f l) = (n * length l)%nat.
Proof. intros A f n l H. induction l; cbn [flat_map length]. lia. rewrite app_length, H, IHl. lia. Qed.
Lemma flat_bytes : forall (A : Type) (f : A -> list Z) l, (forall x, bytes (f x)) -> bytes (flat_map f l).
Proof. intros A f l H. induction l; cbn [flat_map]. constructor. apply bytes_app; auto. Qed.
Lemma length_vadd : forall k a b, length (vadd k a b) = k.
Proof. intros. unfold vadd. rewrite map_length. apply seq_length. Qed.
Lemma Encrypt_shape : forall k e du dv A ek m r, bytes (KPKE_Encrypt k e du dv A ek m r) /\
  length (KPKE_Encrypt k e du dv A ek m r) = (32 * du * k + 32 * dv)%nat.
Proof.
  intros. unfold KPKE_Encrypt. split.
  - apply bytes_app; [|apply bytes_ByteEncode]. apply flat_bytes. intros. apply bytes_ByteEncode.
  - rewrite app_length, length_ByteEncode. rewrite (flat_len _ _ (32 * du)) by (intros; apply length_ByteEncode). rewrite length_vadd. reflexivity.
Qed.
Lemma KeyGen_shape : forall k e A d, (k < 256)%nat -> bytes d -> length A = k ->
  let '(ek, dk) := KPKE_KeyGen k e A d in bytes ek /\ length ek = (384 * k + 32)%nat /\ bytes dk /\ length dk = (384 * k)%nat.
Proof.
  intros k e A d Hk Hd LA. unfold KPKE_KeyGen. destruct (rho_ok k d Hk Hd) as (R1 & R2 & _).
  split; [|split; [|split]].
  - apply bytes_app; auto. apply flat_bytes. intros. apply bytes_ByteEncode.
  - rewrite app_length, R2. rewrite (flat_len _ _ 384) by (intros; apply length_ByteEncode). rewrite length_vadd. reflexivity.
  - apply flat_bytes. intros. apply bytes_ByteEncode.
  - rewrite (flat_len _ _ 384) by (intros; apply length_ByteEncode). unfold noise. rewrite !map_length, seq_length. reflexivity.
Qed.

(** ** key generation *)
Section KeyPair.
  Variables (p : kparams) (seed : list Z).
  Hypothesis Hp : kok p.
  Hypothesis Hs : bytes seed.
  Hypothesis Ls : length seed = 64%nat.
  Let d := firstn 32 seed.
  Let z := skipn 32 seed.
  Lemma d_ok : bytes d /\ length d = 32%nat.
  Proof. split. apply bytes_firstn; auto. unfold d. rewrite firstn_length. lia. Qed.
  Lemma kk_lt : (1 <= kk p <= 4)%nat.
  Proof. apply Hp. Qed.
  Lemma keypair_at : forall fuel A, is_matrix (kk p) (KPKE_rho (kk p) d) A -> gen_matrix fuel (kk p) (KPKE_rho (kk p) d) false = Some A ->
    kyber_keypair_from_seed fuel p seed = Some (0, fst (KEM_KeyGen (kk p) (keta1 p) A d z), snd (KEM_KeyGen (kk p) (keta1 p) A d z)).
  Proof.
    intros fuel A HA G. destruct d_ok as [D1 D2]. pose proof kk_lt as K. unfold kyber_keypair_from_seed. rewrite Ls. cbn [Nat.eqb negb].
    fold d. rewrite (indcpa_keypair_ok fuel p d A) by auto. unfold KEM_KeyGen.
    pose proof (KeyGen_shape (kk p) (keta1 p) A d ltac:(lia) D1 ltac:(apply HA)) as S. destruct (KPKE_KeyGen (kk p) (keta1 p) A d) as [ek dk].
    destruct S as (S1 & S2 & _). cbn [fst snd]. rewrite sha256_1; auto. rewrite S2. lia.
  Qed.
  Lemma rho_good : bytes (KPKE_rho (kk p) d) /\ length (KPKE_rho (kk p) d) = 32%nat.
  Proof. destruct (rho_ok (kk p) d ltac:(pose proof kk_lt; lia) (proj1 d_ok)) as (R1 & R2 & _). auto. Qed.
  Theorem keypair_sound : forall fuel r, kyber_keypair_from_seed fuel p seed = Some r ->
    exists A, is_matrix (kk p) (KPKE_rho (kk p) d) A /\
      r = (0, fst (KEM_KeyGen (kk p) (keta1 p) A d z), snd (KEM_KeyGen (kk p) (keta1 p) A d z)).
  Proof.
    intros fuel r H. destruct rho_good as [R1 R2]. destruct d_ok as [D1 D2]. pose proof kk_lt as K.
    destruct (gen_matrix fuel (kk p) (KPKE_rho (kk p) d) false) as [A|] eqn:G.
    - destruct (gen_matrix_sound (kk p) _ ltac:(lia) R1 R2 fuel false A G) as (A' & HA & E). cbv iota in E. subst A'.
      exists A. split; auto. rewrite (keypair_at fuel A HA G) in H. congruence.
    - exfalso. unfold kyber_keypair_from_seed in H. rewrite Ls in H. cbn [Nat.eqb negb] in H. fold d in H.
      assert (N : indcpa_keypair fuel p d = None). 2: { rewrite N in H. discriminate. }
      unfold indcpa_keypair.
      assert (E : k_sha3_512 [d; [Z.of_nat (kk p)]] = Gh (d ++ [Z.of_nat (kk p)])).
      { assert (B : bytes [Z.of_nat (kk p)]) by (constructor; [unfold byte; lia|constructor]).
        rewrite k_sha3_512_ok. cbn [concat]. rewrite app_nil_r. reflexivity. exact (Forall_cons _ D1 (Forall_cons _ B (Forall_nil _))).
        cbn [concat]. rewrite !app_length, D2. cbn. lia. }
      rewrite E. fold (KPKE_rho (kk p) d). rewrite G. reflexivity.
  Qed.
  Theorem keypair_complete : forall A, is_matrix (kk p) (KPKE_rho (kk p) d) A -> exists f0, forall fuel, (f0 <= fuel)%nat ->
    kyber_keypair_from_seed fuel p seed = Some (0, fst (KEM_KeyGen (kk p) (keta1 p) A d z), snd (KEM_KeyGen (kk p) (keta1 p) A d z)).
  Proof.
    intros A HA. destruct rho_good as [R1 R2]. pose proof kk_lt as K.
    destruct (gen_matrix_complete (kk p) _ ltac:(lia) R1 R2 A HA) as [f0 F]. exists f0. intros fuel Hf. apply keypair_at; auto. exact (F fuel Hf false).
  Qed.
End KeyPair.

(** ** encapsulation *)
Section Enc.
  Variables (ad1 ad2 : Z) (p : kparams) (pk : list Z).
  Hypothesis Hp : kok p.
  Hypothesis Hpk : bytes pk.
  Hypothesis Lpk : length pk = pkbytes p.
  Lemma ek_good : bytes (ek_rho (kk p) pk) /\ length (ek_rho (kk p) pk) = 32%nat.
  Proof. split. apply bytes_skipn; auto. unfold ek_rho. rewrite skipn_length, Lpk. unfold pkbytes. lia. Qed.
  Lemma ienc_cases : forall fuel m r, bytes m -> length m = 32%nat -> bytes r -> length r = 32%nat ->
    (gen_matrix fuel (kk p) (ek_rho (kk p) pk) true = None /\ indcpa_enc ad1 ad2 fuel p m pk r = None) \/
    exists A, is_matrix (kk p) (ek_rho (kk p) pk) A /\ gen_matrix fuel (kk p) (ek_rho (kk p) pk) true = Some (transpose (kk p) A) /\
      indcpa_enc ad1 ad2 fuel p m pk r = Some (0, KPKE_Encrypt (kk p) (keta1 p) (kdu p) (kdv p) A pk m r).
  Proof.
    intros fuel m r Hm Lm Hr Lr. destruct ek_good as [R1 R2]. assert (K : (1 <= kk p <= 4)%nat) by apply Hp.
    destruct (gen_matrix fuel (kk p) (ek_rho (kk p) pk) true) as [T|] eqn:G.
    - right. destruct (gen_matrix_sound (kk p) _ ltac:(lia) R1 R2 fuel true T G) as (A & HA & E). cbv iota in E. subst T. exists A. split; auto. split; auto.
      apply indcpa_enc_ok; auto.
    - left. split; auto. unfold indcpa_enc. rewrite modulus_check_zero by auto. cbn [Z.eqb negb].
      fold (ek_rho (kk p) pk). rewrite G. reflexivity.
  Qed.
  Lemma kr_ok : forall m, bytes m -> length m = 32%nat ->
    k_sha3_512 [m ++ k_sha3_256 [pk]] = Gh (m ++ Hh pk) /\ bytes (Gh (m ++ Hh pk)) /\ length (Gh (m ++ Hh pk)) = 64%nat.
  Proof.
    intros m Hm Lm. assert (K : (1 <= kk p <= 4)%nat) by apply Hp.
    rewrite sha256_1 by (auto; rewrite Lpk; unfold pkbytes; lia). destruct (Hh_ok pk Hpk) as [H1 H2].
    assert (B : bytes (m ++ Hh pk)) by (apply bytes_app; auto). rewrite sha512_1; auto. split; auto. apply Gh_ok; auto.
    rewrite app_length, Lm, H2. cbn. lia.
  Qed.
  Theorem enc_sound : forall fuel m r, bytes m -> length m = 32%nat -> kyber_enc ad1 ad2 fuel p pk m = Some r ->
    exists A, is_matrix (kk p) (ek_rho (kk p) pk) A /\
      r = (0, snd (KEM_Encaps (kk p) (keta1 p) (kdu p) (kdv p) A pk m), fst (KEM_Encaps (kk p) (keta1 p) (kdu p) (kdv p) A pk m)).
  Proof.
    intros fuel m r Hm Lm H. unfold kyber_enc in H. destruct (kr_ok m Hm Lm) as (E & G1 & G2). rewrite E in H.
    assert (K1 : bytes (skipn 32 (Gh (m ++ Hh pk)))) by (apply bytes_skipn; auto).
    assert (K2 : length (skipn 32 (Gh (m ++ Hh pk))) = 32%nat) by (rewrite skipn_length, G2; reflexivity).
    destruct (ienc_cases fuel m (skipn 32 (Gh (m ++ Hh pk))) Hm Lm K1 K2) as [[_ N]|(A & HA & _ & N)]; rewrite N in H; [discriminate|].
    cbn [Z.eqb] in H. exists A. split; auto. unfold KEM_Encaps. cbn [fst snd]. congruence.
  Qed.
  Theorem enc_complete : forall A m, is_matrix (kk p) (ek_rho (kk p) pk) A -> bytes m -> length m = 32%nat -> exists f0, forall fuel, (f0 <= fuel)%nat ->
    kyber_enc ad1 ad2 fuel p pk m = Some (0, snd (KEM_Encaps (kk p) (keta1 p) (kdu p) (kdv p) A pk m), fst (KEM_Encaps (kk p) (keta1 p) (kdu p) (kdv p) A pk m)).
  Proof.
    intros A m HA Hm Lm. destruct ek_good as [R1 R2]. assert (K : (1 <= kk p <= 4)%nat) by apply Hp.
    destruct (gen_matrix_complete (kk p) _ ltac:(lia) R1 R2 A HA) as [f0 F]. exists f0. intros fuel Hf. specialize (F fuel Hf true). cbv iota in F.
    unfold kyber_enc. destruct (kr_ok m Hm Lm) as (E & G1 & G2). rewrite E. 
    assert (K1 : bytes (skipn 32 (Gh (m ++ Hh pk)))) by (apply bytes_skipn; auto).
    assert (K2 : length (skipn 32 (Gh (m ++ Hh pk))) = 32%nat) by (rewrite skipn_length, G2; reflexivity).
    rewrite (indcpa_enc_ok ad1 ad2 fuel p m pk _ A Hp Hm Lm Hpk Lpk K1 K2 HA F). reflexivity.
  Qed.
End Enc.

(** ** decapsulation *)
Lemma zip2_sel : forall (f : Z -> Z -> Z) a b, length a = length b -> (forall x y, byte x -> byte y -> f x y = y) -> bytes a -> bytes b -> zip2 f a b = b.
Proof.
  induction a as [|x a IH]; intros [|y b] L H Ha Hb; cbn [zip2] in *; try reflexivity; try (cbn in L; lia).
  rewrite H by (eapply Forall_inv; eauto). f_equal. apply IH; auto; eapply Forall_inv_tail; eauto.
Qed.
Lemma zip2_keep : forall (f : Z -> Z -> Z) a b, length a = length b -> (forall x y, byte x -> byte y -> f x y = x) -> bytes a -> bytes b -> zip2 f a b = a.
Proof.
  induction a as [|x a IH]; intros [|y b] L H Ha Hb; cbn [zip2] in *; try reflexivity; try (cbn in L; lia).
  rewrite H by (eapply Forall_inv; eauto). f_equal. apply IH; auto; eapply Forall_inv_tail; eauto.
Qed.
Lemma cmov_ok : forall r x b, bytes r -> bytes x -> length r = length x -> (b = 0 \/ b = 1) -> cmov r x b = if b =? 1 then x else r.
Proof.
  intros r x b Hr Hx L [->| ->]; unfold cmov; cbn [Z.eqb Pos.eqb].
  - apply zip2_keep; auto. intros. change (u8 (- 0)) with 0. rewrite Z.land_0_l. apply Z.lxor_0_r.
  - apply zip2_sel; auto. intros u v Hu Hv. change (u8 (- 1)) with (Z.ones 8). rewrite (Z.land_comm (Z.ones 8)), Z.land_ones by lia.
    rewrite Z.mod_small. rewrite <- Z.lxor_assoc, Z.lxor_nilpotent. apply Z.lxor_0_l.
    change (2 ^ 8) with 256. apply byte_lxor; auto.
Qed.

Section Dec.
  Variables (ad1 ad2 : Z) (p : kparams) (sk ct : list Z).
  Hypothesis Hp : kok p.
  Hypothesis Hsk : bytes sk.
  Hypothesis Lsk : length sk = skbytes p.
  Hypothesis Hct : bytes ct.
  Hypothesis Lct : length ct = ctbytes p.
  Lemma sk_shape : bytes (sk_pk p sk) /\ length (sk_pk p sk) = pkbytes p /\ bytes (sk_hpk p sk) /\ length (sk_hpk p sk) = 32%nat /\
    bytes (sk_z p sk) /\ length (sk_z p sk) = 32%nat /\ bytes (firstn (cpaskbytes p) sk) /\ length (firstn (cpaskbytes p) sk) = cpaskbytes p.
  Proof.
    unfold sk_pk, sk_hpk, sk_z. assert (L := Lsk). unfold skbytes, pkbytes, cpaskbytes in L. unfold skbytes, pkbytes, cpaskbytes.
    rewrite !length_slice by (rewrite L; lia). rewrite firstn_length, L.
    split. apply bytes_slice; auto. split. reflexivity. split. apply bytes_slice; auto. split. reflexivity.
    split. apply bytes_slice; auto. split. reflexivity. split. apply bytes_firstn; auto. lia.
  Qed.
  Lemma pk_small : Z.of_nat (pkbytes p) < 2 ^ 64.
  Proof. assert (K : (1 <= kk p <= 4)%nat) by apply Hp. unfold pkbytes. lia. Qed.
  Lemma iv_sk_ok : kyber_kem_iv_sk ad1 ad2 p sk = if list_eq_dec Z.eq_dec (sk_hpk p sk) (Hh (sk_pk p sk)) then 0 else EINVAL.
  Proof.
    destruct sk_shape as (P1 & P2 & H1 & H2 & _). unfold kyber_kem_iv_sk. rewrite sha256_1 by (auto; rewrite P2; apply pk_small).
    destruct (memcmp_spec ad1 (sk_hpk p sk) ad2 (Hh (sk_pk p sk)) H1 (proj1 (Hh_ok _ P1))) as [E C].
    destruct (list_eq_dec Z.eq_dec (sk_hpk p sk) (Hh (sk_pk p sk))) as [e|n].
    - rewrite (proj2 E e). reflexivity.
    - destruct C as [C|C]; [exfalso; apply n, E, C|]. rewrite C. reflexivity.
  Qed.
  Lemma dec_badsk : forall fuel, sk_hpk p sk <> Hh (sk_pk p sk) -> kyber_dec ad1 ad2 fuel p ct sk = Some (EINVAL, []).
  Proof. intros fuel H. unfold kyber_dec. rewrite iv_sk_ok. destruct (list_eq_dec Z.eq_dec (sk_hpk p sk) (Hh (sk_pk p sk))); [contradiction|]. reflexivity. Qed.
  Hypothesis Hh_sk : sk_hpk p sk = Hh (sk_pk p sk).
  Let m' := KPKE_Decrypt (kk p) (kdu p) (kdv p) (firstn (cpaskbytes p) sk) ct.
  Lemma decaps_eq : forall A, KEM_Decaps (kk p) (keta1 p) (kdu p) (kdv p) A sk ct =
    let Kr := Gh (m' ++ sk_hpk p sk) in
    if list_eq_dec Z.eq_dec ct (KPKE_Encrypt (kk p) (keta1 p) (kdu p) (kdv p) A (sk_pk p sk) m' (skipn 32 Kr)) then firstn 32 Kr else Jh (sk_z p sk ++ ct).
  Proof.
    intros A. unfold KEM_Decaps, m', sk_pk, sk_hpk, sk_z, cpaskbytes, skbytes, pkbytes, cpaskbytes.
    replace (384 * kk p + (384 * kk p + 32) + 64 - 64)%nat with (768 * kk p + 32)%nat by lia.
    replace (384 * kk p + (384 * kk p + 32) + 64 - 32)%nat with (768 * kk p + 64)%nat by lia. reflexivity.
  Qed.
  Lemma dec_cases : forall fuel,
    (gen_matrix fuel (kk p) (ek_rho (kk p) (sk_pk p sk)) true = None /\ kyber_dec ad1 ad2 fuel p ct sk = None) \/
    exists A, is_matrix (kk p) (ek_rho (kk p) (sk_pk p sk)) A /\ gen_matrix fuel (kk p) (ek_rho (kk p) (sk_pk p sk)) true = Some (transpose (kk p) A) /\
      kyber_dec ad1 ad2 fuel p ct sk = Some (0, KEM_Decaps (kk p) (keta1 p) (kdu p) (kdv p) A sk ct).
  Proof.
    intros fuel. destruct sk_shape as (P1 & P2 & H1 & H2 & Z1 & Z2 & S1 & S2). pose proof pk_small as PS.
    assert (K : (1 <= kk p <= 4)%nat) by apply Hp.
    unfold kyber_dec. rewrite iv_sk_ok. destruct (list_eq_dec Z.eq_dec (sk_hpk p sk) (Hh (sk_pk p sk))) as [_|n]; [|contradiction]. cbn [Z.eqb negb].
    destruct (indcpa_dec_ok p ct (firstn (cpaskbytes p) sk) Hp Hct Lct S1 S2) as (E & M1 & M2). fold m' in E. rewrite E in *.
    assert (B : bytes (m' ++ sk_hpk p sk)) by (apply bytes_app; auto).
    assert (L : Z.of_nat (length (m' ++ sk_hpk p sk)) < 2 ^ 64) by (rewrite app_length, M2, H2; cbn; lia).
    rewrite sha512_1 by auto. destruct (Gh_ok _ B) as [G1 G2]. set (Kr := Gh (m' ++ sk_hpk p sk)) in *.
    assert (K1 : bytes (skipn 32 Kr)) by (apply bytes_skipn; auto). assert (K2 : length (skipn 32 Kr) = 32%nat) by (rewrite skipn_length, G2; reflexivity).
    destruct (ienc_cases ad1 ad2 p (sk_pk p sk) Hp P1 P2 fuel m' (skipn 32 Kr) M1 M2 K1 K2) as [[N1 N]|(A & HA & GA & N)]; rewrite N.
    - left. auto.
    - right. exists A. split; auto. split; auto. cbn [Z.eqb negb]. apply f_equal. apply f_equal. rewrite decaps_eq. cbv zeta. fold Kr.
      destruct (Encrypt_shape (kk p) (keta1 p) (kdu p) (kdv p) A (sk_pk p sk) m' (skipn 32 Kr)) as [C1 C2].
      set (c' := KPKE_Encrypt (kk p) (keta1 p) (kdu p) (kdv p) A (sk_pk p sk) m' (skipn 32 Kr)) in *.
      assert (J : kyber_shake256_rkprf (sk_z p sk) ct = Jh (sk_z p sk ++ ct)).
      { unfold kyber_shake256_rkprf. rewrite kdf2_ok; auto. rewrite Z2, Lct. destruct Hp as (_ & _ & Hdu & Hdv). unfold ctbytes.
        destruct Hdu as [<-|[<-|[]]], Hdv as [<-|[<-|[]]]; lia. }
      rewrite J. clear J. assert (J1 : bytes (Jh (sk_z p sk ++ ct))) by (unfold Jh; apply SHAKE256_bytes; apply bytes_app; [exact Z1|exact Hct]).
      assert (J2 : length (Jh (sk_z p sk ++ ct)) = 32%nat) by (unfold Jh; rewrite SHAKE256_len; reflexivity).
      destruct (memcmp_spec ad1 ct ad2 c' Hct C1) as [F C].
      set (jj := Jh (sk_z p sk ++ ct)) in *. clearbody jj Kr c' m'.
      rewrite cmov_ok; auto.
      + destruct (list_eq_dec Z.eq_dec ct c') as [e|n]. rewrite (proj2 F e). reflexivity.
        destruct C as [C|C]; [exfalso; apply n, F, C|]. rewrite C. reflexivity.
      + apply bytes_firstn; auto.
      + rewrite J2, firstn_length, G2. reflexivity.
      + destruct C as [C|C]; rewrite C; [right|left]; reflexivity.
  Qed.
  Theorem dec_sound : forall fuel r, kyber_dec ad1 ad2 fuel p ct sk = Some r ->
    exists A, is_matrix (kk p) (ek_rho (kk p) (sk_pk p sk)) A /\ r = (0, KEM_Decaps (kk p) (keta1 p) (kdu p) (kdv p) A sk ct).
  Proof.
    intros fuel r H. destruct (dec_cases fuel) as [[_ N]|(A & HA & _ & N)]; rewrite N in H; [discriminate|]. exists A. split; auto. congruence.
  Qed.
  Theorem dec_complete : forall A, is_matrix (kk p) (ek_rho (kk p) (sk_pk p sk)) A -> exists f0, forall fuel, (f0 <= fuel)%nat ->
    kyber_dec ad1 ad2 fuel p ct sk = Some (0, KEM_Decaps (kk p) (keta1 p) (kdu p) (kdv p) A sk ct).
  Proof.
    intros A HA. destruct sk_shape as (P1 & P2 & _). destruct (ek_good p (sk_pk p sk) P1 P2) as [R1 R2]. assert (K : (1 <= kk p <= 4)%nat) by apply Hp.
    destruct (gen_matrix_complete (kk p) _ ltac:(lia) R1 R2 A HA) as [f0 F]. exists f0. intros fuel Hf. specialize (F fuel Hf true). cbv iota in F.
    destruct (dec_cases fuel) as [[N _]|(A' & HA' & _ & N)]; [rewrite N in F; discriminate|].
    rewrite (is_matrix_unique (kk p) _ A A' HA HA'). exact N.
  Qed.
End Dec.
