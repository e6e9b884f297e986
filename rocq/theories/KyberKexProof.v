(** Encapsulation and decapsulation agree; so do the parties of the key exchanges. *)
From Verif Require Import Bytes ZUtil Words Sha3Model KeccakBytes HashIface KmacSpec KmacModel KmacProof UtilModel UtilProof Fips202 PolyRing KyberModel KyberSpec KyberArith
  KyberNtt KyberNttModel KyberCodec KyberCodec2 KyberSample KyberVec KyberPke KyberKem KyberNoise KyberKexModel.
Import ListNotations.

Theorem kem_pke_agree : forall ad1 ad2 p fuel sk m ct ss, kok p -> bytes sk -> length sk = skbytes p ->
  sk_hpk p sk = Hh (sk_pk p sk) -> bytes m -> length m = 32%nat ->
  kyber_enc ad1 ad2 fuel p (sk_pk p sk) m = Some (0, ct, ss) ->
  KPKE_Decrypt (kk p) (kdu p) (kdv p) (firstn (cpaskbytes p) sk) ct = m ->
  kyber_dec ad1 ad2 fuel p ct sk = Some (0, ss).
Proof.
  intros ad1 ad2 p fuel sk m ct ss Hp Hsk Lsk Hhash Hm Lm HE HD.
  destruct (sk_shape p sk (zeros (ctbytes p)) Hsk Lsk (length_zeros _)) as (P1 & P2 & H1 & H2 & _).
  unfold kyber_enc in HE. destruct (kr_ok p (sk_pk p sk) Hp P1 P2 m Hm Lm) as (E & G1 & G2). rewrite E in HE.
  assert (K1 : bytes (skipn 32 (Gh (m ++ Hh (sk_pk p sk))))) by (apply bytes_skipn; auto).
  assert (K2 : length (skipn 32 (Gh (m ++ Hh (sk_pk p sk)))) = 32%nat) by (rewrite skipn_length, G2; reflexivity).
  destruct (ienc_cases ad1 ad2 p (sk_pk p sk) Hp P1 P2 fuel m _ Hm Lm K1 K2) as [[_ N]|(A & HA & GA & N)]; rewrite N in HE; [discriminate|].
  cbn [Z.eqb] in HE.
  assert (EC : KPKE_Encrypt (kk p) (keta1 p) (kdu p) (kdv p) A (sk_pk p sk) m (skipn 32 (Gh (m ++ Hh (sk_pk p sk)))) = ct) by congruence.
  assert (ES : firstn 32 (Gh (m ++ Hh (sk_pk p sk))) = ss) by congruence. clear HE N.
  destruct (Encrypt_shape (kk p) (keta1 p) (kdu p) (kdv p) A (sk_pk p sk) m (skipn 32 (Gh (m ++ Hh (sk_pk p sk))))) as [C1 C2].
  rewrite EC in C1, C2.
  destruct (dec_cases ad1 ad2 p sk ct Hp Hsk Lsk C1 C2 Hhash fuel) as [[N _]|(A' & HA' & _ & N)]; [rewrite N in GA; discriminate|].
  rewrite N. apply f_equal. apply f_equal. rewrite <- (is_matrix_unique (kk p) _ A A' HA HA').
  rewrite (decaps_eq p sk ct Lsk C2). cbv zeta. rewrite HD, Hhash, EC, ES. destruct (list_eq_dec Z.eq_dec ct ct); [reflexivity|contradiction].
Qed.

(** the noise of the encapsulation of m under the key of the seed d is below q/4 *)
Definition low_noise (p : kparams) (d m : list Z) : Prop :=
  forall A, is_matrix (kk p) (KPKE_rho (kk p) d) A ->
  Forall (fun x => -831 <= cmod x <= 831)
    (KPKE_noise (kk p) (keta1 p) (kdu p) (kdv p) A d m
       (skipn 32 (Gh (m ++ Hh (fst (KPKE_KeyGen (kk p) (keta1 p) A d)))))).

Lemma keypair_shape : forall p seed fuel pk sk, kok p -> bytes seed -> length seed = 64%nat ->
  kyber_keypair_from_seed fuel p seed = Some (0, pk, sk) ->
  exists A, is_matrix (kk p) (KPKE_rho (kk p) (firstn 32 seed)) A /\
    pk = fst (KPKE_KeyGen (kk p) (keta1 p) A (firstn 32 seed)) /\
    sk = snd (KPKE_KeyGen (kk p) (keta1 p) A (firstn 32 seed)) ++ pk ++ Hh pk ++ skipn 32 seed /\
    bytes sk /\ length sk = skbytes p /\ sk_pk p sk = pk /\ sk_hpk p sk = Hh pk /\
    firstn (cpaskbytes p) sk = snd (KPKE_KeyGen (kk p) (keta1 p) A (firstn 32 seed)) /\
    bytes pk /\ length pk = pkbytes p /\ ek_rho (kk p) pk = KPKE_rho (kk p) (firstn 32 seed).
Proof.
  intros p seed fuel pk sk Hp Hs Ls H.
  destruct (keypair_sound p seed Hp Hs Ls fuel _ H) as (A & HA & E).
  exists A. split; auto.
  assert (LA : length A = kk p) by apply HA. destruct (d_ok seed Hs Ls) as [D1 D2]. destruct (kk_lt p Hp) as [K1 K2].
  assert (SH := KeyGen_shape (kk p) (keta1 p) A (firstn 32 seed) ltac:(lia) D1 LA).
  unfold KEM_KeyGen in E.
  assert (LZ : length (skipn 32 seed) = 32%nat) by (rewrite skipn_length, Ls; reflexivity).
  assert (BZ : bytes (skipn 32 seed)) by (apply bytes_skipn; auto).
  assert (R0 : ek_rho (kk p) (fst (KPKE_KeyGen (kk p) (keta1 p) A (firstn 32 seed))) = KPKE_rho (kk p) (firstn 32 seed)).
  { unfold KPKE_KeyGen, ek_rho. cbv zeta. cbn [fst]. rewrite skipn_app, skipn_all2; [cbn [app]|].
    - match goal with |- skipn ?n ?l = _ => replace n with 0%nat; [apply skipn_O|] end. rewrite (flat_len _ _ 384) by (intros; unfold ByteEncode; rewrite map_length; apply seq_length).
      rewrite length_vadd. lia.
    - rewrite (flat_len _ _ 384) by (intros; unfold ByteEncode; rewrite map_length; apply seq_length). rewrite length_vadd. lia. }
  destruct (KPKE_KeyGen (kk p) (keta1 p) A (firstn 32 seed)) as [ek dk] eqn:KG. cbn [fst snd] in *.
  destruct SH as (B1 & L1 & B2 & L2). assert (pk = ek) by congruence. assert (sk = dk ++ ek ++ Hh ek ++ skipn 32 seed) by congruence. subst pk sk.
  destruct (Hh_ok ek B1) as [HB HL].
  split; auto. split; auto. split. { repeat apply bytes_app; auto. }
  split. { rewrite !app_length, L1, L2, HL, LZ. unfold skbytes, cpaskbytes, pkbytes. lia. }
  split. { unfold sk_pk, slice, cpaskbytes, pkbytes. rewrite skipn_app, skipn_all2, L2, Nat.sub_diag by lia. cbn [app]. rewrite skipn_O.
    rewrite firstn_app, L1, Nat.sub_diag, <- L1, firstn_all. cbn [firstn]. apply app_nil_r. }
  split. { unfold sk_hpk, slice, skbytes, cpaskbytes, pkbytes. rewrite app_assoc, skipn_app, skipn_all2 by (rewrite app_length; lia).
    rewrite app_length, L1, L2. cbn [app]. replace (_ - _)%nat with 0%nat by lia. rewrite skipn_O, firstn_app, HL, Nat.sub_diag, <- HL, firstn_all. cbn [firstn]. apply app_nil_r. }
  split. { unfold cpaskbytes. rewrite firstn_app, L2, Nat.sub_diag, <- L2, firstn_all. cbn [firstn]. apply app_nil_r. }
  split; auto.
Qed.

Theorem kem_agree : forall ad1 ad2 p seed m f1 f2 pk sk ct ss, kok p -> bytes seed -> length seed = 64%nat -> bytes m -> length m = 32%nat ->
  low_noise p (firstn 32 seed) m ->
  kyber_keypair_from_seed f1 p seed = Some (0, pk, sk) ->
  kyber_enc ad1 ad2 f2 p pk m = Some (0, ct, ss) ->
  kyber_dec ad1 ad2 f2 p ct sk = Some (0, ss).
Proof.
  intros ad1 ad2 p seed m f1 f2 pk sk ct ss Hp Hs Ls Hm Lm HN HK HE.
  destruct (keypair_shape p seed f1 pk sk Hp Hs Ls HK) as (A & HA & Epk & Esk & Bsk & Lsk & S1 & S2 & S3 & B1 & L1 & R0).
  destruct (enc_sound ad1 ad2 p pk Hp B1 L1 f2 m _ Hm Lm HE) as (A' & HA' & E'). rewrite R0 in HA'.
  rewrite <- (is_matrix_unique (kk p) _ A A' HA HA') in E'.
  apply (kem_pke_agree ad1 ad2 p f2 sk m ct ss Hp Bsk Lsk); auto.
  - rewrite S1. exact S2.
  - rewrite S1. exact HE.
  - rewrite S3. assert (Ec : ct = KPKE_Encrypt (kk p) (keta1 p) (kdu p) (kdv p) A pk m (skipn 32 (Gh (m ++ Hh pk)))) by (unfold KEM_Encaps in E'; cbn [fst snd] in E'; congruence).
    rewrite Ec. rewrite Epk at 1. destruct Hp as (K1 & _ & Hdu & Hdv). apply pke_correct; auto.
    + lia.
    + apply HA.
    + apply Forall_forall. intros row Hr. destruct (In_nth _ _ [] Hr) as (i & Hi & <-). destruct HA as [LA HA]. apply HA. lia.
    + specialize (HN A HA). rewrite <- Epk in HN. exact HN.
Qed.

(** ** key exchange *)
Section Kex.
  Variables (ad1 ad2 : Z) (fuel : nat) (p : kparams).
  Hypothesis Hp : kok p.
  Notation r_enc := (r_enc ad1 ad2 fuel p).
  Notation r_dec := (r_dec ad1 ad2 fuel p).
  Notation r_keypair := (r_keypair fuel p).
  Lemma rbind_inv : forall (A B : Type) (x : res A) (f : A -> res B) b, rbind x f = rret b -> exists a r, x = Some (r, Some a) /\ f a = rret b.
  Proof. intros A B [[r [a|]]|] f b H; cbn in H; try discriminate. exists a, r. auto. Qed.
  Lemma r_enc_inv : forall pk m r x, r_enc pk m = Some (r, Some x) -> kyber_enc ad1 ad2 fuel p pk m = Some (0, fst x, snd x).
  Proof.
    intros pk m r x H. unfold KyberKexModel.r_enc in H. destruct (kyber_enc ad1 ad2 fuel p pk m) as [[[z ct] ss]|]; [|discriminate].
    destruct (Z.eqb_spec z 0); [|discriminate]. unfold rret in H. assert ((ct, ss) = x) by congruence. subst. reflexivity.
  Qed.
  Lemma r_keypair_inv : forall seed r x, r_keypair seed = Some (r, Some x) -> kyber_keypair_from_seed fuel p seed = Some (0, fst x, snd x).
  Proof.
    intros seed r x H. unfold KyberKexModel.r_keypair in H. destruct (kyber_keypair_from_seed fuel p seed) as [[[z ct] ss]|]; [|discriminate].
    destruct (Z.eqb_spec z 0); [|discriminate]. unfold rret in H. assert ((ct, ss) = x) by congruence. subst. reflexivity.
  Qed.
  Lemma r_dec_at : forall ct sk ss, kyber_dec ad1 ad2 fuel p ct sk = Some (0, ss) -> r_dec ct sk = rret ss.
  Proof. intros ct sk ss H. unfold KyberKexModel.r_dec. rewrite H. reflexivity. Qed.
  Lemma r_dec_inv : forall ct sk r ss, r_dec ct sk = Some (r, Some ss) -> kyber_dec ad1 ad2 fuel p ct sk = Some (0, ss).
  Proof.
    intros ct sk r ss H. unfold KyberKexModel.r_dec in H. destruct (kyber_dec ad1 ad2 fuel p ct sk) as [[z s]|]; [|discriminate].
    destruct (Z.eqb_spec z 0); [|discriminate]. unfold rret in H. assert (s = ss) by congruence. subst. reflexivity.
  Qed.
  (** 32 bytes of randomness, 64 bytes of seed *)
  Definition rnd32 (m : list Z) : Prop := bytes m /\ length m = 32%nat.
  Definition rnd64 (m : list Z) : Prop := bytes m /\ length m = 64%nat.
  Lemma agree_at : forall seed f0 pk sk m r x, rnd64 seed -> rnd32 m -> low_noise p (firstn 32 seed) m ->
    kyber_keypair_from_seed f0 p seed = Some (0, pk, sk) -> r_enc pk m = Some (r, Some x) -> r_dec (fst x) sk = rret (snd x).
  Proof.
    intros seed f0 pk sk m r x [H1 H2] [H3 H4] HN HK HE. apply r_enc_inv in HE. apply r_dec_at.
    exact (kem_agree ad1 ad2 p seed m f0 fuel pk sk (fst x) (snd x) Hp H1 H2 H3 H4 HN HK HE).
  Qed.

  Theorem uake_agree : forall n nonce seed_r f_r pk_r sk_r seed_e m_i m_r pk_e ct_i tk sk_e ct_r ss_r,
    rnd64 seed_r -> rnd64 seed_e -> rnd32 m_i -> rnd32 m_r ->
    low_noise p (firstn 32 seed_r) m_i -> low_noise p (firstn 32 seed_e) m_r ->
    kyber_keypair_from_seed f_r p seed_r = Some (0, pk_r, sk_r) ->
    kex_initiator_init ad1 ad2 fuel p seed_e m_i pk_r = rret (pk_e, ct_i, tk, sk_e) ->
    kex_uake_responder_ss ad1 ad2 fuel p n nonce pk_e ct_i sk_r m_r = rret (ct_r, ss_r) ->
    kex_uake_initiator_ss ad1 ad2 fuel p n nonce ct_r tk sk_e = rret ss_r.
  Proof.
    intros n nonce seed_r f_r pk_r sk_r seed_e m_i m_r pk_e ct_i tk sk_e ct_r ss_r Sr Se Mi Mr N1 N2 HK HI HR.
    unfold kex_initiator_init in HI. apply rbind_inv in HI. destruct HI as ([pke ske] & r1 & K1 & HI). apply r_keypair_inv in K1. cbn [fst snd] in K1.
    apply rbind_inv in HI. destruct HI as ([cti tki] & r2 & E1 & HI). unfold rret in HI.
    assert (pke = pk_e /\ cti = ct_i /\ tki = tk /\ ske = sk_e) as (-> & -> & -> & ->) by (repeat split; congruence). clear HI.
    unfold kex_uake_responder_ss in HR. apply rbind_inv in HR. destruct HR as ([ctr ss0] & r3 & E2 & HR).
    apply rbind_inv in HR. destruct HR as (ss1 & r4 & D1 & HR).
    pose proof (agree_at seed_r f_r pk_r sk_r m_i _ _ Sr Mi N1 HK E1) as A1. cbn [fst snd] in A1.
    pose proof (agree_at seed_e fuel pk_e sk_e m_r _ _ Se Mr N2 K1 E2) as A2. cbn [fst snd] in A2.
    unfold rret in HR, A1. assert (ss1 = tk) by congruence. subst ss1. assert (ctr = ct_r) by congruence. subst ctr.
    unfold kex_uake_initiator_ss. rewrite A2. unfold rret, rbind. congruence.
  Qed.
  Theorem ake_agree : forall n nonce seed_r f_r pk_r sk_r seed_i f_i pk_i sk_i seed_e m_i m1 m2 pk_e ct_i tk sk_e c1 c2 ss_r,
    rnd64 seed_r -> rnd64 seed_i -> rnd64 seed_e -> rnd32 m_i -> rnd32 m1 -> rnd32 m2 ->
    low_noise p (firstn 32 seed_r) m_i -> low_noise p (firstn 32 seed_e) m1 -> low_noise p (firstn 32 seed_i) m2 ->
    kyber_keypair_from_seed f_r p seed_r = Some (0, pk_r, sk_r) ->
    kyber_keypair_from_seed f_i p seed_i = Some (0, pk_i, sk_i) ->
    kex_initiator_init ad1 ad2 fuel p seed_e m_i pk_r = rret (pk_e, ct_i, tk, sk_e) ->
    kex_ake_responder_ss ad1 ad2 fuel p n nonce pk_e ct_i sk_r pk_i m1 m2 = rret (c1, c2, ss_r) ->
    kex_ake_initiator_ss ad1 ad2 fuel p n nonce c1 c2 tk sk_e sk_i = rret ss_r.
  Proof.
    intros n nonce seed_r f_r pk_r sk_r seed_i f_i pk_i sk_i seed_e m_i m1 m2 pk_e ct_i tk sk_e c1 c2 ss_r Sr Si Se Mi M1 M2 N1 N2 N3 HK HK2 HI HR.
    unfold kex_initiator_init in HI. apply rbind_inv in HI. destruct HI as ([pke ske] & r1 & K1 & HI). apply r_keypair_inv in K1. cbn [fst snd] in K1.
    apply rbind_inv in HI. destruct HI as ([cti tki] & r2 & E1 & HI). unfold rret in HI.
    assert (pke = pk_e /\ cti = ct_i /\ tki = tk /\ ske = sk_e) as (-> & -> & -> & ->) by (repeat split; congruence). clear HI.
    unfold kex_ake_responder_ss in HR. apply rbind_inv in HR. destruct HR as ([ctr ss0] & r3 & E2 & HR).
    apply rbind_inv in HR. destruct HR as ([ctr2 ss1] & r5 & E3 & HR). apply rbind_inv in HR. destruct HR as (ss2 & r4 & D1 & HR).
    pose proof (agree_at seed_r f_r pk_r sk_r m_i _ _ Sr Mi N1 HK E1) as A1. cbn [fst snd] in A1.
    pose proof (agree_at seed_e fuel pk_e sk_e m1 _ _ Se M1 N2 K1 E2) as A2. cbn [fst snd] in A2.
    pose proof (agree_at seed_i f_i pk_i sk_i m2 _ _ Si M2 N3 HK2 E3) as A3. cbn [fst snd] in A3.
    unfold rret in HR, A1. assert (ss2 = tk) by congruence. subst ss2. assert (ctr = c1) by congruence. subst ctr. assert (ctr2 = c2) by congruence. subst ctr2.
    unfold kex_ake_initiator_ss. rewrite A2. cbn [rbind rret]. unfold rbind at 1. unfold rret at 1. rewrite A3. unfold rret, rbind. congruence.
  Qed.

  (** ** the hybrid *)
  Section X.
    Variable x_sk : list Z -> list Z.
    Variable x_pk : list Z -> list Z.
    Variable x_ss : list Z -> list Z -> Z * list Z.
    (** Diffie-Hellman: both sides compute the same *)
    Hypothesis x_dh : forall r1 r2, x_ss (x_pk (x_sk r1)) (x_sk r2) = x_ss (x_pk (x_sk r2)) (x_sk r1).
    Notation xkeypair := (xkeypair fuel p x_sk x_pk).
    Notation xenc := (xenc ad1 ad2 fuel p x_sk x_pk x_ss).
    Notation xdec := (xdec ad1 ad2 fuel p x_ss).
    Lemma xagree_at : forall f0 seed rx pk sk m rx' r x, rnd64 seed -> rnd32 m -> low_noise p (firstn 32 seed) m ->
      KyberKexModel.xkeypair f0 p x_sk x_pk seed rx = rret (pk, sk) -> xenc pk m rx' = Some (r, Some x) -> xdec (fst x) sk = rret (snd x).
    Proof.
      intros f0 seed rx pk sk m rx' r x Hs Hm HN HK HE.
      unfold KyberKexModel.xkeypair in HK. apply rbind_inv in HK. destruct HK as ([pk0 sk0] & r1 & K1 & HK).
      assert (K0 : kyber_keypair_from_seed f0 p seed = Some (0, pk0, sk0)).
      { unfold KyberKexModel.r_keypair in K1. destruct (kyber_keypair_from_seed f0 p seed) as [[[z a] b]|]; [|discriminate].
        destruct (Z.eqb_spec z 0); [|discriminate]. unfold rret in K1. congruence. }
      unfold rret in HK. assert (pk = (pk0, x_pk (x_sk rx))) by congruence. assert (sk = (sk0, x_sk rx)) by congruence. subst pk sk.
      unfold KyberKexModel.xenc in HE. cbn [fst snd] in HE.
      destruct (r_enc pk0 m) as [[r2 [[ct ss]|]]|] eqn:E; cbn [rbind] in HE; try discriminate.
      destruct (r_xss x_ss (x_pk (x_sk rx)) (x_sk rx')) as [[r3 [ssx|]]|] eqn:EX; cbn [rbind] in HE; try discriminate.
      unfold rret in HE. assert (x = (ct, x_pk (x_sk rx'), (ss, ssx))) by congruence. subst x. cbn [fst snd].
      pose proof (agree_at seed f0 pk0 sk0 m _ _ Hs Hm HN K0 E) as A. cbn [fst snd] in A.
      unfold KyberKexModel.xdec. cbn [fst snd]. rewrite A. unfold rret at 1, rbind at 1.
      unfold r_xss in EX |- *. rewrite x_dh in EX. destruct (x_ss (x_pk (x_sk rx')) (x_sk rx)) as [z s]. destruct (z =? 0); [|discriminate].
      unfold rret in EX. assert (s = ssx) by congruence. subst s. reflexivity.
    Qed.
    Theorem hybrid_kem_agree : forall f0 n seed rx pk sk m rx' ct ss, rnd64 seed -> rnd32 m -> low_noise p (firstn 32 seed) m ->
      KyberKexModel.xkeypair f0 p x_sk x_pk seed rx = rret (pk, sk) ->
      xenc_kdf ad1 ad2 fuel p x_sk x_pk x_ss n pk m rx' = rret (ct, ss) ->
      xdec_kdf ad1 ad2 fuel p x_ss n ct sk = rret ss.
    Proof.
      intros f0 n seed rx pk sk m rx' ct ss Hs Hm HN HK HE. unfold xenc_kdf in HE. apply rbind_inv in HE. destruct HE as ([ct0 ss0] & r & E & HE).
      unfold rret in HE. pose proof (xagree_at f0 seed rx pk sk m rx' _ _ Hs Hm HN HK E) as A. cbn [fst snd] in A.
      assert (ct0 = ct) by congruence. subst ct0. unfold xdec_kdf. rewrite A. unfold rret, rbind. congruence.
    Qed.
    Theorem hybrid_uake_agree : forall n nonce seed_r rx_r f_r pk_r sk_r seed_e rx_e m_i rx_i m_r rx_m pk_e ct_i tk sk_e ct_r ss_r,
      rnd64 seed_r -> rnd64 seed_e -> rnd32 m_i -> rnd32 m_r ->
      low_noise p (firstn 32 seed_r) m_i -> low_noise p (firstn 32 seed_e) m_r ->
      KyberKexModel.xkeypair f_r p x_sk x_pk seed_r rx_r = rret (pk_r, sk_r) ->
      xkex_initiator_init ad1 ad2 fuel p x_sk x_pk x_ss seed_e rx_e m_i rx_i pk_r = rret (pk_e, ct_i, tk, sk_e) ->
      xkex_uake_responder_ss ad1 ad2 fuel p x_sk x_pk x_ss n nonce pk_e ct_i sk_r m_r rx_m = rret (ct_r, ss_r) ->
      xkex_uake_initiator_ss ad1 ad2 fuel p x_ss n nonce ct_r tk sk_e = rret ss_r.
    Proof.
      intros n nonce seed_r rx_r f_r pk_r sk_r seed_e rx_e m_i rx_i m_r rx_m pk_e ct_i tk sk_e ct_r ss_r Sr Se Mi Mr N1 N2 HK HI HR.
      unfold xkex_initiator_init in HI. apply rbind_inv in HI. destruct HI as ([pke ske] & r1 & K1 & HI).
      apply rbind_inv in HI. destruct HI as ([cti tki] & r2 & E1 & HI). unfold rret in HI.
      assert (pke = pk_e /\ cti = ct_i /\ tki = tk /\ ske = sk_e) as (-> & -> & -> & ->) by (repeat split; congruence). clear HI.
      unfold xkex_uake_responder_ss in HR. apply rbind_inv in HR. destruct HR as ([ctr ss0] & r3 & E2 & HR).
      apply rbind_inv in HR. destruct HR as (ss1 & r4 & D1 & HR).
      assert (K1' : xkeypair seed_e rx_e = rret (pk_e, sk_e)).
      { unfold KyberKexModel.xkeypair in K1 |- *. destruct (r_keypair seed_e) as [[z [[a b]|]]|]; cbn [rbind] in K1 |- *; try discriminate. unfold rret in K1 |- *. congruence. }
      pose proof (xagree_at f_r seed_r rx_r pk_r sk_r m_i rx_i _ _ Sr Mi N1 HK E1) as A1. cbn [fst snd] in A1.
      pose proof (xagree_at fuel seed_e rx_e pk_e sk_e m_r rx_m _ _ Se Mr N2 K1' E2) as A2. cbn [fst snd] in A2.
      unfold rret in HR, A1. assert (ss1 = tk) by congruence. subst ss1. assert (ctr = ct_r) by congruence. subst ctr.
      unfold xkex_uake_initiator_ss. rewrite A2. unfold rret, rbind. congruence.
    Qed.
    Theorem hybrid_ake_agree : forall n nonce seed_r rx_r f_r pk_r sk_r seed_i rx_s f_i pk_i sk_i seed_e rx_e m_i rx_i m1 rx1 m2 rx2 pk_e ct_i tk sk_e c1 c2 ss_r,
      rnd64 seed_r -> rnd64 seed_i -> rnd64 seed_e -> rnd32 m_i -> rnd32 m1 -> rnd32 m2 ->
      low_noise p (firstn 32 seed_r) m_i -> low_noise p (firstn 32 seed_e) m1 -> low_noise p (firstn 32 seed_i) m2 ->
      KyberKexModel.xkeypair f_r p x_sk x_pk seed_r rx_r = rret (pk_r, sk_r) ->
      KyberKexModel.xkeypair f_i p x_sk x_pk seed_i rx_s = rret (pk_i, sk_i) ->
      xkex_initiator_init ad1 ad2 fuel p x_sk x_pk x_ss seed_e rx_e m_i rx_i pk_r = rret (pk_e, ct_i, tk, sk_e) ->
      xkex_ake_responder_ss ad1 ad2 fuel p x_sk x_pk x_ss n nonce pk_e ct_i sk_r pk_i m1 rx1 m2 rx2 = rret (c1, c2, ss_r) ->
      xkex_ake_initiator_ss ad1 ad2 fuel p x_ss n nonce c1 c2 tk sk_e sk_i = rret ss_r.
    Proof.
      intros n nonce seed_r rx_r f_r pk_r sk_r seed_i rx_s f_i pk_i sk_i seed_e rx_e m_i rx_i m1 rx1 m2 rx2 pk_e ct_i tk sk_e c1 c2 ss_r Sr Si Se Mi M1 M2 N1 N2 N3 HK HK2 HI HR.
      unfold xkex_initiator_init in HI. apply rbind_inv in HI. destruct HI as ([pke ske] & r1 & K1 & HI).
      apply rbind_inv in HI. destruct HI as ([cti tki] & r2 & E1 & HI). unfold rret in HI.
      assert (pke = pk_e /\ cti = ct_i /\ tki = tk /\ ske = sk_e) as (-> & -> & -> & ->) by (repeat split; congruence). clear HI.
      unfold xkex_ake_responder_ss in HR. apply rbind_inv in HR. destruct HR as ([ctr ss0] & r3 & E2 & HR).
      apply rbind_inv in HR. destruct HR as ([ctr2 ss1] & r5 & E3 & HR). apply rbind_inv in HR. destruct HR as (ss2 & r4 & D1 & HR).
      assert (K1' : xkeypair seed_e rx_e = rret (pk_e, sk_e)).
      { unfold KyberKexModel.xkeypair in K1 |- *. destruct (r_keypair seed_e) as [[z [[a b]|]]|]; cbn [rbind] in K1 |- *; try discriminate. unfold rret in K1 |- *. congruence. }
      pose proof (xagree_at f_r seed_r rx_r pk_r sk_r m_i rx_i _ _ Sr Mi N1 HK E1) as A1. cbn [fst snd] in A1.
      pose proof (xagree_at fuel seed_e rx_e pk_e sk_e m1 rx1 _ _ Se M1 N2 K1' E2) as A2. cbn [fst snd] in A2.
      pose proof (xagree_at f_i seed_i rx_s pk_i sk_i m2 rx2 _ _ Si M2 N3 HK2 E3) as A3. cbn [fst snd] in A3.
      unfold rret in HR, A1. assert (ss2 = tk) by congruence. subst ss2. assert (ctr = c1) by congruence. subst ctr. assert (ctr2 = c2) by congruence. subst ctr2.
      unfold xkex_ake_initiator_ss. rewrite A2. unfold rbind at 1. unfold rret at 1. rewrite A3. unfold rret, rbind. congruence.
    Qed.
  End X.

  (** ** IES *)
  Theorem ies_agree : forall (S : Type) setkey encrypt decrypt (s1 s2 : S) seed f0 pk sk m pt aad buf ct c t, rnd64 seed -> rnd32 m -> low_noise p (firstn 32 seed) m ->
    kyber_keypair_from_seed f0 p seed = Some (0, pk, sk) ->
    (forall key iv e1, length key = 32%nat -> length iv = 16%nat -> bytes key -> bytes iv -> setkey s1 key iv = (0, e1) ->
       exists e2, setkey s2 key iv = (0, e2) /\ decrypt e2 aad (snd (fst (encrypt e1 aad pt buf))) (snd (encrypt e1 aad pt buf)) = (0, pt)) ->
    (forall ss c', kyber_enc ad1 ad2 fuel p pk m = Some (0, c', ss) -> bytes (kyber_ss_kdf 48 c' ss) /\ length (kyber_ss_kdf 48 c' ss) = 48%nat) ->
    ies_enc ad1 ad2 fuel p S setkey encrypt s1 pk m pt aad buf = rret (ct, c, t) ->
    ies_dec ad1 ad2 fuel p S setkey decrypt s2 sk ct c aad t = rret pt.
  Proof.
    intros S setkey encrypt decrypt s1 s2 seed f0 pk sk m pt aad buf ct c t [H1 H2] [H3 H4] HN HK HA HKD HE.
    unfold ies_enc in HE. apply rbind_inv in HE. destruct HE as ([ct0 key] & r1 & E & HE).
    unfold r_enc_kdf, kyber_enc_kdf in E. destruct (kyber_enc ad1 ad2 fuel p pk m) as [[[z c0] ss]|] eqn:EN; [|discriminate].
    destruct (Z.eqb_spec z 0) as [->|]; [|destruct (Z.eqb_spec z 0); [contradiction|discriminate]]. cbn [Z.eqb] in E.
    specialize (HKD ss c0 eq_refl). destruct HKD as [KB KL].
    unfold rret in E. assert (c0 = ct0) by congruence. assert (key = kyber_ss_kdf 48 c0 ss) by congruence. subst c0. clear E.
    apply rbind_inv in HE. destruct HE as (e1 & r2 & SK & HE).
    unfold r_setkey in SK. destruct (setkey s1 (firstn 32 key) (skipn 32 key)) as [z e1'] eqn:S1. destruct (Z.eqb_spec z 0) as [->|]; [|discriminate].
    unfold rret in SK. assert (e1' = e1) by congruence. subst e1'.
    destruct (HA (firstn 32 key) (skipn 32 key) e1) as (e2 & S2 & DD); auto.
    { subst key. rewrite firstn_length, KL. reflexivity. } { subst key. rewrite skipn_length, KL. reflexivity. }
    { subst key. apply bytes_firstn; auto. } { subst key. apply bytes_skipn; auto. }
    destruct (encrypt e1 aad pt buf) as [[z1 c1] t1]. cbn [fst snd] in DD. unfold rret in HE.
    assert (ct0 = ct /\ c1 = c /\ t1 = t) as (-> & -> & ->) by (repeat split; congruence).
    unfold ies_dec, r_dec_kdf, kyber_dec_kdf.
    rewrite (kem_agree ad1 ad2 p seed m f0 fuel pk sk ct ss Hp H1 H2 H3 H4 HN HK EN). cbn [Z.eqb]. unfold rret at 1, rbind at 1.
    subst key. unfold r_setkey. rewrite S2. cbn [Z.eqb]. unfold rret at 1, rbind at 1. rewrite DD. reflexivity.
  Qed.
End Kex.
