(** Deciding [low_noise] for a given seed and message by computation: the specification's error term with the
    transforms and the hash functions computed by the model (they are equal by the theorems). Used for the
    Examples only. *)
From Verif Require Import Bytes ZUtil Words Sha3Model KeccakBytes HashIface Fips202 PolyRing NttSim
  KyberModel KyberSpec KyberArith KyberNtt KyberNttModel KyberCodec KyberSample KyberVec KyberPke KyberKem KyberNoise KyberKexProof KyberVectors KyberKat.
Import ListNotations.

Definition Rq_b (f : list Z) : bool := (length f =? 256)%nat && forallb (fun x => (0 <=? x) && (x <? q)) f.
Lemma Rq_b_ok : forall f, Rq_b f = true -> polyw 3328 f.
Proof.
  intros f H. unfold Rq_b in H. apply andb_prop in H. destruct H as [H1 H2]. apply Nat.eqb_eq in H1. split; auto.
  rewrite forallb_forall in H2. apply Forall_forall. intros x Hx. specialize (H2 x Hx). apply andb_prop in H2. unfold q in H2. lia.
Qed.
Definition fNTT (f : list Z) : list Z := if Rq_b f then M q (kyber_ntt f) else NTT f.
Lemma fNTT_ok : forall f, fNTT f = NTT f.
Proof. intros f. unfold fNTT. destruct (Rq_b f) eqn:E; auto. apply kyber_ntt_ok. apply Rq_b_ok; auto. Qed.
Definition fNTTinv (g : list Z) : list Z := if Rq_b g then M q (pscale 169 (kyber_invntt g)) else NTTinv g.
Lemma fNTTinv_ok : forall f, fNTTinv f = NTTinv f.
Proof.
  intros f. unfold fNTTinv. destruct (Rq_b f) eqn:E; auto. apply Rq_b_ok in E.
  assert (W : polyw 16383 f). { destruct E as [L W]. split; auto. eapply Forall_impl; [|exact W]. cbv beta. intros. lia. }
  destruct (kyber_invntt_ok f W) as [H _]. clear E W.
  assert (X : M q (pscale 169 (kyber_invntt f)) = M q (pscale 169 (M q (pscale 65536 (NTTinv f))))).
  { rewrite <- H. unfold M, pscale. rewrite !map_map. apply map_ext. intros x. rewrite (Z.mul_mod 169 (x mod q)), Z.mod_mod, <- Z.mul_mod by (unfold q; lia). reflexivity. }
  rewrite X. rewrite pscale_M2, pscale_1 by reflexivity. apply M_NTTinv.
Qed.
Definition fCBD (eta : nat) (s : list Z) (n : nat) : list Z := M q (poly_getnoise eta s n).
Definition fnoisev (k eta : nat) (s : list Z) (st : nat) : list (list Z) := map (fun i => fCBD eta s (st + i)) (seq 0 k).
Lemma fnoisev_ok : forall k eta s st, In eta [2%nat; 3%nat] -> bytes s -> length s = 32%nat -> (st + k <= 8)%nat -> fnoisev k eta s st = noise k eta s st.
Proof.
  intros k eta s st He Hs L H. unfold fnoisev, noise. apply map_ext_in. intros i Hi. apply in_seq in Hi. apply (getnoise_ok eta s (st + i)); auto. lia.
Qed.
Definition fnoise (k eta1 du dv : nat) (A : list (list (list Z))) (sigma m r : list Z) : list Z :=
  let s := fnoisev k eta1 sigma 0 in
  let e := fnoisev k eta1 sigma k in
  let y := fnoisev k eta1 r 0 in
  let e1 := fnoisev k 2 r k in
  let e2 := fCBD 2 r (2 * k) in
  let t := vadd k (map (fun row => dotNTT row (map fNTT s)) A) (map fNTT e) in
  let yh := map fNTT y in
  let u := vadd k (map (fun row => fNTTinv (dotNTT row yh)) (transpose k A)) e1 in
  let v := Radd (Radd (fNTTinv (dotNTT t yh)) e2) (map (Decompress 1) (ByteDecode 1 m)) in
  let sh := map fNTT s in
  let eh := map fNTT e in
  Rsub (Radd (Radd (fNTTinv (dotNTT eh yh)) e2) (rounding dv v)) (fNTTinv (dotNTT sh (map fNTT (vadd k e1 (map (rounding du) u))))).
Lemma fnoise_ok : forall k eta1 du dv A d m r, In eta1 [2%nat; 3%nat] -> (1 <= k <= 4)%nat -> bytes d -> bytes r -> length r = 32%nat ->
  fnoise k eta1 du dv A (KPKE_sigma k d) m r = KPKE_noise k eta1 du dv A d m r.
Proof.
  intros k eta1 du dv A d m r He Hk Hd Hr Lr. unfold fnoise, KPKE_noise. cbv zeta.
  assert (R := rho_ok k d ltac:(lia) Hd). destruct R as (_ & _ & S1 & S2). set (sg := KPKE_sigma k d) in *. clearbody sg.
  assert (H2 : In 2%nat [2%nat; 3%nat]) by (left; reflexivity).
  rewrite !(fnoisev_ok k) by (auto; lia).
  assert (E2 : fCBD 2 r (2 * k) = SamplePolyCBD 2 (PRF 2 r (2 * k))) by (apply (getnoise_ok 2 r (2 * k)); auto; lia).
  rewrite E2. rewrite !(map_ext fNTT NTT fNTT_ok). rewrite fNTTinv_ok.
  rewrite (map_ext (fun row => fNTTinv (dotNTT row (map NTT (noise k eta1 r 0)))) (fun row => NTTinv (dotNTT row (map NTT (noise k eta1 r 0))))) by (intros; apply fNTTinv_ok).
  destruct (v256_noise k eta1 sg 0) as [V1 L1], (v256_noise k eta1 sg k) as [V2 L2], (v256_noise k eta1 r 0) as [V3 L3], (v256_noise k 2 r k) as [V4 L4].
  rewrite !fNTTinv_ok.
  rewrite (NTTinv_dot (noise k eta1 sg k) (noise k eta1 r 0)) by (first [congruence | assumption]).
  rewrite NTTinv_dot; [reflexivity| | |].
  - rewrite L1. symmetry. unfold vadd. rewrite map_length, seq_length. reflexivity.
  - exact V1.
  - assert (LT : forall (B : list (list (list Z))) (g : list (list Z) -> list Z), length (map g (transpose k B)) = k) by (intros; rewrite map_length; unfold transpose; rewrite map_length; apply seq_length).
    assert (LV : forall a b, length (vadd k a b) = k) by (intros; unfold vadd; rewrite map_length; apply seq_length).
    assert (VI : forall (B : list (list (list Z))) z, v256 (map (fun row => NTTinv (dotNTT row z)) B)) by (intros B z; apply Forall_forall; intros x Hx; apply in_map_iff in Hx; destruct Hx as (row & <- & _); apply length_NTTinv).
    apply v256_vadd; [exact L4|rewrite map_length; apply LV|exact V4|].
    assert (VU : v256 (vadd k (map (fun row => NTTinv (dotNTT row (map NTT (noise k eta1 r 0)))) (transpose k A)) (noise k 2 r k))).
    { apply v256_vadd; [apply LT|exact L4|apply VI|exact V4]. }
    apply Forall_forall. intros x Hx. apply in_map_iff in Hx. destruct Hx as (y & <- & Hy). unfold v256 in VU. rewrite Forall_forall in VU. specialize (VU y Hy).
    unfold rounding. apply length_Rsub; [rewrite map_length|]; exact VU.
Qed.
Definition low_noise_b (fuel : nat) (p : kparams) (d m pk : list Z) : bool :=
  let g := k_sha3_512 [d ++ [Z.of_nat (kk p)]] in
  match gen_matrix fuel (kk p) (firstn 32 g) false with
  | Some A => forallb (fun x => (-831 <=? cmod x) && (cmod x <=? 831))
      (fnoise (kk p) (keta1 p) (kdu p) (kdv p) A (skipn 32 g) m (skipn 32 (k_sha3_512 [m ++ k_sha3_256 [pk]])))
  | None => false end.
Lemma low_noise_b_ok : forall fuel f1 p seed m pk sk, kok p -> bytes seed -> length seed = 64%nat -> bytes m -> length m = 32%nat ->
  kyber_keypair_from_seed f1 p seed = Some (0, pk, sk) -> low_noise_b fuel p (firstn 32 seed) m pk = true -> low_noise p (firstn 32 seed) m.
Proof.
  intros fuel f1 p seed m pk sk Hp Hs Ls Hm Lm HK HB A HA.
  destruct (keypair_shape p seed f1 pk sk Hp Hs Ls HK) as (A' & HA' & Epk & _ & _ & _ & _ & _ & _ & Bpk & Lpk & _).
  rewrite <- (is_matrix_unique _ _ A A' HA HA') in Epk.
  rewrite <- Epk.
  destruct (d_ok seed Hs Ls) as [D1 D2]. set (d := firstn 32 seed) in *. clearbody d. destruct (kk_lt p Hp) as [K1 K2].
  assert (BD : bytes (d ++ [Z.of_nat (kk p)])). { apply bytes_app; auto. constructor. unfold byte; lia. constructor. }
  unfold low_noise_b in HB. cbv zeta in HB. rewrite sha512_1 in HB; auto. 2: { rewrite app_length, D2. cbn. lia. }
  assert (PS : Z.of_nat (pkbytes p) < 2 ^ 64) by (unfold pkbytes; lia). rewrite sha256_1 in HB; auto. 2: { rewrite Lpk. exact PS. }
  destruct (Hh_ok pk Bpk) as [H1 H2]. assert (BM : bytes (m ++ Hh pk)) by (apply bytes_app; auto).
  rewrite sha512_1 in HB; auto. 2: { rewrite app_length, Lm, H2. cbn. lia. }
  destruct (Gh_ok _ BM) as [G1 G2].
  assert (R := rho_ok (kk p) d ltac:(lia) D1). destruct R as (R1 & R2 & R3 & R4). unfold KPKE_rho in R1, R2, HA.
  destruct (gen_matrix fuel (kk p) (firstn 32 (Gh (d ++ [Z.of_nat (kk p)]))) false) as [T|] eqn:EG; [|discriminate].
  destruct (gen_matrix_sound (kk p) _ ltac:(lia) R1 R2 fuel false T EG) as (A1 & HA1 & ET). subst T.
  rewrite <- (is_matrix_unique _ _ A A1 HA HA1) in HB.
  assert (F := fnoise_ok (kk p) (keta1 p) (kdu p) (kdv p) A d m (skipn 32 (Gh (m ++ Hh pk)))).
  unfold KPKE_sigma in F. rewrite F in HB. clear F.
  - rewrite forallb_forall in HB. apply Forall_forall. intros x Hx. specialize (HB x Hx). apply andb_prop in HB. lia.
  - apply Hp.
  - lia.
  - exact D1.
  - apply bytes_skipn; auto.
  - rewrite skipn_length, G2. reflexivity.
Qed.
(** the seed and message of the ML-KEM-512 vector have low noise *)
Lemma v512_low_noise_b : low_noise_b 3 kyber512 (firstn 32 v_seed) v_m v512_pk = true.
Proof. vm_cast_no_check (eq_refl true). Qed.
Lemma kok512 : kok kyber512.
Proof. apply kyber_kok. left. reflexivity. Qed.
Lemma v512_low_noise : low_noise kyber512 (firstn 32 v_seed) v_m.
Proof.
  destruct kat512_shape as (S1 & S2 & S3 & S4 & _).
  exact (low_noise_b_ok 3 3 kyber512 v_seed v_m v512_pk v512_sk kok512 S1 S2 S3 S4 kat512_key v512_low_noise_b).
Qed.
(** so decapsulation of the vector follows from the theorem *)
Lemma kat512_dec : kyber_dec 0 0 3 kyber512 v512_ct v512_sk = Some (0, v512_ss).
Proof.
  destruct kat512_shape as (S1 & S2 & S3 & S4 & _).
  exact (kem_agree 0 0 kyber512 v_seed v_m 3 3 v512_pk v512_sk v512_ct v512_ss kok512 S1 S2 S3 S4 v512_low_noise kat512_key kat512_enc).
Qed.
