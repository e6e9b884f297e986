(** Signing followed by verification, for ml-dsa/src: what sign returns verify accepts. *)
From Verif Require Import Bytes Words ZUtil Fips202 KeccakModel Sha3Model KeccakBytes Sha3Top DrbgProof KmacModel UtilModel UtilProof PolyRing NttSim KyberModel KyberSpec KyberNttModel KyberCodec2 KyberSample KyberVec
  DilithiumModel DilithiumSpec DilithiumArith DilithiumNtt DilithiumNttModel DilithiumCodec DilithiumHint DilithiumSample DilithiumRing DilithiumScheme DilithiumSign.
Require Import Lia.
Import ListNotations.
Opaque shake256_of d_poly_challenge d_ntt d_invntt d_pointwise d_vec_gamma1 d_matvec dNTTinv dNTT dMul d_reduce32 d_decompose d_chknorm.

(** ** signing, then verifying *)
Lemma pack_sig_facts : forall P ct z h, dset_in P -> bytes ct -> length ct = d_ct P -> z_range P z -> hint_vector (d_k P) (d_omega P) h ->
  bytes (d_pack_sig P ct z h) /\ length (d_pack_sig P ct z h) = sig_bytes P /\
  firstn (d_ct P) (d_pack_sig P ct z h) = ct /\ d_unpack_z P (d_pack_sig P ct z h) = z /\ d_unpack_h P (d_pack_sig P ct z h) = Some h.
Proof.
  intros P ct z h HP Bc Lc [Lz Rz] HV. pose proof (dset_omega P HP) as Ho. destruct (dset_g1 P HP) as (G & Zb & Z0 & Z2).
  assert (PZ : flat_map (d_polyz_pack (d_g1 P)) z = flat_map (BitPack (z_bits (d_g1 P)) (d_g1 P)) z).
  { rewrite !flat_map_concat_map. apply f_equal. apply map_ext_in. intros p Hp. rewrite Forall_forall in Rz. destruct (Rz p Hp) as [Lp Rp]. apply z_pack_ok; auto. }
  assert (B : bytes (d_pack_sig P ct z h)).
  { unfold d_pack_sig. rewrite PZ, pack_h_ok by auto. apply Forall_app. split; auto. apply Forall_app. split; [|apply (hint_bytes _ _ _ Ho HV)].
    apply Forall_flat_map, Forall_forall. intros; apply bytes_BitPack. }
  assert (L : length (d_pack_sig P ct z h) = sig_bytes P).
  { unfold d_pack_sig, sig_bytes. rewrite PZ, pack_h_ok, !app_length, (hint_len _ _ _ HV), Lc by auto.
    rewrite (length_flat _ (z_bytes P)) by (apply Forall_forall; intros; rewrite Zb; apply length_BitPack). lia. }
  pose proof (proj2 (unpack_sig_iff P _ ct z h HP B L) (conj Bc (conj Lc (conj (conj Lz Rz) (conj HV eq_refl))))) as X. unfold d_unpack_sig in X.
  destruct (d_unpack_h P (d_pack_sig P ct z h)) as [h'|]; [|discriminate].
  split; [exact B|]. split; [exact L|]. split; [congruence|]. split; congruence.
Qed.
Lemma loop_round : forall rounds fuel P A s1 s2 t0 mu rp nonce sg, d_sign_loop rounds fuel P A s1 s2 t0 mu rp nonce = Some sg ->
  exists n, d_sign_round fuel P A s1 s2 t0 mu rp n = Some (Some sg).
Proof.
  induction rounds as [|r IH]; intros fuel P A s1 s2 t0 mu rp nonce sg E; cbn [d_sign_loop] in E; [discriminate|].
  destruct (d_sign_round fuel P A s1 s2 t0 mu rp nonce) as [[s|]|] eqn:R; [| |discriminate].
  - exists nonce. congruence.
  - apply (IH _ _ _ _ _ _ _ _ _ _ E).
Qed.
(** a context whose matrix buffer is absent, or not expanded and large enough, or holds the matrix of the key *)
Definition cache_ok (P : dparam) (rho : list Z) (c : dctx) : Prop :=
  match x_ahat c with
  | None => True
  | Some a => if x_expanded c then exists f, d_matrix_expand f P rho = Some a else ahat_bytes P <= x_ahat_size c
  end.
Lemma sign_internal_mat : forall rounds fuel P sk c rng r sg c', cache_ok P (firstn 32 sk) c -> d_sign_internal rounds fuel P sk c rng = Some (r, sg, c') ->
  exists f A, d_matrix_expand f P (firstn 32 sk) = Some A /\ d_sign_internal_ahat rounds fuel P A sk (x_hash c) rng = Some (r, sg).
Proof.
  intros rounds fuel P sk c rng r sg c' H E. unfold d_sign_internal, cache_ok in *. destruct (x_ahat c) as [a|] eqn:Ea.
  - cbv zeta beta in E. destruct (x_expanded c).
    + destruct H as [f Hf]. exists f, a. split; auto. destruct (d_sign_internal_ahat rounds fuel P a sk (x_hash c) rng) as [[r' s']|]; [|discriminate]. congruence.
    + unfold d_expand in E. replace (x_ahat_size c <? ahat_bytes P) with false in E by (symmetry; apply Z.ltb_ge; lia).
      destruct (d_matrix_expand fuel P (firstn 32 sk)) as [m|] eqn:Em; [|discriminate]. cbn [Z.ltb Z.compare] in E. unfold set_ahat in E. cbn [x_ahat x_hash] in E.
      exists fuel, m. split; auto. destruct (d_sign_internal_ahat rounds fuel P m sk (x_hash c) rng) as [[r' s']|]; [|discriminate]. congruence.
  - destruct (d_matrix_expand fuel P (firstn 32 sk)) as [m|] eqn:Em; [|discriminate]. exists fuel, m. split; auto.
    destruct (d_sign_internal_ahat rounds fuel P m sk (x_hash c) rng) as [[r' s']|]; [|discriminate]. congruence.
Qed.
Lemma verify_internal_mat : forall ad1 ad2 P pk c A sg, cache_ok P (firstn 32 pk) c -> stable (fun f => d_matrix_expand f P (firstn 32 pk)) A ->
  (forall f r b c', d_verify_internal ad1 ad2 f P sg pk c = Some (r, b, c') -> d_verify_internal_ahat ad1 ad2 f P A sg pk (x_hash c) = Some (r, b)) /\
  (exists f0, forall f r b, (f0 <= f)%nat -> d_verify_internal_ahat ad1 ad2 f P A sg pk (x_hash c) = Some (r, b) -> exists c', d_verify_internal ad1 ad2 f P sg pk c = Some (r, b, c')).
Proof.
  intros ad1 ad2 P pk c A sg H [S1 [f0 S2]]. unfold d_verify_internal, cache_ok in *. destruct (x_ahat c) as [a|] eqn:Ea.
  - cbv zeta beta. destruct (x_expanded c).
    + destruct H as [f Hf]. apply S1 in Hf. subst a. split.
      * intros f' r b c' E. destruct (d_verify_internal_ahat ad1 ad2 f' P A sg pk (x_hash c)) as [[r' b']|]; [|discriminate]. congruence.
      * exists O. intros f' r b _ E. rewrite E. eauto.
    + unfold d_expand. replace (x_ahat_size c <? ahat_bytes P) with false by (symmetry; apply Z.ltb_ge; lia). split.
      * intros f r b c' E. destruct (d_matrix_expand f P (firstn 32 pk)) as [m|] eqn:Em; [|discriminate]. apply S1 in Em. subst m. cbn [Z.ltb Z.compare] in E. unfold set_ahat in E. cbn [x_ahat x_hash] in E.
        destruct (d_verify_internal_ahat ad1 ad2 f P A sg pk (x_hash c)) as [[r' b']|]; [|discriminate]. congruence.
      * exists f0. intros f r b Hf E. rewrite (S2 f Hf). cbn [Z.ltb Z.compare]. unfold set_ahat. cbn [x_ahat x_hash]. rewrite E. eauto.
  - split.
    + intros f r b c' E. destruct (d_matrix_expand f P (firstn 32 pk)) as [m|] eqn:Em; [|discriminate]. apply S1 in Em. subst m.
      destruct (d_verify_internal_ahat ad1 ad2 f P A sg pk (x_hash c)) as [[r' b']|]; [|discriminate]. congruence.
    + exists f0. intros f r b Hf E. rewrite (S2 f Hf), E. eauto.
Qed.
Lemma keypair_of_seed : forall fuel P seed pk sk, d_keypair_from_seed fuel P seed = Some (0, pk, sk) -> length seed = 32%nat /\ d_keypair fuel P seed = Some (pk, sk).
Proof.
  intros fuel P seed pk sk E. unfold d_keypair_from_seed in E. destruct (Nat.eqb_spec (length seed) 32) as [L|N]; cbn [negb] in E; [|discriminate].
  destruct (d_keypair fuel P seed) as [[p s]|]; [|discriminate]. split; auto. congruence.
Qed.
(** everything sign and verify need to know about an honest key pair *)
Definition honest (P : dparam) (pk sk : list Z) (A : list (list (list Z))) (s1 s2 t0 t1 : list (list Z)) : Prop :=
  (length A = d_k P /\ rows (d_l P) A /\ stable (fun f => d_matrix_expand f P (firstn 32 sk)) A) /\
  (length s1 = d_l P /\ Forall (polyw (d_eta P)) s1 /\ length s2 = d_k P /\ Forall (polyw (d_eta P)) s2) /\
  (length t0 = d_k P /\ Forall (fun p => length p = 256%nat /\ inr (-4095) 4096 p) t0 /\ length t1 = d_k P /\ Forall (fun p => length p = 256%nat /\ inr 0 1023 p) t1) /\
  (forall i, (i < d_k P)%nat -> dRadd (map (fun x => x * 2 ^ 13) (nth i t1 [])) (nth i t0 []) = dRadd (dNTTinv (ddot (nth i A []) (map dNTT s1))) (nth i s2 [])) /\
  (d_sk_s1 P sk = s1 /\ d_sk_s2 P sk = s2 /\ d_sk_t0 P sk = t0 /\ d_unpack_pk_t1 P pk = t1) /\
  (firstn 32 sk = firstn 32 pk /\ d_sk_tr sk = shake256_of [pk] 64 /\ bytes (d_sk_key sk) /\ length (d_sk_key sk) = 32%nat /\ bytes pk /\ length pk = (32 + 320 * d_k P)%nat).
Lemma keypair_honest : forall fuel P seed pk sk, dset_in P -> bytes seed -> d_keypair_from_seed fuel P seed = Some (0, pk, sk) ->
  exists A s1 s2 t0 t1, honest P pk sk A s1 s2 t0 t1.
Proof.
  intros fuel P seed pk sk HP B E. apply keypair_of_seed in E. destruct E as [L E].
  destruct (keypair_ok fuel P seed pk sk HP B L E) as (A & s1 & s2 & EA & E1 & E2 & Bs & Ls & LA & RA & L1 & L2 & W1 & W2 & Lt & Wt & Ep & Es).
  set (sb := shake256_of [seed; [Z.of_nat (d_k P); Z.of_nat (d_l P)]] 128) in *. clearbody sb.
  set (rho := slice sb 0 32) in *. set (key := slice sb 96 32) in *. set (t := dvec2 dRadd (map dNTTinv (dmatvec A (map dNTT s1))) s2) in *.
  assert (Brho : bytes rho) by (apply slice_bytes; auto). assert (Lrho : length rho = 32%nat) by (apply length_slice; lia).
  assert (Bkey : bytes key) by (apply slice_bytes; auto). assert (Lkey : length key = 32%nat) by (apply length_slice; lia).
  destruct (p2r_ranges t Wt) as (R1 & R0 & EQ).
  exists A, s1, s2, (v_p2r_low t), (v_p2r_high t).
  assert (Lt1 : length (v_p2r_high t) = d_k P) by (unfold v_p2r_high; rewrite map_length; auto).
  assert (Lt0 : length (v_p2r_low t) = d_k P) by (unfold v_p2r_low; rewrite map_length; auto).
  destruct (pk_bytes P rho (v_p2r_high t) Lrho Lt1 R1 Brho) as [Bp Lp]. rewrite <- Ep in Bp, Lp.
  assert (Htr : length (shake256_of [pk] 64) = 64%nat).
  { apply shake_facts. repeat constructor; auto. cbn [concat]. rewrite app_length, Lp. cbn [length]. destruct (dset_small P HP) as (Hk & _). lia. }
  destruct (matrix_sampled fuel P rho A HP Brho ltac:(lia) EA) as (_ & _ & SA).
  assert (F : firstn 32 sk = rho) by (rewrite Es; apply sk_rho_ok; auto).
  unfold honest. rewrite F. split; [auto|]. split; [auto|]. split; [auto|]. split.
  { intros i Hi. rewrite EQ by lia. unfold t. rewrite nth_dvec2 by (unfold dmatvec; rewrite ?map_length; lia). apply f_equal2; [|reflexivity].
    rewrite nth_map' by (unfold dmatvec; rewrite map_length; lia). apply f_equal. unfold dmatvec.
    rewrite (nth_indep _ [] (ddot [] (map dNTT s1))) by (rewrite map_length; lia). apply (map_nth (fun row => ddot row (map dNTT s1))). }
  split. { split; [rewrite Es; apply sk_s1_ok; auto|]. split; [rewrite Es; apply sk_s2_ok; auto|]. split; [rewrite Es; apply sk_t0_ok; auto|]. rewrite Ep. apply pk_t1_ok; auto. }
  split. { rewrite Ep. symmetry. apply pk_rho_ok; auto. }
  split. { rewrite Es. apply sk_tr_ok; auto. }
  assert (K : d_sk_key sk = key) by (rewrite Es; apply sk_key_ok; auto). rewrite K. auto.
Qed.
Definition rng_ok (rng : option (Z * list Z)) : Prop := match rng with None => True | Some (_, b) => bytes b /\ length b = 32%nat end.
Theorem internal_ok : forall P pk sk A s1 s2 t0 t1 mu rounds fuel cs cv rng sg cs' ad1 ad2, dset_in P -> honest P pk sk A s1 s2 t0 t1 ->
  bytes mu -> length mu = 64%nat -> fst (xof_read permB (x_hash cs) 64) = mu -> fst (xof_read permB (x_hash cv) 64) = mu -> rng_ok rng ->
  cache_ok P (firstn 32 sk) cs -> cache_ok P (firstn 32 pk) cv ->
  d_sign_internal rounds fuel P sk cs rng = Some (0, sg, cs') ->
  (forall f r b c', d_verify_internal ad1 ad2 f P sg pk cv = Some (r, b, c') -> r = 0) /\
  (exists f0, forall f, (f0 <= f)%nat -> exists c', d_verify_internal ad1 ad2 f P sg pk cv = Some (0, true, c')).
Proof.
  intros P pk sk A s1 s2 t0 t1 mu rounds fuel cs cv rng sg cs' ad1 ad2 HP HH Bm Lm Ms Mv Hr Cs Cv E.
  destruct HH as ((LA & RA & SA) & (L1 & W1 & L2 & W2) & (L0 & W0 & Lt1 & Wt1) & HK & (K1 & K2 & K0 & Kt) & (Kr & Ktr & Bk & Lk & Bp & Lp)).
  destruct (sign_internal_mat _ _ _ _ _ _ _ _ _ Cs E) as (f & A' & EA & ES). clear E. assert (A' = A) by (apply (proj1 SA f _ EA)). subst A'. clear EA.
  unfold d_sign_internal_ahat in ES. cbv zeta in ES. rewrite Ms, K1, K2, K0 in ES.
  destruct (match rng with Some (r, b) => (r, b) | None => (0, zeros 32) end) as [ret rnd] eqn:Er.
  assert (Hrnd : bytes rnd /\ length rnd = 32%nat).
  { destruct rng as [[r b]|]. { assert (b = rnd) by congruence. subst b. exact Hr. } assert (zeros 32 = rnd) by congruence. subst rnd. split. apply bytes_zeros'. reflexivity. }
  clear Er Hr. destruct Hrnd as [Brnd Lrnd].
  destruct (ret <? 0) eqn:Eret. { assert (ret = 0) by congruence. subst ret. discriminate Eret. } clear Eret.
  destruct (shake_facts [d_sk_key sk ++ rnd ++ mu] 64) as [Brp Lrp].
  { constructor; [|constructor]. apply Forall_app; split; auto. apply Forall_app; split; auto. }
  { cbn [concat]. rewrite !app_length, Lk, Lrnd, Lm. cbn [length]. lia. }
  set (rp := shake256_of [d_sk_key sk ++ rnd ++ mu] 64) in *. clearbody rp.
  destruct (d_sign_loop rounds fuel P A (v_ntt s1) (v_ntt s2) (v_ntt t0) mu rp 0) as [sg'|] eqn:EL; [|discriminate].
  assert (sg' = sg) by congruence. subst sg'. clear ES. apply loop_round in EL. destruct EL as [n EL].
  destruct (round_ok P HP A s1 s2 t0 t1 LA RA L1 W1 L2 W2 L0 W0 Lt1 Wt1 HK fuel mu rp n sg Bm Lm Brp Lrp EL) as (ct & c & z & hh & w1 & Bc & Lc & Ec & Ect & Esg & Rz & N1 & HV & UH).
  clear EL. destruct (pack_sig_facts P ct z hh HP Bc Lc Rz HV) as (_ & _ & F1 & F2 & F3). rewrite <- Esg in F1, F2, F3.
  pose proof (dset_small P HP) as (Hk & Hl & He & Ht & Hct & _).
  destruct (challenge_sampled fuel P ct c HP Bc ltac:(lia) Ec) as [_ [SC1 [fc SC2]]].
  assert (V : forall f, d_verify_internal_ahat ad1 ad2 f P A sg pk (x_hash cv) = match d_poly_challenge f P ct with None => None | Some _ => Some (0, true) end).
  { intro f'. unfold d_verify_internal_ahat. cbv zeta. rewrite F1, F2, F3, N1, Kt, Mv. destruct (d_poly_challenge f' P ct) as [c'|] eqn:Ec'; [|reflexivity].
    apply SC1 in Ec'. subst c'. rewrite UH, <- Ect. rewrite (proj2 (proj1 (memcmp_spec ad1 ct ad2 ct Bc Bc)) eq_refl). reflexivity. }
  rewrite <- Kr in Cv. rewrite Kr in SA, Cv. destruct (verify_internal_mat ad1 ad2 P pk cv A sg Cv SA) as [V1 [f0 V2]]. split.
  - intros f' r b c' E. apply V1 in E. rewrite V in E. destruct (d_poly_challenge f' P ct); [|discriminate]. congruence.
  - exists (Nat.max f0 fc). intros f' Hf. apply V2; [lia|]. rewrite V, SC2 by lia. reflexivity.
Qed.
Lemma domsep_facts : forall i p u m cat comp r b, bytes u -> bytes m -> signature_domain_separation i p u m cat comp = (r, b) -> 0 <= r ->
  bytes b /\ (length b <= length m + 600)%nat.
Proof.
  intros i p u m cat comp r b Bu Bm E Hr. unfold signature_domain_separation in E.
  assert (OID : forall o, signature_ph_oids p cat = Some o -> bytes o /\ (length o <= 11)%nat).
  { intros o Eo. destruct p as [[]|]; cbn in Eo; repeat (destruct (_ =? _) in Eo; cbn in Eo); try discriminate; assert (Ho := f_equal (fun x => match x with Some y => y | None => [] end) Eo); cbn in Ho; subst o; cbn; (split; [repeat constructor; unfold byte; lia|lia]). }
  assert (CMP : forall r x, composite_signature_domain_separation u cat = (r, x) -> 0 <= r -> bytes x /\ (length x <= 300)%nat).
  { intros r' x Ex Hr'. unfold composite_signature_domain_separation in Ex. destruct (Nat.ltb_spec 255 (length u)). { assert (r' = - EINVAL) by congruence. subst. discriminate Hr' || (unfold EINVAL in *; lia). }
    assert (BT : bytes ([u8 (Z.of_nat (length u))] ++ u)). { constructor; auto. unfold byte, u8. apply Z.mod_pos_bound. lia. }
    repeat (destruct (cat =? _) in Ex; [assert (Hx := f_equal snd Ex); cbn [snd] in Hx; subst x; split; [apply Forall_app; split; [repeat constructor; unfold byte; lia|exact BT]|rewrite !app_length; cbn [length composite_oid]; lia]|]).
    assert (r' = - EOPNOTSUPP) by congruence. subst. unfold EOPNOTSUPP in *; lia. }
  assert (OUT : forall ret h, bytes h -> (length h <= 300)%nat -> (let '(ret, h) := if comp then let '(r, x) := composite_signature_domain_separation u cat in (r, h ++ x) else (ret, h) in (ret, h ++ m)) = (r, b) -> bytes b /\ (length b <= length m + 600)%nat).
  { intros ret h Bh Lh Eo. destruct comp.
    - destruct (composite_signature_domain_separation u cat) as [r' x] eqn:Ec. assert (r' = r) by congruence. subst r'. destruct (CMP r x eq_refl Hr) as [Bx Lx].
      assert (b = (h ++ x) ++ m) by congruence. subst b. split. apply Forall_app; split; auto. apply Forall_app; split; auto. rewrite !app_length. lia.
    - assert (b = h ++ m) by congruence. subst b. split. apply Forall_app; split; auto. rewrite app_length. lia. }
  destruct i. { apply (OUT 0 []); auto. constructor. cbn; lia. }
  destruct (Nat.ltb_spec 255 (length u)). { assert (r = - EINVAL) by congruence. subst. unfold EINVAL in *; lia. }
  assert (BH : bytes ([match p with Some _ => 1 | None => 0 end; u8 (Z.of_nat (length u))] ++ u)).
  { constructor. destruct p; unfold byte; lia. constructor; auto. unfold byte, u8. apply Z.mod_pos_bound. lia. }
  cbv zeta in E. destruct (signature_ph_oids p cat) as [o|].
  - destruct (OID o eq_refl) as [Bo Lo]. apply (OUT 0 _ ltac:(apply Forall_app; split; [exact BH|exact Bo]) ltac:(rewrite !app_length; cbn [length]; lia) E).
  - apply (OUT (- EOPNOTSUPP) _ BH ltac:(rewrite app_length; cbn [length]; lia) E).
Qed.
(** two contexts with the same signature settings *)
Definition same_settings (c c' : dctx) : Prop :=
  x_internal c = x_internal c' /\ x_prehash c = x_prehash c' /\ x_userctx c = x_userctx c' /\ x_composite c = x_composite c'.
