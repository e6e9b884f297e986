(** More fuel does not change a result of the ML-DSA model; what a context with a matrix buffer does. *)
From Verif Require Import Bytes Words KeccakModel Sha3Model KeccakBytes UtilModel KyberModel DilithiumModel DilithiumScheme DilithiumVerify DilithiumApiModel.
Require Import Lia ZArith List. Open Scope Z_scope.
Import ListNotations.

Definition mono {A : Type} (f : nat -> option A) : Prop := forall n m a, f n = Some a -> (n <= m)%nat -> f m = Some a.
Section Mono.
  Variables (St : Type) (rd : St -> nat -> list Z * St).
  Lemma uniform_loop_mono : forall n m s u acc a, uniform_loop St rd n s u acc = Some a -> (n <= m)%nat -> uniform_loop St rd m s u acc = Some a.
  Proof.
    induction n as [|n IH]; intros m s u acc a E L; destruct m as [|m]; try lia; cbn [uniform_loop] in *; destruct (length acc <? 256)%nat; auto; try discriminate.
    destruct (rd s 168) as [o s']. apply IH; auto. lia.
  Qed.
  Lemma uniform_from_mono : forall s, mono (fun n => uniform_from St rd n s).
  Proof. intros s n m a E L. unfold uniform_from in *. destruct (rd s 840). eapply uniform_loop_mono; eauto. Qed.
  Lemma ch_byte_mono : forall n m i b p s a, ch_byte St rd n i b p s = Some a -> (n <= m)%nat -> ch_byte St rd m i b p s = Some a.
  Proof.
    induction n as [|n IH]; intros m i b p s a E L; [discriminate|]. destruct m as [|m]; [lia|]. cbn [ch_byte] in *.
    destruct (if (136 <=? p)%nat then let (o, s') := rd s 136 in (o, O, s') else (b, p, s)) as [[b' p'] s'].
    destruct (i <? Z.to_nat (nth p' b' 0%Z))%nat; auto. apply IH; auto. lia.
  Qed.
  Lemma ch_loop_mono : forall cnt n m i sg c st a, ch_loop St rd n cnt i sg c st = Some a -> (n <= m)%nat -> ch_loop St rd m cnt i sg c st = Some a.
  Proof.
    induction cnt as [|cnt IH]; intros n m i sg c [[b p] s] a E L; cbn [ch_loop] in *; auto.
    destruct (ch_byte St rd n i b p s) as [[v st']|] eqn:EB; [|discriminate]. rewrite (ch_byte_mono _ _ _ _ _ _ _ EB L). eapply IH; eauto.
  Qed.
  Lemma challenge_from_mono : forall tau s, mono (fun n => challenge_from St rd n tau s).
  Proof. intros tau s n m a E L. unfold challenge_from in *. destruct (rd s 136). eapply ch_loop_mono; eauto. Qed.
End Mono.
Lemma traverse_mono : forall {A B : Type} (g : B -> nat -> option A) l, (forall i, mono (g i)) -> mono (fun n => traverse (map (fun i => g i n) l)).
Proof.
  intros A B g l G n m. induction l as [|x l IH]; intros a E L; cbn [map traverse] in *; auto.
  destruct (g x n) as [v|] eqn:Ex; [|discriminate]. rewrite (G x n m v Ex L).
  destruct (traverse (map (fun i => g i n) l)) as [vs|] eqn:Ev; [|discriminate]. rewrite (IH vs eq_refl L). exact E.
Qed.
Lemma matrix_mono : forall P rho, mono (fun n => d_matrix_expand n P rho).
Proof.
  intros P rho. unfold d_matrix_expand. apply (traverse_mono (fun i n => traverse (map (fun j => d_poly_uniform n rho (u16 (Z.of_nat i * 256 + Z.of_nat j))) (seq 0 (d_l P))))).
  intro i. apply (traverse_mono (fun j n => d_poly_uniform n rho (u16 (Z.of_nat i * 256 + Z.of_nat j)))). intro j. apply uniform_from_mono.
Qed.
Lemma matrix_unique : forall P rho n m a b, d_matrix_expand n P rho = Some a -> d_matrix_expand m P rho = Some b -> a = b.
Proof.
  intros P rho n m a b E1 E2. pose proof (matrix_mono P rho n (Nat.max n m) a E1 ltac:(lia)). pose proof (matrix_mono P rho m (Nat.max n m) b E2 ltac:(lia)). cbv beta in *. congruence.
Qed.
Lemma challenge_mono : forall P seed, mono (fun n => d_poly_challenge n P seed).
Proof. intros. unfold d_poly_challenge. apply challenge_from_mono. Qed.
Opaque d_matrix_expand d_poly_challenge shake256_of d_ntt d_invntt d_vec_gamma1 d_matvec d_pack_sig.
Lemma round_mono : forall n m P mat s1 s2 t0 mu rp nonce a, d_sign_round n P mat s1 s2 t0 mu rp nonce = Some a -> (n <= m)%nat ->
  d_sign_round m P mat s1 s2 t0 mu rp nonce = Some a.
Proof.
  intros n m P mat s1 s2 t0 mu rp nonce a E L. unfold d_sign_round in *. set (ct := shake256_of _ _) in *. clearbody ct.
  destruct (d_poly_challenge n P ct) as [c|] eqn:Ec; [|discriminate]. rewrite (challenge_mono _ _ n m c Ec L : d_poly_challenge m P ct = Some c). exact E.
Qed.
Lemma loop_mono : forall r r' n m P mat s1 s2 t0 mu rp nonce a, d_sign_loop r n P mat s1 s2 t0 mu rp nonce = Some a -> (r <= r')%nat -> (n <= m)%nat ->
  d_sign_loop r' m P mat s1 s2 t0 mu rp nonce = Some a.
Proof.
  induction r as [|r IH]; intros r' n m P mat s1 s2 t0 mu rp nonce a E Lr L; [discriminate|]. destruct r' as [|r']; [lia|]. cbn [d_sign_loop] in *.
  destruct (d_sign_round n P mat s1 s2 t0 mu rp nonce) as [x|] eqn:Ex; [|discriminate]. rewrite (round_mono _ _ _ _ _ _ _ _ _ _ _ Ex L).
  destruct x; auto. eapply IH; eauto. lia.
Qed.
Opaque d_sign_loop.
Lemma sign_ahat_mono : forall r r' n m P mat sk h rng a, d_sign_internal_ahat r n P mat sk h rng = Some a -> (r <= r')%nat -> (n <= m)%nat ->
  d_sign_internal_ahat r' m P mat sk h rng = Some a.
Proof.
  intros r r' n m P mat sk h rng a E Lr L. unfold d_sign_internal_ahat in *. destruct (match rng with Some (r0, b) => (r0, b) | None => (0, zeros 32) end) as [ret rnd].
  destruct (ret <? 0); auto. cbv zeta in *. set (mu := fst (xof_read permB h 64)) in *. clearbody mu. set (rp := shake256_of _ 64) in *. clearbody rp.
  destruct (d_sign_loop r n P mat (v_ntt (d_sk_s1 P sk)) (v_ntt (d_sk_s2 P sk)) (v_ntt (d_sk_t0 P sk)) mu rp 0) as [sg|] eqn:ES; [|discriminate].
  rewrite (loop_mono _ _ _ _ _ _ _ _ _ _ _ _ _ ES Lr L). exact E.
Qed.
Lemma verify_ahat_mono : forall ad1 ad2 n m P mat sg pk h a, d_verify_internal_ahat ad1 ad2 n P mat sg pk h = Some a -> (n <= m)%nat ->
  d_verify_internal_ahat ad1 ad2 m P mat sg pk h = Some a.
Proof.
  intros ad1 ad2 n m P mat sg pk h a E L. unfold d_verify_internal_ahat in *. cbv zeta in *. destruct (v_chknorm _ _); auto.
  destruct (d_poly_challenge n P (firstn (d_ct P) sg)) as [c|] eqn:Ec; [|discriminate].
  rewrite (challenge_mono _ _ n m c Ec L : d_poly_challenge m P (firstn (d_ct P) sg) = Some c). exact E.
Qed.
Opaque d_sign_internal_ahat d_verify_internal_ahat.

(** the same context without a matrix buffer *)
Definition nocache (c : dctx) : dctx :=
  mkDctx (x_hash c) (x_prehash c) (x_userctx c) None 0 (x_composite c) (x_internal c) false.
Lemma start_nocache : forall P tr m c, d_start P tr m (nocache c) = (fst (d_start P tr m c), nocache (snd (d_start P tr m c))).
Proof. intros. unfold d_start, nocache, set_hash. cbn [x_hash x_prehash x_userctx x_ahat x_ahat_size x_composite x_internal x_expanded]. destruct (signature_domain_separation _ _ _ _ _ _); reflexivity. Qed.

Lemma start_set_hash : forall P tr m c, snd (d_start P tr m c) = set_hash c (x_hash (snd (d_start P tr m c))).
Proof. intros. unfold d_start. destruct (signature_domain_separation _ _ _ _ _ _). reflexivity. Qed.
Lemma start_settings : forall P tr m c c', same_settings c c' ->
  fst (d_start P tr m c) = fst (d_start P tr m c') /\ x_hash (snd (d_start P tr m c)) = x_hash (snd (d_start P tr m c')).
Proof. intros P tr m c c' (A & B & C & D). unfold d_start. rewrite A, B, C, D. destruct (signature_domain_separation _ _ _ _ _ _). split; reflexivity. Qed.
Lemma nocache_set_hash : forall c c' h, same_settings c c' -> nocache (set_hash c h) = nocache (set_hash c' h).
Proof. intros c c' h (A & B & C & D). unfold nocache, set_hash. cbn [x_hash x_prehash x_userctx x_ahat x_ahat_size x_composite x_internal x_expanded]. congruence. Qed.

(** what is left of a call: everything the caller set is unchanged, and the cache fits the key used *)
Definition kept (P : dparam) (key : list Z) (c c' : dctx) : Prop :=
  same_settings c c' /\ x_ahat_size c' = x_ahat_size c /\ (x_ahat c' = None <-> x_ahat c = None) /\ cache_ok P (firstn 32 key) c'.
Lemma kept_refl : forall P key c, cache_ok P (firstn 32 key) c -> kept P key c c.
Proof. intros. split; [repeat split|]. split; [reflexivity|]. split; [tauto|assumption]. Qed.
Lemma kept_set : forall P key c a f, x_ahat c <> None -> d_matrix_expand f P (firstn 32 key) = Some a -> kept P key c (set_ahat c a).
Proof.
  intros P key c a f N E. split; [repeat split|]. split; [reflexivity|]. split; [|unfold cache_ok, set_ahat; cbn [x_ahat x_expanded]; eauto].
  unfold set_ahat. cbn [x_ahat]. split; [discriminate|contradiction].
Qed.
Lemma sign_cached : forall r n P sk c rng, cache_ok P (firstn 32 sk) c ->
  (forall ret sg c0, d_sign_internal r n P sk (nocache c) rng = Some (ret, sg, c0) -> exists c', d_sign_internal r n P sk c rng = Some (ret, sg, c')) /\
  (forall ret sg c', d_sign_internal r n P sk c rng = Some (ret, sg, c') ->
    kept P sk c c' /\ exists f0, forall n', (f0 <= n')%nat -> exists c0, d_sign_internal r n' P sk (nocache c) rng = Some (ret, sg, c0)).
Proof.
  intros r n P sk c rng K. unfold d_sign_internal, nocache. cbn [x_ahat x_hash]. destruct (x_ahat c) as [a|] eqn:Ea.
  - assert (K' := K). unfold cache_ok in K'. rewrite Ea in K'. cbv zeta. destruct (x_expanded c) eqn:Ex.
    + destruct K' as [f Ef]. split.
      * intros ret sg c0 E. destruct (d_matrix_expand n P (firstn 32 sk)) as [m|] eqn:Em; [|discriminate].
        rewrite (matrix_unique _ _ _ _ _ _ Ef Em). destruct (d_sign_internal_ahat r n P m sk (x_hash c) rng) as [[ret' sg']|]; [|discriminate]. exists c. congruence.
      * intros ret sg c' E. destruct (d_sign_internal_ahat r n P a sk (x_hash c) rng) as [[ret' sg']|] eqn:ES; [|discriminate].
        assert (c' = c) by congruence. subst c'. split; [apply kept_refl; assumption|]. exists (Nat.max n f). intros n' Hn.
        rewrite (matrix_mono _ _ _ n' _ Ef ltac:(lia) : d_matrix_expand n' P (firstn 32 sk) = Some a).
        rewrite (sign_ahat_mono _ r _ n' _ _ _ _ _ _ ES (Nat.le_refl r) ltac:(lia)). eexists. do 2 f_equal. congruence.
    + unfold d_expand. replace (x_ahat_size c <? ahat_bytes P) with false by (symmetry; apply Z.ltb_ge; exact K').
      split.
      * intros ret sg c0 E. destruct (d_matrix_expand n P (firstn 32 sk)) as [m|] eqn:Em; [|discriminate]. change (0 <? 0) with false. unfold set_ahat. cbn [x_ahat x_hash].
        destruct (d_sign_internal_ahat r n P m sk (x_hash c) rng) as [[ret' sg']|]; [|discriminate]. eexists. do 2 f_equal. congruence.
      * intros ret sg c' E. destruct (d_matrix_expand n P (firstn 32 sk)) as [m|] eqn:Em; [|discriminate]. change (0 <? 0) with false in E. cbv iota in E.
        change (x_ahat (set_ahat c m)) with (Some m) in E. change (x_hash (set_ahat c m)) with (x_hash c) in E. cbv iota in E.
        destruct (d_sign_internal_ahat r n P m sk (x_hash c) rng) as [[ret' sg']|] eqn:ES; [|discriminate].
        assert (c' = set_ahat c m) by congruence. subst c'. split; [eapply kept_set; [congruence|exact Em]|].
        exists n. intros n' Hn. rewrite (matrix_mono _ _ _ n' _ Em ltac:(lia) : d_matrix_expand n' P (firstn 32 sk) = Some m).
        rewrite (sign_ahat_mono _ r _ n' _ _ _ _ _ _ ES (Nat.le_refl r) ltac:(lia)). eexists. do 2 f_equal. congruence.
  - split.
    + intros ret sg c0 E. destruct (d_matrix_expand n P (firstn 32 sk)) as [m|]; [|discriminate].
      destruct (d_sign_internal_ahat r n P m sk (x_hash c) rng) as [[ret' sg']|]; [|discriminate]. exists c. congruence.
    + intros ret sg c' E. destruct (d_matrix_expand n P (firstn 32 sk)) as [m|] eqn:Em; [|discriminate].
      destruct (d_sign_internal_ahat r n P m sk (x_hash c) rng) as [[ret' sg']|] eqn:ES; [|discriminate].
      assert (c' = c) by congruence. subst c'. split; [apply kept_refl; assumption|]. exists n. intros n' Hn.
      rewrite (matrix_mono _ _ _ n' _ Em ltac:(lia) : d_matrix_expand n' P (firstn 32 sk) = Some m).
      rewrite (sign_ahat_mono _ r _ n' _ _ _ _ _ _ ES (Nat.le_refl r) ltac:(lia)). eexists. do 2 f_equal. congruence.
Qed.
Lemma verify_cached : forall ad1 ad2 n P sg pk c, cache_ok P (firstn 32 pk) c ->
  (forall ret b c0, d_verify_internal ad1 ad2 n P sg pk (nocache c) = Some (ret, b, c0) -> exists c', d_verify_internal ad1 ad2 n P sg pk c = Some (ret, b, c')) /\
  (forall ret b c', d_verify_internal ad1 ad2 n P sg pk c = Some (ret, b, c') ->
    kept P pk c c' /\ exists f0, forall n', (f0 <= n')%nat -> exists c0, d_verify_internal ad1 ad2 n' P sg pk (nocache c) = Some (ret, b, c0)).
Proof.
  intros ad1 ad2 n P sg pk c K. unfold d_verify_internal, nocache. cbn [x_ahat x_hash]. destruct (x_ahat c) as [a|] eqn:Ea.
  - assert (K' := K). unfold cache_ok in K'. rewrite Ea in K'. cbv zeta. destruct (x_expanded c) eqn:Ex.
    + destruct K' as [f Ef]. split.
      * intros ret b c0 E. destruct (d_matrix_expand n P (firstn 32 pk)) as [m|] eqn:Em; [|discriminate].
        rewrite (matrix_unique _ _ _ _ _ _ Ef Em). destruct (d_verify_internal_ahat ad1 ad2 n P m sg pk (x_hash c)) as [[ret' b']|]; [|discriminate]. exists c. congruence.
      * intros ret b c' E. destruct (d_verify_internal_ahat ad1 ad2 n P a sg pk (x_hash c)) as [[ret' b']|] eqn:ES; [|discriminate].
        assert (c' = c) by congruence. subst c'. split; [apply kept_refl; assumption|]. exists (Nat.max n f). intros n' Hn.
        rewrite (matrix_mono _ _ _ n' _ Ef ltac:(lia) : d_matrix_expand n' P (firstn 32 pk) = Some a).
        rewrite (verify_ahat_mono _ _ _ n' _ _ _ _ _ _ ES ltac:(lia)). eexists. do 2 f_equal. congruence.
    + unfold d_expand. replace (x_ahat_size c <? ahat_bytes P) with false by (symmetry; apply Z.ltb_ge; exact K').
      split.
      * intros ret b c0 E. destruct (d_matrix_expand n P (firstn 32 pk)) as [m|] eqn:Em; [|discriminate]. change (0 <? 0) with false. unfold set_ahat. cbn [x_ahat x_hash].
        destruct (d_verify_internal_ahat ad1 ad2 n P m sg pk (x_hash c)) as [[ret' b']|]; [|discriminate]. eexists. do 2 f_equal. congruence.
      * intros ret b c' E. destruct (d_matrix_expand n P (firstn 32 pk)) as [m|] eqn:Em; [|discriminate]. change (0 <? 0) with false in E. cbv iota in E.
        change (x_ahat (set_ahat c m)) with (Some m) in E. change (x_hash (set_ahat c m)) with (x_hash c) in E. cbv iota in E.
        destruct (d_verify_internal_ahat ad1 ad2 n P m sg pk (x_hash c)) as [[ret' b']|] eqn:ES; [|discriminate].
        assert (c' = set_ahat c m) by congruence. subst c'. split; [eapply kept_set; [congruence|exact Em]|].
        exists n. intros n' Hn. rewrite (matrix_mono _ _ _ n' _ Em ltac:(lia) : d_matrix_expand n' P (firstn 32 pk) = Some m).
        rewrite (verify_ahat_mono _ _ _ n' _ _ _ _ _ _ ES ltac:(lia)). eexists. do 2 f_equal. congruence.
  - split.
    + intros ret b c0 E. destruct (d_matrix_expand n P (firstn 32 pk)) as [m|]; [|discriminate].
      destruct (d_verify_internal_ahat ad1 ad2 n P m sg pk (x_hash c)) as [[ret' b']|]; [|discriminate]. exists c. congruence.
    + intros ret b c' E. destruct (d_matrix_expand n P (firstn 32 pk)) as [m|] eqn:Em; [|discriminate].
      destruct (d_verify_internal_ahat ad1 ad2 n P m sg pk (x_hash c)) as [[ret' b']|] eqn:ES; [|discriminate].
      assert (c' = c) by congruence. subst c'. split; [apply kept_refl; assumption|]. exists n. intros n' Hn.
      rewrite (matrix_mono _ _ _ n' _ Em ltac:(lia) : d_matrix_expand n' P (firstn 32 pk) = Some m).
      rewrite (verify_ahat_mono _ _ _ n' _ _ _ _ _ _ ES ltac:(lia)). eexists. do 2 f_equal. congruence.
Qed.
Opaque d_sign_internal d_verify_internal.

(** ** the calls with a context *)
Lemma cache_ok_hash : forall P rho c h, cache_ok P rho (set_hash c h) <-> cache_ok P rho c.
Proof. intros. reflexivity. Qed.
Lemma kept_hash : forall P key c h c', kept P key (set_hash c h) c' -> kept P key c c'.
Proof. intros P key c h c' H. exact H. Qed.
Lemma kept_hash' : forall P key c h, cache_ok P (firstn 32 key) c -> kept P key c (set_hash c h).
Proof. intros. split; [repeat split|]. split; [reflexivity|]. split; [tauto|assumption]. Qed.
Lemma sign_ctx_cached : forall r n P c0 c m sk rng, same_settings c0 c -> cache_ok P (firstn 32 sk) c ->
  (forall ret sg c1, d_sign_ctx r n P (nocache c0) m sk rng = Some (ret, sg, c1) -> exists c', d_sign_ctx r n P c m sk rng = Some (ret, sg, c')) /\
  (forall ret sg c', d_sign_ctx r n P c m sk rng = Some (ret, sg, c') ->
    kept P sk c c' /\ exists f0, forall n', (f0 <= n')%nat -> exists c1, d_sign_ctx r n' P (nocache c0) m sk rng = Some (ret, sg, c1)).
Proof.
  intros r n P c0 c m sk rng SS K. unfold d_sign_ctx. destruct (start_settings P (d_sk_tr sk) m _ _ SS) as [E1 E2].
  assert (EN : d_start P (d_sk_tr sk) m (nocache c0) = (fst (d_start P (d_sk_tr sk) m c), nocache (snd (d_start P (d_sk_tr sk) m c)))).
  { rewrite start_nocache, E1. apply f_equal. rewrite (start_set_hash _ _ _ c0), E2, (start_set_hash _ _ _ c). apply nocache_set_hash. exact SS. }
  rewrite EN. clear EN. pose proof (start_set_hash P (d_sk_tr sk) m c) as SH. destruct (d_start P (d_sk_tr sk) m c) as [r1 c1]. cbn [fst snd] in *.
  assert (K1 : cache_ok P (firstn 32 sk) c1) by (rewrite SH; apply cache_ok_hash; exact K).
  destruct (r1 <? 0).
  - split.
    + intros ret sg c2 E. exists c1. congruence.
    + intros ret sg c' E. assert (c' = c1) by congruence. subst c'. split; [rewrite SH; apply kept_hash'; exact K|]. exists O. intros n' _. eexists. do 2 f_equal. congruence.
  - destruct (sign_cached r n P sk c1 rng K1) as [S1 S2]. split; [exact S1|]. intros ret sg c' E. destruct (S2 ret sg c' E) as [Q1 Q2]. split; [|exact Q2].
    apply (kept_hash P sk c (x_hash c1)). rewrite <- SH. exact Q1.
Qed.
Lemma verify_ctx_cached : forall ad1 ad2 n P sg c0 c m pk, same_settings c0 c -> cache_ok P (firstn 32 pk) c ->
  (forall ret b c1, d_verify_ctx ad1 ad2 n P sg (nocache c0) m pk = Some (ret, b, c1) -> exists c', d_verify_ctx ad1 ad2 n P sg c m pk = Some (ret, b, c')) /\
  (forall ret b c', d_verify_ctx ad1 ad2 n P sg c m pk = Some (ret, b, c') ->
    kept P pk c c' /\ exists f0, forall n', (f0 <= n')%nat -> exists c1, d_verify_ctx ad1 ad2 n' P sg (nocache c0) m pk = Some (ret, b, c1)).
Proof.
  intros ad1 ad2 n P sg c0 c m pk SS K. unfold d_verify_ctx. cbv zeta. set (tr := shake256_of [pk] 64). clearbody tr. destruct (start_settings P tr m _ _ SS) as [E1 E2].
  assert (EN : d_start P tr m (nocache c0) = (fst (d_start P tr m c), nocache (snd (d_start P tr m c)))).
  { rewrite start_nocache, E1. apply f_equal. rewrite (start_set_hash _ _ _ c0), E2, (start_set_hash _ _ _ c). apply nocache_set_hash. exact SS. }
  rewrite EN. clear EN. pose proof (start_set_hash P tr m c) as SH. destruct (d_start P tr m c) as [r1 c1]. cbn [fst snd] in *.
  assert (K1 : cache_ok P (firstn 32 pk) c1) by (rewrite SH; apply cache_ok_hash; exact K).
  destruct (r1 <? 0).
  - split.
    + intros ret b c2 E. exists c1. congruence.
    + intros ret b c' E. assert (c' = c1) by congruence. subst c'. split; [rewrite SH; apply kept_hash'; exact K|]. exists O. intros n' _. eexists. do 2 f_equal. congruence.
  - destruct (verify_cached ad1 ad2 n P sg pk c1 K1) as [S1 S2]. split; [exact S1|]. intros ret b c' E. destruct (S2 ret b c' E) as [Q1 Q2]. split; [|exact Q2].
    apply (kept_hash P pk c (x_hash c1)). rewrite <- SH. exact Q1.
Qed.
