(** C60: the matrix cache of an ML-DSA context. C67: contexts from the allocation functions. C68: loading keys and signatures.
    C69: the pairwise consistency test. *)
From Verif Require Import Bytes Words KeccakModel Sha3Model KeccakBytes UtilModel UtilProof KyberModel DilithiumModel DilithiumScheme DilithiumVerify DilithiumVectors DilithiumKat
  DilithiumApiModel DilithiumCache PropDilScheme.
Require Import Lia ZArith List. Import ListNotations. Open Scope Z_scope.
Opaque d_sign_ctx d_verify_ctx d_matrix_expand.

(** ** C60 *)
(** the context without its buffer: every call expands the matrix from the key *)
Definition without_cache (c : dctx) : dctx :=
  mkDctx (x_hash c) (x_prehash c) (x_userctx c) None 0 (x_composite c) (x_internal c) false.
(** a program that uses one context *)
Inductive dop :=
| OSign (P : dparam) (sk m : list Z) (rng : option (Z * list Z))
| OVerify (P : dparam) (pk m sg : list Z)
| ODrop.
(** code and signature of each call *)
Fixpoint run (ad1 ad2 : Z) (rounds fuel : nat) (ops : list dop) (c : dctx) : option (list (Z * list Z)) :=
  match ops with
  | [] => Some []
  | OSign P sk m rng :: ops' => match d_sign_ctx rounds fuel P c m sk rng with
      | Some (r, sg, c') => option_map (cons (r, sg)) (run ad1 ad2 rounds fuel ops' c') | None => None end
  | OVerify P pk m sg :: ops' => match d_verify_ctx ad1 ad2 fuel P sg c m pk with
      | Some (r, _, c') => option_map (cons (r, [])) (run ad1 ad2 rounds fuel ops' c') | None => None end
  | ODrop :: ops' => option_map (cons (0, [])) (run ad1 ad2 rounds fuel ops' (api_ctx_drop_ahat c))
  end.
(** the same calls, each with the context as it was at the start and no buffer *)
Fixpoint run_uncached (ad1 ad2 : Z) (rounds fuel : nat) (ops : list dop) (c : dctx) : option (list (Z * list Z)) :=
  match ops with
  | [] => Some []
  | OSign P sk m rng :: ops' => match d_sign_ctx rounds fuel P (without_cache c) m sk rng with
      | Some (r, sg, _) => option_map (cons (r, sg)) (run_uncached ad1 ad2 rounds fuel ops' c) | None => None end
  | OVerify P pk m sg :: ops' => match d_verify_ctx ad1 ad2 fuel P sg (without_cache c) m pk with
      | Some (r, _, _) => option_map (cons (r, [])) (run_uncached ad1 ad2 rounds fuel ops' c) | None => None end
  | ODrop :: ops' => option_map (cons (0, [])) (run_uncached ad1 ad2 rounds fuel ops' c)
  end.
(** the buffer holds the matrix of one parameter set and one rho between two drops; [last]: the set and rho used since the last
    drop; the buffer is large enough for every set used *)
Fixpoint one_key_between_drops (size : Z) (last : option (dparam * list Z)) (ops : list dop) : Prop :=
  match ops with
  | [] => True
  | OSign P key _ _ :: ops' | OVerify P key _ _ :: ops' =>
      (last = None \/ last = Some (P, firstn 32 key)) /\ 1024 * Z.of_nat (d_k P * d_l P) <= size /\
      one_key_between_drops size (Some (P, firstn 32 key)) ops'
  | ODrop :: ops' => one_key_between_drops size None ops'
  end.
Definition holds (last : option (dparam * list Z)) (c : dctx) : Prop :=
  match x_ahat c with
  | None => True
  | Some a => x_expanded c = true -> exists P rho f, last = Some (P, rho) /\ d_matrix_expand f P rho = Some a
  end.
Lemma holds_ok : forall last c P key, holds last c -> last = None \/ last = Some (P, firstn 32 key) ->
  1024 * Z.of_nat (d_k P * d_l P) <= x_ahat_size c -> cache_ok P (firstn 32 key) c.
Proof.
  intros last c P key H L S. unfold holds, cache_ok in *. destruct (x_ahat c) as [a|]; [|exact I]. destruct (x_expanded c).
  - destruct (H eq_refl) as (P' & rho & f & E & M). destruct L as [L|L]; [congruence|]. exists f. congruence.
  - unfold ahat_bytes. lia.
Qed.
Lemma ok_holds : forall c P rho, cache_ok P rho c -> holds (Some (P, rho)) c.
Proof. intros c P rho H. unfold holds, cache_ok in *. destruct (x_ahat c) as [a|]; [|exact I]. intro E. rewrite E in H. destruct H as [f F]. eauto 6. Qed.
Lemma settings_trans : forall a b c, same_settings a b -> same_settings b c -> same_settings a c.
Proof. intros a b c (A & B & C & D) (A' & B' & C' & D'). repeat split; congruence. Qed.

Lemma run_same : forall ad1 ad2 rounds ops last c0 c, same_settings c0 c -> holds last c -> one_key_between_drops (x_ahat_size c) last ops ->
  forall fuel,
  (forall outs, run_uncached ad1 ad2 rounds fuel ops c0 = Some outs -> run ad1 ad2 rounds fuel ops c = Some outs) /\
  (forall outs, run ad1 ad2 rounds fuel ops c = Some outs -> exists f0, forall f, (f0 <= f)%nat -> run_uncached ad1 ad2 rounds f ops c0 = Some outs).
Proof.
  intros ad1 ad2 rounds ops. induction ops as [|[P sk m rng|P pk m sg|] ops IH]; intros last c0 c SS H O fuel; cbn [run run_uncached one_key_between_drops] in *.
  - split; intros outs E; [exact E|exists 0%nat; auto].
  - destruct O as (L & S & O). destruct (sign_ctx_cached rounds fuel P c0 c m sk rng SS (holds_ok _ _ _ _ H L S)) as [C1 C2]. change (nocache c0) with (without_cache c0) in *. split; intros outs E.
    + destruct (d_sign_ctx rounds fuel P (without_cache c0) m sk rng) as [[[r sg] cx]|] eqn:ES; [|discriminate].
      destruct (C1 _ _ _ eq_refl) as [c' E']. rewrite E'. destruct (C2 _ _ _ E') as ((K1 & K2 & K3 & K4) & _).
      destruct (IH (Some (P, firstn 32 sk)) c0 c' (settings_trans _ _ _ SS K1) (ok_holds _ _ _ K4) ltac:(rewrite K2; exact O) fuel) as [I1 _].
      destruct (run_uncached ad1 ad2 rounds fuel ops c0) as [o|]; [|discriminate]. rewrite (I1 o eq_refl). exact E.
    + destruct (d_sign_ctx rounds fuel P c m sk rng) as [[[r sg] c']|] eqn:ES; [|discriminate].
      destruct (C2 _ _ _ eq_refl) as ((K1 & K2 & K3 & K4) & f1 & F1).
      destruct (IH (Some (P, firstn 32 sk)) c0 c' (settings_trans _ _ _ SS K1) (ok_holds _ _ _ K4) ltac:(rewrite K2; exact O) fuel) as [_ I2].
      destruct (run ad1 ad2 rounds fuel ops c') as [o|]; [|discriminate]. destruct (I2 o eq_refl) as [f2 F2]. exists (Nat.max f1 f2). intros f Hf.
      destruct (F1 f ltac:(lia)) as [cx EX]. rewrite EX, (F2 f ltac:(lia)). exact E.
  - destruct O as (L & S & O). destruct (verify_ctx_cached ad1 ad2 fuel P sg c0 c m pk SS (holds_ok _ _ _ _ H L S)) as [C1 C2]. change (nocache c0) with (without_cache c0) in *. split; intros outs E.
    + destruct (d_verify_ctx ad1 ad2 fuel P sg (without_cache c0) m pk) as [[[r b] cx]|] eqn:ES; [|discriminate].
      destruct (C1 _ _ _ eq_refl) as [c' E']. rewrite E'. destruct (C2 _ _ _ E') as ((K1 & K2 & K3 & K4) & _).
      destruct (IH (Some (P, firstn 32 pk)) c0 c' (settings_trans _ _ _ SS K1) (ok_holds _ _ _ K4) ltac:(rewrite K2; exact O) fuel) as [I1 _].
      destruct (run_uncached ad1 ad2 rounds fuel ops c0) as [o|]; [|discriminate]. rewrite (I1 o eq_refl). exact E.
    + destruct (d_verify_ctx ad1 ad2 fuel P sg c m pk) as [[[r b] c']|] eqn:ES; [|discriminate].
      destruct (C2 _ _ _ eq_refl) as ((K1 & K2 & K3 & K4) & f1 & F1).
      destruct (IH (Some (P, firstn 32 pk)) c0 c' (settings_trans _ _ _ SS K1) (ok_holds _ _ _ K4) ltac:(rewrite K2; exact O) fuel) as [_ I2].
      destruct (run ad1 ad2 rounds fuel ops c') as [o|]; [|discriminate]. destruct (I2 o eq_refl) as [f2 F2]. exists (Nat.max f1 f2). intros f Hf.
      destruct (F1 f ltac:(lia)) as [cx EX]. rewrite EX, (F2 f ltac:(lia)). exact E.
  - destruct (IH None c0 (api_ctx_drop_ahat c)) with (fuel := fuel) as [I1 I2].
    + destruct SS as (A & B & C & D). repeat split; assumption.
    + unfold holds, api_ctx_drop_ahat. cbn [x_ahat x_expanded]. destruct (x_ahat c); [discriminate|exact I].
    + exact O.
    + split; intros outs E.
      * destruct (run_uncached ad1 ad2 rounds fuel ops c0) as [o|]; [|discriminate]. rewrite (I1 o eq_refl). exact E.
      * destruct (run ad1 ad2 rounds fuel ops (api_ctx_drop_ahat c)) as [o|]; [|discriminate]. destruct (I2 o eq_refl) as [f0 F]. exists f0. intros f Hf. rewrite (F f Hf). exact E.
Qed.
(** Any program that drops the cache between two keys gets from a caching context what it gets without a cache: whatever the
    uncached run returns, the cached run returns (with the same bound on the loops), and whatever the cached run returns, the
    uncached run returns (it may need more iterations, because it expands the matrix itself). *)
Theorem C60_partial : forall ad1 ad2 rounds ops c, x_ahat c = None \/ x_expanded c = false -> one_key_between_drops (x_ahat_size c) None ops ->
  forall fuel,
  (forall outs, run_uncached ad1 ad2 rounds fuel ops c = Some outs -> run ad1 ad2 rounds fuel ops c = Some outs) /\
  (forall outs, run ad1 ad2 rounds fuel ops c = Some outs -> exists f0, forall f, (f0 <= f)%nat -> run_uncached ad1 ad2 rounds f ops c = Some outs).
Proof.
  intros ad1 ad2 rounds ops c H O fuel. apply (run_same ad1 ad2 rounds ops None c c); auto. repeat split.
  unfold holds. destruct (x_ahat c); auto. destruct H as [H|H]; [discriminate|]. rewrite H. discriminate.
Qed.
Print Assumptions C60_partial.
(** a program over two keys and two parameter sets that meets the condition; its result is evaluated below *)
Definition two_keys : list dop :=
  [OVerify ML_DSA_44 dv44_pk dv44_m dv44_sig; OVerify ML_DSA_44 dv44_pk dv44_m (0 :: tl dv44_sig); ODrop; OVerify ML_DSA_65 dv65_pk dv65_m dv65_sig].
Example C60_partial_hypotheses : one_key_between_drops (x_ahat_size (d_ctx_stack_ahat ML_DSA_65 [])) None two_keys.
Proof. cbn [one_key_between_drops two_keys]. split; [left; reflexivity|]. split; [vm_compute; discriminate|]. split; [right; reflexivity|]. split; [vm_compute; discriminate|].
  split; [left; reflexivity|]. split; [vm_compute; discriminate|exact I]. Qed.
Definition C60_partial_runs : True := ltac:(evaluates (
  match run 0 0 1 4 two_keys (d_ctx_stack_ahat ML_DSA_65 []), run_uncached 0 0 1 4 two_keys (d_ctx_stack_ahat ML_DSA_65 []) with
  | Some a, Some b => eq_list (map fst a) [0; -74; 0; 0] && eq_list (map fst b) [0; -74; 0; 0] | _, _ => false end)).

(** Without the drop the claim fails. First: the size of the buffer is compared only when the matrix is expanded. A context with
    a buffer for ML-DSA-44 that has been used once reads past the end of the buffer when it is given a key of ML-DSA-87; without a
    cache there is no such access. [C60_left_expanded] says that every use leaves the context in such a state. *)
Theorem C60_refuted : exists c, x_ahat c <> None /\ x_ahat_size c = ahat_bytes ML_DSA_44 /\ x_expanded c = true /\
  forall rounds fuel m sk rng, d_sign_ctx_mem rounds fuel ML_DSA_87 c m sk rng = OutOfBounds /\
    d_sign_ctx_mem rounds fuel ML_DSA_87 (without_cache c) m sk rng = Within (d_sign_ctx rounds fuel ML_DSA_87 (without_cache c) m sk rng).
Proof.
  exists (mkDctx (keccak_init alg_shake256) None [] (Some []) (ahat_bytes ML_DSA_44) false true true). split; [discriminate|]. split; [reflexivity|]. split; [reflexivity|].
  intros. split.
  - unfold d_sign_ctx_mem. set (tr := d_sk_tr sk). clearbody tr. unfold d_start, signature_domain_separation. cbn [x_internal]. cbv iota beta. change (0 <? 0) with false. cbv iota.
    unfold reads_beyond, set_hash. cbn [x_ahat x_expanded x_ahat_size]. reflexivity.
  - Transparent d_sign_ctx. unfold d_sign_ctx_mem, d_sign_ctx. Opaque d_sign_ctx. set (tr := d_sk_tr sk). clearbody tr. pose proof (start_set_hash ML_DSA_87 tr m) as SH.
    set (c := without_cache _). specialize (SH c). destruct (d_start ML_DSA_87 tr m c) as [r c1]. cbn [snd] in SH. destruct (r <? 0); [reflexivity|].
    replace (reads_beyond ML_DSA_87 c1) with false; [reflexivity|]. unfold reads_beyond. rewrite SH. reflexivity.
Qed.
Print Assumptions C60_refuted.
(** Every successful signature with a buffer leaves the flag set and the size as it was. *)
Theorem C60_left_expanded : forall rounds fuel P c m sk rng sg c', x_ahat c <> None ->
  d_sign_ctx rounds fuel P c m sk rng = Some (0, sg, c') -> x_ahat c' <> None /\ x_expanded c' = true /\ x_ahat_size c' = x_ahat_size c.
Proof.
  intros rounds fuel P c m sk rng sg c' N E. Transparent d_sign_ctx. unfold d_sign_ctx in E. Opaque d_sign_ctx.
  pose proof (start_set_hash P (d_sk_tr sk) m c) as SH. destruct (d_start P (d_sk_tr sk) m c) as [r c1]. cbn [snd] in SH.
  destruct (r <? 0) eqn:Er. { assert (r = 0) by congruence. subst r. discriminate. }
  Transparent d_sign_internal. unfold d_sign_internal in E. Opaque d_sign_internal. assert (N1 : x_ahat c1 = x_ahat c) by (rewrite SH; reflexivity). assert (S1 : x_ahat_size c1 = x_ahat_size c) by (rewrite SH; reflexivity).
  rewrite <- N1 in N. rewrite <- S1. clear SH N1 S1 c. destruct (x_ahat c1) as [a|] eqn:Ea; [|congruence]. cbv zeta in E. destruct (x_expanded c1) eqn:Ex.
  - destruct (d_sign_internal_ahat rounds fuel P a sk (x_hash c1) rng) as [[r1 s1]|]; [|discriminate]. assert (c' = c1) by congruence. subst c'. split; [congruence|auto].
  - destruct (d_expand fuel P sk c1) as [[r1 c2]|] eqn:EE; [|discriminate]. unfold d_expand in EE. destruct (x_ahat_size c1 <? ahat_bytes P).
    + assert (r1 = - EOVERFLOW) by congruence. subst r1. change (- EOVERFLOW <? 0) with true in E. cbv iota in E. discriminate E.
    + destruct (d_matrix_expand fuel P (firstn 32 sk)) as [a'|]; [|discriminate]. assert (c2 = set_ahat c1 a') by congruence. assert (r1 = 0) by congruence. subst c2 r1. change (0 <? 0) with false in E. cbv iota in E.
      change (x_ahat (set_ahat c1 a')) with (Some a') in E. change (x_hash (set_ahat c1 a')) with (x_hash c1) in E. cbv iota in E.
      destruct (d_sign_internal_ahat rounds fuel P a' sk (x_hash c1) rng) as [[r2 s2]|]; [|discriminate]. assert (c' = set_ahat c1 a') by congruence. subst c'. split; [discriminate|split; reflexivity].
Qed.
Print Assumptions C60_left_expanded.
(** With a buffer of sufficient size the accesses are in bounds. *)
Theorem C60_in_bounds : forall ad1 ad2 rounds fuel P c m key rng sg, 1024 * Z.of_nat (d_k P * d_l P) <= x_ahat_size c ->
  d_sign_ctx_mem rounds fuel P c m key rng = Within (d_sign_ctx rounds fuel P c m key rng) /\
  d_verify_ctx_mem ad1 ad2 fuel P sg c m key = Within (d_verify_ctx ad1 ad2 fuel P sg c m key).
Proof.
  intros ad1 ad2 rounds fuel P c m key rng sg S. assert (R : forall h, reads_beyond P (set_hash c h) = false).
  { intro h. unfold reads_beyond, set_hash. cbn [x_ahat x_expanded x_ahat_size]. destruct (x_ahat c); auto. replace (x_ahat_size c <? ahat_bytes P) with false. apply andb_false_r. symmetry. apply Z.ltb_ge. unfold ahat_bytes. lia. }
  Transparent d_sign_ctx d_verify_ctx. unfold d_sign_ctx_mem, d_verify_ctx_mem, d_sign_ctx, d_verify_ctx. Opaque d_sign_ctx d_verify_ctx. cbv zeta. set (tr := shake256_of [key] 64). clearbody tr. split.
  - pose proof (start_set_hash P (d_sk_tr key) m c) as SH. destruct (d_start P (d_sk_tr key) m c) as [r c1]. cbn [snd] in SH. rewrite SH, R. destruct (r <? 0); reflexivity.
  - pose proof (start_set_hash P tr m c) as SH. destruct (d_start P tr m c) as [r c1]. cbn [snd] in SH. rewrite SH, R. destruct (r <? 0); reflexivity.
Qed.
Print Assumptions C60_in_bounds.
(** Second: a buffer that is too small and not yet expanded makes the call fail, which it does not without a cache. *)
Theorem C60_small_buffer_refuted : forall P c m sk rounds fuel, x_ahat c <> None -> x_expanded c = false -> x_ahat_size c < 1024 * Z.of_nat (d_k P * d_l P) ->
  x_internal c = true -> x_composite c = false ->
  (exists c', d_sign_ctx rounds fuel P c m sk None = Some (-75, [], c')) /\
  (forall f r sg c', d_sign_ctx rounds f P (without_cache c) m sk None = Some (r, sg, c') -> r = 0).
Proof.
  intros P c m sk rounds fuel N X S EI EC. Transparent d_sign_ctx. unfold d_sign_ctx. Opaque d_sign_ctx. unfold d_start, signature_domain_separation, without_cache. cbn [x_internal x_composite]. rewrite EI, EC. cbv zeta. cbv iota beta. change (0 <? 0) with false. cbv iota.
  Transparent d_sign_internal. unfold d_sign_internal, set_hash. cbn [x_ahat x_hash x_expanded]. split.
  - destruct (x_ahat c) as [a|]; [|congruence]. cbv zeta. rewrite X. unfold d_expand. cbn [x_ahat_size]. replace (x_ahat_size c <? ahat_bytes P) with true by (symmetry; apply Z.ltb_lt; unfold ahat_bytes; lia).
    cbv iota. change (- EOVERFLOW <? 0) with true. cbv iota. eexists. reflexivity.
  - intros f r sg c' E. destruct (d_matrix_expand f P (firstn 32 sk)) as [A|]; [|discriminate]. set (h := keccak_updates _ _ _) in *. clearbody h.
    destruct (d_sign_internal_ahat rounds f P A sk h None) as [[r1 s1]|] eqn:E1; [|discriminate]. Transparent d_sign_internal_ahat. unfold d_sign_internal_ahat in E1. Opaque d_sign_internal_ahat. cbv iota beta zeta in E1. change (0 <? 0) with false in E1. cbv iota in E1.
    destruct (d_sign_loop _ _ _ _ _ _ _ _ _ _); [|discriminate]. congruence.
Qed.
Print Assumptions C60_small_buffer_refuted.
Example C60_small_buffer_hypotheses : x_ahat_size (d_ctx_stack_ahat ML_DSA_44 []) < 1024 * Z.of_nat (d_k ML_DSA_87 * d_l ML_DSA_87).
Proof. vm_compute. reflexivity. Qed.
(** Third: once a matrix is held, rho of the key is not looked at: two secret keys that differ in rho alone give the same
    signature. Which of them the matrix belongs to does not matter. *)
Theorem C60_stale_rho_ignored : forall rounds fuel P c m sk sk' rng, x_ahat c <> None -> x_expanded c = true -> skipn 32 sk = skipn 32 sk' ->
  d_sign_ctx rounds fuel P c m sk rng = d_sign_ctx rounds fuel P c m sk' rng.
Proof.
  intros rounds fuel P c m sk sk' rng N X E. assert (SK : forall k, (32 <= k)%nat -> skipn k sk = skipn k sk').
  { intros k Hk. replace k with (32 + (k - 32))%nat by lia. rewrite <- !skipn_skipn'. rewrite E. reflexivity. }
  assert (SL : forall k n, (32 <= k)%nat -> slice sk k n = slice sk' k n) by (intros k n Hk; unfold slice; rewrite (SK k Hk); reflexivity).
  Transparent d_sign_ctx. unfold d_sign_ctx. Opaque d_sign_ctx. unfold d_sk_tr. rewrite (SL 64%nat 64%nat) by lia. pose proof (start_set_hash P (slice sk' 64 64) m c) as SH.
  destruct (d_start P (slice sk' 64 64) m c) as [r c1]. cbn [snd] in SH. destruct (r <? 0); [reflexivity|].
  assert (N1 : x_ahat c1 = x_ahat c) by (rewrite SH; reflexivity). assert (X1 : x_expanded c1 = x_expanded c) by (rewrite SH; reflexivity). clear SH.
  unfold d_sign_internal. rewrite N1. destruct (x_ahat c) as [a|]; [|congruence]. cbv zeta. rewrite X1, X. cbv iota beta.
  replace (d_sign_internal_ahat rounds fuel P a sk (x_hash c1) rng) with (d_sign_internal_ahat rounds fuel P a sk' (x_hash c1) rng); [reflexivity|].
  Transparent d_sign_internal_ahat. unfold d_sign_internal_ahat, d_sk_key, d_sk_s1, d_sk_s2, d_sk_t0. Opaque d_sign_internal_ahat. rewrite (SL 32%nat 32%nat) by lia. rewrite !SK by lia. reflexivity.
Qed.
Print Assumptions C60_stale_rho_ignored.
(** evaluated: the self-test signature of ML-DSA-44 verifies with a fresh context and is rejected (-EBADMSG) by one whose buffer
    still holds the matrix of another key *)
Definition C60_stale_runs : True := ltac:(evaluates (
  match run 0 0 1 4 [OVerify ML_DSA_44 (0 :: tl dv44_pk) dv44_m dv44_sig; OVerify ML_DSA_44 dv44_pk dv44_m dv44_sig] (d_ctx_stack_ahat ML_DSA_44 []) with
  | Some a => eq_list (map fst a) [-74; -74] | None => false end)).

(** ** C67 *)
(** the generic allocator for a caching context returns a context without a buffer, whatever the memory held *)
Theorem C67_refuted : forall raw, x_ahat (api_ctx_alloc_ahat raw) = None /\ x_ahat_size (api_ctx_alloc_ahat raw) = 0.
Proof. intros. split; reflexivity. Qed.
Print Assumptions C67_refuted.
(** so such a context never holds a matrix: every call of every program gives what it gives without a cache *)
Theorem C67_never_caches : forall rounds fuel P raw m sk rng r sg c', d_sign_ctx rounds fuel P (api_ctx_alloc_ahat raw) m sk rng = Some (r, sg, c') -> x_ahat c' = None.
Proof.
  intros rounds fuel P raw m sk rng r sg c' E. destruct (sign_ctx_cached rounds fuel P (api_ctx_alloc_ahat raw) (api_ctx_alloc_ahat raw) m sk rng ltac:(repeat split) I) as [_ C].
  destruct (C r sg c' E) as ((_ & _ & K & _) & _). apply K. reflexivity.
Qed.
Print Assumptions C67_never_caches.
(** the allocators of one set with memory the allocator cleared: the context LC_DILITHIUM_xx_CTX_ON_STACK_AHAT makes *)
Theorem C67_partial : forall P buf, In P [ML_DSA_44; ML_DSA_65; ML_DSA_87] ->
  let c := d_ctx_alloc_ahat P raw_zero buf in
  x_ahat c <> None /\ x_ahat_size c = 1024 * Z.of_nat (d_k P * d_l P) /\ x_expanded c = false /\ settings c = (false, None, [], false) /\ c = d_ctx_stack_ahat P buf /\
  x_ahat_size c < 2 ^ 16.
Proof.
  intros P buf H. cbv zeta. split; [discriminate|]. split; [cbn [d_ctx_alloc_ahat x_ahat_size]; unfold ahat_bytes; lia|]. split; [reflexivity|]. split; [reflexivity|]. split; [reflexivity|].
  cbn [d_ctx_alloc_ahat x_ahat_size]. destruct H as [<-|[<-|[<-|[]]]]; vm_compute; reflexivity.
Qed.
Print Assumptions C67_partial.
(** with memory that was not cleared: all settings, and the flag that says that the buffer holds a matrix, are what the memory
    held; the buffer's old contents are then used as the matrix *)
Theorem C67_uncleared_refuted : forall P buf, exists raw,
  let c := d_ctx_alloc_ahat P raw buf in
  settings c <> (false, None, [], false) /\ x_expanded c = true /\ x_ahat c = Some buf /\
  forall rounds fuel m sk rng, d_sign_ctx rounds fuel P c m sk rng =
    match d_sign_internal_ahat rounds fuel P buf sk (x_hash (snd (d_start P (d_sk_tr sk) m c))) rng with
    | Some (r, sg) => Some (r, sg, snd (d_start P (d_sk_tr sk) m c)) | None => None end.
Proof.
  intros P buf. exists (mkDctx (keccak_init alg_shake256) None [] None 0 false true true). cbv zeta. split; [discriminate|]. split; [reflexivity|]. split; [reflexivity|].
  intros rounds fuel m sk rng. Transparent d_sign_ctx. unfold d_sign_ctx. Opaque d_sign_ctx. set (c := d_ctx_alloc_ahat _ _ _).
  assert (R : fst (d_start P (d_sk_tr sk) m c) = 0) by reflexivity. pose proof (start_set_hash P (d_sk_tr sk) m c) as SH.
  destruct (d_start P (d_sk_tr sk) m c) as [r c1]. cbn [fst snd] in *. subst r. change (0 <? 0) with false. cbv iota.
  assert (A : x_ahat c1 = Some buf) by (rewrite SH; reflexivity). assert (X : x_expanded c1 = true) by (rewrite SH; reflexivity). clear SH.
  unfold d_sign_internal. rewrite A. cbv zeta. rewrite X. cbv iota beta. reflexivity.
Qed.
Print Assumptions C67_uncleared_refuted.

(** ** C68 *)
Definition sizes (P : dparam) : list nat := [pk_bytes P; sk_bytes P; sig_bytes P].
(** the sizes of FIPS 204 table 2 *)
Example C68_sizes : map sizes [ML_DSA_44; ML_DSA_65; ML_DSA_87] = [[1312; 2560; 2420]; [1952; 4032; 3309]; [2592; 4896; 4627]]%nat.
Proof. reflexivity. Qed.
(** a load succeeds for exactly the three sizes, the type follows from the size, the pointer functions give back what was loaded,
    a failing load leaves the object alone *)
Theorem C68_load : forall bytes_of, In bytes_of [pk_bytes; sk_bytes; sig_bytes] -> forall dst s r x, api_load bytes_of dst (Some s) = (r, x) ->
  (r = 0 <-> exists P, In P [ML_DSA_44; ML_DSA_65; ML_DSA_87] /\ length s = bytes_of P) /\
  (r = 0 -> api_ptr bytes_of x = (0, Some s) /\ exists P, param_of (t_type x) = Some P /\ length s = bytes_of P) /\
  (r <> 0 -> r = -22 /\ x = dst).
Proof.
  intros bo H dst s r x E. unfold api_load in E.
  assert (D : (0 < bo ML_DSA_87)%nat /\ (0 < bo ML_DSA_65)%nat /\ (0 < bo ML_DSA_44)%nat) by (destruct H as [<-|[<-|[<-|[]]]]; repeat split; apply Nat.ltb_lt; vm_compute; reflexivity).
  destruct (length s =? 0)%nat eqn:E0.
  { apply Nat.eqb_eq in E0. assert (r = -22) by (change (-22) with (- EINVAL); congruence). assert (x = dst) by congruence. subst. split; [|split; [discriminate|auto]].
    split; [discriminate|]. intros (P & HP & L). exfalso. destruct D as (D1 & D2 & D3). destruct HP as [<-|[<-|[<-|[]]]]; lia. }
  destruct (length s =? api_size bo T87)%nat eqn:E1; [|destruct (length s =? api_size bo T65)%nat eqn:E2; [|destruct (length s =? api_size bo T44)%nat eqn:E3]].
  1-3: (apply Nat.eqb_eq in E1 || apply Nat.eqb_eq in E2 || apply Nat.eqb_eq in E3).
  - assert (r = 0) by congruence. assert (x = mkT T87 s) by congruence. subst. unfold api_size in E1. cbn [param_of] in E1. split; [split; [intros _; exists ML_DSA_87; split; [right; right; left; reflexivity|exact E1]|reflexivity]|].
    split; [|congruence]. intros _. split; [|exists ML_DSA_87; split; [reflexivity|exact E1]]. unfold api_ptr. cbn [t_type t_data param_of]. rewrite <- E1, firstn_all. reflexivity.
  - assert (r = 0) by congruence. assert (x = mkT T65 s) by congruence. subst. unfold api_size in E2. cbn [param_of] in E2. split; [split; [intros _; exists ML_DSA_65; split; [right; left; reflexivity|exact E2]|reflexivity]|].
    split; [|congruence]. intros _. split; [|exists ML_DSA_65; split; [reflexivity|exact E2]]. unfold api_ptr. cbn [t_type t_data param_of]. rewrite <- E2, firstn_all. reflexivity.
  - assert (r = 0) by congruence. assert (x = mkT T44 s) by congruence. subst. unfold api_size in E3. cbn [param_of] in E3. split; [split; [intros _; exists ML_DSA_44; split; [left; reflexivity|exact E3]|reflexivity]|].
    split; [|congruence]. intros _. split; [|exists ML_DSA_44; split; [reflexivity|exact E3]]. unfold api_ptr. cbn [t_type t_data param_of]. rewrite <- E3, firstn_all. reflexivity.
  - assert (r = -22) by (change (-22) with (- EINVAL); congruence). assert (x = dst) by congruence. subst. split; [|split; [discriminate|auto]]. split; [discriminate|].
    unfold api_size in *. cbn [param_of] in *. apply Nat.eqb_neq in E1, E2, E3. intros (P & HP & L). exfalso. destruct HP as [<-|[<-|[<-|[]]]]; congruence.
Qed.
Print Assumptions C68_load.
Example C68_load_hypotheses : fst (api_load sig_bytes (mkT T_unknown []) (Some (zeros 3309))) = 0 /\ t_type (snd (api_load sig_bytes (mkT T_unknown []) (Some (zeros 3309)))) = T65 /\
  fst (api_load sig_bytes (mkT T_unknown []) (Some (zeros 3310))) = -22.
Proof. vm_compute. auto. Qed.
(** a signature of another set is refused before any of its bytes or the key's are looked at *)
Theorem C68_mismatch : forall ad1 ad2 fuel sg m pk, t_type sg <> t_type pk -> api_verify ad1 ad2 fuel sg m pk = Some (-22).
Proof. intros ad1 ad2 fuel [ts ds] m [tp dp] H. cbn [t_type] in H. unfold api_verify. cbn [t_type]. destruct ts, tp; try reflexivity; exfalso; apply H; reflexivity. Qed.
Print Assumptions C68_mismatch.

(** ** C69 *)
Lemma stack_start : forall P tr m, fst (d_start P tr m d_ctx_stack) = 0.
Proof. intros. reflexivity. Qed.
Lemma sign_code : forall rounds fuel P m sk rng r sg, d_sign rounds fuel P m sk (Some rng) = Some (r, sg) -> (0 <= fst rng -> r = 0) /\ (fst rng < 0 -> r = fst rng).
Proof.
  intros rounds fuel P m sk [rr rb] r sg E. unfold d_sign in E. Transparent d_sign_ctx. unfold d_sign_ctx in E. Opaque d_sign_ctx. pose proof (stack_start P (d_sk_tr sk) m) as R. pose proof (start_set_hash P (d_sk_tr sk) m d_ctx_stack) as SH.
  destruct (d_start P (d_sk_tr sk) m d_ctx_stack) as [r1 c1]. cbn [fst snd] in *. subst r1. change (0 <? 0) with false in E. cbv iota in E.
  assert (A : x_ahat c1 = None) by (rewrite SH; reflexivity). clear SH. unfold d_sign_internal in E. rewrite A in E. destruct (d_matrix_expand fuel P (firstn 32 sk)) as [M|]; [|discriminate].
  destruct (d_sign_internal_ahat rounds fuel P M sk (x_hash c1) (Some (rr, rb))) as [[r2 s2]|] eqn:E2; [|discriminate]. assert (r2 = r) by congruence. subst r2. clear E.
  Transparent d_sign_internal_ahat. unfold d_sign_internal_ahat in E2. Opaque d_sign_internal_ahat. cbv zeta beta iota in E2. destruct (Z.ltb_spec rr 0) as [L|L].
  - split; intro; [lia|congruence].
  - split; intro; [|lia]. destruct (d_sign_loop _ _ _ _ _ _ _ _ _ _); [congruence|discriminate].
Qed.
Lemma type_eqb_refl : forall t, dtype_eqb t t = true. Proof. destruct t; reflexivity. Qed.
(** For a generated key pair the test never returns anything but 0, or the code of the RNG if that fails. *)
Theorem C69_pct : forall fk pk0 sk0 seed t pk sk, bytes seed -> api_keypair_from_seed fk pk0 sk0 seed t = Some (0, pk, sk) ->
  forall ad1 ad2 rounds fuel ws_m ws_sg rng r, bytes ws_m -> length ws_m = 32%nat -> bytes (snd rng) -> length (snd rng) = 32%nat ->
  api_pct ad1 ad2 rounds fuel ws_m ws_sg pk sk rng = Some r -> r = if fst rng <? 0 then fst rng else 0.
Proof.
  intros fk pk0 sk0 seed t pk sk B K ad1 ad2 rounds fuel ws_m ws_sg rng r Bm Lm Br Lr E. unfold api_keypair_from_seed in K.
  destruct (param_of t) as [P|] eqn:EP; [|discriminate]. assert (HP : In P [ML_DSA_44; ML_DSA_65; ML_DSA_87]) by (destruct t; cbn [param_of] in EP; try discriminate; assert (Y : P = P) by reflexivity; injection EP as <-; cbn [In]; auto).
  destruct (d_keypair_from_seed fk P seed) as [[[r0 p] s]|] eqn:EK; [|discriminate]. destruct (r0 =? 0) eqn:E0.
  2: { exfalso. assert (r0 = 0) by congruence. subst r0. discriminate. }
  apply Z.eqb_eq in E0. subst r0. assert (pk = mkT t p) by congruence. assert (sk = mkT t s) by congruence. subst pk sk. clear K.
  unfold api_pct, api_sign in E. cbn [t_type t_data] in E. rewrite EP in E. destruct (d_sign rounds fuel P ws_m s (Some rng)) as [[r1 sg]|] eqn:ES; [|discriminate].
  destruct (sign_code _ _ _ _ _ _ _ _ ES) as [S1 S2]. destruct (Z.ltb_spec (fst rng) 0) as [L|L].
  - rewrite (S2 L) in E. replace (fst rng <? 0) with true in E by (symmetry; apply Z.ltb_lt; exact L). congruence.
  - rewrite (S1 L) in E. change (0 <? 0) with false in E. change (0 =? 0) with true in E. cbv iota in E. unfold api_verify in E. cbn [t_type t_data] in E. rewrite type_eqb_refl in E. cbn [negb] in E. rewrite EP in E.
    rewrite (S1 L) in ES. destruct rng as [rr rb]. cbn [fst snd] in *.
    destruct (C59_one_shot P fk seed p s HP B EK rounds fuel ws_m (Some (rr, rb)) sg ad1 ad2 Bm ltac:(lia) (conj Br Lr) ES) as [V _]. exact (V _ _ E).
Qed.
Print Assumptions C69_pct.
(** the hypotheses and a run that returns, evaluated at compile time *)
Definition C69_runs : True := ltac:(evaluates (
  match api_keypair_from_seed 4 (mkT T_unknown []) (mkT T_unknown []) kat_seed T44 with
  | Some (r, pk, sk) => (r =? 0) && match api_pct 0 0 30 4 (zeros 32) (mkT T_unknown []) pk sk (0, firstn 32 dv44_m) with Some r => r =? 0 | None => false end
                        && match api_pct 0 0 30 4 (zeros 32) (mkT T_unknown []) pk sk (-14, zeros 32) with Some r => r =? -14 | None => false end
  | None => false end)).
