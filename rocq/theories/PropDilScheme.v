(** C59: a signature made with a generated key pair is accepted for the same message and context. *)
From Verif Require Import Bytes Words Fips202 KeccakModel Sha3Model KeccakBytes Sha3Top UtilModel UtilProof KyberModel KyberSample DilithiumModel DilithiumSpec DilithiumHint DilithiumSample
  DilithiumScheme DilithiumVerify DilithiumVectors DilithiumKat.
Require Import Lia.
Import ListNotations.

(** [accepted run]: the verification [run], as a function of the fuel of its samplers, returns nothing but success, and it does
    return. [run] gives the return code, whether the workspace was released, and the context afterwards. *)
Definition accepted (run : nat -> option (Z * bool * dctx)) : Prop :=
  (forall f r b c, run f = Some (r, b, c) -> r = 0) /\ exists f0, forall f, (f0 <= f)%nat -> exists c, run f = Some (0, true, c).
(** a matrix buffer is absent, or not marked as expanded and large enough, or holds the matrix of the key at hand *)
Definition cache_fits (P : dparam) (key : list Z) (c : dctx) : Prop :=
  x_ahat c = None \/
  (x_expanded c = false /\ 1024 * Z.of_nat (d_k P * d_l P) <= x_ahat_size c) \/
  (exists f a, x_ahat c = Some a /\ x_expanded c = true /\ d_matrix_expand f P (firstn 32 key) = Some a).
(** what lc_rng_generate delivers for the 32 bytes requested, if an RNG is given *)
Definition rng_bytes (rng : option (Z * list Z)) : Prop := match rng with Some (_, b) => bytes b /\ length b = 32%nat | None => True end.
Definition settings (c : dctx) : bool * option prehash * list Z * bool := (x_internal c, x_prehash c, x_userctx c, x_composite c).

Lemma fits_ok : forall P key c, cache_fits P key c -> cache_ok P (firstn 32 key) c.
Proof.
  intros P key c H. unfold cache_ok. destruct (x_ahat c) as [a|] eqn:E; [|exact I]. destruct H as [H|[[H1 H2]|(f & a' & H1 & H3 & H2)]]; [congruence| |].
  - rewrite H1. unfold ahat_bytes. lia.
  - rewrite H3. exists f. congruence.
Qed.
Lemma start_eq : forall P tr m c r c1, d_start P tr m c = (r, c1) ->
  exists b, signature_domain_separation (x_internal c) (x_prehash c) (x_userctx c) m (d_cat P) (x_composite c) = (r, b) /\
    c1 = set_hash c (keccak_updates permB (keccak_init alg_shake256) [tr; b]).
Proof.
  intros P tr m c r c1 E. unfold d_start in E. destruct (signature_domain_separation _ _ _ m _ _) as [r' b]. exists b. split; [congruence|].
  assert (X := f_equal snd E). cbn [snd] in X. symmetry. exact X.
Qed.
Definition absorb_all (ms : list (list Z)) (c : dctx) : dctx := fold_left d_update ms c.
Lemma absorb_all_eq : forall ms c, absorb_all ms c = set_hash c (keccak_updates permB (x_hash c) ms).
Proof.
  induction ms as [|m ms IH]; intro c. destruct c; reflexivity. unfold absorb_all in *. cbn [fold_left]. rewrite IH. unfold d_update, set_hash. cbn [x_hash x_prehash x_userctx x_ahat x_ahat_size x_composite x_internal x_expanded]. reflexivity.
Qed.
Lemma updates_app : forall k a b, keccak_updates permB (keccak_updates permB k a) b = keccak_updates permB k (a ++ b).
Proof. intros. unfold keccak_updates. rewrite fold_left_app. reflexivity. Qed.
Lemma total_len : forall (ms : list (list Z)) n, Z.of_nat (length (concat ms)) < n -> forall tr b, Z.of_nat (length (concat ([tr; b] ++ ms))) < Z.of_nat (length tr + length b) + n.
Proof. intros ms n H tr b. cbn [app concat]. rewrite !app_length. lia. Qed.

(** ** init, update in arbitrary pieces, final, on both sides *)
Theorem C59_streaming : forall P fk seed pk sk, In P [ML_DSA_44; ML_DSA_65; ML_DSA_87] -> bytes seed ->
  d_keypair_from_seed fk P seed = Some (0, pk, sk) ->
  forall rounds fs cs cs1 cv ms msv rng sg cs' ad1 ad2, Forall bytes ms -> Forall bytes msv -> concat ms = concat msv -> Z.of_nat (length (concat ms)) < 2 ^ 63 ->
  bytes (x_userctx cs) -> settings cv = settings cs -> cache_fits P sk cs -> cache_fits P pk cv -> rng_bytes rng ->
  d_sign_init P cs sk = (0, cs1) -> d_sign_final rounds fs P (absorb_all ms cs1) sk rng = Some (0, sg, cs') ->
  exists cv1, d_verify_init P cv pk = (0, cv1) /\ accepted (fun f => d_verify_final ad1 ad2 f P sg (absorb_all msv cv1) pk).
Proof.
  intros P fk seed pk sk HP B K rounds fs cs cs1 cv ms msv rng sg cs' ad1 ad2 Bm Bmv EM LM Bu ES Cs Cv Hr EI EF.
  destruct (keypair_honest fk P seed pk sk HP B K) as (A & s1 & s2 & t0 & t1 & HH). assert (HH' := HH).
  destruct HH' as (_ & _ & _ & _ & _ & (Kr & Ktr & _ & _ & Bp & Lp)).
  assert (Lp' : (length pk <= 2600)%nat) by (destruct (dset_small P HP) as (Hk & _); lia).
  assert (BT : bytes (shake256_of [pk] 64) /\ length (shake256_of [pk] 64) = 64%nat).
  { apply shake_facts. repeat constructor; auto. cbn [concat]. rewrite app_nil_r. lia. }
  unfold d_sign_init in EI. rewrite Ktr in EI. unfold d_verify_init. set (tr := shake256_of [pk] 64) in *. clearbody tr. destruct BT as [BT LT].
  destruct (start_eq _ _ _ _ _ _ EI) as (b & ED & E1). destruct (domsep_facts _ _ _ _ _ _ _ _ Bu (Forall_nil byte) ED ltac:(lia)) as [Bb Lb]. cbn [length] in Lb.
  assert (X : x_internal cv = x_internal cs /\ x_prehash cv = x_prehash cs /\ x_userctx cv = x_userctx cs /\ x_composite cv = x_composite cs) by (unfold settings in ES; repeat split; congruence).
  destruct X as (X1 & X2 & X3 & X4).
  exists (set_hash cv (keccak_updates permB (keccak_init alg_shake256) [tr; b])). split. { unfold d_start. rewrite X1, X2, X3, X4, ED. reflexivity. }
  set (cv2 := absorb_all msv _). set (cs2 := absorb_all ms cs1) in *.
  assert (Ecv : cv2 = set_hash cv (keccak_updates permB (keccak_init alg_shake256) ([tr; b] ++ msv))).
  { unfold cv2. rewrite absorb_all_eq, <- updates_app. reflexivity. }
  assert (Ecs : cs2 = set_hash cs (keccak_updates permB (keccak_init alg_shake256) ([tr; b] ++ ms))).
  { unfold cs2. rewrite absorb_all_eq, E1, <- updates_app. reflexivity. }
  clearbody cv2 cs2.
  assert (Fcs : fst (xof_read permB (x_hash cs2) 64) = shake256_of ([tr; b] ++ ms) 64) by (rewrite Ecs; unfold shake256_of, set_hash; cbn [x_hash]; reflexivity).
  assert (Fcv : fst (xof_read permB (x_hash cv2) 64) = shake256_of ([tr; b] ++ msv) 64) by (rewrite Ecv; unfold shake256_of, set_hash; cbn [x_hash]; reflexivity).
  assert (BB : Forall bytes ([tr; b] ++ ms)) by (repeat constructor; auto). assert (BBv : Forall bytes ([tr; b] ++ msv)) by (repeat constructor; auto).
  pose proof (total_len ms _ LM tr b) as TL. pose proof (total_len msv (2 ^ 63) ltac:(rewrite <- EM; exact LM) tr b) as TLv.
  assert (T1 : Z.of_nat (length (concat ([tr; b] ++ ms))) < 2 ^ 64) by lia. assert (T2 : Z.of_nat (length (concat ([tr; b] ++ msv))) < 2 ^ 64) by lia.
  destruct (shake_facts _ 64 BB T1) as [Bmu Lmu].
  assert (Emu : shake256_of ([tr; b] ++ msv) 64 = shake256_of ([tr; b] ++ ms) 64).
  { rewrite (shake256_of_ok _ 64 BB T1), (shake256_of_ok _ 64 BBv T2). cbn [app concat]. rewrite EM. reflexivity. }
  rewrite Emu in Fcv. set (mu := shake256_of ([tr; b] ++ ms) 64) in *. clearbody mu.
  assert (Ccs : cache_ok P (firstn 32 sk) cs2) by (rewrite Ecs; apply fits_ok in Cs; exact Cs).
  assert (Ccv : cache_ok P (firstn 32 pk) cv2) by (rewrite Ecv; apply fits_ok in Cv; exact Cv).
  clear Ecv Ecs. unfold d_sign_final in EF. destruct (d_sign_internal rounds fs P sk cs2 rng) as [[[r s] c']|] eqn:EI2; [|discriminate].
  assert (r = 0) by congruence. assert (s = sg) by congruence. subst r s. clear EF.
  destruct (internal_ok P pk sk A s1 s2 t0 t1 mu rounds fs cs2 cv2 rng sg c' ad1 ad2 HP HH Bmu Lmu Fcs Fcv Hr Ccs Ccv EI2) as [V1 [f0 V2]].
  unfold accepted, d_verify_final. split.
  - intros f r b' c E. destruct (d_verify_internal ad1 ad2 f P sg pk cv2) as [[[r0 b0] c0]|] eqn:EV; [|discriminate]. apply V1 in EV. congruence.
  - exists f0. intros f Hf. destruct (V2 f Hf) as [c E]. rewrite E. eauto.
Qed.
Print Assumptions C59_streaming.

(** ** one call, with a caller's context on each side *)
Theorem C59_sign_verify : forall P fk seed pk sk, In P [ML_DSA_44; ML_DSA_65; ML_DSA_87] -> bytes seed ->
  d_keypair_from_seed fk P seed = Some (0, pk, sk) ->
  forall rounds fs cs cv m rng sg cs' ad1 ad2, bytes m -> Z.of_nat (length m) < 2 ^ 63 ->
  bytes (x_userctx cs) -> settings cv = settings cs -> cache_fits P sk cs -> cache_fits P pk cv -> rng_bytes rng ->
  d_sign_ctx rounds fs P cs m sk rng = Some (0, sg, cs') ->
  accepted (fun f => d_verify_ctx ad1 ad2 f P sg cv m pk).
Proof.
  intros P fk seed pk sk HP B K rounds fs cs cv m rng sg cs' ad1 ad2 Bm LM Bu ES Cs Cv Hr EF.
  destruct (keypair_honest fk P seed pk sk HP B K) as (A & s1 & s2 & t0 & t1 & HH). assert (HH' := HH).
  destruct HH' as (_ & _ & _ & _ & _ & (Kr & Ktr & _ & _ & Bp & Lp)).
  assert (Lp' : (length pk <= 2600)%nat) by (destruct (dset_small P HP) as (Hk & _); lia).
  assert (BT : bytes (shake256_of [pk] 64) /\ length (shake256_of [pk] 64) = 64%nat).
  { apply shake_facts. repeat constructor; auto. cbn [concat]. rewrite app_nil_r. lia. }
  unfold d_sign_ctx in EF. rewrite Ktr in EF. unfold d_verify_ctx. set (tr := shake256_of [pk] 64) in *. clearbody tr. destruct BT as [BT LT].
  destruct (d_start P tr m cs) as [r cs2] eqn:EI. destruct (r <? 0) eqn:Er. { assert (r = 0) by congruence. subst r. discriminate Er. } apply Z.ltb_ge in Er.
  destruct (start_eq _ _ _ _ _ _ EI) as (b & ED & E1). destruct (domsep_facts _ _ _ _ _ _ _ _ Bu Bm ED Er) as [Bb Lb].
  assert (X : x_internal cv = x_internal cs /\ x_prehash cv = x_prehash cs /\ x_userctx cv = x_userctx cs /\ x_composite cv = x_composite cs) by (unfold settings in ES; repeat split; congruence).
  destruct X as (X1 & X2 & X3 & X4).
  assert (EV : d_start P tr m cv = (r, set_hash cv (keccak_updates permB (keccak_init alg_shake256) [tr; b]))) by (unfold d_start; rewrite X1, X2, X3, X4, ED; reflexivity).
  rewrite EV. cbv iota beta. replace (r <? 0) with false by (symmetry; apply Z.ltb_ge; exact Er).
  set (cv2 := set_hash cv (keccak_updates permB (keccak_init alg_shake256) [tr; b])).
  assert (Fcs : fst (xof_read permB (x_hash cs2) 64) = shake256_of [tr; b] 64) by (rewrite E1; unfold shake256_of, set_hash; cbn [x_hash]; reflexivity).
  assert (Fcv : fst (xof_read permB (x_hash cv2) 64) = shake256_of [tr; b] 64) by (unfold cv2, shake256_of, set_hash; cbn [x_hash]; reflexivity).
  assert (Ccs : cache_ok P (firstn 32 sk) cs2) by (rewrite E1; apply fits_ok in Cs; exact Cs).
  assert (Ccv : cache_ok P (firstn 32 pk) cv2) by (apply fits_ok in Cv; exact Cv).
  clearbody cv2. clear E1.
  assert (BB : Forall bytes [tr; b]) by (repeat constructor; auto).
  assert (T1 : Z.of_nat (length (concat [tr; b])) < 2 ^ 64) by (cbn [concat]; rewrite !app_length; cbn [length]; lia).
  destruct (shake_facts _ 64 BB T1) as [Bmu Lmu]. set (mu := shake256_of [tr; b] 64) in *. clearbody mu.
  exact (internal_ok P pk sk A s1 s2 t0 t1 mu rounds fs cs2 cv2 rng sg cs' ad1 ad2 HP HH Bmu Lmu Fcs Fcv Hr Ccs Ccv EF).
Qed.
Print Assumptions C59_sign_verify.

(** ** lc_dilithium_keypair_from_seed, lc_dilithium_sign, lc_dilithium_verify, which make their own contexts *)
Theorem C59_one_shot : forall P fk seed pk sk, In P [ML_DSA_44; ML_DSA_65; ML_DSA_87] -> bytes seed ->
  d_keypair_from_seed fk P seed = Some (0, pk, sk) ->
  forall rounds fs m rng sg ad1 ad2, bytes m -> Z.of_nat (length m) < 2 ^ 63 -> rng_bytes rng ->
  d_sign rounds fs P m sk rng = Some (0, sg) ->
  (forall f r, d_verify ad1 ad2 f P sg m pk = Some r -> r = 0) /\
  exists f0, forall f, (f0 <= f)%nat -> d_verify ad1 ad2 f P sg m pk = Some 0.
Proof.
  intros P fk seed pk sk HP B K rounds fs m rng sg ad1 ad2 Bm LM Hr E. unfold d_sign in E.
  destruct (d_sign_ctx rounds fs P d_ctx_stack m sk rng) as [[[r s] c]|] eqn:ES; [|discriminate]. assert (r = 0) by congruence. assert (s = sg) by congruence. subst r s.
  assert (F : forall key, cache_fits P key d_ctx_stack) by (intro; left; reflexivity).
  destruct (C59_sign_verify P fk seed pk sk HP B K rounds fs d_ctx_stack d_ctx_stack m rng sg c ad1 ad2 Bm LM (Forall_nil byte) eq_refl (F sk) (F pk) Hr ES) as [V1 [f0 V2]].
  unfold d_verify. split.
  - intros f r EV. destruct (d_verify_ctx ad1 ad2 f P sg d_ctx_stack m pk) as [[[r0 b0] c0]|] eqn:EC; [|discriminate]. apply V1 in EC. congruence.
  - exists f0. intros f Hf. destruct (V2 f Hf) as [c' EC]. rewrite EC. reflexivity.
Qed.
Print Assumptions C59_one_shot.

(** The hypotheses are met by the self-test vector of ML-DSA-44: the side conditions below are checked by the kernel; that key
    generation and signing return these very bytes with code 0 is evaluated when the file is compiled (and by [keygen_44],
    [sign_44] in DilithiumKat, where [verify_44] evaluates the conclusion). *)
Example C59_hypotheses : In ML_DSA_44 [ML_DSA_44; ML_DSA_65; ML_DSA_87] /\ bytes dv44_m /\ Z.of_nat (length dv44_m) < 2 ^ 63 /\ rng_bytes None /\
  rng_bytes (Some (0, firstn 32 dv44_m)) /\ cache_fits ML_DSA_44 dv44_sk d_ctx_stack /\ cache_fits ML_DSA_44 dv44_sk (d_ctx_stack_ahat ML_DSA_44 []).
Proof.
  assert (B : bytes dv44_m) by (apply Forall_forall; intros x Hx; revert x Hx; apply Forall_forall; repeat constructor; unfold byte; lia).
  split; [left; reflexivity|]. split; [exact B|]. split; [vm_compute; reflexivity|]. split; [exact I|]. split; [split; [apply bytes_firstn; exact B|reflexivity]|].
  split; [left; reflexivity|right; left; split; [reflexivity|vm_compute; discriminate]].
Qed.
Definition C59_runs : True := ltac:(evaluates (
  match d_keypair_from_seed 4 ML_DSA_44 kat_seed with
  | Some (r, pk, sk) => (r =? 0) && match d_sign 20 4 ML_DSA_44 dv44_m sk None with
      | Some (r', sg) => (r' =? 0) && eq_list sg dv44_sig && match d_verify 0 0 4 ML_DSA_44 sg dv44_m pk with Some 0 => true | _ => false end
      | None => false end
  | None => false end)).
