(** Properties C23 - C29: DRBGs and DRNGs. Specifications: DrbgSpec.v (SP 800-90A), XofDrngSpec.v (XDRBG),
    CcDrngSpec.v (key stream of RFC 8439), and the trace monitor [all_allowed] of SeededProof.v. *)
From Verif Require Import Bytes Words Sha2Spec Sha2Model Sha2Proof HashIface MacSpec MacModel KmacSpec KmacModel Fips202
  KeccakBytes AsconSpec AsconModel AsconPerm AsconProof DrbgSpec DrbgModel DrbgProof XofDrngSpec XofDrngModel XofDrngProof
  ModesSpec ModesModel ChaChaProof CcDrngSpec CcDrngModel CcDrngProof SeededModel SeededProof DrbgVectors.

Definition h512_0 : HashIface.hctx sha512_ops := Sha2Model.mkS (zeros 8) 0 (zeros 128).
Definition hm512_0 : hmctx sha512_ops := mkHM sha512_ops h512_0 (zeros 128) (zeros 128).

(** ** C23. [hc]: any memory of the hash context. Return codes and outputs of all requests agree with
    SP 800-90A, and so do V, C and the counter afterwards (the code counts from 0, the standard from 1). *)
Theorem C23_hash_drbg : forall hc e p rs, swf cfg512 hc ->
  bytes e -> bytes p -> e <> [] -> Z.of_nat (length e) < 2 ^ 59 -> Z.of_nat (length p) <= 2 ^ 31 ->
  Z.of_nat (length rs) <= 2 ^ 48 ->
  Forall (fun r => match r with RSeed e p => bytes e /\ bytes p /\ Z.of_nat (length e) < 2 ^ 59 | RGen a _ => bytes a end) rs ->
  let m := run_reqs (hash_drbg_step sha512_ops 111) (hash_drbg_zero sha512_ops 111 hc) (RSeed e p :: rs) in
  let s := run_reqs (HD_step SHA512 64 111) None (RSeed e p :: rs) in
  fst m = fst s /\
  exists t, snd s = Some t /\ hd_V _ (snd m) = S_V t /\ hd_C _ (snd m) = S_C t /\ hd_ctr _ (snd m) + 1 = S_ctr t.
Proof.
  intros hc e p rs Hw He Hp Hne Hl Hlp Hrs Hg.
  assert (L1 : (h_ds sha512_ops <= 111)%nat) by (cbn; lia).
  assert (L2 : (8 <= 111)%nat) by lia. assert (L3 : (111 <= 255)%nat) by lia.
  exact (hash_drbg_ok sha512_ops (swf cfg512) SHA512 (2 ^ 61) sha512_ops_ok 111 L1 L2 L3 hc e p rs Hw
    (conj He (conj Hp Hl)) Hne Hlp Hrs Hg).
Qed.
Print Assumptions C23_hash_drbg.
Example C23_case :
  fst (run_reqs (hash_drbg_step sha512_ops 111) (hash_drbg_zero sha512_ops 111 h512_0)
    [RSeed hd_ent_nonce hd_pers; RGen hd_addtl1 256; RGen hd_addtl2 256; RGen [] 0; RGen [] 70000]) =
  [(0, []); (0, nth 1 (map snd (fst (run_reqs (hash_drbg_step sha512_ops 111) (hash_drbg_zero sha512_ops 111 h512_0)
    [RSeed hd_ent_nonce hd_pers; RGen hd_addtl1 256]))) []); (0, hd_exp); (0, []); (EINVAL, [])].
Proof. vm_compute. reflexivity. Qed.
Example C23_hyp : swf cfg512 h512_0 /\ hd_ent_nonce <> [] /\ bytes hd_ent_nonce.
Proof. split; [reflexivity|]. split; [discriminate|]. unfold bytes, byte, hd_ent_nonce. repeat constructor; lia. Qed.

(** ** C24 *)
Theorem C24_hmac_drbg : forall (c : hmctx sha512_ops) e p rs, swf cfg512 (hm_h sha512_ops c) ->
  bytes e -> bytes p -> e <> [] -> Z.of_nat (length e) < 2 ^ 58 -> Z.of_nat (length p) <= 2 ^ 31 ->
  Z.of_nat (length rs) <= 2 ^ 48 ->
  Forall (fun r => match r with RSeed e p => bytes e /\ bytes p /\ Z.of_nat (length e) < 2 ^ 58 | RGen a _ => bytes a end) rs ->
  let m := run_reqs (hmac_drbg_step sha512_ops) (hmac_drbg_zero sha512_ops c) (RSeed e p :: rs) in
  let s := run_reqs (HMD_step SHA512 128 64) None (RSeed e p :: rs) in
  fst m = fst s /\ exists t, snd s = Some t /\ hmd_V _ (snd m) = S_V' t /\ hmd_C _ (snd m) = S_K t.
Proof.
  intros c e p rs Hw He Hp Hne Hl Hlp Hrs Hg.
  exact (hmac_drbg_ok sha512_ops (swf cfg512) SHA512 (2 ^ 61) sha512_ops_ok c e p rs Hw
    (conj He (conj Hp Hl)) Hne Hlp Hrs Hg).
Qed.
Print Assumptions C24_hmac_drbg.
Example C24_case :
  nth 2 (fst (run_reqs (hmac_drbg_step sha512_ops) (hmac_drbg_zero sha512_ops hm512_0)
    [RSeed hm_ent_nonce hm_pers; RGen hm_addtl1 256; RGen hm_addtl2 256])) (1, []) = (0, hm_exp).
Proof. vm_compute. reflexivity. Qed.
Example C24_hyp : swf cfg512 (hm_h sha512_ops hm512_0) /\ hm_ent_nonce <> [].
Proof. split; [reflexivity|discriminate]. Qed.

(** ** C25. "Returns an error and writes nothing" for every DRNG type is false: each of these returns 0 and
    writes output computed from an all zero state. *)
(** Code 0 and 16 bytes of output that differ from the 16 zero bytes the buffer held. *)
Definition delivers {S : Type} (x : Z * list Z * S) : Prop :=
  fst (fst x) = 0 /\ length (snd (fst x)) = 16%nat /\ snd (fst x) <> zeros 16.
Lemma unseeded_hash : delivers (hash_drbg_step sha512_ops 111 (hash_drbg_zero sha512_ops 111 h512_0) (RGen [] 16)).
Proof. vm_compute. split; [reflexivity|split; [reflexivity|discriminate]]. Qed.
Lemma unseeded_hmac : delivers (hmac_drbg_step sha512_ops (hmac_drbg_zero sha512_ops hm512_0) (RGen [] 16)).
Proof. vm_compute. split; [reflexivity|split; [reflexivity|discriminate]]. Qed.
Lemma unseeded_x256 : delivers (xdrbg256_generate (xdrbg_zero 64) [] (zeros 16)).
Proof. vm_compute. split; [reflexivity|split; [reflexivity|discriminate]]. Qed.
Lemma unseeded_x128 : delivers (xdrbg128_generate (xdrbg_zero 32) [] (zeros 16)).
Proof. vm_compute. split; [reflexivity|split; [reflexivity|discriminate]]. Qed.
Lemma unseeded_cshake : delivers (csdrng_generate xdrng_zero [] (zeros 16)).
Proof. vm_compute. split; [reflexivity|split; [reflexivity|discriminate]]. Qed.
Lemma unseeded_kmac : delivers (kmdrng_generate xdrng_zero [] (zeros 16)).
Proof. vm_compute. split; [reflexivity|split; [reflexivity|discriminate]]. Qed.
Lemma unseeded_cc20 : delivers (0, fst (cc20_drng_generate cc20_drng_zero 16), tt).
Proof. vm_compute. split; [reflexivity|split; [reflexivity|discriminate]]. Qed.
(** The contexts are unseeded; lc_cc20_drng_generate has no return value. *)
Theorem C25_refuted :
  (hd_seeded _ (hash_drbg_zero sha512_ops 111 h512_0) = false /\ hmd_seeded _ (hmac_drbg_zero sha512_ops hm512_0) = false /\
   xd_seeded (xdrbg_zero 64) = false /\ xd_seeded (xdrbg_zero 32) = false /\ xd_seeded xdrng_zero = false) /\
  delivers (hash_drbg_step sha512_ops 111 (hash_drbg_zero sha512_ops 111 h512_0) (RGen [] 16)) /\
  delivers (hmac_drbg_step sha512_ops (hmac_drbg_zero sha512_ops hm512_0) (RGen [] 16)) /\
  delivers (xdrbg256_generate (xdrbg_zero 64) [] (zeros 16)) /\
  delivers (xdrbg128_generate (xdrbg_zero 32) [] (zeros 16)) /\
  delivers (csdrng_generate xdrng_zero [] (zeros 16)) /\
  delivers (kmdrng_generate xdrng_zero [] (zeros 16)) /\
  delivers (0, fst (cc20_drng_generate cc20_drng_zero 16), tt).
Proof.
  split; [repeat split|].
  split; [exact unseeded_hash|]. split; [exact unseeded_hmac|]. split; [exact unseeded_x256|].
  split; [exact unseeded_x128|]. split; [exact unseeded_cshake|]. split; [exact unseeded_kmac|exact unseeded_cc20].
Qed.
Print Assumptions C25_refuted.

(** What every unseeded XDRBG, cSHAKE DRNG and KMAC DRNG does: code 0 for each request, whatever its size. *)
Theorem C25_unseeded_returns_success : forall one chunk s alpha buf,
  xd_seeded s = false -> fst (fst (drng_generate one chunk s alpha buf)) = 0.
Proof. intros. unfold drng_generate. destruct (drng_gen_loop _ _ _ _ _ _). reflexivity. Qed.
Print Assumptions C25_unseeded_returns_success.

(** The property holds of the HKDF and KDF-CTR RNGs before any seed call, for every hash ... *)
Theorem C25_kdf_rngs_partial :
  (forall h c a n, hk_rng h c = false -> hkdf_rng_generate h c a n = (EOPNOTSUPP, [], c)) /\
  (forall h c a n, kc_rng h c = false -> kdf_ctr_rng_generate h c a n = (EOPNOTSUPP, [], c)).
Proof.
  split; intros h c a n H; [unfold hkdf_rng_generate|unfold kdf_ctr_rng_generate]; rewrite H; reflexivity.
Qed.
Print Assumptions C25_kdf_rngs_partial.
Example C25_hkdf_hyp : exists c : hkctx sha512_ops, hk_rng _ c = false.
Proof. exists (hkdf_fresh _ hm512_0). reflexivity. Qed.
(** ... and of the seeded RNG in its initial state when the noise source fails. *)
Theorem C25_seeded_partial : forall D (d_init : D) d_seed d_gen d e a n,
  ~ (32 <= fst (e_ent1 e) <= 64) ->
  exists r s ev, seeded_generate d_init d_seed d_gen (srng0 d) e a n = (r, [], s, ev) /\ r < 0.
Proof.
  intros D d_init d_seed d_gen d e a n He. unfold seeded_generate, get_seeded, srng0. cbn [s_last s_bytes s_pid].
  change (0 =? 0) with true. cbv iota.
  destruct (Z.ltb_spec (e_noise e) 0) as [Hn|Hn].
  - rewrite (proj2 (Z.ltb_lt _ _) Hn). rewrite (proj2 (Z.ltb_lt _ _) Hn). do 3 eexists. split; [reflexivity|lia].
  - rewrite (proj2 (Z.ltb_ge _ _) Hn). unfold must_reseed. cbn [s_bytes].
    change (MAX_BYTES <? MAX_BYTES + 1) with true. cbv iota.
    unfold seed_seeded. assert (E : ent_ok (e_ent1 e) 32 = false).
    { unfold ent_ok. destruct (Z.leb_spec 32 (fst (e_ent1 e))); destruct (Z.leb_spec (fst (e_ent1 e)) 64); cbn; auto. lia. }
    rewrite E. cbn [negb]. change (EFAULT <? 0) with true. cbv iota. do 3 eexists. split; [reflexivity|unfold EFAULT; lia].
Qed.
Print Assumptions C25_seeded_partial.

(** ** C26 *)
(** XDRBG256. [fill n]: the caller's buffer. [s]: any context not marked seeded. *)
Theorem C26_xdrbg256 : forall fill s e p rs, (forall n, length (fill n) = n) -> xd_seeded s = false ->
  let good r := match r with
                | RSeed e p => bytes e /\ bytes p /\ (length p <= 84)%nat /\ Z.of_nat (length e) < 2 ^ 60
                | RGen a _ => bytes a /\ (length a <= 84)%nat
                end in
  Forall good (RSeed e p :: rs) ->
  let m := run_reqs (xd_req xdrbg256_seed xdrbg256_generate fill) s (RSeed e p :: rs) in
  run_reqs (XD_step (XD_SEED SHAKE256 64) (XD_GEN SHAKE256) 64 208) None (RSeed e p :: rs) =
    (fst m, Some (xd_key (snd m))).
Proof.
  intros fill s e p rs Hf Hs good Hg.
  assert (G : Forall (xreq_good 208 (xokg (fun _ => True) 64) (xoks (fun _ => True) 64)) (RSeed e p :: rs)).
  { eapply Forall_impl; [|exact Hg]. intros [e' p'|a n]; cbn.
    - intros (A & B & C & E). repeat split; auto.
    - intros (A & B). repeat split; auto. apply Forall_forall. intros x _ V _. exact I. }
  inversion G; subst.
  assert (HB : forall m n, bytes m -> bytes (SHAKE256 m n) /\ length (SHAKE256 m n) = n).
  { intros m n Hm. unfold SHAKE256. apply keccak_c_ok; auto; [lia|unfold byte; lia]. }
  assert (L1 : (0 < 208)%nat) by lia. assert (L2 : (64 <= 64)%nat) by lia.
  apply (xdrbg_ok shake256_xo SHAKE256 (fun _ => True) 64 208 L1 shake_xo_ok HB L2); auto.
Qed.
Print Assumptions C26_xdrbg256.
Example C26_case : fst (run_reqs (xd_req xdrbg256_seed xdrbg256_generate (repeat 7)) (xdrbg_zero 64)
  [RSeed x256_seed []; RGen [] 247]) = [(0, []); (0, x256_exp)].
Proof. vm_compute. reflexivity. Qed.

(** Old state gone: after generate the key is the first 64 bytes of the last XOF call, of which no byte is
    output. *)
Theorem C26_state_replaced : forall key alpha n, bytes key -> length key = 64%nat -> bytes alpha -> (length alpha <= 84)%nat ->
  (0 < n <= 208)%nat -> forall seeded buf, length buf = n ->
  let T := SHAKE256 (ENCODE key alpha 2) (64 + n) in
  xdrbg256_generate (mkXD seeded key) alpha buf = (0, skipn 64 T, mkXD seeded (firstn 64 T)).
Proof.
  intros key alpha n Bk Lk Ba La Hn seeded buf Hb T.
  assert (HB : forall m n, bytes m -> bytes (SHAKE256 m n) /\ length (SHAKE256 m n) = n).
  { intros m n' Hm. unfold SHAKE256. apply keccak_c_ok; auto; [lia|unfold byte; lia]. }
  assert (L1 : (0 < 208)%nat) by lia. assert (L2 : (64 <= 64)%nat) by lia.
  pose proof (xdrbg_one_ok shake256_xo SHAKE256 (fun _ => True) 64 208 L1 shake_xo_ok L2 key alpha n
    (conj Lk Bk) Ba La (fun _ _ => I)) as E.
  assert (BT : length T = (64 + n)%nat).
  { apply HB. unfold ENCODE. repeat apply bytes_app; auto. constructor; [unfold byte; lia|constructor]. }
  unfold xdrbg256_generate, xdrbg_generate, drng_generate. cbn [xd_key xd_seeded].
  destruct n as [|n]; [lia|]. rewrite Hb. cbn [drng_gen_loop]. rewrite Hb. cbn [Nat.eqb].
  rewrite (Nat.min_l (S n) 208) by lia. rewrite E. fold T in E.
  change (XD_GEN SHAKE256 key alpha (64 + S n)) with T.
  rewrite (skipn_all2 (n := S n) buf) by lia.
  assert (E0 : forall f k0 a, drng_gen_loop (xdrbg_one shake256_xo 64) 208 f k0 a [] = ([], k0)) by (destruct f; reflexivity).
  rewrite E0. rewrite skipn_all2 with (l := firstn (S n) buf) by (rewrite firstn_length, skipn_length; lia).
  rewrite !app_nil_r. reflexivity.
Qed.
Print Assumptions C26_state_replaced.

(** The encodings are injective for alpha up to 84 bytes, across the three uses n = 0, 1, 2. *)
Theorem C26_encode_injective : forall S alpha n S' alpha' n', (length alpha <= 84)%nat -> (length alpha' <= 84)%nat ->
  0 <= n <= 2 -> 0 <= n' <= 2 -> ENCODE S alpha n = ENCODE S' alpha' n' -> S = S' /\ alpha = alpha' /\ n = n'.
Proof. exact ENCODE_inj. Qed.
Print Assumptions C26_encode_injective.
(** Beyond the limit the additional input is cut off at 84 bytes without an error. *)
Theorem C26_alpha_truncated : forall s e alpha tail, length alpha = 84%nat ->
  xdrbg256_seed s e (alpha ++ tail) = xdrbg256_seed s e alpha.
Proof.
  intros s e alpha tail Hl. unfold xdrbg256_seed, xdrbg_seed, drng_encode.
  rewrite firstn_app, Hl, Nat.sub_diag, firstn_O, app_nil_r. reflexivity.
Qed.
Print Assumptions C26_alpha_truncated.

(** XDRBG128 is not XOF(ENCODE(...)) for every seed: a 7 byte seed, whose encoding fills the Ascon rate
    exactly with its last update (compare C06). *)
Theorem C26_xdrbg128_refuted : exists e, bytes e /\ length e = 7%nat /\
  xd_key (snd (xdrbg128_seed (xdrbg_zero 32) e [])) <> ASCON_XOF128 (ENCODE e [] 0) 32.
Proof.
  exists [1;2;3;4;5;6;7]. split; [repeat constructor; unfold byte; lia|]. split; [reflexivity|].
  assert (B : Forall bytes [ENCODE [1;2;3;4;5;6;7] [] 0]).
  { constructor; [|constructor]. unfold ENCODE. repeat constructor; unfold byte; cbn; lia. }
  destruct (ascon_xo_ok [ENCODE [1;2;3;4;5;6;7] [] 0] [32%nat] B) as [E _]; [cbn; lia|cbn; lia|].
  cbn [concat list_sum fold_right] in E. rewrite app_nil_r in E. change (32 + 0)%nat with 32%nat in E. rewrite <- E.
  vm_compute. discriminate.
Qed.
Print Assumptions C26_xdrbg128_refuted.
(** It is when no update ends exactly on a block boundary it did not start on: seeds with
    (|e| + |p|) mod 8 <> 7 whose own length is fine, and additional input with |alpha| mod 8 <> 7. *)
Theorem C26_xdrbg128_partial : forall fill s e p rs, (forall n, length (fill n) = n) -> xd_seeded s = false ->
  let good r := match r with
                | RSeed e p => bytes e /\ bytes p /\ (length p <= 84)%nat /\ Z.of_nat (length e) < 2 ^ 60 /\
                    safe_split 0 (e :: drng_encode 0 p) /\
                    forall V, length V = 32%nat -> safe_split 0 (V :: e :: drng_encode 1 p)
                | RGen a _ => bytes a /\ (length a <= 84)%nat /\ (length a mod 8 <> 7)%nat
                end in
  Forall good (RSeed e p :: rs) ->
  let m := run_reqs (xd_req xdrbg128_seed xdrbg128_generate fill) s (RSeed e p :: rs) in
  run_reqs (XD_step (XD_SEED ASCON_XOF128 32) (XD_GEN ASCON_XOF128) 32 256) None (RSeed e p :: rs) =
    (fst m, Some (xd_key (snd m))).
Proof.
  intros fill s e p rs Hf Hs good Hg.
  assert (G : Forall (xreq_good 256 (xokg (safe_split 0) 32) (xoks (safe_split 0) 32)) (RSeed e p :: rs)).
  { eapply Forall_impl; [|exact Hg]. intros [e' p'|a n]; cbn [good xreq_good].
    - intros (A & B & C & E & F & H). exact (conj A (conj B (conj C (conj E (conj F H))))).
    - intros (A & B & C). split; [exact A|]. split; [exact B|]. apply Forall_forall. intros x _ V HV.
      apply safe_gen32; auto. }
  inversion G; subst.
  assert (L1 : (0 < 256)%nat) by lia. assert (L2 : (32 <= 64)%nat) by lia.
  apply (xdrbg_ok ascon_xo ASCON_XOF128 (safe_split 0) 32 256 L1 ascon_xo_ok ascon_hash_ok L2); auto.
Qed.
Print Assumptions C26_xdrbg128_partial.
Example C26_xdrbg128_case : fst (run_reqs (xd_req xdrbg128_seed xdrbg128_generate (repeat 7)) (xdrbg_zero 32)
  [RSeed x128_seed []; RGen [] (length x128_exp)]) = [(0, []); (0, x128_exp)].
Proof. vm_compute. reflexivity. Qed.
Example C26_xdrbg128_hyp : safe_split 0 (x128_seed :: drng_encode 0 []) /\
  forall V, length V = 32%nat -> safe_split 0 (V :: x128_seed :: drng_encode 1 []).
Proof. split; [vm_compute; intuition discriminate|]. intros V H. cbn. rewrite H. vm_compute. intuition discriminate. Qed.

(** ** C27 *)
Definition drng_good (r : drbg_req) : Prop :=
  match r with
  | RSeed e p => bytes e /\ bytes p /\ (length p <= 84)%nat /\ Z.of_nat (length e) < 2 ^ 60
  | RGen a _ => bytes a /\ (length a <= 84)%nat
  end.
(** [XD_step]/[gen_chunks]: each piece is a fresh stream under the current key; its first 64 bytes become the
    key, the rest is output. *)
Theorem C27_cshake_drng : forall fill s e p rs, (forall n, length (fill n) = n) -> xd_seeded s = false ->
  Forall drng_good (RSeed e p :: rs) ->
  let m := run_reqs (xd_req csdrng_seed csdrng_generate fill) s (RSeed e p :: rs) in
  run_reqs (XD_step CS_SEED CS_GEN 64 208) None (RSeed e p :: rs) = (fst m, Some (xd_key (snd m))).
Proof.
  intros fill s e p rs Hf Hs Hg.
  assert (G : Forall (xreq_good 208 (fun _ _ => True) (fun _ _ => True)) (RSeed e p :: rs)).
  { eapply Forall_impl; [|exact Hg]. intros [e' p'|a n]; cbn.
    - intros (A & B & C & E). repeat split; auto.
    - intros (A & B). repeat split; auto. apply Forall_forall. auto. }
  inversion G; subst. apply csdrng_ok; auto.
Qed.
Print Assumptions C27_cshake_drng.
Example C27_case : fst (run_reqs (xd_req csdrng_seed csdrng_generate (repeat 7)) xdrng_zero
  [RSeed cs_seed []; RGen [] (length cs_exp)]) = [(0, []); (0, cs_exp)] /\ (208 < length cs_exp)%nat.
Proof. split; [vm_compute; reflexivity|cbn; lia]. Qed.

(** KMAC: a piece of 1, 2 or 3 bytes is never written although 0 is returned; the caller keeps the bytes
    the buffer had before, in every state. *)
Theorem C27_kmac_refuted : forall s alpha buf, (1 <= length buf <= 3)%nat ->
  exists s', kmdrng_generate s alpha buf = (0, buf, s').
Proof. intros s alpha buf H. exact (kmdrng_tail s alpha buf (length buf) H eq_refl). Qed.
Print Assumptions C27_kmac_refuted.
Theorem C27_kmac_partial : forall fill s e p rs, (forall n, length (fill n) = n) -> xd_seeded s = false ->
  Forall (fun r => drng_good r /\ match r with RGen _ n => ~ (1 <= n mod 208 <= 3)%nat | _ => True end) (RSeed e p :: rs) ->
  let m := run_reqs (xd_req kmdrng_seed kmdrng_generate fill) s (RSeed e p :: rs) in
  run_reqs (XD_step KM_SEED KM_GEN 64 208) None (RSeed e p :: rs) = (fst m, Some (xd_key (snd m))).
Proof.
  intros fill s e p rs Hf Hs Hg.
  assert (G : Forall (xreq_good 208 long_enough (fun _ _ => True)) (RSeed e p :: rs)).
  { eapply Forall_impl; [|exact Hg]. intros [e' p'|a n]; cbn [xreq_good drng_good].
    - intros ((A & B & C & E) & _). repeat split; auto.
    - intros ((A & B) & C). split; [exact A|]. split; [exact B|]. exact (chunk_sizes_long n C). }
  inversion G; subst. apply kmdrng_ok; auto.
Qed.
Print Assumptions C27_kmac_partial.
Example C27_kmac_case : fst (run_reqs (xd_req kmdrng_seed kmdrng_generate (repeat 7)) xdrng_zero
  [RSeed km_seed []; RGen [] (length km_exp); RGen [] 2]) = [(0, []); (0, km_exp); (0, [7; 7])].
Proof. vm_compute. reflexivity. Qed.

(** ** C28 *)
(** The code is [CC_generate]: n stream bytes are delivered, the key is XORed with the 32 stream bytes from
    [key_pos n] on; these positions lie at or behind n, so no delivered byte enters the key; and block i of
    the request uses counter (c + i) mod 2^32, pairwise distinct for requests of up to 2^38 - 128 bytes. *)
Theorem C28_generate : forall s n, cc_wf s ->
  cc20_drng_generate (CCst s) n = (fst (CC_generate s n), CCst (snd (CC_generate s n))) /\
  cc_wf (snd (CC_generate s n)) /\ (n <= key_pos n)%nat /\ (key_pos n + 32 <= 64 * blocks_used n)%nat.
Proof.
  intros s n Hw. destruct (cc_generate_ok s n Hw) as [A B]. split; [exact A|]. split; [exact B|].
  split; [apply key_pos_ge|]. unfold blocks_used, blocks64.
  pose proof (Nat.div_mod_eq (key_pos n + 32 + 63) 64). pose proof (Nat.mod_upper_bound (key_pos n + 32 + 63) 64). lia.
Qed.
Print Assumptions C28_generate.
Theorem C28_seed : forall s x, cc_wf s -> bytes x ->
  cc20_drng_seed (CCst s) x = CCst (CC_seed s x) /\ cc_wf (CC_seed s x).
Proof. exact cc_seed_ok. Qed.
Print Assumptions C28_seed.
Theorem C28_counters_distinct : forall c n i j, Z.of_nat n <= 2 ^ 38 - 128 -> (i < j < blocks_used n)%nat ->
  (c + Z.of_nat i) mod 2 ^ 32 <> (c + Z.of_nat j) mod 2 ^ 32.
Proof.
  intros c n i j Hn Hij. apply (counters_distinct c n i j); auto.
  pose proof (blocks_used_le n). assert (Z.of_nat (n / 64) <= 2 ^ 32 - 2).
  { rewrite Nat2Z.inj_div. change (Z.of_nat 64) with 64. change (2 ^ 32 - 2) with ((2 ^ 38 - 128) / 64). apply Z.div_le_mono; lia. }
  lia.
Qed.
Print Assumptions C28_counters_distinct.
(** "with counter room": a request of 2^38 + 64 bytes is accepted and its last block repeats its first. *)
Theorem C28_counter_wraps : forall s n, cc_wf s -> Z.of_nat n = 2 ^ 38 + 64 ->
  let out := fst (cc20_drng_generate (CCst s) n) in slice out 0 64 = slice out (n - 64) 64 /\ length out = n.
Proof.
  intros s n Hw Hn. destruct (cc_generate_ok s n Hw) as [E _]. rewrite E. cbn [fst]. exact (counter_wraps s n Hw Hn).
Qed.
Print Assumptions C28_counter_wraps.
Example C28_case :
  let s := mkCC (zeros 32) 0 (zeros 12) in
  cc_wf s /\ fst (cc20_drng_generate (CCst s) 32) = cc_exp /\
  key_pos 32 = 32%nat /\ key_pos 33 = 64%nat /\ blocks_used 33 = 2%nat /\ key_pos 5 = 8%nat /\
  cc20_drng_zero = CCst (mkCC (zeros 32) 1 (zeros 12)).
Proof.
  cbn zeta. split; [repeat split; try apply bytes_zeros; cbn; lia|]. repeat split; vm_compute; reflexivity.
Qed.

(** ** C29. [all_allowed None ev]: each delivery in the trace [ev] is made by the process that performed the
    last complete seeding, at most 60 seconds after it, with at most 2^20 bytes delivered before since then.
    It holds for every inner DRNG and every sequence of calls if clock readings are positive, the seeding
    itself takes no step back of more than 60 s, and process ids are not reused along the line of descent. *)
Theorem C29_partial : forall D (d_init : D) d_seed d_gen d l,
  Forall (fun ec => clock_ok (fst ec) /\ e_check (fst ec) <= e_time1 (fst ec) + 60 /\ call_ok (snd ec)) l ->
  lineage (map (fun ec => e_pid (fst ec)) l) ->
  all_allowed None (snd (srng_run d_init d_seed d_gen (srng0 d) l)).
Proof. exact run0_ok. Qed.
Print Assumptions C29_partial.

Definition genv (pid t : Z) : senv := mkE pid 0 t (32, zeros 32) (16, zeros 16) t (32, zeros 32) t.
Example C29_case :
  let l := [(genv 5 1000, CGen [] 16); (genv 5 1061, CGen [] 16); (genv 6 1062, CGen [] 1)] in
  lineage (map (fun ec => e_pid (fst ec)) l) /\
  snd (srng_run 0 (fun d _ _ => (0, d + 1)) (fun d _ n => (0, repeat d n, d)) (srng0 9) l) =
    [EInit; ESeed 5 1000; EGen 5 1000 16; ESeed 5 1061; EGen 5 1061 16; ESeed 6 1062; EGen 6 1062 1] /\
  Forall (fun ec => clock_ok (fst ec) /\ e_check (fst ec) <= e_time1 (fst ec) + 60 /\ call_ok (snd ec)) l.
Proof.
  cbn zeta. split; [cbn; intuition lia|]. split; [reflexivity|].
  repeat constructor; cbn; lia.
Qed.

(** The first call. *)
Lemma first_call : forall D (d_init : D) d_seed d_gen d p t a n,
  (forall s x p, fst (d_seed s x p) = 0) -> (forall s a n, fst (fst (d_gen s a n)) = 0) -> Z.of_nat n < 2 ^ 64 ->
  exists o d', seeded_generate d_init d_seed d_gen (srng0 d) (genv p t) a n =
    (0, o, mkS d' (Z.of_nat n) (get_time t) p, [EInit; ESeed p (get_time t); EGen p (get_time t) n]).
Proof.
  intros D d_init d_seed d_gen d p t a n Hs Hg Hn. unfold seeded_generate, get_seeded, srng0, genv. cbn [s_last s_bytes s_pid e_noise e_pid].
  change (0 =? 0) with true. change (0 <? 0) with false. cbv iota. change (0 <? 0) with false. cbv iota.
  unfold must_reseed. cbn [s_bytes]. change (MAX_BYTES <? MAX_BYTES + 1) with true. cbv iota.
  unfold seed_seeded. cbn [e_ent1 e_ent2 e_time1 fst snd s_d s_pid s_bytes s_last].
  change (negb (ent_ok (32, zeros 32) 32)) with false. cbv iota.
  pose proof (Hs d_init (firstn (Z.to_nat 32) (zeros 32)) srng_pers) as H1.
  destruct (d_seed d_init (firstn (Z.to_nat 32) (zeros 32)) srng_pers) as [r1 d1]. cbn [fst] in H1. subst r1.
  change (0 <? 0) with false. cbv iota. change (negb (ent_ok (16, zeros 16) 16)) with false. cbv iota.
  pose proof (Hs d1 (firstn (Z.to_nat 16) (zeros 16)) []) as H1.
  destruct (d_seed d1 (firstn (Z.to_nat 16) (zeros 16)) []) as [r2 d2]. cbn [fst] in H1. subst r2.
  change (0 <? 0) with false. cbv iota. cbn [s_d s_bytes s_last s_pid].
  pose proof (Hg d2 a n) as H1. destruct (d_gen d2 a n) as [[r3 o3] d3]. cbn [fst] in H1. subst r3.
  change (0 <? 0) with false. cbv iota. change (0 =? 0) with true. cbv iota. rewrite Z.add_0_l, t64_id by (unfold w64; lia).
  rewrite (proj2 (Z.ltb_ge (Z.of_nat n) 0)) by lia. exists o3, d3. reflexivity.
Qed.
Lemma zero_time_call : forall D (d_init : D) d_seed d_gen d p t a n b,
  (forall s a n, fst (fst (d_gen s a n)) = 0) -> get_time t = 0 -> 0 <= b <= 2 ^ 20 -> Z.of_nat n <= 2 ^ 20 ->
  seeded_generate d_init d_seed d_gen (mkS d b 0 p) (genv p t) a n =
    (0, snd (fst (d_gen d_init a n)), mkS (snd (d_gen d_init a n)) (b + Z.of_nat n) 0 p, [EInit; EGen p 0 n]).
Proof.
  intros D d_init d_seed d_gen d p t a n b Hg Ht Hb Hn. unfold seeded_generate, get_seeded, genv. cbn [s_last s_bytes s_pid e_noise e_pid].
  change (0 =? 0) with true. change (0 <? 0) with false. cbv iota. change (0 <? 0) with false. cbv iota.
  unfold must_reseed. cbn [s_bytes s_last s_pid e_check e_pid]. unfold MAX_BYTES. rewrite (proj2 (Z.ltb_ge (2 ^ 20) b)) by lia.
  assert (TA : time_after_now t (t64 (0 + MAX_TIME)) = false).
  { unfold time_after_now. rewrite Ht. reflexivity. }
  rewrite TA, Z.eqb_refl. cbn [negb]. change (0 <? 0) with false. cbv iota. cbn [s_d s_bytes s_last s_pid].
  pose proof (Hg d_init a n) as H1. destruct (d_gen d_init a n) as [[r4 o4] d4]. cbn [fst snd] in H1 |- *. subst r4.
  change (0 <? 0) with false. cbv iota. rewrite t64_id by (unfold w64; lia).
  rewrite (proj2 (Z.ltb_ge (b + Z.of_nat n) b)) by lia. rewrite Ht. reflexivity.
Qed.

(** A clock at 0 (or failing) defeats it: the entropy is drawn and thrown away, and the second call delivers
    the output of the freshly initialised, never seeded inner DRNG, for every inner DRNG. *)
Theorem C29_clock_refuted : forall t, t = 0 \/ t = -1 ->
  forall D (d_init : D) d_seed d_gen d,
  (forall s x p, fst (d_seed s x p) = 0) -> (forall s a n, fst (fst (d_gen s a n)) = 0) ->
  let r := srng_run d_init d_seed d_gen (srng0 d) [(genv 5 t, CGen [] 16); (genv 5 t, CGen [] 16)] in
  nth 1 (fst (fst r)) (1, []) = fst (d_gen d_init [] 16%nat) /\ ~ all_allowed None (snd r).
Proof.
  intros t Ht D d_init d_seed d_gen d Hs Hg r.
  assert (GT : get_time t = 0) by (destruct Ht; subst; reflexivity).
  unfold r. cbn [srng_run srng_step].
  destruct (first_call D d_init d_seed d_gen d 5 t [] 16%nat Hs Hg) as (o & d' & E); [cbn; lia|]. rewrite E, GT.
  rewrite (zero_time_call D d_init d_seed d_gen d' 5 t [] 16%nat (Z.of_nat 16) Hg GT) by (cbn; lia).
  cbn [fst snd nth app]. split.
  - specialize (Hg d_init [] 16%nat). destruct (d_gen d_init [] 16%nat) as [[r4 o4] d4]. cbn in *. congruence.
  - cbn. intros (_ & _ & _ & _ & H & _). destruct H as (t0 & b & H & _). discriminate.
Qed.
Print Assumptions C29_clock_refuted.
Example C29_clock_case :
  map fst (fst (fst (srng_run 0 (fun d _ _ => (0, d + 1)) (fun d _ n => (0, repeat d n, d)) (srng0 9)
    [(genv 5 0, CGen [] 2); (genv 5 0, CGen [] 2)]))) = [0; 0] /\
  map snd (fst (fst (srng_run 0 (fun d _ _ => (0, d + 1)) (fun d _ n => (0, repeat d n, d)) (srng0 9)
    [(genv 5 0, CGen [] 2); (genv 5 0, CGen [] 2)]))) = [[2; 2]; [0; 0]].
Proof. split; reflexivity. Qed.

(** The process id is not recorded when a reseed is due to the byte or time threshold: a process whose id
    equals that of an ancestor then delivers from a seed drawn by the process in between. *)
Theorem C29_pid_refuted : forall n, 2 ^ 20 < Z.of_nat n < 2 ^ 64 ->
  exists l, Forall (fun ec => clock_ok (fst ec)) l /\
    l = [(genv 5 1000, CGen [] n); (genv 6 1001, CGen [] 16); (genv 5 1002, CGen [] 16)] /\
    ~ all_allowed None (snd (srng_run 0 (fun d _ _ => (0, d + 1)) (fun d _ _ => (0, [], d)) (srng0 9) l)).
Proof.
  intros n Hn. eexists. split; [|split; [reflexivity|]].
  - repeat constructor; cbn; lia.
  - cbn [srng_run srng_step].
    destruct (first_call Z 0 (fun d _ _ => (0, d + 1)) (fun d _ _ => (0, [], d)) 9 5 1000 [] n) as (o & d' & E); auto; [lia|].
    rewrite E. change (get_time 1000) with 1000. clear E.
    assert (E2 : seeded_generate 0 (fun d _ _ => (0, d + 1)) (fun d _ _ => (0, [], d)) (mkS d' (Z.of_nat n) 1000 5) (genv 6 1001) [] 16 =
      (0, [], mkS (d' + 1) 16 1001 5, [ESeed 6 1001; EGen 6 1001 16])).
    { unfold seeded_generate, get_seeded. cbn [s_last]. change (1000 =? 0) with false. cbv iota.
      unfold must_reseed. cbn [s_bytes]. unfold MAX_BYTES. rewrite (proj2 (Z.ltb_lt (2 ^ 20) (Z.of_nat n))) by lia. reflexivity. }
    rewrite E2.
    assert (E3 : seeded_generate 0 (fun d _ _ => (0, d + 1)) (fun d _ _ => (0, [], d)) (mkS (d' + 1) 16 1001 5) (genv 5 1002) [] 16 =
      (0, [], mkS (d' + 1) 32 1001 5, [EGen 5 1002 16])) by reflexivity.
    rewrite E3.
    cbn [snd app all_allowed mon_step allowed]. intros (_ & _ & _ & _ & _ & H & _).
    destruct H as (t0 & b & H & _). discriminate.
Qed.
Print Assumptions C29_pid_refuted.

(** A failed seeding fails the call, delivers nothing and leaves the state as it was, so the next call finds
    the same conditions and tries again. *)
Theorem C29_failed_seeding : forall D (d_init : D) d_seed d_gen (s : srng D) e a n,
  ~ (32 <= fst (e_ent1 e) <= 64) -> s_last s <> 0 -> fst (must_reseed s e) = true ->
  seeded_generate d_init d_seed d_gen s e a n = (EFAULT, [], s, []).
Proof.
  intros D d_init d_seed d_gen s e a n He Hl Hm. unfold seeded_generate, get_seeded.
  rewrite (proj2 (Z.eqb_neq _ _) Hl). change (0 <? 0) with false. cbv iota.
  destruct (must_reseed s e) as [m np]. cbn [fst] in Hm. subst m. unfold seed_seeded.
  assert (E : ent_ok (e_ent1 e) 32 = false).
  { unfold ent_ok. destruct (Z.leb_spec 32 (fst (e_ent1 e))); destruct (Z.leb_spec (fst (e_ent1 e)) 64); cbn; auto. lia. }
  rewrite E. reflexivity.
Qed.
Print Assumptions C29_failed_seeding.
Example C29_failed_case : exists e, ~ (32 <= fst (e_ent1 e) <= 64) /\ fst (must_reseed (SeededModel.mkS 0 (2 ^ 20 + 1) 1000 5) e) = true.
Proof. exists (mkE 5 0 1000 (-14, []) (0, []) 1000 (0, []) 1000). split; [cbn; lia|reflexivity]. Qed.
