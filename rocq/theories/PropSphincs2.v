(** C73-C77: SLH-DSA, the streaming interface with SHAKE256, reuse of a context, loading of keys, keys from a seed, the
    consistency test. *)
From Verif Require Import Bytes Fips202 Sha2Spec PropHash KeccakBytes UtilModel KeccakModel Sha3Model DilithiumModel DilithiumSample DilithiumKat KyberSample SphincsModel SphincsApiModel
  SlhSpec SlhCorrect SphincsAddr SphincsProof PropSphincs.

(** ** C73: with SHAKE256 at categories 1 and 3 the digest is not the one of HashSLH-DSA *)
Definition demo_sk : obj := mkObj (Some S128s) (repeat 1 16 ++ repeat 2 16 ++ repeat 3 16 ++ repeat 4 16 ++ zeros 64).
Definition demo_sig : obj := mkObj None (zeros 49856).
Lemma demo_mem : sig_mem demo_sig.
Proof. split. apply bytes_zeros. apply length_zeros. Qed.
Lemma demo_str : forall x, 0 <= x < 256 -> str S128s (repeat x 16).
Proof. intros x H. split. apply Forall_forall. intros y Hy. apply repeat_spec in Hy. subst y. exact H. reflexivity. Qed.
Lemma demo_key : member sp_sk S128s demo_sk = repeat 1 16 ++ repeat 2 16 ++ repeat 3 16 ++ repeat 4 16.
Proof. reflexivity. Qed.
(** two accepted requests with different representatives leave different randomizers, where the hash tells them apart *)
Lemma demo_differs : forall c1 m1 b1 c2 m2 b2, bytes (sc_userctx c1) -> bytes (sc_userctx c2) -> bytes m1 -> bytes m2 ->
  Z.of_nat (length m1) < 2 ^ 64 - 1000 -> Z.of_nat (length m2) < 2 ^ 64 - 1000 -> M' S128s c1 m1 = Some b1 -> M' S128s c2 m2 = Some b2 ->
  Z.of_nat (length b1) < 2 ^ 63 -> Z.of_nat (length b2) < 2 ^ 63 ->
  shake256_of [repeat 2 16; repeat 3 16; b1] 16 <> shake256_of [repeat 2 16; repeat 3 16; b2] 16 ->
  api_sign_ctx (Some demo_sig) c1 m1 (Some demo_sk) None <> api_sign_ctx (Some demo_sig) c2 m2 (Some demo_sk) None.
Proof.
  intros c1 m1 b1 c2 m2 b2 U1 U2 B1 B2 L1 L2 E1 E2 LB1 LB2 D C.
  assert (R : randomizer S128s None (repeat 3 16) (repeat 3 16)) by (left; auto).
  destruct (C71_sign S128s demo_sig demo_sk _ _ _ _ c1 m1 None _ b1 demo_mem eq_refl demo_key ltac:(apply demo_str; lia) ltac:(apply demo_str; lia) ltac:(apply demo_str; lia) ltac:(apply demo_str; lia) U1 B1 L1 E1 R) as (g1 & S1 & _ & _ & M1).
  destruct (C71_sign S128s demo_sig demo_sk _ _ _ _ c2 m2 None _ b2 demo_mem eq_refl demo_key ltac:(apply demo_str; lia) ltac:(apply demo_str; lia) ltac:(apply demo_str; lia) ltac:(apply demo_str; lia) U2 B2 L2 E2 R) as (g2 & S2 & _ & _ & M2).
  rewrite S1, S2 in C. assert (G : g1 = g2) by congruence. rewrite G in M1. rewrite M2 in M1. apply (f_equal (firstn (f_n (row S128s)))) in M1. rewrite !sign_R in M1.
  apply D. pose proof (M'_bytes _ _ _ _ U1 B1 E1). pose proof (M'_bytes _ _ _ _ U2 B2 E2). pose proof (proj1 (demo_str 2 ltac:(lia))). pose proof (proj1 (demo_str 3 ltac:(lia))).
  rewrite !shake256_of_ok.
  - cbn [concat]. rewrite !app_nil_r. unfold PRF_msg in M1. symmetry. exact M1.
  - repeat (apply Forall_cons; [auto|]); apply Forall_nil.
  - cbn [concat]. rewrite !app_length, !repeat_length. cbn [length]. lia.
  - repeat (apply Forall_cons; [auto|]); apply Forall_nil.
  - cbn [concat]. rewrite !app_length, !repeat_length. cbn [length]. lia.
Qed.
Lemma sign_hash_irrelevant : forall P mem h h' pre u i dg sk rng, sp_sign_ctx P mem (mkSC h pre u i) dg sk rng = sp_sign_ctx P mem (mkSC h' pre u i) dg sk rng.
Proof. reflexivity. Qed.
Definition ctx_shake256 : spctx := mkSC None (Some PH_shake256) [] false.
Theorem C73_shake256_refuted : exists t sg sk c ms rng other old, ob_type sk = Some t /\ sig_mem sg /\ Forall bytes ms /\
  M' t c (hash_value (hash_used t c) (concat ms)) <> None /\
  option_map fst (api_sign_final other old (Some sg) (streamed c sk ms) (Some sk) rng) <>
  api_sign_ctx (Some sg) (ctx_hash c (Some (hash_used t c))) (hash_value (hash_used t c) (concat ms)) (Some sk) rng.
Proof.
  exists S128s, demo_sig, demo_sk, ctx_shake256, [[97]], None, (fun _ _ => []), [].
  split; [reflexivity|]. split; [apply demo_mem|]. split; [repeat constructor; lia|]. split; [cbn; discriminate|].
  rewrite (streamed_eq ctx_shake256 demo_sk S128s [[97]] eq_refl). change (hash_used S128s ctx_shake256) with PH_shake256. unfold api_sign_final. change (ob_type demo_sk) with (Some S128s). cbv iota.
  unfold sp_sign_final. cbn [sc_hash ctx_shake256 sc_userctx sc_internal ph_digest].
  change (fst (xof_read permB (keccak_updates permB (keccak_init alg_shake256) [[97]]) (shake_size (set_of S128s)))) with (shake256_of [[97]] 32).
  assert (LD : length (shake256_of [[97]] 32) = 32%nat). { rewrite shake256_of_ok; [apply SHAKE256_len|repeat constructor; lia|cbn; lia]. }
  rewrite LD. change (64 <? 32)%nat with false. cbv iota.
  assert (HV : hash_value PH_shake256 (concat [[97]]) = shake256_of [[97]] 64). { rewrite shake256_of_ok; [reflexivity|repeat constructor; lia|cbn; lia]. }
  rewrite HV. intros C.
  apply (demo_differs ctx_shake256 (shake256_of [[97]] 32) (hash_slh_message [] (hash_oid 12) (shake256_of [[97]] 32))
                      ctx_shake256 (shake256_of [[97]] 64) (hash_slh_message [] (hash_oid 12) (shake256_of [[97]] 64))).
  - constructor.
  - constructor.
  - rewrite shake256_of_ok; [|repeat constructor; lia|cbn; lia]. apply SHAKE256_bytes. repeat constructor; lia.
  - rewrite shake256_of_ok; [|repeat constructor; lia|cbn; lia]. apply SHAKE256_bytes. repeat constructor; lia.
  - rewrite LD. lia.
  - rewrite shake256_of_ok; [|repeat constructor; lia|cbn; lia]. rewrite SHAKE256_len. lia.
  - reflexivity.
  - reflexivity.
  - unfold hash_slh_message. rewrite !app_length. rewrite LD. cbn. lia.
  - unfold hash_slh_message. rewrite !app_length. rewrite (shake256_of_ok [[97]] 64); [|repeat constructor; lia|cbn; lia]. rewrite SHAKE256_len. cbn. lia.
  - vm_compute. discriminate.
  - refine (eq_trans _ C). clear C. unfold api_sign_ctx. change (ob_type demo_sk) with (Some S128s). cbv iota.
    set (dg := shake256_of [[97]] 32). clearbody dg.
    rewrite (sign_hash_irrelevant _ _ (Some (PH_shake256, [[97]])) None).
    change (mkSC None (Some PH_shake256) [] false) with ctx_shake256. generalize (sp_sign_ctx (set_of S128s) (member sp_sig S128s demo_sig) ctx_shake256 dg (member sp_sk S128s demo_sk) None). intros [[r g]|]; reflexivity.
Qed.
Print Assumptions C73_shake256_refuted.

(** the hypotheses of the positive theorems at SHA-512 and SLH-DSA-SHAKE-256s: three chunks against one *)
Example C73_case : exists pk' sk' sg',
  api_keypair (Some (mkObj None (repeat 9 64))) (Some (mkObj None (repeat 8 128))) (Some (0, repeat 5 96)) (Some S256s) = Some (0, Some pk', Some sk') /\
  option_map fst (api_sign_final (fun _ _ => []) (repeat 170 128) (Some demo_sig) (streamed (mkSC None (Some PH_sha512) [1] false) sk' [[97]; []; [98; 99]]) (Some sk') None) = Some (0, Some sg') /\
  option_map fst (api_verify_final (fun _ _ => []) (repeat 170 128) 64 128 (Some sg') (streamed (mkSC None (Some PH_sha512) [1] false) pk' [[97; 98; 99]]) (Some pk')) = Some 0.
Proof.
  assert (B : forall l, forallb (fun x => (0 <=? x) && (x <? 256)) l = true -> bytes l).
  { intros l H. apply Forall_forall. intros x Hx. rewrite forallb_forall in H. specialize (H x Hx). apply andb_true_iff in H. unfold byte. lia. }
  apply (C73_stream_round_trip_partial (fun _ _ => []) (repeat 170 128) 64 128 S256s) with (rnd := repeat 5 32).
  - split; [apply B; reflexivity|reflexivity].
  - split; [apply B; reflexivity|reflexivity].
  - apply demo_mem.
  - apply B; reflexivity.
  - reflexivity.
  - apply B; reflexivity.
  - split; [cbn; discriminate|split; cbn; discriminate].
  - reflexivity.
  - repeat (apply Forall_cons; [apply B; reflexivity|]); apply Forall_nil.
  - repeat (apply Forall_cons; [apply B; reflexivity|]); apply Forall_nil.
  - reflexivity.
  - cbn. lia.
  - cbn. discriminate.
  - left. split; reflexivity.
Qed.

(** ** C76: a context used for streaming without a hash function set keeps one afterwards *)
Lemma final_ctx : forall other old t sg c h ms sk rng g c0, ob_type sk = Some t ->
  option_map fst (api_sign_final other old (Some sg) (mkSC (Some (h, ms)) (Some h) (sc_userctx c) (sc_internal c)) (Some sk) rng) = Some (0, g) ->
  c0 = mkSC None (Some h) (sc_userctx c) (sc_internal c) ->
  api_sign_final other old (Some sg) (mkSC (Some (h, ms)) (Some h) (sc_userctx c) (sc_internal c)) (Some sk) rng = Some (0, g, c0).
Proof.
  intros other old t sg c h ms sk rng g c0 Ht E ->. unfold api_sign_final in *. rewrite Ht in *. unfold sp_sign_final in *. cbn [sc_hash] in *.
  destruct (_ <? _)%nat. { cbn in E. discriminate E. }
  destruct (sp_sign_ctx _ _ _ _ _ _) as [[r g']|]; [|discriminate]. cbn [option_map fst] in E. injection E as -> <-. reflexivity.
Qed.
Theorem C76_context_after_streaming : forall other old t sg sk c ms rng g, ob_type sk = Some t ->
  option_map fst (api_sign_final other old (Some sg) (streamed c sk ms) (Some sk) rng) = Some (0, g) ->
  exists c', api_sign_final other old (Some sg) (streamed c sk ms) (Some sk) rng = Some (0, g, c') /\
    sc_prehash c' = Some (hash_used t c) /\ sc_userctx c' = sc_userctx c /\ sc_internal c' = sc_internal c.
Proof.
  intros other old t sg sk c ms rng g Ht E. rewrite (streamed_eq c sk t ms Ht) in *. eexists. split; [eapply final_ctx; eauto|]. repeat split.
Qed.
Print Assumptions C76_context_after_streaming.
Theorem C76_reuse_refuted : exists t sg sk c ms rng other old sg' c' m, ob_type sk = Some t /\ sig_mem sg /\ Forall bytes ms /\ bytes m /\
  api_sign_final other old (Some sg) (streamed c sk ms) (Some sk) rng = Some (0, Some sg', c') /\
  api_sign_ctx (Some sg) c' m (Some sk) rng <> api_sign_ctx (Some sg) c m (Some sk) rng.
Proof.
  assert (B97 : bytes [97]) by (repeat constructor; lia). assert (F97 : Forall bytes [[97]]) by (repeat (apply Forall_cons; [auto|]); apply Forall_nil).
  assert (R : randomizer S128s None (repeat 3 16) (repeat 3 16)) by (left; auto).
  pose proof (hash_value_len PH_sha3_256 [97]) as LH. pose proof (hash_value_bytes PH_sha3_256 [97] B97) as BH.
  destruct (C71_sign S128s demo_sig demo_sk _ _ _ _ (ctx_hash sc0 (Some PH_sha3_256)) (hash_value PH_sha3_256 [97]) None _ _ demo_mem eq_refl demo_key ltac:(apply demo_str; lia) ltac:(apply demo_str; lia) ltac:(apply demo_str; lia) ltac:(apply demo_str; lia) ltac:(constructor) BH ltac:(lia) eq_refl R) as (g1 & S1 & _).
  assert (E : option_map fst (api_sign_final (fun _ _ => []) [] (Some demo_sig) (streamed sc0 demo_sk [[97]]) (Some demo_sk) None) = Some (0, Some g1)).
  { rewrite (C73_stream_sign_partial (fun _ _ => []) [] S128s demo_sig demo_sk sc0 [[97]] None); auto.
    - repeat split; cbn; try discriminate.
    - cbn. auto.
    - cbn. lia. }
  destruct (C76_context_after_streaming _ _ S128s demo_sig demo_sk _ _ _ _ eq_refl E) as (c' & E' & P1 & P2 & P3).
  exists S128s, demo_sig, demo_sk, sc0, [[97]], None, (fun _ _ => []), [], g1, c', [97].
  split; [reflexivity|]. split; [apply demo_mem|]. split; [exact F97|]. split; [exact B97|]. split; [exact E'|].
  destruct c' as [ch cp cu ci]. cbn in P1, P2, P3. subst cp cu ci.
  apply (demo_differs _ [97] (hash_slh_message [] (hash_oid 8) [97]) sc0 [97] (slh_message [] [97])); auto; try (constructor || (cbn; lia) || reflexivity).
  vm_compute. discriminate.
Qed.
Print Assumptions C76_reuse_refuted.

(** ** C74: exporting and loading *)
Definition small (t : stype) : stype := match t with S256f => S256s | S192f => S192s | S128f => S128s | t => t end.
Definition reload (size : sparam -> nat) (o o2 : obj) : option obj :=
  match api_ptr size (Some o) with
  | (_, Some b) => match api_load size (Some o2) (Some b) with (r, Some o2') => if r =? 0 then Some o2' else None | _ => None end
  | _ => None
  end.
Lemma load_sig : forall t o s, length s = sp_sig (set_of t) -> api_load sp_sig (Some o) (Some s) = (0, Some (put o (Some t) s)).
Proof.
  intros t o s L. unfold api_load. rewrite L.
  destruct t; cbn [set_of]; repeat match goal with |- context [(?a =? ?b)%nat] => let v := eval vm_compute in (a =? b)%nat in replace (a =? b)%nat with v by (vm_compute; reflexivity); cbv iota end; reflexivity.
Qed.
Lemma load_key : forall size t o s, size = sp_pk \/ size = sp_sk -> length s = size (set_of t) -> api_load size (Some o) (Some s) = (0, Some (put o (Some (small t)) s)).
Proof. intros size t o s [-> | ->] L; unfold api_load; rewrite L; destruct t; reflexivity. Qed.
Theorem C74_signature_round_trip : forall t o o2, sig_mem o -> sig_mem o2 -> ob_type o = Some t ->
  exists o2', reload sp_sig o o2 = Some o2' /\ ob_type o2' = Some t /\ member sp_sig t o2' = member sp_sig t o.
Proof.
  intros t o o2 [_ L] [_ L2] Ht. destruct (sizes t) as (_ & _ & _ & Z4 & Z5).
  assert (LM : length (member sp_sig t o) = sp_sig (set_of t)) by (unfold member; rewrite firstn_length; lia).
  unfold reload, api_ptr. rewrite Ht. rewrite (load_sig t) by exact LM. eexists. split; [reflexivity|]. split; [reflexivity|]. apply member_put; lia.
Qed.
Theorem C74_key_round_trip_partial : forall size t o o2, size = sp_pk /\ pk_mem o /\ pk_mem o2 \/ size = sp_sk /\ sk_mem o /\ sk_mem o2 -> ob_type o = Some t ->
  exists o2', reload size o o2 = Some o2' /\ ob_type o2' = Some (small t) /\ member size t o2' = member size t o /\
    (small t <> t -> exists o3, api_fast (Some o2') = (0, Some o3) /\ ob_type o3 = Some t /\ member size t o3 = member size t o).
Proof.
  intros size t o o2 H Ht. destruct (sizes t) as (Z1 & Z2 & Z3 & _).
  assert (D : (size = sp_pk \/ size = sp_sk) /\ (size (set_of t) <= length (ob_mem o))%nat /\ (size (set_of t) <= length (ob_mem o2))%nat).
  { destruct H as [(-> & [_ A] & [_ B])|(-> & [_ A] & [_ B])]; rewrite ?Z1, ?Z2; repeat split; auto; lia. }
  destruct D as (D & D1 & D2). assert (LM : length (member size t o) = size (set_of t)) by (unfold member; rewrite firstn_length; lia).
  unfold reload, api_ptr. rewrite Ht. rewrite (load_key size t) by auto. eexists. split; [reflexivity|]. split; [reflexivity|].
  assert (M : forall t', member size t (put o2 t' (member size t o)) = member size t o) by (intros; apply member_put; lia).
  split; [apply M|]. intros N. destruct t; cbn [small] in N; try congruence; (eexists; split; [reflexivity|split; [reflexivity|apply (M (Some _))]]).
Qed.
Definition demo_fast : obj := mkObj (Some S128f) (repeat 7 16 ++ zeros 48).
Theorem C74_fast_key_refuted : exists t o o2 o2', pk_mem o /\ pk_mem o2 /\ ob_type o = Some t /\ reload sp_pk o o2 = Some o2' /\ ob_type o2' <> Some t.
Proof.
  exists S128f, demo_fast, (mkObj None (zeros 64)). eexists. split; [split; [apply bytes_app; [apply (proj1 (demo_str 7 ltac:(lia)))|apply bytes_zeros]|reflexivity]|].
  split; [split; [apply bytes_zeros|reflexivity]|]. split; [reflexivity|]. split; [reflexivity|]. cbn. discriminate.
Qed.
(** what that means: a signature of the fast set is refused by the re-loaded public key *)
Theorem C74_reloaded_fast_key_refuses : forall t pk pk2 pk2' sg c m ad1 ad2, small t <> t -> pk_mem pk -> pk_mem pk2 -> ob_type pk = Some t ->
  reload sp_pk pk pk2 = Some pk2' -> ob_type sg = Some t -> api_verify_ctx ad1 ad2 (Some sg) c m (Some pk2') = - EINVAL.
Proof.
  intros t pk pk2 pk2' sg c m ad1 ad2 N M1 M2 Ht ER Tg. destruct (C74_key_round_trip_partial sp_pk t pk pk2) as (o & E1 & E2 & _); auto.
  rewrite E1 in ER. injection ER as <-. apply C72_type_mismatch. rewrite Tg, E2. congruence.
Qed.
Example C74_case : exists o2', reload sp_pk demo_fast (mkObj (Some S256s) (repeat 1 64)) = Some o2' /\ ob_type o2' = Some S128s /\ member sp_pk S128f o2' = repeat 7 16 ++ zeros 16 /\
  fst (api_fast (Some o2')) = 0.
Proof. eexists. repeat split. Qed.
Example C75_case : api_keypair_from_seed (Some demo_fast) (Some demo_sk) (repeat 3 48) (Some S128f) = (- EOPNOTSUPP, Some demo_fast, Some (mkObj (Some S128f) (ob_mem demo_sk))).
Proof. reflexivity. Qed.
Print Assumptions C74_signature_round_trip.
Print Assumptions C74_key_round_trip_partial.
Print Assumptions C74_fast_key_refuted.
Print Assumptions C74_reloaded_fast_key_refuses.

(** ** C75: keys from a seed are never made *)
Theorem C75_from_seed_refused : forall pk sk seed t, fst (fst (api_keypair_from_seed pk sk seed t)) < 0.
Proof. intros [p|] [s|] seed [t|]; cbn; lia. Qed.
Lemma put_same : forall size t o t', (size (set_of t) <= length (ob_mem o))%nat -> ob_mem (put o t' (member size t o)) = ob_mem o.
Proof.
  intros size t o t' L. unfold put, member, store_at. cbn [ob_mem firstn app Nat.add]. set (k := size (set_of t)) in *. clearbody k. set (x := ob_mem o) in *. clearbody x.
  rewrite Nat.sub_0_r. rewrite (firstn_all2 (n := length x) (firstn k x)) by (rewrite firstn_length; lia). rewrite firstn_length, Nat.min_l by lia. apply firstn_skipn.
Qed.
Theorem C75_key_bytes_kept : forall pk sk seed t r pk' sk', api_keypair_from_seed (Some pk) (Some sk) seed t = (r, Some pk', Some sk') ->
  pk_mem pk -> sk_mem sk -> ob_mem pk' = ob_mem pk /\ ob_mem sk' = ob_mem sk.
Proof.
  intros pk sk seed [t|] r pk' sk' E [_ L1] [_ L2]; cbn in E; injection E as _ <- <-; [|auto]. destruct (sizes t) as (Z1 & Z2 & Z3 & _).
  split; [apply (put_same sp_pk t)|apply (put_same sp_sk t)]; lia.
Qed.
Theorem C75_objects_kept_refuted : exists pk sk seed t r pk' sk', pk_mem pk /\ sk_mem sk /\
  api_keypair_from_seed (Some pk) (Some sk) seed (Some t) = (r, Some pk', Some sk') /\ r < 0 /\ pk' <> pk.
Proof.
  exists demo_fast, demo_sk, [], S128s. eexists _, _, _. split; [split; [apply bytes_app; [apply (proj1 (demo_str 7 ltac:(lia)))|apply bytes_zeros]|reflexivity]|].
  split. { split; [|reflexivity]. cbn [ob_mem demo_sk]. repeat apply bytes_app; try apply bytes_zeros; apply demo_str; lia. }
  split; [reflexivity|]. split; [reflexivity|]. intros C. apply (f_equal ob_type) in C. discriminate C.
Qed.
Print Assumptions C75_from_seed_refused.
Print Assumptions C75_key_bytes_kept.
Print Assumptions C75_objects_kept_refuted.

(** ** C77: the consistency test passes for every generated pair *)
Theorem C77_pct : forall t pk sk seeds rnd ad1 ad2, pk_mem pk -> sk_mem sk -> bytes seeds -> length seeds = (3 * f_n (row t))%nat -> str t rnd ->
  exists pk' sk', api_keypair (Some pk) (Some sk) (Some (0, seeds)) (Some t) = Some (0, Some pk', Some sk') /\
    api_pct ad1 ad2 (Some pk') (Some sk') (0, rnd) = Some 0.
Proof.
  intros t pk sk seeds rnd ad1 ad2 Mp Ms Bs Ls Hr.
  destruct (C70_sign_verify t pk sk seeds demo_sig sc0 (zeros 32) (Some (0, rnd)) rnd ad1 ad2 Mp Ms demo_mem Bs Ls) as (pk' & sk' & sg' & E1 & E2 & E3).
  - constructor.
  - apply bytes_zeros.
  - rewrite length_zeros. lia.
  - cbn. discriminate.
  - right. split; [reflexivity|exact Hr].
  - exists pk', sk'. split; [exact E1|]. unfold api_pct, api_sign, api_verify. fold demo_sig. rewrite E2. change (0 <? 0) with false. cbv iota. rewrite E3. reflexivity.
Qed.
Theorem C77_pct_rng_failure : forall t sk r o ad1 ad2 pk, ob_type sk = Some t -> r < 0 ->
  exists r', r' < 0 /\ api_pct ad1 ad2 pk (Some sk) (r, o) = Some r'.
Proof.
  intros t sk r o ad1 ad2 pk Ht Hr. destruct (C72_failed_signature t demo_sig sk sc0 (zeros 32) (Some (r, o)) demo_mem Ht) as (r' & sg' & Hr' & E & _).
  { left. exists r, o. auto. }
  exists r'. split; auto. unfold api_pct, api_sign. fold demo_sig. rewrite E. destruct (Z.ltb_spec r' 0); [reflexivity|lia].
Qed.
Example C77_case : exists pk' sk', api_keypair (Some (mkObj None (zeros 64))) (Some (mkObj None (zeros 128))) (Some (0, repeat 5 48)) (Some S128f) = Some (0, Some pk', Some sk') /\
  api_pct 0 8 (Some pk') (Some sk') (0, repeat 4 16) = Some 0.
Proof.
  apply (C77_pct S128f).
  - split; [apply bytes_zeros|reflexivity].
  - split; [apply bytes_zeros|reflexivity].
  - apply case_bytes; lia.
  - reflexivity.
  - split; [apply case_bytes; lia|reflexivity].
Qed.
Print Assumptions C77_pct.
Print Assumptions C77_pct_rng_failure.
