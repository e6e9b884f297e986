From Verif Require Import Bytes Words KeccakBytes AesModel AesProof ModesSpec ModesModel ModesProof ChaChaProof CcDrngSpec CcDrngModel.

Definition CCst (s : cc_state) : list Z := CC20_state (cc_key s) (cc_ctr s) (cc_nonce s).
Definition cc_wf (s : cc_state) : Prop :=
  length (cc_key s) = 32%nat /\ bytes (cc_key s) /\ 0 <= cc_ctr s < 2 ^ 32 /\
  length (cc_nonce s) = 12%nat /\ bytes (cc_nonce s).

Lemma le_val_xorl : forall a b, bytes a -> bytes b -> length a = length b ->
  le_val (xorl a b) = Z.lxor (le_val a) (le_val b).
Proof.
  intros a b Ha Hb Hl. apply Z.bits_inj'. intros n Hn.
  rewrite Z.lxor_spec, !testbit_le_val by (auto using bytes_xorl).
  destruct (Nat.lt_ge_cases (Z.to_nat (n / 8)) (length a)) as [C|C].
  - rewrite nth_xorl by lia. apply Z.lxor_spec.
  - rewrite !nth_overflow by (rewrite ?length_xorl; lia). rewrite Z.bits_0. reflexivity.
Qed.
Lemma slice_xorl : forall a b o n, slice (xorl a b) o n = xorl (slice a o n) (slice b o n).
Proof.
  intros a b o n. unfold slice. rewrite xorl_firstn. f_equal.
  revert a b. induction o as [|o IH]; intros a b; [reflexivity|].
  destruct a, b; cbn [skipn xorl]; rewrite ?xorl_nil_r; auto.
Qed.

Lemma key_xor_ok : forall key c nonce src, length key = 32%nat -> bytes key -> (32 <= length src)%nat -> bytes src ->
  cc20_key_xor (CC20_state key c nonce) src = CC20_state (xorl key (firstn 32 src)) c nonce.
Proof.
  intros key c nonce src Lk Bk Ls Bs.
  assert (E : forall i, (i < 8)%nat -> le_val (slice (xorl key (firstn 32 src)) (4 * i) 4) =
     Z.lxor (le_val (slice key (4 * i) 4)) (le_val (slice src (4 * i) 4))).
  { intros i Hi. rewrite slice_xorl. rewrite le_val_xorl; auto using bytes_slice, bytes_firstn.
    - f_equal. f_equal. unfold slice. rewrite skipn_firstn_comm, firstn_firstn. f_equal. lia.
    - rewrite !length_slice; auto; try lia. rewrite firstn_length. lia. }
  assert (E' : le_words (xorl key (firstn 32 src)) 8 =
    map (fun i => Z.lxor (le_val (slice key (4 * i) 4)) (le_val (slice src (4 * i) 4))) (seq 0 8)).
  { unfold le_words. apply map_ext_in. intros i Hi. apply in_seq in Hi. apply E. lia. }
  unfold CC20_state. rewrite E'. reflexivity.
Qed.

Lemma nonce_words : forall v i, (i < 3)%nat ->
  le_val (slice (le_bytes 12 v) (4 * i) 4) = (v / 2 ^ (32 * Z.of_nat i)) mod 2 ^ 32.
Proof.
  intros v i Hi.
  assert (E : forall a b, (a + 4 + b = 12)%nat -> le_val (slice (le_bytes 12 v) a 4) = (v / 256 ^ Z.of_nat a) mod 2 ^ 32).
  { intros a b H. rewrite <- H, <- Nat.add_assoc, le_bytes_app. unfold slice.
    rewrite skipn_app, length_le_bytes, Nat.sub_diag, (skipn_all2 (le_bytes a v)) by (rewrite length_le_bytes; lia).
    cbn [app skipn]. rewrite le_bytes_app, firstn_app, length_le_bytes, Nat.sub_diag, firstn_all2
      by (rewrite length_le_bytes; lia).
    cbn [firstn]. rewrite app_nil_r, le_val_le_bytes. reflexivity. }
  rewrite (E (4 * i)%nat (8 - 4 * i)%nat) by lia. f_equal. f_equal.
  replace (Z.of_nat (4 * i)) with (4 * Z.of_nat i) by lia. rewrite Z.pow_mul_r by lia. change (256 ^ 4) with (2 ^ 32).
  rewrite <- Z.pow_mul_r by lia. reflexivity.
Qed.

Lemma inc32_zero : forall x, 0 <= x < 2 ^ 32 -> ((x + 1) mod 2 ^ 32 =? 0) = (x =? 2 ^ 32 - 1).
Proof.
  intros x Hx. destruct (Z.eqb_spec x (2 ^ 32 - 1)) as [->|N]; [reflexivity|].
  rewrite Z.mod_small by lia. apply Z.eqb_neq. lia.
Qed.
Lemma nonce_inc_ok : forall key c nonce, length nonce = 12%nat -> bytes nonce ->
  cc20_nonce_inc (CC20_state key c nonce) = CC20_state key c (nonce_inc nonce).
Proof.
  intros key c nonce Ln Bn.
  set (v := le_val nonce).
  assert (Hv : 0 <= v < 2 ^ 96).
  { pose proof (le_val_bound nonce Bn) as B. rewrite Ln in B. exact B. }
  assert (En : nonce = le_bytes 12 v) by (unfold v; rewrite <- Ln; symmetry; apply le_bytes_le_val; auto).
  unfold nonce_inc. fold v.
  assert (W : forall x, 0 <= x < 2 ^ 96 -> le_words (le_bytes 12 x) 3 = [x mod 2 ^ 32; (x / 2 ^ 32) mod 2 ^ 32; x / 2 ^ 64]).
  { intros x Hx. unfold le_words. cbn [seq map]. rewrite !nonce_words by lia.
    cbn [Z.of_nat Z.mul]. change (32 * Z.of_nat 1) with 32. change (32 * Z.of_nat 2) with 64.
    change (2 ^ (32 * 0)) with 1. rewrite Z.div_1_r. rewrite (Z.mod_small (x / 2 ^ 64)); [reflexivity|].
    split; [apply Z.div_pos; lia|]. apply Z.div_lt_upper_bound; lia. }
  unfold CC20_state. rewrite En, !W by (auto; apply Z.mod_pos_bound; lia). clear En W.
  set (n0 := v mod 2 ^ 32). set (n1 := (v / 2 ^ 32) mod 2 ^ 32). set (n2 := v / 2 ^ 64).
  assert (Hv' : v = n0 + 2 ^ 32 * n1 + 2 ^ 64 * n2).
  { unfold n0, n1, n2. pose proof (Z.div_mod v (2 ^ 32) ltac:(lia)).
    pose proof (Z.div_mod (v / 2 ^ 32) (2 ^ 32) ltac:(lia)) as H2. rewrite Z.div_div in H2 by lia.
    change (2 ^ 32 * 2 ^ 32) with (2 ^ 64) in H2. lia. }
  assert (B0 : 0 <= n0 < 2 ^ 32) by (apply Z.mod_pos_bound; lia).
  assert (B1 : 0 <= n1 < 2 ^ 32) by (apply Z.mod_pos_bound; lia).
  assert (B2 : 0 <= n2 < 2 ^ 32).
  { unfold n2. split; [apply Z.div_pos; lia|]. apply Z.div_lt_upper_bound; lia. }
  clearbody n0 n1 n2. clearbody v.
  assert (C : forall m0 m1 m2 x, 0 <= m0 < 2 ^ 32 -> 0 <= m1 < 2 ^ 32 -> x = m0 + 2 ^ 32 * m1 + 2 ^ 64 * m2 ->
    x mod 2 ^ 32 = m0 /\ (x / 2 ^ 32) mod 2 ^ 32 = m1 /\ x / 2 ^ 64 = m2).
  { intros m0 m1 m2 x M0 M1 ->.
    assert (D : (m0 + 2 ^ 32 * m1 + 2 ^ 64 * m2) / 2 ^ 32 = m1 + 2 ^ 32 * m2).
    { symmetry. apply (Z.div_unique _ _ _ m0); lia. }
    repeat split.
    - symmetry. apply (Z.mod_unique _ _ (m1 + 2 ^ 32 * m2)); lia.
    - rewrite D. symmetry. apply (Z.mod_unique _ _ m2); lia.
    - symmetry. apply (Z.div_unique _ _ _ (m0 + 2 ^ 32 * m1)); lia. }
  unfold cc20_nonce_inc. cbn [app le_words seq map upd get nth]. rewrite !add32_mod.
  rewrite (inc32_zero n0 B0), (inc32_zero n1 B1).
  destruct (Z.eqb_spec n0 (2 ^ 32 - 1)) as [E0|E0]; [destruct (Z.eqb_spec n1 (2 ^ 32 - 1)) as [E1|E1]|].
  - destruct (C 0 0 ((n2 + 1) mod 2 ^ 32) ((v + 1) mod 2 ^ 96)) as (-> & -> & ->); [clear; lia|clear; lia| |rewrite E0, E1; reflexivity].
    clear C. subst n0 n1. rewrite Hv'. clear -B2. destruct (Z.eq_dec n2 (2 ^ 32 - 1)) as [->|N]; [reflexivity|].
    rewrite !Z.mod_small by lia. lia.
  - destruct (C 0 (n1 + 1) n2 ((v + 1) mod 2 ^ 96)) as (-> & -> & ->).
    + clear; lia.
    + clear -B1 E1; lia.
    + rewrite Z.mod_small by (clear C; lia). clear C. lia.
    + rewrite (Z.mod_small (n1 + 1)) by (clear -B1 E1; lia). rewrite E0. reflexivity.
  - destruct (C (n0 + 1) n1 n2 ((v + 1) mod 2 ^ 96)) as (-> & -> & ->).
    + clear -B0 E0; lia.
    + exact B1.
    + rewrite Z.mod_small by (clear C; lia). clear C. lia.
    + rewrite (Z.mod_small (n0 + 1)) by (clear -B0 E0; lia). reflexivity.
Qed.
Lemma nonce_inc_wf : forall nonce, length (nonce_inc nonce) = 12%nat /\ bytes (nonce_inc nonce).
Proof. intros. unfold nonce_inc. split; [apply length_le_bytes|apply bytes_le_bytes]. Qed.

Lemma bytes_chacha20_block : forall key c nonce, bytes (chacha20_block key c nonce).
Proof.
  intros. unfold chacha20_block. generalize (seq 0 16). intros l. induction l as [|i l IH]; [constructor|].
  cbn [flat_map]. apply bytes_app; [apply bytes_le_bytes|exact IH].
Qed.
Local Opaque chacha20_block cc20_block.

Lemma update_fresh : forall key c nonce buf used, length key = 32%nat -> bytes key -> length nonce = 12%nat -> bytes nonce ->
  (8 < used)%nat ->
  cc20_drng_update (CC20_state key c nonce) buf used =
  CC20_state (xorl key (firstn 32 (chacha20_block key c nonce))) ((c + 1) mod 2 ^ 32) (nonce_inc nonce).
Proof.
  intros key c nonce buf used Lk Bk Ln Bn Hu. unfold cc20_drng_update.
  rewrite (proj2 (Nat.ltb_lt 8 used) Hu). rewrite cc20_block_spec.
  rewrite key_xor_ok; auto using bytes_chacha20_block; [|rewrite chacha20_block_len; lia].
  apply nonce_inc_ok; auto.
Qed.
Lemma update_rest : forall key c nonce buf used, length key = 32%nat -> bytes key -> length nonce = 12%nat -> bytes nonce ->
  (used <= 8)%nat -> length buf = 64%nat -> bytes buf ->
  cc20_drng_update (CC20_state key c nonce) buf used =
  CC20_state (xorl key (slice buf (4 * used) 32)) c (nonce_inc nonce).
Proof.
  intros key c nonce buf used Lk Bk Ln Bn Hu Lb Bb. unfold cc20_drng_update.
  rewrite (proj2 (Nat.ltb_ge 8 used) Hu).
  rewrite key_xor_ok; auto using bytes_skipn; [|rewrite skipn_length; lia].
  apply nonce_inc_ok; auto.
Qed.

Lemma blocks64_add : forall n, blocks64 (64 + n) = S (blocks64 n).
Proof.
  intros n. unfold blocks64. replace (64 + n + 63)%nat with (n + 63 + 1 * 64)%nat by lia. rewrite Nat.div_add by lia. lia.
Qed.
Lemma key_pos_add : forall n, key_pos (64 + n) = (64 + key_pos n)%nat.
Proof.
  intros n. unfold key_pos. replace ((64 + n) mod 64)%nat with (n mod 64)%nat.
  2: { replace (64 + n)%nat with (n + 1 * 64)%nat by lia. rewrite Nat.mod_add by lia. reflexivity. }
  destruct (_ || _)%bool.
  - rewrite blocks64_add. lia.
  - replace (64 + n + 3)%nat with (n + 3 + 16 * 4)%nat by lia. rewrite Nat.div_add by lia. lia.
Qed.
Lemma blocks_used_add : forall n, blocks_used (64 + n) = S (blocks_used n).
Proof. intros n. unfold blocks_used. rewrite key_pos_add, <- Nat.add_assoc. apply blocks64_add. Qed.

Lemma stream_S : forall key c nonce n, 0 <= c < 2 ^ 32 ->
  chacha20_stream key c nonce (S n) = chacha20_block key c nonce ++ chacha20_stream key ((c + 1) mod 2 ^ 32) nonce n.
Proof.
  intros key c nonce n Hc. unfold chacha20_stream. cbn [seq flat_map]. rewrite Z.add_0_r, Z.mod_small by lia. apply f_equal.
  rewrite <- seq_shift. rewrite flat_map_concat_map, map_map, <- flat_map_concat_map.
  apply flat_map_ext. intros j.
  replace (((c + 1) mod 2 ^ 32 + Z.of_nat j) mod 2 ^ 32) with ((c + Z.of_nat (S j)) mod 2 ^ 32); [reflexivity|].
  rewrite Zplus_mod_idemp_l. f_equal. lia.
Qed.
Lemma stream_0 : forall key c nonce, chacha20_stream key c nonce 0 = [].
Proof. reflexivity. Qed.

Lemma gen_loop_ok : forall fuel key c nonce n, (n < fuel)%nat -> length key = 32%nat -> bytes key -> 0 <= c < 2 ^ 32 ->
  length nonce = 12%nat -> bytes nonce ->
  cc20_drng_gen_loop fuel (CC20_state key c nonce) n =
  (fst (CC_generate (mkCC key c nonce) n), CCst (snd (CC_generate (mkCC key c nonce) n))).
Proof.
  induction fuel as [|f IH]; intros key c nonce n Hf Lk Bk Hc Ln Bn; [lia|].
  cbn [cc20_drng_gen_loop]. destruct (Nat.leb_spec 64 n) as [H|H].
  - rewrite cc20_block_spec.
    rewrite (IH key ((c + 1) mod 2 ^ 32) nonce (n - 64)%nat) by (auto; try lia; apply Z.mod_pos_bound; lia).
    remember (n - 64)%nat as m. assert (n = (64 + m)%nat) by lia. subst n. clear Heqm IH.
    unfold CC_generate. cbn [fst snd cc_key cc_ctr cc_nonce CCst]. unfold CCst. cbn [cc_key cc_ctr cc_nonce].
    rewrite blocks_used_add, key_pos_add, stream_S by auto.
    pose proof (chacha20_block_len key c nonce) as L.
    set (B := chacha20_block key c nonce) in *. clearbody B.
    set (R := chacha20_stream key ((c + 1) mod 2 ^ 32) nonce (blocks_used m)). clearbody R.
    apply f_equal2.
    + rewrite firstn_app, L. replace (64 + m - 64)%nat with m by lia. rewrite (firstn_all2 (n := 64 + m) B) by lia. reflexivity.
    + apply f_equal3; [| |reflexivity].
      * unfold slice. rewrite skipn_app, L. replace (64 + key_pos m - 64)%nat with (key_pos m) by lia.
        rewrite (skipn_all2 (n := 64 + key_pos m) B) by lia. reflexivity.
      * rewrite Zplus_mod_idemp_l. f_equal. lia.
  - destruct (Nat.eqb_spec n 0) as [->|N].
    + rewrite update_fresh by (auto; lia). unfold CC_generate, CCst.
      change (key_pos 0) with 0%nat. change (blocks_used 0) with 1%nat. cbn [fst snd cc_key cc_ctr cc_nonce].
      rewrite stream_S, stream_0, app_nil_r by auto. reflexivity.
    + rewrite cc20_block_spec.
      assert (Hu : blocks64 n = 1%nat) by (unfold blocks64; symmetry; apply (Nat.div_unique _ 64 1 (n - 1)); lia).
      assert (K : key_pos n = if (32 <? n)%nat then 64%nat else (4 * ((n + 3) / 4))%nat).
      { unfold key_pos. rewrite Nat.mod_small by lia. rewrite Hu. rewrite (proj2 (Nat.eqb_neq n 0)) by lia. reflexivity. }
      assert (Q : ((n + 3) / 4 <= 8 <-> n <= 32)%nat).
      { split; intros.
        - pose proof (Nat.mul_succ_div_gt (n + 3) 4 ltac:(lia)). lia.
        - apply Nat.lt_succ_r. apply Nat.div_lt_upper_bound; lia. }
      unfold CC_generate, CCst. cbn [fst snd cc_key cc_ctr cc_nonce].
      destruct (Nat.ltb_spec 32 n) as [C|C].
      * rewrite update_fresh by (auto; lia).
        assert (U : blocks_used n = 2%nat) by (unfold blocks_used; rewrite K; reflexivity).
        rewrite U, K. rewrite !stream_S, stream_0, app_nil_r by (auto; apply Z.mod_pos_bound; lia).
        pose proof (chacha20_block_len key c nonce) as L.
        set (B := chacha20_block key c nonce) in *. clearbody B.
        apply f_equal2.
        -- rewrite firstn_app, L. replace (n - 64)%nat with 0%nat by lia. cbn [firstn]. rewrite app_nil_r. reflexivity.
        -- apply f_equal3; [| |reflexivity].
           ++ unfold slice. rewrite skipn_app, L, Nat.sub_diag, (skipn_all2 B) by lia. reflexivity.
           ++ rewrite Zplus_mod_idemp_l. f_equal. lia.
      * pose proof (chacha20_block_len key c nonce) as L.
        rewrite update_rest by (auto using bytes_chacha20_block; lia).
        assert (U : blocks_used n = 1%nat).
        { unfold blocks_used. rewrite K. unfold blocks64. symmetry.
          pose proof (proj2 Q C). pose proof (Nat.mul_div_le (n + 3) 4 ltac:(lia)).
          assert (1 <= (n + 3) / 4)%nat by (apply Nat.div_le_lower_bound; lia).
          apply (Nat.div_unique _ 64 1 (4 * ((n + 3) / 4) + 32 + 63 - 64)); lia. }
        rewrite U, K. rewrite stream_S, stream_0, app_nil_r by auto. reflexivity.
Qed.

Lemma cc_generate_ok : forall s n, cc_wf s ->
  cc20_drng_generate (CCst s) n = (fst (CC_generate s n), CCst (snd (CC_generate s n))) /\ cc_wf (snd (CC_generate s n)).
Proof.
  intros [key c nonce] n (Lk & Bk & Hc & Ln & Bn). cbn [cc_key cc_ctr cc_nonce] in *. split.
  - apply gen_loop_ok; auto.
  - unfold CC_generate. cbn [snd cc_key cc_ctr cc_nonce].
    destruct (nonce_inc_wf nonce) as [N1 N2]. 
    assert (BS : forall m c', bytes (chacha20_stream key c' nonce m)).
    { intros m c'. unfold chacha20_stream. generalize (seq 0 m). intros l. induction l as [|j l IH]; [constructor|].
      cbn [flat_map]. apply bytes_app; auto using bytes_chacha20_block. }
    assert (LS : forall m c', length (chacha20_stream key c' nonce m) = (64 * m)%nat).
    { intros m c'. unfold chacha20_stream. rewrite <- (seq_length m 0) at 2. generalize (seq 0 m). intros l. induction l as [|j l IH]; [reflexivity|].
      cbn [flat_map length]. rewrite app_length, chacha20_block_len, IH. lia. }
    repeat split; cbn [cc_key cc_ctr cc_nonce]; auto; try (apply Z.mod_pos_bound; lia).
    + rewrite length_xorl, Lk, length_slice; [reflexivity|]. rewrite LS. unfold blocks_used, blocks64.
      pose proof (Nat.mul_succ_div_gt (key_pos n + 32 + 63) 64 ltac:(lia)). lia.
    + apply bytes_xorl; auto. apply bytes_slice; auto.
Qed.

Lemma key_pos_ge : forall n, (n <= key_pos n)%nat.
Proof.
  intros n. unfold key_pos, blocks64.
  pose proof (Nat.mul_succ_div_gt (n + 63) 64 ltac:(lia)). pose proof (Nat.mul_succ_div_gt (n + 3) 4 ltac:(lia)).
  destruct (_ || _)%bool; lia.
Qed.
Lemma blocks_used_le : forall n, (blocks_used n <= n / 64 + 2)%nat.
Proof.
  intros n. unfold blocks_used.
  assert (key_pos n + 32 <= 64 * (n / 64 + 2))%nat.
  { unfold key_pos, blocks64. pose proof (Nat.div_mod n 64 ltac:(lia)) as D. pose proof (Nat.mod_upper_bound n 64 ltac:(lia)).
    set (q := (n / 64)%nat) in *. set (r := (n mod 64)%nat) in *. clearbody q r. subst n.
    destruct (Nat.eqb_spec r 0); cbn [orb].
    - subst r. replace (64 * q + 0 + 63)%nat with (63 + q * 64)%nat by lia. rewrite Nat.div_add by lia. change (63 / 64)%nat with 0%nat. lia.
    - destruct (Nat.ltb_spec 32 r).
      + replace (64 * q + r + 63)%nat with (r - 1 + (q + 1) * 64)%nat by lia. rewrite Nat.div_add, Nat.div_small by lia. lia.
      + pose proof (Nat.mul_div_le (64 * q + r + 3) 4 ltac:(lia)). lia. }
  unfold blocks64. apply Nat.lt_succ_r. apply Nat.div_lt_upper_bound; lia.
Qed.

(** seeding *)
Lemma key_inject_ok : forall key c nonce x, length key = 32%nat -> bytes key ->
  cc20_key_inject (CC20_state key c nonce) x = CC20_state (xor_into key x) c nonce.
Proof.
  intros key c nonce x Lk Bk. unfold cc20_key_inject.
  assert (E : flat_map (le_bytes 4) (slice (CC20_state key c nonce) 4 8) = key).
  { change (slice (CC20_state key c nonce) 4 8) with (le_words key 8).
    transitivity (concat (map (fun i => slice key (0 + 4 * i) 4) (seq 0 8))).
    2: { rewrite concat_slices by lia. reflexivity. }
    unfold le_words. rewrite flat_map_concat_map, map_map. apply f_equal. apply map_ext_in. intros i Hi.
    apply in_seq in Hi. cbn [Nat.add]. rewrite <- (length_slice key (4 * i) 4) at 1 by lia.
    apply le_bytes_le_val. apply bytes_slice. exact Bk. }
  rewrite E. generalize (xor_into key x). intros kb. reflexivity.
Qed.

Lemma seed_loop_ok : forall fuel x s, (length x <= fuel)%nat -> cc_wf s -> bytes x ->
  cc20_drng_seed_loop fuel (CCst s) x = CCst (fold_left CC_mix (pieces32 fuel x) s) /\
  cc_wf (fold_left CC_mix (pieces32 fuel x) s).
Proof.
  induction fuel as [|f IH]; intros x s Hf Hs Bx; [split; [reflexivity|exact Hs]|].
  destruct x as [|b x']; [split; [reflexivity|exact Hs]|].
  cbn [cc20_drng_seed_loop pieces32]. set (x := b :: x') in *. assert (0 < length x)%nat by (cbn; lia). clearbody x.
  rewrite (proj2 (Nat.eqb_neq (length x) 0)) by lia.
  assert (E1 : firstn (Nat.min (length x) 32) x = firstn 32 x).
  { destruct (Nat.le_ge_cases (length x) 32); [rewrite Nat.min_l, !firstn_all2 by lia|rewrite Nat.min_r by lia]; reflexivity. }
  assert (E2 : skipn (Nat.min (length x) 32) x = skipn 32 x).
  { destruct (Nat.le_ge_cases (length x) 32); [rewrite Nat.min_l, !skipn_all2 by lia|rewrite Nat.min_r by lia]; reflexivity. }
  cbn [fold_left]. rewrite E1, E2. destruct s as [key c nonce]. destruct Hs as (Lk & Bk & Hc & Ln & Bn).
  cbn [cc_key cc_ctr cc_nonce] in *. unfold CCst at 1. cbn [cc_key cc_ctr cc_nonce].
  rewrite key_inject_ok by auto.
  assert (Lx : length (xor_into key (firstn 32 x)) = 32%nat) by (rewrite length_xor_into; exact Lk).
  assert (Bx' : bytes (xor_into key (firstn 32 x))) by (apply bytes_xor_into; auto; apply bytes_firstn; auto).
  rewrite update_fresh by (auto; lia).
  destruct (nonce_inc_wf nonce) as [N1 N2].
  apply (IH (skipn 32 x) (CC_mix (mkCC key c nonce) (firstn 32 x))).
  - rewrite skipn_length. lia.
  - unfold CC_mix. repeat split; cbn [cc_key cc_ctr cc_nonce]; auto; try (apply Z.mod_pos_bound; lia).
    + rewrite length_xorl, Lx, firstn_length, chacha20_block_len. reflexivity.
    + apply bytes_xorl; auto. apply bytes_firstn, bytes_chacha20_block.
  - apply bytes_skipn. exact Bx.
Qed.

Lemma cc_seed_ok : forall s x, cc_wf s -> bytes x ->
  cc20_drng_seed (CCst s) x = CCst (CC_seed s x) /\ cc_wf (CC_seed s x).
Proof. intros. apply seed_loop_ok; auto. Qed.

(** The 32 bit counter of one request. *)
Lemma counters_distinct : forall c n i j, (blocks_used n <= Z.to_nat (2 ^ 32))%nat -> (i < j < blocks_used n)%nat ->
  (c + Z.of_nat i) mod 2 ^ 32 <> (c + Z.of_nat j) mod 2 ^ 32.
Proof.
  intros c n i j Hn Hij E.
  assert (Hj : Z.of_nat j - Z.of_nat i < 2 ^ 32) by lia.
  apply (f_equal (fun z => (z - (c + Z.of_nat i)) mod 2 ^ 32)) in E.
  rewrite !Zminus_mod_idemp_l, Z.sub_diag in E. change (0 mod 2 ^ 32) with 0 in E.
  replace (c + Z.of_nat j - (c + Z.of_nat i)) with (Z.of_nat j - Z.of_nat i) in E by lia.
  rewrite Z.mod_small in E by lia. lia.
Qed.

(** A request of 2^38 + 64 bytes repeats its first block. *)
Lemma counter_wraps : forall s n, cc_wf s -> Z.of_nat n = 2 ^ 38 + 64 ->
  let out := fst (CC_generate s n) in slice out 0 64 = slice out (n - 64) 64 /\ length out = n.
Proof.
  intros [key c nonce] n (_ & _ & Hc & _ & _) Hn. cbn zeta. unfold CC_generate. cbn [fst cc_key cc_ctr cc_nonce] in *.
  assert (LS : forall l, length (flat_map (fun j => chacha20_block key ((c + Z.of_nat j) mod 2 ^ 32) nonce) l) = (64 * length l)%nat).
  { induction l as [|j l IH]; [reflexivity|]. cbn [flat_map length]. rewrite app_length, chacha20_block_len, IH. lia. }
  set (q := Z.to_nat (2 ^ 32)). assert (Hq : Z.of_nat q = 2 ^ 32) by (unfold q; apply Z2Nat.id; lia). clearbody q.
  assert (Hnq : n = (64 * q + 64)%nat) by lia.
  assert (G : forall a m, (a + 1 <= m)%nat ->
    slice (flat_map (fun j => chacha20_block key ((c + Z.of_nat j) mod 2 ^ 32) nonce) (seq 0 m)) (64 * a) 64 =
    chacha20_block key ((c + Z.of_nat a) mod 2 ^ 32) nonce).
  { intros a m Ha. replace m with (a + S (m - a - 1))%nat by lia. rewrite seq_app, flat_map_app. unfold slice.
    rewrite skipn_app, skipn_all2 by (rewrite LS, seq_length; lia). rewrite LS, seq_length, Nat.sub_diag.
    cbn [Nat.add seq flat_map app skipn]. rewrite firstn_app, chacha20_block_len, Nat.sub_diag, firstn_all2
      by (rewrite chacha20_block_len; lia).
    cbn [firstn]. apply app_nil_r. }
  assert (U : (q + 1 <= blocks_used n)%nat).
  { unfold blocks_used, blocks64. pose proof (key_pos_ge n). apply Nat.div_le_lower_bound; lia. }
  unfold chacha20_stream.
  assert (F : forall l a, (a + 64 <= n)%nat -> (n <= length l)%nat -> slice (firstn n l) a 64 = slice l a 64).
  { intros l a Ha Hl. unfold slice. rewrite skipn_firstn_comm, firstn_firstn. f_equal. lia. }
  set (m := blocks_used n) in *. clearbody m.
  pose proof (LS (seq 0 m)) as L. rewrite seq_length in L.
  rewrite !F by (try lia; rewrite L; lia). split.
  - pose proof (G 0%nat m ltac:(lia)) as G0. change (64 * 0)%nat with 0%nat in G0. rewrite G0.
    replace (n - 64)%nat with (64 * q)%nat by lia. rewrite (G q m) by lia.
    rewrite Hq. change (Z.of_nat 0) with 0. rewrite Z.add_0_r.
    replace ((c + 2 ^ 32) mod 2 ^ 32) with (c mod 2 ^ 32); [reflexivity|].
    symmetry. exact (Z_mod_plus_full c 1 (2 ^ 32)).
  - rewrite firstn_length, L. lia.
Qed.
