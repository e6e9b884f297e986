(** The SHA-3 family of the library equals FIPS 202. *)
From Verif Require Import Bytes Words KeccakModel KeccakSpec KeccakProof SpongeSpec Sha3Model Sha3Proof
  KeccakBytes Fips202.

Section Ext.
  Variable f g : list Z -> list Z.
  Variable w r : nat.
  Variable V : list Z -> Prop.
  Hypothesis HV0 : V (zeros w).
  Hypothesis HVf : forall s, V s -> V (f s).
  Hypothesis HVx : forall s b, V s -> bytes b -> V (xor_into s b).
  Hypothesis Hfg : forall s, V s -> f s = g s.
  Hypothesis Hr : (0 < r)%nat.

  Lemma absorb_ext : forall bl s, V s -> Forall bytes bl ->
    absorb f s bl = absorb g s bl /\ V (absorb f s bl).
  Proof.
    induction bl as [|b bl IH]; intros s Hs Hb; [simpl; auto|].
    inversion Hb; subst.
    assert (HV1 : V (xor_into s b)) by auto.
    unfold absorb in *. cbn [fold_left].
    replace (absorb_block g s b) with (absorb_block f s b) by (unfold absorb_block; auto).
    apply IH; auto. unfold absorb_block. auto.
  Qed.

  Lemma iter_ext : forall n s, V s -> Nat.iter n f s = Nat.iter n g s /\ V (Nat.iter n f s).
  Proof.
    induction n as [|n IH]; intros s Hs; simpl; auto.
    destruct (IH s Hs) as [E H]. split; [|auto]. rewrite <- E. apply Hfg. auto.
  Qed.

  Lemma sponge_ext : forall suf m p n, bytes m -> byte suf ->
    sponge f w r suf m p n = sponge g w r suf m p n.
  Proof.
    intros suf m p n Hm Hs. unfold sponge.
    assert (Hp : bytes (pad r suf m)).
    { unfold pad. destruct (_ =? 1)%nat.
      - apply bytes_app; auto. constructor; [|constructor]. unfold byte in *.
        apply (lxor_bound 8); lia.
      - apply bytes_app; auto. constructor; auto. apply bytes_app; [apply bytes_zeros|].
        constructor; [|constructor]. unfold byte; lia. }
    assert (Hc : Forall bytes (full_chunks r (pad r suf m))) by (apply bytes_full_chunks; auto).
    destruct (absorb_ext _ _ HV0 Hc) as [E HV].
    unfold sponge_state. rewrite <- E. apply map_ext. intros q. unfold out_byte.
    destruct (iter_ext (q / r) _ HV) as [-> _]. reflexivity.
  Qed.
End Ext.

Lemma st200_zeros : st200 (zeros 200).
Proof. split; [apply length_zeros|apply bytes_zeros]. Qed.

Lemma st200_xor : forall s b, st200 s -> bytes b -> st200 (xor_into s b).
Proof.
  intros s b [H1 H2] Hb. split; [rewrite length_xor_into; auto|].
  apply bytes_xor_into; auto.
Qed.

Lemma sponge_permB : forall r suf m p n, (0 < r)%nat -> bytes m -> byte suf ->
  sponge permB 200 r suf m p n = sponge keccak_f_bytes 200 r suf m p n.
Proof.
  intros. apply (sponge_ext permB keccak_f_bytes 200 r st200); auto.
  - apply st200_zeros.
  - apply permB_st200.
  - apply st200_xor.
  - apply permB_spec.
Qed.

Definition algs : list kalg :=
  [alg_sha3_224; alg_sha3_256; alg_sha3_384; alg_sha3_512; alg_shake128; alg_shake256;
   alg_cshake128; alg_cshake256].

Lemma algs_ok : forall a, In a algs ->
  (0 < a_r a)%nat /\ (a_r a <= 200)%nat /\ byte (a_padding a) /\ a_padding a < 128.
Proof.
  intros a H. unfold byte.
  repeat (destruct H as [<-|H]; [cbn; lia|]). destruct H.
Qed.

Lemma concat_bytes : forall ms, Forall bytes ms -> bytes (concat ms).
Proof. induction ms; intros H; [constructor|]. inversion H; subst. apply bytes_app; auto. Qed.

Lemma updates_inv_init : forall a ms, In a algs -> Z.of_nat (length (concat ms)) < 2 ^ 64 ->
  inv permB (a_r a) (zeros 200) (keccak_updates permB (keccak_init a) ms) (concat ms).
Proof.
  intros a ms Ha Hl. destruct (algs_ok a Ha) as (Hr & _).
  apply (updates_inv permB (a_r a) Hr ms (zeros 200) (keccak_init a) []); auto.
  apply init_inv; auto.
Qed.

Lemma sha3_family_final : forall a ms, In a algs -> Forall bytes ms ->
  Z.of_nat (length (concat ms)) < 2 ^ 64 ->
  fst (keccak_squeeze permB (keccak_updates permB (keccak_init a) ms)) =
  sponge keccak_f_bytes 200 (a_r a) (a_padding a) (concat ms) 0 (a_digestsize a).
Proof.
  intros a ms Ha Hb Hl. destruct (algs_ok a Ha) as (Hr & Hrw & Hp & Hp2).
  pose proof permB_length_pres as HPL.
  pose proof (updates_inv_init a ms Ha Hl) as I.
  destruct (updates_fields permB ms (keccak_init a)) as (F1 & F2 & F3 & F4).
  rewrite (squeeze_first permB 200 (a_r a) Hr _ (concat ms) (a_padding a)); auto.
  rewrite F2. apply sponge_permB; auto. apply concat_bytes; auto.
Qed.

Lemma sha3_family_reads : forall a ms ns, In a algs -> Forall bytes ms ->
  Z.of_nat (length (concat ms)) < 2 ^ 64 ->
  let out := fst (xof_reads permB (keccak_updates permB (keccak_init a) ms) ns) in
  concat out =
    sponge keccak_f_bytes 200 (a_r a) (a_padding a) (concat ms) 0 (list_sum ns) /\
  map (@length Z) out = ns.
Proof.
  intros a ms ns Ha Hb Hl out. destruct (algs_ok a Ha) as (Hr & Hrw & Hp & Hp2).
  pose proof permB_length_pres as HPL.
  pose proof (updates_inv_init a ms Ha Hl) as I.
  destruct (updates_fields permB ms (keccak_init a)) as (F1 & F2 & F3 & F4).
  subst out. destruct ns as [|n ns]; [split; reflexivity|].
  set (c := keccak_updates permB (keccak_init a) ms) in *.
  destruct (read_first permB 200 (a_r a) Hr c (concat ms) (a_padding a) n) as [E1 E2]; auto.
  cbn [xof_reads]. destruct (xof_read permB c n) as [o c1]. cbn [fst snd] in E1, E2.
  destruct (reads_sinv permB 200 (a_r a) Hr ns (keccak_pad permB c) n c1 E2) as (G1 & G2 & _); auto.
  { apply (keccak_pad_length permB 200 (a_r a) Hr c (concat ms) (a_padding a)); auto. }
  destruct (xof_reads permB c1 ns) as [os c2]. cbn [fst snd] in *.
  rewrite (keccak_pad_ok permB 200 (a_r a) Hr c (concat ms) (a_padding a)) in G1; auto.
  subst o. cbn [concat map]. split.
  - rewrite G1. rewrite <- sponge_permB; auto; [|apply concat_bytes; auto].
    unfold sponge. rewrite <- map_app. f_equal.
    change (list_sum (n :: ns)) with (n + list_sum ns)%nat. rewrite seq_app. reflexivity.
  - f_equal; auto. unfold sponge. rewrite map_length, seq_length. reflexivity.
Qed.

(** ** Absorbing after output was read *)

Lemma xor_at_split : forall s o d i, (i < length s)%nat ->
  nth i (xor_at s o d) 0 = Z.lxor (nth i s 0) (nth i (xor_at (zeros (length s)) o d) 0).
Proof.
  intros s o d i Hi. rewrite !nth_xor_at by (rewrite ?length_zeros; auto).
  rewrite nth_zeros. destruct (i <? o)%nat; [rewrite Z.lxor_0_r|rewrite Z.lxor_0_l]; reflexivity.
Qed.

Section AfterSqueeze.
  Variable P : list Z -> list Z.
  Variable w r : nat.
  Hypothesis Hr : (0 < r)%nat.
  Hypothesis Hrw : (r <= w)%nat.
  Hypothesis HP : forall s, length s = w -> length (P s) = w.

  Lemma absorb_small : forall c x, k_r c = r ->
    (Z.to_nat (k_msglen c mod Z.of_nat r) + length x < r)%nat ->
    keccak_absorb P c x =
    mkK (xor_at (k_state c) (Z.to_nat (k_msglen c mod Z.of_nat r)) x)
      (t64 (k_msglen c + Z.of_nat (length x))) (k_digestsize c) (k_offset c) r (k_padding c) false.
  Proof.
    intros c x Hc Hx. unfold keccak_absorb. rewrite Hc.
    set (o := Z.to_nat (k_msglen c mod Z.of_nat r)) in *.
    destruct (o =? 0)%nat eqn:E.
    - apply Nat.eqb_eq in E. rewrite absorb_loop_ok by auto.
      destruct (full_chunks_small r x Hr) as [-> ->]; [lia|].
      cbn [fold_left]. rewrite E. reflexivity.
    - replace (length x <? r - o)%nat with true by (symmetry; apply Nat.ltb_lt; lia). reflexivity.
  Qed.

  Lemma absorb_after_squeeze : forall S0 p c x L suf k, sinv P r S0 p c -> length S0 = w ->
    k_msglen c = Z.of_nat L -> k_padding c = suf -> suf < 128 ->
    (0 < p mod r)%nat -> (L mod r + length x < r)%nat -> (k <= r - p mod r)%nat ->
    Z.of_nat (L + length x) < 2 ^ 64 ->
    fst (xof_read P (keccak_absorb P c x) k) =
    xorl (map (out_byte P r (P S0)) (seq p k))
      (slice (xor_at (xor_at (xor_at (zeros w) (L mod r) x) (L mod r + length x) [suf]) (r - 1) [128])
         (p mod r) k).
  Proof.
    intros S0 p c x L suf k H HS HL Hsuf Hlt Hp Hx Hk Hb.
    assert (EL : Z.to_nat (k_msglen c mod Z.of_nat r) = (L mod r)%nat).
    { rewrite HL, <- Nat2Z.inj_mod, Nat2Z.id. reflexivity. }
    rewrite absorb_small by (try rewrite EL; auto; apply (sinv_r _ _ _ _ _ H)).
    rewrite EL, HL.
    replace (t64 (Z.of_nat L + Z.of_nat (length x))) with (Z.of_nat (L + length x)).
    2: { rewrite Nat2Z.inj_add. symmetry. apply t64_id. unfold w64. lia. }
    unfold xof_read, keccak_squeeze, shake_set_digestsize.
    cbn [k_more k_state k_msglen k_digestsize k_offset k_r k_padding].
    unfold keccak_pad. cbn [k_more k_state k_msglen k_digestsize k_offset k_r k_padding].
    assert (EL2 : Z.to_nat (Z.of_nat (L + length x) mod Z.of_nat r) = (L mod r + length x)%nat).
    { rewrite <- Nat2Z.inj_mod, Nat2Z.id.
      rewrite <- Nat.add_mod_idemp_l by lia. apply Nat.mod_small. lia. }
    rewrite EL2, Hsuf. replace (128 <=? suf) with false by (symmetry; apply Z.leb_gt; lia).
    cbn [andb]. rewrite (sinv_off _ _ _ _ _ H), (sinv_st _ _ _ _ _ H).
    destruct k as [|k].
    { cbn. reflexivity. }
    cbn [squeeze_loop Nat.eqb].
    replace (if (r - p mod r <? S k)%nat then (r - p mod r)%nat else S k) with (S k).
    2: { destruct (r - p mod r <? S k)%nat eqn:E; auto. apply Nat.ltb_lt in E. lia. }
    replace (p mod r =? 0)%nat with false by (symmetry; apply Nat.eqb_neq; lia).
    rewrite Nat.sub_diag.
    set (st0 := Nat.iter (ceil_div r p) P S0).
    assert (Hl0 : length st0 = w).
    { unfold st0. generalize (ceil_div r p). induction n; simpl; auto. }
    assert (Hsq : forall f s o, squeeze_loop P f r s o 0 = ([], s, o)).
    { intros f s o. destruct f; reflexivity. }
    rewrite Hsq. cbn [fst]. rewrite app_nil_r. unfold fill_bytes.
    assert (Hold : map (out_byte P r (P S0)) (seq p (S k)) = slice st0 (p mod r) (S k)).
    { pose proof (squeeze_loop_ok P w r Hr S0 (S k) p (S k) HS Hrw HP (Nat.le_refl _)) as Q.
      cbn [squeeze_loop Nat.eqb] in Q.
      replace (if (r - p mod r <? S k)%nat then (r - p mod r)%nat else S k) with (S k) in Q.
      2: { destruct (r - p mod r <? S k)%nat eqn:E; auto. apply Nat.ltb_lt in E. lia. }
      replace (p mod r =? 0)%nat with false in Q by (symmetry; apply Nat.eqb_neq; lia).
      rewrite Nat.sub_diag, Hsq, app_nil_r in Q. fold st0 in Q. congruence. }
    rewrite Hold.
    pose proof (Nat.mod_upper_bound p r ltac:(lia)) as Hpu.
    apply nth_ext0.
    - rewrite length_xorl, !length_slice; rewrite ?length_xor_at, ?length_zeros; lia.
    - intros i Hi. rewrite length_slice in Hi by (rewrite ?length_xor_at; lia).
      rewrite nth_xorl by (rewrite ?length_slice; rewrite ?length_xor_at, ?length_zeros; lia).
      rewrite !nth_slice by lia.
      set (j := (p mod r + i)%nat). assert (Hj : (j < w)%nat) by (unfold j; lia).
      rewrite !nth_xor_at by (rewrite ?length_xor_at, ?length_zeros; lia).
      rewrite nth_zeros.
      destruct (j <? r - 1)%nat, (j <? L mod r + length x)%nat, (j <? L mod r)%nat;
        rewrite ?Z.lxor_0_l, ?Z.lxor_0_r, ?Z.lxor_assoc; reflexivity.
  Qed.
End AfterSqueeze.

Lemma read_msglen : forall P c n, k_msglen (snd (xof_read P c n)) = k_msglen c.
Proof.
  intros. unfold xof_read, keccak_squeeze. cbn.
  destruct (squeeze_loop _ _ _ _ _ _) as [[? ?] ?]. reflexivity.
Qed.

Lemma sha3_after_squeeze : forall a m p x k, In a algs -> bytes m ->
  Z.of_nat (length m + length x) < 2 ^ 64 ->
  (0 < p mod a_r a)%nat -> (length m mod a_r a + length x < a_r a)%nat -> (k <= a_r a - p mod a_r a)%nat ->
  let c := snd (xof_read permB (keccak_absorb permB (keccak_init a) m) p) in
  fst (xof_read permB (keccak_absorb permB c x) k) =
  xorl (sponge keccak_f_bytes 200 (a_r a) (a_padding a) m p k)
    (slice (xor_at (xor_at (xor_at (zeros 200) (length m mod a_r a) x)
                      (length m mod a_r a + length x) [a_padding a]) (a_r a - 1) [128])
       (p mod a_r a) k).
Proof.
  intros a m p x k Ha Hm Hl Hp Hx Hk c. destruct (algs_ok a Ha) as (Hr & Hrw & Hpd & Hp2).
  pose proof permB_length_pres as HPL.
  pose proof (updates_inv_init a [m] Ha) as I. cbn [concat] in I. rewrite app_nil_r in I.
  specialize (I ltac:(lia)).
  change (keccak_updates permB (keccak_init a) [m]) with (keccak_absorb permB (keccak_init a) m) in I.
  destruct (absorb_fields permB (keccak_init a) m) as (F1 & F2 & F3 & F4 & F5).
  destruct (read_first permB 200 (a_r a) Hr _ m (a_padding a) p I) as [E1 E2]; auto.
  fold c in E2.
  pose proof (keccak_pad_length permB 200 (a_r a) Hr _ m (a_padding a) I F1 Hp2 HPL) as HL.
  rewrite (absorb_after_squeeze permB 200 (a_r a) Hr Hrw HPL _ p c x (length m) (a_padding a) k E2);
    auto.
  - f_equal. rewrite <- sponge_permB by auto. unfold sponge.
    rewrite (keccak_pad_ok permB 200 (a_r a) Hr _ m (a_padding a)) by auto. reflexivity.
  - unfold c. rewrite read_msglen. apply (inv_len _ _ _ _ _ I).
  - unfold c. rewrite sinv_fields. exact F1.
Qed.

Lemma xof_streaming : forall ms n, Forall bytes ms -> Z.of_nat (length (concat ms)) < 2 ^ 64 ->
  fst (xof_read permB (keccak_updates permB (keccak_init alg_shake128) ms) n) = SHAKE128 (concat ms) n /\
  fst (xof_read permB (keccak_updates permB (keccak_init alg_shake256) ms) n) = SHAKE256 (concat ms) n /\
  fst (xof_read permB (keccak_updates permB (keccak_init alg_cshake128) ms) n) = keccak_c 32 4 (concat ms) 0 n /\
  fst (xof_read permB (keccak_updates permB (keccak_init alg_cshake256) ms) n) = keccak_c 64 4 (concat ms) 0 n.
Proof.
  intros ms n Hb Hl.
  assert (H : forall a, In a algs -> fst (xof_read permB (keccak_updates permB (keccak_init a) ms) n) =
    sponge keccak_f_bytes 200 (a_r a) (a_padding a) (concat ms) 0 n).
  { intros a Ha. destruct (sha3_family_reads a ms [n] Ha Hb Hl) as [E _].
    cbn [xof_reads] in E. destruct (xof_read _ _ n) as [o c1]. cbn in E |- *.
    rewrite app_nil_r, Nat.add_0_r in E. exact E. }
  repeat split; (rewrite H by (cbn; intuition congruence); reflexivity).
Qed.

Lemma c08_witness : exists m p k, forall x, length x = 100%nat -> bytes x ->
  let c := snd (xof_read permB (keccak_absorb permB (keccak_init alg_shake256) m) p) in
  fst (xof_read permB (keccak_absorb permB c x) k) =
  xorl (keccak_c 64 31 m p k) (slice x 1 k) /\ k = 99%nat.
Proof.
  exists [], 1%nat, 99%nat. intros x Hx Hb c. split; [|reflexivity].
  pose proof (sha3_after_squeeze alg_shake256 [] 1 x 99) as H. cbn zeta in H. fold c in H.
  change (a_r alg_shake256) with 136%nat in H. change (a_padding alg_shake256) with 31 in H.
  change (1 mod 136)%nat with 1%nat in H. change (length (@nil Z) mod 136)%nat with 0%nat in H.
  rewrite H; clear H; try (cbn [length]; rewrite ?Hx; lia).
  - unfold keccak_c. change (200 - 64)%nat with 136%nat. f_equal.
    cbn [Nat.add Nat.sub]. rewrite Hx.
    apply nth_ext0.
    + rewrite !length_slice; rewrite ?length_xor_at, ?length_zeros, ?Hx; lia.
    + intros i Hi. rewrite length_slice in Hi by (rewrite !length_xor_at, length_zeros; lia).
      rewrite !nth_slice by lia.
      rewrite !nth_xor_at by (rewrite ?length_xor_at, ?length_zeros; lia).
      replace (1 + i <? 135)%nat with true by (symmetry; apply Nat.ltb_lt; lia).
      replace (1 + i <? 100)%nat with true by (symmetry; apply Nat.ltb_lt; lia).
      replace (1 + i <? 0)%nat with false by (symmetry; apply Nat.ltb_ge; lia).
      rewrite nth_zeros, Nat.sub_0_r. apply Z.lxor_0_l.
  - cbn; tauto.
  - constructor.
Qed.
